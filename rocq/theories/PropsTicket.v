(** * PropsTicket: C70, a receipt with pictures and barcodes, from the bytes to the dots. *)
From Verif Require Import Base Command CommandSet Parser Vec Float32 GTypes Graphics Utf8 Decoder Context Text Upce Handlers Renderer
  SpecStream StreamProofs ContextTheory RendererTheory Origin Told SpecPrinter StateTheory PropsText SpecRender SpecGraphics SpecSymbol
  PropsOutput LayoutTheory AreaTheory PlaceTheory PropsContext PropsLayout PropsPlace SafeTheory PenTheory CallsTheory SpecLines PropsLines
  ManualTheory PropsQr PropsDecoder ThermalImage SpecCanvas ImageRenderer SpecImage ImageTheory PropsImage SpecDraw DrawTheory SpecSafe PropsSafe PropsDraw
  PropsCells SpecScene GlyphTheory PixelTheory SceneTheory PropsScene SpecPlain PlainTheory PlainRun PlainJob PropsPlain SpecReceipt ReceiptRun PropsReceipt SpecSlip SlipRun PropsSlip
  SpecBarcode PropsBarcode SpecTicket TicketRun.
From Verif Require PropsThermal.
Local Open Scope Z_scope.
Local Open Scope list_scope.
Local Arguments at_ : simpl never.
Local Arguments vlen : simpl never.
Local Opaque rctx spj sp.

(** ** The dots *)
Definition black : rgba := mk_rgba 0 0 0 255.
Definition paint2 (fo : fonts) (p : picture) (t : tick) : picture :=
  match t with inl t => paint fo p t | inr rects => fold_left (fun p r => rule (r_x r) (r_y r) (r_w r) (r_h r) black p) rects p end.
Lemma scene_ticks fo b new : drawn_ticks b new -> forall p, scene fo 609 new p = fold_left (paint2 fo) (ticks_of new) p.
Proof.
  induction 1 as [|[x ev] new (SL & _) F IH]; intros p; [reflexivity|]. unfold scene. cbn [fold_left]. fold (scene fo 609 new (sketch fo 609 (x, ev) p)). rewrite IH. unfold ticks_of. cbn [flat_map snd]. rewrite fold_left_app. f_equal.
  destruct SL as [S|[(T & Fr & P)|[(I & P)|(G & Co & P)]]].
  - unfold still in S. cbn [snd] in S. unfold sketch. cbn [fst snd]. destruct ev; try contradiction; destruct (p_enabled (c_page x)); reflexivity.
  - unfold sketch. cbn [fst snd] in *. rewrite P. unfold is_text_call, framed_call in *. cbn [fst snd] in *. destruct ev; try contradiction.
    destruct spans as [|f l]; [contradiction|]. destruct Fr as (_ & -> & _). reflexivity.
  - unfold sketch. cbn [fst snd] in *. rewrite P. destruct ev; try contradiction. rewrite I. reflexivity.
  - unfold sketch. cbn [fst snd] in *. rewrite P. destruct ev; try contradiction. rewrite Co. reflexivity.
Qed.
Lemma paint_things fo l : forall p, fold_left (paint2 fo) (map inl l) p = fold_left (paint fo) l p.
Proof. induction l as [|x l IH]; intros p; [reflexivity|]. cbn [map fold_left]. rewrite IH. reflexivity. Qed.
Lemma bars_paint h X Y : forall ms x y p, fold_left (fun p r => rule (r_x r) (r_y r) (r_w r) (r_h r) black p) (bars x y 3 h ms) p X Y =
  if (0 <=? X - x) && (X - x <? symbol_width ms) && (y <=? Y) && (Y <? y + h) && (0 <? nth (Z.to_nat ((X - x) / 3)) ms 0) then press (p X Y) black else p X Y.
Proof.
  unfold symbol_width. induction ms as [|m ms IH]; intros x y p; cbn [bars].
  - cbn [fold_left]. destruct (Z.leb_spec 0 (X - x)), (Z.ltb_spec (X - x) (3 * Z.of_nat (length (@nil Z)))); try reflexivity. cbn in *. lia.
  - rewrite fold_left_app, IH. cbn [length]. rewrite Nat2Z.inj_succ.
    set (p' := fold_left _ (if 0 <? m then _ else _) p).
    assert (P' : p' X Y = if (0 <=? X - x) && (X - x <? 3) && (y <=? Y) && (Y <? y + h) && (0 <? m) then press (p X Y) black else p X Y).
    { unfold p'. destruct (0 <? m); cbn [fold_left]; [|rewrite andb_false_r; reflexivity]. cbn [r_x r_y r_w r_h]. unfold rule, covers. rewrite andb_true_r.
      replace ((x <=? X) && (X <? x + 3)) with ((0 <=? X - x) && (X - x <? 3)) by lia. reflexivity. }
    rewrite P'. clearbody p'. clear P' IH. destruct (Z.ltb_spec (X - x) 0) as [N|N].
    { replace (0 <=? X - (x + 3)) with false by lia. replace (0 <=? X - x) with false by lia. reflexivity. }
    replace (0 <=? X - x) with true by lia. cbn [andb]. destruct (Z.ltb_spec (X - x) 3) as [L|L].
    + replace (0 <=? X - (x + 3)) with false by lia. cbn [andb]. replace (X - x <? 3 * Z.succ (Z.of_nat (length ms))) with true by lia. rewrite Z.div_small by lia. reflexivity.
    + replace (0 <=? X - (x + 3)) with true by lia. cbn [andb]. replace (X - (x + 3) <? 3 * Z.of_nat (length ms)) with (X - x <? 3 * Z.succ (Z.of_nat (length ms))) by lia.
      replace (Z.to_nat ((X - x) / 3)) with (S (Z.to_nat ((X - (x + 3)) / 3))); [reflexivity|].
      replace (X - x) with (X - (x + 3) + 1 * 3) by lia. rewrite Z.div_add by lia. pose proof (Z.div_pos (X - (x + 3)) 3 ltac:(lia) ltac:(lia)). lia.
Qed.
(** The colour of a dot whose colour was [b]. *)
Fixpoint ticket_ink (fo : fonts) (l : list entry) (b : rgba) (x y : Z) : rgba :=
  match l with
  | [] => b
  | q :: r =>
      if y <? entry_height q then
        match q with
        | Element q => slip_ink fo [q] b x y
        | Bars a m d ms =>
            let x := x - place a (symbol_width ms) in
            if (0 <=? x) && (x <? symbol_width ms) && (0 <=? y) && (0 <? nth (Z.to_nat (x / 3)) ms 0) then press b black else b
        end
      else ticket_ink fo r b x (y - entry_height q)
  end.
Lemma entry_some e q : entry_ok e q -> 0 <= entry_height q.
Proof. destruct q as [q|]; cbn [entry_ok entry_height]; [apply element_some | lia]. Qed.
Lemma ink_over fo e l b x y : Forall (entry_ok e) l -> y < 0 -> ticket_ink fo l b x y = b.
Proof.
  intros F H. destruct F as [|q r Q F]; cbn [ticket_ink]; [reflexivity|]. pose proof (entry_some e q Q). replace (y <? entry_height q) with true by lia.
  destruct q as [p|a m d ms]; [apply ink_above; [constructor; [exact Q | constructor] | exact H]|]. cbv zeta. replace (0 <=? y) with false by lia. rewrite andb_false_r. reflexivity.
Qed.
Lemma ticket_paint fo e l : Forall (entry_ok e) l -> forall y T p X Y, Forall2 fits_aim T (aims y l) ->
  fold_left (paint2 fo) T p X Y = ticket_ink fo l (p X Y) X (Y - y).
Proof.
  induction 1 as [|q r Q F IH]; intros y T p X Y M; cbn [aims] in M.
  - inversion M; subst. reflexivity.
  - apply Forall2_app_inv_r in M. destruct M as (T1 & T2 & M1 & M2 & ->). rewrite fold_left_app. pose proof (entry_some e q Q) as HS. cbn [ticket_ink].
    set (st := fold_left (paint2 fo) T1 p). rewrite (IH _ _ st X Y M2). replace (Y - (y + entry_height q)) with (Y - y - entry_height q) by lia.
    assert (ST : st X Y = if Y - y <? entry_height q then ticket_ink fo [q] (p X Y) X (Y - y) else p X Y).
    { destruct q as [pt|a m d ms].
      - destruct (fits_only _ _ M1) as (T' & -> & M'). unfold st. rewrite paint_things, (slip_paint fo [pt] (Forall_cons pt Q (Forall_nil _)) y T' p p X Y M') by reflexivity.
        cbn [ticket_ink slip_ink entry_height]. destruct (Y - y <? element_height pt); reflexivity.
      - inversion M1 as [|t ? T ? Mt Ms]; subst T1. inversion Ms. subst T. destruct t as [t|rects]; [contradiction|]. cbn [fits_aim] in Mt. subst rects.
        unfold st. cbn [fold_left paint2]. rewrite bars_paint. cbn [ticket_ink entry_height]. cbv zeta.
        destruct (Z.ltb_spec (Y - y) 40) as [L|L]; [|replace (Y <? y + 40) with false by lia; rewrite andb_false_r; reflexivity].
        replace (Y <? y + 40) with true by lia. rewrite andb_true_r. replace (y <=? Y) with (0 <=? Y - y) by lia. reflexivity. }
    clearbody st. rewrite ST. destruct (Z.ltb_spec (Y - y) (entry_height q)) as [L|L].
    + rewrite (ink_over fo e) by (assumption || lia). cbn [ticket_ink]. replace (Y - y <? entry_height q) with true by lia. reflexivity.
    + reflexivity.
Qed.

(** ** How far down they go *)
Definition tick_strokes (fo : fonts) (t : tick) : list stroke :=
  match t with inl t => thing_strokes fo t | inr rects => map (fun r => line_of (r_x r) (r_y r) (r_w r) (r_h r) black) rects end.
Lemma strokes_ticks fo b new : drawn_ticks b new -> flat_map (strokes fo) new = flat_map (tick_strokes fo) (ticks_of new).
Proof.
  induction 1 as [|[x ev] new (SL & _) F IH]; [reflexivity|]. unfold ticks_of. cbn [flat_map snd]. rewrite flat_map_app. fold (ticks_of new). rewrite IH. f_equal. destruct SL as [S|[(T & Fr & P)|[(I & P)|(G & Co & P)]]].
  - unfold still in S. cbn [snd] in S. unfold strokes. destruct ev; try contradiction; destruct (p_enabled (c_page x)); reflexivity.
  - unfold is_text_call, framed_call in *. cbn [fst snd] in *. unfold strokes. rewrite P. destruct ev; try contradiction.
    destruct spans as [|f l]; [contradiction|]. destruct Fr as (_ & -> & _). cbn [flat_map tick_strokes thing_strokes]. unfold line_strokes. cbn [flat_map fst snd]. rewrite !app_nil_r. reflexivity.
  - cbn [fst snd] in *. unfold strokes. rewrite P. destruct ev; try contradiction. rewrite I. reflexivity.
  - cbn [fst snd] in *. unfold strokes. rewrite P. destruct ev; try contradiction. rewrite Co. cbn [flat_map tick_strokes]. rewrite app_nil_r. reflexivity.
Qed.
Lemma ticket_height_some e l : Forall (entry_ok e) l -> 0 <= ticket_height l.
Proof. induction 1 as [|q r Q F IH]; cbn [ticket_height fold_right]; [lia|]. fold (ticket_height r). pose proof (entry_some e q Q). lia. Qed.
Lemma bars_low h : forall ms x y r, In r (bars x y 3 h ms) -> r_y r = y /\ r_h r = h.
Proof. induction ms as [|m ms IH]; intros x y r H; cbn [bars] in H; [contradiction|]. apply in_app_or in H. destruct H as [H|H]; [|exact (IH _ _ _ H)]. destruct (0 <? m); [|contradiction]. destruct H as [<-|[]]. auto. Qed.
Lemma ticket_low fo e l : Forall (entry_ok e) l -> forall y T k, 0 <= y -> Forall2 fits_aim T (aims y l) -> In k (flat_map (tick_strokes fo) T) -> bottom 609 k <= y + ticket_height l.
Proof.
  induction 1 as [|q r Q F IH]; intros y T k Y M H; cbn [aims] in M.
  - inversion M; subst. contradiction.
  - apply Forall2_app_inv_r in M. destruct M as (T1 & T2 & M1 & M2 & ->). rewrite flat_map_app in H. pose proof (entry_some e q Q) as HS. pose proof (ticket_height_some e r F) as HR.
    cbn [ticket_height fold_right]. fold (ticket_height r). apply in_app_or in H. destruct H as [H|H]; [|pose proof (IH (y + entry_height q) T2 k ltac:(lia) M2 H); lia].
    destruct q as [pt|a m d ms].
    + destruct (fits_only _ _ M1) as (T' & -> & M'). assert (H' : In k (flat_map (thing_strokes fo) T')). { rewrite flat_map_concat_map, map_map in H. rewrite flat_map_concat_map. exact H. }
      pose proof (slip_low fo [pt] (Forall_cons pt Q (Forall_nil _)) y T' k Y M' H') as B. cbn [slip_height fold_right] in B. cbn [entry_height]. lia.
    + inversion M1 as [|t ? T ? Mt Ms]; subst T1. inversion Ms. subst T. destruct t as [t|rects]; [contradiction|]. cbn [fits_aim] in Mt. subst rects.
      cbn [flat_map tick_strokes] in H. rewrite app_nil_r in H. apply in_map_iff in H. destruct H as (b & <- & H). destruct (bars_low _ _ _ _ _ H) as (-> & ->). unfold line_of. cbn [bottom entry_height] in *. destruct (_ <? _); lia.
Qed.
Lemma ticket_is_bytes e l : Forall (entry_ok e) l -> bytes_ok (ticket_bytes l) = true.
Proof.
  intros F. unfold bytes_ok. rewrite forallb_forall. intros b Hb. unfold ticket_bytes in Hb. apply in_flat_map in Hb. destruct Hb as (q & Hq & Hb).
  pose proof (proj1 (Forall_forall _ _) F _ Hq) as Q. destruct q as [p|a m d ms]; cbn [entry_bytes entry_ok] in *.
  - pose proof (slip_is_bytes [p] (Forall_cons p Q (Forall_nil _))) as B. unfold bytes_ok, slip_bytes in B. cbn [flat_map] in B. rewrite app_nil_r in B. rewrite forallb_forall in B. exact (B _ Hb).
  - destruct Q as (Ha & Hm & Hd & _ & (t & k & u & _ & T & _) & _). pose proof (takes_short _ _ T) as S. unfold vlen in S. unfold is_byte. apply in_app_or in Hb. destruct Hb as [Hb|Hb]; [|pose proof (proj1 (Forall_forall _ _) Hd _ Hb) as D; cbv beta in D; lia].
    cbn [In] in Hb. lia.
Qed.
Lemma ticket_dots fo l x y : fonts_fine fo -> rgb_of (ticket_ink fo l white x y) = (let v := 255 - ticket_dot fo l x y in (v, v, v)).
Proof.
  intros FF. revert y. induction l as [|q r IH]; intros y; cbn [ticket_ink ticket_dot]; [reflexivity|]. destruct (y <? entry_height q); [|apply IH]. destruct q as [p|a m d ms].
  - apply slip_dots, FF.
  - cbv zeta. destruct (_ && _); vm_compute; reflexivity.
Qed.
Lemma ticket_beside fo e l x y : Forall (entry_ok e) l -> x < 0 \/ 609 <= x -> ticket_dot fo l x y = 0.
Proof.
  intros F H. revert y. induction F as [|q r Q F IH]; intros y; cbn [ticket_dot]; [reflexivity|]. destruct (y <? entry_height q); [|apply IH]. destruct q as [p|a m d ms].
  - apply slip_beside; [constructor; [exact Q | constructor] | exact H].
  - cbv zeta. cbn [entry_ok] in Q. destruct Q as (_ & _ & _ & W & _). assert (W0 : 0 <= symbol_width ms) by (unfold symbol_width; lia). destruct (place_inside a (symbol_width ms) ltac:(lia)) as (P1 & P2).
    destruct (Z.leb_spec 0 (x - place a (symbol_width ms))), (Z.ltb_spec (x - place a (symbol_width ms)) (symbol_width ms)); try reflexivity. lia.
Qed.
(** *** C70: text, feeds, cuts, pictures and barcodes. *)
Theorem C70_ticket : forall fo e l im, fonts_fine fo -> Forall (entry_ok e) l -> render_images fo e (ticket_bytes l) = Ok im ->
  exists r, im_out im = [r] /\ r_width r = 649 /\ r_height r = 108 + ticket_height l /\
    forall X Y, 0 <= X < 649 -> 0 <= Y < r_height r -> rgb_at r X Y = let v := 255 - ticket_dot fo l (X - 20) (Y - 108) in (v, v, v).
Proof.
  intros fo e l im FF OK E. pose proof (ticket_is_bytes e l OK) as B.
  assert (R : exists s, render e (ticket_bytes l) renderer_new = Ok s). { unfold render_images in E. apply bind_ok in E. destruct E as (s & R & _). eauto. }
  destruct R as (s & R). destruct (ticket_calls e l s B OK R) as (x0 & x1 & x & new & Ec & D & _ & _ & _ & HH & L & AY).
  set (bs := ticket_bytes l) in *. clearbody bs.
  set (calls := [(x0, EDevice BeginPrint); (x1, EBeginRender)] ++ new ++ [(x, EDevice EndPrint); (x, EGetErrors)]).
  assert (Ec' : rs_calls s = calls ++ (x, EEndRender) :: []) by (rewrite Ec; unfold calls; rewrite <- !app_assoc; reflexivity).
  assert (O : Forall (fun c => snd c <> EEndRender /\ snd c <> ERenderPage) calls).
  { unfold calls. constructor; [split; discriminate|]. constructor; [split; discriminate|]. apply Forall_app. split.
    - eapply Forall_impl; [|exact D]. cbv beta. intros [y ev] (Hs & _). unfold still, lined, is_text_call, imaged, ruled_call in Hs. cbn [fst snd] in *. destruct ev; try (split; discriminate); destruct Hs as [[]|[([] & _)|[([] & _)|([] & _)]]].
    - constructor; [split; discriminate|]. constructor; [split; discriminate | constructor]. }
  destruct (C40_first_image fo e bs s im calls x [] B R E Ec' O) as (r & la & A1 & A2 & A3 & _).
  destruct (C60_first_image fo e bs s im calls x [] FF B R E Ec' O) as (r' & la' & B1 & _ & _ & B4).
  assert (Er : r' = r) by congruence. subst r'.
  exists r. split.
  { assert (One : length (im_out im) = 1%nat).
    { unfold render in R. apply bind_ok in R. destruct R as (cmds & Pc & R). destruct (C39_images fo e bs cmds im B Pc E) as (Len & _). rewrite Len. f_equal.
      destruct (C31_outputs e bs cmds renderer_new s B Pc R) as (l0 & N & C & _). pose proof (new_calls_all _ _ N) as M. rewrite <- M, <- ends_count, Ec' in C. rewrite ev_ends_app, (no_ends_count calls O) in C. change (ev_ends [(x, EEndRender)]) with 1%nat in C. change (p_enabled (c_page (rs_ctx renderer_new))) with false in C. lia. }
    rewrite A1 in *. destruct la; [reflexivity | discriminate]. }
  split; [exact A2|]. assert (SC : flat_map (strokes fo) calls = flat_map (strokes fo) new).
  { unfold calls. rewrite !flat_map_app. cbn [flat_map]. unfold strokes. destruct (p_enabled (c_page x0)), (p_enabled (c_page x1)), (p_enabled (c_page x)); rewrite ?app_nil_r; reflexivity. }
  split.
  { rewrite A3, AY. assert (Bt : bottoms 609 (flat_map (strokes fo) calls) 0 <= 108 + ticket_height l).
    { rewrite SC, (strokes_ticks fo _ new D). apply bottoms_low; [lia|]. intros k Hk. exact (ticket_low fo e l OK 108 _ k ltac:(lia) L Hk). }
    lia. }
  intros X Y HX HY. rewrite (B4 X Y HX HY). destruct ((20 <=? X) && (X <? 629)) eqn:IN.
  - assert (SS : scene fo 609 calls blank_sheet (X - 20) Y = scene fo 609 new blank_sheet (X - 20) Y).
    { unfold calls, scene. rewrite !fold_left_app. cbn [fold_left]. unfold sketch. cbn [fst snd]. destruct (p_enabled (c_page x0)), (p_enabled (c_page x1)), (p_enabled (c_page x)); reflexivity. }
    rewrite SS, (scene_ticks fo _ new D), (ticket_paint fo e l OK 108 _ blank_sheet _ _ L). apply ticket_dots, FF.
  - rewrite (ticket_beside fo e l) by (assumption || lia). reflexivity.
Qed.

(** ** Such a receipt does become an image, if it is not too long. *)
Definition ticket_seen (o : ocmd) : Prop := slip_seen o \/ exists m d, o = o_bars m d /\ 65 <= m /\ (m = 67 -> Forall (fun b => b < 128) d).
Lemma kind_67 m : is_byte m = true -> barcode_kind m = Ean13 -> m = 67 \/ m = 2.
Proof.
  intros B K. pose proof (PropsThermal.per_byte (fun b => match barcode_kind b with Ean13 => (b =? 67) || (b =? 2) | _ => true end) ltac:(vm_compute; reflexivity) m B) as Q. cbv beta in Q. rewrite K in Q. lia.
Qed.
Lemma ticket_gentle c : sent c -> ticket_seen (observe c) -> gentle true c.
Proof.
  intros Sc [O|(m & d & O & M2 & A)]; [exact (slip_gentle c Sc O)|].
  pose proof (f_equal o_prefix O) as C. pose proof (f_equal o_data O) as D. pose proof (f_equal o_bytes O) as G. cbn in C, D, G.
  destruct (barcode_sent c m [zlen d] d Sc C G) as (n & Hh & B). unfold gentle. rewrite Hh. cbn [barcode_told bc_kind]. intros K.
  destruct (kind_67 m B K) as [E|E]; [|lia]. rewrite D. specialize (A E). unfold get_or.
  assert (H : nth 12 d 0 < 128). { destruct (Nat.ltb_spec 12 (length d)) as [L|L]; [exact (proj1 (Forall_forall _ _) A _ (nth_In d 0 L)) | rewrite nth_overflow by lia; lia]. }
  unfold is_cont. replace (128 <=? nth 12 d 0) with false by lia. reflexivity.
Qed.
Lemma entries_seen e l : Forall (entry_ok e) l -> Forall ticket_seen (flat_map entry_seen l).
Proof.
  intros F. apply Forall_forall. intros o Ho. apply in_flat_map in Ho. destruct Ho as (q & Hq & Ho). pose proof (proj1 (Forall_forall _ _) F _ Hq) as Q. destruct q as [p|a m d ms]; cbn [entry_seen] in Ho.
  - left. pose proof (elements_seen [p] (Forall_cons p Q (Forall_nil _))) as PS. cbn [flat_map] in PS. rewrite app_nil_r in PS. exact (proj1 (Forall_forall _ _) PS _ Ho).
  - destruct Ho as [<-|[<-|[]]]; [left; left; right; left; reflexivity|]. right. exists m, d. split; [reflexivity|]. cbn [entry_ok] in Q. split; [lia | apply Q].
Qed.
Lemma papers_ticket e l : Forall (entry_ok e) l -> papers_seen (flat_map entry_seen l) <= 265025 * Z.of_nat (length l).
Proof.
  induction 1 as [|q r Q F IH]; cbn [flat_map length]; [cbn; lia|]. rewrite papers_app. assert (H : papers_seen (entry_seen q) <= 265025); [|lia]. destruct q as [p|a m d ms]; [|vm_compute; congruence].
  pose proof (papers_slip [p] (Forall_cons p Q (Forall_nil _))) as PP. cbn [flat_map length] in PP. rewrite app_nil_r in PP. cbn [entry_seen]. lia.
Qed.
Theorem C70_prints : forall fo e l, fonts_fine fo -> encoders_ok e -> Forall (entry_ok e) l -> Z.of_nat (length l) <= 16000 -> 108 + ticket_height l <= longest_paper ->
  exists im, render_images fo e (ticket_bytes l) = Ok im.
Proof.
  intros fo e l FF Ee OK L H. pose proof (ticket_is_bytes e l OK) as B. destruct (ticket_parse e l OK) as (cmds & P & O).
  destruct (C59_image fo e true (ticket_bytes l) cmds Ee (fonts_fine_ok _ FF) B P) as (s & R & W).
  - assert (G : Forall ticket_seen (map observe cmds)).
    { rewrite O. constructor; [left; left; left; left; reflexivity|]. apply Forall_app. split; [exact (entries_seen e l OK)|]. constructor; [left; left; left; right; left; reflexivity | constructor]. }
    pose proof (parsed_sent _ _ B P) as Sc. apply Forall_forall. intros c Hc. apply ticket_gentle; [exact (proj1 (Forall_forall _ _) Sc _ Hc)|]. exact (proj1 (Forall_forall _ _) G _ (in_map observe _ _ Hc)).
  - rewrite papers_of, O, !papers_app. pose proof (papers_ticket e l OK) as PL. change (papers_seen [o_begin]) with 65025. change (papers_seen [o_end]) with 65025. unfold u32_max. lia.
  - apply W. destruct (ticket_calls e l s B OK R) as (x0 & x1 & x & new & Ec & D & Y0 & Y1 & Y & HH & _). unfold within_paper. rewrite Ec.
    constructor; [cbn [fst]; lia|]. constructor; [cbn [fst]; lia|]. apply Forall_app. split; [|repeat constructor; cbn [fst]; lia].
    eapply Forall_impl; [|exact D]. cbv beta. intros c (_ & Hc). lia.
Qed.

(** A centred line, a barcode of three modules in the middle, a picture, the same barcode at the right edge, a cut. *)
Definition ticket : list entry :=
  [Element (Part (Line 0 1 [65; 66])); Bars 1 69 [65; 49] [1; 0; 1]; Element (Picture 0 0 1 2 [129; 1]); Bars 50 69 [65; 49] [1; 0; 1]; Element (Part (CutFeed 66 5))].
Definition ticket_encoders : encoders :=
  mk_encoders (fun _ => None) (fun _ => None) (fun l => if list_eq_dec Z.eq_dec l [65; 49] then Some [1; 0; 1] else None) (fun _ => None) (fun _ => None) (fun _ => None) (fun _ => None) (fun _ => None) (fun _ _ _ _ => None).
Lemma ticket_symbol : exists text, barcode ticket_encoders 69 [65; 49] [1; 0; 1] text.
Proof.
  exists [65; 49]. exists CODE_39, [65; 49]. split; [reflexivity|]. split; [vm_compute; split; discriminate|]. split; [reflexivity|]. split; [discriminate|]. split; reflexivity.
Qed.
Example C70_demo : Forall (entry_ok ticket_encoders) ticket /\ ticket_height ticket = 24 + 40 + 2 + 40 + 53 /\
  map (fun x => ticket_dot eight_dots ticket x 24) [299; 300; 302; 303; 305; 306; 308; 309] = [0; 255; 255; 0; 0; 255; 255; 0] /\
  map (fun x => ticket_dot eight_dots ticket x 63) [299; 300; 302; 303; 305; 306; 308; 309] = [0; 255; 255; 0; 0; 255; 255; 0] /\
  map (fun x => ticket_dot eight_dots ticket x 64) [0; 1; 6; 7; 300] = [255; 0; 0; 255; 0] /\
  map (fun x => ticket_dot eight_dots ticket x 66) [599; 600; 602; 603; 605; 606; 608; 609] = [0; 255; 255; 0; 0; 255; 255; 0].
Proof.
  split.
  { unfold ticket. repeat apply Forall_cons; try apply Forall_nil; cbn [entry_ok element_ok]; unfold part_ok, printable, dot_width, symbol_width; cbn; repeat split; try lia; try (repeat (apply Forall_cons; [lia|]); apply Forall_nil); apply ticket_symbol. }
  vm_compute. repeat split; reflexivity.
Qed.
Lemma ticket_encoders_ok : encoders_ok ticket_encoders.
Proof. constructor; intros; cbn; repeat split; try exact Logic.I; try discriminate; destruct (list_eq_dec _ _ _); cbn; unfold short; try exact Logic.I; vm_compute; intuition discriminate. Qed.
Example C70_demo_prints : exists im r, render_images eight_dots ticket_encoders (ticket_bytes ticket) = Ok im /\ im_out im = [r] /\ r_width r = 649 /\ r_height r = 267.
Proof.
  destruct C70_demo as (FP & HT & D). destruct (C70_prints eight_dots ticket_encoders ticket eight_fine ticket_encoders_ok FP) as (im & E); [vm_compute; congruence | rewrite HT; vm_compute; congruence|].
  destruct (C70_ticket eight_dots ticket_encoders ticket im eight_fine FP E) as (r & A1 & A2 & A3 & A4). exists im, r. rewrite HT in A3. auto.
Qed.
