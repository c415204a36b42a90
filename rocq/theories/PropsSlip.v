(** * PropsSlip: C68, a receipt with pictures, from the bytes to the dots. *)
From Verif Require Import Base Command CommandSet Parser Vec Float32 GTypes Graphics Utf8 Decoder Context Text Upce Handlers Renderer
  SpecStream StreamProofs ContextTheory RendererTheory Origin Told SpecPrinter StateTheory PropsText SpecRender SpecGraphics SpecSymbol
  PropsOutput LayoutTheory AreaTheory PlaceTheory PropsContext PropsLayout PropsPlace SafeTheory PenTheory CallsTheory SpecLines PropsLines
  ManualTheory PropsQr PropsDecoder ThermalImage SpecCanvas ImageRenderer SpecImage ImageTheory PropsImage SpecDraw DrawTheory SpecSafe PropsSafe PropsDraw
  PropsCells SpecScene GlyphTheory PixelTheory SceneTheory PropsScene SpecPlain PlainTheory PlainRun PlainJob PropsPlain SpecReceipt ReceiptRun PropsReceipt SpecSlip SlipRun.
Local Open Scope Z_scope.
Local Open Scope list_scope.
Local Arguments at_ : simpl never.
Local Arguments vlen : simpl never.
Local Opaque rctx spj sp.

(** ** The dots *)
Definition paint (fo : fonts) (p : picture) (t : thing) : picture :=
  match t with inl ln => sheet_lines fo [ln] p | inr i => picture_at (i_x i) (i_y i) (i_w i) (i_h i) (i_pixels i) p end.
Lemma scene_things fo b new : drawn_things b new -> forall p, scene fo 609 new p = fold_left (paint fo) (things_of new) p.
Proof.
  induction 1 as [|[x ev] new (SL & _) F IH]; intros p; [reflexivity|]. unfold scene. cbn [fold_left]. fold (scene fo 609 new (sketch fo 609 (x, ev) p)). rewrite IH. unfold things_of. cbn [flat_map snd]. rewrite fold_left_app. f_equal.
  destruct SL as [S|[(T & Fr & P)|(I & P)]].
  - unfold still in S. cbn [snd] in S. unfold sketch. cbn [fst snd]. destruct ev; try contradiction; destruct (p_enabled (c_page x)); reflexivity.
  - unfold sketch. cbn [fst snd] in *. rewrite P. unfold is_text_call, framed_call in *. cbn [fst snd] in *. destruct ev; try contradiction.
    destruct spans as [|f l]; [contradiction|]. destruct Fr as (_ & -> & _). reflexivity.
  - unfold sketch. cbn [fst snd] in *. rewrite P. destruct ev; try contradiction. rewrite I. reflexivity.
Qed.
Lemma paint_lines fo l : forall p, fold_left (paint fo) (map inl l) p = sheet_lines fo l p.
Proof. induction l as [|x l IH]; intros p; [reflexivity|]. cbn [map fold_left]. rewrite IH. change (x :: l) with ([x] ++ l). rewrite sheet_app. reflexivity. Qed.
(** The colour of a dot whose colour was [b]. *)
Fixpoint slip_ink (fo : fonts) (l : list element) (b : rgba) (x y : Z) : rgba :=
  match l with
  | [] => b
  | e :: r =>
      if y <? element_height e then
        match e with
        | Part p => match cell_at [p] x y with Some (n, c, i, j) => ink_of fo (sp n) b c i j | None => b end
        | Picture a m w h d =>
            let x := x - place a (8 * w * dot_width m) in
            if (0 <=? x) && (x <? 8 * w * dot_width m) && (0 <=? y) then press b (mk_rgba 0 0 0 (if bit_at d w (x / dot_width m) (y / dot_height m) then 255 else 0)) else b
        end
      else slip_ink fo r b x (y - element_height e)
  end.
Lemma at_any {A} (a b : A) l k : 0 <= k < vlen l -> at_ a l k = at_ b l k.
Proof. unfold vlen, at_. intros H. apply nth_indep. lia. Qed.
Lemma element_some q : element_ok q -> 0 <= element_height q.
Proof. destruct q as [p|a m w h d]; cbn [element_ok element_height]; [apply height_some|]. intros (_ & Hm & _ & _ & Hh & _). destruct (scale_is m Hm) as (_ & _ & _ & My). nia. Qed.
Lemma ink_above fo l b x y : Forall element_ok l -> y < 0 -> slip_ink fo l b x y = b.
Proof.
  intros F H. destruct F as [|q r Q F]; cbn [slip_ink]; [reflexivity|]. pose proof (element_some q Q). replace (y <? element_height q) with true by lia.
  destruct q as [p|a m w h d]; [rewrite cell_above; [reflexivity | constructor; [exact Q | constructor] | exact H]|]. cbv zeta. replace (0 <=? y) with false by lia. rewrite andb_false_r. reflexivity.
Qed.
Lemma slip_paint fo l : Forall element_ok l -> forall y T p p' X Y, Forall2 meets T (goals y l) -> (forall X Y, p X Y = p' X Y) ->
  fold_left (paint fo) T p X Y = slip_ink fo l (p' X Y) X (Y - y).
Proof.
  induction 1 as [|q r Q F IH]; intros y T p p' X Y M E; cbn [goals] in M.
  - inversion M; subst. apply E.
  - apply Forall2_app_inv_r in M. destruct M as (T1 & T2 & M1 & M2 & ->). rewrite fold_left_app. pose proof (element_some q Q) as HS. cbn [slip_ink].
    set (st := fold_left (paint fo) T1 p). rewrite (IH _ _ st st X Y M2) by reflexivity. replace (Y - (y + element_height q)) with (Y - y - element_height q) by lia.
    assert (ST : st X Y = if Y - y <? element_height q then slip_ink fo [q] (p' X Y) X (Y - y) else p' X Y).
    { destruct q as [pt|a m w h d].
      - assert (ET : T1 = map inl (put_parts y [pt])).
        { clear -M1. revert M1. generalize (put_parts y [pt]). intros g. revert T1. induction g as [|x g IH]; intros T1 M; inversion M as [|t ? T ? Mt Ms]; subst; [reflexivity|]. cbn [map]. rewrite <- (IH _ Ms). destruct t; [cbn in Mt; subst; reflexivity | contradiction]. }
        unfold st. rewrite ET, paint_lines. rewrite (parts_cell fo [pt]) with (p' := p'); [|constructor; [exact Q | constructor] | exact E]. cbn [slip_ink element_height].
        destruct (Z.ltb_spec (Y - y) (part_height pt)) as [L|L]; [reflexivity|]. cbn [cell_at]. replace (Y - y <? part_height pt) with false by lia. reflexivity.
      - inversion M1 as [|t ? T ? Mt Ms]; subst T1. inversion Ms. subst T. destruct t as [ln|i]; [contradiction|]. cbn [meets] in Mt. destruct Mt as (R & Iw & Ih & _ & Ix & Iy & Px).
        unfold st. cbn [fold_left paint]. unfold picture_at. cbn [slip_ink element_height]. unfold covers. rewrite Iw, Ih, Ix, Iy, E. set (PW := 8 * w * dot_width m) in *. set (o := place a PW). cbn [element_height] in HS.
        destruct (Z.ltb_spec (Y - y) (h * dot_height m)) as [L|L]; [|replace (Y <? y + h * dot_height m) with false by lia; rewrite andb_false_r; reflexivity]. cbv zeta.
        replace (Y <? y + h * dot_height m) with true by lia. rewrite andb_true_r. 
        replace ((o <=? X) && (X <? o + PW) && (y <=? Y)) with ((0 <=? X - o) && (X - o <? PW) && (0 <=? Y - y)) by lia.
        destruct ((0 <=? X - o) && (X - o <? PW) && (0 <=? Y - y)) eqn:IN; [|reflexivity]. f_equal. rewrite <- (Px (X - o) (Y - y)) by (rewrite ?Iw, ?Ih; lia). unfold block, px. rewrite Iw. apply at_any. destruct R as (R1 & R2 & R3). rewrite R3, Iw, Ih. nia. }
    clearbody st. rewrite ST. destruct (Z.ltb_spec (Y - y) (element_height q)) as [L|L].
    + rewrite ink_above by (assumption || lia). cbn [slip_ink]. replace (Y - y <? element_height q) with true by lia. reflexivity.
    + reflexivity.
Qed.

(** ** How far down they go *)
Definition thing_strokes (fo : fonts) (t : thing) : list stroke :=
  match t with inl ln => line_strokes fo [ln] | inr i => [Paint (i_x i) (i_y i) (i_w i) (i_h i) (i_pixels i)] end.
Lemma strokes_things fo b new : drawn_things b new -> flat_map (strokes fo) new = flat_map (thing_strokes fo) (things_of new).
Proof.
  induction 1 as [|[x ev] new (SL & _) F IH]; [reflexivity|]. unfold things_of. cbn [flat_map snd]. rewrite flat_map_app. fold (things_of new). rewrite IH. f_equal. destruct SL as [S|[(T & Fr & P)|(I & P)]].
  - unfold still in S. cbn [snd] in S. unfold strokes. destruct ev; try contradiction; destruct (p_enabled (c_page x)); reflexivity.
  - unfold is_text_call, framed_call in *. cbn [fst snd] in *. unfold strokes. rewrite P. destruct ev; try contradiction.
    destruct spans as [|f l]; [contradiction|]. destruct Fr as (_ & -> & _). cbn [flat_map thing_strokes]. unfold line_strokes. cbn [flat_map fst snd]. rewrite !app_nil_r. reflexivity.
  - cbn [fst snd] in *. unfold strokes. rewrite P. destruct ev; try contradiction. rewrite I. reflexivity.
Qed.
Lemma slip_height_some l : Forall element_ok l -> 0 <= slip_height l.
Proof. induction 1 as [|q r Q F IH]; cbn [slip_height fold_right]; [lia|]. fold (slip_height r). pose proof (element_some q Q). lia. Qed.
Lemma slip_low fo l : Forall element_ok l -> forall y T k, 0 <= y -> Forall2 meets T (goals y l) -> In k (flat_map (thing_strokes fo) T) -> bottom 609 k <= y + slip_height l.
Proof.
  induction 1 as [|q r Q F IH]; intros y T k Y M H; cbn [goals] in M.
  - inversion M; subst. contradiction.
  - apply Forall2_app_inv_r in M. destruct M as (T1 & T2 & M1 & M2 & ->). rewrite flat_map_app in H. pose proof (element_some q Q) as HS. pose proof (slip_height_some r F) as HR.
    cbn [slip_height fold_right]. fold (slip_height r). apply in_app_or in H. destruct H as [H|H]; [|pose proof (IH (y + element_height q) T2 k ltac:(lia) M2 H); lia].
    destruct q as [pt|a m w h d].
    + assert (LS : In k (line_strokes fo (put_parts y [pt]))).
      { revert H. clear -M1. revert M1. generalize (put_parts y [pt]). intros g. revert T1. induction g as [|x g IH]; intros T1 M; inversion M as [|t ? T ? Mt Ms]; subst; [intros []|]. cbn [flat_map]. intros H. change (line_strokes fo (x :: g)) with (line_strokes fo ([x] ++ g)).
        unfold line_strokes in *. rewrite flat_map_app. apply in_or_app. apply in_app_or in H. destruct H as [H|H]; [left; destruct t; [cbn in Mt; subst; exact H | contradiction] | right; exact (IH _ Ms H)]. }
      pose proof (parts_low fo [pt] (Forall_cons pt Q (Forall_nil _)) y k Y LS) as B. cbn [receipt_height fold_right] in B. cbn [element_height]. lia.
    + inversion M1 as [|t ? T ? Mt Ms]; subst T1. inversion Ms. subst T. destruct t as [ln|i]; [contradiction|]. cbn [meets] in Mt. destruct Mt as (R & Iw & Ih & _ & Ix & Iy & Px).
      cbn [flat_map thing_strokes app In] in H. destruct H as [<-|[]]. cbn [bottom]. rewrite Iy, Ih. cbn [element_height] in *. destruct (_ <? _); lia.
Qed.
Lemma slip_is_bytes l : Forall element_ok l -> bytes_ok (slip_bytes l) = true.
Proof.
  intros F. unfold bytes_ok. rewrite forallb_forall. intros b Hb. unfold slip_bytes in Hb. apply in_flat_map in Hb. destruct Hb as (q & Hq & Hb).
  pose proof (proj1 (Forall_forall _ _) F _ Hq) as Q. destruct q as [p|a m w h d]; cbn [element_bytes element_ok] in *.
  - pose proof (receipt_is_bytes [p] (Forall_cons p Q (Forall_nil _))) as B. unfold bytes_ok, receipt_bytes in B. cbn [flat_map] in B. rewrite app_nil_r in B. rewrite forallb_forall in B. exact (B _ Hb).
  - destruct Q as (Ha & Hm & W0 & W1 & Hh & Hd & _). unfold is_byte. apply in_app_or in Hb. destruct Hb as [Hb|Hb]; [|pose proof (proj1 (Forall_forall _ _) Hd _ Hb) as D; cbv beta in D; lia].
    destruct (scale_is m Hm) as (_ & _ & Mx & _). assert (W2 : w <= 76) by nia. clear W1 Mx Hd.
    assert (w mod 256 = w) by (apply Z.mod_small; lia). assert (w / 256 = 0) by (apply Z.div_small; lia). pose proof (Z.mod_pos_bound h 256 ltac:(lia)). assert (0 <= h / 256 <= 255) by (split; [apply Z.div_pos; lia | assert (h / 256 < 256) by (apply Z.div_lt_upper_bound; lia); lia]).
    cbn [In] in Hb, Hm. lia.
Qed.
Lemma slip_dots fo l x y : fonts_fine fo -> rgb_of (slip_ink fo l white x y) = (let v := 255 - slip_dot fo l x y in (v, v, v)).
Proof.
  intros FF. revert y. induction l as [|q r IH]; intros y; cbn [slip_ink slip_dot]; [reflexivity|]. destruct (y <? element_height q); [|apply IH]. destruct q as [p|a m w h d].
  - unfold receipt_dot. destruct (cell_at [p] x y) as [[[[n c] i] j]|]; [apply ink_black, FF | reflexivity].
  - cbv zeta. destruct ((0 <=? x - place a (8 * w * dot_width m)) && (x - place a (8 * w * dot_width m) <? 8 * w * dot_width m) && (0 <=? y)); cbn [andb]; [|reflexivity]. destruct (bit_at _ _ _ _); vm_compute; reflexivity.
Qed.
Lemma place_inside a w : 0 <= w <= 609 -> 0 <= place a w /\ place a w + w <= 609.
Proof.
  intros L. unfold place. pose proof (Z.div_mod (609 - w) 2 ltac:(lia)). pose proof (Z.mod_pos_bound (609 - w) 2 ltac:(lia)). destruct (_ || _); [lia|]. destruct (_ || _); lia.
Qed.
Lemma slip_beside fo l x y : Forall element_ok l -> x < 0 \/ 609 <= x -> slip_dot fo l x y = 0.
Proof.
  intros F H. revert y. induction F as [|q r Q F IH]; intros y; cbn [slip_dot]; [reflexivity|]. destruct (y <? element_height q); [|apply IH]. destruct q as [p|a m w h d].
  - unfold receipt_dot. rewrite (cell_beside [p] (Forall_cons p Q (Forall_nil _)) x y H). reflexivity.
  - cbv zeta. cbn [element_ok] in Q. destruct Q as (_ & Hm & W0 & W1 & _). destruct (scale_is m Hm) as (_ & _ & Mx & _). destruct (place_inside a (8 * w * dot_width m) ltac:(nia)) as (P1 & P2).
    set (W := 8 * w * dot_width m) in *. clearbody W. destruct (Z.leb_spec 0 (x - place a W)), (Z.ltb_spec (x - place a W) W); try reflexivity. lia.
Qed.
(** *** C68: text, feeds, cuts and pictures. *)
Theorem C68_slip : forall fo e l im, fonts_fine fo -> Forall element_ok l -> render_images fo e (slip_bytes l) = Ok im ->
  exists r, im_out im = [r] /\ r_width r = 649 /\ r_height r = 108 + slip_height l /\
    forall X Y, 0 <= X < 649 -> 0 <= Y < r_height r -> rgb_at r X Y = let v := 255 - slip_dot fo l (X - 20) (Y - 108) in (v, v, v).
Proof.
  intros fo e l im FF OK E. pose proof (slip_is_bytes l OK) as B.
  assert (R : exists s, render e (slip_bytes l) renderer_new = Ok s). { unfold render_images in E. apply bind_ok in E. destruct E as (s & R & _). eauto. }
  destruct R as (s & R). destruct (slip_calls e l s B OK R) as (x0 & x1 & x & new & Ec & D & _ & _ & _ & HH & L & AY).
  set (bs := slip_bytes l) in *. clearbody bs.
  set (calls := [(x0, EDevice BeginPrint); (x1, EBeginRender)] ++ new ++ [(x, EDevice EndPrint); (x, EGetErrors)]).
  assert (Ec' : rs_calls s = calls ++ (x, EEndRender) :: []) by (rewrite Ec; unfold calls; rewrite <- !app_assoc; reflexivity).
  assert (O : Forall (fun c => snd c <> EEndRender /\ snd c <> ERenderPage) calls).
  { unfold calls. constructor; [split; discriminate|]. constructor; [split; discriminate|]. apply Forall_app. split.
    - eapply Forall_impl; [|exact D]. cbv beta. intros [y ev] (Hs & _). unfold still, lined, is_text_call, imaged in Hs. cbn [fst snd] in *. destruct ev; try (split; discriminate); destruct Hs as [[]|[([] & _)|([] & _)]].
    - constructor; [split; discriminate|]. constructor; [split; discriminate | constructor]. }
  destruct (C40_first_image fo e bs s im calls x [] B R E Ec' O) as (r & la & A1 & A2 & A3 & _).
  destruct (C60_first_image fo e bs s im calls x [] FF B R E Ec' O) as (r' & la' & B1 & _ & _ & B4).
  assert (Er : r' = r) by congruence. subst r'.
  exists r. split.
  { assert (One : length (im_out im) = 1%nat).
    { unfold render in R. apply bind_ok in R. destruct R as (cmds & Pc & R). destruct (C39_images fo e bs cmds im B Pc E) as (Len & _). rewrite Len. f_equal.
      destruct (C31_outputs e bs cmds renderer_new s B Pc R) as (l0 & N & C & _). pose proof (new_calls_all _ _ N) as M. rewrite <- M, <- ends_count, Ec' in C. rewrite ev_ends_app, (no_ends_count calls O) in C. change (ev_ends [(x, EEndRender)]) with 1%nat in C. change (p_enabled (c_page (rs_ctx renderer_new))) with false in C. lia. }
    rewrite A1 in *. destruct la; [reflexivity | discriminate]. }
  split; [exact A2|]. assert (SC : flat_map (strokes fo) calls = flat_map (strokes fo) new).
  { unfold calls. rewrite !flat_map_app. cbn [flat_map]. unfold strokes. destruct (p_enabled (c_page x0)), (p_enabled (c_page x1)), (p_enabled (c_page x)); rewrite ?app_nil_r; reflexivity. }
  split.
  { rewrite A3, AY. assert (Bt : bottoms 609 (flat_map (strokes fo) calls) 0 <= 108 + slip_height l).
    { rewrite SC, (strokes_things fo _ new D). apply bottoms_low; [lia|]. intros k Hk. exact (slip_low fo l OK 108 _ k ltac:(lia) L Hk). }
    lia. }
  intros X Y HX HY. rewrite (B4 X Y HX HY). destruct ((20 <=? X) && (X <? 629)) eqn:IN.
  - assert (SS : scene fo 609 calls blank_sheet (X - 20) Y = scene fo 609 new blank_sheet (X - 20) Y).
    { unfold calls, scene. rewrite !fold_left_app. cbn [fold_left]. unfold sketch. cbn [fst snd]. destruct (p_enabled (c_page x0)), (p_enabled (c_page x1)), (p_enabled (c_page x)); reflexivity. }
    rewrite SS, (scene_things fo _ new D), (slip_paint fo l OK 108 _ blank_sheet blank_sheet _ _ L) by reflexivity. apply slip_dots, FF.
  - rewrite (slip_beside fo l) by (assumption || lia). reflexivity.
Qed.

(** ** Such a receipt does become an image, if it is not too long. *)
Definition slip_seen (o : ocmd) : Prop := receipt_seen o \/ exists m w h d, o = o_raster m w h d /\ element_ok (Picture 0 m w h d).
Lemma slip_gentle c : sent c -> slip_seen (observe c) -> gentle true c.
Proof.
  intros Sc [O|(m & w & h & d & O & OK)]; [exact (receipt_gentle c Sc O)|].
  pose proof (f_equal o_prefix O) as C. pose proof (f_equal o_data O) as D. pose proof (f_equal o_bytes O) as G. cbn in C, D, G. rewrite <- D in G.
  destruct (raster_sent _ _ _ _ _ _ Sc C G) as (Hh & _). unfold gentle. rewrite Hh. cbn [raster_told ra_width ra_height ra_scaling].
  destruct OK as (_ & Hm & W0 & W1 & Hr & _). destruct (scale_is m Hm) as (_ & St & Mx & My). rewrite St. cbn [fst snd].
  assert (W2 : w <= 76) by nia. assert (Ew : w mod 256 + w / 256 * 256 = w) by (pose proof (Z.div_mod w 256 ltac:(lia)); lia). assert (Eh : h mod 256 + h / 256 * 256 = h) by (pose proof (Z.div_mod h 256 ltac:(lia)); lia).
  rewrite Ew, Eh. unfold small_image, u32_max. rewrite !Z.max_l by lia. clear -W0 W1 Hr Mx My. set (a := w * 8 * dot_width m). set (b := h * dot_height m). assert (0 <= a <= 609) by (unfold a; nia). assert (0 <= b <= 131070) by (unfold b; nia). clearbody a b. nia.
Qed.
Lemma elements_seen l : Forall element_ok l -> Forall slip_seen (flat_map element_seen l).
Proof.
  intros F. apply Forall_forall. intros o Ho. apply in_flat_map in Ho. destruct Ho as (q & Hq & Ho). pose proof (proj1 (Forall_forall _ _) F _ Hq) as Q. destruct q as [p|a m w h d]; cbn [element_seen] in Ho.
  - left. pose proof (parts_seen [p]) as PS. cbn [flat_map] in PS. rewrite app_nil_r in PS. exact (proj1 (Forall_forall _ _) PS _ Ho).
  - destruct Ho as [<-|[<-|[]]]; [left; right; left; reflexivity|]. right. exists m, w, h, d. split; [reflexivity|]. cbn [element_ok] in *. split; [lia | apply Q].
Qed.
Lemma papers_slip l : Forall element_ok l -> papers_seen (flat_map element_seen l) <= 265025 * Z.of_nat (length l).
Proof.
  induction 1 as [|q r Q F IH]; cbn [flat_map length]; [cbn; lia|]. rewrite papers_app. assert (H : papers_seen (element_seen q) <= 265025); [|lia]. destruct q as [p|a m w h d]; [|vm_compute; congruence].
  pose proof (papers_parts [p] (Forall_cons p Q (Forall_nil _))) as PP. cbn [flat_map length] in PP. rewrite app_nil_r in PP. cbn [element_seen]. lia.
Qed.
Theorem C68_prints : forall fo e l, fonts_fine fo -> encoders_ok e -> Forall element_ok l -> Z.of_nat (length l) <= 16000 -> 108 + slip_height l <= longest_paper ->
  exists im, render_images fo e (slip_bytes l) = Ok im.
Proof.
  intros fo e l FF Ee OK L H. pose proof (slip_is_bytes l OK) as B. destruct (slip_parse l OK) as (cmds & P & O).
  destruct (C59_image fo e true (slip_bytes l) cmds Ee (fonts_fine_ok _ FF) B P) as (s & R & W).
  - assert (G : Forall slip_seen (map observe cmds)).
    { rewrite O. constructor; [left; left; left; reflexivity|]. apply Forall_app. split; [apply elements_seen, OK|]. constructor; [left; left; right; left; reflexivity | constructor]. }
    pose proof (parsed_sent _ _ B P) as Sc. apply Forall_forall. intros c Hc. apply slip_gentle; [exact (proj1 (Forall_forall _ _) Sc _ Hc)|]. exact (proj1 (Forall_forall _ _) G _ (in_map observe _ _ Hc)).
  - rewrite papers_of, O, !papers_app. pose proof (papers_slip l OK) as PL. change (papers_seen [o_begin]) with 65025. change (papers_seen [o_end]) with 65025. unfold u32_max. lia.
  - apply W. destruct (slip_calls e l s B OK R) as (x0 & x1 & x & new & Ec & D & Y0 & Y1 & Y & HH & _). unfold within_paper. rewrite Ec.
    constructor; [cbn [fst]; lia|]. constructor; [cbn [fst]; lia|]. apply Forall_app. split; [|repeat constructor; cbn [fst]; lia].
    eapply Forall_impl; [|exact D]. cbv beta. intros c (_ & Hc). lia.
Qed.

(** A centred logo, 16 dots wide and 2 high, magnified; a centred line, a line feed, a picture at the right edge, a cut. *)
Definition logo : list element := [Picture 1 3 2 2 [129; 1; 60; 128]; Part (Line 0 1 [65; 66]); Part (Lines 1); Picture 50 0 1 1 [192]; Part (CutFeed 66 5)].
Example C68_demo : Forall element_ok logo /\ slip_height logo = 4 + 24 + 24 + 1 + 53 /\
  map (fun y => map (fun x => slip_dot eight_dots logo (288 + x) y) [0; 1; 2; 14; 15; 16; 18; 30; 31]) [0; 1; 2; 3; 4] =
  [[255; 255; 0; 255; 255; 0; 0; 255; 255]; [255; 255; 0; 255; 255; 0; 0; 255; 255]; [0; 0; 0; 0; 0; 255; 0; 0; 0]; [0; 0; 0; 0; 0; 255; 0; 0; 0]; [0; 0; 0; 0; 0; 0; 0; 0; 0]] /\
  map (fun x => slip_dot eight_dots logo x 52) [600; 601; 602; 603] = [0; 255; 255; 0] /\ map (fun x => slip_dot eight_dots logo x 8) [293; 294; 295; 296] = [0; 10; 20; 30].
Proof.
  split; [unfold logo; repeat apply Forall_cons; try apply Forall_nil; cbn [element_ok]; unfold part_ok, printable, dot_width; cbn; repeat split; try lia; repeat (apply Forall_cons; [lia|]); apply Forall_nil|].
  vm_compute. repeat split; reflexivity.
Qed.
Example C68_demo_prints : exists im r, render_images eight_dots no_encoders1 (slip_bytes logo) = Ok im /\ im_out im = [r] /\ r_width r = 649 /\ r_height r = 214.
Proof.
  destruct C68_demo as (FP & HT & D). destruct (C68_prints eight_dots no_encoders1 logo eight_fine C33_demo_encoders FP) as (im & E); [vm_compute; congruence | rewrite HT; vm_compute; congruence|].
  destruct (C68_slip eight_dots no_encoders1 logo im eight_fine FP E) as (r & A1 & A2 & A3 & A4). exists im, r. rewrite HT in A3. auto.
Qed.
