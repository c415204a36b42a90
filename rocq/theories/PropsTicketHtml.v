(** * PropsTicketHtml: C71, a receipt with pictures and barcodes, from the bytes to the HTML document. *)
From Verif Require Import Base Command CommandSet Parser Vec Float32 GTypes Graphics Utf8 Decoder Context Text Upce Handlers Renderer
  SpecStream StreamProofs ContextTheory RendererTheory Origin SpecPrinter StateTheory PropsText SpecRender SpecGraphics
  PropsOutput LayoutTheory AreaTheory PlaceTheory PropsContext PropsLayout PropsPlace SafeTheory PenTheory CallsTheory SpecLines PropsLines
  ManualTheory PropsQr PropsDecoder ThermalImage SpecCanvas CanvasRect ImageRenderer SpecImage ImageTheory PropsImage SpecDraw DrawTheory SpecSafe PropsSafe PropsDraw
  PropsScene SpecPlain PlainTheory PlainRun PlainJob PropsPlain SpecReceipt ReceiptRun PropsReceipt SpecBarcode PropsBarcode
  ThermalFile HtmlTemplate HtmlRenderer SpecHtml HtmlTheory PropsHtml PropsDrawHtml SpecReceiptHtml PropsReceiptHtml SpecSlip SlipRun PropsSlip SpecSlipHtml PropsSlipHtml
  SpecTicket TicketRun PropsTicket SpecTicketHtml.
Local Open Scope Z_scope.
Local Open Scope list_scope.
Local Arguments at_ : simpl never.
Local Arguments vlen : simpl never.

(** ** The drawing of a barcode *)
Lemma dec_3 : dec_u32 3 = str "3". Proof. vm_compute. reflexivity. Qed.
Lemma dec_40 : dec_u32 40 = str "40". Proof. vm_compute. reflexivity. Qed.
Lemma dec_0 : dec_u32 0 = str "0". Proof. vm_compute. reflexivity. Qed.
Local Opaque rctx spj sp dec_u32.
Definition bar_rect (x y k : Z) : rectangle := mk_rectangle (x + 3 * k) y 3 40.
Lemma bars_are x y : forall ms j, bars (x + 3 * j) y 3 40 ms = map (bar_rect x y) (bar_numbers j ms).
Proof.
  induction ms as [|m ms IH]; intros j; [reflexivity|]. cbn [bars bar_numbers]. rewrite map_app. replace (x + 3 * j + 3) with (x + 3 * (j + 1)) by lia. rewrite IH. f_equal. destruct (0 <? m); reflexivity.
Qed.
Lemma numbers_from : forall ms j k, In k (bar_numbers j ms) -> j <= k < j + vlen ms.
Proof.
  unfold vlen. induction ms as [|m ms IH]; intros j k H; [contradiction|]. cbn [bar_numbers] in H. cbn [length]. apply in_app_or in H. destruct H as [H|H].
  - destruct (0 <? m); [|contradiction]. destruct H as [<-|[]]. lia.
  - specialize (IH _ _ H). lia.
Qed.
Lemma numbers_first : forall ms j k, In k (bar_numbers j ms) -> hd 0 (bar_numbers j ms) <= k.
Proof.
  induction ms as [|m ms IH]; intros j k H; [contradiction|]. cbn [bar_numbers] in *. destruct (0 <? m); cbn [app hd] in *; [|exact (IH _ _ H)].
  destruct H as [<-|H]; [lia|]. pose proof (numbers_from _ _ _ H). lia.
Qed.
Lemma numbers_widest f : forall ms j w, (forall k, In k (bar_numbers j ms) -> w <= 3 * (k - f) + 3) ->
  fold_left (fun m k => Z.max m (3 * (k - f) + 3)) (bar_numbers j ms) w = match bar_numbers j ms with [] => w | _ => 3 * (last (bar_numbers j ms) 0 - f) + 3 end.
Proof.
  induction ms as [|m ms IH]; intros j w H; [reflexivity|]. cbn [bar_numbers] in *. destruct (0 <? m); cbn [app] in *; [|apply IH, H].
  cbn [fold_left]. pose proof (H j (or_introl eq_refl)). rewrite Z.max_r by lia. rewrite IH by (intros k Hk; pose proof (numbers_from _ _ _ Hk); lia). cbn [last]. destruct (bar_numbers (j + 1) ms); reflexivity.
Qed.
Lemma hd_in (l : list Z) : l <> [] -> In (hd 0 l) l.
Proof. destruct l; [congruence | left; reflexivity]. Qed.
Lemma least_is (f : rectangle -> Z) v l : l <> [] -> v <= u32_max -> Forall (fun r => v <= f r) l -> Exists (fun r => f r = v) l -> fold_left (fun m r => Z.min m (f r)) l u32_max = v.
Proof.
  intros _ U F X. assert (G : forall m, v <= m -> fold_left (fun m r => Z.min m (f r)) l m = v).
  { induction X as [r l E|r l X IH]; intros m M; cbn [fold_left]; apply Forall_cons_iff in F; destruct F as (F0 & F).
    - rewrite E, Z.min_r by lia. clear -F. induction F as [|r l R F IH]; [reflexivity|]. cbn [fold_left]. rewrite Z.min_l by lia. exact IH.
    - apply IH; [exact F | lia]. }
  apply G, U.
Qed.
Lemma svg_steps x y f : 0 <= x -> 0 <= y -> forall ks w h svg out, Forall (fun k => f <= k) ks -> 0 <= f ->
  fold_res (svg_step (x + 3 * f) y) (map (bar_rect x y) ks) (w, h, svg) = Ok out ->
  out = (fold_left (fun m k => Z.max m (3 * (k - f) + 3)) ks w, match ks with [] => h | _ => Z.max h 40 end, svg ++ map (bar_html f) ks).
Proof.
  intros X Y. induction ks as [|k ks IH]; intros w h svg out F F0 H; cbn [map fold_res] in H.
  - assert (out = (w, h, svg)) by congruence. subst. cbn [fold_left map]. rewrite app_nil_r. reflexivity.
  - apply Forall_cons_iff in F. destruct F as (Fk & F). apply bind_ok in H. destruct H as (st & H1 & H). unfold svg_step in H1. cbn [bar_rect r_x r_y r_w r_h] in H1.
    replace (sat_sub (x + 3 * k) (x + 3 * f)) with (3 * (k - f)) in H1 by (unfold sat_sub; lia). replace (sat_sub y y) with 0 in H1 by (unfold sat_sub; lia).
    apply bind_ok in H1. destruct H1 as (xe & Hx & H1). apply bind_ok in H1. destruct H1 as (ye & Hy & H1). destruct (add_u32v _ _ _ Hx) as (-> & _). destruct (add_u32v _ _ _ Hy) as (-> & _).
    assert (Es : st = (Z.max w (3 * (k - f) + 3), Z.max h (0 + 40), svg ++ [svg_rect (bar_rect x y k) (3 * (k - f)) 0])) by congruence. subst st. clear H1 Hx Hy.
    rewrite (IH _ _ _ _ F F0 H). cbn [fold_left map]. apply f_equal2; [apply f_equal2; [reflexivity|]|].
    + change (0 + 40) with 40. destruct ks; [reflexivity | lia].
    + rewrite <- app_assoc. cbn [app]. apply f_equal, (f_equal (fun z => z :: _)). unfold svg_rect, bar_html, bar_rect. cbn [r_w r_h]. rewrite dec_3, dec_40, dec_0. reflexivity.
Qed.
Lemma bars_row a y ms r : symbol_width ms <= 609 -> 0 <= y <= u32_max -> bar_numbers 0 ms <> [] -> graphics_to_svg (bars (place a (symbol_width ms)) y 3 40 ms) = Ok r ->
  row_y r = y /\ HtmlRenderer.row_height r = 40 /\ row_content r = bars_html a ms.
Proof.
  intros W U N H. assert (W0 : 0 <= symbol_width ms) by (unfold symbol_width; lia). destruct (place_inside a (symbol_width ms) ltac:(lia)) as (P0 & P1).
  unfold bars_html. set (x := place a (symbol_width ms)) in *. replace x with (x + 3 * 0) in H by lia. rewrite bars_are in H.
  pose proof (numbers_first ms 0) as NF. pose proof (numbers_from ms 0) as NR. pose proof (numbers_widest (hd 0 (bar_numbers 0 ms)) ms 0 0) as NW.
  pose proof (hd_in _ N) as HI. pose proof (NR _ HI) as HR. set (ks := bar_numbers 0 ms) in *. set (f := hd 0 ks) in *.
  assert (LX : least_x (map (bar_rect x y) ks) = x + 3 * f).
  { unfold least_x. apply least_is; [destruct ks; [congruence | discriminate] | unfold symbol_width, vlen, u32_max in *; lia | |].
    - apply Forall_map, Forall_forall. intros k Hk. cbn [bar_rect r_x]. specialize (NF _ Hk). lia.
    - apply Exists_exists. exists (bar_rect x y f). split; [apply in_map, HI | reflexivity]. }
  assert (LY : least_y (map (bar_rect x y) ks) = y).
  { unfold least_y. apply least_is; [destruct ks; [congruence | discriminate] | lia | |].
    - apply Forall_map, Forall_forall. intros k Hk. cbn [bar_rect r_y]. lia.
    - apply Exists_exists. exists (bar_rect x y f). split; [apply in_map, HI | reflexivity]. }
  unfold graphics_to_svg in H. destruct (map (bar_rect x y) ks) as [|r0 rs] eqn:ER; [destruct ks; [congruence | discriminate ER]|]. rewrite <- ER in *. cbv zeta in H. rewrite LX, LY in H.
  apply bind_ok in H. destruct H as (out & Hf & H).
  apply svg_steps in Hf; [|lia | lia | apply Forall_forall; exact NF | lia]. rewrite NW in Hf by (intros k Hk; specialize (NF _ Hk); lia). cbn [app] in Hf.
  assert (EM : match ks with [] => 0 | _ => Z.max 0 40 end = 40) by (destruct ks; [congruence | reflexivity]). rewrite EM in Hf.
  assert (EW : match ks with [] => 0 | _ :: _ => 3 * (last ks 0 - f) + 3 end = 3 * (last ks 0 - f) + 3) by (destruct ks; [congruence | reflexivity]). rewrite EW in Hf. subst out. cbn [fst snd] in H.
  apply ok_inj in H. subst r. cbn [row_y HtmlRenderer.row_height row_content]. split; [reflexivity|]. split; [reflexivity|]. rewrite join_between, dec_40. cbn [str app]. reflexivity.
Qed.

(** ** Rows *)
Definition tick_in (pn : pngs) (t : tick) (h : hstate) : res hstate :=
  match t with inl t => thing_in pn t h | inr rects => do r <- graphics_to_svg rects; push_row r h end.
Lemma ticks_in fo pn b new : drawn_ticks b new -> Forall call_wf new -> forall h h', Forall (fun c => snd c <> EBeginRender) new -> html_calls fo pn new h = Ok h' ->
  fold_res (tick_in pn) (ticks_of new) h = Ok h'.
Proof.
  unfold html_calls. induction 1 as [|[x ev] new (SL & _) F IH]; intros W h h' NB H; [exact H|]. apply Forall_cons_iff in W, NB. destruct W as (W & Ws), NB as (NB & NBs).
  cbn [fold_res fst snd] in H. apply bind_ok in H. destruct H as (h1 & H1 & H). specialize (IH Ws _ _ NBs H). unfold ticks_of in *. cbn [flat_map snd].
  destruct SL as [S|[(T & Fr & P)|[(I & P)|(G & Co & P)]]].
  - unfold still in S. cbn [snd] in S, NB. destruct ev; try contradiction; cbn [html_event] in H1; cbn [app]; assert (h1 = h) by congruence; subst; exact IH.
  - unfold is_text_call, framed_call in *. cbn [fst snd] in *. destruct ev; try contradiction. destruct spans as [|f l]; [contradiction|]. destruct Fr as (_ & E & _).
    cbn [html_event] in H1. pose proof (gk_colors _ (si_graphics _ (ci_s _ (proj1 W)))) as GC. cbn [fst] in GC. rewrite P, GC, E in H1. cbn [app fold_res].
    change (tick_in pn (inl (inl (f :: l, x_offset))) h) with (do r <- spans_to_html default_colors (f :: l) x_offset (Renderer.line_height (f :: l)); push_row r h). rewrite H1. exact IH.
  - cbn [fst snd] in *. destruct ev; try contradiction. cbn [html_event] in H1. rewrite P in H1. cbn [app fold_res tick_in thing_in]. rewrite H1. exact IH.
  - cbn [fst snd] in *. destruct ev; try contradiction. cbn [html_event] in H1. rewrite P in H1. cbn [app fold_res tick_in]. rewrite H1. exact IH.
Qed.
Lemma fold_tick pn g : forall h, fold_res (tick_in pn) (map inl g) h = fold_res (thing_in pn) g h.
Proof. induction g as [|x g IH]; intros h; [reflexivity|]. cbn [map fold_res tick_in]. destruct (thing_in pn x h); [apply IH | reflexivity]. Qed.
Lemma ticket_in pn e l : Forall (entry_ok e) l -> Forall documented l -> forall y T h h', 0 <= y -> y + ticket_height l <= u32_max -> h_last_y h <= y -> Forall2 fits_aim T (aims y l) -> fold_res (tick_in pn) T h = Ok h' ->
  h_content h' = h_content h ++ map para_html (ticket_paras pn (h_last_y h) y l) /\ h_last_y h' = ticket_end (h_last_y h) y l /\ h_out h' = h_out h /\ h_last_y h' <= y + ticket_height l.
Proof.
  induction 1 as [|q r Q F IH]; intros DO y T h h' Y0 UB L M H; cbn [aims ticket_paras ticket_end] in *.
  - inversion M; subst T. cbn [fold_res] in H. assert (h' = h) by congruence. subst. cbn [map]. rewrite app_nil_r. split; [reflexivity|]. split; [reflexivity|]. split; [reflexivity|]. assert (ticket_height [] = 0) by reflexivity. lia.
  - apply Forall_cons_iff in DO. destruct DO as (DQ & DO). assert (ET : ticket_height (q :: r) = entry_height q + ticket_height r) by reflexivity. rewrite ET in *.
    apply Forall2_app_inv_r in M. destruct M as (T1 & T2 & M1 & M2 & ->). rewrite fold_res_app in H. apply bind_ok in H. destruct H as (h1 & H1 & H).
    pose proof (entry_some e q Q) as HS. pose proof (ticket_height_some e r F) as HR. destruct q as [p|a m d ms]; cbn [entry_height] in *.
    + destruct (fits_only _ _ M1) as (T' & -> & M'). rewrite fold_tick in H1. destruct (slip_in pn [p] (Forall_cons p Q (Forall_nil _)) y T' h h1 L M' H1) as (A1 & A2 & A3 & A4).
      cbn [slip_height fold_right] in A4.
      destruct (IH DO (y + element_height p) T2 h1 h' ltac:(lia) ltac:(lia) ltac:(lia) M2 H) as (B1 & B2 & B3 & B4). rewrite A2 in B1, B2. rewrite B1, A1, map_app, <- app_assoc. split; [reflexivity|]. split; [exact B2|]. split; [congruence | lia].
    + inversion M1 as [|t ? T' ? Mt Ms]; subst T1. inversion Ms. subst T'. destruct t as [t|rects]; [contradiction|]. cbn [fits_aim] in Mt. subst rects. cbn [fold_res tick_in] in H1.
      apply bind_ok in H1. destruct H1 as (h2 & H1 & E2). assert (h2 = h1) by congruence. subst h2. clear E2. apply bind_ok in H1. destruct H1 as (rw & Hr & H1).
      cbn [entry_ok] in Q. destruct (bars_row a y ms rw (proj1 (proj2 (proj2 (proj2 Q)))) ltac:(lia) DQ Hr) as (EY & EH & EC).
      apply push_row_inv in H1. destruct H1 as (Q1 & Q2 & Q3). rewrite EY, EH in Q2.
      destruct (IH DO (y + 40) T2 h1 h' ltac:(lia) ltac:(lia) ltac:(lia) M2 H) as (B1 & B2 & B3 & B4). rewrite Q2 in B1, B2. split; [|split; [exact B2 | split; [congruence | lia]]].
      rewrite B1, Q1, <- app_assoc. cbn [app map]. f_equal. f_equal. unfold row_para. rewrite EY, EH, EC. unfold sat_sub. rewrite Z.max_r by lia. reflexivity.
Qed.

(** ** No braces *)
Lemma bare_ticket pn l : base64_encoder pn -> Forall documented l -> forall last y, bare (concat (map para_html (ticket_paras pn last y l))).
Proof.
  intros B. induction 1 as [|q r Q F IH]; intros last y; cbn [ticket_paras]; [constructor|]. destruct q as [p|a m d ms].
  - rewrite map_app, concat_app. apply bare_app; [apply bare_slip; [exact B | constructor; [exact Q | constructor]] | apply IH].
  - cbn [map concat]. apply bare_app; [|apply IH]. apply bare_para. cbn [pa_content]. unfold bars_html.
    repeat apply bare_app; try (apply bare_fixed; vm_compute; reflexivity); try apply bare_dec. apply bare_between; [apply bare_fixed; reflexivity|]. apply Forall_map, Forall_forall. intros k _. unfold bar_html.
    repeat apply bare_app; try (apply bare_fixed; vm_compute; reflexivity); apply bare_dec.
Qed.

(** ** The document *)
(** *** C71: one document, every character of which is known. *)
Theorem C71_document : exists head tail, forall fo pn e l docs, base64_encoder pn -> Forall (entry_ok e) l -> Forall documented l ->
  render_html fo pn e (ticket_bytes l) = Ok docs -> docs = [ticket_html pn head tail l].
Proof.
  exists doc_head, doc_tail. intros fo pn e l docs B64 OK NB E. pose proof (ticket_is_bytes e l OK) as B.
  unfold render_html in E. apply bind_ok in E. destruct E as (s & R & E). apply bind_ok in E. destruct E as (h & E & Ed). apply ok_inj in Ed. subst docs.
  destruct (ticket_calls e l s B OK R) as (x0 & x1 & x & new & Ec & D & _ & _ & Y & HH & L & AY).
  pose proof (job_calls _ _ _ B R) as W. pose proof (job_begins e (ticket_bytes l) s x0 x1 (new ++ [(x, EDevice EndPrint); (x, EGetErrors); (x, EEndRender)]) B R Ec) as Y1.
  destruct (job_shape e (ticket_bytes l) s B R) as (y0 & y1 & rest & n & Ec' & Nb & _).
  rewrite Ec in E, W, Ec'. cbn [app] in Ec', E, W. set (bs := ticket_bytes l) in *. clearbody bs.
  pose proof (f_equal (fun c => tl (tl c)) Ec') as Er. cbn [tl] in Er. rewrite <- Er, ev_begins_app in Nb. assert (Nn : ev_begins new = 0%nat) by lia.
  apply Forall_cons_iff in W. destruct W as (_ & W). apply Forall_cons_iff in W. destruct W as (W1 & W). apply Forall_app in W. destruct W as (Wn & We). apply Forall_cons_iff in We. destruct We as (Wx & _).
  assert (UB : 108 + ticket_height l <= u32_max).
  { assert (UA : u32v (a_y (g_render_area (c_graphics x)))) by exact (ua_y _ (ui_render _ (ci_u _ (proj1 Wx)))). rewrite AY in UA. exact (proj2 UA). }
  unfold html_calls in E. cbn [fold_res fst snd html_event bind] in E. apply bind_ok in E. destruct E as (h0 & E0 & E).
  apply html_begin_inv in E0; [|exact (proj1 W1)]. destruct E0 as (Q1 & Q2 & Q3). fold (html_calls fo pn (new ++ [(x, EDevice EndPrint); (x, EGetErrors); (x, EEndRender)]) h0) in E.
  apply html_calls_app in E. destruct E as (h1 & E1 & E2). pose proof (ticks_in fo pn _ new D Wn _ _ (no_begins _ Nn) E1) as F.
  destruct (ticket_in pn e l OK NB 108 _ h0 h1 ltac:(lia) UB ltac:(lia) L F) as (A1 & A2 & A3 & A4).
  unfold html_calls in E2. cbn [fold_res fst snd html_event bind] in E2. apply ok_inj in E2. subst h. unfold html_end. cbn [h_out]. rewrite A3, Q3. cbn [html_new h_out app]. f_equal.
  rewrite Q2, Y1 in A1, A2. unfold first_para in Q1. rewrite Y1 in Q1. rewrite Q1 in A1. rewrite A1, A2, Y.
  assert (Bc : bare (concat ([para_html (mk_para 108 0 [])] ++ map para_html (ticket_paras pn 108 108 l)))).
  { rewrite concat_app. apply bare_app; [|apply bare_ticket; assumption]. cbn [concat]. rewrite app_nil_r. apply bare_para. constructor. }
  rewrite document_page; [|exact (proj1 Wx) | exact Bc]. unfold ticket_html. unfold sat_sub. rewrite Z.max_r by lia. reflexivity.
Qed.

(** ** Such a receipt does become a document, if it is not too long and its pictures have dots. *)
Lemma tick_goal i T e : forall l y, Forall (entry_ok e) l -> Forall rows_in l -> Forall2 fits_aim T (aims y l) -> In (inl (inr i)) T -> 0 < i_w i /\ 0 < i_h i.
Proof.
  intros l. revert T. induction l as [|q r IH]; intros T y OK SR M H; cbn [aims] in M; [inversion M; subst; contradiction|].
  apply Forall_cons_iff in OK, SR. destruct OK as (Q & OK), SR as (S & SR). apply Forall2_app_inv_r in M. destruct M as (T1 & T2 & M1 & M2 & ->). apply in_app_or in H. destruct H as [H|H]; [|exact (IH _ _ OK SR M2 H)].
  destruct q as [p|a m d ms].
  - destruct (fits_only _ _ M1) as (T' & -> & M'). apply in_map_iff in H. destruct H as (t & E & H). assert (t = inr i) by congruence. subst t.
    exact (image_goal i T' [p] y (Forall_cons p Q (Forall_nil _)) (Forall_cons p S (Forall_nil _)) M' H).
  - inversion M1 as [|t ? T' ? Mt Ms]; subst T1. inversion Ms. subst T'. destruct H as [H|[]]. subst t. contradiction.
Qed.
Theorem C71_prints : forall fo pn e l, encoders_ok e -> pngs_ok pn -> Forall (entry_ok e) l -> Forall rows_in l -> Z.of_nat (length l) <= 16000 ->
  exists docs, render_html fo pn e (ticket_bytes l) = Ok docs.
Proof.
  intros fo pn e l Ee PN OK SR L. pose proof (ticket_is_bytes e l OK) as B. destruct (ticket_parse e l OK) as (cmds & P & O).
  destruct (C59_html fo pn e true (ticket_bytes l) cmds Ee PN B P) as (s & R & W).
  - assert (G : Forall ticket_seen (map observe cmds)).
    { rewrite O. constructor; [left; left; left; left; reflexivity|]. apply Forall_app. split; [exact (entries_seen e l OK)|]. constructor; [left; left; left; right; left; reflexivity | constructor]. }
    pose proof (parsed_sent _ _ B P) as Sc. apply Forall_forall. intros c Hc. apply ticket_gentle; [exact (proj1 (Forall_forall _ _) Sc _ Hc)|]. exact (proj1 (Forall_forall _ _) G _ (in_map observe _ _ Hc)).
  - rewrite papers_of, O, !papers_app. pose proof (papers_ticket e l OK) as PL. change (papers_seen [o_begin]) with 65025. change (papers_seen [o_end]) with 65025. unfold u32_max. lia.
  - apply W. destruct (ticket_calls e l s B OK R) as (x0 & x1 & x & new & Ec & D & _ & _ & _ & _ & Go & _). unfold no_empty_images. intros y i Hi. rewrite Ec in Hi. clear -Hi OK SR Go.
    apply in_app_or in Hi. destruct Hi as [[Hi|[Hi|[]]]|Hi]; [discriminate Hi ..|]. apply in_app_or in Hi. destruct Hi as [Hi|[Hi|[Hi|[Hi|[]]]]]; [|discriminate Hi ..].
    apply (tick_goal i _ e l 108 OK SR Go). unfold ticks_of. apply in_flat_map. exists (y, EImage i). split; [exact Hi | left; reflexivity].
Qed.

(** The ticket of C70. *)
Definition ticket_paras_demo : list para :=
  [mk_para 24 0 (str "<span style='left: 292px; top: 0px' class=''>AB</span>");
   mk_para 40 0 (str "<svg style='left: 300px;' class='gfx' width='9' height='40'><rect width='3' height='40' x='0' y='0' fill='black' />" ++ [10] ++ str "<rect width='3' height='40' x='6' y='0' fill='black' /></svg>");
   mk_para 2 0 (str "<img style='left: 0px;' class='img' width='8' src='data:image/png;base64, iVBORw0KGgo' />");
   mk_para 40 0 (str "<svg style='left: 600px;' class='gfx' width='9' height='40'><rect width='3' height='40' x='0' y='0' fill='black' />" ++ [10] ++ str "<rect width='3' height='40' x='6' y='0' fill='black' /></svg>")].
Example C71_demo : Forall documented ticket /\ Forall rows_in ticket /\ ticket_paras png_demo 108 108 ticket = ticket_paras_demo /\ 108 + ticket_height ticket - ticket_end 108 108 ticket = 53.
Proof.
  split; [unfold ticket; repeat apply Forall_cons; try apply Forall_nil; cbn; try exact Logic.I; discriminate|].
  split; [unfold ticket; repeat apply Forall_cons; try apply Forall_nil; cbn; try exact Logic.I; reflexivity|]. vm_compute. auto.
Qed.
Example C71_demo_prints : exists head tail, render_html eight_dots png_demo ticket_encoders (ticket_bytes ticket) =
  Ok [page_around head tail (paper_style 53) (concat (map para_html (mk_para 108 0 [] :: ticket_paras_demo)))].
Proof.
  destruct C71_document as (head & tail & H). exists head, tail. destruct C71_demo as (NB & SR & D1 & D2). pose proof (proj1 C70_demo) as FP.
  destruct (C71_prints eight_dots png_demo ticket_encoders ticket ticket_encoders_ok png_demo_takes FP SR) as (docs & E); [vm_compute; congruence|].
  rewrite E. f_equal. rewrite (H _ _ _ _ _ png_demo_base64 FP NB E). unfold ticket_html. rewrite D1, D2. reflexivity.
Qed.
