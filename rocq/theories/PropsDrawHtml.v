(** * PropsDrawHtml: C59, a receipt that prints also becomes an HTML document. *)
From Verif Require Import Base Command CommandSet Parser Vec Float32 GTypes Graphics Decoder Context Text
  Handlers Renderer ContextTheory RendererTheory Origin SpecPrinter StateTheory PropsText SpecRender LayoutTheory AreaTheory PlaceTheory SpecSafe
  SafeTheory SafeTheory2 SafeTheory3 SafeTheory4 SafeTheory5 PropsSafe PenTheory CallsTheory SpotTheory
  ThermalImage SpecCanvas CanvasTheory CanvasRect ImageRenderer HtmlRenderer PropsOutput PropsLayout PropsCells PropsImage SpecDraw DrawTheory PropsHtml PropsDraw.
Local Open Scope Z_scope.
Local Open Scope list_scope.
Local Arguments at_ : simpl never.
Local Arguments vlen : simpl never.

Definition blank_page (s : hstate) : Prop := cv_width (h_page s) = 0 /\ cv_bytes (h_page s) = [].
Lemma push_total r s : blank_page s -> 0 <= row_y r + row_height r <= u32_max -> exists s', push_row r s = Ok s' /\ blank_page s'.
Proof.
  intros B H. unfold push_row, add_u32. rewrite CanvasTheory.chk_ok by exact H. cbn [bind]. eexists. split; [reflexivity | exact B].
Qed.
Lemma least_y_bound l : forall m, fold_left (fun m r => Z.min m (r_y r)) l m <= m /\ (forall r, In r l -> fold_left (fun m r => Z.min m (r_y r)) l m <= r_y r) /\
  (0 <= m -> Forall rect_wf l -> 0 <= fold_left (fun m r => Z.min m (r_y r)) l m).
Proof.
  induction l as [|a l IH]; intros m; cbn [fold_left]; [split; [lia|]; split; [intros r []|]; intros H _; exact H|].
  destruct (IH (Z.min m (r_y a))) as (A & B & C). split; [lia|]. split; [intros r [<-|I]; [lia | exact (B r I)]|].
  intros M F. apply Forall_cons_iff in F. destruct F as ((_ & F1 & _) & F2). unfold u32v in F1. apply C; [lia | exact F2].
Qed.
Lemma least_x_pos l : forall m, 0 <= m -> Forall rect_wf l -> 0 <= fold_left (fun m r => Z.min m (r_x r)) l m.
Proof.
  induction l as [|a l IH]; intros m M F; cbn [fold_left]; [exact M|]. apply Forall_cons_iff in F. destruct F as ((F1 & _) & F2). unfold u32v in F1.
  apply IH; [lia | exact F2].
Qed.
Lemma svg_total Y l : Forall rect_wf l -> Forall (spot_rect Y) l -> 0 <= Y -> Y + 255 <= u32_max -> exists r, graphics_to_svg l = Ok r /\ 0 <= row_y r + row_height r <= Y + 255.
Proof.
  intros WF SP Y0 YB. unfold graphics_to_svg. destruct l as [|a l0] eqn:El; [eexists; split; [reflexivity | cbn [row_y row_height empty_row]; lia]|].
  rewrite <- El in *. cbv zeta. unfold least_y. pose proof (least_x_pos l u32_max ltac:(unfold u32_max; lia) WF) as X0. fold (least_x l) in X0. set (mx := least_x l) in *. clearbody mx.
  destruct (least_y_bound l u32_max) as (_ & LB & L0). specialize (L0 ltac:(unfold u32_max; lia) WF).
  set (my := fold_left _ l u32_max) in *.
  assert (MY : my <= Y).
  { assert (Ia : In a l) by (rewrite El; left; reflexivity). specialize (LB _ Ia). pose proof (proj1 (proj1 (Forall_forall _ _) SP _ Ia)). lia. }
  clear El a l0. clearbody my.
  assert (F : forall l0 st, incl l0 l -> 0 <= snd (fst st) /\ my + snd (fst st) <= Y + 255 -> exists st', fold_res (svg_step mx my) l0 st = Ok st' /\ 0 <= snd (fst st') /\ my + snd (fst st') <= Y + 255).
  { induction l0 as [|r l0 IH]; intros [[w h] t] IN (H0 & HB); cbn [fold_res fst snd] in *; [eexists; split; [reflexivity | split; assumption]|].
    assert (Ir : In r l) by (apply IN; left; reflexivity).
    destruct (proj1 (Forall_forall _ _) WF _ Ir) as (R1 & R2 & R3 & R4). destruct (proj1 (Forall_forall _ _) SP _ Ir) as (S1 & S2). specialize (LB _ Ir). unfold u32v in *.
    unfold svg_step at 1. unfold sat_sub. unfold add_u32 at 1. rewrite CanvasTheory.chk_ok by (unfold u32_max; lia). cbn [bind].
    unfold add_u32 at 1. rewrite CanvasTheory.chk_ok by (unfold u32_max in *; lia). cbn [bind].
    apply IH; [intros z Hz; apply IN; right; exact Hz|]. cbn [fst snd]. lia. }
  destruct (F l (0, 0, []) (incl_refl l) ltac:(cbn [fst snd]; lia)) as ([[w h] t] & -> & H0 & HB). cbn [fst snd] in *. cbn [bind]. eexists. split; [reflexivity|].
  cbn [row_y row_height]. lia.
Qed.
Lemma words_total colors off mh Y l : 0 <= Y -> Y + 192 <= u32_max -> 0 <= off <= 609 -> Forall (fun w => spot_word Y w /\ 0 <= s_character_height w <= 192) l ->
  exists r, spans_to_html colors l off mh = Ok r /\ 0 <= row_y r + row_height r <= Y + 192.
Proof.
  intros Y0 YB OF F. unfold spans_to_html. destruct l as [|a l0] eqn:El; [eexists; split; [reflexivity | cbn [row_y row_height empty_row]; lia]|].
  assert (G : forall l0 h m t, Forall (fun w => spot_word Y w /\ 0 <= s_character_height w <= 192) l0 -> 0 <= h <= 192 -> 0 <= m ->
    exists h' m' t', fold_res (spans_step colors off mh) l0 (h, m, t) = Ok (h', m', t') /\ 0 <= h' <= 192 /\ 0 <= m' <= m /\ (l0 <> [] -> m' <= Y)).
  { clear - OF. intros l0. induction l0 as [|w l0 IH]; intros h m t F H M; cbn [fold_res].
    - exists h, m, t. split; [reflexivity|]. split; [exact H|]. split; [lia | intros N; contradiction].
    - apply Forall_cons_iff in F. destruct F as (((_ & d & D & DX & DW & DY) & CH) & F).
      unfold spans_step at 1, span_to_html. rewrite D. unfold xb in *. cbv zeta. unfold add_u32. rewrite CanvasTheory.chk_ok by (unfold u32_max; lia). cbn [bind].
      set (txt := t ++ _). clearbody txt.
      destruct (IH (Z.max h (s_character_height w)) (Z.min m (d_y d)) txt F ltac:(lia) ltac:(lia)) as (h' & m' & t' & E & H1 & H2 & H3).
      exists h', m', t'. split; [exact E|]. split; [exact H1|]. split; [lia|]. intros _. lia. }
  rewrite <- El in *. destruct (G l 0 u32_max [] F ltac:(lia) ltac:(unfold u32_max; lia)) as (h & m & t & -> & H1 & H2 & H3). cbn [bind]. eexists. split; [reflexivity|].
  cbn [row_y row_height]. specialize (H3 ltac:(rewrite El; discriminate)). lia.
Qed.
Lemma rgba_len i : vlen (as_rgba_u8 i) = 4 * vlen (i_pixels i).
Proof.
  unfold as_rgba_u8. induction (i_pixels i) as [|p l IH]; [reflexivity|]. cbn [flat_map]. rewrite vlen_app, IH, (vlen_cons p l).
  change (vlen [c_r p; c_g p; c_b p; c_a p]) with 4. lia.
Qed.
Lemma html_event_total fo pn x ev s : pngs_ok pn -> spot_call (x, ev) -> call_wf (x, ev) -> get_y x <= u32_max - 200000 ->
  match ev with EImage i => 0 < i_w i /\ 0 < i_h i | _ => True end ->
  blank_page s -> exists s', html_event fo pn x ev s = Ok s' /\ blank_page s'.
Proof.
  intros PN (Std & SP) (CI & WF) YL NE BP. cbn [fst snd] in *. unfold standard in Std. pose proof (y_u _ (ci_u _ CI)) as Y0. unfold u32v in Y0.
  destruct ev; cbn [html_event]; try contradiction; try rewrite Std; try (exists s; split; [reflexivity | exact BP]).
  - (* begin *) unfold html_begin. cbv zeta. apply push_total; [split; reflexivity | cbn [row_y row_height]; lia].
  - (* page area *) destruct SP as (-> & -> & ->). destruct BP as (PW & PB). unfold on_hpage, page_area_changed. cbn [rotate bind]. rewrite PW. cbn [Z.ltb Z.compare bind].
    unfold get_canvas_height. rewrite PW. cbn [Z.eqb Z.ltb Z.compare bind]. eexists. split; [reflexivity | split; [exact PW | exact PB]].
  - (* graphics *) cbn [event_wf] in WF. destruct (svg_total (get_y x) rects WF SP ltac:(lia) ltac:(lia)) as (r & -> & R). cbn [bind]. apply push_total; [exact BP | lia].
  - (* image *) destruct SP as (P1 & P2 & P3 & P4). destruct WF as ([W1 W2 W3] & V1 & V2). unfold u32v in *.
    unfold encode_html_image. destruct (pn (i_w i) (i_h i) (as_rgba_u8 i)) as [data|] eqn:E.
    + cbn [bind]. apply push_total; [exact BP | cbn [row_y row_height]; lia].
    + exfalso. refine (PN _ _ _ (proj1 NE) (proj2 NE) _ E). rewrite rgba_len, W3. reflexivity.
  - (* text *) destruct SP as (OF & SW). destruct WF as (WF & _).
    assert (F : Forall (fun w => spot_word (get_y x) w /\ 0 <= s_character_height w <= 192) spans).
    { rewrite Forall_forall in *. intros w Hw. split; [exact (SW _ Hw)|]. destruct (sw_base _ (WF _ Hw)) as (_ & B & _). destruct (sw_height _ (WF _ Hw)) as (m & M & ->). nia. }
    destruct (words_total (g_render_colors (c_graphics x)) x_offset max_height (get_y x) spans ltac:(lia) ltac:(lia) OF F) as (r & -> & R). cbn [bind].
    apply push_total; [exact BP | lia].
  - (* end *) eexists. split; [reflexivity | exact BP].
Qed.
(** *** C59: the same for HTML, if the picture encoder takes every picture that is not empty and no picture is. *)
Theorem C59_html : forall fo pn e right bs cmds,
  encoders_ok e -> pngs_ok pn -> bytes_ok bs = true -> parse_esc_pos bs = Ok cmds -> Forall (gentle right) cmds ->
  200060 + paper_for_all cmds <= u32_max ->
  exists s, render e bs renderer_new = Ok s /\
    (no_empty_images (rs_calls s) -> exists docs, render_html fo pn e bs = Ok docs).
Proof.
  intros fo pn e right bs cmds E PN B P G L. assert (L' : 60 + paper_for_all cmds <= u32_max) by lia.
  destruct (C33_no_crash e right bs cmds E B P G L') as (s & H). exists s. split; [exact H|].
  intros NE. pose proof (job_spots e right bs cmds s E B P G L' H) as SP. pose proof (td_calls _ (history_tidy _ _ (job_history e bs s B H))) as T.
  unfold render_html. rewrite H. cbn [bind].
  assert (R : exists h, html_calls fo pn (rs_calls s) html_new = Ok h /\ blank_page h).
  { unfold no_empty_images in NE. revert NE SP T. generalize (rs_calls s) as l.
    assert (N0 : blank_page html_new) by (split; reflexivity).
    assert (Q : forall l h0, blank_page h0 -> (forall x i, In (x, EImage i) l -> 0 < i_w i /\ 0 < i_h i) ->
      Forall (fun x => spot_call x /\ get_y (fst x) <= 60 + paper_for_all cmds) l -> Forall call_wf l -> exists h, html_calls fo pn l h0 = Ok h /\ blank_page h).
    { unfold html_calls. induction l as [|[x ev] l IH]; intros h0 B0 NE SP T; cbn [fold_res]; [eauto|].
      apply Forall_cons_iff in SP, T. destruct SP as ((S1 & Y1) & S2), T as (T1 & T2). cbn [fst snd] in *.
      destruct (html_event_total fo pn x ev h0 PN S1 T1 ltac:(lia)) as (h1 & -> & B1); [|exact B0|].
      - destruct ev; try exact I. exact (NE x i (or_introl eq_refl)).
      - cbn [bind]. apply IH; [exact B1 | intros y i Hi; exact (NE y i (or_intror Hi)) | exact S2 | exact T2]. }
    intros l NE SP T. exact (Q l html_new N0 NE SP T). }
  destruct R as (h & -> & _). cbn [bind]. eauto.
Qed.

(** A gentle job with a picture of no rows: it prints, and the image renderer draws it, but an
    encoder that refuses empty pictures, as the real one does, stops the HTML renderer. *)
Definition empty_picture : list Z := [29; 118; 48; 0; 1; 0; 0; 0; 10; 65; 10].
Definition html_view (bs : list Z) : res (bool * bool) :=
  do s <- render no_encoders1 bs renderer_new;
  Ok (match html_calls no_glyphs png_demo (rs_calls s) html_new with Panic PUnwrap => true | _ => false end,
      match html_calls no_glyphs png_demo (rs_calls s) html_new with Ok _ => true | _ => false end).
Lemma html_ends bs : html_view bs = Ok (true, false) -> exists s, render no_encoders1 bs renderer_new = Ok s /\
  render_html no_glyphs png_demo no_encoders1 bs = Panic PUnwrap.
Proof.
  unfold html_view, render_html. intros H. destruct (render no_encoders1 bs renderer_new) as [s|p]; [|discriminate]. cbn [bind] in *. exists s. split; [reflexivity|].
  injection H as H _. destruct (html_calls _ _ _ _) as [im|[]]; try discriminate. reflexivity.
Qed.
Lemma image_ends bs : match render_images no_glyphs no_encoders1 bs with Ok _ => true | _ => false end = true -> exists im, render_images no_glyphs no_encoders1 bs = Ok im.
Proof. destruct (render_images no_glyphs no_encoders1 bs); [eauto | discriminate]. Qed.
Lemma gentle_job bs n : match parse_esc_pos bs with Ok cmds => forallb (gentleb false) cmds && (n + paper_for_all cmds <=? u32_max) | Panic _ => false end = true ->
  exists cmds, parse_esc_pos bs = Ok cmds /\ Forall (gentle false) cmds /\ n + paper_for_all cmds <= u32_max.
Proof.
  destruct (parse_esc_pos bs) as [cmds|]; [|discriminate]. intros D. apply andb_prop in D. destruct D as (G & N). apply Z.leb_le in N.
  exists cmds. split; [reflexivity|]. split; [|exact N]. apply Forall_forall. intros c I. apply gentleb_ok. exact (proj1 (forallb_forall _ _) G _ I).
Qed.
Lemma empty_gentle : exists cmds, parse_esc_pos empty_picture = Ok cmds /\ Forall (gentle false) cmds /\ 200060 + paper_for_all cmds <= u32_max.
Proof. apply gentle_job. vm_compute. reflexivity. Qed.
Lemma png_demo_takes : pngs_ok png_demo.
Proof.
  intros w h d W H _. unfold png_demo. destruct (Z.eqb_spec w 0); [lia|]. destruct (Z.eqb_spec h 0); [lia|]. discriminate.
Qed.
Definition pictures_view (bs : list Z) : bool :=
  match render no_encoders1 bs renderer_new with
  | Ok s => forallb (fun c => match snd c with EImage i => (0 <? i_w i) && (0 <? i_h i) | _ => true end) (rs_calls s)
  | Panic _ => false end.
Lemma pictures_there bs s : pictures_view bs = true -> render no_encoders1 bs renderer_new = Ok s -> no_empty_images (rs_calls s).
Proof.
  unfold pictures_view. intros V H. rewrite H in V. intros x i I. rewrite forallb_forall in V. specialize (V _ I). cbn [snd] in V. apply andb_prop in V.
  destruct V as (V1 & V2). apply Z.ltb_lt in V1, V2. split; assumption.
Qed.
Lemma receipt_pictures : pictures_view receipt = true.
Proof. vm_compute. reflexivity. Qed.
Theorem C59_empty_picture_refuted :
  (exists cmds, parse_esc_pos empty_picture = Ok cmds /\ Forall (gentle false) cmds /\ 200060 + paper_for_all cmds <= u32_max) /\
  (exists im, render_images no_glyphs no_encoders1 empty_picture = Ok im) /\
  render_html no_glyphs png_demo no_encoders1 empty_picture = Panic PUnwrap.
Proof.
  split; [exact empty_gentle|]. split; [apply image_ends; vm_compute; reflexivity|].
  destruct (html_ends empty_picture) as (s & _ & H); [vm_compute; reflexivity | exact H].
Qed.
(** The receipt of C33 becomes a document with any fonts, any picture encoder that takes non-empty pictures
    and an encoder whose barcodes have bars. *)
Example C59_html_demo : exists docs, render_html no_glyphs png_demo no_encoders1 receipt = Ok docs.
Proof.
  pose proof C59_demo_job as D. apply andb_prop in D. destruct D as (D & B).
  destruct (parse_esc_pos receipt) as [cmds|] eqn:P; [|discriminate]. apply andb_prop in D. destruct D as (G & N). apply Z.leb_le in N.
  destruct (C59_html no_glyphs png_demo no_encoders1 false receipt cmds C33_demo_encoders png_demo_takes B P) as (s & H & K).
  - apply Forall_forall. intros c I. apply gentleb_ok. exact (proj1 (forallb_forall _ _) G _ I).
  - unfold longest_paper, u32_max in *. lia.
  - apply K. exact (pictures_there receipt s receipt_pictures H).
Qed.
