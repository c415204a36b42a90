(** * PropsDraw: C59, a receipt that prints also becomes an image. *)
From Verif Require Import Base Command CommandSet Parser Vec Float32 GTypes Graphics Decoder Context Text
  Handlers Renderer ContextTheory RendererTheory Origin SpecPrinter StateTheory PropsText SpecRender LayoutTheory AreaTheory PlaceTheory SpecSafe
  SafeTheory SafeTheory2 SafeTheory3 SafeTheory4 SafeTheory5 PropsSafe PenTheory CallsTheory SpotTheory
  ThermalImage SpecCanvas CanvasTheory CanvasRect ImageRenderer PropsOutput PropsLayout PropsCells PropsImage SpecDraw DrawTheory.
Local Open Scope Z_scope.
Local Open Scope list_scope.
Local Arguments at_ : simpl never.
Local Arguments vlen : simpl never.

Definition easel (s : istate) : Prop := sheet (im_paper s) /\ cv_width (im_page s) = 0 /\ cv_bytes (im_page s) = [].
Lemma on_paper_total f s : easel s -> total (f (im_paper s)) -> exists s', on_paper f s = Ok s' /\ easel s'.
Proof. intros (_ & P) (c & E & S). exists (with_paper c s). unfold on_paper. rewrite E. split; [reflexivity | split; [exact S | exact P]]. Qed.
Lemma fold_total {A} (f : A -> canvas -> res canvas) (P : A -> Prop) l : (forall a c, P a -> sheet c -> total (f a c)) -> Forall P l ->
  forall c, sheet c -> total (fold_res f l c).
Proof.
  intros H. induction 1 as [|a l Pa _ IH]; intros c S; cbn [fold_res]; [exists c; auto|].
  destruct (H a c Pa S) as (c' & -> & S'). cbn [bind]. exact (IH c' S').
Qed.
Definition sized_call (x : context * event) : Prop :=
  match snd x with EText line _ h _ => In h sizes /\ Forall (fun w => span_wf w /\ s_character_height w <= h) line | _ => True end.
Lemma event_total fo x ev s : fonts_ok fo -> spot_call (x, ev) -> call_wf (x, ev) -> sized_call (x, ev) -> get_y x <= longest_paper ->
  easel s -> exists s', image_event fo x ev s = Ok s' /\ easel s'.
Proof.
  intros FO (Std & SP) (CI & WF) SZ YL ES. unfold longest_paper in *. cbn [fst snd] in *. unfold standard in Std.
  assert (OC : forall f, on_canvas x f s = on_paper f s) by (intros f; unfold on_canvas; rewrite Std; reflexivity).
  destruct ev; cbn [image_event]; try contradiction.
  - (* device *) exists s. split; [reflexivity | exact ES].
  - (* begin_render *) eexists. split; [reflexivity|]. destruct ES as ((_ & _ & AG & _) & _). unfold begin_render.
    rewrite (gk_width _ (si_graphics _ (ci_s _ CI))). split; [|split; reflexivity]. cbn [with_page with_paper im_paper].
    unfold set_width, empty. split; [|split; [left; reflexivity | split; [exact AG|]]].
    + split; [cbn; lia|]. exists 0. split; [lia|]. reflexivity.
    + change (0 / 609 <= HB). unfold HB. change (0 / 609) with 0. lia.
  - (* page area *) destruct SP as (-> & -> & ->). destruct ES as (S & PW & PB). unfold on_page, page_area_changed. cbn [rotate bind]. rewrite PW. cbn [Z.ltb Z.compare bind].
    unfold get_canvas_height. rewrite PW. cbn [Z.eqb Z.ltb Z.compare bind]. eexists. split; [reflexivity|]. split; [exact S | split; [exact PW | exact PB]].
  - (* graphics *) rewrite OC. apply on_paper_total; [exact ES|]. destruct ES as (S & _).
    apply (fold_total _ (fun r => rect_wf r /\ r_y r <= get_y x)); [|cbn [event_wf] in WF; rewrite Forall_forall in *; intros r Hr; split; [exact (WF _ Hr) | exact (proj1 (SP _ Hr))] | exact S].
    intros r c ((R1 & R2 & R3 & R4) & RY) Sc. unfold u32v in *. unfold put_rect. apply rect_total; try assumption; unfold u32_max, HB; nia.
  - (* image *) rewrite OC. apply on_paper_total; [exact ES|]. destruct ES as (S & _).
    destruct SP as (P1 & P2 & P3 & P4). destruct WF as ([W1 W2 W3] & V1 & V2). unfold u32v in *.
    assert (HBB : i_y i + i_h i <= HB) by (unfold HB; lia).
    unfold put_render_img. destruct (put_total (im_paper s) (i_x i) (i_y i) (i_w i) (i_h i) (i_pixels i) true S) as (c' & -> & S'); try lia; try assumption.
    cbn [bind]. destruct (i_upside_down i); [|exists c'; auto]. apply flip_total; try lia; assumption.
  - (* text *) rewrite OC. apply on_paper_total; [exact ES|]. destruct ES as (S & _). destruct SP as (OF & SW). destruct SZ as (IM & F2).
    apply (fold_total _ (fun w => spot_word (get_y x) w /\ span_wf w /\ s_character_height w <= max_height)); [| |exact S].
    + intros w c ((SK & d & D & DX & DW & DY) & W & LE) Sc. apply span_total; try assumption. exists d. unfold xb in *. split; [exact D|]. split; [exact DX|]. split; [exact DW | unfold longest_paper; lia].
    + rewrite Forall_forall in *. intros w Hw. split; [exact (SW _ Hw) | exact (F2 _ Hw)].
  - (* errors *) eexists. split; [reflexivity | exact ES].
  - (* end_render *) destruct ES as (S & PW & PB). pose proof S as (R & CW & AG & CH). unfold end_render. rewrite (paper_width _ CI).
    destruct (expand_to_width_rect 649 (im_paper s) R) as (c1 & -> & R1 & W1 & H1 & S1). cbn [bind].
    assert (W9 : cv_width c1 = 649) by lia. pose proof (rect_shows c1 R1 ltac:(lia)) as Sh. rewrite W9 in Sh.
    assert (Y0 : 0 <= a_y (g_render_area (c_graphics x)) <= 6400000).
    { assert (EY : get_y x = a_y (g_render_area (c_graphics x))) by (unfold get_y; rewrite Std; reflexivity).
      pose proof (y_u _ (ci_u _ CI)) as V. unfold u32v in V. lia. }
    destruct (expand_to_height_shows c1 649 _ _ (a_y (g_render_area (c_graphics x))) Sh ltac:(lia) ltac:(unfold u32_max; lia)) as (c2 & -> & Sh2 & SS2). cbn [bind].
    assert (H2 : get_canvas_height c2 <= HB /\ 0 <= get_canvas_height c2 /\ cv_width c2 = 649).
    { pose proof (shows_height _ _ _ _ Sh2) as E. rewrite E. split; [rewrite H1; unfold HB in *; lia|]. destruct Sh2 as (_ & H0 & W2 & _). split; [exact H0 | exact W2]. }
    destruct H2 as (H2 & H3 & W2). unfold consume_rgb_u8, mul_u32. rewrite CanvasTheory.chk_ok by (rewrite W2; unfold HB, u32_max in *; lia). cbn [bind].
    eexists. split; [reflexivity|]. split; [|split; [exact PW | exact PB]]. cbn [im_paper].
    unfold set_width. split; [split; [cbn; lia | exists 0; split; [lia | reflexivity]]|]. split; [right; reflexivity|].
    split; [|change (0 <= HB); unfold HB; lia]. cbn [set_cv_bytes set_cv_width cv_auto_grow]. destruct SS2 as (-> & _). destruct S1 as (-> & _). exact AG.
Qed.

Lemma calls_total fo l : fonts_ok fo -> Forall (fun x => spot_call x /\ call_wf x /\ sized_call x /\ get_y (fst x) <= longest_paper) l ->
  forall s, easel s -> exists s', image_calls fo l s = Ok s' /\ easel s'.
Proof.
  intros FO. unfold image_calls. induction 1 as [|[x ev] l (A & B & C & D) _ IH]; intros s ES; cbn [fold_res]; [eauto|].
  cbn [fst snd] in *. destruct (event_total fo x ev s FO A B C D ES) as (s' & -> & ES'). cbn [bind]. exact (IH s' ES').
Qed.
Lemma easel_new : easel image_new.
Proof.
  split; [|split; reflexivity]. split; [split; [cbn; lia | exists 0; split; [lia | reflexivity]]|]. split; [right; reflexivity|]. split; [reflexivity|].
  change (0 <= HB). unfold HB. lia.
Qed.
Lemma job_spots e right bs cmds s : encoders_ok e -> bytes_ok bs = true -> parse_esc_pos bs = Ok cmds -> Forall (gentle right) cmds ->
  60 + paper_for_all cmds <= u32_max -> render e bs renderer_new = Ok s ->
  Forall (fun x => spot_call x /\ get_y (fst x) <= 60 + paper_for_all cmds) (rs_calls s).
Proof.
  intros E B P G L H. unfold render in H. rewrite P in H. cbn [bind] in H.
  set (K := u32_max - (60 + paper_for_all cmds)) in *.
  assert (C : calm right (K + paper_for_all cmds) renderer_new) by (apply calm_new; unfold K, top, u32_max; lia).
  destruct (commands_spots right e cmds E K renderer_new s C ltac:(unfold K; lia) (parsed_sent _ _ B P) G H) as (new & En & F).
  cbn [renderer_new rs_calls app] in En. rewrite En. eapply Forall_impl; [|exact F]. cbn beta. intros x (S & Y). split; [exact S|].
  unfold K, top, u32_max in *. lia.
Qed.

(** *** C59: a job made of harmless commands, on at most 800 metres of paper, becomes an image: whatever
    the fonts look like, the image renderer does not crash on any of the calls it gets. *)
Theorem C59_image : forall fo e right bs cmds,
  encoders_ok e -> fonts_ok fo -> bytes_ok bs = true -> parse_esc_pos bs = Ok cmds -> Forall (gentle right) cmds ->
  60 + paper_for_all cmds <= u32_max ->
  exists s, render e bs renderer_new = Ok s /\
    (within_paper (rs_calls s) -> exists im, render_images fo e bs = Ok im).
Proof.
  intros fo e right bs cmds E FO B P G L. destruct (C33_no_crash e right bs cmds E B P G L) as (s & H). exists s. split; [exact H|].
  intros W. pose proof (job_spots e right bs cmds s E B P G L H) as SP.
  pose proof (job_history e bs s B H) as Hh.
  unfold render_images. rewrite H. cbn [bind].
  destruct (calls_total fo (rs_calls s) FO) with (s := image_new) as (im & R & _); [|exact easel_new | eauto].
  pose proof (td_calls _ (history_tidy _ _ Hh)) as T. unfold within_paper in W. rewrite Forall_forall in *. intros x Hx. split; [exact (proj1 (SP _ Hx))|]. split; [exact (T _ Hx)|]. split; [|exact (W _ Hx)].
  destruct x as [x ev]. unfold sized_call. cbn [snd]. destruct ev; try exact I. exact (call_sizes _ _ _ _ _ _ _ Hh Hx).
Qed.
(** A bound that can be read off the job: 255 dots for each character, 65 025 for each command that feeds paper, 200 000
    for each graphics command. *)
Theorem C59_short_job : forall fo e right bs cmds,
  encoders_ok e -> fonts_ok fo -> bytes_ok bs = true -> parse_esc_pos bs = Ok cmds -> Forall (gentle right) cmds ->
  60 + paper_for_all cmds <= longest_paper -> exists im, render_images fo e bs = Ok im.
Proof.
  intros fo e right bs cmds E FO B P G L. assert (L' : 60 + paper_for_all cmds <= u32_max) by (unfold longest_paper, u32_max in *; lia).
  destruct (C59_image fo e right bs cmds E FO B P G L') as (s & H & C). apply C.
  pose proof (job_spots e right bs cmds s E B P G L' H) as SP. unfold within_paper. eapply Forall_impl; [|exact SP]. cbn beta. intros x (_ & Y). lia.
Qed.
(** The limit is real: feeding 105 times 255 lines of 255 dots prints, and the image renderer panics
    when the sheet is finished, because its size does not fit 32 bits. *)
Definition long_roll : list Z := [27; 51; 255] ++ concat (repeat [27; 100; 255] 105).
Definition long_view (bs : list Z) : res (bool * bool) :=
  do s <- render no_encoders1 bs renderer_new;
  Ok (forallb (fun call => get_y (fst call) <=? u32_max) (rs_calls s),
      match image_calls (fun _ _ _ _ _ => None) (rs_calls s) image_new with Panic POverflow => true | _ => false end).
Lemma long_ends bs : long_view bs = Ok (true, true) -> exists s, render no_encoders1 bs renderer_new = Ok s /\
  render_images (fun _ _ _ _ _ => None) no_encoders1 bs = Panic POverflow.
Proof.
  unfold long_view, render_images. intros H. destruct (render no_encoders1 bs renderer_new) as [s|p]; [|discriminate]. cbn [bind] in *. exists s. split; [reflexivity|].
  injection H as _ H. destruct (image_calls _ _ _) as [im|[]]; try discriminate. reflexivity.
Qed.
Theorem C59_longer_paper_refuted : exists s, render no_encoders1 long_roll renderer_new = Ok s /\
  render_images (fun _ _ _ _ _ => None) no_encoders1 long_roll = Panic POverflow.
Proof. apply long_ends. vm_compute. reflexivity. Qed.
(** The receipt of C33 (text in several sizes, a barcode, a raster image, tabs, justification, a cut)
    becomes an image with any fonts and any encoders. *)
Example C59_demo_job : match parse_esc_pos receipt with
  | Ok cmds => forallb (gentleb false) cmds && (60 + paper_for_all cmds <=? longest_paper) | Panic _ => false end && bytes_ok receipt = true.
Proof. vm_compute. reflexivity. Qed.
Example C59_demo : forall fo e, fonts_ok fo -> encoders_ok e -> exists im, render_images fo e receipt = Ok im.
Proof.
  intros fo e FO E. pose proof C59_demo_job as D. apply andb_prop in D. destruct D as (D & B).
  destruct (parse_esc_pos receipt) as [cmds|] eqn:P; [|discriminate]. apply andb_prop in D. destruct D as (G & N). apply Z.leb_le in N.
  apply (C59_short_job fo e false receipt cmds E FO B P); [|exact N].
  apply Forall_forall. intros c I. apply gentleb_ok. exact (proj1 (forallb_forall _ _) G _ I).
Qed.
