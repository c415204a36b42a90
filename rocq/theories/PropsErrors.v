(** * PropsErrors: C47, errors are reported once each, in order, and none is invented. *)
From Verif Require Import Base Command CommandSet Parser Vec Float32 GTypes Graphics Decoder Context Text Handlers Renderer
  ContextTheory RendererTheory Origin StateTheory PropsContext SpecRender PropsOutput PropsLayout SpecError
  ThermalImage ImageRenderer CanvasRect PropsImage PropsHtml.
Local Open Scope Z_scope.
Local Open Scope list_scope.

Lemma on_ctx_errors f s s' : on_ctx f s = Ok s' -> rs_errors s' = rs_errors s.
Proof. intros H. apply on_ctx_inv in H. destruct H as (c & _ & ->). reflexivity. Qed.
Lemma device_errors d s s' : process_device_command d s = Ok s' -> rs_errors s' = rs_errors s.
Proof.
  unfold process_device_command. cbv zeta. intros H.
  assert (P : forall t t', page_geometry t = Ok t' -> rs_errors t' = rs_errors t).
  { intros t t' E. unfold page_geometry in E. apply bind_ok in E. destruct E as ([[[r w] h] p] & _ & E). injection E as <-. reflexivity. }
  destruct d; try (injection H as <-; reflexivity); try exact (on_ctx_errors _ _ _ H); try exact (P _ _ H).
  all: apply bind_ok in H; destruct H as (t & Ht & H); first [injection H as <- | rewrite (P _ _ H)]; exact (on_ctx_errors _ _ _ Ht).
Qed.
Lemma devices_errors l : forall s s', process_device_commands l s = Ok s' -> rs_errors s' = rs_errors s.
Proof.
  unfold process_device_commands. induction l as [|d l IH]; intros s s' H; cbn [fold_res] in H; [now injection H as <-|].
  apply bind_ok in H. destruct H as (s1 & H1 & H). rewrite (IH _ _ H). exact (device_errors _ _ _ H1).
Qed.
Lemma text_errors s s' : process_text s = Ok s' -> rs_errors s' = rs_errors s.
Proof. intros H. apply process_text_quiet in H. destruct H as ((_ & E & _) & _). exact E. Qed.

(** One command: exactly its complaints are added at the end. *)
Theorem C47_each_command : forall e c s s',
  process_command e c s = Ok s' -> rs_errors s' = rs_errors s ++ complaints e c (rs_ctx s).
Proof.
  intros e c s s' H. unfold process_command in H. unfold complaints. destruct (c_kind c).
  - apply bind_ok in H. destruct H as (d & _ & H). apply bind_ok in H. destruct H as (s1 & H1 & H).
    rewrite (devices_errors _ _ _ H), (text_errors _ _ H1), app_nil_r. reflexivity.
  - injection H as <-. rewrite app_nil_r. destruct (get_text c (rs_ctx s)); reflexivity.
  - apply bind_ok in H. destruct H as (s1 & H1 & H). apply bind_ok in H. destruct H as (d & _ & H).
    rewrite (devices_errors _ _ _ H), (on_ctx_errors _ _ _ H1), app_nil_r. reflexivity.
  - apply bind_ok in H. destruct H as (s1 & H1 & H). apply bind_ok in H. destruct H as (g & Hg & H).
    apply bind_ok in H. destruct H as (s2 & H2 & H). apply bind_ok in H. destruct H as (d & _ & H).
    rewrite (devices_errors _ _ _ H). destruct (process_text_moved _ _ H1) as (M & Sp).
    rewrite (get_graphics_moved e c _ _ M) in Hg. rewrite Hg. rewrite <- (text_errors _ _ H1).
    destruct g as [g|].
    + destruct (process_gfx_moved _ _ _ H2 Sp) as (_ & _ & _ & E). destruct g; exact E.
    + injection H2 as <-. now rewrite app_nil_r.
  - apply bind_ok in H. destruct H as (s1 & H1 & H). rewrite (on_ctx_errors _ _ _ H), (text_errors _ _ H1), app_nil_r. reflexivity.
  - apply bind_ok in H. destruct H as (s1 & H1 & H). apply bind_ok in H. destruct H as (s2 & H2 & H). apply bind_ok in H. destruct H as (d & _ & H).
    rewrite (devices_errors _ _ _ H), (on_ctx_errors _ _ _ H2), (text_errors _ _ H1), app_nil_r. reflexivity.
  - injection H as <-. now rewrite app_nil_r.
  - apply bind_ok in H. destruct H as (s1 & H1 & H). injection H as <-. cbn [log_error rs_errors]. rewrite (text_errors _ _ H1). reflexivity.
Qed.

(** Any run of commands, from any state: the errors are the commands' complaints, in order. *)
Theorem C47_errors : forall e l s s',
  run_commands e l s = Ok s' -> rs_errors s' = rs_errors s ++ complaints_run e l s.
Proof.
  intros e l. unfold run_commands. induction l as [|c l IH]; intros s s' H; cbn [fold_res complaints_run] in *.
  - injection H as <-. now rewrite app_nil_r.
  - apply bind_ok in H. destruct H as (s1 & H1 & H). rewrite H1, (IH _ _ H), (C47_each_command _ _ _ _ H1), app_assoc. reflexivity.
Qed.

(** A job: the commands the parser could not recognise are reported, each once, in the order they
    were sent. *)
Theorem C47_unknown_commands : forall e bs cmds s s',
  parse_esc_pos bs = Ok cmds -> render e bs s = Ok s' ->
  exists new, rs_errors s' = rs_errors s ++ new /\ unknowns new = filter is_unknown cmds.
Proof.
  intros e bs cmds s s' P H. unfold render in H. rewrite P in H. cbn [bind] in H.
  exists (complaints_run e cmds s). split; [exact (C47_errors _ _ _ _ H)|]. clear P bs. revert s s' H.
  unfold run_commands. induction cmds as [|c l IH]; intros s s' H; [reflexivity|]. cbn [fold_res] in H.
  apply bind_ok in H. destruct H as (s1 & H1 & H). cbn [complaints_run filter]. rewrite H1.
  unfold unknowns. rewrite flat_map_app. fold (unknowns (complaints_run e l s1)). rewrite (IH _ _ H).
  unfold complaints, is_unknown. destruct (c_kind c); try reflexivity. destruct (get_graphics e c (rs_ctx s)) as [[[m|q|b|i]|]|]; reflexivity.
Qed.

(** ** The image renderer's own errors *)

(** the errors of [c'] are those of [c] and perhaps more *)
Definition more_errors (c c' : canvas) : Prop := exists n, cv_errors c' = cv_errors c ++ n.
Lemma more_refl c : more_errors c c.
Proof. exists []. now rewrite app_nil_r. Qed.
Lemma more_same c c' : cv_errors c' = cv_errors c -> more_errors c c'.
Proof. exists []. now rewrite app_nil_r. Qed.
Lemma more_trans a b c : more_errors a b -> more_errors b c -> more_errors a c.
Proof. intros (x & X) (y & Y). exists (x ++ y). rewrite Y, X, app_assoc. reflexivity. Qed.
Lemma expand_h_errors h c c' : expand_to_height h c = Ok c' -> cv_errors c' = cv_errors c.
Proof. unfold expand_to_height. intros H. apply bind_ok in H. destruct H as (n & _ & H). destruct (_ <=? _); injection H as <-; reflexivity. Qed.
Lemma expand_w_errors w c c' : expand_to_width w c = Ok c' -> cv_errors c' = cv_errors c.
Proof.
  unfold expand_to_width. cbv zeta. intros H. destruct (_ <? _); [injection H as <-; reflexivity|]. destruct (_ <? _); [discriminate|].
  apply bind_ok in H. destruct H as ([b i] & _ & H). injection H as <-. reflexivity.
Qed.
Lemma put_errors x y w h px m c c' : put_pixels x y w h px m c = Ok c' -> more_errors c c'.
Proof.
  unfold put_pixels. intros H. apply bind_ok in H. destruct H as (a & _ & H).
  destruct (_ <? _); [injection H as <-; eexists; reflexivity|]. cbv zeta in H.
  destruct (_ || _); [injection H as <-; eexists; reflexivity|].
  apply bind_ok in H. destruct H as (xe & _ & H). apply bind_ok in H. destruct H as (nh & _ & H).
  apply bind_ok in H. destruct H as ([[fw fh] fp] & _ & H). apply bind_ok in H. destruct H as (yh & _ & H).
  apply bind_ok in H. destruct H as (c1 & H1 & H). apply bind_ok in H. destruct H as ([[a1 a2] a3] & _ & H).
  injection H as <-. apply more_same. exact (expand_h_errors _ _ _ H1).
Qed.
Lemma flip_errors x y w h c c' : flip_pixels x y w h c = Ok c' -> more_errors c c'.
Proof.
  unfold flip_pixels. intros H. apply bind_ok in H. destruct H as (a & _ & H). destruct (_ <? _); [injection H as <-; apply more_refl|].
  apply bind_ok in H. destruct H as (ye & _ & H). apply bind_ok in H. destruct H as (c1 & H1 & H).
  apply bind_ok in H. destruct H as (n & _ & H). apply bind_ok in H. destruct H as (si & _ & H). apply bind_ok in H. destruct H as (fl & _ & H).
  exact (more_trans _ _ _ (more_same _ _ (expand_h_errors _ _ _ H1)) (put_errors _ _ _ _ _ _ _ _ H)).
Qed.
Lemma rect_errors x y w h col m c c' : draw_rect x y w h col m c = Ok c' -> more_errors c c'.
Proof. unfold draw_rect. intros H. apply bind_ok in H. destruct H as (n & _ & H). exact (put_errors _ _ _ _ _ _ _ _ H). Qed.
Lemma img_errors i c c' : put_render_img i c = Ok c' -> more_errors c c'.
Proof.
  unfold put_render_img. intros H. apply bind_ok in H. destruct H as (c1 & H1 & H). apply (more_trans _ _ _ (put_errors _ _ _ _ _ _ _ _ H1)).
  destruct (i_upside_down i); [exact (flip_errors _ _ _ _ _ _ H) | injection H as <-; apply more_refl].
Qed.
Lemma fold_more {A} (f : A -> canvas -> res canvas) l : (forall a c c', f a c = Ok c' -> more_errors c c') ->
  forall c c', fold_res f l c = Ok c' -> more_errors c c'.
Proof.
  intros F. induction l as [|a l IH]; intros c c' H; cbn [fold_res] in H; [injection H as <-; apply more_refl|].
  apply bind_ok in H. destruct H as (c1 & H1 & H). exact (more_trans _ _ _ (F _ _ _ H1) (IH _ _ H)).
Qed.
Lemma char_errors fo s top ch x c x' c' : span_char fo s top ch (x, c) = Ok (x', c') -> more_errors c c'.
Proof.
  unfold span_char. intros H. apply bind_ok in H. destruct H as (bm & _ & H). destruct bm as [[[px w] h]|].
  - destruct (_ || _); [injection H as _ <-; apply more_refl|]. apply bind_ok in H. destruct H as (y & _ & H).
    apply bind_ok in H. destruct H as (c1 & H1 & H). apply bind_ok in H. destruct H as (x1 & _ & H). injection H as _ <-.
    exact (put_errors _ _ _ _ _ _ _ _ H1).
  - apply bind_ok in H. destruct H as (x1 & _ & H). injection H as _ <-. apply more_refl.
Qed.
Lemma chars_errors fo s top l : forall x c x' c', fold_res (span_char fo s top) l (x, c) = Ok (x', c') -> more_errors c c'.
Proof.
  induction l as [|ch l IH]; intros x c x' c' H; cbn [fold_res] in H; [injection H as _ <-; apply more_refl|].
  apply bind_ok in H. destruct H as ([x1 c1] & H1 & H). exact (more_trans _ _ _ (char_errors _ _ _ _ _ _ _ _ H1) (IH _ _ _ _ H)).
Qed.
Lemma span_errors fo off mh s c c' : render_span fo off mh s c = Ok c' -> more_errors c c'.
Proof.
  unfold render_span. cbv zeta. intros H. destruct (s_dimensions s) as [d|]; [|injection H as <-; apply more_refl].
  apply bind_ok in H. destruct H as (x & _ & H). apply bind_ok in H. destruct H as (low & _ & H).
  apply bind_ok in H. destruct H as ([x1 c1] & H1 & H). apply bind_ok in H. destruct H as (c2 & H2 & H). apply bind_ok in H. destruct H as (c3 & H3 & H).
  apply (more_trans _ _ _ (chars_errors _ _ _ _ _ _ _ _ H1)).
  assert (A : more_errors c1 c2).
  { destruct (0 <? s_underline s); [|injection H2 as <-; apply more_refl].
    apply bind_ok in H2. destruct H2 as (y1 & _ & H2). apply bind_ok in H2. destruct H2 as (y2 & _ & H2). apply bind_ok in H2. destruct H2 as (y3 & _ & H2).
    exact (rect_errors _ _ _ _ _ _ _ _ H2). }
  assert (B : more_errors c2 c3).
  { destruct (0 <? s_strikethrough s); [|injection H3 as <-; apply more_refl].
    apply bind_ok in H3. destruct H3 as (y1 & _ & H3). apply bind_ok in H3. destruct H3 as (y2 & _ & H3). exact (rect_errors _ _ _ _ _ _ _ _ H3). }
  apply (more_trans _ _ _ A), (more_trans _ _ _ B).
  destruct (s_upside_down s); [|injection H as <-; apply more_refl]. apply bind_ok in H. destruct H as (y1 & _ & H). exact (flip_errors _ _ _ _ _ _ H).
Qed.
Lemma rotate_errors r c c' : rotate r c = Ok c' -> cv_errors c' = cv_errors c.
Proof.
  destruct r; cbn [rotate]; intros H; [injection H as <-; reflexivity| | |];
    (unfold rotate_90, rotate_180, rotate_270 in H; cbv zeta in H; apply bind_ok in H; destruct H as (b & _ & H); injection H as <-; reflexivity).
Qed.

(** the errors of both canvases only grow *)
Definition more_both (s s' : istate) : Prop := more_errors (im_paper s) (im_paper s') /\ more_errors (im_page s) (im_page s').
Lemma both_refl s : more_both s s.
Proof. split; apply more_refl. Qed.
Lemma both_trans a b c : more_both a b -> more_both b c -> more_both a c.
Proof. intros (A & B) (C & D). exact (conj (more_trans _ _ _ A C) (more_trans _ _ _ B D)). Qed.
Lemma on_canvas_errors x f s s' : (forall c c', f c = Ok c' -> more_errors c c') -> on_canvas x f s = Ok s' -> more_both s s' /\ im_reported s' = im_reported s.
Proof.
  intros F. unfold on_canvas, on_page, on_paper. destruct (p_enabled _); intros H; apply bind_ok in H; destruct H as (c & H1 & H); injection H as <-.
  - split; [split; [apply more_refl | exact (F _ _ H1)] | reflexivity].
  - split; [split; [exact (F _ _ H1) | apply more_refl] | reflexivity].
Qed.
Lemma event_errors fo x ev s s' : image_event fo x ev s = Ok s' -> more_both s s' /\
  im_reported s' = im_reported s ++ match ev with EGetErrors => cv_errors (im_paper s) ++ cv_errors (im_page s) | _ => [] end.
Proof.
  intros H. destruct ev; cbn [image_event] in H; rewrite ?app_nil_r.
  - injection H as <-. split; [apply both_refl | reflexivity].
  - injection H as <-. split; [split; apply more_same; reflexivity | reflexivity].
  - injection H as <-. split; [split; apply more_same; reflexivity | reflexivity].
  - unfold on_page, page_area_changed in H. apply bind_ok in H. destruct H as (c & Hc & H). injection H as <-.
    apply bind_ok in Hc. destruct Hc as (c1 & H1 & Hc). apply bind_ok in Hc. destruct Hc as (c2 & H2 & Hc).
    split; [|reflexivity]. split; [apply more_refl|]. apply more_same. cbn [with_page im_page]. rewrite <- (rotate_errors _ _ _ H1).
    transitivity (cv_errors c2).
    + destruct (get_canvas_height c2 <? h); [exact (expand_h_errors _ _ _ Hc) | injection Hc as <-; reflexivity].
    + destruct (cv_width c1 <? w); [exact (expand_w_errors _ _ _ H2) | injection H2 as <-; reflexivity].
  - injection H as <-. split; [apply both_refl | reflexivity].
  - unfold render_page in H. cbv zeta in H. apply bind_ok in H. destruct H as (t & Ht & H). cbn [copy] in H. apply bind_ok in H. destruct H as (b & Hb & H).
    unfold on_paper in H. apply bind_ok in H. destruct H as (c & Hc & H). injection H as <-. split; [|reflexivity].
    split; [exact (put_errors _ _ _ _ _ _ _ _ Hc)|]. apply more_same. cbn [with_page with_paper im_page].
    rewrite (rotate_errors _ _ _ Hb). exact (rotate_errors _ _ _ Ht).
  - refine (on_canvas_errors _ _ _ _ _ H). intros c c'. apply fold_more. intros a d d' E. exact (rect_errors _ _ _ _ _ _ _ _ E).
  - refine (on_canvas_errors _ _ _ _ _ H). intros c c'. apply img_errors.
  - refine (on_canvas_errors _ _ _ _ _ H). intros c c'. apply fold_more. intros a d d' E. exact (span_errors _ _ _ _ _ _ E).
  - injection H as <-. split; [split; apply more_refl | reflexivity].
  - unfold end_render in H. apply bind_ok in H. destruct H as (c1 & H1 & H). apply bind_ok in H. destruct H as (c2 & H2 & H).
    apply bind_ok in H. destruct H as ([[[w h] b] c3] & H3 & H). injection H as <-. split; [|reflexivity]. split; [|apply more_refl].
    apply more_same. cbn [im_paper]. unfold consume_rgb_u8 in H3. cbv zeta in H3. apply bind_ok in H3. destruct H3 as (n & _ & H3). injection H3 as _ _ _ <-.
    cbn [set_width set_cv_bytes set_cv_width cv_errors]. rewrite (expand_h_errors _ _ _ H2). exact (expand_w_errors _ _ _ H1).
Qed.
Lemma in_more c c' r : more_errors c c' -> In r (cv_errors c) -> In r (cv_errors c').
Proof. intros (n & ->) H. apply in_or_app. auto. Qed.
Lemma calls_errors fo l : forall s s', image_calls fo l s = Ok s' -> more_both s s' /\
  forall r, In r (im_reported s') -> In r (im_reported s) \/ In r (cv_errors (im_paper s')) \/ In r (cv_errors (im_page s')).
Proof.
  unfold image_calls. induction l as [|[x ev] l IH]; intros s s' H; cbn [fold_res] in H.
  - injection H as <-. split; [apply both_refl | auto].
  - apply bind_ok in H. destruct H as (s1 & H1 & H). destruct (event_errors _ _ _ _ _ H1) as (B1 & R1). destruct (IH _ _ H) as (B2 & R2).
    split; [exact (both_trans _ _ _ B1 B2)|]. intros r Hr. destruct (R2 _ Hr) as [A|A]; [|auto]. rewrite R1 in A. apply in_app_or in A.
    destruct A as [A|A]; [auto|]. right. destruct (both_trans _ _ _ B1 B2) as (M1 & M2).
    destruct ev; try contradiction. apply in_app_or in A. destruct A as [A|A]; [left; exact (in_more _ _ _ M1 A) | right; exact (in_more _ _ _ M2 A)].
Qed.

(** every end_render call comes with one get_render_errors call *)
Definition gets (l : list (context * event)) : nat := length (filter (fun x => match snd x with EGetErrors => true | _ => false end) l).
Lemma gets_app a b : gets (a ++ b) = (gets a + gets b)%nat.
Proof. unfold gets. rewrite filter_app, app_length. reflexivity. Qed.
Definition paired (s s' : rstate) : Prop := exists n, rs_calls s' = rs_calls s ++ n /\ gets n = ev_ends n.
Lemma paired_trans a b c : paired a b -> paired b c -> paired a c.
Proof. intros (x & X & Gx) (y & Y & Gy). exists (x ++ y). rewrite Y, X, app_assoc, gets_app, ev_ends_app. split; [reflexivity | congruence]. Qed.
Lemma paired_same s s' : rs_calls s' = rs_calls s -> paired s s'.
Proof. exists []. rewrite app_nil_r. auto. Qed.
Lemma paired_ctx f s s' : on_ctx f s = Ok s' -> paired s s'.
Proof. intros H. apply on_ctx_inv in H. destruct H as (c & _ & ->). apply paired_same. reflexivity. Qed.
Lemma paired_draw s s' : adds is_draw_call s s' -> paired s s'.
Proof.
  intros (n & E & F). exists n. split; [exact E|]. clear E. induction n as [|[x ev] n IH]; [reflexivity|]. apply Forall_cons_iff in F. destruct F as (F & Fn).
  specialize (IH Fn). unfold gets, ev_ends in *. destruct ev; cbn in F; try contradiction; cbn [filter snd ends_output]; exact IH.
Qed.
Lemma paired_call ev s : match ev with EGetErrors | EEndRender => False | _ => True end -> paired s (call ev s).
Proof. intros N. exists [(rs_ctx s, ev)]. split; [reflexivity|]. destruct ev; try contradiction; reflexivity. Qed.
Lemma device_paired d s s' : process_device_command d s = Ok s' -> paired s s'.
Proof.
  unfold process_device_command. cbv zeta. intros H.
  assert (P : forall t t', page_geometry t = Ok t' -> paired t t').
  { intros t t' E. unfold page_geometry in E. apply bind_ok in E. destruct E as ([[[r w] h] p] & _ & E). injection E as <-.
    refine (paired_trans _ _ _ (paired_same _ _ _) (paired_call (EPageAreaChanged r w h) _ I)). reflexivity. }
  refine (paired_trans _ _ _ (paired_call (EDevice d) s I) _).
  destruct d; try (injection H as <-; apply paired_same; reflexivity); try exact (paired_ctx _ _ _ H); try exact (P _ _ H).
  all: try (match type of H with on_ctx _ (call ?ev _) = _ => refine (paired_trans _ _ _ (paired_call ev _ I) (paired_ctx _ _ _ H)) end).
  all: try (apply bind_ok in H; destruct H as (t & Ht & H); refine (paired_trans _ _ _ (paired_ctx _ _ _ Ht) _);
            first [exact (P _ _ H) | match type of H with Ok (call ?ev _) = _ => injection H as <-; exact (paired_call ev _ I) end]).
  injection H as <-. eexists [(_, EGetErrors); (_, EEndRender)]. split; [cbn [call rs_calls]; rewrite <- !app_assoc; reflexivity | reflexivity].
Qed.
Lemma devices_paired l : forall s s', process_device_commands l s = Ok s' -> paired s s'.
Proof.
  unfold process_device_commands. induction l as [|d l IH]; intros s s' H; cbn [fold_res] in H; [injection H as <-; apply paired_same; reflexivity|].
  apply bind_ok in H. destruct H as (s1 & H1 & H). exact (paired_trans _ _ _ (device_paired _ _ _ H1) (IH _ _ H)).
Qed.
Lemma text_paired s s' : process_text s = Ok s' -> paired s s'.
Proof. intros H. apply process_text_quiet in H. destruct H as ((_ & _ & A) & _). exact (paired_draw _ _ (adds_weaken _ _ _ _ text_is_draw A)). Qed.
Lemma command_paired e c s s' : process_command e c s = Ok s' -> paired s s'.
Proof.
  intros H. unfold process_command in H. destruct (c_kind c).
  - apply bind_ok in H. destruct H as (d & _ & H). apply bind_ok in H. destruct H as (s1 & H1 & H).
    exact (paired_trans _ _ _ (text_paired _ _ H1) (devices_paired _ _ _ H)).
  - injection H as <-. apply paired_same. destruct (get_text c (rs_ctx s)); reflexivity.
  - apply bind_ok in H. destruct H as (s1 & H1 & H). apply bind_ok in H. destruct H as (d & _ & H).
    exact (paired_trans _ _ _ (paired_ctx _ _ _ H1) (devices_paired _ _ _ H)).
  - apply bind_ok in H. destruct H as (s1 & H1 & H). apply bind_ok in H. destruct H as (g & Hg & H).
    apply bind_ok in H. destruct H as (s2 & H2 & H). apply bind_ok in H. destruct H as (d & _ & H).
    apply (paired_trans _ _ _ (text_paired _ _ H1)). refine (paired_trans _ _ _ _ (devices_paired _ _ _ H)).
    destruct g as [g|]; [|injection H2 as <-; apply paired_same; reflexivity].
    destruct (process_text_moved _ _ H1) as (_ & Sp). destruct (process_gfx_moved _ _ _ H2 Sp) as (_ & A & _). exact (paired_draw _ _ A).
  - apply bind_ok in H. destruct H as (s1 & H1 & H). exact (paired_trans _ _ _ (text_paired _ _ H1) (paired_ctx _ _ _ H)).
  - apply bind_ok in H. destruct H as (s1 & H1 & H). apply bind_ok in H. destruct H as (s2 & H2 & H). apply bind_ok in H. destruct H as (d & _ & H).
    exact (paired_trans _ _ _ (text_paired _ _ H1) (paired_trans _ _ _ (paired_ctx _ _ _ H2) (devices_paired _ _ _ H))).
  - injection H as <-. apply paired_same. reflexivity.
  - apply bind_ok in H. destruct H as (s1 & H1 & H). injection H as <-. exact (paired_trans _ _ _ (text_paired _ _ H1) (paired_same _ _ eq_refl)).
Qed.
Lemma run_paired e l : forall s s', run_commands e l s = Ok s' -> paired s s'.
Proof.
  unfold run_commands. induction l as [|c l IH]; intros s s' H; cbn [fold_res] in H; [injection H as <-; apply paired_same; reflexivity|].
  apply bind_ok in H. destruct H as (s1 & H1 & H). exact (paired_trans _ _ _ (command_paired _ _ _ _ H1) (IH _ _ H)).
Qed.
Lemma calls_unreported fo l : gets l = 0%nat -> forall s s', image_calls fo l s = Ok s' -> im_reported s' = im_reported s.
Proof.
  unfold image_calls. induction l as [|[x ev] l IH]; intros G s s' H; cbn [fold_res] in H; [now injection H as <-|].
  apply bind_ok in H. destruct H as (s1 & H1 & H). destruct (event_errors _ _ _ _ _ H1) as (_ & R). cbn [snd] in R.
  unfold gets in G, IH. cbn [filter snd] in G. destruct ev; try discriminate; rewrite (IH G _ _ H), R; apply app_nil_r.
Qed.
(** the calls of a job end with the collection of the errors and the end of the last sheet *)
Lemma job_tail e bs s : bytes_ok bs = true -> render e bs renderer_new = Ok s ->
  exists l x x', rs_calls s = l ++ [(x, EGetErrors); (x', EEndRender)].
Proof.
  intros B H. destruct (C31_framed e bs renderer_new s B eq_refl H) as (_ & mid & N). apply new_calls_all in N.
  destruct (exists_last (l := rs_calls s)) as (m & [x' ev'] & Em). { intros E. rewrite E in N. discriminate. }
  rewrite Em, map_app in N. cbn [map snd] in N. rewrite app_assoc in N. change [EDevice EndPrint; EGetErrors; EEndRender] with ([EDevice EndPrint; EGetErrors] ++ [EEndRender]) in N.
  rewrite app_assoc in N. apply app_inj_tail in N. destruct N as (N & ->).
  destruct (exists_last (l := m)) as (m1 & [x1 ev1] & Em1). { intros E. rewrite E in N. destruct (([EDevice BeginPrint; EBeginRender] ++ mid)); discriminate. }
  rewrite Em1, map_app in N. cbn [map snd] in N. change [EDevice EndPrint; EGetErrors] with ([EDevice EndPrint] ++ [EGetErrors]) in N.
  rewrite app_assoc in N. apply app_inj_tail in N. destruct N as (_ & ->). exists m1, x1, x'. rewrite Em, Em1, <- app_assoc. reflexivity.
Qed.

(** A job rendered as images: what the canvases of paper and page refused to draw is reported, and
    nothing else; each refusal once if the job has no form feed outside page mode. *)
Theorem C47_image_errors : forall fo e bs cmds im,
  bytes_ok bs = true -> parse_esc_pos bs = Ok cmds -> render_images fo e bs = Ok im ->
  (forall r, In r (im_reported im) <-> In r (cv_errors (im_paper im) ++ cv_errors (im_page im))) /\
  (sheets false cmds = 0%nat -> im_reported im = cv_errors (im_paper im) ++ cv_errors (im_page im)).
Proof.
  intros fo e bs cmds im B P E. unfold render_images in E. apply bind_ok in E. destruct E as (s & Es & E).
  assert (R : run_commands e cmds renderer_new = Ok s) by (unfold render in Es; rewrite P in Es; exact Es).
  destruct (job_tail _ _ _ B Es) as (l & x & x' & Ec).
  destruct (calls_errors _ _ _ _ E) as (_ & Q).
  destruct (run_paired _ _ _ _ R) as (n & En & Gn). cbn [renderer_new rs_calls app] in En.
  rewrite Ec in E. apply image_calls_app in E. destruct E as (s1 & E1 & E2).
  unfold image_calls in E2. cbn [fold_res fst snd] in E2. apply bind_ok in E2. destruct E2 as (s2 & E2 & E3). apply bind_ok in E3. destruct E3 as (s3 & E3 & E4). injection E4 as <-.
  destruct (event_errors _ _ _ _ _ E2) as (_ & R2). destruct (event_errors _ _ _ _ _ E3) as (_ & R3). rewrite app_nil_r in R3.
  cbn [image_event] in E2. injection E2 as <-. cbn [im_reported] in R2, R3. clear R2.
  assert (V : cv_errors (im_paper s3) = cv_errors (im_paper s1) /\ cv_errors (im_page s3) = cv_errors (im_page s1)).
  { cbn [image_event] in E3. unfold end_render in E3. cbn [im_paper im_page] in E3. apply bind_ok in E3. destruct E3 as (c1 & H1 & H). apply bind_ok in H. destruct H as (c2 & H2 & H).
    apply bind_ok in H. destruct H as ([[[w h] b] c3] & H3 & H). injection H as <-. split; [|reflexivity]. cbn [im_paper].
    unfold consume_rgb_u8 in H3. cbv zeta in H3. apply bind_ok in H3. destruct H3 as (k & _ & H3). injection H3 as _ _ _ <-.
    cbn [set_width set_cv_bytes set_cv_width cv_errors]. rewrite (expand_h_errors _ _ _ H2). exact (expand_w_errors _ _ _ H1). }
  destruct V as (V1 & V2). split.
  - intros r. split.
    + intros Hr. destruct (Q _ Hr) as [[]|A]. apply in_or_app. exact A.
    + intros Hr. rewrite R3. apply in_or_app. right. rewrite <- V1, <- V2. exact Hr.
  - intros S0. destruct (C31_outputs e bs cmds renderer_new s B P R) as (evs & N & C & _). apply new_calls_all in N.
    change (p_enabled (c_page (rs_ctx renderer_new))) with false in C. rewrite S0, <- N, <- ends_count, En, <- Gn, <- En, Ec, gets_app in C.
    assert (G0 : gets l = 0%nat) by (change (gets [(x, EGetErrors); (x', EEndRender)]) with 1%nat in C; lia).
    rewrite R3, (calls_unreported _ _ G0 _ _ E1), V1, V2. reflexivity.
Qed.

(** Not once each when there is a form feed: the canvas never forgets its errors, so what was refused
    on the first sheet is reported again for every later one. *)
Theorem C47_reported_once_refuted : exists fo e bs im r,
  bytes_ok bs = true /\ render_images fo e bs = Ok im /\ im_reported im = [r; r] /\
  cv_errors (im_paper im) ++ cv_errors (im_page im) = [r].
Proof.
  assert (V : (do s <- render_images no_glyphs no_encoders1 [27; 76; 29; 118; 48; 0; 1; 0; 1; 0; 255; 12; 12];
               Ok (im_reported s, cv_errors (im_paper s) ++ cv_errors (im_page s)))
              = Ok ([ExceedsPaper 0 0 0 0 true true; ExceedsPaper 0 0 0 0 true true], [ExceedsPaper 0 0 0 0 true true])) by (vm_compute; reflexivity).
  destruct (render_images no_glyphs no_encoders1 [27; 76; 29; 118; 48; 0; 1; 0; 1; 0; 255; 12; 12]) as [im|] eqn:E; [|discriminate].
  cbn [bind] in V. injection V as V1 V2. exists no_glyphs, no_encoders1, [27; 76; 29; 118; 48; 0; 1; 0; 1; 0; 255; 12; 12], im, (ExceedsPaper 0 0 0 0 true true).
  split; [reflexivity|]. split; [exact E|]. split; [exact V1 | exact V2].
Qed.

(** An unknown escape sequence (reported after the empty one a stream not starting with a known
    command is greeted with) and a barcode of the wrong length. *)
Example C47_demo : exists s u1 u2,
  render no_encoders1 [27; 1; 65; 29; 107; 65; 2; 49; 49] renderer_new = Ok s /\
  rs_errors s = [UnknownCommand u1; UnknownCommand u2; GraphicsError "Invalid data length"] /\
  c_data u1 = [] /\ c_data u2 = [27; 1; 65].
Proof.
  assert (V : (do s <- render no_encoders1 [27; 1; 65; 29; 107; 65; 2; 49; 49] renderer_new;
               Ok (match rs_errors s with [UnknownCommand a; UnknownCommand b; GraphicsError m] => Some (a, b, m) | _ => None end))
            = Ok (Some (cmd_unknown, with_data cmd_unknown [27; 1; 65], "Invalid data length"%string))) by (vm_compute; reflexivity).
  destruct (render _ _ renderer_new) as [s|]; [|discriminate]. cbn [bind] in V.
  destruct (rs_errors s) as [|[a|?] [|[b|?] [|[?|m] [|? ?]]]] eqn:E; try discriminate. injection V as -> -> ->.
  exists s, cmd_unknown, (with_data cmd_unknown [27; 1; 65]). auto.
Qed.
