(** * FlatTheory: a job without ESC L never leaves standard mode. *)
From Verif Require Import Base Command CommandSet Parser Vec GTypes Graphics Decoder Context Text Handlers Renderer
  ContextTheory RendererTheory Origin StateTheory SpecRender PropsOutput.
Local Open Scope Z_scope.
Local Open Scope list_scope.

Definition in_standard (c : context * event) : Prop := p_enabled (c_page (fst c)) = false.
Definition flat (s : rstate) : Prop := p_enabled (c_page (rs_ctx s)) = false /\ Forall in_standard (rs_calls s).

Lemma flat_call ev s : flat s -> flat (call ev s).
Proof. intros (M & F). split; [exact M|]. cbn [call rs_calls]. apply Forall_app. split; [exact F|]. constructor; [exact M | constructor]. Qed.
Lemma flat_with c s : flat s -> p_enabled (c_page c) = false -> flat (with_ctx c s).
Proof. intros (M & F) E. split; [exact E | exact F]. Qed.
Lemma flat_ctx f s s' : flat s -> (forall c, f (rs_ctx s) = Ok c -> p_enabled (c_page c) = p_enabled (c_page (rs_ctx s))) -> on_ctx f s = Ok s' -> flat s'.
Proof. intros S F H. apply on_ctx_inv in H. destruct H as (c & Hc & ->). apply flat_with; [exact S|]. rewrite (F _ Hc). exact (proj1 S). Qed.
Lemma flat_move f s s' : flat s -> (forall c, f (rs_ctx s) = Ok c -> moved (rs_ctx s) c) -> on_ctx f s = Ok s' -> flat s'.
Proof. intros S F H. refine (flat_ctx _ _ _ S _ H). intros c Hc. exact (moved_enabled _ _ (F _ Hc)). Qed.
Lemma flat_text s s' : flat s -> process_text s = Ok s' -> flat s'.
Proof.
  intros S H. unfold process_text in H. destruct (rs_spans s) as [|a r]; [injection H as <-; exact S|].
  apply bind_ok in H. destruct H as ([c lines] & Hl & H). apply layout_words_moved in Hl. apply moved_enabled in Hl.
  refine (fold_res_ind _ flat _ _ _ _ _ H).
  - split; [cbn; rewrite Hl; exact (proj1 S) | exact (proj2 S)].
  - intros l y y' _ Fy E. unfold render_line in E. destruct l as [|f q]; [injection E as <-; exact Fy|].
    repeat (apply bind_ok in E; destruct E as (? & _ & E)). injection E as <-. apply flat_call. exact Fy.
Qed.
Lemma flat_code2d q s s' : flat s -> process_code_2d q s = Ok s' -> flat s'.
Proof.
  intros S H. unfold process_code_2d in H. apply bind_ok in H. destruct H as (total & _ & H). cbv zeta in H.
  apply bind_ok in H. destruct H as (c & Hc & H). apply bind_ok in H. destruct H as ([[c1 i] rects] & Hf & H). injection H as <-.
  apply flat_call. apply flat_with; [exact S|].
  assert (M : moved c c1).
  { refine (fold_res_ind _ (fun y => moved c (fst (fst y))) _ (c, 1, []) (c1, i, rects) (moved_refl c) _ Hf).
    intros p y y' _ M E. exact (moved_trans _ _ _ M (code2d_point_moved _ _ _ _ _ E)). }
  rewrite (moved_enabled _ _ (moved_reset_x c1)), (moved_enabled _ _ M), (moved_enabled _ _ (set_x_moved _ _ _ Hc)). exact (proj1 S).
Qed.
Lemma flat_hri b s s' : flat s -> barcode_text b s = Ok s' -> flat s'.
Proof.
  intros S H. unfold barcode_text in H. apply bind_ok in H. destruct H as (s1 & H1 & H).
  refine (flat_move _ _ _ _ _ H); [|intros c Hc; exact (newline_moved _ _ _ Hc)]. refine (flat_text _ _ _ H1). exact S.
Qed.
Lemma flat_barcode b s s' : flat s -> process_barcode b s = Ok s' -> flat s'.
Proof.
  intros S H. unfold process_barcode in H. apply bind_ok in H. destruct H as (s1 & H1 & H).
  assert (S1 : flat s1) by (destruct (bc_human_readable _); try (injection H1 as <-; exact S); exact (flat_hri _ _ _ S H1)).
  apply bind_ok in H. destruct H as (total & _ & H). apply bind_ok in H. destruct H as (s2 & H2 & H).
  assert (S2 : flat s2) by (refine (flat_move _ _ _ S1 _ H2); intros c Hc; exact (set_x_moved _ _ _ Hc)).
  apply bind_ok in H. destruct H as ([c rects] & Hf & H). cbv zeta in H.
  assert (M : moved (rs_ctx s2) c).
  { refine (fold_res_ind _ (fun y => moved (rs_ctx s2) (fst y)) _ (rs_ctx s2, []) (c, rects) (moved_refl _) _ Hf).
    intros x y y' _ M E. exact (moved_trans _ _ _ M (barcode_point_moved _ _ _ _ E)). }
  apply bind_ok in H. destruct H as (s3 & H3 & H).
  assert (S3 : flat s3).
  { refine (flat_move _ _ _ _ _ H3).
    - apply flat_call. apply flat_with; [exact S2|]. rewrite (moved_enabled _ _ M). exact (proj1 S2).
    - intros c' Hc. exact (moved_trans _ _ _ (moved_reset_x _) (offset_y_moved _ _ _ Hc)). }
  destruct (bc_human_readable (c_barcode (rs_ctx s3))); try (injection H as <-; exact S3);
    apply bind_ok in H; destruct H as (s4 & H4 & H);
    (refine (flat_hri _ _ _ _ H); refine (flat_move _ _ _ S3 _ H4); intros c' Hc; exact (offset_y_moved _ _ _ Hc)).
Qed.
Lemma flat_image i s s' : flat s -> process_image i s = Ok s' -> flat s'.
Proof.
  intros S H. unfold process_image in H. cbv zeta in H. apply bind_ok in H. destruct H as (s1 & H1 & H).
  assert (S1 : flat s1).
  { destruct (i_flow i).
    - destruct (_ <? _); [|injection H1 as <-; exact S]. refine (flat_move _ _ _ S _ H1); intros c Hc; exact (newline_moved _ _ _ Hc).
    - destruct (p_enabled (c_page (rs_ctx s))); [injection H1 as <-; exact S|]. refine (flat_move _ _ _ S _ H1); intros c Hc; exact (set_x_moved _ _ _ Hc).
    - injection H1 as <-; exact S. }
  set (i' := set_i_y _ _) in *. pose proof (flat_call (EImage i') s1 S1) as S2. set (s2 := call (EImage i') s1) in *. clearbody s2.
  destruct (i_flow i').
  - refine (flat_move _ _ _ S2 _ H); intros c Hc; exact (offset_x_moved _ _ _ Hc).
  - destruct (p_enabled (c_page (rs_ctx s2))); [injection H as <-; exact S2|]. refine (flat_move _ _ _ S2 _ H); intros c Hc. inv_bind Hc. injection Hc as <-.
    exact (moved_trans _ _ _ (offset_y_moved _ _ _ Ha) (moved_reset_x _)).
  - injection H as <-. exact S2.
Qed.
Lemma flat_device d s s' : d <> BeginPageMode -> flat s -> process_device_command d s = Ok s' -> flat s'.
Proof.
  intros N S H. unfold process_device_command in H. cbv zeta in H. pose proof (flat_call (EDevice d) s S) as S0.
  set (s0 := call (EDevice d) s) in *. clearbody s0. clear S s. rename s0 into s.
  assert (G : forall y y', flat y -> page_geometry y = Ok y' -> flat y').
  { intros y y' Sy E. pose proof (page_geometry_mode _ _ E) as (M & _). unfold page_geometry in E. apply bind_ok in E. destruct E as ([[[rot w] h] p] & _ & E).
    injection E as <-. apply flat_call. apply flat_with; [exact Sy|]. unfold mode in M. cbn [call with_ctx rs_ctx] in M. rewrite M. exact (proj1 Sy). }
  destruct d; try (injection H as <-; exact S0); try congruence.
  all: try (refine (flat_ctx _ _ _ S0 _ H); intros ? E; injection E as <-; reflexivity).
  all: try (refine (flat_move _ _ _ S0 _ H); intros ? E; exact (newline_moved _ _ _ E)).
  - apply bind_ok in H. destruct H as (s1 & H1 & H). injection H as <-. apply flat_call. refine (flat_move _ _ _ S0 _ H1); intros ? E; exact (newline_moved _ _ _ E).
  - refine (flat_move _ _ _ S0 _ H); intros ? E; exact (feed_moved _ _ _ E).
  - injection H as <-. apply flat_call, flat_call. exact S0.
  - apply on_ctx_inv in H. destruct H as (c & Hc & ->). injection Hc as <-. apply flat_with; [apply flat_call; exact S0 | reflexivity].
  - refine (flat_ctx _ _ _ (flat_call ERenderPage _ S0) _ H). intros c E. inv_bind E. injection E as <-. reflexivity.
  - exact (G _ _ S0 H).
  - apply bind_ok in H. destruct H as (s1 & H1 & H). refine (G _ _ _ H). refine (flat_ctx _ _ _ S0 _ H1). intros ? E. injection E as <-. reflexivity.
  - refine (flat_ctx _ _ _ S0 _ H). intros c E. injection E as <-. unfold set_tab_len. destruct (_ <? _); reflexivity.
Qed.
Lemma device_flat c x d : get_device_command c x = Ok d -> c_handler c <> HPlain P_set_page_mode -> Forall (fun v => v <> BeginPageMode) d.
Proof.
  intros H N. destruct (special_dec (c_handler c)) as [C|C].
  - unfold get_device_command in H. destruct C as [C|[C|[C|[C|C]]]]; rewrite C in *; try congruence; cbn [device_plain] in H; injection H as <-;
      try destruct (p_enabled (c_page x)); repeat constructor; discriminate.
  - eapply Forall_impl; [|exact (device_steady _ _ _ H C)]. intros v (_ & _ & A & _). exact A.
Qed.
Lemma flat_devices l s s' : Forall (fun v => v <> BeginPageMode) l -> flat s -> process_device_commands l s = Ok s' -> flat s'.
Proof.
  intros F S H. unfold process_device_commands in H. refine (fold_res_ind _ flat _ s s' S _ H).
  intros d y y' Hin Sy E. exact (flat_device _ _ _ (proj1 (Forall_forall _ _) F _ Hin) Sy E).
Qed.
Lemma flat_apply e c s s' : flat s -> on_ctx (apply_context e c) s = Ok s' -> flat s'.
Proof.
  intros S H. apply on_ctx_inv in H. destruct H as (x & Hx & ->). apply flat_with; [exact S|].
  destruct (special_dec (c_handler c)) as [C|C].
  - destruct C as [C|[C|[C|[C|C]]]].
    3: { unfold apply_context in Hx. rewrite C in Hx. injection Hx as <-. reflexivity. }
    all: etransitivity; [refine (apply_context_mode e c (rs_ctx s) x _ Hx); rewrite C; discriminate | exact (proj1 S)].
  - rewrite (apply_context_mode e c (rs_ctx s) x) by (try exact Hx; intros E; apply C; unfold special; auto). exact (proj1 S).
Qed.
Lemma flat_step e c s s' : sent c -> c_commands c <> [27; 76] -> flat s -> process_command e c s = Ok s' -> flat s'.
Proof.
  intros Sc NL S H.
  assert (N : c_handler c <> HPlain P_set_page_mode).
  { intros E. pose proof (kind_of_special _ Sc) as K. rewrite E in K. apply NL. exact (proj2 K). }
  unfold process_command in H. destruct (c_kind c).
  - apply bind_ok in H. destruct H as (d & Hd & H). apply bind_ok in H. destruct H as (s1 & H1 & H).
    exact (flat_devices _ _ _ (device_flat _ _ _ Hd N) (flat_text _ _ S H1) H).
  - injection H as <-. destruct (get_text c (rs_ctx s)); exact S.
  - apply bind_ok in H. destruct H as (s1 & H1 & H). apply bind_ok in H. destruct H as (d & Hd & H).
    exact (flat_devices _ _ _ (device_flat _ _ _ Hd N) (flat_apply _ _ _ _ S H1) H).
  - apply bind_ok in H. destruct H as (s1 & H1 & H). apply bind_ok in H. destruct H as (g & _ & H).
    apply bind_ok in H. destruct H as (s2 & H2 & H). apply bind_ok in H. destruct H as (d & Hd & H).
    refine (flat_devices _ _ _ (device_flat _ _ _ Hd N) _ H). pose proof (flat_text _ _ S H1) as S1.
    destruct g as [g|]; [|injection H2 as <-; exact S1]. destruct g; cbn [process_gfx] in H2.
    + injection H2 as <-. exact S1.
    + exact (flat_code2d _ _ _ S1 H2).
    + exact (flat_barcode _ _ _ S1 H2).
    + exact (flat_image _ _ _ S1 H2).
  - apply bind_ok in H. destruct H as (s1 & H1 & H). exact (flat_apply _ _ _ _ (flat_text _ _ S H1) H).
  - apply bind_ok in H. destruct H as (s1 & H1 & H). apply bind_ok in H. destruct H as (s2 & H2 & H). apply bind_ok in H. destruct H as (d & Hd & H).
    exact (flat_devices _ _ _ (device_flat _ _ _ Hd N) (flat_apply _ _ _ _ (flat_text _ _ S H1) H2) H).
  - injection H as <-. exact S.
  - apply bind_ok in H. destruct H as (s1 & H1 & H). injection H as <-. exact (flat_text _ _ S H1).
Qed.
Lemma flat_run e l : forall s s', Forall sent l -> Forall (fun c => c_commands c <> [27; 76]) l -> flat s -> run_commands e l s = Ok s' -> flat s'.
Proof.
  induction l as [|c l IH]; intros s s' F N S H; unfold run_commands in H; cbn [fold_res] in H; [injection H as <-; exact S|].
  apply Forall_cons_iff in F. destruct F as (F1 & F2). apply Forall_cons_iff in N. destruct N as (N1 & N2).
  apply bind_ok in H. destruct H as (s1 & H1 & H). exact (IH _ _ F2 N2 (flat_step _ _ _ _ F1 N1 S H1) H).
Qed.
Lemma flat_new : flat renderer_new.
Proof. split; [vm_compute; reflexivity | constructor]. Qed.
