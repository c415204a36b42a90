(** * PropsOutput: C31, how many outputs a job gives and how it is framed. *)
From Verif Require Import Base Command CommandSet Parser SpecStream Vec Float32 GTypes Graphics Decoder Context Text
  Handlers Renderer ContextTheory RendererTheory Origin SpecPrinter StateTheory PropsParser SpecRender.
Local Open Scope Z_scope.
Local Open Scope list_scope.

Definition ev_ends (l : list (context * event)) : nat := length (filter (fun x => ends_output (snd x)) l).
Definition ev_begins (l : list (context * event)) : nat := length (filter (fun x => begins_output (snd x)) l).
(** page mode, outputs and begins; the step added so many of the latter *)
Definition mode (s : rstate) : bool := p_enabled (c_page (rs_ctx s)).
Definition eff (s s' : rstate) (m : bool) (ne nb : nat) : Prop :=
  mode s' = m /\
  exists n, rs_calls s' = rs_calls s ++ n /\ ev_ends n = ne /\ ev_begins n = nb.
Lemma ev_ends_app a b : ev_ends (a ++ b) = (ev_ends a + ev_ends b)%nat.
Proof. unfold ev_ends. rewrite filter_app, app_length. reflexivity. Qed.
Lemma ev_begins_app a b : ev_begins (a ++ b) = (ev_begins a + ev_begins b)%nat.
Proof. unfold ev_begins. rewrite filter_app, app_length. reflexivity. Qed.
Lemma eff_trans a b c m m' x y x' y' : eff a b m x y -> eff b c m' x' y' -> eff a c m' (x + x') (y + y').
Proof.
  intros (_ & n & E & A & B) (M & n' & E' & A' & B'). split; [exact M|].
  exists (n ++ n'). rewrite E', E, app_assoc, ev_ends_app, ev_begins_app. auto.
Qed.
Definition neutral (s s' : rstate) : Prop := eff s s' (mode s) 0 0.
Lemma neutral_refl s : neutral s s.
Proof. split; [reflexivity|]. exists []. rewrite app_nil_r. auto. Qed.
Lemma neutral_trans a b c : neutral a b -> neutral b c -> neutral a c.
Proof.
  intros A B. pose proof (eff_trans _ _ _ _ _ _ _ _ _ A B) as E. destruct A as (A & _).
  unfold neutral. rewrite <- A. exact E.
Qed.
Lemma neutral_eff a b c m x y : neutral a b -> eff b c m x y -> eff a c m x y.
Proof. intros A B. exact (eff_trans _ _ _ _ _ _ _ _ _ A B). Qed.
Lemma draws_none n : Forall is_draw_call n -> ev_ends n = 0%nat /\ ev_begins n = 0%nat.
Proof.
  intros F. induction F as [|[c e] n Hx F (I1 & I2)]; [split; reflexivity|].
  destruct e; cbn in Hx; try contradiction; split; assumption.
Qed.
Lemma neutral_adds s s' : moved (rs_ctx s) (rs_ctx s') -> adds is_draw_call s s' -> neutral s s'.
Proof.
  intros M (n & E & F). split; [exact (moved_enabled _ _ M)|]. exists n. destruct (draws_none _ F). auto.
Qed.
Lemma neutral_text s s' : process_text s = Ok s' -> neutral s s'.
Proof.
  intros H. apply process_text_quiet in H. destruct H as ((M & _ & A) & _).
  exact (neutral_adds _ _ M (adds_weaken _ _ _ _ text_is_draw A)).
Qed.
Lemma neutral_ctx f s s' :
  (forall c, f (rs_ctx s) = Ok c -> p_enabled (c_page c) = p_enabled (c_page (rs_ctx s))) -> on_ctx f s = Ok s' -> neutral s s'.
Proof.
  intros F H. apply on_ctx_inv in H. destruct H as (c & Hc & ->). split; [exact (F _ Hc)|].
  exists []. rewrite app_nil_r. auto.
Qed.
Lemma eff_call ev s : eff s (call ev s) (mode s) (if ends_output ev then 1 else 0) (if begins_output ev then 1 else 0).
Proof.
  split; [reflexivity|]. exists [(rs_ctx s, ev)]. split; [reflexivity|].
  destruct ev; split; reflexivity.
Qed.

(** ** context changes *)
Lemma apply_plain_mode id c x x' : id <> P_select_standard_mode -> apply_plain id c x = Ok x' ->
  p_enabled (c_page x') = p_enabled (c_page x).
Proof.
  intros N H. destruct id; cbn [apply_plain] in H; try (injection H as <-; reflexivity); try congruence.
  - injection H as <-. destruct (ctx_default x); reflexivity.
  - injection H as <-. unfold reset. destruct (ctx_default x); reflexivity.
  - destruct (p_enabled (c_page x)) eqn:E; [|injection H as <-; exact E].
    rewrite <- E. exact (moved_enabled _ _ (offset_y_relative_moved _ _ _ H)).
  - destruct (p_enabled (c_page x)) eqn:E; [|injection H as <-; exact E].
    unfold set_page_area in H. repeat inv_bind H. injection H as <-. exact E.
  - injection H as <-. destruct (p_enabled (c_page x)) eqn:E; exact E.
  - injection H as <-. destruct (_ <? 2); [reflexivity|]. destruct (6 <? _); reflexivity.
  - exact (moved_enabled _ _ (set_x_absolute_moved _ _ _ H)).
  - inv_bind H. injection H as <-. reflexivity.
  - injection H as <-. unfold set_motion_units. destruct (_ || _); reflexivity.
  - destruct (p_enabled (c_page x)) eqn:E; [|injection H as <-; exact E].
    rewrite <- E. exact (moved_enabled _ _ (set_y_absolute_moved _ _ _ H)).
Qed.
Lemma apply_sub_mode e id c x x' : apply_sub e id c x = Ok x' -> p_enabled (c_page x') = p_enabled (c_page x).
Proof.
  intros H. destruct id; cbn [apply_sub] in H; try (injection H as <-; reflexivity).
  all: try (unfold define_column, define_raster, store_buffer in H;
    repeat match type of H with (if ?b then _ else _) = _ => destruct b end;
    repeat (try discriminate; inv_bind H); injection H as <-; reflexivity).
  all: unfold qr_store, clear_one in H; repeat inv_bind H; injection H as <-;
    repeat match goal with |- context [match ?z with _ => _ end] => destruct z end; reflexivity.
Qed.
Lemma apply_context_mode e c x x' :
  c_handler c <> HPlain P_select_standard_mode -> apply_context e c x = Ok x' ->
  p_enabled (c_page x') = p_enabled (c_page x).
Proof.
  intros N H. unfold apply_context in H. destruct (c_handler c) as [id| |cap|s|s|s|s|id];
    try (injection H as <-; reflexivity).
  - refine (apply_plain_mode _ _ _ _ _ H). congruence.
  - injection H as <-. unfold character_effects. cbv zeta. destruct (vlen (c_data c) <? 3); [reflexivity|].
    repeat match goal with |- context [match ?z with _ => _ end] => destruct z end; reflexivity.
  - destruct (ss_subcommand s) as [sc|]; [exact (apply_sub_mode _ _ _ _ _ H) | injection H as <-; reflexivity].
  - exact (apply_sub_mode _ _ _ _ _ H).
Qed.

(** ** device commands *)
Definition steady (d : device_command) : Prop :=
  d <> BeginPrint /\ d <> EndPrint /\ d <> BeginPageMode /\ d <> EndPageMode.
Lemma page_geometry_mode s s' : page_geometry s = Ok s' -> neutral s s'.
Proof.
  unfold page_geometry. intros H. inv_bind H. destruct a as [[[rot w] h] p']. injection H as <-.
  assert (P : p_enabled p' = p_enabled (c_page (rs_ctx s))).
  { unfold apply_logical_area in Ha. inv_bind Ha. inv_bind Ha. inv_bind Ha. injection Ha as _ _ _ <-.
    cbn [upd_ppa p_enabled set_p_page_area].
    match type of Ha0 with match p_direction ?z with _ => _ end = _ => set (q := z) in * end.
    assert (Q : p_enabled q = p_enabled (c_page (rs_ctx s))) by (unfold q; destruct (_ || _); reflexivity).
    rewrite <- Q. destruct (p_direction q) eqn:D;
      unfold translate_top_left_to_right, translate_bottom_right_to_left, translate_top_right_to_bottom, translate_bottom_left_to_top in Ha0;
      repeat inv_bind Ha0; injection Ha0 as <-; reflexivity. }
  split; [exact P|]. eexists. split; [reflexivity|]. split; reflexivity.
Qed.
Lemma steady_neutral d s s' : steady d -> process_device_command d s = Ok s' -> neutral s s'.
Proof.
  intros (N1 & N2 & N3 & N4) H. unfold process_device_command in H. cbv zeta in H.
  refine (neutral_trans _ _ _ (eff_call (EDevice d) s) _).
  set (s0 := call (EDevice d) s) in *. clearbody s0.
  destruct d; try (injection H as <-; apply neutral_refl); try congruence.
  all: try (refine (neutral_ctx _ _ _ _ H); intros ? E; injection E as <-; reflexivity).
  all: try (refine (neutral_ctx _ _ _ _ H); intros ? E; exact (moved_enabled _ _ (newline_moved _ _ _ E))).
  - refine (neutral_ctx _ _ _ _ H); intros ? E; exact (moved_enabled _ _ (feed_moved _ _ _ E)).
  - refine (neutral_trans _ _ _ (eff_call ERenderPage s0) _).
    refine (neutral_ctx _ _ _ _ H). intros c E. inv_bind E. injection E as <-. reflexivity.
  - exact (page_geometry_mode _ _ H).
  - inv_bind H. refine (neutral_trans _ _ _ _ (page_geometry_mode _ _ H)).
    refine (neutral_ctx _ _ _ _ Ha); intros ? E; injection E as <-; reflexivity.
  - refine (neutral_ctx _ _ _ _ H). intros c E. injection E as <-. unfold set_tab_len. destruct (_ <? _); reflexivity.
Qed.
Lemma steadies_neutral l s s' : Forall steady l -> process_device_commands l s = Ok s' -> neutral s s'.
Proof.
  intros F H. unfold process_device_commands in H.
  refine (fold_res_ind _ (fun y => neutral s y) _ s s' (neutral_refl s) _ H).
  intros d y y' Hin Sy E. refine (neutral_trans _ _ _ Sy (steady_neutral _ _ _ _ E)).
  exact (proj1 (Forall_forall _ _) F _ Hin).
Qed.

(** the four handlers that matter, and begin print *)
Definition special (h : handler) : Prop :=
  h = HPlain P_formfeed \/ h = HPlain P_set_page_mode \/ h = HPlain P_select_standard_mode \/
  h = HPlain P_end_print \/ h = HPlain P_begin_print.
Lemma special_dec h : special h \/ ~ special h.
Proof.
  destruct h as [id| | | | | | |]; try (right; unfold special; intuition discriminate).
  destruct id; try (right; unfold special; intuition discriminate); left; unfold special; auto 6.
Qed.
Ltac steady_one := repeat match goal with |- Forall _ _ => constructor end; unfold steady; repeat split; discriminate.
Lemma device_steady c x d : get_device_command c x = Ok d -> ~ special (c_handler c) -> Forall steady d.
Proof.
  intros H N. unfold get_device_command in H. destruct (c_handler c) as [id| |cap|s|s|s|s|id];
    try (injection H as <-; constructor).
  - unfold special in N. destruct id; cbn [device_plain] in H;
      try (exfalso; apply N; auto 6; fail);
      try (injection H as <-; steady_one);
      try (injection H as <-; destruct (p_enabled (c_page x)); steady_one).
    inv_bind H. injection H as <-. steady_one.
  - injection H as <-. unfold feed_cut_device.
    repeat match goal with |- Forall _ (match ?z with _ => _ end) => destruct z end; steady_one.
  - destruct id; injection H as <-; steady_one.
Qed.

Lemma other_neutral e c s s' :
  ~ special (c_handler c) -> process_command e c s = Ok s' -> neutral s s'.
Proof.
  intros N H.
  assert (AC : forall y y', on_ctx (apply_context e c) y = Ok y' -> neutral y y').
  { intros y y' E. refine (neutral_ctx _ _ _ _ E). intros x Hx. refine (apply_context_mode _ _ _ _ _ Hx).
    intros B. apply N. unfold special. auto. }
  unfold process_command in H. destruct (c_kind c).
  - inv_bind H. inv_bind H.
    exact (neutral_trans _ _ _ (neutral_text _ _ Ha0) (steadies_neutral _ _ _ (device_steady _ _ _ Ha N) H)).
  - injection H as <-. destruct (get_text c (rs_ctx s)); (split; [reflexivity|]; exists []; rewrite app_nil_r; auto).
  - inv_bind H. inv_bind H.
    exact (neutral_trans _ _ _ (AC _ _ Ha) (steadies_neutral _ _ _ (device_steady _ _ _ Ha0 N) H)).
  - inv_bind H. inv_bind H. inv_bind H. inv_bind H.
    assert (G : neutral a a1).
    { destruct a0 as [g|]; [|injection Ha1 as <-; apply neutral_refl].
      destruct (process_text_moved _ _ Ha) as (_ & Sp).
      destruct (process_gfx_moved _ _ _ Ha1 Sp) as (M & A & _). exact (neutral_adds _ _ M A). }
    exact (neutral_trans _ _ _ (neutral_text _ _ Ha) (neutral_trans _ _ _ G (steadies_neutral _ _ _ (device_steady _ _ _ Ha2 N) H))).
  - inv_bind H. exact (neutral_trans _ _ _ (neutral_text _ _ Ha) (AC _ _ H)).
  - inv_bind H. inv_bind H. inv_bind H.
    exact (neutral_trans _ _ _ (neutral_text _ _ Ha) (neutral_trans _ _ _ (AC _ _ Ha0)
      (steadies_neutral _ _ _ (device_steady _ _ _ Ha1 N) H))).
  - injection H as <-. apply neutral_refl.
  - inv_bind H. injection H as <-. destruct (neutral_text _ _ Ha) as (A & B). split; [exact A | exact B].
Qed.

(** prefix and kind of a table entry with one of these handlers *)
Definition special_entry (t : command) : bool :=
  match c_handler t, c_kind t with
  | HPlain P_formfeed, KControl => list_eqb (c_commands t) [12]
  | HPlain P_set_page_mode, KContextControl => list_eqb (c_commands t) [27; 76]
  | HPlain P_select_standard_mode, KContext => list_eqb (c_commands t) [27; 83]
  | HPlain P_end_print, KControl => list_eqb (c_commands t) []
  | HPlain P_begin_print, KControl => list_eqb (c_commands t) []
  | HPlain P_formfeed, _ | HPlain P_set_page_mode, _ | HPlain P_select_standard_mode, _ | HPlain P_end_print, _ | HPlain P_begin_print, _ => false
  | _, _ => negb (existsb (list_eqb (c_commands t)) [[12]; [27; 76]; [27; 83]])
  end.
Lemma special_entries : forallb special_entry all_commands = true.
Proof. vm_compute. reflexivity. Qed.
Lemma list_eqb_eq a b : list_eqb a b = true <-> a = b.
Proof. unfold list_eqb. destruct (list_eq_dec Z.eq_dec a b); split; congruence. Qed.

(** what one command does to page mode and the outputs *)
Definition after (c : command) (m : bool) : bool * nat * nat :=
  match c_handler c with
  | HPlain P_formfeed => (false, if m then 0%nat else 1%nat, 0%nat)
  | HPlain P_set_page_mode => (true, 0%nat, 0%nat)
  | HPlain P_select_standard_mode => (false, 0%nat, 0%nat)
  | HPlain P_end_print => (m, 1%nat, 0%nat)
  | HPlain P_begin_print => (m, 0%nat, 1%nat)
  | _ => (m, 0%nat, 0%nat)
  end.
Lemma after_other c m : ~ special (c_handler c) -> after c m = (m, 0%nat, 0%nat).
Proof.
  unfold after, special. intros N. destruct (c_handler c) as [id| | | | | | |]; try reflexivity.
  destruct id; try reflexivity; exfalso; apply N; auto 6.
Qed.
Lemma kind_of_special c : sent c ->
  match c_handler c with
  | HPlain P_formfeed => c_kind c = KControl /\ c_commands c = [12]
  | HPlain P_set_page_mode => c_kind c = KContextControl /\ c_commands c = [27; 76]
  | HPlain P_select_standard_mode => c_kind c = KContext /\ c_commands c = [27; 83]
  | HPlain P_end_print | HPlain P_begin_print => c_kind c = KControl /\ c_commands c = []
  | _ => c_commands c <> [12] /\ c_commands c <> [27; 76] /\ c_commands c <> [27; 83]
  end.
Proof.
  intros S. destruct (sent_reported _ S) as [(t & Ht & _ & I)|(sc & _ & I)].
  - pose proof (proj1 (forallb_forall _ _) special_entries _ Ht) as E.
    rewrite (in_kind _ _ I), (in_commands _ _ I). pose proof (in_handler _ _ I) as L.
    assert (O : negb (existsb (list_eqb (c_commands t)) [[12]; [27; 76]; [27; 83]]) = true ->
                c_commands t <> [12] /\ c_commands t <> [27; 76] /\ c_commands t <> [27; 83]).
    { intros X. repeat split; intros Y; rewrite Y in X; discriminate X. }
    unfold special_entry in E. unfold handler_like in L.
    destruct (c_handler t) as [id| |?|?|?|?|?|?]; destruct (c_handler c) as [id'| |?|?|?|?|?|?]; try contradiction;
      try (exact (O E)).
    subst id'. destruct id; try (exact (O E)); destruct (c_kind t); try discriminate E;
      apply list_eqb_eq in E; auto.
  - rewrite (si_handler _ _ I). pose proof (si_long _ _ I) as L.
    repeat split; intros Y; rewrite Y in L; cbn in L; lia.
Qed.

Lemma step_effect e c s s' : sent c -> process_command e c s = Ok s' ->
  let '(m, ne, nb) := after c (mode s) in eff s s' m ne nb.
Proof.
  intros Sc H. destruct (special_dec (c_handler c)) as [C|C].
  2: { rewrite (after_other _ _ C). exact (other_neutral _ _ _ _ C H). }
  pose proof (kind_of_special _ Sc) as K. unfold after.
  destruct C as [C|[C|[C|[C|C]]]]; rewrite C in *; destruct K as (K & _); unfold process_command in H; rewrite K in H.
  - apply bind_ok in H. destruct H as (d & Hd & H). apply bind_ok in H. destruct H as (s1 & Hs1 & H).
    pose proof (neutral_text _ _ Hs1) as N. refine (neutral_eff _ _ _ _ _ _ N _).
    assert (M1 : mode s1 = mode s) by exact (proj1 N).
    unfold get_device_command in Hd. rewrite C in Hd. cbn [device_plain] in Hd. injection Hd as <-.
    fold (mode s) in H. rewrite <- M1 in *. destruct (mode s1) eqn:M.
    + unfold process_device_commands in H. cbn [fold_res] in H. apply bind_ok in H. destruct H as (s2 & H2 & H).
      cbn [bind] in H. apply bind_ok in H. destruct H as (s3 & H3 & H). injection H as <-.
      assert (E2 : eff s1 s2 false 0 0).
      { cbn [process_device_command] in H2. apply on_ctx_inv in H2. destruct H2 as (x & Hx & ->). injection Hx as <-.
        split; [reflexivity|]. exists [(rs_ctx s1, EDevice EndPageMode); (rs_ctx s1, EPageEnd)]. split; [|split; reflexivity].
        cbn. rewrite <- app_assoc. reflexivity. }
      assert (E3 : neutral s2 s3) by (refine (steady_neutral _ _ _ _ H3); unfold steady; repeat split; discriminate).
      pose proof (eff_trans _ _ _ _ _ _ _ _ _ E2 E3) as E4. destruct E2 as (E2 & _). rewrite E2 in E4. exact E4.
    + unfold process_device_commands in H. cbn [fold_res bind process_device_command] in H. injection H as <-.
      split; [exact M|]. eexists. split; [cbn; rewrite <- !app_assoc; reflexivity|]. split; reflexivity.
  - apply bind_ok in H. destruct H as (s1 & Hs1 & H). apply bind_ok in H. destruct H as (s2 & Hs2 & H).
    refine (neutral_eff _ _ _ _ _ _ (neutral_text _ _ Hs1) _).
    apply on_ctx_inv in Hs2. destruct Hs2 as (x & Hx & ->). unfold apply_context in Hx. rewrite C in Hx. injection Hx as <-.
    unfold get_device_command in H. rewrite C in H. cbn [device_plain bind] in H.
    unfold process_device_commands in H. cbn [fold_res bind process_device_command on_ctx] in H. injection H as <-.
    split; [reflexivity|]. eexists. split; [cbn; rewrite <- !app_assoc; reflexivity|]. split; reflexivity.
  - apply bind_ok in H. destruct H as (s1 & Hs1 & H).
    refine (neutral_eff _ _ _ _ _ _ (neutral_text _ _ Hs1) _).
    apply on_ctx_inv in H. destruct H as (x & Hx & ->). unfold apply_context in Hx. rewrite C in Hx. injection Hx as <-.
    split; [reflexivity|]. exists []. rewrite app_nil_r. auto.
  - apply bind_ok in H. destruct H as (d & Hd & H). apply bind_ok in H. destruct H as (s1 & Hs1 & H).
    unfold get_device_command in Hd. rewrite C in Hd. cbn [device_plain] in Hd. injection Hd as <-.
    pose proof (neutral_text _ _ Hs1) as N. refine (neutral_eff _ _ _ _ _ _ N _).
    unfold process_device_commands in H. cbn [fold_res bind process_device_command] in H. injection H as <-.
    split; [exact (proj1 N)|]. eexists. split; [cbn; rewrite <- !app_assoc; reflexivity|]. split; reflexivity.
  - apply bind_ok in H. destruct H as (d & Hd & H). apply bind_ok in H. destruct H as (s1 & Hs1 & H).
    unfold get_device_command in Hd. rewrite C in Hd. cbn [device_plain] in Hd. injection Hd as <-.
    pose proof (neutral_text _ _ Hs1) as N. refine (neutral_eff _ _ _ _ _ _ N _).
    unfold process_device_commands in H. cbn [fold_res] in H. apply bind_ok in H. destruct H as (s2 & H & H2). injection H2 as <-.
    cbn [process_device_command] in H. apply bind_ok in H. destruct H as (s3 & H3 & H). injection H as <-.
    apply on_ctx_inv in H3. destruct H3 as (x & Hx & ->).
    split; [exact (eq_trans (moved_enabled _ _ (newline_moved _ _ _ Hx)) (proj1 N))|].
    eexists. split; [cbn; rewrite <- !app_assoc; reflexivity|]. split; reflexivity.
Qed.

(** ** The whole job *)
Definition ends_of (l : list command) : nat := length (filter (fun c => match c_handler c with HPlain P_end_print => true | _ => false end) l).
Definition begins_of (l : list command) : nat := length (filter (fun c => match c_handler c with HPlain P_begin_print => true | _ => false end) l).

Lemma run_effect e l : forall s s', Forall sent l -> run_commands e l s = Ok s' ->
  exists m, eff s s' m (sheets (mode s) l + ends_of l) (begins_of l).
Proof.
  induction l as [|c l IH]; intros s s' F H.
  - injection H as <-. exists (mode s). apply neutral_refl.
  - inversion F as [|? ? Sc F']; subst. unfold run_commands in H. cbn [fold_res] in H.
    apply bind_ok in H. destruct H as (s1 & H1 & H). pose proof (step_effect _ _ _ _ Sc H1) as E.
    destruct (IH _ _ F' H) as (m & E2). exists m.
    pose proof (kind_of_special _ Sc) as K. unfold after in E.
    assert (Q : forall a b c d m0, eff s s1 m0 a b -> (sheets m0 l + ends_of l + a = c)%nat -> (begins_of l + b = d)%nat -> eff s s' m c d).
    { intros a b c0 d m0 X <- <-. destruct (X) as (M0 & _). rewrite M0 in E2.
      pose proof (eff_trans _ _ _ _ _ _ _ _ _ X E2) as Y.
      rewrite Nat.add_comm, (Nat.add_comm (begins_of l)). exact Y. }
    assert (O : c_commands c <> [12] /\ c_commands c <> [27; 76] /\ c_commands c <> [27; 83] ->
                sheets (mode s) (c :: l) = sheets (mode s) l).
    { intros (A & B & D). cbn [sheets]. destruct (c_commands c) as [|x r]; [reflexivity|].
      destruct r as [|y r].
      - destruct (Z.eq_dec x 12) as [->|N]; [congruence|].
        destruct x as [|x|x]; try reflexivity. repeat (destruct x as [x|x|]; try reflexivity). congruence.
      - destruct r as [|z r].
        + destruct (Z.eq_dec x 27) as [->|N].
          * destruct (Z.eq_dec y 76) as [->|N1]; [congruence|]. destruct (Z.eq_dec y 83) as [->|N2]; [congruence|].
            destruct y as [|y|y]; try reflexivity. repeat (destruct y as [y|y|]; try reflexivity); congruence.
          * destruct x as [|x|x]; try reflexivity. repeat (destruct x as [x|x|]; try reflexivity). congruence.
        + destruct x as [|x|x]; try reflexivity. repeat (destruct x as [x|x|]; try reflexivity).
          destruct y as [|y|y]; try reflexivity. repeat (destruct y as [y|y|]; try reflexivity). }
    unfold ends_of, begins_of in *.
    destruct (c_handler c) as [id| | | | | | |] eqn:Hc; cbn [filter]; rewrite ?Hc.
    2-8: refine (Q _ _ _ _ _ E _ _); rewrite ?(O K); cbn; lia.
    destruct id; try (refine (Q _ _ _ _ _ E _ _); rewrite ?(O K); cbn; lia);
      destruct K as (_ & K); refine (Q _ _ _ _ _ E _ _); cbn [sheets]; rewrite ?K; cbn [length];
      try destruct (mode s); lia.
Qed.

(** names of the two framing commands *)
Lemma frame_name c : sent c ->
  (c_name c = "Begin Print"%string <-> c_handler c = HPlain P_begin_print) /\
  (c_name c = "End Print"%string <-> c_handler c = HPlain P_end_print).
Proof.
  intros S. destruct (sent_reported _ S) as [(t & Ht & _ & I)|(sc & Hs & I)].
  - assert (F : forallb (fun t => match c_handler t with
        | HPlain P_begin_print => String.eqb (c_name t) "Begin Print"
        | HPlain P_end_print => String.eqb (c_name t) "End Print"
        | _ => negb (String.eqb (c_name t) "Begin Print") && negb (String.eqb (c_name t) "End Print") end) all_commands = true)
      by (vm_compute; reflexivity).
    pose proof (proj1 (forallb_forall _ _) F _ Ht) as E. cbv beta in E. clear F.
    rewrite (in_name _ _ I). pose proof (in_handler _ _ I) as L. unfold handler_like in L.
    assert (O : negb (String.eqb (c_name t) "Begin Print") && negb (String.eqb (c_name t) "End Print") = true ->
                c_name t <> "Begin Print"%string /\ c_name t <> "End Print"%string).
    { intros X. apply andb_prop in X. destruct X as (X1 & X2). split; intros Y; rewrite Y in *; discriminate. }
    destruct (c_handler t) as [id| |?|?|?|?|?|?]; destruct (c_handler c) as [id'| |?|?|?|?|?|?]; try contradiction;
      try (destruct (O E); split; split; intros; congruence).
    subst id'. destruct id; try (destruct (O E); split; split; intros; congruence);
      apply String.eqb_eq in E; rewrite E; split; split; intros; try reflexivity; discriminate.
  - assert (F : forallb (fun t => negb (String.eqb (sc_name t) "Begin Print") && negb (String.eqb (sc_name t) "End Print")) (code2d_table ++ graphics_table) = true)
      by (vm_compute; reflexivity).
    pose proof (proj1 (forallb_forall _ _) F _ Hs) as E. cbv beta in E.
    apply andb_prop in E. destruct E as (E1 & E2). rewrite (si_name _ _ I), (si_handler _ _ I).
    split; split; intros Y; try discriminate Y; rewrite Y in *; discriminate.
Qed.

(** In every job the output renderer is told once to begin, and as often to end (giving an output
    each time) as the job has form feeds outside page mode, plus one for the job itself. *)
Theorem C31_outputs : forall e bs cmds s s',
  bytes_ok bs = true -> parse_esc_pos bs = Ok cmds -> run_commands e cmds s = Ok s' ->
  exists l, new_calls s s' l /\
    count ends_output l = S (sheets (p_enabled (c_page (rs_ctx s))) cmds) /\
    count begins_output l = 1%nat.
Proof.
  intros e bs cmds s s' B P H.
  assert (F : Forall sent cmds). { apply Forall_forall. intros c Hc. exists bs, cmds. auto. }
  destruct (run_effect _ _ _ _ F H) as (m & _ & n & E & E1 & E2).
  exists (map snd n). split; [exists n; auto|].
  assert (T : forall f l, count f (map snd l) = length (filter (fun x : context * event => f (snd x)) l)).
  { intros f l. unfold count. induction l as [|x l IH]; [reflexivity|]. cbn [map filter].
    destruct (f (snd x)); cbn [length]; rewrite IH; reflexivity. }
  rewrite !T. unfold ev_ends, ev_begins in *. rewrite E1, E2. clear E E1 E2 T n.
  destruct (C02_framed _ _ B P) as (mid & O & N).
  assert (X : ends_of cmds = 1%nat /\ begins_of cmds = 1%nat).
  { assert (G : forall l, Forall sent l ->
       ends_of l = length (filter (fun o => String.eqb (o_name o) "End Print") (map observe l)) /\
       begins_of l = length (filter (fun o => String.eqb (o_name o) "Begin Print") (map observe l))).
    { clear. induction l as [|c l IH]; intros F; [split; reflexivity|]. inversion F as [|? ? Sc F']; subst.
      destruct (IH F') as (I1 & I2). destruct (frame_name _ Sc) as (Nb & Ne). unfold ends_of, begins_of in *.
      cbn [map filter observe o_name]. split.
      - destruct (String.eqb (c_name c) "End Print") eqn:Q.
        + apply String.eqb_eq in Q. apply Ne in Q. rewrite Q. cbn [length]. rewrite I1. reflexivity.
        + apply String.eqb_neq in Q.
          destruct (c_handler c) as [id| | | | | | |]; try exact I1. destruct id; try exact I1. exfalso. apply Q. apply Ne. reflexivity.
      - destruct (String.eqb (c_name c) "Begin Print") eqn:Q.
        + apply String.eqb_eq in Q. apply Nb in Q. rewrite Q. cbn [length]. rewrite I2. reflexivity.
        + apply String.eqb_neq in Q.
          destruct (c_handler c) as [id| | | | | | |]; try exact I2. destruct id; try exact I2. exfalso. apply Q. apply Nb. reflexivity. }
    destruct (G _ F) as (G1 & G2). rewrite G1, G2, O. clear - N. rewrite !filter_app, !app_length. cbn [filter o_begin o_end simple o_name length].
    assert (Z0 : forall k, (k = "End Print" \/ k = "Begin Print")%string -> filter (fun o => String.eqb (o_name o) k) mid = []).
    { intros k Hk. induction mid as [|o r IH]; [reflexivity|]. cbn [filter].
      destruct (N o (or_introl eq_refl)) as (A & B). 
      destruct (String.eqb (o_name o) k) eqn:Q; [apply String.eqb_eq in Q; destruct Hk; congruence|].
      apply IH. intros o' Ho'. apply N. right. exact Ho'. }
    rewrite (Z0 "End Print"%string), (Z0 "Begin Print"%string) by auto. split; reflexivity. }
  destruct X as (X1 & X2). unfold mode. lia.
Qed.

(** The calls of a job start with Begin Print and begin_render and end with End Print,
    get_render_errors and end_render; no text is left waiting, so the next job starts clean. *)
Theorem C31_framed : forall e bs s s',
  bytes_ok bs = true -> rs_spans s = [] -> render e bs s = Ok s' ->
  rs_spans s' = [] /\
  exists mid, new_calls s s' ([EDevice BeginPrint; EBeginRender] ++ mid ++ [EDevice EndPrint; EGetErrors; EEndRender]).
Proof.
  intros e bs s s' B Sp H. unfold render in H. apply bind_ok in H. destruct H as (cmds & P & H).
  assert (F : Forall sent cmds). { apply Forall_forall. intros c Hc. exists bs, cmds. auto. }
  destruct (C02_framed _ _ B P) as (mid & O & _).
  destruct cmds as [|c0 cmds]; [discriminate|]. cbn [map app] in O. injection O as N0 _ _ _ _ O.
  destruct (exists_last (l := cmds)) as (mc & c1 & ->). { intros ->. destruct mid; discriminate. }
  rewrite map_app in O. cbn [map] in O. apply app_inj_tail in O. destruct O as (_ & O). injection O as N1 _ _ _ _.
  unfold run_commands in H. cbn [fold_res] in H. apply bind_ok in H. destruct H as (s1 & H1 & H).
  rewrite fold_res_app in H. apply bind_ok in H. destruct H as (s2 & H2 & H). cbn [fold_res] in H.
  apply bind_ok in H. destruct H as (s3 & H3 & H). injection H as <-.
  inversion F as [|? ? S0 F']; subst. apply Forall_app in F'. destruct F' as (Fm & F1). inversion F1 as [|? ? S1 _]; subst.
  apply (proj1 (frame_name _ S0)) in N0. apply (proj2 (frame_name _ S1)) in N1.
  pose proof (kind_of_special _ S0) as K0. rewrite N0 in K0. destruct K0 as (K0 & _).
  pose proof (kind_of_special _ S1) as K1. rewrite N1 in K1. destruct K1 as (K1 & _).
  (* begin *)
  unfold process_command in H1. rewrite K0 in H1. unfold get_device_command in H1. rewrite N0 in H1. cbn [device_plain bind] in H1.
  unfold process_text in H1. rewrite Sp in H1. cbn [bind] in H1.
  unfold process_device_commands in H1. cbn [fold_res] in H1. apply bind_ok in H1. destruct H1 as (t1 & H1 & Ht). injection Ht as <-.
  cbn [process_device_command] in H1. apply bind_ok in H1. destruct H1 as (t2 & Ht2 & H1). injection H1 as <-.
  apply on_ctx_inv in Ht2. destruct Ht2 as (x & _ & ->).
  (* the middle only adds calls *)
  destruct (run_effect _ _ _ _ Fm H2) as (m & _ & n & E & _ & _).
  (* end *)
  unfold process_command in H3. rewrite K1 in H3. unfold get_device_command in H3. rewrite N1 in H3. cbn [device_plain bind] in H3.
  apply bind_ok in H3. destruct H3 as (s4 & H4 & H3). apply process_text_quiet in H4. destruct H4 as ((_ & _ & (n' & E' & _)) & Sp4).
  unfold process_device_commands in H3. cbn [fold_res bind process_device_command] in H3. injection H3 as <-.
  split; [exact Sp4|]. exists (map snd n ++ map snd n').
  eexists. split.
  - cbn [call rs_calls]. rewrite E', E. cbn [call rs_calls with_ctx]. rewrite <- !app_assoc. cbn [app]. reflexivity.
  - cbn [map snd app]. rewrite !map_app. cbn [map snd app]. rewrite <- !app_assoc. reflexivity.
Qed.

(** A job with a form feed in standard mode, one in page mode and one after it: three outputs. *)
Definition c31_job : list Z := [65; 12; 27; 76; 66; 12; 67; 12].
Example C31_demo :
  match parse_esc_pos c31_job with
  | Ok cmds => sheets false cmds = 2%nat
  | Panic _ => False
  end.
Proof. vm_compute. reflexivity. Qed.
Definition no_encoders1 : encoders :=
  mk_encoders (fun _ => None) (fun _ => None) (fun _ => None) (fun _ => None) (fun _ => None) (fun _ => None)
    (fun _ => None) (fun _ => None) (fun _ _ _ _ => None).
Example C31_demo2 :
  match render no_encoders1 c31_job renderer_new with
  | Ok s => outputs s = 3%nat
  | Panic _ => False
  end.
Proof. vm_compute. reflexivity. Qed.
