(** * PageTheory: in page mode the paper stands still. *)
From Verif Require Import Base Command CommandSet Vec Float32 GTypes Graphics Decoder Context Text Handlers Renderer ContextTheory RendererTheory Origin SpecPrinter PropsOutput.
Local Open Scope Z_scope.
Local Open Scope list_scope.

(** In page mode: page mode stays on and the paper stays where it is. *)
Definition still (c c' : context) : Prop :=
  p_enabled (c_page c) = true -> p_enabled (c_page c') = true /\ g_render_area (c_graphics c') = g_render_area (c_graphics c).
Lemma still_refl c : still c c. Proof. intros P. auto. Qed.
Lemma still_trans a b c : still a b -> still b c -> still a c.
Proof. intros A B P. destruct (A P) as (P1 & E1). destruct (B P1) as (P2 & E2). split; congruence. Qed.
Ltac open_ctx := unfold still, upd_page, upd_gra, upd_graphics, upd_text, upd_barcode, upd_code2d, upd_now, c_page, c_graphics, c_text in *.
Lemma still_page f c : (forall p, p_enabled (f p) = p_enabled p) -> still c (upd_page f c).
Proof. intros F P. destruct c as [d [t b q g p]]. open_ctx. cbn in *. rewrite F. auto. Qed.
Lemma still_in_page f c c' : page_moves f -> in_page f c = Ok c' -> still c c'.
Proof.
  intros M H. unfold in_page in H. apply bind_ok in H. destruct H as (p & Hp & H). injection H as <-. intros P.
  destruct (M _ _ Hp) as (v & [-> | ->]); destruct c as [d [t b q g p0]]; open_ctx; cbn in *; auto.
Qed.
Lemma still_reset_x c : still c (reset_x c).
Proof. intros P. unfold reset_x. rewrite P. revert P. apply still_page. reflexivity. Qed.
Ltac paged H P M := rewrite P in H; exact (still_in_page _ _ _ M H P).
Lemma offset_x_still x c c' : offset_x x c = Ok c' -> still c c'.
Proof. intros H P. unfold offset_x in H. paged H P (pm_offset_x_moves x). Qed.
Lemma offset_y_still x c c' : offset_y x c = Ok c' -> still c c'.
Proof. intros H P. unfold offset_y in H. paged H P (pm_offset_y_moves x). Qed.
Lemma set_x_still x c c' : set_x x c = Ok c' -> still c c'.
Proof. intros H P. unfold set_x in H. paged H P (pm_set_x_moves x). Qed.
Lemma offset_y_relative_still x c c' : offset_y_relative x c = Ok c' -> still c c'.
Proof. intros H P. unfold offset_y_relative in H. apply bind_ok in H. destruct H as (v & _ & H). paged H P (pm_offset_y_relative_moves v). Qed.
Lemma set_x_absolute_still x c c' : set_x_absolute x c = Ok c' -> still c c'.
Proof. intros H P. unfold set_x_absolute in H. apply bind_ok in H. destruct H as (v & _ & H). paged H P (pm_set_x_absolute_moves v). Qed.
Lemma set_y_absolute_still x c c' : set_y_absolute x c = Ok c' -> still c c'.
Proof. intros H P. unfold set_y_absolute in H. apply bind_ok in H. destruct H as (v & _ & H). paged H P (pm_set_y_absolute_moves v). Qed.
Lemma newline_still n c c' : newline n c = Ok c' -> still c c'.
Proof. intros H. unfold newline in H. cbv zeta in H. apply bind_ok in H. destruct H as (v & _ & H). exact (still_trans _ _ _ (still_reset_x c) (offset_y_still _ _ _ H)). Qed.
Lemma newline_for_spans_still l c c' : newline_for_spans l c = Ok c' -> still c c'.
Proof. intros H. unfold newline_for_spans in H. cbv zeta in H. exact (still_trans _ _ _ (still_reset_x c) (offset_y_still _ _ _ H)). Qed.
Lemma feed_still n c c' : feed n c = Ok c' -> still c c'.
Proof. intros H. unfold feed in H. apply bind_ok in H. destruct H as (v & Hv & H). injection H as <-. exact (still_trans _ _ _ (offset_y_still _ _ _ Hv) (still_reset_x _)). Qed.

(** ** Text *)
Lemma place_pieces_still pieces l l' : place_pieces pieces l = Ok l' -> still (lay_ctx l) (lay_ctx l').
Proof.
  revert l. induction pieces as [|p r IH]; intros [[c lines] cur] H.
  - cbn in H. injection H as <-. apply still_refl.
  - cbn [place_pieces] in H. destruct r as [|q r].
    + repeat inv_bind H. injection H as <-. cbn. eapply offset_x_still; eauto.
    + repeat inv_bind H. apply IH in H. cbn in H |- *.
      eapply still_trans; [eapply newline_for_spans_still; eauto | exact H].
Qed.
Lemma tab_walk_still tabs cw cx pos c c' : tab_walk tabs cw cx pos c = Ok c' -> still c c'.
Proof.
  revert pos. induction tabs as [|t r IH]; intros pos H; cbn in H.
  - injection H as <-. apply still_refl.
  - destruct (cx <=? pos); [eapply set_x_still; eauto|]. repeat inv_bind H. eapply IH; eauto.
Qed.
Lemma place_word_still mw w l l' : place_word mw w l = Ok l' -> still (lay_ctx l) (lay_ctx l').
Proof.
  destruct l as [[c lines] cur]. intros H.
  destruct (list_eq_dec Z.eq_dec (s_text w) [10]) as [E|N].
  { unfold place_word in H. rewrite E in H. inv_bind H. cbn [is_single Z.eqb] in H. cbn in H. inv_bind H. injection H as <-. cbn.
    eapply newline_for_spans_still; eauto. }
  destruct (list_eq_dec Z.eq_dec (s_text w) [9]) as [E|N'].
  { unfold place_word in H. rewrite E in H. inv_bind H. cbn [is_single Z.eqb] in H. cbn in H. inv_bind H. injection H as <-. cbn.
    eapply tab_walk_still; eauto. }
  rewrite (place_word_text _ _ _ _ _ N N') in H. inv_bind H.
  destruct (a <=? get_available_width c).
  { repeat inv_bind H. injection H as <-. cbn. eapply offset_x_still; eauto. }
  destruct (mw <? a).
  { repeat inv_bind H. apply place_pieces_still in H. exact H. }
  repeat inv_bind H. injection H as <-. cbn.
  eapply still_trans; [eapply newline_for_spans_still; eauto | eapply offset_x_still; eauto].
Qed.
Definition stays (s s' : rstate) : Prop := still (rs_ctx s) (rs_ctx s').
Lemma stays_trans a b c : stays a b -> stays b c -> stays a c.
Proof. exact (still_trans _ _ _). Qed.
Lemma stays_ctx f s s' : (forall c', f (rs_ctx s) = Ok c' -> still (rs_ctx s) c') -> on_ctx f s = Ok s' -> stays s s'.
Proof. intros F H. unfold on_ctx in H. apply bind_ok in H. destruct H as (c & Hc & H). injection H as <-. exact (F _ Hc). Qed.
Lemma text_stays s s' : process_text s = Ok s' -> stays s s'.
Proof.
  intros H. unfold process_text in H. destruct (rs_spans s) as [|x r] eqn:Es; [injection H as <-; apply still_refl|].
  apply bind_ok in H. destruct H as ([c lines] & Ha & H). apply render_lines_quiet in H. destruct H as (_ & C & _). unfold stays. rewrite C. cbn [rs_ctx with_ctx].
  unfold layout_words in Ha. apply bind_ok in Ha. destruct Ha as ([[c1 l1] cur] & Hf & Ha). injection Ha as <- _.
  refine (fold_res_ind _ (fun l => still (rs_ctx s) (lay_ctx l)) _ (rs_ctx s, [], []) (c1, l1, cur) (still_refl _) _ Hf).
  intros w y y' _ M E. exact (still_trans _ _ _ M (place_word_still _ _ _ _ E)).
Qed.

(** ** Graphics *)
Lemma code2d_point_still q o p st st' : code2d_point q o p st = Ok st' -> still (fst (fst st)) (fst (fst st')).
Proof.
  destruct st as [[c i] rects]. unfold code2d_point. intros H. inv_bind H.
  assert (M : still c a).
  { destruct (negb (i =? 1)); [|injection Ha as <-; apply still_refl].
    destruct (q_width q =? 0); [discriminate|].
    destruct (i mod q_width q =? 1); [|injection Ha as <-; apply still_refl].
    inv_bind Ha. exact (still_trans _ _ _ (set_x_still _ _ _ Ha0) (offset_y_still _ _ _ Ha)). }
  destruct ((0 <? p) && (get_available_width a <? q_point_width q)).
  - injection H as <-. exact M.
  - repeat inv_bind H. injection H as <-. exact (still_trans _ _ _ M (offset_x_still _ _ _ Ha0)).
Qed.
Lemma code_2d_stays q s s' : process_code_2d q s = Ok s' -> stays s s'.
Proof.
  unfold process_code_2d. intros H. inv_bind H. inv_bind H. inv_bind H. destruct a1 as [[c i] rects].
  injection H as <-. unfold stays. cbn [rs_ctx call with_ctx].
  eapply still_trans; [eapply set_x_still; exact Ha0|].
  eapply still_trans; [|apply still_reset_x].
  refine (fold_res_ind _ (fun y => still a0 (fst (fst y))) _ (a0, 1, []) (c, i, rects) (still_refl a0) _ Ha1).
  intros x y y' _ M E. exact (still_trans _ _ _ M (code2d_point_still _ _ _ _ _ E)).
Qed.
Lemma barcode_text_stays b s s' : barcode_text b s = Ok s' -> stays s s'.
Proof.
  unfold barcode_text. intros H. inv_bind H. apply text_stays in Ha. refine (stays_trans s a s' Ha _).
  refine (stays_ctx _ _ _ _ H). intros c E. exact (newline_still _ _ _ E).
Qed.
Lemma barcode_stays b s s' : process_barcode b s = Ok s' -> stays s s'.
Proof.
  unfold process_barcode. intros H. inv_bind H. inv_bind H. inv_bind H. inv_bind H. destruct a2 as [c rects].
  inv_bind H.
  assert (Q1 : stays s a).
  { destruct (bc_human_readable (c_barcode (rs_ctx s))); try (injection Ha as <-; apply still_refl); exact (barcode_text_stays _ _ _ Ha). }
  assert (Q2 : stays a a1) by (refine (stays_ctx _ _ _ _ Ha1); intros c' Hc; exact (set_x_still _ _ _ Hc)).
  assert (M3 : still (rs_ctx a1) c).
  { refine (fold_res_ind _ (fun y => still (rs_ctx a1) (fst y)) _ (rs_ctx a1, []) (c, rects) (still_refl _) _ Ha2).
    intros x [c1 r1] [c2 r2] _ M E. cbn [fst] in *. refine (still_trans _ _ _ M _). unfold barcode_point in E.
    destruct (_ && _); [injection E as <- _; apply still_refl|]. apply bind_ok in E. destruct E as (c3 & E1 & E). injection E as <- _. exact (offset_x_still _ _ _ E1). }
  assert (Q4 : stays a1 a2).
  { refine (still_trans _ _ _ M3 _). change (still (rs_ctx (call (EGraphics rects) (with_ctx c a1))) (rs_ctx a2)). refine (stays_ctx _ _ _ _ Ha3). intros c' Hc.
    exact (still_trans _ _ _ (still_reset_x _) (offset_y_still _ _ _ Hc)). }
  pose proof (stays_trans _ _ _ Q1 (stays_trans _ _ _ Q2 Q4)) as Q.
  destruct (bc_human_readable (c_barcode (rs_ctx a2))); try (injection H as <-; exact Q);
    (apply bind_ok in H; destruct H as (a3 & Ha4 & H);
     refine (stays_trans _ _ _ Q (stays_trans _ a3 _ _ (barcode_text_stays _ _ _ H)));
     refine (stays_ctx _ _ _ _ Ha4); intros c' Hc; exact (offset_y_still _ _ _ Hc)).
Qed.
Lemma image_stays i s s' : process_image i s = Ok s' -> stays s s'.
Proof.
  unfold process_image. intros H. inv_bind H.
  assert (Q1 : stays s a).
  { destruct (i_flow i).
    - destruct (_ <? _); [|injection Ha as <-; apply still_refl]. refine (stays_ctx _ _ _ _ Ha). intros c' Hc. exact (newline_still _ _ _ Hc).
    - destruct (p_enabled (c_page (rs_ctx s))); [injection Ha as <-; apply still_refl|]. refine (stays_ctx _ _ _ _ Ha). intros c' Hc. exact (set_x_still _ _ _ Hc).
    - injection Ha as <-. apply still_refl. }
  refine (stays_trans _ _ _ Q1 _). cbv zeta in H. set (i' := set_i_y _ _) in H. change (stays (call (EImage i') a) s').
  destruct (i_flow i').
  - refine (stays_ctx _ _ _ _ H). intros c' Hc. exact (offset_x_still _ _ _ Hc).
  - destruct (p_enabled (c_page (rs_ctx (call (EImage i') a)))); [injection H as <-; apply still_refl|]. refine (stays_ctx _ _ _ _ H).
    intros c' Hc. apply bind_ok in Hc. destruct Hc as (c1 & E1 & Hc). injection Hc as <-. exact (still_trans _ _ _ (offset_y_still _ _ _ E1) (still_reset_x _)).
  - injection H as <-. apply still_refl.
Qed.
Lemma gfx_stays g s s' : process_gfx g s = Ok s' -> stays s s'.
Proof.
  intros H. destruct g; cbn [process_gfx] in H.
  - injection H as <-. apply still_refl.
  - exact (code_2d_stays _ _ _ H).
  - exact (barcode_stays _ _ _ H).
  - exact (image_stays _ _ _ H).
Qed.

(** ** Settings *)
Lemma set_page_area_still a c c' : set_page_area a c = Ok c' -> still c c'.
Proof. intros H. unfold set_page_area in H. cbv zeta in H. do 4 (apply bind_ok in H; destruct H as (? & _ & H)). injection H as <-. apply still_page. reflexivity. Qed.
Lemma apply_plain_still id c x x' : id <> P_initialize -> id <> P_select_standard_mode -> apply_plain id c x = Ok x' -> still x x'.
Proof.
  intros N1 N2 H. destruct id; cbn [apply_plain] in H; cbv zeta in H; try congruence; try (injection H as <-; apply still_refl).
  all: try (injection H as <-; unfold set_font, update_decoder, set_motion_units, set_print_mode; cbv zeta;
            repeat match goal with |- context [match ?z with _ => _ end] => destruct z end; exact (fun P => conj P eq_refl)).
  all: try (exact (set_x_absolute_still _ _ _ H)).
  all: try (destruct (p_enabled (c_page x)) eqn:P; [|injection H as <-; apply still_refl]).
  all: try (exact (offset_y_relative_still _ _ _ H)).
  all: try (exact (set_y_absolute_still _ _ _ H)).
  all: try (exact (set_page_area_still _ _ _ H)).
  all: try (injection H as <-; apply still_page; reflexivity).
  apply bind_ok in H. destruct H as (d & _ & H). injection H as <-. exact (fun P => conj P eq_refl).
Qed.
Lemma apply_sub_still e id c x x' : apply_sub e id c x = Ok x' -> still x x'.
Proof.
  intros H. destruct id; cbn [apply_sub] in H; try (injection H as <-; exact (fun P => conj P eq_refl)).
  all: try (unfold define_column, define_raster, store_buffer in H;
    repeat match type of H with (if ?b then _ else _) = _ => destruct b end;
    repeat (try discriminate; inv_bind H); injection H as <-; exact (fun P => conj P eq_refl)).
  all: unfold qr_store, clear_one in H; repeat inv_bind H; injection H as <-;
    repeat match goal with |- context [match ?z with _ => _ end] => destruct z end; exact (fun P => conj P eq_refl).
Qed.
Lemma apply_context_still e c x x' :
  c_handler c <> HPlain P_select_standard_mode -> c_handler c <> HPlain P_initialize -> apply_context e c x = Ok x' -> still x x'.
Proof.
  intros N1 N2 H. unfold apply_context in H. destruct (c_handler c) as [id| |cap|s|s|s|s|id];
    try (injection H as <-; apply still_refl).
  - refine (apply_plain_still _ _ _ _ _ _ H); congruence.
  - injection H as <-. unfold character_effects. cbv zeta. destruct (vlen (c_data c) <? 3); [apply still_refl|].
    repeat match goal with |- context [match ?z with _ => _ end] => destruct z end; exact (fun P => conj P eq_refl).
  - destruct (ss_subcommand s) as [sc|]; [exact (apply_sub_still _ _ _ _ _ H) | injection H as <-; apply still_refl].
  - exact (apply_sub_still _ _ _ _ _ H).
Qed.

(** ** Device commands *)
Lemma page_geometry_stays s s' : page_geometry s = Ok s' -> stays s s'.
Proof.
  intros H P. pose proof (page_geometry_mode _ _ H) as (M & _). unfold mode in M. split; [congruence|].
  unfold page_geometry in H. apply bind_ok in H. destruct H as ([[[rot w] h] p'] & _ & H). injection H as <-. reflexivity.
Qed.
Lemma device_stays d s s' : d <> EndPageMode -> d <> PrintPageMode -> process_device_command d s = Ok s' -> stays s s'.
Proof.
  intros N1 N2 H. unfold process_device_command in H. cbv zeta in H. change (stays (call (EDevice d) s) s').
  set (s0 := call (EDevice d) s) in *. clearbody s0.
  destruct d; try (injection H as <-; apply still_refl); try congruence.
  all: try (refine (stays_ctx _ _ _ _ H); intros ? E; injection E as <-; exact (fun P => conj P eq_refl)).
  all: try (refine (stays_ctx _ _ _ _ H); intros ? E; exact (newline_still _ _ _ E)).
  all: try (refine (stays_ctx _ _ _ _ H); intros ? E; exact (feed_still _ _ _ E)).
  all: try exact (page_geometry_stays _ _ H).
  all: first
   [ refine (stays_ctx _ _ _ _ H); intros c E; injection E as <-; unfold set_tab_len; destruct (_ <? _); exact (fun P => conj P eq_refl)
   | apply bind_ok in H; destruct H as (s1 & H1 & H); injection H as <-; change (stays s0 s1); refine (stays_ctx _ _ _ _ H1); intros ? E; exact (newline_still _ _ _ E)
   | apply bind_ok in H; destruct H as (s1 & H1 & H); injection H as <-; change (stays s0 s1); refine (stays_ctx _ _ _ _ H1); intros ? E; injection E as <-; exact (fun P => conj eq_refl eq_refl)
   | apply bind_ok in H; destruct H as (s1 & H1 & H); refine (stays_trans _ _ _ _ (page_geometry_stays _ _ H));
     refine (stays_ctx _ _ _ _ H1); intros ? E; injection E as <-; exact (fun P => conj P eq_refl) ].
Qed.
Lemma devices_stay l s s' : Forall (fun d => d <> EndPageMode /\ d <> PrintPageMode) l -> process_device_commands l s = Ok s' -> stays s s'.
Proof.
  intros F H. unfold process_device_commands in H. rewrite Forall_forall in F.
  refine (fold_res_ind _ (fun y => stays s y) _ s s' (still_refl _) _ H).
  intros d y y' I M E. destruct (F d I) as (N1 & N2). exact (stays_trans _ _ _ M (device_stays _ _ _ N1 N2 E)).
Qed.

(** The commands that move the paper although page mode is on, or that leave page mode. *)
Definition page_command (c : command) : Prop :=
  c_handler c = HPlain P_formfeed \/ c_handler c = HPlain P_page_mode_print_data \/
  c_handler c = HPlain P_select_standard_mode \/ c_handler c = HPlain P_initialize.
Lemma device_command_stays c x l : ~ page_command c -> get_device_command c x = Ok l -> Forall (fun d => d <> EndPageMode /\ d <> PrintPageMode) l.
Proof.
  intros N H. unfold get_device_command in H. unfold page_command in N. destruct (c_handler c) as [id| |cap|s|s|s|s|id];
    try (injection H as <-; constructor).
  - destruct id; cbn [device_plain] in H; cbv zeta in H; try tauto; try (injection H as <-; repeat (constructor; [split; discriminate|]); constructor).
    apply bind_ok in H. destruct H as (d & _ & H). injection H as <-. repeat (constructor; [split; discriminate|]). constructor.
  - injection H as <-. unfold feed_cut_device. cbv zeta.
    repeat match goal with |- context [match ?z with _ => _ end] => destruct z end; repeat (constructor; [split; discriminate|]); constructor.
  - destruct id; try (injection H as <-; repeat (constructor; [split; discriminate|]); constructor).
Qed.
Lemma step_stays e c s s' : ~ page_command c -> process_command e c s = Ok s' -> stays s s'.
Proof.
  intros N H.
  assert (AC : forall y y', on_ctx (apply_context e c) y = Ok y' -> stays y y').
  { intros y y' E. refine (stays_ctx _ _ _ _ E). intros x Hx. refine (apply_context_still _ _ _ _ _ _ Hx); intros B; apply N; unfold page_command; auto. }
  assert (DC : forall x y y' l, get_device_command c x = Ok l -> process_device_commands l y = Ok y' -> stays y y').
  { intros x y y' l E1 E2. exact (devices_stay _ _ _ (device_command_stays _ _ _ N E1) E2). }
  unfold process_command in H. destruct (c_kind c).
  - inv_bind H. inv_bind H. exact (stays_trans _ _ _ (text_stays _ _ Ha0) (DC _ _ _ _ Ha H)).
  - injection H as <-. destruct (get_text c (rs_ctx s)); apply still_refl.
  - inv_bind H. inv_bind H. exact (stays_trans _ _ _ (AC _ _ Ha) (DC _ _ _ _ Ha0 H)).
  - inv_bind H. inv_bind H. inv_bind H. inv_bind H.
    assert (G : stays a a1) by (destruct a0 as [g|]; [exact (gfx_stays _ _ _ Ha1) | injection Ha1 as <-; apply still_refl]).
    exact (stays_trans _ _ _ (text_stays _ _ Ha) (stays_trans _ _ _ G (DC _ _ _ _ Ha2 H))).
  - inv_bind H. exact (stays_trans _ _ _ (text_stays _ _ Ha) (AC _ _ H)).
  - inv_bind H. inv_bind H. inv_bind H. exact (stays_trans _ _ _ (text_stays _ _ Ha) (stays_trans _ _ _ (AC _ _ Ha0) (DC _ _ _ _ Ha1 H))).
  - injection H as <-. apply still_refl.
  - inv_bind H. injection H as <-. exact (text_stays _ _ Ha).
Qed.
(** the table entries with these handlers *)
Definition page_entry (t : command) : bool :=
  match c_handler t, c_kind t with
  | HPlain P_formfeed, KControl => list_eqb (c_commands t) [12]
  | HPlain P_page_mode_print_data, KControl => list_eqb (c_commands t) [27; 12]
  | HPlain P_select_standard_mode, KContext => list_eqb (c_commands t) [27; 83]
  | HPlain P_initialize, _ => list_eqb (c_commands t) [27; 64]
  | HPlain P_formfeed, _ | HPlain P_page_mode_print_data, _ | HPlain P_select_standard_mode, _ => false
  | _, _ => negb (existsb (list_eqb (c_commands t)) [[12]; [27; 12]; [27; 83]; [27; 64]])
  end.
Lemma page_entries : forallb page_entry all_commands = true.
Proof. vm_compute. reflexivity. Qed.
