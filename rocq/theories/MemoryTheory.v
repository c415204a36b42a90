(** * MemoryTheory: what the printer remembers between commands (symbol data, stored pictures, the
    picture buffer) and which commands change it. *)
From Verif Require Import Base Command CommandSet Parser Vec GTypes Graphics Decoder Context Text Handlers Renderer ContextTheory RendererTheory
  Origin Told SpecPrinter StateTheory PropsContext PropsOutput LayoutTheory AreaTheory PropsLayout SpecMemory.
Local Open Scope Z_scope.
Local Open Scope list_scope.

Definition mem (x : context) : code2d_ctx * list (image_ref * gfx) * list gfx :=
  (c_code2d x, g_stored_graphics (c_graphics x), g_buffer_graphics (c_graphics x)).
Lemma moved_mem c c' : moved c c' -> mem c' = mem c.
Proof. intros M. unfold mem. rewrite (moved_code2d _ _ M), (moved_stored _ _ M), (moved_buffer _ _ M). reflexivity. Qed.

Lemma text_mem f c : mem (upd_text f c) = mem c.
Proof. reflexivity. Qed.
Lemma page_mem f c : mem (upd_page f c) = mem c.
Proof. reflexivity. Qed.
Lemma barcode_mem f c : mem (upd_barcode f c) = mem c.
Proof. reflexivity. Qed.
Lemma update_decoder_mem c : mem (update_decoder c) = mem c.
Proof. unfold update_decoder. first [reflexivity | repeat (match goal with |- context [match ?x with _ => _ end] => destruct x end; try reflexivity)]. Qed.
Lemma set_font_mem f c : mem (set_font f c) = mem c.
Proof. unfold set_font. first [reflexivity | destruct f; reflexivity]. Qed.

Lemma plain_mem id c x x' : id <> P_initialize -> apply_plain id c x = Ok x' -> mem x' = mem x.
Proof.
  intros N H. destruct id; try contradiction; cbn [apply_plain] in H; try (injection H as <-; reflexivity).
  all: try (destruct (p_enabled (c_page x)); [|injection H as <-; reflexivity]).
  all: first
    [ exact (moved_mem _ _ (offset_y_relative_moved _ _ _ H))
    | exact (moved_mem _ _ (set_x_absolute_moved _ _ _ H))
    | exact (moved_mem _ _ (set_y_absolute_moved _ _ _ H))
    | (injection H as <-; rewrite ?update_decoder_mem, ?set_font_mem; reflexivity)
    | (injection H as <-; destruct (ctx_default x); reflexivity)
    | (injection H as <-; cbv zeta; destruct (6 <? _); reflexivity)
    | (injection H as <-; unfold set_motion_units; cbv zeta; destruct (_ || _); reflexivity)
    | (injection H as <-; unfold set_print_mode; cbv zeta; rewrite text_mem, set_font_mem; reflexivity)
    | (unfold set_page_area in H; cbv zeta in H; repeat (apply bind_ok in H; destruct H as (? & _ & H)); injection H as <-; reflexivity)
    | (apply bind_ok in H; destruct H as (d & _ & H); injection H as <-; reflexivity)
    | (destruct (p_enabled (c_page x)); injection H as <-; reflexivity) ].
Qed.

Lemma geometry_mem s s' : page_geometry s = Ok s' -> mem (rs_ctx s') = mem (rs_ctx s).
Proof.
  unfold page_geometry. intros H. apply bind_ok in H. destruct H as ((((r & w) & h) & p) & _ & H). injection H as <-. reflexivity.
Qed.
Lemma device_mem d s s' : d <> ClearBufferGraphics -> process_device_command d s = Ok s' -> mem (rs_ctx s') = mem (rs_ctx s).
Proof.
  intros N H. unfold process_device_command in H. cbv zeta in H.
  assert (Nl : forall k s0 s0', on_ctx (newline k) s0 = Ok s0' -> mem (rs_ctx s0') = mem (rs_ctx s0)).
  { intros k s0 s0' E. apply on_ctx_inv in E. destruct E as (x & E & ->). exact (moved_mem _ _ (newline_moved _ _ _ E)). }
  destruct d; try contradiction; try (injection H as <-; reflexivity).
  all: try (apply on_ctx_inv in H; destruct H as (x & E & ->); injection E as <-; reflexivity).
  all: try exact (Nl _ _ _ H).
  all: try (apply on_ctx_inv in H; destruct H as (x & E & ->);
            first [exact (moved_mem _ _ (feed_moved _ _ _ E)) | injection E as <-; unfold set_tab_len; repeat match goal with |- context [match ?v with _ => _ end] => destruct v end; reflexivity | apply bind_ok in E; destruct E as (y & _ & E); injection E as <-; reflexivity]).
  all: try exact (geometry_mem _ _ H).
  all: apply bind_ok in H; destruct H as (s1 & H1 & H).
  all: first [ apply Nl in H1; injection H as <-; exact H1
             | apply on_ctx_inv in H1; destruct H1 as (x & E & ->); injection E as <-; first [injection H as <-; reflexivity | exact (geometry_mem _ _ H)] ].
Qed.
Lemma devices_mem l s s' : Forall (fun d => d <> ClearBufferGraphics) l -> process_device_commands l s = Ok s' -> mem (rs_ctx s') = mem (rs_ctx s).
Proof.
  intros F H. unfold process_device_commands in H.
  refine (fold_res_ind _ (fun y => mem (rs_ctx y) = mem (rs_ctx s)) l s s' eq_refl _ H).
  intros d y y' Hd E Hp. rewrite (device_mem _ _ _ (proj1 (Forall_forall _ _) F _ Hd) Hp). exact E.
Qed.
Lemma device_not_clear c x d : (forall id, c_handler c <> HSubPlain id) -> get_device_command c x = Ok d -> Forall (fun d => d <> ClearBufferGraphics) d.
Proof.
  intros N H. unfold get_device_command in H. destruct (c_handler c) as [id| | | | | | |id]; try (injection H as <-; constructor).
  - destruct id; cbn [device_plain] in H; try (injection H as <-; repeat constructor; discriminate).
    all: try (injection H as <-; destruct (p_enabled (c_page x)); repeat constructor; discriminate).
    apply bind_ok in H. destruct H as (? & _ & H). injection H as <-. repeat constructor; discriminate.
  - injection H as <-. unfold feed_cut_device. repeat match goal with |- context [match ?v with _ => _ end] => destruct v end; repeat constructor; discriminate.
  - destruct (N id eq_refl).
Qed.

(** ** The commands that are not sub-commands *)
Lemma init_bytes c : sent c -> c_handler c = HPlain P_initialize -> c_commands c = [27; 64].
Proof.
  intros S H. destruct (sent_reported _ S) as [(t & Ht & _ & I)|(sc & _ & I)]; [|rewrite (si_handler _ _ I) in H; discriminate].
  rewrite (in_commands _ _ I). pose proof (in_handler _ _ I) as HL. rewrite H in HL.
  assert (Q : forallb (fun t => match c_handler t with HPlain P_initialize => list_eqb (c_commands t) [27; 64] | _ => true end) all_commands = true) by (vm_compute; reflexivity).
  pose proof (proj1 (forallb_forall _ _) Q _ Ht) as X. cbv beta in X. destruct (c_handler t) as [id| | | | | | |]; try contradiction. cbn in HL. subst id.
  unfold list_eqb in X. destruct (list_eq_dec Z.eq_dec (c_commands t) [27; 64]); [assumption | discriminate].
Qed.
Lemma hsub_control c s : sent c -> c_handler c = HSub s -> c_kind c = KControl.
Proof.
  intros S H. destruct (sent_reported _ S) as [(t & Ht & Nk & I)|(sc & _ & I)]; [|rewrite (si_handler _ _ I) in H; discriminate].
  rewrite (in_kind _ _ I). pose proof (in_handler _ _ I) as HL. rewrite H in HL.
  assert (Q : forallb (fun t => match c_handler t with HSub _ => match c_kind t with KSubcommand | KControl => true | _ => false end | _ => true end) all_commands = true) by (vm_compute; reflexivity).
  pose proof (proj1 (forallb_forall _ _) Q _ Ht) as X. cbv beta in X. destruct (c_handler t); try contradiction. destruct (c_kind t); congruence.
Qed.
Lemma plain_context_mem e c x x' : sent c -> c_commands c <> [27; 64] -> c_kind c <> KControl -> (forall id, c_handler c <> HSubPlain id) ->
  apply_context e c x = Ok x' -> mem x' = mem x.
Proof.
  intros Sc N NK NS H. unfold apply_context in H. destruct (c_handler c) as [id| |cap|s|s|s|s|id] eqn:Hh; try (injection H as <-; reflexivity).
  - refine (plain_mem id c x x' _ H). intros ->. exact (N (init_bytes _ Sc Hh)).
  - injection H as <-. unfold character_effects. cbv zeta. destruct (_ <? _); [reflexivity|].
    repeat match goal with |- context [match ?v with _ => _ end] => destruct v end; reflexivity.
  - exfalso. exact (NK (hsub_control _ _ Sc Hh)).
  - destruct (NS id eq_refl).
Qed.
Lemma step_kept e c s s' : sent c -> c_commands c <> [27; 64] -> (forall id, c_handler c <> HSubPlain id) ->
  process_command e c s = Ok s' -> mem (rs_ctx s') = mem (rs_ctx s).
Proof.
  intros Sc N NS H. unfold process_command in H.
  assert (Tm : forall a b, process_text a = Ok b -> mem (rs_ctx b) = mem (rs_ctx a)) by (intros a b E; exact (moved_mem _ _ (proj1 (process_text_moved _ _ E)))).
  assert (Cm : forall a b, c_kind c <> KControl -> on_ctx (apply_context e c) a = Ok b -> mem (rs_ctx b) = mem (rs_ctx a)).
  { intros a b K E. apply on_ctx_inv in E. destruct E as (x & E & ->). exact (plain_context_mem _ _ _ _ Sc N K NS E). }
  assert (Dm : forall x d a b, get_device_command c x = Ok d -> process_device_commands d a = Ok b -> mem (rs_ctx b) = mem (rs_ctx a)).
  { intros x d a b E E2. exact (devices_mem _ _ _ (device_not_clear _ _ _ NS E) E2). }
  destruct (c_kind c) eqn:K.
  - apply bind_ok in H. destruct H as (d & Hd & H). apply bind_ok in H. destruct H as (s1 & H1 & H). rewrite (Dm _ _ _ _ Hd H). exact (Tm _ _ H1).
  - injection H as <-. destruct (get_text c (rs_ctx s)); reflexivity.
  - apply bind_ok in H. destruct H as (s1 & H1 & H). apply bind_ok in H. destruct H as (d & Hd & H). rewrite (Dm _ _ _ _ Hd H). exact (Cm _ _ ltac:(discriminate) H1).
  - apply bind_ok in H. destruct H as (s1 & H1 & H). apply bind_ok in H. destruct H as (g & _ & H). apply bind_ok in H. destruct H as (s2 & H2 & H).
    apply bind_ok in H. destruct H as (d & Hd & H). rewrite (Dm _ _ _ _ Hd H), <- (Tm _ _ H1).
    destruct g as [g|]; [|injection H2 as <-; reflexivity]. exact (moved_mem _ _ (proj1 (process_gfx_moved _ _ _ H2 (proj2 (process_text_moved _ _ H1))))).
  - apply bind_ok in H. destruct H as (s1 & H1 & H). rewrite (Cm _ _ ltac:(discriminate) H). exact (Tm _ _ H1).
  - apply bind_ok in H. destruct H as (s1 & H1 & H). apply bind_ok in H. destruct H as (s2 & H2 & H). apply bind_ok in H. destruct H as (d & Hd & H).
    rewrite (Dm _ _ _ _ Hd H), (Cm _ _ ltac:(discriminate) H2). exact (Tm _ _ H1).
  - injection H as <-. reflexivity.
  - apply bind_ok in H. destruct H as (s1 & H1 & H). injection H as <-. exact (Tm _ _ H1).
Qed.
(** ESC @ *)
Lemma step_reset e c s s' : history e s -> sent c -> c_commands c = [27; 64] -> process_command e c s = Ok s' -> mem (rs_ctx s') = mem context_new.
Proof.
  intros S Sc C H. destruct (C19_initialize_restores_defaults _ _ _ _ S Sc C H) as (_ & _ & K & G & _). unfold mem. rewrite K, G. reflexivity.
Qed.

(** ** The sub-commands *)
Lemma sub_shape c id : sent c -> c_handler c = HSubPlain id ->
  exists p l m fn t, c_commands c = p ++ l ++ [m; fn] /\ In p [[29; 40; 107]; [29; 40; 76]; [29; 56; 76]] /\ (2 <= length l)%nat /\
    sub_lookup p m fn = Some t /\ c_kind c = sc_kind t /\ id = sc_id t.
Proof.
  intros S C. destruct (sent_told _ S) as (k & (t & Ht & I) & T & E). unfold emitted in E.
  destruct (c_kind k) eqn:K; try (exfalso; destruct E as [<-|[]]; pose proof (in_handler _ _ I) as HL; rewrite C in HL;
    assert (Lt : forallb (fun t => match c_handler t with HSubPlain _ => false | _ => true end) all_commands = true) by (vm_compute; reflexivity);
    pose proof (proj1 (forallb_forall _ _) Lt _ Ht) as X; cbv beta in X; destruct (c_handler t); try contradiction; discriminate).
  destruct (get_subcommand (c_handler k)) as [sc|] eqn:G; [|destruct E]. destruct E as [<-|[]]. 
  pose proof (in_handler _ _ I) as HL. destruct (c_handler k) as [| | | | | |s|] eqn:HC; try discriminate G. cbn [get_subcommand] in G.
  destruct T as (_ & _ & T). rewrite HC in T. rewrite G in T. destruct T as ((_ & Len & _) & _).
  assert (Pp : In (c_commands t) [[29; 40; 107]; [29; 40; 76]; [29; 56; 76]]).
  { assert (Q : forallb (fun t => match c_kind t with KSubcommand => existsb (list_eqb (c_commands t)) [[29; 40; 107]; [29; 40; 76]; [29; 56; 76]] | _ => true end) all_commands = true) by (vm_compute; reflexivity).
    pose proof (proj1 (forallb_forall _ _) Q _ Ht) as X. cbv beta in X. rewrite <- (in_kind _ _ I), K in X. apply existsb_exists in X. destruct X as (y & Hy & X).
    unfold list_eqb in X. destruct (list_eq_dec Z.eq_dec (c_commands t) y) as [->|]; [exact Hy | discriminate]. }
  set (cc := sc_commands sc) in *.
  assert (L4 : (4 <= length cc)%nat) by (destruct (ss_is_large s); lia).
  assert (Q : exists l m fn, cc = l ++ [m; fn] /\ (2 <= length l)%nat).
  { exists (firstn (length cc - 2) cc). destruct (skipn (length cc - 2) cc) as [|m [|fn [|z r]]] eqn:Q;
      pose proof (f_equal (@length Z) Q) as LQ; rewrite skipn_length in LQ; cbn [length] in LQ; try lia.
    exists m, fn. split; [rewrite <- Q; symmetry; apply firstn_skipn | rewrite firstn_length; lia]. }
  destruct Q as (l & m & fn & El & L2).
  match type of S with sent ?cmd => assert (Ec : c_commands cmd = c_commands t ++ l ++ [m; fn]) end.
  { cbn [c_commands]. rewrite (in_commands _ _ I). fold cc. rewrite El. reflexivity. }
  destruct (sub_sent _ _ _ _ _ S Ec Pp L2) as (x & F & _ & Kx & Hx & _). rewrite C in Hx. injection Hx as ->.
  exists (c_commands t), l, m, fn, x. split; [exact Ec|]. split; [exact Pp|]. split; [exact L2|]. split; [exact F|]. split; [exact Kx | reflexivity].
Qed.
Lemma header_end_of p l m fn c : length p = 3%nat -> (2 <= length l)%nat -> c_commands c = p ++ l ++ [m; fn] ->
  header_end c = Some (m, fn) /\ firstn 3 (c_commands c) = p.
Proof.
  intros L1 L2 E. rewrite E. split.
  - unfold header_end. rewrite E. replace (skipn 3 (p ++ l ++ [m; fn])) with (l ++ [m; fn]).
    + rewrite rev_app_distr. cbn [rev app]. destruct (rev l) as [|a [|b r]] eqn:R; try reflexivity;
        pose proof (f_equal (@length Z) R) as LR; rewrite rev_length in LR; cbn [length] in LR; lia.
    + rewrite skipn_app, L1, skipn_all2 by lia. reflexivity.
  - rewrite firstn_app, L1, firstn_all2 by lia. cbn. apply app_nil_r.
Qed.
(** A sub-command is named by its function bytes; no other command has any. *)
Lemma sub_named c id : sent c -> c_handler c = HSubPlain id ->
  (exists m fn t, symbol_function c = Some (m, fn) /\ picture_function c = None /\ sub_lookup [29; 40; 107] m fn = Some t /\ c_kind c = sc_kind t /\ id = sc_id t) \/
  (exists fn t, symbol_function c = None /\ picture_function c = Some fn /\ detect_kind graphics_table fn = Some t /\ c_kind c = sc_kind t /\ id = sc_id t).
Proof.
  intros S H. destruct (sub_shape _ _ S H) as (p & l & m & fn & t & E & Pp & L & F & K & I).
  assert (Lp : length p = 3%nat) by (destruct Pp as [<-|[<-|[<-|[]]]]; reflexivity).
  destruct (header_end_of _ _ _ _ _ Lp L E) as (He & Hf).
  unfold symbol_function, picture_function. rewrite Hf, He. destruct Pp as [<-|[<-|[<-|[]]]].
  - left. exists m, fn, t. split; [reflexivity|]. split; [reflexivity|]. auto.
  - right. exists fn, t. split; [reflexivity|]. split; [reflexivity|]. split; [exact F | auto].
  - right. exists fn, t. split; [reflexivity|]. split; [reflexivity|]. split; [exact F | auto].
Qed.
Lemma other_named c : sent c -> (forall id, c_handler c <> HSubPlain id) -> symbol_function c = None /\ picture_function c = None.
Proof.
  intros S N. destruct (sent_reported _ S) as [(t & Ht & _ & I)|(sc & _ & I)]; [|destruct (N _ (si_handler _ _ I))].
  assert (Q : forallb (fun t => match skipn 3 (c_commands t) with _ :: _ :: _ => false | _ => true end) all_commands = true) by (vm_compute; reflexivity).
  pose proof (proj1 (forallb_forall _ _) Q _ Ht) as X. cbv beta in X. rewrite <- (in_commands _ _ I) in X.
  assert (header_end c = None) as He.
  { unfold header_end. destruct (skipn 3 (c_commands c)) as [|a [|b r]]; [reflexivity | reflexivity | discriminate]. }
  unfold symbol_function, picture_function. rewrite He. destruct (list_eqb _ _), (_ || _); split; reflexivity.
Qed.
(** The effect of a sub-command: that of its context update (settings, store, define, clear), none
    (transmit), or, for the print functions, none except that the picture buffer is emptied. *)
Lemma sub_step e c id s s' : sent c -> c_handler c = HSubPlain id -> process_command e c s = Ok s' ->
  match c_kind c with
  | KContext => exists x x', mem x = mem (rs_ctx s) /\ moved (rs_ctx s) x /\ apply_sub e id c x = Ok x' /\ rs_ctx s' = x'
  | _ => mem (rs_ctx s') = match id with S_print_buffer_graphics => let '(a, b, _) := mem (rs_ctx s) in (a, b, []) | _ => mem (rs_ctx s) end
  end.
Proof.
  intros S H P. assert (Tm : forall a b, process_text a = Ok b -> mem (rs_ctx b) = mem (rs_ctx a)) by (intros a b E; exact (moved_mem _ _ (proj1 (process_text_moved _ _ E)))).
  assert (K : match c_kind c with KContext | KGraphics => True | KControl => id <> S_print_buffer_graphics | _ => False end).
  { destruct (sent_reported _ S) as [(t & Ht & Nk & I)|(sc & Hs & I)].
    - exfalso. pose proof (in_handler _ _ I) as HL. rewrite H in HL. destruct (c_handler t); contradiction.
    - rewrite (si_handler _ _ I) in H. injection H as <-. rewrite (si_kind _ _ I).
      assert (Q : forallb (fun sc => match sc_kind sc with KContext | KGraphics => true | KControl => match sc_id sc with S_print_buffer_graphics => false | _ => true end | _ => false end) (code2d_table ++ graphics_table) = true) by (vm_compute; reflexivity).
      pose proof (proj1 (forallb_forall _ _) Q _ Hs) as X. cbv beta in X. destruct (sc_kind sc); try discriminate X; auto. intros E. rewrite E in X. discriminate. }
  unfold process_command in P. destruct (c_kind c); try contradiction.
  - apply bind_ok in P. destruct P as (d & Hd & P). apply bind_ok in P. destruct P as (s1 & H1 & P).
    unfold get_device_command in Hd. rewrite H in Hd.
    assert (d = []) as -> by (destruct id; try contradiction; injection Hd as <-; reflexivity). injection P as <-.
    rewrite (Tm _ _ H1). destruct id; try contradiction; reflexivity.
  - apply bind_ok in P. destruct P as (s1 & H1 & P). apply bind_ok in P. destruct P as (g & _ & P). apply bind_ok in P. destruct P as (s2 & H2 & P).
    apply bind_ok in P. destruct P as (d & Hd & P).
    assert (E2 : mem (rs_ctx s2) = mem (rs_ctx s)).
    { rewrite <- (Tm _ _ H1). destruct g as [g|]; [|injection H2 as <-; reflexivity]. exact (moved_mem _ _ (proj1 (process_gfx_moved _ _ _ H2 (proj2 (process_text_moved _ _ H1))))). }
    unfold get_device_command in Hd. rewrite H in Hd. destruct id; injection Hd as <-; try (injection P as <-; exact E2).
    unfold process_device_commands in P. cbn [fold_res bind process_device_command] in P. injection P as <-. rewrite <- E2. reflexivity.
  - apply bind_ok in P. destruct P as (s1 & H1 & P). apply on_ctx_inv in P. destruct P as (x & Hx & ->).
    unfold apply_context in Hx. rewrite H in Hx. exists (rs_ctx s1), x. split; [exact (Tm _ _ H1)|]. split; [exact (proj1 (process_text_moved _ _ H1))|]. split; [exact Hx | reflexivity].
Qed.
