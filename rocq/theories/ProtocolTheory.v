(** * ProtocolTheory: the calls that draw nothing, command by command (C62). *)
From Verif Require Import Base Command CommandSet Parser Vec Float32 GTypes Graphics Decoder Context Text Handlers Renderer ContextTheory RendererTheory
  Origin Told SpecPrinter StateTheory PropsContext PropsOutput LayoutTheory AreaTheory PropsLayout SpecMemory MemoryTheory SpecRender PropsQr SpecManual ManualTheory SpecProtocol.
Local Open Scope Z_scope.
Local Open Scope list_scope.

Lemma notices_app a b : notices (a ++ b) = notices a ++ notices b.
Proof. apply flat_map_app. Qed.
Lemma drawing_none n : Forall is_draw_call n -> notices n = [].
Proof. intros F. induction F as [|(x, ev) n D F IH]; [reflexivity|]. unfold notices in *. cbn [flat_map snd]. rewrite IH. destruct ev; try contradiction; reflexivity. Qed.
Lemma drawing_quiet s s' : adds is_draw_call s s' -> notices (rs_calls s') = notices (rs_calls s).
Proof. intros (n & E & F). rewrite E, notices_app, (drawing_none _ F). apply app_nil_r. Qed.
Lemma text_quiet s s' : process_text s = Ok s' -> notices (rs_calls s') = notices (rs_calls s) /\ mode s' = mode s.
Proof.
  intros H. split; [|exact (proj1 (neutral_text _ _ H))]. destruct (process_text_quiet _ _ H) as ((_ & _ & A) & _). apply drawing_quiet.
  destruct A as (n & E & F). exists n. split; [exact E|]. eapply Forall_impl; [|exact F]. intros x. apply text_is_draw.
Qed.
Lemma ctx_calls f s s' : on_ctx f s = Ok s' -> rs_calls s' = rs_calls s.
Proof. intros H. apply on_ctx_inv in H. destruct H as (x & _ & ->). reflexivity. Qed.

(** ** Device commands *)
Lemma call_notices ev s : notices (rs_calls (call ev s)) = notices (rs_calls s) ++ notice_of ev.
Proof. unfold call. cbn [rs_calls]. rewrite notices_app. unfold notices at 2. cbn [flat_map snd]. rewrite app_nil_r. reflexivity. Qed.
Lemma device_notices d s s' : process_device_command d s = Ok s' -> notices (rs_calls s') = notices (rs_calls s) ++ announcement d.
Proof.
  intros H. unfold process_device_command in H. cbv zeta in H.
  assert (Pg : forall a b, page_geometry a = Ok b -> notices (rs_calls b) = notices (rs_calls a) ++ [NPageShape]).
  { intros a b E. unfold page_geometry in E. apply bind_ok in E. destruct E as ((((r & w) & h) & p) & _ & E). injection E as <-. rewrite call_notices. reflexivity. }
  destruct d; unfold announcement.
  all: try (rewrite (ctx_calls _ _ _ H), ?call_notices, <- ?app_assoc; reflexivity).
  all: try (apply ok_same in H; subst s'; rewrite ?call_notices, <- ?app_assoc; reflexivity).
  all: try (rewrite (Pg _ _ H), ?call_notices, <- ?app_assoc; reflexivity).
  all: apply bind_ok in H; destruct H as (s1 & H1 & H); first
    [ apply ok_same in H; subst s'; rewrite call_notices, (ctx_calls _ _ _ H1), ?call_notices, <- ?app_assoc; reflexivity
    | rewrite (Pg _ _ H), (ctx_calls _ _ _ H1), ?call_notices, <- ?app_assoc; reflexivity ].
Qed.
Lemma devices_notices l : forall s s', process_device_commands l s = Ok s' -> notices (rs_calls s') = notices (rs_calls s) ++ flat_map announcement l.
Proof.
  unfold process_device_commands. induction l as [|d l IH]; intros s s' H; cbn [fold_res flat_map] in *; [injection H as <-; rewrite app_nil_r; reflexivity|].
  apply bind_ok in H. destruct H as (s1 & H1 & H). rewrite (IH _ _ H), (device_notices _ _ _ H1), app_assoc. reflexivity.
Qed.

(** ** By handler *)
Definition act_by (id : plain_id) : option act :=
  match id with
  | P_cancel => Some ACancel | P_formfeed => Some AFormFeed | P_initialize => Some AReset | P_print_and_feed_lines => Some AFeedLines
  | P_print_and_feed => Some AFeed | P_print_and_reverse_feed_lines => Some AReverse | P_set_character_size => Some ASize
  | P_set_justification => Some AJustify | P_set_tab_len => Some ATabs | P_set_page_mode => Some AEnterPage
  | P_page_mode_print_area => Some APrintArea | P_page_mode_print_direction => Some ADirection | P_page_mode_print_data => Some APrintPage
  | _ => None
  end.
Lemma cuts_raw c : feed_cut_device c = cuts (arg 0 c 0) (arg 0 c 1).
Proof.
  unfold feed_cut_device. cbv zeta. generalize (arg 0 c 1) as n. generalize (arg 0 c 0) as m. intros m n.
  destruct m as [|p|p]; try reflexivity. do 7 (destruct p; try reflexivity).
Qed.
Lemma plain_acts id c x d : sinv x -> id <> P_begin_print -> id <> P_end_print -> id <> P_select_standard_mode -> device_plain id c x = Ok d ->
  d = match act_by id with Some a => done (p_enabled (c_page x)) a (c_data c) | None => [] end.
Proof.
  intros S N1 N2 N3 H. destruct id; try contradiction; cbn [device_plain] in H; cbn [act_by]; try (apply ok_same in H; exact H).
  - apply ok_same in H. subst d. unfold done. cbv zeta. change (nth 0 (c_data c) 0) with (arg 0 c 0). rewrite size_high, size_low. reflexivity.
  - apply ok_same in H. subst d. unfold done. cbv zeta. change (nth 0 (c_data c) 0) with (arg 0 c 0). rewrite <- justify_code_raw. reflexivity.
  - unfold default_spacing in H. rewrite (si_default _ S) in H. cbn [bind] in H. change (t_line_spacing (x_text default_settings)) with 24 in H. apply ok_same in H. exact H.
Qed.

Definition act_eqb (a b : option act) : bool :=
  match a, b with
  | None, None => true
  | Some a, Some b => if (ltac:(decide equality) : {a = b} + {a <> b}) then true else false
  | _, _ => false
  end.
Lemma act_eq a b : act_eqb a b = true -> a = b.
Proof. destruct a as [a|], b as [b|]; cbn; try discriminate; try reflexivity. destruct (_ : {a = b} + {a <> b}); [congruence | discriminate]. Qed.
Definition framed (n : string) : bool := String.eqb n "Begin Print" || String.eqb n "End Print".
Definition act_entry (t : command) : bool :=
  match c_kind t with
  | KSubcommand => true
  | k =>
    match c_handler t with
    | HPlain P_begin_print => String.eqb (c_name t) "Begin Print" && runs_device k
    | HPlain P_end_print => String.eqb (c_name t) "End Print" && runs_device k
    | HPlain P_select_standard_mode => negb (framed (c_name t)) && negb (runs_device k) && act_eqb (act_of (c_commands t)) (Some ALeavePage)
    | HPlain id => negb (framed (c_name t)) && act_eqb (act_of (c_commands t)) (if runs_device k then act_by id else None)
    | HFeedCut => negb (framed (c_name t)) && runs_device k && act_eqb (act_of (c_commands t)) (Some ACut)
    | HSubPlain _ => false
    | _ => negb (framed (c_name t)) && act_eqb (act_of (c_commands t)) None
    end
  end.
Lemma act_entries : forallb act_entry all_commands = true.
Proof. vm_compute. reflexivity. Qed.

Lemma not_framed n : negb (framed n) = true -> String.eqb n "Begin Print" = false /\ String.eqb n "End Print" = false.
Proof. unfold framed. destruct (String.eqb n "Begin Print"), (String.eqb n "End Print"); cbn; auto; discriminate. Qed.
Lemma plain_devices c : sent c -> (forall id, c_handler c <> HSubPlain id) ->
  (forall page, runs_device (c_kind c) = false -> devices_for page c = []) /\
  (forall x d, runs_device (c_kind c) = true -> sinv x -> get_device_command c x = Ok d -> d = devices_for (p_enabled (c_page x)) c).
Proof.
  intros S NS. destruct (sent_reported _ S) as [(t & Ht & Nk & I)|(sc & _ & I)]; [|destruct (NS _ (si_handler _ _ I))].
  pose proof (proj1 (forallb_forall _ _) act_entries _ Ht) as X. pose proof (in_handler _ _ I) as HL.
  unfold devices_for. rewrite (proj2 (other_named _ S NS)), (in_name _ _ I), (in_commands _ _ I), (in_kind _ _ I).
  unfold act_entry in X. set (k := c_kind t) in *.
  assert (Y : match c_handler t with
    | HPlain P_begin_print => String.eqb (c_name t) "Begin Print" && runs_device k
    | HPlain P_end_print => String.eqb (c_name t) "End Print" && runs_device k
    | HPlain P_select_standard_mode => negb (framed (c_name t)) && negb (runs_device k) && act_eqb (act_of (c_commands t)) (Some ALeavePage)
    | HPlain id => negb (framed (c_name t)) && act_eqb (act_of (c_commands t)) (if runs_device k then act_by id else None)
    | HFeedCut => negb (framed (c_name t)) && runs_device k && act_eqb (act_of (c_commands t)) (Some ACut)
    | HSubPlain _ => false
    | _ => negb (framed (c_name t)) && act_eqb (act_of (c_commands t)) None
    end = true) by (destruct k; [exact X|exact X|exact X|exact X|exact X|exact X|destruct (Nk eq_refl)|exact X]).
  clear X Nk. clearbody k.
  unfold get_device_command.
  destruct (c_handler t) as [id| |cap|q|q|q|q|q] eqn:Et; destruct (c_handler c) as [id2| |cap2|q2|q2|q2|q2|q2] eqn:Ec; try contradiction; cbn in HL; try discriminate Y.
  - subst id2.
    assert (Z : (id = P_begin_print \/ id = P_end_print \/ id = P_select_standard_mode) \/ (id <> P_begin_print /\ id <> P_end_print /\ id <> P_select_standard_mode)) by (destruct id; auto; right; repeat split; discriminate).
    destruct Z as [[->|[->| ->]]|(N1 & N2 & N3)].
    + apply andb_prop in Y. destruct Y as (Y1 & Y2). rewrite Y1. split; [congruence|]. intros x d _ _ H. apply ok_same in H. exact H.
    + apply andb_prop in Y. destruct Y as (Y1 & Y2). apply String.eqb_eq in Y1. rewrite Y1. split; [congruence|]. intros x d _ _ H. apply ok_same in H. exact H.
    + apply andb_prop in Y. destruct Y as (Y & Y3). apply andb_prop in Y. destruct Y as (Y1 & Y2). destruct (not_framed _ Y1) as (-> & ->). rewrite (act_eq _ _ Y3).
      split; [reflexivity|]. intros x d R. rewrite R in Y2. discriminate.
    + assert (Y' : negb (framed (c_name t)) && act_eqb (act_of (c_commands t)) (if runs_device k then act_by id else None) = true) by (destruct id; try contradiction; exact Y).
      apply andb_prop in Y'. destruct Y' as (Y1 & Y3). destruct (not_framed _ Y1) as (-> & ->). rewrite (act_eq _ _ Y3).
      split; [intros page ->; reflexivity|]. intros x d -> Sx H. exact (plain_acts _ _ _ _ Sx N1 N2 N3 H).
  - apply andb_prop in Y. destruct Y as (Y & Y3). apply andb_prop in Y. destruct Y as (Y1 & Y2). destruct (not_framed _ Y1) as (-> & ->). rewrite (act_eq _ _ Y3).
    split; [congruence|]. intros x d _ _ H. apply ok_same in H. subst d. apply cuts_raw.
  - apply andb_prop in Y. destruct Y as (Y1 & Y3). destruct (not_framed _ Y1) as (-> & ->). rewrite (act_eq _ _ Y3). split; [reflexivity|]. intros x d _ _ H. apply ok_same in H. exact H.
  - apply andb_prop in Y. destruct Y as (Y1 & Y3). destruct (not_framed _ Y1) as (-> & ->). rewrite (act_eq _ _ Y3). split; [reflexivity|]. intros x d _ _ H. apply ok_same in H. exact H.
  - apply andb_prop in Y. destruct Y as (Y1 & Y3). destruct (not_framed _ Y1) as (-> & ->). rewrite (act_eq _ _ Y3). split; [reflexivity|]. intros x d _ _ H. apply ok_same in H. exact H.
  - apply andb_prop in Y. destruct Y as (Y1 & Y3). destruct (not_framed _ Y1) as (-> & ->). rewrite (act_eq _ _ Y3). split; [reflexivity|]. intros x d _ _ H. apply ok_same in H. exact H.
  - apply andb_prop in Y. destruct Y as (Y1 & Y3). destruct (not_framed _ Y1) as (-> & ->). rewrite (act_eq _ _ Y3). split; [reflexivity|]. intros x d _ _ H. apply ok_same in H. exact H.
Qed.
(** sub-commands *)
Lemma act_short p o : act_of p = Some o -> (length p <= 3)%nat.
Proof.
  unfold act_of. destruct (find _ acts) as [x|] eqn:F; [|discriminate]. intros _. apply find_some in F. destruct F as (I & E).
  unfold list_eqb in E. destruct (list_eq_dec Z.eq_dec (fst x) p) as [<-|]; [|discriminate].
  assert (Q : forallb (fun x => Nat.leb (length (fst x)) 3) acts = true) by (vm_compute; reflexivity).
  apply Nat.leb_le. exact (proj1 (forallb_forall _ _) Q _ I).
Qed.
Lemma long_no_act c id : sent c -> c_handler c = HSubPlain id -> act_of (c_commands c) = None.
Proof.
  intros S H. destruct (act_of (c_commands c)) as [o|] eqn:E; [|reflexivity]. apply act_short in E. exfalso.
  destruct (sub_shape _ _ S H) as (p & l & m & fn & t & C & Pp & L & _). rewrite C, !app_length in E. cbn [length] in E.
  assert (length p = 3%nat) by (destruct Pp as [<-|[<-|[<-|[]]]]; reflexivity). lia.
Qed.
Lemma buffer_fn fn t : detect_kind graphics_table fn = Some t ->
  (fn =? 2) || (fn =? 50) = match sc_id t with S_print_buffer_graphics => true | _ => false end.
Proof.
  intros H.
  assert (Q : forallb (fun t => match sc_id t with S_print_buffer_graphics => list_eqb (sc_commands t) [2; 50] | _ => true end) graphics_table = true) by (vm_compute; reflexivity).
  assert (Q1 : option_map sc_id (detect_kind graphics_table 2) = Some S_print_buffer_graphics) by (vm_compute; reflexivity).
  assert (Q2 : option_map sc_id (detect_kind graphics_table 50) = Some S_print_buffer_graphics) by (vm_compute; reflexivity).
  destruct (fn =? 2) eqn:E1; [apply Z.eqb_eq in E1; subst fn; rewrite H in Q1; cbn [option_map] in Q1; injection Q1 as ->; reflexivity|].
  destruct (fn =? 50) eqn:E2; [apply Z.eqb_eq in E2; subst fn; rewrite H in Q2; cbn [option_map] in Q2; injection Q2 as ->; reflexivity|].
  cbn [orb]. unfold detect_kind in H. apply find_some in H. destruct H as (I & M).
  pose proof (proj1 (forallb_forall _ _) Q _ I) as X. cbv beta in X. destruct (sc_id t); try reflexivity. exfalso.
  unfold list_eqb in X. destruct (list_eq_dec Z.eq_dec (sc_commands t) [2; 50]) as [E|]; [|discriminate]. rewrite E in M. cbn in M. rewrite E1, E2 in M. discriminate.
Qed.
Lemma sub_devices c id page : sent c -> c_handler c = HSubPlain id ->
  devices_for page c = match id with S_print_buffer_graphics => [ClearBufferGraphics] | _ => [] end.
Proof.
  intros S H. unfold devices_for.
  destruct (sub_named _ _ S H) as [(m & fn & t & _ & Pf & F & _ & I)|(fn & t & _ & Pf & F & _ & I)]; rewrite Pf.
  - rewrite (long_no_act _ _ S H). destruct (symbol_lookup _ _ _ F) as (In_t & _).
    assert (Q : forallb (fun t => match sc_id t with S_print_buffer_graphics => false | _ => true end) code2d_table = true) by (vm_compute; reflexivity).
    pose proof (proj1 (forallb_forall _ _) Q _ In_t) as X. cbv beta in X. subst id.
    destruct (frame_name _ S) as (B & E). 
    destruct (String.eqb (c_name c) "Begin Print") eqn:N1; [apply String.eqb_eq in N1; apply B in N1; congruence|].
    destruct (String.eqb (c_name c) "End Print") eqn:N2; [apply String.eqb_eq in N2; apply E in N2; congruence|].
    destruct (sc_id t); try reflexivity. discriminate.
  - rewrite (buffer_fn _ _ F). subst id. destruct (sc_id t); reflexivity.
Qed.
Lemma sub_runs c : sent c -> c_handler c = HSubPlain S_print_buffer_graphics -> c_kind c = KGraphics.
Proof.
  intros S H. destruct (sent_reported _ S) as [(t & Ht & Nk & I)|(sc & Hs & I)].
  - exfalso. pose proof (in_handler _ _ I) as HL. rewrite H in HL. destruct (c_handler t); contradiction.
  - rewrite (si_handler _ _ I) in H. injection H as H. rewrite (si_kind _ _ I).
    assert (Q : forallb (fun sc => match sc_id sc with S_print_buffer_graphics => match sc_kind sc with KGraphics => true | _ => false end | _ => true end) (code2d_table ++ graphics_table) = true) by (vm_compute; reflexivity).
    pose proof (proj1 (forallb_forall _ _) Q _ Hs) as X. cbv beta in X. rewrite H in X. destruct (sc_kind sc); congruence.
Qed.
(** ** Any command *)
Lemma command_devices c : sent c ->
  (forall page, runs_device (c_kind c) = false -> devices_for page c = []) /\
  (forall x d, runs_device (c_kind c) = true -> sinv x -> get_device_command c x = Ok d -> d = devices_for (p_enabled (c_page x)) c).
Proof.
  intros S.
  assert (Sub : (exists id, c_handler c = HSubPlain id) \/ forall id, c_handler c <> HSubPlain id) by (destruct (c_handler c); try (right; intros ?; discriminate); left; eexists; reflexivity).
  destruct Sub as [(id & H)|N]; [|exact (plain_devices _ S N)]. split.
  - intros page K. rewrite (sub_devices _ _ _ S H). destruct id; try reflexivity. rewrite (sub_runs _ S H) in K. discriminate.
  - intros x d _ _ G. rewrite (sub_devices _ _ _ S H). unfold get_device_command in G. rewrite H in G. destruct id; apply ok_same in G; exact G.
Qed.
Lemma command_notices e c s s' : history e s -> sent c -> process_command e c s = Ok s' ->
  notices (rs_calls s') = notices (rs_calls s) ++ flat_map announcement (devices_for (mode s) c).
Proof.
  intros Hh Sc H. pose proof (history_sinv _ _ Hh) as S. destruct (command_devices _ Sc) as (Dn & Dy).
  assert (NS : runs_device (c_kind c) = true -> c_handler c <> HPlain P_select_standard_mode).
  { intros K E. pose proof (kind_of_special _ Sc) as Ks. rewrite E in Ks. destruct Ks as (Ks & _). rewrite Ks in K. discriminate. }
  assert (Ts : forall a b, process_text a = Ok b -> sinv (rs_ctx a) -> sinv (rs_ctx b)) by (intros a b E; exact (sinv_moved _ _ (proj1 (process_text_moved _ _ E)))).
  assert (Cc : forall a b, runs_device (c_kind c) = true -> on_ctx (apply_context e c) a = Ok b -> sinv (rs_ctx a) -> notices (rs_calls b) = notices (rs_calls a) /\ mode b = mode a /\ sinv (rs_ctx b)).
  { intros a b K E Sa. split; [rewrite (ctx_calls _ _ _ E); reflexivity|]. apply on_ctx_inv in E. destruct E as (x & E & ->).
    split; [exact (apply_context_mode _ _ _ _ (NS K) E) | exact (apply_context_sinv _ _ _ _ Sc Sa E)]. }
  unfold process_command in H. destruct (c_kind c) eqn:K; cbn [runs_device] in *.
  - apply bind_ok in H. destruct H as (d & Hd & H). apply bind_ok in H. destruct H as (s1 & H1 & H). destruct (text_quiet _ _ H1) as (Q1 & _).
    rewrite (devices_notices _ _ _ H), Q1, (Dy _ _ eq_refl S Hd). reflexivity.
  - rewrite (Dn _ eq_refl). injection H as <-. rewrite app_nil_r. destruct (get_text c (rs_ctx s)); reflexivity.
  - apply bind_ok in H. destruct H as (s1 & H1 & H). apply bind_ok in H. destruct H as (d & Hd & H). destruct (Cc _ _ eq_refl H1 S) as (Q1 & M1 & S1).
    rewrite (devices_notices _ _ _ H), Q1, (Dy _ _ eq_refl S1 Hd). fold (mode s1). rewrite M1. reflexivity.
  - apply bind_ok in H. destruct H as (s1 & H1 & H). apply bind_ok in H. destruct H as (g & _ & H). apply bind_ok in H. destruct H as (s2 & H2 & H).
    apply bind_ok in H. destruct H as (d & Hd & H). destruct (text_quiet _ _ H1) as (Q1 & M1).
    assert (G : moved (rs_ctx s1) (rs_ctx s2) /\ notices (rs_calls s2) = notices (rs_calls s1)).
    { destruct g as [g|]; [|injection H2 as <-; split; [apply moved_refl | reflexivity]].
      destruct (process_gfx_moved _ _ _ H2 (proj2 (process_text_moved _ _ H1))) as (M & A & _). split; [exact M | exact (drawing_quiet _ _ A)]. }
    destruct G as (M & Q2). rewrite (devices_notices _ _ _ H), Q2, Q1, (Dy _ _ eq_refl (sinv_moved _ _ M (Ts _ _ H1 S)) Hd).
    rewrite (moved_enabled _ _ M). fold (mode s1). rewrite M1. reflexivity.
  - apply bind_ok in H. destruct H as (s1 & H1 & H). rewrite (Dn _ eq_refl). cbn [flat_map]. rewrite app_nil_r, (ctx_calls _ _ _ H). exact (proj1 (text_quiet _ _ H1)).
  - apply bind_ok in H. destruct H as (s1 & H1 & H). apply bind_ok in H. destruct H as (s2 & H2 & H). apply bind_ok in H. destruct H as (d & Hd & H).
    destruct (text_quiet _ _ H1) as (Q1 & M1). destruct (Cc _ _ eq_refl H2 (Ts _ _ H1 S)) as (Q2 & M2 & S2).
    rewrite (devices_notices _ _ _ H), Q2, Q1, (Dy _ _ eq_refl S2 Hd). fold (mode s2). rewrite M2, M1. reflexivity.
  - injection H as <-. rewrite (Dn _ eq_refl), app_nil_r. reflexivity.
  - apply bind_ok in H. destruct H as (s1 & H1 & H). injection H as <-. rewrite (Dn _ eq_refl). cbn [flat_map]. rewrite app_nil_r. exact (proj1 (text_quiet _ _ H1)).
Qed.
Lemma steady_act p a : act_of p = Some a -> p <> [12] -> p <> [27; 76] -> p <> [27; 83] -> forall m, page_after m a = m.
Proof.
  unfold act_of. destruct (find _ acts) as [x|] eqn:F; [|discriminate]. intros E N1 N2 N3 m. injection E as <-. apply find_some in F. destruct F as (I & E).
  unfold list_eqb in E. destruct (list_eq_dec Z.eq_dec (fst x) p) as [<-|]; [|discriminate].
  repeat (destruct I as [<-|I]; [first [reflexivity | cbn [fst] in *; congruence]|]). destruct I.
Qed.
Lemma command_mode e c s s' : sent c -> process_command e c s = Ok s' -> mode s' = page_mode_after (mode s) c.
Proof.
  intros Sc H. pose proof (step_effect _ _ _ _ Sc H) as E. pose proof (kind_of_special _ Sc) as K.
  assert (G : match after c (mode s) with (m, _, _) => m end = page_mode_after (mode s) c).
  { unfold after, page_mode_after. 
    assert (O : c_commands c <> [12] /\ c_commands c <> [27; 76] /\ c_commands c <> [27; 83] -> mode s = match act_of (c_commands c) with Some a => page_after (mode s) a | None => mode s end).
    { intros (N1 & N2 & N3). destruct (act_of (c_commands c)) as [a|] eqn:A; [symmetry; exact (steady_act _ _ A N1 N2 N3 _) | reflexivity]. }
    destruct (c_handler c) as [id| | | | | | |]; try exact (O K). destruct id; try exact (O K); destruct K as (_ & ->); reflexivity. }
  destruct (after c (mode s)) as ((m & ne) & nb). destruct E as (E & _). congruence.
Qed.
