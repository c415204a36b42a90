(** * PropsProtocol: what the output renderer is told besides the drawing (C62). *)
From Verif Require Import Base Command CommandSet Parser Vec GTypes Graphics Decoder Context Text Handlers Renderer ContextTheory RendererTheory
  Origin Told SpecPrinter StateTheory PropsContext PropsOutput LayoutTheory AreaTheory PropsLayout SpecMemory MemoryTheory SpecRender PropsQr ManualTheory SpecProtocol ProtocolTheory.
Local Open Scope Z_scope.
Local Open Scope list_scope.

Lemma run_notices e l : forall s s', history e s -> Forall sent l -> run_commands e l s = Ok s' ->
  notices (rs_calls s') = notices (rs_calls s) ++ protocol (mode s) l /\ mode s' = fold_left page_mode_after l (mode s).
Proof.
  unfold run_commands. induction l as [|c l IH]; intros s s' Hh F H; cbn [fold_res protocol fold_left] in *; [injection H as <-; rewrite app_nil_r; auto|].
  apply bind_ok in H. destruct H as (s1 & H1 & H). inversion F as [|? ? Sc F2]; subst.
  destruct (IH s1 s' (history_step _ _ _ _ Hh Sc H1) F2 H) as (A & B).
  rewrite A, B, (command_notices _ _ _ _ Hh Sc H1), (command_mode _ _ _ _ Sc H1), app_assoc. auto.
Qed.

(** *** C62: the calls that draw nothing are, in order and with their arguments, those the commands ask
    for: whatever is drawn in between, nothing is announced twice, dropped or out of order. *)
Theorem C62_protocol : forall e l s, Forall sent l -> run_commands e l renderer_new = Ok s -> notices (rs_calls s) = protocol false l.
Proof. intros e l s F R. exact (proj1 (run_notices e l renderer_new s (history_new e) F R)). Qed.
(** Page mode is on after ESC L until FF or ESC S, and at no other time. *)
Theorem C62_page_mode : forall e l s, Forall sent l -> run_commands e l renderer_new = Ok s ->
  p_enabled (c_page (rs_ctx s)) = fold_left page_mode_after l false.
Proof. intros e l s F R. exact (proj2 (run_notices e l renderer_new s (history_new e) F R)). Qed.
(** ... for a job on a renderer that was used before, the new announcements *)
Theorem C62_job : forall e bs cmds s s', history e s -> bytes_ok bs = true -> parse_esc_pos bs = Ok cmds -> render e bs s = Ok s' ->
  notices (rs_calls s') = notices (rs_calls s) ++ protocol (p_enabled (c_page (rs_ctx s))) cmds.
Proof.
  intros e bs cmds s s' Hh B P R. unfold render in R. rewrite P in R. cbn [bind] in R.
  assert (F : Forall sent cmds) by (apply Forall_forall; intros c Hc; exists bs, cmds; auto).
  exact (proj1 (run_notices e cmds s s' Hh F R)).
Qed.

(** A, GS V 66 3, ESC L, ESC T 1, B, FF, ESC d 2, CAN @. *)
Definition protocol_job : list Z := [65; 29; 86; 66; 3; 27; 76; 27; 84; 1; 66; 12; 27; 100; 2; 24; 64; 67].
Definition view_protocol (bs : list Z) : res (list notice * list notice) :=
  do c <- parse_esc_pos bs; do s <- render no_encoders bs renderer_new; Ok (protocol false c, notices (rs_calls s)).
Lemma protocol_seen bs v : view_protocol bs = Ok v -> exists cmds s, parse_esc_pos bs = Ok cmds /\ render no_encoders bs renderer_new = Ok s /\
  protocol false cmds = fst v /\ notices (rs_calls s) = snd v.
Proof.
  unfold view_protocol. intros H. apply bind_ok in H. destruct H as (c & P & H). apply bind_ok in H. destruct H as (s & R & H). exists c, s.
  split; [exact P|]. split; [exact R|]. injection H as <-. auto.
Qed.
Definition protocol_told : list notice :=
  [NDevice BeginPrint; NBegin; NDevice PartialCut; NDevice (Feed 3); NDevice BeginPageMode; NPageBegin; NDevice ChangePageModeDirection; NPageShape;
   NDevice EndPageMode; NPageEnd; NDevice PrintPageMode; NPagePrinted; NDevice (FeedLine 2); NDevice Cancel; NDevice EndPrint; NErrors; NEnd].
Example C62_demo : bytes_ok protocol_job = true /\ exists cmds s, parse_esc_pos protocol_job = Ok cmds /\ render no_encoders protocol_job renderer_new = Ok s /\
  protocol false cmds = protocol_told /\ notices (rs_calls s) = protocol_told.
Proof.
  split; [vm_compute; reflexivity|]. assert (V : view_protocol protocol_job = Ok (protocol_told, protocol_told)) by (vm_compute; reflexivity).
  exact (protocol_seen _ _ V).
Qed.
(** Every page announced as begun should be announced as ended.  It is not when the page is left by
    ESC S: here page mode is off again and the renderer was never told. *)
Theorem C62_page_end_refuted : exists cmds s, parse_esc_pos [27; 76; 65; 27; 83; 66; 10] = Ok cmds /\ render no_encoders [27; 76; 65; 27; 83; 66; 10] renderer_new = Ok s /\
  fold_left page_mode_after cmds false = false /\ In NPageBegin (notices (rs_calls s)) /\ ~ In NPageEnd (notices (rs_calls s)).
Proof.
  assert (V : view_protocol [27; 76; 65; 27; 83; 66; 10] = Ok ([NDevice BeginPrint; NBegin; NDevice BeginPageMode; NPageBegin; NDevice EndPrint; NErrors; NEnd],
    [NDevice BeginPrint; NBegin; NDevice BeginPageMode; NPageBegin; NDevice EndPrint; NErrors; NEnd])) by (vm_compute; reflexivity).
  assert (W : (do c <- parse_esc_pos [27; 76; 65; 27; 83; 66; 10]; Ok (fold_left page_mode_after c false)) = Ok false) by (vm_compute; reflexivity).
  destruct (protocol_seen _ _ V) as (cmds & s & P & R & _ & N). exists cmds, s. rewrite P in W. cbn [bind] in W. cbn [snd] in N.
  split; [exact P|]. split; [exact R|]. split; [congruence|]. rewrite N. split; [cbn; auto|]. cbn. intuition discriminate.
Qed.
