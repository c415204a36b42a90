(** * PropsManual: the printer as its manual describes it (C61). *)
From Verif Require Import Base Command CommandSet Parser Vec GTypes Graphics Decoder Context Text Handlers Renderer ContextTheory RendererTheory
  Origin Told SpecPrinter StateTheory PropsContext PropsOutput LayoutTheory AreaTheory PropsLayout SpecMemory MemoryTheory SpecRender SpecManual PropsQr ManualTheory.
Local Open Scope Z_scope.
Local Open Scope list_scope.

(** *** C61: after any run of commands the settings are exactly what the manual's table, applied command
    by command to the power-on settings, says: every command that sets something sets it as described,
    nothing else changes a setting. *)
Theorem C61_settings : forall e l s, Forall sent l -> run_commands e l renderer_new = Ok s -> panel_of (rs_ctx s) = fold_left obeyed l factory.
Proof. intros e l s F R. rewrite <- panel_new. exact (run_obeyed e l renderer_new s (history_new e) F R). Qed.
(** ... in particular a whole job, from whatever the jobs before it left behind *)
Theorem C61_job : forall e bs cmds s s', history e s -> bytes_ok bs = true -> parse_esc_pos bs = Ok cmds -> render e bs s = Ok s' ->
  panel_of (rs_ctx s') = fold_left obeyed cmds (panel_of (rs_ctx s)).
Proof.
  intros e bs cmds s s' Hh B P R. unfold render in R. rewrite P in R. cbn [bind] in R.
  apply (run_obeyed e cmds s s' Hh); [|exact R]. apply Forall_forall. intros c Hc. exists bs, cmds. auto.
Qed.

Lemma typed_panel e c x m : sinv x -> m = panel_of x -> (c_commands c = [29; 107] -> m_bar_text m = HriNone) ->
  typed e c x = match c_kind c, c_commands c with
                | KText, [] => map (pair (styled m)) (shown true (characters (m_table m) (m_charset m) (c_data c)))
                | KText, [13] => [(styled m, 13)]
                | _, _ => []
                end.
Proof.
  intros S -> U. unfold typed.
  destruct (list_eq_dec Z.eq_dec (c_commands c) [29; 107]) as [E|N].
  - rewrite E. specialize (U E). destruct (c_kind c); try reflexivity. destruct (get_graphics e c x) as [[g|]|]; try reflexivity.
    destruct g; try reflexivity. change (m_bar_text (panel_of x)) with (bc_human_readable (c_barcode x)) in U. rewrite U. reflexivity.
  - destruct (c_kind c); try reflexivity.
    + unfold span_ink, inked. rewrite !(style_panel x _ S), (decode_panel x _ S). reflexivity.
    + remember (c_commands c) as l eqn:El. clear El.
      assert (Q : forall (A : Type) (a b : A), l <> [29; 107] -> match l with [29; 107] => a | _ => b end = b).
      { intros A a b Nl. destruct l as [|p [|q [|r l]]]; try reflexivity.
        - repeat (match goal with |- context [match ?v with _ => _ end] => is_var v; destruct v end; try reflexivity).
        - repeat (match goal with |- context [match ?v with _ => _ end] => is_var v; destruct v end; try reflexivity). contradiction.
        - repeat (match goal with |- context [match ?v with _ => _ end] => is_var v; destruct v end; try reflexivity). }
      apply Q. exact N.
Qed.

(** *** C61: the text.  Every character printed so far or waiting to be printed is, in order, a character
    of the stream, in the style the manual's settings ask for at that place. *)
Lemma run_written e l : forall s s', history e s -> Forall sent l -> untitled (panel_of (rs_ctx s)) l -> run_commands e l s = Ok s' ->
  drawn (rs_calls s') ++ pending s' = (drawn (rs_calls s) ++ pending s) ++ manuscript (panel_of (rs_ctx s)) l.
Proof.
  unfold run_commands. induction l as [|c l IH]; intros s s' Hh F U H; cbn [fold_res manuscript untitled] in *.
  - injection H as <-. rewrite app_nil_r. reflexivity.
  - apply bind_ok in H. destruct H as (s1 & H1 & H). inversion F as [|? ? Sc F2]; subst. destruct U as (U1 & U).
    pose proof (command_obeyed _ _ _ _ Hh Sc H1) as O. rewrite <- O in U.
    rewrite (IH s1 s' (history_step _ _ _ _ Hh Sc H1) F2 U H), (C32_each_command _ _ _ _ Hh Sc H1), O, !app_assoc.
    rewrite (typed_panel e c (rs_ctx s) _ (history_sinv _ _ Hh) eq_refl U1). reflexivity.
Qed.
Theorem C61_text : forall e l s, Forall sent l -> untitled factory l -> run_commands e l renderer_new = Ok s ->
  drawn (rs_calls s) ++ pending s = manuscript factory l.
Proof.
  intros e l s F U R. rewrite <- panel_new in U |- *. exact (run_written e l renderer_new s (history_new e) F U R).
Qed.
(** ... and a whole job on a fresh renderer prints it all *)
Theorem C61_printed : forall e bs cmds s, bytes_ok bs = true -> parse_esc_pos bs = Ok cmds -> untitled factory cmds ->
  render e bs renderer_new = Ok s -> drawn (rs_calls s) = manuscript factory cmds.
Proof.
  intros e bs cmds s B P U R. destruct (C31_framed e bs renderer_new s B eq_refl R) as (Sp & _).
  unfold render in R. rewrite P in R. cbn [bind] in R.
  assert (F : Forall sent cmds) by (apply Forall_forall; intros c Hc; exists bs, cmds; auto).
  rewrite <- (C61_text e cmds s F U R). unfold pending. rewrite Sp. cbn [flat_map]. rewrite app_nil_r. reflexivity.
Qed.

(** ESC E 1, A, GS ( N: red ink, B, GS H 2, dot density 360, ESC - 1, GS ! 17, C, LF. *)
Definition manual_job : list Z :=
  [27; 69; 1; 65; 29; 40; 78; 2; 0; 48; 50; 66; 29; 72; 2; 29; 40; 76; 4; 0; 48; 49; 51; 51; 27; 45; 1; 29; 33; 17; 67; 10].
Definition look (i : ink) : Z * bool * Z * Z * rgba := (snd i, s_bold (fst i), s_underline (fst i), s_character_width (fst i), s_text_color (fst i)).
Definition view_manual (bs : list Z) : res (bool * list (Z * bool * Z * Z * rgba) * list (Z * bool * Z * Z * rgba) * (panel * panel)) :=
  do c <- parse_esc_pos bs; do s <- render no_encoders bs renderer_new;
  Ok (forallb (fun x => negb (list_eqb (c_commands x) [29; 107])) c, map look (drawn (rs_calls s)), map look (manuscript factory c), (fold_left obeyed c factory, panel_of (rs_ctx s))).
Lemma untitled_plain l : forallb (fun x => negb (list_eqb (c_commands x) [29; 107])) l = true -> forall m, untitled m l.
Proof.
  induction l as [|c l IH]; intros H m; [exact Logic.I|]. cbn [forallb] in H. apply andb_prop in H. destruct H as (H1 & H). split; [|exact (IH H _)].
  intros E. rewrite E in H1. discriminate.
Qed.
Lemma manual_seen bs v : view_manual bs = Ok v -> exists cmds s, parse_esc_pos bs = Ok cmds /\ render no_encoders bs renderer_new = Ok s /\
  v = (forallb (fun x => negb (list_eqb (c_commands x) [29; 107])) cmds, map look (drawn (rs_calls s)), map look (manuscript factory cmds), (fold_left obeyed cmds factory, panel_of (rs_ctx s))).
Proof.
  unfold view_manual. intros H. apply bind_ok in H. destruct H as (c & P & H). apply bind_ok in H. destruct H as (s & R & H). exists c, s. split; [exact P|]. split; [exact R|]. congruence.
Qed.
Example C61_demo : exists cmds s, bytes_ok manual_job = true /\ parse_esc_pos manual_job = Ok cmds /\ render no_encoders manual_job renderer_new = Ok s /\ untitled factory cmds /\
  map look (drawn (rs_calls s)) = [(65, true, 0, 12, black_ink); (66, true, 0, 12, red_ink); (67, true, 3, 24, red_ink)] /\
  map look (manuscript factory cmds) = map look (drawn (rs_calls s)) /\
  panel_of (rs_ctx s) = with_high 2 (with_wide 2 (with_under UnderOn (with_dpi 360 (with_bar_text HriBelow (with_ink red_ink (with_bold true factory)))))).
Proof.
  assert (V : view_manual manual_job = Ok (true, [(65, true, 0, 12, black_ink); (66, true, 0, 12, red_ink); (67, true, 3, 24, red_ink)], [(65, true, 0, 12, black_ink); (66, true, 0, 12, red_ink); (67, true, 3, 24, red_ink)],
    (with_high 2 (with_wide 2 (with_under UnderOn (with_dpi 360 (with_bar_text HriBelow (with_ink red_ink (with_bold true factory)))))), with_high 2 (with_wide 2 (with_under UnderOn (with_dpi 360 (with_bar_text HriBelow (with_ink red_ink (with_bold true factory))))))))) by (vm_compute; reflexivity).
  destruct (manual_seen _ _ V) as (cmds & s & P & R & E). pose proof (f_equal (fun v => snd (snd v)) E) as E5. cbn [fst snd] in E5. pose proof (f_equal (fun v => fst (fst (fst v))) E) as E1. pose proof (f_equal (fun v => snd (fst (fst v))) E) as E2. pose proof (f_equal (fun v => snd (fst v)) E) as E3. cbn [fst snd] in E1, E2, E3. clear V E. exists cmds, s.
  split; [vm_compute; reflexivity|]. split; [exact P|]. split; [exact R|]. split; [exact (untitled_plain _ (eq_sym E1) _)|]. split; [symmetry; exact E2|]. split; [congruence | symmetry; exact E5].
Qed.
