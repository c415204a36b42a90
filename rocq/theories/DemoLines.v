(** * DemoLines: jobs that meet the hypotheses of the C54 theorems, and what the printer does not do. *)
From Verif Require Import Base Command CommandSet Parser Vec Float32 GTypes Graphics Utf8 Decoder Context Text
  Upce Handlers Renderer ContextTheory RendererTheory Origin SpecPrinter StateTheory PropsText SpecRender
  PropsOutput LayoutTheory PlaceTheory PropsContext PropsPlace CallsTheory ImageRenderer SpecImage SpecLines PropsLines PropsMotion PropsCells.
Local Open Scope Z_scope.
Local Open Scope list_scope.

(** ** Deciding the hypotheses *)
Definition is_lf (w : text_span) : bool := match s_text w with [c] => c =? 10 | _ => false end.
Lemma is_lf_spec w : is_lf w = true <-> lf w.
Proof.
  unfold is_lf, lf. destruct (s_text w) as [|c [|]]; [easy | | easy]. rewrite Z.eqb_eq. split; [intros -> | intros H; injection H]; auto.
Qed.
Fixpoint split_lf (ws : list text_span) : list (list text_span) * list text_span :=
  match ws with
  | [] => ([], [])
  | w :: r => if is_lf w then ([] :: fst (split_lf r), snd (split_lf r))
              else match split_lf r with
                   | ([], last) => ([], w :: last)
                   | (l :: ls, last) => ((w :: l) :: ls, last)
                   end
  end.
Lemma split_lf_ok ws : lines_of_text (fst (split_lf ws)) (snd (split_lf ws)) ws.
Proof.
  induction ws as [|w r IH]; [constructor|]. cbn [split_lf]. destruct (is_lf w) eqn:E.
  - apply is_lf_spec in E. exact (Finished [] w r _ _ E IH).
  - destruct (split_lf r) as [[|l ls] last]; cbn [fst snd] in *.
    + inversion IH as [l0|]; subst. constructor.
    + inversion IH as [|l0 e more ls0 last0 L T]; subst. exact (Finished (w :: l) e more ls last L T).
Qed.
Fixpoint row_fitsb (width : Z) (tabs : list Z) (x : Z) (ws : list text_span) : bool :=
  match ws with
  | [] => true
  | w :: r => negb (is_lf w) && if is_tab w then row_fitsb width tabs (next_stop tabs (s_character_width w) x) r
              else (x + word_dots w <=? width) && row_fitsb width tabs (x + word_dots w) r
  end.
Lemma row_fitsb_ok width tabs ws : forall x, row_fitsb width tabs x ws = true -> row_fits width tabs x ws.
Proof.
  induction ws as [|w r IH]; intros x H; [exact Logic.I|]. cbn [row_fitsb row_fits] in *. apply andb_prop in H. destruct H as (N & H). split.
  - intros L. apply is_lf_spec in L. rewrite L in N. discriminate.
  - destruct (is_tab w); [exact (IH _ H)|]. apply andb_prop in H. destruct H as (L & H). split; [lia | exact (IH _ H)].
Qed.
Fixpoint rows_fitb (width : Z) (tabs : list Z) (x : Z) (lines : list (list text_span)) : bool :=
  match lines with [] => true | l :: r => row_fitsb width tabs x l && rows_fitb width tabs 0 r end.
Lemma rows_fitb_ok width tabs ls : forall x, rows_fitb width tabs x ls = true -> rows_fit width tabs x ls.
Proof.
  induction ls as [|l r IH]; intros x H; [exact Logic.I|]. cbn [rows_fitb rows_fit] in *. apply andb_prop in H. destruct H as (A & H).
  split; [exact (row_fitsb_ok _ _ _ _ A) | exact (IH _ H)].
Qed.

(** a job up to its [k]-th command, and that command *)
Definition upto (bs : list Z) (k : nat) : res (command * rstate * rstate) :=
  do cmds <- parse_esc_pos bs; do s <- run_commands no_encoders1 (firstn k cmds) renderer_new;
  do s' <- process_command no_encoders1 (nth k cmds cmd_unknown) s; Ok (nth k cmds cmd_unknown, s, s').
Definition hyps (bs : list Z) (k : nat) : bool :=
  match upto bs k with
  | Ok (c, s, s') =>
      let ls := split_lf (flat_map break_into_words (rs_spans s)) in
      let tabs := t_tabs (c_text (rs_ctx s)) in
      negb (p_enabled (c_page (rs_ctx s))) && rows_fitb 609 tabs (get_x (rs_ctx s)) (fst ls) &&
      row_fitsb 609 tabs (last_start (get_x (rs_ctx s)) (fst ls)) (snd ls) && match rs_spans s' with [] => true | _ => false end
  | Panic _ => false
  end.
Lemma upto_sent bs k c s s' : bytes_ok bs = true -> (k < length (match parse_esc_pos bs with Ok l => l | _ => [] end))%nat ->
  upto bs k = Ok (c, s, s') -> history no_encoders1 s /\ sent c /\ process_command no_encoders1 c s = Ok s'.
Proof.
  intros B L H. unfold upto in H. apply bind_ok in H. destruct H as (cmds & P & H). rewrite P in L.
  apply bind_ok in H. destruct H as (s0 & R & H). apply bind_ok in H. destruct H as (s1 & Q & H). injection H as <- <- <-.
  assert (F : Forall sent cmds) by (apply Forall_forall; intros c Hc; exists bs, cmds; auto).
  split; [|split; [|exact Q]].
  - exists (firstn k cmds). split; [|exact R]. rewrite Forall_forall in *. intros c Hc. apply F.
    rewrite <- (firstn_skipn k cmds). apply in_or_app. left. exact Hc.
  - apply (proj1 (Forall_forall _ _) F). apply nth_In, L.
Qed.

(** ** Text with tabs, several sizes and two line feeds, cut at the end:
    a HT bb cc LF (GS ! 17) dd (GS ! 0) ee LF f GS V 65 30 *)
Definition lines_job : list Z := [97; 9; 98; 98; 32; 99; 99; 10; 29; 33; 17; 100; 100; 29; 33; 0; 101; 101; 10; 102; 29; 86; 65; 30].
(** where the cut is among the commands *)
Definition cut_at (bs : list Z) : nat :=
  match parse_esc_pos bs with Ok l => length l - 2 | _ => 0%nat end.
Definition report (s : rstate) :=
  map (fun x => (map (fun t => (s_text t, match s_dimensions t with Some d => (d_x d, d_y d, d_w d, d_h d) | None => (-1, -1, -1, -1) end)) (fst x), snd x))
    (lines_of (rs_calls s)).
Example C54_lines_demo : exists c s s' lines last n, history no_encoders1 s /\ sent c /\
  c_commands c = [29; 86] /\ c_data c = [65; 30] /\ process_command no_encoders1 c s = Ok s' /\ rs_spans s' = [] /\ p_enabled (c_page (rs_ctx s)) = false /\
  lines_of_text lines last (flat_map break_into_words (rs_spans s)) /\
  rows_fit 609 (t_tabs (c_text (rs_ctx s))) (get_x (rs_ctx s)) lines /\
  row_fits 609 (t_tabs (c_text (rs_ctx s))) (last_start (get_x (rs_ctx s)) lines) last /\
  fed (t_line_spacing (c_text (rs_ctx s))) c = Some n /\ n = 78 /\ (length lines = 2)%nat /\ (length last = 1)%nat /\
  report s' = [([([97], (0, 108, 12, 24)); ([98; 98; 32], (96, 108, 36, 24)); ([99; 99], (132, 108, 24, 24))], 0);
    ([([100; 100], (0, 132, 48, 48)); ([101; 101], (48, 132, 24, 24))], 0); ([([102], (0, 180, 12, 24))], 0)] /\
  (get_x (rs_ctx s'), get_y (rs_ctx s')) = (0, 258).
Proof.
  pose (k := cut_at lines_job).
  assert (Hy : hyps lines_job k = true) by (vm_compute; reflexivity).
  assert (V : (do x <- upto lines_job k; match x with (c, s, s') =>
      let ls := split_lf (flat_map break_into_words (rs_spans s)) in
      Ok (c_commands c, c_data c, fed (t_line_spacing (c_text (rs_ctx s))) c, length (fst ls), length (snd ls), report s', (get_x (rs_ctx s'), get_y (rs_ctx s'))) end)
    = Ok ([29; 86], [65; 30], Some 78, 2%nat, 1%nat, [([([97], (0, 108, 12, 24)); ([98; 98; 32], (96, 108, 36, 24)); ([99; 99], (132, 108, 24, 24))], 0);
    ([([100; 100], (0, 132, 48, 48)); ([101; 101], (48, 132, 24, 24))], 0); ([([102], (0, 180, 12, 24))], 0)], (0, 258))) by (vm_compute; reflexivity).
  assert (Kb : (k < length (match parse_esc_pos lines_job with Ok l => l | _ => [] end))%nat) by (vm_compute; lia).
  clearbody k. unfold hyps in Hy. destruct (upto lines_job k) as [[[c s] s']|] eqn:U; [|discriminate].
  destruct (upto_sent lines_job _ _ _ _ eq_refl Kb U) as (Hh & Sc & P). cbn [bind] in V. cbv zeta in *.
  apply andb_prop in Hy. destruct Hy as (Hy & E). apply andb_prop in Hy. destruct Hy as (Hy & G). apply andb_prop in Hy. destruct Hy as (Hp & F).
  pose proof (split_lf_ok (flat_map break_into_words (rs_spans s))) as T.
  destruct (split_lf (flat_map break_into_words (rs_spans s))) as [lines last]. cbn [fst snd] in *.
  exists c, s, s', lines, last, 78. injection V as V1 V2 V3 V4 V5 V6 V7 V8.
  split; [exact Hh|]. split; [exact Sc|]. split; [exact V1|]. split; [exact V2|]. split; [exact P|].
  split; [destruct (rs_spans s'); [reflexivity | discriminate]|]. split; [destruct (p_enabled _); [discriminate | reflexivity]|].
  split; [exact T|]. split; [exact (rows_fitb_ok _ _ _ _ F)|]. split; [exact (row_fitsb_ok _ _ _ _ G)|].
  split; [exact V3|]. split; [reflexivity|]. split; [exact V4|]. split; [exact V5|]. split; [exact V6|]. congruence.
Qed.
(** the whole of that job moves the paper forward *)
Example C54_motion_demo : exists cmds s', parse_esc_pos lines_job = Ok cmds /\ Forall sent cmds /\
  Forall (fun c => c_commands c <> [27; 64] /\ c_commands c <> [27; 76]) cmds /\
  p_enabled (c_page (rs_ctx renderer_new)) = false /\ run_commands no_encoders1 cmds renderer_new = Ok s' /\
  (get_y (rs_ctx renderer_new), get_y (rs_ctx s')) = (60, 258).
Proof.
  assert (V : (do cmds <- parse_esc_pos lines_job; do s <- run_commands no_encoders1 cmds renderer_new;
      Ok (forallb (fun c => match c_commands c with [27; 64] => false | [27; 76] => false | _ => true end) cmds, get_y (rs_ctx s))) = Ok (true, 258)) by (vm_compute; reflexivity).
  destruct (parse_esc_pos lines_job) as [cmds|] eqn:P; [|discriminate]. cbn [bind] in V.
  destruct (run_commands no_encoders1 cmds renderer_new) as [s|] eqn:R; [|discriminate]. cbn [bind] in V. injection V as V1 V2.
  exists cmds, s. split; [reflexivity|]. split; [apply Forall_forall; intros c Hc; exists lines_job, cmds; auto|].
  split; [|split; [vm_compute; reflexivity|]; split; [exact R | rewrite V2; vm_compute; reflexivity]].
  apply Forall_forall. intros c Hc. pose proof (proj1 (forallb_forall _ _) V1 _ Hc) as E. cbv beta in E. split; intros X; rewrite X in E; discriminate.
Qed.
(** ESC $ in the middle of a line: a b ESC $ 200 0 c LF *)
Example C54_position_demo : exists c s s', history no_encoders1 s /\ sent c /\ c_commands c = [27; 36] /\ c_data c = [200; 0] /\
  process_command no_encoders1 c s = Ok s' /\ p_enabled (c_page (rs_ctx s)) = false /\
  lines_of_text [] (flat_map break_into_words (rs_spans s)) (flat_map break_into_words (rs_spans s)) /\
  row_fits 609 (t_tabs (c_text (rs_ctx s))) (get_x (rs_ctx s)) (flat_map break_into_words (rs_spans s)) /\
  (length (rs_spans s) = 1)%nat /\ (get_x (rs_ctx s'), get_y (rs_ctx s')) = (200, 108).
Proof.
  pose (bs := [97; 98; 27; 36; 200; 0; 99; 10]). pose (k := 3%nat).
  assert (Hy : match upto bs k with Ok (c, s, s') => negb (p_enabled (c_page (rs_ctx s))) &&
      row_fitsb 609 (t_tabs (c_text (rs_ctx s))) (get_x (rs_ctx s)) (flat_map break_into_words (rs_spans s)) | Panic _ => false end = true) by (vm_compute; reflexivity).
  assert (V : (do x <- upto bs k; match x with (c, s, s') => Ok (c_commands c, c_data c, length (rs_spans s), (get_x (rs_ctx s'), get_y (rs_ctx s'))) end)
    = Ok ([27; 36], [200; 0], 1%nat, (200, 108))) by (vm_compute; reflexivity).
  assert (Kb : (k < length (match parse_esc_pos bs with Ok l => l | _ => [] end))%nat) by (vm_compute; lia).
  assert (B : bytes_ok bs = true) by reflexivity. clearbody k bs. destruct (upto bs k) as [[[c s] s']|] eqn:U; [|discriminate].
  destruct (upto_sent bs _ _ _ _ B Kb U) as (Hh & Sc & P). cbn [bind] in V. apply andb_prop in Hy. destruct Hy as (Hp & F).
  injection V as V1 V2 V3 V4 V5. exists c, s, s'. split; [exact Hh|]. split; [exact Sc|]. split; [exact V1|]. split; [exact V2|]. split; [exact P|].
  split; [destruct (p_enabled _); [discriminate | reflexivity]|]. split; [constructor|]. split; [exact (row_fitsb_ok _ _ _ _ F)|]. split; [exact V3 | congruence].
Qed.

(** ** Not so *)
(** A tab when the pen stands on a tab stop - here at the left edge - does not move to the next stop. *)
Theorem C54_tab_at_stop_refuted : exists s, render no_encoders1 [9; 97; 10] renderer_new = Ok s /\
  report s = [([([97], (0, 108, 12, 24))], 0)].
Proof.
  assert (V : (do s <- render no_encoders1 [9; 97; 10] renderer_new; Ok (report s)) = Ok [([([97], (0, 108, 12, 24))], 0)]) by (vm_compute; reflexivity).
  destruct (render no_encoders1 _ renderer_new) as [s|]; [|discriminate]. cbn [bind] in V. exists s. split; [reflexivity | congruence].
Qed.
(** ESC @ puts the paper back: what follows is printed over what was printed before. *)
Theorem C54_initialize_goes_back_refuted : exists s, render no_encoders1 [97; 10; 98; 10; 27; 64; 99; 10] renderer_new = Ok s /\
  report s = [([([97], (0, 108, 12, 24))], 0); ([([98], (0, 132, 12, 24))], 0); ([([99], (0, 60, 12, 24))], 0)].
Proof.
  assert (V : (do s <- render no_encoders1 [97; 10; 98; 10; 27; 64; 99; 10] renderer_new; Ok (report s)) = Ok [([([97], (0, 108, 12, 24))], 0); ([([98], (0, 132, 12, 24))], 0); ([([99], (0, 60, 12, 24))], 0)]) by (vm_compute; reflexivity).
  destruct (render no_encoders1 _ renderer_new) as [s|]; [|discriminate]. cbn [bind] in V. exists s. split; [reflexivity | congruence].
Qed.
(** A feed over an unfinished line of high characters is too short to clear it: A twice as high, ESC J 10, b. *)
Theorem C54_feed_overprints_refuted : exists s, render no_encoders1 [29; 33; 17; 65; 29; 33; 0; 27; 74; 10; 98; 10] renderer_new = Ok s /\
  report s = [([([65], (0, 108, 24, 48))], 0); ([([98], (0, 118, 12, 24))], 0)].
Proof.
  assert (V : (do s <- render no_encoders1 [29; 33; 17; 65; 29; 33; 0; 27; 74; 10; 98; 10] renderer_new; Ok (report s)) = Ok [([([65], (0, 108, 24, 48))], 0); ([([98], (0, 118, 12, 24))], 0)]) by (vm_compute; reflexivity).
  destruct (render no_encoders1 _ renderer_new) as [s|]; [|discriminate]. cbn [bind] in V. exists s. split; [reflexivity | congruence].
Qed.
