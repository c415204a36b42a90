(** * PlainJob: the calls of a job of plain lines, and where they put the words. *)
From Verif Require Import Base Command CommandSet Parser Vec Float32 GTypes Graphics Utf8 Decoder Context Text Upce Handlers Renderer
  SpecStream StreamProofs ContextTheory RendererTheory Origin SpecPrinter StateTheory PropsText SpecRender
  PropsOutput LayoutTheory AreaTheory PlaceTheory PropsContext PropsLayout PropsPlace SafeTheory PenTheory CallsTheory SpecLines PropsLines
  ManualTheory PropsQr PropsDecoder ThermalImage SpecCanvas ImageRenderer SpecImage SpecScene SpecPlain PlainTheory PlainRun.
Local Open Scope Z_scope.
Local Open Scope list_scope.
Local Arguments at_ : simpl never.
Local Arguments vlen : simpl never.

(** ** The printer at the start of a job, and after ESC ! *)
Definition start_ctx : context := match newline 2 context_new with Ok x => x | Panic _ => context_new end.
Definition moded (b0 b3 b4 b5 b6 : bool) (x : context) : context :=
  upd_text (fun t => set_t_underline (if b6 then UnderOn else UnderOff)
                     (set_t_width_mult (if b5 then 2 else 1)
                     (set_t_height_mult (if b4 then 2 else 1)
                     (set_t_bold b3 t))))
    (set_font (if b0 then FontB else FontA) x).
Definition mode_ctx (n : Z) : context := moded (flag n 0) (flag n 3) (flag n 4) (flag n 5) (flag n 6) start_ctx.
Lemma mode_none : mode_ctx 0 = start_ctx.
Proof. vm_compute. reflexivity. Qed.

Definition sp (n : Z) : text_span := sp_of (mode_ctx n).
Section Mode.
Variable n : Z.
Ltac by_flags := unfold sp, mode_ctx, cell_width, cell_height, typeface, small_font, bold_face, tall, wide, underlined, flag;
  destruct (Z.testbit n 0), (Z.testbit n 3), (Z.testbit n 4), (Z.testbit n 5), (Z.testbit n 6); vm_compute; reflexivity.
Lemma mode_std : standard (mode_ctx n). Proof. by_flags. Qed.
Lemma mode_x : get_x (mode_ctx n) = 0. Proof. by_flags. Qed.
Lemma mode_y : get_y (mode_ctx n) = 108. Proof. by_flags. Qed.
Lemma mode_spacing : t_line_spacing (c_text (mode_ctx n)) = 24. Proof. by_flags. Qed.
Lemma mode_decoder : t_decoder (c_text (mode_ctx n)) = get_codepage 0 0. Proof. by_flags. Qed.
Lemma sp_font : s_font (sp n) = typeface n. Proof. unfold sp, sp_of, mode_ctx. by_flags. Qed.
Lemma sp_cw : s_character_width (sp n) = cell_width n. Proof. by_flags. Qed.
Lemma sp_ch : s_character_height (sp n) = cell_height n. Proof. by_flags. Qed.
Lemma sp_across : across (sp n) = wide n. Proof. by_flags. Qed.
Lemma sp_down : down (sp n) = tall n. Proof. by_flags. Qed.
Lemma sp_bold : s_bold (sp n) = bold_face n. Proof. by_flags. Qed.
Lemma sp_italic : s_italic (sp n) = false. Proof. by_flags. Qed.
Lemma sp_under : (0 <? s_underline (sp n)) = underlined n. Proof. by_flags. Qed.
Lemma sp_strike : s_strikethrough (sp n) = 0. Proof. by_flags. Qed.
Lemma sp_upright : s_upside_down (sp n) = false. Proof. by_flags. Qed.
Lemma sp_left : s_justify (sp n) = JLeft. Proof. by_flags. Qed.
Lemma sp_fore : s_text_color (sp n) = mk_rgba 0 0 0 255. Proof. by_flags. Qed.
Lemma sp_back : s_background_color (sp n) = mk_rgba 255 255 255 255. Proof. by_flags. Qed.
Lemma cell_wide : 0 < cell_width n. Proof. by_flags. Qed.
Lemma cell_high : 0 < cell_height n. Proof. by_flags. Qed.
Lemma rule_within : 0 <= rule_row n < cell_height n.
Proof. unfold rule_row, cell_height, typeface, tall, small_font. destruct (Z.testbit n 0), (Z.testbit n 4); vm_compute; split; congruence. Qed.
Lemma rule_same : rule_at (sp n) = rule_row n.
Proof. unfold rule_at, rule_row. rewrite sp_font, sp_ch. reflexivity. Qed.
End Mode.

(** ** Running *)
Lemma begin_step e c : sent c -> observe c = o_begin ->
  exists s, process_command e c renderer_new = Ok s /\ rs_ctx s = start_ctx /\ rs_spans s = [] /\ exists x y, rs_calls s = [(x, EDevice BeginPrint); (y, EBeginRender)].
Proof.
  intros Sc O. pose proof (f_equal o_name O) as N. cbn in N. apply (proj1 (frame_name _ Sc)) in N. pose proof (kind_of_special _ Sc) as K. rewrite N in K. destruct K as (K & _).
  unfold process_command. rewrite K. unfold get_device_command. rewrite N. cbn [device_plain bind].
  eexists. split; [unfold process_text; cbn [rs_spans renderer_new bind]; unfold process_device_commands; cbn [fold_res]; vm_compute; reflexivity|].
  split; [vm_compute; reflexivity|]. split; [reflexivity|]. eexists. eexists. reflexivity.
Qed.
Lemma lead_step e c s : sent c -> observe c = o_unknown [] -> rs_spans s = [] ->
  exists s', process_command e c s = Ok s' /\ rs_ctx s' = rs_ctx s /\ rs_spans s' = [] /\ rs_calls s' = rs_calls s.
Proof.
  intros Sc O E. pose proof (f_equal o_kind O) as K. cbn in K. unfold process_command. rewrite K. unfold process_text. rewrite E. cbn [bind].
  eexists. split; [reflexivity|]. cbn [log_error rs_ctx rs_spans rs_calls]. auto.
Qed.
Lemma mode_step e c s n : sent c -> observe c = simple "Set Print Mode" KTextStyle [27; 33] [n] -> rs_spans s = [] -> rs_ctx s = start_ctx ->
  exists s', process_command e c s = Ok s' /\ rs_ctx s' = mode_ctx n /\ rs_spans s' = [] /\ rs_calls s' = rs_calls s.
Proof.
  intros Sc O E X. pose proof (f_equal o_prefix O) as P. pose proof (f_equal o_data O) as D. cbn in P, D.
  known c Sc P cmd_set_print_mode P_set_print_mode. unfold process_command. rewrite K. unfold apply_context, get_device_command. rewrite Hd.
  unfold on_ctx. cbn [apply_plain device_plain bind]. unfold process_device_commands. cbn [fold_res].
  eexists. split; [reflexivity|]. cbn [with_ctx rs_ctx rs_spans rs_calls]. split; [|auto]. unfold set_print_mode, arg. rewrite D, X. reflexivity.
Qed.

Lemma text_height_rows n lines : Forall (Forall printable) lines -> forall y, rows_bottom 24 y (wordy (sp n) words lines) = y + text_height n lines.
Proof.
  induction lines as [|l r IH]; intros F y; [cbn; lia|]. apply Forall_cons_iff in F. destruct F as (F & Fs). unfold rows_bottom in *. cbn [wordy map fold_left text_height fold_right].
  fold (wordy (sp n) words r). rewrite (IH Fs). fold (text_height n r). pose proof (cell_high n) as H0. rewrite (row_height_styled (sp n)); [|lia | exact (proj1 (plain_words (sp n) l F))].
  rewrite sp_ch. unfold line_pitch. destruct l as [|a l]; [cbn [words words_loop]; lia|]. pose proof (words_some (a :: l) ltac:(discriminate)). destruct (words (a :: l)); [contradiction | lia].
Qed.

(** ** The calls of the job *)
Lemma end_step e c s s' : sent c -> observe c = o_end -> process_command e c s = Ok s' ->
  exists s1, process_text s = Ok s1 /\ rs_calls s' = rs_calls s1 ++ [(rs_ctx s1, EDevice EndPrint); (rs_ctx s1, EGetErrors); (rs_ctx s1, EEndRender)].
Proof.
  intros Sc O H. pose proof (f_equal o_name O) as N. cbn in N. apply (proj2 (frame_name _ Sc)) in N. pose proof (kind_of_special _ Sc) as K. rewrite N in K. destruct K as (K & _).
  unfold process_command in H. rewrite K in H. unfold get_device_command in H. rewrite N in H. cbn [device_plain bind] in H. apply bind_ok in H. destruct H as (s1 & H1 & H).
  unfold process_device_commands in H. cbn [fold_res bind process_device_command] in H. exists s1. split; [exact H1|]. assert (E : s' = call EEndRender (call EGetErrors (call (EDevice EndPrint) s1))) by congruence.
  rewrite E. cbn [call rs_calls rs_ctx]. rewrite <- !app_assoc. reflexivity.
Qed.
Lemma decode_plain l : Forall printable l -> decode_utf8 (get_codepage 0 0) l = l.
Proof. intros F. apply C26_ascii. eapply Forall_impl; [|exact F]. unfold printable. cbv beta. lia. Qed.
Lemma fits_printable n lines : fits_paper n lines -> Forall (Forall printable) lines.
Proof. intros F. eapply Forall_impl; [|exact F]. cbv beta. tauto. Qed.

Lemma body_run e n lines body cend s0 s : history e s0 -> Forall sent body -> sent cend -> map observe body = flat_map line_seen lines -> observe cend = o_end ->
  rs_ctx s0 = mode_ctx n -> rs_spans s0 = [] -> fits_paper n lines -> run_commands e (body ++ [cend]) s0 = Ok s ->
  exists x new, rs_calls s = rs_calls s0 ++ new ++ [(x, EDevice EndPrint); (x, EGetErrors); (x, EEndRender)] /\
    Forall is_text_call new /\ Forall framed_call new /\ Forall (fun c => p_enabled (c_page (fst c)) = false) new /\
    lines_of new = map (placed_line 609) (filter nonempty (rows 24 (t_tabs (c_text (mode_ctx n))) 0 108 (wordy (sp n) words lines))) /\
    a_y (g_render_area (c_graphics x)) = 108 + text_height n lines.
Proof.
  intros Hh Sb Se Ob Oe X Sp FP R. pose proof (fits_printable _ _ FP) as PR.
  unfold run_commands in R. rewrite fold_res_app in R. apply bind_ok in R. destruct R as (s1 & R1 & R). cbn [fold_res] in R. apply bind_ok in R. destruct R as (s2 & R2 & R). assert (E2 : s = s2) by congruence. subst s2. clear R.
  assert (Q : Ok s1 = Ok (with_spans (flat_map (line_spans (mode_ctx n)) lines) s0)).
  { rewrite <- R1. fold (run_commands e body s0). rewrite (typed_run e lines body s0 Sb Ob); [rewrite Sp, X; reflexivity|].
    rewrite X, mode_decoder. eapply Forall_impl; [|exact PR]. exact decode_plain. }
  assert (Q1 : s1 = with_spans (flat_map (line_spans (mode_ctx n)) lines) s0) by congruence. clear Q.
  destruct (end_step _ _ _ _ Se Oe R2) as (s2 & PT & EC).
  assert (S0 : sinv (rs_ctx s1)). { rewrite Q1. exact (history_sinv _ _ Hh). }
  assert (X1 : rs_ctx s1 = mode_ctx n) by (rewrite Q1; exact X).
  assert (Y1 : rs_spans s1 = flat_map (line_spans (mode_ctx n)) lines) by (rewrite Q1; reflexivity).
  assert (C1 : rs_calls s1 = rs_calls s0) by (rewrite Q1; reflexivity).
  clear Q1 R1. destruct (flush_band _ _ S0 PT) as (new & B1 & B2 & B3 & B4 & _).
  assert (T : lines_of_text (wordy (sp n) words lines) [] (flat_map break_into_words (rs_spans s1))) by (rewrite Y1; apply text_lines).
  assert (F : rows_fit 609 (t_tabs (c_text (rs_ctx s1))) (get_x (rs_ctx s1)) (wordy (sp n) words lines)).
  { rewrite X1, mode_x. pose proof (cell_wide n) as CW. apply lines_fit; rewrite sp_cw; [lia | exact FP]. }
  assert (SD : standard (rs_ctx s1)) by (rewrite X1; apply mode_std).
  destruct (flush_rows _ _ _ _ SD S0 PT T F I) as (L & XE).
  exists (rs_ctx s2), new. split; [rewrite EC, B1, C1, <- app_assoc; reflexivity|]. split; [exact B2|]. split; [exact B3|].
  split; [eapply Forall_impl; [|exact B4]; cbv beta; intros c M; rewrite (moved_enabled _ _ M); exact SD|]. split.
  - rewrite B1 in L. unfold lines_of in L. rewrite flat_map_app in L. apply app_inv_head in L. unfold lines_of. rewrite L. rewrite X1, mode_x, mode_y, mode_spacing. unfold printed_rows. rewrite filter_app. cbn [row filter nonempty]. rewrite app_nil_r. reflexivity.
  - assert (Y : get_y (rs_ctx s2) = 108 + text_height n lines).
    { rewrite XE, (at_y _ _ _ SD), X1, mode_spacing, mode_y. apply text_height_rows, PR. }
    rewrite <- Y. unfold get_y. assert (SD2 : standard (rs_ctx s2)) by (rewrite XE; apply at_std, SD). unfold standard in SD2. rewrite SD2. reflexivity.
Qed.
