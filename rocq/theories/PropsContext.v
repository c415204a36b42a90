(** * PropsContext: theorems C19-C24 about the printer's settings, justification and page geometry. *)
From Verif Require Import Base Command CommandSet Parser Vec Float32 GTypes Graphics Decoder Context Text
  Handlers Renderer ContextTheory RendererTheory Origin SpecPrinter StateTheory.
Local Open Scope Z_scope.
Local Open Scope list_scope.

(** an encoder set for the examples: no symbol can be encoded *)
Definition no_encoders : encoders :=
  mk_encoders (fun _ => None) (fun _ => None) (fun _ => None) (fun _ => None) (fun _ => None)
    (fun _ => None) (fun _ => None) (fun _ => None) (fun _ _ _ _ => None).

(** ** C19 *)

Lemma esc_at c : sent c -> c_commands c = [27; 64] -> c_kind c = KContextControl /\ c_handler c = HPlain P_initialize.
Proof.
  intros S E. pose proof (sent_entry c _ cmd_initialize S E ltac:(cbn; lia) eq_refl) as I. split.
  - exact (in_kind _ _ I).
  - pose proof (in_handler _ _ I) as H. cbn in H. destruct (c_handler c); try contradiction. now subst.
Qed.

(** After any history, ESC @ makes the text, barcode, 2D-code and graphics settings those of a
    fresh printer; the page-mode state is not reset. *)
Theorem C19_initialize_restores_defaults : forall e s c s',
  history e s -> sent c -> c_commands c = [27; 64] -> process_command e c s = Ok s' ->
  c_text (rs_ctx s') = c_text context_new /\
  c_barcode (rs_ctx s') = c_barcode context_new /\
  c_code2d (rs_ctx s') = c_code2d context_new /\
  c_graphics (rs_ctx s') = c_graphics context_new /\
  ctx_default (rs_ctx s') = ctx_default context_new /\
  (let p := c_page (rs_ctx s) in let p' := c_page (rs_ctx s') in
   p_enabled p' = p_enabled p /\ p_logical_area p' = p_logical_area p /\ p_page_area p' = p_page_area p /\
   p_direction p' = p_direction p /\ p_previous_direction p' = p_previous_direction p).
Proof.
  intros e s c s' H Sc Hp E. destruct (esc_at c Sc Hp) as (K & Hd).
  unfold process_command in E. rewrite K in E. inv_bind E. inv_bind E. inv_bind E.
  unfold get_device_command in Ha1. rewrite Hd in Ha1. cbn [device_plain] in Ha1. injection Ha1 as <-.
  unfold apply_context in Ha0. rewrite Hd in Ha0. apply on_ctx_inv in Ha0. destruct Ha0 as (x & Hx & ->).
  cbn [apply_plain] in Hx. injection Hx as <-.
  unfold process_device_commands in E. cbn [fold_res bind process_device_command] in E. injection E as <-.
  destruct (process_text_moved _ _ Ha) as (M & _).
  pose proof (sinv_moved _ _ M (history_sinv _ _ H)) as S.
  cbn [call rs_ctx with_ctx]. unfold reset. rewrite (si_default _ S).
  repeat (split; [reflexivity|]).
  change (c_page (mk_context ?d (mk_settings ?a ?b ?k ?g (x_page_mode (ctx_now (rs_ctx a))))))
    with (c_page (rs_ctx a)) || idtac.
  cbn [c_page ctx_now x_page_mode]. fold (c_page (rs_ctx a)).
  rewrite (moved_enabled _ _ M), (moved_logical _ _ M), (moved_page_area _ _ M), (moved_direction _ _ M), (moved_prev _ _ M).
  auto.
Qed.

(** It goes through whenever there is no buffered text left to lay out. *)
Theorem C19_initialize_never_fails : forall e s c,
  history e s -> sent c -> c_commands c = [27; 64] -> rs_spans s = [] ->
  exists s', process_command e c s = Ok s'.
Proof.
  intros e s c H Sc Hp B. destruct (esc_at c Sc Hp) as (K & Hd).
  unfold process_command. rewrite K. unfold process_text. rewrite B. cbn [bind].
  unfold on_ctx, apply_context. rewrite Hd. cbn [apply_plain bind].
  unfold get_device_command. rewrite Hd. cbn [device_plain bind].
  unfold process_device_commands. cbn [fold_res bind process_device_command]. eauto.
Qed.

(** The consequence a user notices: in standard mode the print position is back at the top of the
    paper, above what was already printed. *)
Theorem C19_initialize_rewinds_paper : forall e s c s',
  history e s -> sent c -> c_commands c = [27; 64] -> process_command e c s = Ok s' ->
  p_enabled (c_page (rs_ctx s)) = false ->
  get_x (rs_ctx s') = 0 /\ get_y (rs_ctx s') = 60.
Proof.
  intros e s c s' H Sc Hp E Pg.
  destruct (C19_initialize_restores_defaults e s c s' H Sc Hp E) as (_ & _ & _ & G & _ & P & _).
  unfold get_x, get_y. rewrite P, Pg, G. split; vm_compute; reflexivity.
Qed.

(** Bold, double-size text printed, then ESC @. *)
Definition c19_job : list Z := [27; 69; 1; 29; 33; 17; 27; 97; 1; 65; 66; 10; 27; 100; 5; 27; 64; 67].
Example C19_demo :
  match parse_esc_pos c19_job with
  | Ok l => match run_commands no_encoders (firstn 7 l) renderer_new with
            | Ok s => match process_command no_encoders (nth 7 l cmd_text) s with
                      | Ok s' => (c_commands (nth 7 l cmd_text), rs_spans s,
                                  (t_bold (c_text (rs_ctx s)), get_y (rs_ctx s)),
                                  (t_bold (c_text (rs_ctx s')), get_y (rs_ctx s')))
                      | Panic _ => ([], [], (false, 0), (false, 0)) end
            | Panic _ => ([], [], (false, 0), (false, 0)) end
  | Panic _ => ([], [], (false, 0), (false, 0)) end
  = ([27; 64], [], (true, 276), (false, 60)).
Proof. vm_compute. reflexivity. Qed.

(** ** C20 *)

(** a command of a known prefix runs a known plain handler *)
Lemma plain_entry c p t id : sent c -> c_commands c = p -> (1 <= length p <= 3)%nat -> entry p = Some t ->
  c_handler t = HPlain id -> c_kind c = c_kind t /\ c_handler c = HPlain id.
Proof.
  intros S E L Et Ht. pose proof (sent_entry c p t S E L Et) as I. split; [exact (in_kind _ _ I)|].
  pose proof (in_handler _ _ I) as H. rewrite Ht in H. cbn in H. destruct (c_handler c); try contradiction. now subst.
Qed.
Ltac known c S E t id :=
  let K := fresh "K" in let Hd := fresh "Hd" in
  destruct (plain_entry c _ t id S E ltac:(cbn; lia) eq_refl eq_refl) as (K & Hd);
  unfold t in K; cbn [c_kind mk_cmd] in K.

(** every one of the settings is among the listed ones or untouched *)
Ltac frame_text :=
  let f := fresh "f" in let N := fresh "N" in
  intros f N; destruct f; cbn [In] in N; try reflexivity; exfalso; apply N; tauto.
Lemma only_text_upd fs f c :
  (forall t g, ~ In g fs -> agrees g t (f t)) -> only_text fs c (upd_text f c).
Proof. intros H. split; [intros g N; exact (H _ _ N) | repeat split; reflexivity]. Qed.
Lemma only_text_trans fs a b c : only_text fs a b -> only_text fs b c -> only_text fs a c.
Proof.
  intros (A & A1 & A2 & A3 & A4 & A5) (B & B1 & B2 & B3 & B4 & B5).
  split; [|repeat split; congruence]. intros g N. pose proof (A g N) as X. pose proof (B g N) as Y.
  destruct g; cbn [agrees] in *; congruence.
Qed.
Lemma only_text_refl fs c : only_text fs c c.
Proof. split; [intros [] _; reflexivity | repeat split]. Qed.
Lemma draws_nothing_with c s : draws_nothing s (with_ctx c s).
Proof. exists []. split; [cbn; now rewrite app_nil_r | constructor]. Qed.

Definition style_step (fs : list tfield) (e : encoders) (c : command) (s : rstate) : Prop :=
  exists s', process_command e c s = Ok s' /\ only_text fs (rs_ctx s) (rs_ctx s') /\
    rs_spans s' = rs_spans s /\ rs_errors s' = rs_errors s /\ draws_nothing s s'.

(** the plain handlers that only rewrite the text settings *)
Lemma style_plain fs e c s id x' :
  c_kind c = KTextStyle -> c_handler c = HPlain id ->
  apply_plain id c (rs_ctx s) = Ok x' -> device_plain id c x' = Ok [] ->
  only_text fs (rs_ctx s) x' -> style_step fs e c s.
Proof.
  intros K Hd A D O. exists (with_ctx x' s). unfold process_command. rewrite K. unfold on_ctx, apply_context.
  rewrite Hd, A. cbn [bind]. unfold get_device_command. rewrite Hd. change (rs_ctx (with_ctx x' s)) with x'.
  rewrite D. cbn [bind]. split; [reflexivity|]. split; [exact O|]. split; [reflexivity|]. split; [reflexivity|].
  apply draws_nothing_with.
Qed.
Ltac style_upd S E t id :=
  match goal with |- style_step _ _ ?c _ =>
    known c S E t id;
    match goal with K : c_kind c = _, Hd : c_handler c = _ |- _ =>
      eapply (style_plain _ _ c _ id); [exact K | exact Hd | reflexivity | reflexivity |
        apply only_text_upd; intros ?; frame_text] end end.

Lemma style_character_effects fs c s e :
  sent c -> c_commands c = [29; 40; 78] -> fs = [FColor; FBackground; FShadow; FShadowColor] ->
  style_step fs e c s.
Proof.
  intros S E ->. pose proof (sent_entry c _ cmd_set_character_effects S E ltac:(cbn; lia) eq_refl) as I.
  pose proof (in_kind _ _ I) as K. unfold cmd_set_character_effects in K. cbn [c_kind mk_cmd] in K.
  pose proof (in_handler _ _ I) as Hl. cbn [cmd_set_character_effects mk_cmd c_handler] in Hl.
  destruct (c_handler c) as [| |cap| | | | |] eqn:Hd; try contradiction.
  exists (with_ctx (character_effects c (rs_ctx s)) s). unfold process_command. rewrite K.
  unfold on_ctx, apply_context. rewrite Hd. cbn [bind]. unfold get_device_command. rewrite Hd. cbn [bind].
  split; [reflexivity|]. split; [|split; [reflexivity | split; [reflexivity | apply draws_nothing_with]]].
  cbn [rs_ctx with_ctx]. unfold character_effects. cbv zeta.
  destruct (vlen (c_data c) <? 3); [apply only_text_refl|].
  repeat match goal with |- only_text _ _ (match ?z with _ => _ end) => destruct z end;
    first [apply only_text_refl | apply only_text_upd; intros ?; frame_text].
Qed.

(** Every style command touches the settings it names and nothing else: the other text settings,
    the stored defaults, barcode, 2D-code, graphics (stored images included) and page-mode state, the
    text already buffered and the errors are as before; the output renderer is asked to draw nothing;
    and it cannot fail. *)
Theorem C20_style_commands_touch_only_their_setting : forall p fs e c s,
  In (p, fs) style_table -> sent c -> c_commands c = p -> ctx_default (rs_ctx s) <> None ->
  exists s', process_command e c s = Ok s' /\ only_text fs (rs_ctx s) (rs_ctx s') /\
    rs_spans s' = rs_spans s /\ rs_errors s' = rs_errors s /\ draws_nothing s s'.
Proof.
  intros p fs e c s Hin S E Df. change (style_step fs e c s). unfold style_table in Hin. cbn [In] in Hin.
  repeat (destruct Hin as [Hin|Hin]; [injection Hin as <- <-|]); try contradiction.
  - style_upd S E cmd_set_alt_color P_set_alt_color.
  - known c S E cmd_set_black_white_invert P_set_black_white_invert.
    eapply (style_plain _ _ c _ _); [exact K | exact Hd | reflexivity | reflexivity |].
    apply only_text_upd. intros t. destruct (arg 0 c 0 =? 1); frame_text.
  - exact (style_character_effects _ c s e S E eq_refl).
  - (* GS ! works through device commands *)
    known c S E cmd_set_character_size P_set_character_size.
    unfold style_step. unfold process_command. rewrite K. unfold on_ctx, apply_context. rewrite Hd.
    cbn [apply_plain bind]. unfold get_device_command. rewrite Hd. cbn [device_plain bind].
    unfold process_device_commands. cbn [fold_res bind process_device_command on_ctx].
    eexists. split; [reflexivity|]. cbn [rs_ctx rs_spans rs_errors with_ctx call].
    split; [|split; [reflexivity|split; [reflexivity|]]].
    + apply (only_text_trans _ _ (upd_text (set_t_width_mult (Z.shiftr (Z.land 112 (arg 0 c 0)) 4 + 1)) (rs_ctx s)));
        apply only_text_upd; intros ?; frame_text.
    + eexists. split; [cbn [rs_calls with_ctx call]; rewrite <- app_assoc; reflexivity|].
      repeat constructor.
  - known c S E cmd_set_code_table P_set_code_table.
    eapply (style_plain _ _ c _ _); [exact K | exact Hd | reflexivity | reflexivity |].
    eapply only_text_trans; apply only_text_upd; intros ?; frame_text.
  - known c S E cmd_set_international_charset P_set_international_charset.
    eapply (style_plain _ _ c _ _); [exact K | exact Hd | reflexivity | reflexivity |].
    eapply only_text_trans; apply only_text_upd; intros ?; frame_text.
  - style_upd S E cmd_set_double_strike P_set_double_strike.
  - style_upd S E cmd_set_emphasis P_set_emphasis.
  - style_upd S E cmd_set_font P_set_font.
  - style_upd S E cmd_set_italic P_set_italic.
  - style_upd S E cmd_set_smoothing P_set_smoothing.
  - style_upd S E cmd_set_upside_down P_set_upside_down.
  - style_upd S E cmd_set_underline P_set_underline.
  - known c S E cmd_set_print_mode P_set_print_mode.
    eapply (style_plain _ _ c _ _); [exact K | exact Hd | reflexivity | reflexivity |].
    eapply only_text_trans; apply only_text_upd; intros ?; frame_text.
  - (* ESC D *)
    known c S E cmd_set_tab_len P_set_tab_len.
    unfold style_step. unfold process_command. rewrite K. unfold on_ctx, apply_context. rewrite Hd.
    cbn [apply_plain bind]. unfold get_device_command. rewrite Hd. cbn [device_plain rs_ctx with_ctx].
    unfold default_spacing. destruct (ctx_default (rs_ctx s)) as [d|]; [|contradiction]. cbn [bind].
    unfold process_device_commands. cbn [fold_res bind process_device_command on_ctx].
    eexists. split; [reflexivity|]. cbn [rs_ctx rs_spans rs_errors with_ctx call].
    split; [|split; [reflexivity|split; [reflexivity|]]].
    + unfold set_tab_len. destruct (_ <? _); [apply only_text_upd; intros ?; frame_text | apply only_text_refl].
    + eexists. split; [cbn [rs_calls with_ctx call]; reflexivity|]. repeat constructor.
Qed.

(** The table is complete: its prefixes are those of all the style commands. *)
Theorem C20_style_table_complete :
  map c_commands (filter (fun t => match c_kind t with KTextStyle => true | _ => false end) all_commands)
  = map c_commands (filter (fun t => existsb (list_eqb (c_commands t)) (map fst style_table)) all_commands) /\
  length (filter (fun t => match c_kind t with KTextStyle => true | _ => false end) all_commands) = length style_table.
Proof. split; vm_compute; reflexivity. Qed.

(** *** The commands of kind Context: buffered text is printed first, under the old setting. *)
Theorem C20_setting_commands_touch_only_their_part : forall p k e c s s1,
  In (p, k) setting_table -> sent c -> c_commands c = p -> ctx_default (rs_ctx s) <> None ->
  process_text s = Ok s1 ->
  exists s', process_command e c s = Ok s' /\ only_part k (rs_ctx s1) (rs_ctx s') /\
    rs_spans s' = [] /\ rs_errors s' = rs_errors s /\ rs_calls s' = rs_calls s1.
Proof.
  intros p k e c s s1 Hin S E Df T.
  assert (G : forall id x', c_kind c = KContext -> c_handler c = HPlain id -> apply_plain id c (rs_ctx s1) = Ok x' ->
     only_part k (rs_ctx s1) x' ->
     exists s', process_command e c s = Ok s' /\ only_part k (rs_ctx s1) (rs_ctx s') /\
       rs_spans s' = [] /\ rs_errors s' = rs_errors s /\ rs_calls s' = rs_calls s1).
  { intros id x' K Hd A O. exists (with_ctx x' s1). unfold process_command. rewrite K, T. cbn [bind].
    unfold on_ctx, apply_context. rewrite Hd, A. cbn [bind]. split; [reflexivity|]. split; [exact O|].
    destruct (process_text_quiet _ _ T) as ((_ & Er & _) & Sp).
    split; [exact Sp|]. split; [exact Er | reflexivity]. }
  unfold setting_table in Hin. cbn [In] in Hin.
  repeat (destruct Hin as [Hin|Hin]; [injection Hin as <- <-|]); try contradiction.
  - known c S E cmd_default_line_spacing P_default_line_spacing.
    eapply G; [exact K | exact Hd | reflexivity|].
    destruct (ctx_default (rs_ctx s1)); [apply only_text_upd; intros ?; frame_text | apply only_text_refl].
  - known c S E cmd_set_line_spacing P_set_line_spacing.
    destruct (process_text_moved _ _ T) as (M & _).
    destruct (ctx_default (rs_ctx s)) as [d|] eqn:D; [|contradiction].
    eapply G; [exact K | exact Hd | |].
    + cbn [apply_plain]. unfold default_spacing. rewrite (moved_default _ _ M), D. reflexivity.
    + apply only_text_upd; intros ?; frame_text.
  - known c S E cmd_set_barcode_font P_set_barcode_font.
    eapply G; [exact K | exact Hd | reflexivity | repeat split; reflexivity].
  - known c S E cmd_set_barcode_height P_set_barcode_height.
    eapply G; [exact K | exact Hd | reflexivity | repeat split; reflexivity].
  - known c S E cmd_set_barcode_hri P_set_barcode_hri.
    eapply G; [exact K | exact Hd | reflexivity | repeat split; reflexivity].
  - known c S E cmd_set_barcode_width P_set_barcode_width.
    eapply G; [exact K | exact Hd | reflexivity|].
    destruct (arg 2 c 0 <? 2); [repeat split; reflexivity|]. destruct (6 <? arg 2 c 0); repeat split; reflexivity.
  - known c S E cmd_set_motion_units P_set_motion_units.
    eapply G; [exact K | exact Hd | reflexivity|].
    unfold set_motion_units. destruct ((arg 0 c 0 =? 0) || (arg 0 c 1 =? 0)); repeat split; reflexivity.
  - known c S E cmd_unknown_gs_g P_unknown_gs_g.
    eapply G; [exact K | exact Hd | reflexivity | apply only_text_refl].
Qed.

(** The other commands of kind Context move the print position (ESC $, GS $, GS \\) or store
    graphics and symbols; together the tables cover the kind. *)
Theorem C20_setting_table_complete :
  filter (fun t => match c_kind t with KContext => negb (existsb (list_eqb (c_commands t)) (map fst setting_table)) | _ => false end) all_commands
  = [cmd_set_horizontal_pos; cmd_offset_vertical_pos; cmd_set_vertical_pos; cmd_select_standard_mode].
Proof. vm_compute. reflexivity. Qed.

(** *** The new values *)
Lemma run_style e c s id x' :
  c_kind c = KTextStyle -> c_handler c = HPlain id ->
  apply_plain id c (rs_ctx s) = Ok x' -> device_plain id c x' = Ok [] ->
  process_command e c s = Ok (with_ctx x' s).
Proof.
  intros K Hd A D. unfold process_command. rewrite K. unfold on_ctx, apply_context.
  rewrite Hd, A. cbn [bind]. unfold get_device_command. rewrite Hd. change (rs_ctx (with_ctx x' s)) with x'.
  rewrite D. reflexivity.
Qed.
Ltac run_as c S E H t id :=
  known c S E t id;
  match goal with K : c_kind c = _, Hd : c_handler c = _ |- _ =>
    rewrite (run_style _ _ _ id _ K Hd eq_refl eq_refl) in H; injection H as <-; clear K Hd end.

Lemma low_bit_odd n : low_bit n = Z.odd n.
Proof.
  unfold low_bit. change 1 with (Z.ones 1) at 1. rewrite Z.land_ones by lia. change (2 ^ 1) with 2.
  rewrite Zmod_odd. destruct (Z.odd n); reflexivity.
Qed.

(** ESC E, ESC 4, GS b, ESC { switch their setting on for odd and off for even arguments. *)
Theorem C20_switches : forall p (field : text_ctx -> bool) e c s s',
  In (p, field) [([27; 69], t_bold); ([27; 52], t_italic); ([29; 98], t_smoothing); ([27; 123], t_upside_down)] ->
  sent c -> c_commands c = p -> process_command e c s = Ok s' ->
  field (c_text (rs_ctx s')) = Z.odd (param c 0).
Proof.
  intros p field e c s s' Hin S E H. cbn [In] in Hin. rewrite <- low_bit_odd.
  repeat (destruct Hin as [Hin|Hin]; [injection Hin as <- <-|]); try contradiction.
  - run_as c S E H cmd_set_emphasis P_set_emphasis. reflexivity.
  - run_as c S E H cmd_set_italic P_set_italic. reflexivity.
  - run_as c S E H cmd_set_smoothing P_set_smoothing. reflexivity.
  - run_as c S E H cmd_set_upside_down P_set_upside_down. reflexivity.
Qed.

Lemma font_code_raw n : font_from_raw n = font_code n.
Proof. destruct n as [|p|p]; try reflexivity. do 7 (destruct p; try reflexivity). Qed.
Lemma underline_code_raw n : underline_of n = underline_code n.
Proof. destruct n as [|p|p]; try reflexivity. do 7 (destruct p; try reflexivity). Qed.
Lemma justify_code_raw n : justify_of n = justify_code n.
Proof. destruct n as [|p|p]; try reflexivity. do 7 (destruct p; try reflexivity). Qed.

Theorem C20_font : forall e c s s',
  sent c -> c_commands c = [27; 77] -> process_command e c s = Ok s' ->
  let t := c_text (rs_ctx s') in
  t_font t = font_code (param c 0) /\ (t_character_width t, t_character_height t) = cell_of (t_font t).
Proof.
  intros e c s s' S E H. run_as c S E H cmd_set_font P_set_font.
  cbn [with_ctx rs_ctx]. split; [exact (font_code_raw _)|].
  unfold set_font. rewrite font_cell. set (f := font_from_raw _).
  change (c_text (upd_text ?g (rs_ctx s))) with (g (c_text (rs_ctx s))).
  cbn [t_character_width t_character_height t_font set_t_font set_t_character_width set_t_character_height].
  destruct (cell_of f); reflexivity.
Qed.

Theorem C20_underline : forall e c s s',
  sent c -> c_commands c = [27; 45] -> process_command e c s = Ok s' ->
  t_underline (c_text (rs_ctx s')) = underline_code (param c 0).
Proof.
  intros e c s s' S E H. run_as c S E H cmd_set_underline P_set_underline. exact (underline_code_raw _).
Qed.

(** ESC t and ESC R select the table and set, and the decoder follows the pair (C26, C27 say what
    it decodes). *)
Theorem C20_code_page : forall e c s s',
  sent c -> c_commands c = [27; 116] -> process_command e c s = Ok s' ->
  let t := c_text (rs_ctx s') in let cp := get_codepage (param c 0) (t_character_set t) in
  t_code_table t = param c 0 /\ cp_table (t_decoder t) = cp_table cp /\ cp_language (t_decoder t) = cp_language cp /\
  cp_utf8 (t_decoder t) = (Z.eqb (param c 0) 255).
Proof.
  intros e c s s' S E H. run_as c S E H cmd_set_code_table P_set_code_table. repeat split; reflexivity.
Qed.
Theorem C20_international_set : forall e c s s',
  sent c -> c_commands c = [27; 82] -> process_command e c s = Ok s' ->
  let t := c_text (rs_ctx s') in let cp := get_codepage (t_code_table t) (param c 0) in
  t_character_set t = param c 0 /\ cp_table (t_decoder t) = cp_table cp /\ cp_language (t_decoder t) = cp_language cp /\
  cp_utf8 (t_decoder t) = (t_code_table t =? 255).
Proof.
  intros e c s s' S E H. run_as c S E H cmd_set_international_charset P_set_international_charset. repeat split; reflexivity.
Qed.

(** GS B: 1 swaps paper and ink, everything else restores black on paper. *)
Theorem C20_invert : forall e c s s',
  sent c -> c_commands c = [29; 66] -> process_command e c s = Ok s' ->
  let t := c_text (rs_ctx s') in let k := g_render_colors (c_graphics (rs_ctx s)) in
  t_invert t = (param c 0 =? 1) /\
  (t_color t, t_background_color t) =
    if param c 0 =? 1 then (rc_paper_color k, rc_color_1 k) else (rc_color_1 k, rc_paper_color k).
Proof.
  intros e c s s' S E H. run_as c S E H cmd_set_black_white_invert P_set_black_white_invert.
  change (param c 0) with (arg 0 c 0). cbn [with_ctx rs_ctx].
  change (c_text (upd_text ?g (rs_ctx s))) with (g (c_text (rs_ctx s))). cbv beta.
  destruct (arg 0 c 0 =? 1); split; reflexivity.
Qed.

(** ESC r: 1 or '1' selects the second colour. *)
Theorem C20_alternate_color : forall e c s s',
  sent c -> c_commands c = [27; 114] -> process_command e c s = Ok s' ->
  t_color (c_text (rs_ctx s')) =
    if (param c 0 =? 1) || (param c 0 =? 49) then rc_color_2 (g_render_colors (c_graphics (rs_ctx s)))
    else rc_color_1 (g_render_colors (c_graphics (rs_ctx s))).
Proof.
  intros e c s s' S E H. run_as c S E H cmd_set_alt_color P_set_alt_color.
  change (param c 0) with (arg 0 c 0). cbn [with_ctx rs_ctx].
  change (c_text (upd_text ?g (rs_ctx s))) with (g (c_text (rs_ctx s))). cbn [t_color set_t_color].
  set (n := arg 0 c 0). clearbody n. destruct n as [|q|q]; try reflexivity. do 7 (destruct q; try reflexivity).
Qed.

(** ESC !: bit 0 font B, bit 3 emphasis, bit 4 double height, bit 5 double width, and underline on
    bit 6.  The ESC/POS reference puts underline on bit 7: see the refutation below. *)
Theorem C20_print_mode : forall e c s s',
  sent c -> c_commands c = [27; 33] -> process_command e c s = Ok s' ->
  let t := c_text (rs_ctx s') in let n := param c 0 in
  t_font t = (if Z.testbit n 0 then FontB else FontA) /\
  t_bold t = Z.testbit n 3 /\
  t_height_mult t = (if Z.testbit n 4 then 2 else 1) /\
  t_width_mult t = (if Z.testbit n 5 then 2 else 1) /\
  t_underline t = (if Z.testbit n 6 then UnderOn else UnderOff).
Proof.
  intros e c s s' S E H. run_as c S E H cmd_set_print_mode P_set_print_mode. repeat split; reflexivity.
Qed.
(** "Bit 7 of ESC ! turns underlining on" is false of this code: with only bit 7 set it is off. *)
Theorem C20_print_mode_underline_refuted : forall e c s s',
  sent c -> c_commands c = [27; 33] -> param c 0 = 128 -> process_command e c s = Ok s' ->
  t_underline (c_text (rs_ctx s')) = UnderOff.
Proof.
  intros e c s s' S E N H. destruct (C20_print_mode e c s s' S E H) as (_ & _ & _ & _ & U). rewrite U, N. reflexivity.
Qed.

(** ESC G sets the strike-through: odd arguments make it double; an even one steps down one level,
    so switching off after switching on leaves a single line. *)
Theorem C20_double_strike : forall e c s s',
  sent c -> c_commands c = [27; 71] -> process_command e c s = Ok s' ->
  t_strikethrough (c_text (rs_ctx s')) =
    if Z.odd (param c 0) then StrikeDouble
    else match t_strikethrough (c_text (rs_ctx s)) with StrikeDouble => StrikeOn | _ => StrikeOff end.
Proof.
  intros e c s s' S E H. run_as c S E H cmd_set_double_strike P_set_double_strike.
  rewrite <- low_bit_odd. reflexivity.
Qed.
Theorem C20_double_strike_off_refuted : forall e on off s s1 s2,
  sent on -> sent off -> c_commands on = [27; 71] -> c_commands off = [27; 71] ->
  param on 0 = 1 -> param off 0 = 0 ->
  process_command e on s = Ok s1 -> process_command e off s1 = Ok s2 ->
  t_strikethrough (c_text (rs_ctx s2)) = StrikeOn.
Proof.
  intros e on off s s1 s2 S1 S2 E1 E2 N1 N2 H1 H2.
  rewrite (C20_double_strike _ _ _ _ S2 E2 H2), N2, (C20_double_strike _ _ _ _ S1 E1 H1), N1. reflexivity.
Qed.

(** GS !: width in bits 4-6, height in bits 0-2, both counted from 1. *)
Theorem C20_character_size : forall e c s s',
  sent c -> c_commands c = [29; 33] -> process_command e c s = Ok s' ->
  let t := c_text (rs_ctx s') in
  t_width_mult t = (param c 0 / 16) mod 8 + 1 /\ t_height_mult t = param c 0 mod 8 + 1.
Proof.
  intros e c s s' S E H. known c S E cmd_set_character_size P_set_character_size.
  unfold process_command in H. rewrite K in H. unfold on_ctx, apply_context in H. rewrite Hd in H.
  cbn [apply_plain bind] in H. unfold get_device_command in H. rewrite Hd in H. cbn [device_plain bind] in H.
  unfold process_device_commands in H. cbn [fold_res bind process_device_command on_ctx] in H.
  injection H as <-. change (param c 0) with (arg 0 c 0).
  assert (A : 0 <= arg 0 c 0) by (pose proof (sent_arg c 0 0 S ltac:(lia)); unfold arg; lia).
  cbn [rs_ctx with_ctx call]. set (n := arg 0 c 0) in *. clearbody n. split.
  - change (Z.shiftr (Z.land 112 n) 4 + 1 = n / 16 mod 8 + 1). f_equal.
    rewrite Z.shiftr_land. change (Z.shiftr 112 4) with (Z.ones 3).
    rewrite Z.land_comm, Z.land_ones, Z.shiftr_div_pow2 by lia. reflexivity.
  - change (Z.land 7 n + 1 = n mod 8 + 1). f_equal. change 7 with (Z.ones 3).
    rewrite Z.land_comm, Z.land_ones by lia. reflexivity.
Qed.

(** ESC D changes the one entry its second byte names: the first byte becomes the entry.  (The
    ESC/POS reference describes a NUL-terminated list of columns instead.) *)
Theorem C20_tab_entry : forall e c s s',
  history e s -> sent c -> c_commands c = [27; 68] -> process_command e c s = Ok s' ->
  let n := nth 0 (c_data c) 24 in let k := nth 1 (c_data c) 24 in
  forall i, nth i (t_tabs (c_text (rs_ctx s'))) 0 =
    if (i =? Z.to_nat k)%nat && (k <? 32) then n else nth i (t_tabs (c_text (rs_ctx s))) 0.
Proof.
  intros e c s s' Hy S E H. pose proof (history_sinv _ _ Hy) as I.
  known c S E cmd_set_tab_len P_set_tab_len.
  unfold process_command in H. rewrite K in H. unfold on_ctx, apply_context in H. rewrite Hd in H.
  cbn [apply_plain bind] in H. unfold get_device_command in H. rewrite Hd in H. cbn [device_plain rs_ctx with_ctx] in H.
  unfold default_spacing in H. rewrite (si_default _ I) in H. cbn [bind] in H.
  unfold process_device_commands in H. cbn [fold_res bind process_device_command on_ctx] in H.
  injection H as <-. cbv zeta. change (nth 0 (c_data c) 24) with (arg 24 c 0). change (nth 1 (c_data c) 24) with (arg 24 c 1).
  change (t_line_spacing (x_text default_settings)) with 24.
  pose proof (sent_arg c 1 24 S ltac:(lia)) as A. fold (arg 24 c 1) in A.
  cbn [rs_ctx with_ctx call]. unfold set_tab_len.
  destruct (tk_tabs _ (si_text _ I)) as (L & _).
  assert (V : vlen (t_tabs (c_text (rs_ctx s))) mod 256 = 32) by (unfold vlen; rewrite L; reflexivity). rewrite V.
  intros i. set (n := arg 24 c 0). set (k := arg 24 c 1) in *. clearbody n k.
  destruct (k <? 32) eqn:Ek.
  - change (t_tabs (c_text (upd_text ?g (rs_ctx s)))) with (set_nth (t_tabs (c_text (rs_ctx s))) (Z.to_nat k) n).
    rewrite andb_true_r. assert (Lk : (Z.to_nat k < length (t_tabs (c_text (rs_ctx s))))%nat) by lia.
    clear -Lk. set (l := t_tabs _) in *. set (j := Z.to_nat k) in *. clearbody l j. revert i j Lk.
    induction l as [|x l IH]; intros [|i] [|j] Lk; cbn [length] in Lk; try lia; cbn; auto.
    apply IH. lia.
  - rewrite andb_false_r. reflexivity.
Qed.

(** ESC a: the text so far is printed as it was; then only the justification changes. *)
Theorem C20_justification : forall e c s s1,
  sent c -> c_commands c = [27; 97] -> process_text s = Ok s1 ->
  exists s', process_command e c s = Ok s' /\ only_text [FJustify] (rs_ctx s1) (rs_ctx s') /\
    t_justify (c_text (rs_ctx s')) = justify_code (param c 0) /\
    rs_errors s' = rs_errors s /\ rs_spans s' = [] /\ draws_nothing s1 s'.
Proof.
  intros e c s s1 S E T. known c S E cmd_set_justification P_set_justification.
  unfold process_command. rewrite K. unfold get_device_command. rewrite Hd. cbn [device_plain bind].
  rewrite T. cbn [bind]. unfold process_device_commands. cbn [fold_res bind process_device_command on_ctx].
  eexists. split; [reflexivity|]. cbn [rs_ctx rs_errors rs_spans with_ctx call].
  split; [apply only_text_upd; intros ?; frame_text|]. split; [exact (justify_code_raw _)|].
  destruct (process_text_quiet _ _ T) as ((_ & Er & _) & Sp). split; [exact Er|]. split; [exact Sp|].
  eexists. split; [reflexivity|]. repeat constructor.
Qed.

(** GS P, ESC 3, GS h, GS w: the settings of the other group *)
Theorem C20_line_spacing : forall e c s s1 s',
  sent c -> c_commands c = [27; 51] -> c_data c <> [] -> process_text s = Ok s1 ->
  process_command e c s = Ok s' -> t_line_spacing (c_text (rs_ctx s')) = param c 0.
Proof.
  intros e c s s1 s' S E D T H. known c S E cmd_set_line_spacing P_set_line_spacing.
  unfold process_command in H. rewrite K, T in H. cbn [bind] in H.
  apply on_ctx_inv in H. destruct H as (x & Hx & ->). unfold apply_context in Hx. rewrite Hd in Hx.
  cbn [apply_plain] in Hx. inv_bind Hx. injection Hx as <-. cbn [rs_ctx with_ctx].
  change (arg a c 0 = param c 0). unfold arg, param, get_or. destruct (c_data c); [contradiction | reflexivity].
Qed.
Theorem C20_barcode_settings : forall e c s s1 s',
  sent c -> process_text s = Ok s1 -> process_command e c s = Ok s' -> c_data c <> [] ->
  let b := c_barcode (rs_ctx s) in let b' := c_barcode (rs_ctx s') in
  (c_commands c = [29; 104] -> bc_height b' = param c 0 /\ bc_width b' = bc_width b) /\
  (c_commands c = [29; 119] ->
     bc_width b' = (if param c 0 <? 2 then 2 else if 6 <? param c 0 then bc_width b else param c 0) /\
    bc_height b' = bc_height b).
Proof.
  intros e c s s1 s' S T H D. destruct (process_text_moved _ _ T) as (M & _).
  assert (A2 : arg 2 c 0 = param c 0) by (unfold arg, param, get_or; destruct (c_data c); [contradiction | reflexivity]).
  split; intros E.
  - known c S E cmd_set_barcode_height P_set_barcode_height.
    unfold process_command in H. rewrite K, T in H. cbn [bind] in H.
    apply on_ctx_inv in H. destruct H as (x & Hx & ->). unfold apply_context in Hx. rewrite Hd in Hx.
    cbn [apply_plain] in Hx. injection Hx as <-. rewrite <- (moved_barcode _ _ M). split; reflexivity.
  - known c S E cmd_set_barcode_width P_set_barcode_width.
    unfold process_command in H. rewrite K, T in H. cbn [bind] in H.
    apply on_ctx_inv in H. destruct H as (x & Hx & ->). unfold apply_context in Hx. rewrite Hd in Hx.
    cbn [apply_plain] in Hx. injection Hx as <-. rewrite <- (moved_barcode _ _ M). rewrite A2.
    cbn [rs_ctx with_ctx]. destruct (param c 0 <? 2); [split; reflexivity|].
    destruct (6 <? param c 0); split; reflexivity.
Qed.

(** A job switching several styles: the span buffered before keeps its look, the later one has the
    new one. *)
Example C20_demo :
  match parse_esc_pos [65; 27; 69; 1; 29; 33; 17; 27; 77; 1; 66] with
  | Ok l => match run_commands no_encoders (firstn 7 l) renderer_new with
            | Ok s => (map (fun x => (s_text x, s_bold x, s_character_width x, s_character_height x)) (rs_spans s))
            | Panic _ => [] end
  | Panic _ => [] end
  = [([65], false, 12, 24); ([66], true, 18, 34)].
Proof. vm_compute. reflexivity. Qed.

(** ** C21 *)

(** The invariants of every history, whatever commands and arguments it is made of. *)
Theorem C21_settings_invariant : forall e s, history e s -> settings_ok (rs_ctx s).
Proof. intros e s H. apply sinv_settings. exact (history_sinv _ _ H). Qed.

(** A history reaching unusual settings: GS ! 0x77, ESC M 1, GS w 9 (ignored), GS w 6, GS ( L dot
    density 360, ESC 3 255, GS P 1 200. *)
Definition c21_job : list Z :=
  [29; 33; 119; 27; 77; 1; 29; 119; 6; 29; 119; 9; 29; 40; 76; 4; 0; 48; 1; 51; 51; 27; 51; 255; 29; 80; 1; 200].
Example C21_demo :
  match parse_esc_pos c21_job with
  | Ok l => match run_commands no_encoders l renderer_new with
            | Ok s => let x := rs_ctx s in
                      (t_width_mult (c_text x), t_height_mult (c_text x), t_character_width (c_text x),
                       bc_width (c_barcode x), g_dots_per_inch (c_graphics x), t_line_spacing (c_text x),
                       g_h_motion_unit (c_graphics x), g_v_motion_unit (c_graphics x))
            | Panic _ => (0, 0, 0, 0, 0, 0, 0, 0) end
  | Panic _ => (0, 0, 0, 0, 0, 0, 0, 0) end
  = (8, 8, 9, 6, 360, 255, 104, 1).
Proof. vm_compute. reflexivity. Qed.

(** ** C22 *)

(** Where content of width [w] is put in an area of width [get_width c]. *)
Theorem C22_justification : forall c w, 0 <= w ->
  let area := get_width c in let off := calculate_justification w c in
  (area < w -> off = 0) /\
  (w <= area ->
     0 <= off /\ off + w <= area /\
     match t_justify (c_text c) with
     | JLeft => off = 0
     | JRight => off + w = area
     | JCenter => off = (area - w) / 2 /\ 0 <= (area - w - off) - off <= 1
     end).
Proof.
  intros c w Hw. cbv zeta. unfold calculate_justification.
  set (area := get_width c). clearbody area. split; intros H.
  - destruct (Z.ltb_spec area w); [reflexivity | lia].
  - destruct (Z.ltb_spec area w); [lia|]. destruct (t_justify (c_text c)); [lia| |lia].
    set (d := area - w) in *. assert (Dn : 0 <= d) by lia.
    pose proof (Z.div_mod d 2 ltac:(lia)). pose proof (Z.mod_pos_bound d 2 ltac:(lia)).
    destruct (Z.ltb_spec 0 d).
    + assert (d = area - w) by reflexivity. clearbody d. lia.
    + assert (d = 0) as E0 by lia. rewrite E0. change (0 / 2) with 0. lia.
Qed.

(** Block images (raster images, stored graphics) in standard mode: the image is drawn where the
    justification puts it and inside the print width, and the next line starts below it. *)
Theorem C22_block_images_inside : forall e s i s',
  history e s -> rs_spans s = [] -> p_enabled (c_page (rs_ctx s)) = false ->
  i_flow i = FlowBlock -> 0 <= i_w i <= 609 -> process_gfx (GImage i) s = Ok s' ->
  exists x i', rs_calls s' = rs_calls s ++ [(x, EImage i')] /\
    i_x i' = calculate_justification (i_w i) (rs_ctx s) /\ 0 <= i_x i' /\ i_x i' + i_w i' <= 609 /\
    i_y i' = get_y (rs_ctx s) /\ i_w i' = i_w i /\ i_h i' = i_h i /\ i_pixels i' = i_pixels i /\
    get_x (rs_ctx s') = 0 /\ get_y (rs_ctx s') = get_y (rs_ctx s) + i_h i.
Proof.
  intros e s i s' Hy _ Pg Fl W H. pose proof (history_sinv _ _ Hy) as I.
  pose proof (gk_width _ (si_graphics _ I)) as W609.
  cbn [process_gfx] in H. unfold process_image in H. rewrite Fl, Pg in H.
  unfold on_ctx, set_x in H. rewrite Pg in H. cbn [bind] in H. cbv zeta in H.
  set (off := calculate_justification (i_w i) (rs_ctx s)) in *.
  destruct (C22_justification (rs_ctx s) (i_w i) ltac:(lia)) as (_ & J).
  assert (GW : get_width (rs_ctx s) = 609) by (unfold get_width; rewrite Pg; exact W609).
  cbv zeta in J. rewrite GW in J. fold off in J. destruct (J ltac:(lia)) as (J1 & J2 & _).
  change (i_flow (set_i_y _ (set_i_x _ i))) with (i_flow i) in H. rewrite Fl in H.
  cbn [rs_ctx call with_ctx] in H.
  assert (Pg' : p_enabled (c_page (upd_gra (set_a_x off) (rs_ctx s))) = false) by exact Pg.
  rewrite Pg' in H. unfold on_ctx in H. cbn [rs_ctx call with_ctx] in H.
  apply bind_ok in H. destruct H as (x & Hx & H). injection H as <-.
  apply bind_ok in Hx. destruct Hx as (c1 & Hc1 & Hx). injection Hx as <-.
  unfold offset_y in Hc1. rewrite Pg' in Hc1. apply bind_ok in Hc1. destruct Hc1 as (v & Hv & Hc1).
  injection Hc1 as <-. eexists _, _. split; [reflexivity|].
  unfold get_x, get_y. cbn [rs_ctx with_ctx]. rewrite Pg'.
  unfold add_u32, chk in Hv. destruct (_ && _); [|discriminate]. injection Hv as <-.
  cbn [i_x i_y i_w i_h i_pixels set_i_x set_i_y].
  split; [reflexivity|]. split; [exact J1|]. split; [exact J2|].
  split; [unfold get_y; rewrite Pg; reflexivity|].
  split; [reflexivity|]. split; [reflexivity|]. split; [reflexivity|].
  unfold reset_x, get_base_x.
  change (p_enabled (c_page (upd_gra ?f (upd_gra ?g (rs_ctx s))))) with (p_enabled (c_page (rs_ctx s))).
  rewrite Pg.
  change (p_enabled (c_page (upd_gra ?h (upd_gra ?f (upd_gra ?g (rs_ctx s)))))) with (p_enabled (c_page (rs_ctx s))).
  rewrite Pg. split; reflexivity.
Qed.
