(** * ReceiptRun: a receipt of parts, from the bytes to the calls. *)
From Verif Require Import Base Command CommandSet Parser Vec Float32 GTypes Graphics Utf8 Decoder Context Text Upce Handlers Renderer
  SpecStream StreamProofs ContextTheory RendererTheory Origin SpecPrinter StateTheory PropsText SpecRender
  PropsOutput LayoutTheory AreaTheory PlaceTheory PropsContext PropsLayout PropsPlace SafeTheory PenTheory CallsTheory SpecLines PropsLines
  ManualTheory PropsQr PropsDecoder ThermalImage SpecCanvas ImageRenderer SpecImage SpecScene SpecPlain PlainTheory PlainRun PlainJob SpecReceipt.
From Verif Require PropsSafe.
Local Open Scope Z_scope.
Local Open Scope list_scope.
Local Arguments at_ : simpl never.
Local Arguments vlen : simpl never.

(** ** Parsing *)
Definition fixed_item (name : string) (k : ckind) (p : list Z) (n : Z) : item := IFixed name k p [n].
Definition part_items (p : part) : list item :=
  match p with
  | Line n a t => [fixed_item "Set Text Justification" KControl [27; 97] a; fixed_item "Set Print Mode" KTextStyle [27; 33] n] ++ line_items t
  | Lines n => [fixed_item "Print and Feed Lines" KControl [27; 100] n]
  | Dots n => [fixed_item "Print and Feed" KControl [27; 74] n]
  | Cut m => [ICut m]
  | CutFeed m n => [ICutFeed m n]
  end.
Definition o_fixed (name : string) (k : ckind) (p : list Z) (n : Z) : ocmd := simple name k p [n].
Definition part_seen (p : part) : list ocmd :=
  match p with
  | Line n a t => [o_fixed "Set Text Justification" KControl [27; 97] a; o_fixed "Set Print Mode" KTextStyle [27; 33] n] ++ line_seen t
  | Lines n => [o_fixed "Print and Feed Lines" KControl [27; 100] n]
  | Dots n => [o_fixed "Print and Feed" KControl [27; 74] n]
  | Cut m => [simple "Feed and Cut" KControl [29; 86] [m]]
  | CutFeed m n => [simple "Feed and Cut" KControl [29; 86] [m; n]]
  end.
Definition items (l : list part) : list item := flat_map part_items l.
Lemma items_wire l : encode (items l) = receipt_bytes l.
Proof.
  unfold encode, items, receipt_bytes. induction l as [|p r IH]; [reflexivity|]. cbn [flat_map]. rewrite flat_map_app, IH. f_equal.
  destruct p as [n a t| | | |]; try reflexivity. cbn [part_items part_bytes]. rewrite flat_map_app. cbn [flat_map wire fixed_item app]. f_equal. f_equal. f_equal. f_equal. f_equal. f_equal.
  destruct t as [|c t]; [reflexivity|]. cbn [line_items flat_map]. cbn [wire]. rewrite (proj1 (units_wire (c :: t))). reflexivity.
Qed.
Lemma items_ok l : Forall part_ok l -> Forall item_ok (items l).
Proof.
  intros F. unfold items. induction F as [|p r P F IH]; [constructor|]. cbn [flat_map]. apply Forall_app. split; [|exact IH].
  destruct p as [n a t|n|n|m|m n]; cbn [part_items part_ok] in *.
  - destruct P as (_ & _ & P & _). apply Forall_app. split; [constructor; [|constructor; [|constructor]]; cbn; unfold in_fixed; vm_compute; tauto|].
    pose proof (text_items_ok [t] (Forall_cons t P (Forall_nil _))) as T. unfold text_items in T. cbn [flat_map] in T. rewrite app_nil_r in T. exact T.
  - constructor; [|constructor]. cbn; unfold in_fixed; vm_compute; tauto.
  - constructor; [|constructor]. cbn; unfold in_fixed; vm_compute; tauto.
  - constructor; [exact P | constructor].
  - constructor; [|constructor]. destruct P as (P & _). cbn in P |- *. intuition lia.
Qed.
Lemma separated_fixeds a r : Forall (fun i => open_ended i = false) a -> separated r = true -> separated (a ++ r) = true.
Proof. induction 1 as [|i a O F IH]; intros S; [exact S|]. cbn [app]. rewrite separated_fixed by exact O. exact (IH S). Qed.
Lemma items_sep l : separated (items l) = true.
Proof.
  unfold items. induction l as [|p r IH]; [reflexivity|]. cbn [flat_map]. destruct p as [n a t|n|n|m|m n]; cbn [part_items].
  2-5: cbn [app]; rewrite separated_fixed by reflexivity; exact IH.
  rewrite <- app_assoc. apply separated_fixeds; [repeat constructor|]. destruct t as [|c t]; cbn [line_items app].
  - rewrite separated_fixed by reflexivity. exact IH.
  - rewrite separated_two, separated_fixed by reflexivity. rewrite IH. reflexivity.
Qed.
Lemma items_expect l : expect_all (items l) = flat_map part_seen l.
Proof.
  assert (G : forall a r, Forall (fun i => expect_eof i = expect i) a -> expect_all (a ++ r) = flat_map expect a ++ expect_all r).
  { induction 1 as [|i a E F IH]; [reflexivity|]. cbn [app flat_map]. rewrite <- app_assoc, <- IH. destruct (a ++ r) as [|x y]; [cbn [expect_all]; rewrite app_nil_r; exact E | reflexivity]. }
  unfold items. induction l as [|p r IH]; [reflexivity|]. cbn [flat_map]. rewrite G, IH.
  - f_equal. destruct p as [n a t| | | |]; try reflexivity. cbn [part_items part_seen]. rewrite flat_map_app. f_equal. destruct t as [|c t]; [reflexivity|].
    cbn [line_items line_seen flat_map expect app]. rewrite (proj2 (units_wire (c :: t))). reflexivity.
  - destruct p as [n a [|c t]| | | |]; repeat constructor.
Qed.
Lemma items_lead l : lead (items l) = [].
Proof. destruct l as [|[] ?]; reflexivity. Qed.
Lemma receipt_parse l : Forall part_ok l -> exists cmds, parse_esc_pos (receipt_bytes l) = Ok cmds /\ map observe cmds = [o_begin] ++ flat_map part_seen l ++ [o_end].
Proof.
  intros F. destruct (parse_stream (items l)) as (cmds & P & O); [split; [exact (items_ok l F) | exact (items_sep l)]|].
  rewrite items_wire in P. exists cmds. split; [exact P|]. rewrite O. unfold parse_spec. rewrite items_lead, items_expect. reflexivity.
Qed.

(** ** The printer between the parts *)
Definition rctx (n a y : Z) : context := at_xy 0 y (upd_text (set_t_justify (justify_of a)) (mode_ctx n)).
Definition spj (n a : Z) : text_span := sp_of (rctx n a 0).
Lemma rctx_span t n a y : span_new t (rctx n a y) = styled (spj n a) t.
Proof. vm_compute. reflexivity. Qed.
Lemma rctx_style t n a : styled (spj n a) t = set_s_justify (justify_of a) (styled (sp n) t).
Proof. vm_compute. reflexivity. Qed.
Lemma rctx_std n a y : standard (rctx n a y). Proof. vm_compute. reflexivity. Qed.
Lemma rctx_x n a y : get_x (rctx n a y) = 0. Proof. vm_compute. reflexivity. Qed.
Lemma rctx_y n a y : get_y (rctx n a y) = y. Proof. vm_compute. reflexivity. Qed.
Lemma rctx_spacing n a y : t_line_spacing (c_text (rctx n a y)) = 24. Proof. vm_compute. reflexivity. Qed.
Definition tabs0 : list Z := t_tabs (c_text start_ctx).
Lemma rctx_tabs n a y : t_tabs (c_text (rctx n a y)) = tabs0. Proof. vm_compute. reflexivity. Qed.
Lemma rctx_decoder n a y : t_decoder (c_text (rctx n a y)) = get_codepage 0 0. Proof. vm_compute. reflexivity. Qed.
Lemma rctx_moved n a y y' : at_xy 0 y' (rctx n a y) = rctx n a y'. Proof. vm_compute. reflexivity. Qed.
Lemma rctx_align n a y a' : upd_text (set_t_justify (justify_of a')) (rctx n a y) = rctx n a' y. Proof. vm_compute. reflexivity. Qed.
Lemma rctx_mode n a y n' : moded (flag n' 0) (flag n' 3) (flag n' 4) (flag n' 5) (flag n' 6) (rctx n a y) = rctx n' a y. Proof. vm_compute. reflexivity. Qed.
Lemma rctx_start : start_ctx = rctx 0 0 108. Proof. vm_compute. reflexivity. Qed.
Lemma spj_is n a : spj n a = set_s_justify (justify_of a) (sp n). Proof. vm_compute. reflexivity. Qed.
Local Opaque rctx spj.

(** Calls that draw nothing, and calls that draw a line. *)
Definition still (c : context * event) : Prop := match snd c with EDevice _ | EBeginRender | EGetErrors => True | _ => False end.
Definition lined (c : context * event) : Prop := is_text_call c /\ framed_call c /\ p_enabled (c_page (fst c)) = false.
(** ... none of them below row [b] *)
Definition drawn_lines (b : Z) (l : list (context * event)) : Prop := Forall (fun c => (still c \/ lined c) /\ get_y (fst c) <= b) l.
Lemma drawn_more b b' l : drawn_lines b l -> b <= b' -> drawn_lines b' l.
Proof. intros F L. eapply Forall_impl; [|exact F]. cbv beta. intros c (A & B). split; [exact A | lia]. Qed.
Lemma still_lines b l : Forall (fun c => still c /\ get_y (fst c) <= b) l -> drawn_lines b l /\ lines_of l = [].
Proof.
  unfold drawn_lines. induction 1 as [|[x ev] l (S & Y) F (IH1 & IH2)]; [split; [constructor | reflexivity]|]. split; [constructor; auto|].
  unfold lines_of in *. cbn [flat_map snd]. rewrite IH2. unfold still in S. cbn [snd] in S. destruct ev; try contradiction; reflexivity.
Qed.
Lemma flush_there s s' : process_text s = Ok s' -> exists new, rs_calls s' = rs_calls s ++ new /\ Forall (fun c => fst c = rs_ctx s') new.
Proof.
  intros H. unfold process_text in H. destruct (rs_spans s) as [|x r].
  - exists []. rewrite app_nil_r. assert (s' = s) by congruence. subst. split; [reflexivity | constructor].
  - apply bind_ok in H. destruct H as ((c & lines) & _ & H). destruct (render_lines_calls _ _ _ H) as (new & E & _ & _ & _ & FX & X & _). exists new. rewrite X. split; [exact E | exact FX].
Qed.

(** What is waiting to be printed: nothing, or one line. *)
Definition waiting (n a : Z) (y : Z) (t : option (list Z)) : list text_span := match t with None => [] | Some t => line_spans (rctx n a y) t end.
Definition rise (n : Z) (t : option (list Z)) : Z := match t with None => 0 | Some t => line_pitch n t end.
Definition put (n a y : Z) (t : list Z) : list (list text_span * Z) :=
  map (placed_line 609) (filter nonempty [row tabs0 0 y (map (styled (spj n a)) (words t))]).
Definition puts (n a y : Z) (t : option (list Z)) : list (list text_span * Z) := match t with None => [] | Some t => put n a y t end.
Definition text_ok (n : Z) (t : list Z) : Prop := Forall printable t /\ Z.of_nat (length t) * cell_width n <= 609.
Record ready_at (e : encoders) (s : rstate) (n a y : Z) (t : option (list Z)) : Prop := mk_ready_at {
  ra_history : history e s;
  ra_ctx : rs_ctx s = rctx n a y;
  ra_spans : rs_spans s = waiting n a y t;
  ra_text : match t with None => True | Some t => text_ok n t end }.

Lemma just_width j q : s_character_width (set_s_justify j q) = s_character_width q. Proof. reflexivity. Qed.
Lemma just_height j q : s_character_height (set_s_justify j q) = s_character_height q. Proof. reflexivity. Qed.
Lemma spj_cw n a : s_character_width (spj n a) = cell_width n.
Proof. rewrite spj_is, (just_width (justify_of a) (sp n)). exact (sp_cw n). Qed.
Lemma spj_ch n a : s_character_height (spj n a) = cell_height n.
Proof. rewrite spj_is, (just_height (justify_of a) (sp n)). exact (sp_ch n). Qed.
Lemma spans_of n a y t : line_spans (rctx n a y) t = match t with [] => [styled (spj n a) [10]] | _ => [styled (spj n a) t; styled (spj n a) [10]] end.
Proof. destruct t; cbn [line_spans]; rewrite !rctx_span; reflexivity. Qed.
Lemma waiting_lines n a y t : lines_of_text [map (styled (spj n a)) (words t)] [] (flat_map break_into_words (line_spans (rctx n a y) t)).
Proof.
  assert (E : flat_map break_into_words (line_spans (rctx n a y) t) = map (styled (spj n a)) (words t) ++ [styled (spj n a) [10]]).
  { rewrite spans_of. set (q := spj n a). destruct t as [|c t]; cbn [flat_map]; [reflexivity|].
    assert (E1 : break_into_words (styled q [10]) = [styled q [10]]) by reflexivity. rewrite E1, app_nil_r. f_equal. }
  rewrite E. constructor; [reflexivity | constructor].
Qed.
Lemma flush_line e s s' n a y t : ready_at e s n a y t -> process_text s = Ok s' ->
  exists new, rs_calls s' = rs_calls s ++ new /\ drawn_lines (y + rise n t) new /\ lines_of new = puts n a y t /\ rs_ctx s' = rctx n a (y + rise n t) /\ rs_spans s' = [].
Proof.
  intros [Hh X Sp T] P. destruct t as [t|]; cbn [waiting] in Sp.
  2:{ unfold process_text in P. rewrite Sp in P. assert (s' = s) by congruence. subst s'. exists []. rewrite app_nil_r. cbn [puts rise]. rewrite Z.add_0_r. split; [reflexivity|]. split; [constructor|]. auto. }
  pose proof (history_sinv _ _ Hh) as S. destruct (flush_band _ _ S P) as (new & B1 & B2 & B3 & B4 & _ & _ & B7 & _).
  assert (SD : standard (rs_ctx s)) by (rewrite X; apply rctx_std).
  assert (LT : lines_of_text [map (styled (spj n a)) (words t)] [] (flat_map break_into_words (rs_spans s))) by (rewrite Sp; apply waiting_lines).
  destruct T as (Pr & Len).
  assert (F : rows_fit 609 (t_tabs (c_text (rs_ctx s))) (get_x (rs_ctx s)) [map (styled (spj n a)) (words t)]).
  { rewrite X, rctx_x. pose proof (cell_wide n) as CW. pose proof (lines_fit (spj n a) (t_tabs (c_text (rctx n a y))) [t]) as LF. rewrite spj_cw in LF. apply LF; [lia|]. constructor; [split; assumption | constructor]. }
  destruct (flush_rows _ _ _ _ SD S P LT F Logic.I) as (L & XE).
  assert (XX : rs_ctx s' = rctx n a (y + rise n (Some t))).
  { rewrite XE, X, rctx_tabs, rctx_x, rctx_y, rctx_spacing. cbn [last_start row_end]. rewrite rctx_moved. f_equal. cbn [rows_bottom fold_left rise].
    rewrite (row_height_styled (spj n a)); [|lia | exact (proj1 (plain_words (spj n a) t Pr))]. rewrite spj_ch. f_equal. unfold line_pitch. destruct t as [|c t]; [reflexivity|].
    pose proof (words_some (c :: t) ltac:(discriminate)). destruct (words (c :: t)); [contradiction | reflexivity]. }
  assert (XY : get_y (rs_ctx s') = y + rise n (Some t)) by (rewrite XX; apply rctx_y).
  destruct (flush_there _ _ P) as (new' & B1' & BX). assert (new' = new) by (rewrite B1 in B1'; apply app_inv_head in B1'; congruence). subst new'.
  exists new. split; [exact B1|]. split.
  { unfold drawn_lines. rewrite Forall_forall in *. intros c Hc. split; [|rewrite (BX _ Hc), XY; lia]. right. split; [exact (B2 _ Hc)|]. split; [exact (B3 _ Hc)|]. rewrite (moved_enabled _ _ (B4 _ Hc)). exact SD. }
  split.
  { rewrite B1 in L. unfold lines_of in L. rewrite flat_map_app in L. apply app_inv_head in L. unfold lines_of. rewrite L. rewrite X, rctx_x, rctx_y, rctx_spacing, rctx_tabs. unfold printed_rows, puts, put.
    cbn [rows app]. rewrite <- (app_nil_r (filter nonempty [row _ _ _ _])). change ([row tabs0 0 y (map (styled (spj n a)) (words t)); row tabs0 (last_start 0 [map (styled (spj n a)) (words t)]) (rows_bottom 24 y [map (styled (spj n a)) (words t)]) []]) with ([row tabs0 0 y (map (styled (spj n a)) (words t))] ++ [[]]).
    rewrite filter_app. reflexivity. }
  split; [exact XX | exact B7].
Qed.

(** ** The commands *)
Section Steps.
Variable e : encoders.
Lemma align_step c s s' n a y t a' : ready_at e s n a y t -> sent c -> c_commands c = [27; 97] -> c_data c = [a'] -> process_command e c s = Ok s' ->
  exists new, rs_calls s' = rs_calls s ++ new /\ drawn_lines (y + rise n t) new /\ lines_of new = puts n a y t /\ ready_at e s' n a' (y + rise n t) None.
Proof.
  intros R Sc P D H. pose proof (history_step _ _ _ _ (ra_history _ _ _ _ _ _ R) Sc H) as Hh. known c Sc P cmd_set_justification P_set_justification.
  unfold process_command in H. rewrite K in H. unfold get_device_command in H. rewrite Hd in H. cbn [device_plain bind] in H. apply bind_ok in H. destruct H as (s1 & H1 & H).
  destruct (flush_line _ _ _ _ _ _ _ R H1) as (new & C & Dr & L & X & Sp).
  unfold process_device_commands in H. cbn [fold_res process_device_command] in H. unfold arg in H. rewrite D in H. unfold on_ctx in H. cbn [bind call rs_ctx] in H.
  change (get_or 0 [a'] 0) with a' in H.
  assert (E : s' = with_ctx (upd_text (set_t_justify (justify_of a')) (rs_ctx s1)) (call (EDevice (Justify (justify_of a'))) s1)) by congruence. clear H.
  exists (new ++ [(rs_ctx s1, EDevice (Justify (justify_of a')))]). split; [rewrite E; cbn [with_ctx call rs_calls]; rewrite C, <- app_assoc; reflexivity|].
  split; [apply Forall_app; split; [exact Dr|]; constructor; [split; [left; exact Logic.I | cbn [fst]; rewrite X, rctx_y; lia] | constructor]|]. split; [unfold lines_of in *; rewrite flat_map_app, L; cbn [flat_map snd]; rewrite app_nil_r; reflexivity|].
  constructor; [exact Hh | rewrite E; cbn [with_ctx rs_ctx]; rewrite X; apply rctx_align | rewrite E; exact Sp | exact Logic.I].
Qed.
Lemma style_step c s s' n a y n' : ready_at e s n a y None -> sent c -> c_commands c = [27; 33] -> c_data c = [n'] -> process_command e c s = Ok s' ->
  rs_calls s' = rs_calls s /\ ready_at e s' n' a y None.
Proof.
  intros R Sc P D H. pose proof (history_step _ _ _ _ (ra_history _ _ _ _ _ _ R) Sc H) as Hh. destruct R as [_ X Sp _]. known c Sc P cmd_set_print_mode P_set_print_mode.
  unfold process_command in H. rewrite K in H. unfold apply_context, get_device_command in H. rewrite Hd in H. unfold on_ctx in H. cbn [apply_plain device_plain bind] in H.
  unfold process_device_commands in H. cbn [fold_res] in H. assert (E : s' = with_ctx (set_print_mode c (rs_ctx s)) s) by congruence. clear H.
  split; [rewrite E; reflexivity|]. constructor; [exact Hh | | rewrite E; exact Sp | exact Logic.I].
  rewrite E. cbn [with_ctx rs_ctx]. rewrite X. unfold set_print_mode, arg. rewrite D. exact (rctx_mode n a y n').
Qed.
Lemma line_step cmds s s' n a y t : ready_at e s n a y None -> text_ok n t -> Forall sent cmds -> map observe cmds = line_seen t -> run_commands e cmds s = Ok s' ->
  rs_calls s' = rs_calls s /\ ready_at e s' n a y (Some t).
Proof.
  intros [Hh X Sp _] T Sc O R. assert (Hh' : history e s').
  { clear -Hh Sc R. unfold run_commands in R. revert s Hh R. induction Sc as [|c cmds S F IH]; intros s Hh R; cbn [fold_res] in R; [congruence|]. apply bind_ok in R. destruct R as (s1 & R1 & R). exact (IH _ (history_step _ _ _ _ Hh S R1) R). }
  assert (O' : map observe cmds = flat_map line_seen [t]) by (cbn [flat_map]; rewrite app_nil_r; exact O).
  rewrite (typed_run e [t] cmds s Sc O') in R; [|rewrite X, rctx_decoder; constructor; [exact (decode_plain t (proj1 T)) | constructor]].
  assert (E : s' = with_spans (rs_spans s ++ flat_map (line_spans (rs_ctx s)) [t]) s) by congruence. clear R.
  split; [rewrite E; reflexivity|]. constructor; [exact Hh' | rewrite E; exact X | | exact T]. rewrite E. cbn [with_spans rs_spans flat_map]. rewrite Sp, X, app_nil_r. reflexivity.
Qed.
Lemma devices_still l : forall s s' n, standard (rs_ctx s) -> t_line_spacing (c_text (rs_ctx s)) = 24 -> process_device_commands l s = Ok s' ->
  fold_right (fun d a => match dots_of 24 d, a with Some m, Some k => Some (m + k) | _, _ => None end) (Some 0) l = Some n ->
  0 <= n /\ (exists new, rs_calls s' = rs_calls s ++ new /\ Forall (fun c => still c /\ get_y (fst c) <= get_y (rs_ctx s) + n) new) /\ rs_spans s' = rs_spans s.
Proof.
  unfold process_device_commands. induction l as [|d l IH]; intros s s' n Std LS H D; cbn [fold_res fold_right] in *.
  - assert (s' = s) by congruence. subst. assert (n = 0) by congruence. split; [lia|]. split; [exists []; rewrite app_nil_r; auto | reflexivity].
  - apply bind_ok in H. destruct H as (s1 & H1 & H). destruct (dots_of 24 d) as [m|] eqn:Dm; [|discriminate]. destruct (fold_right _ _ l) as [k|] eqn:Dk; [|discriminate].
    assert (Dm' : dots_of (t_line_spacing (c_text (rs_ctx s))) d = Some m) by (rewrite LS; exact Dm).
    pose proof (device_dots _ _ _ _ Std H1 Dm') as E1.
    assert (Std1 : standard (rs_ctx s1)) by (rewrite E1; apply at_std, Std).
    assert (LS1 : t_line_spacing (c_text (rs_ctx s1)) = 24) by (rewrite E1, at_text; exact LS).
    assert (Y1 : get_y (rs_ctx s1) = get_y (rs_ctx s) + m) by (rewrite E1; apply at_y, Std).
    assert (M0 : 0 <= m). { clear -Dm. unfold dots_of in Dm. destruct d; try discriminate Dm; try (assert (m = 2 * 24) by congruence; lia); destruct (Z.ltb_spec n 0); try discriminate Dm; assert (Em := f_equal (fun o => match o with Some v => v | None => 0 end) Dm); cbv beta iota in Em; lia. }
    destruct (IH _ _ _ Std1 LS1 H eq_refl) as (K0 & (new & C & St) & Sp). assert (En : n = m + k) by congruence.
    assert (Q : rs_calls s1 = rs_calls s ++ [(rs_ctx s, EDevice d)] /\ rs_spans s1 = rs_spans s).
    { unfold process_device_command in H1. cbv zeta in H1. destruct d; try discriminate; apply on_ctx_inv in H1; destruct H1 as (x & _ & ->); split; reflexivity. }
    destruct Q as (Q1 & Q2). split; [lia|]. split; [|congruence]. exists ((rs_ctx s, EDevice d) :: new). split; [rewrite C, Q1, <- app_assoc; reflexivity|]. constructor; [split; [exact Logic.I | cbn [fst]; lia]|].
    eapply Forall_impl; [|exact St]. cbv beta. intros c (A & B). split; [exact A | lia].
Qed.
Lemma feed_step c s s' n a y t k : ready_at e s n a y t -> sent c -> fed 24 c = Some k -> process_command e c s = Ok s' ->
  exists new, rs_calls s' = rs_calls s ++ new /\ 0 <= k /\ drawn_lines (y + rise n t + k) new /\ lines_of new = puts n a y t /\ ready_at e s' n a (y + rise n t + k) None.
Proof.
  intros R Sc Fd H. pose proof (history_step _ _ _ _ (ra_history _ _ _ _ _ _ R) Sc H) as Hh. destruct (feed_devices _ _ _ Sc Fd) as (K & l & Hl & N & Dl).
  unfold process_command in H. rewrite K, Hl in H. cbn [bind] in H. apply bind_ok in H. destruct H as (s1 & H1 & H).
  destruct (flush_line _ _ _ _ _ _ _ R H1) as (new & C & Dr & L & X & Sp).
  assert (SD : standard (rs_ctx s1)) by (rewrite X; apply rctx_std).
  assert (Y : rs_ctx s' = at_xy 0 (get_y (rs_ctx s1) + k) (rs_ctx s1)) by (apply (devices_dots l); [exact SD | exact H | rewrite X, rctx_spacing; exact Dl | exact N]).
  assert (LS : t_line_spacing (c_text (rs_ctx s1)) = 24) by (rewrite X; apply rctx_spacing).
  destruct (devices_still _ _ _ _ SD LS H Dl) as (K0 & (new2 & C2 & St) & Sp2). destruct (still_lines _ _ St) as (Dr2 & L2). rewrite X, rctx_y in Dr2.
  exists (new ++ new2). split; [rewrite C2, C, <- app_assoc; reflexivity|]. split; [exact K0|]. split; [apply Forall_app; split; [apply (drawn_more _ _ _ Dr); lia | exact Dr2]|].
  split; [unfold lines_of in *; rewrite flat_map_app, L, L2, app_nil_r; reflexivity|].
  constructor; [exact Hh | rewrite Y, X, rctx_y; apply rctx_moved | rewrite Sp2; exact Sp | exact Logic.I].
Qed.

(** ** The whole receipt *)
Fixpoint put_parts (y : Z) (l : list part) : list (list text_span * Z) :=
  match l with
  | [] => []
  | p :: r => match p with Line n a t => put n a y t | _ => [] end ++ put_parts (y + part_height p) r
  end.
Lemma fed_part p c : part_ok p -> match p with Line _ _ _ => False | _ => True end -> [observe c] = part_seen p -> fed 24 c = Some (part_height p).
Proof.
  intros P N O. pose proof (f_equal (fun l => o_prefix (hd o_lf l)) O) as OP. pose proof (f_equal (fun l => o_data (hd o_lf l)) O) as OD. clear O.
  destruct p as [| k | k | m | m k]; [contradiction | | | |]; cbn in OP, OD; unfold fed; rewrite OP, OD; cbn [part_height part_ok] in *.
  - f_equal. lia.
  - reflexivity.
  - replace (existsb (Z.eqb m) [0; 1; 48; 49]) with true; [reflexivity|]. symmetry. cbn [In] in P. destruct P as [<-|[<-|[<-|[<-|[]]]]]; reflexivity.
  - replace (existsb (Z.eqb m) [65; 97; 103; 66; 98; 104]) with true; [reflexivity|]. symmetry. destruct P as (P & _). cbn [In] in P. destruct P as [<-|[<-|[<-|[<-|[<-|[<-|[]]]]]]]; reflexivity.
Qed.
Lemma part_single p : match p with Line _ _ _ => False | _ => True end -> exists o, part_seen p = [o].
Proof. destruct p; [contradiction| | | |]; intros _; eexists; reflexivity. Qed.
Lemma lines_app a b : lines_of (a ++ b) = lines_of a ++ lines_of b.
Proof. unfold lines_of. apply flat_map_app. Qed.
Lemma map_app_inv {A B} (f : A -> B) l : forall a b, map f l = a ++ b -> exists l1 l2, l = l1 ++ l2 /\ map f l1 = a /\ map f l2 = b.
Proof.
  induction l as [|x l IH]; intros a b E; cbn [map] in E.
  - symmetry in E. apply app_eq_nil in E. destruct E as (-> & ->). exists [], []. auto.
  - destruct a as [|y a]; cbn [app] in E; [exists [], (x :: l); auto|]. pose proof (f_equal (hd y) E) as E1. pose proof (f_equal (@tl _) E) as E2. cbn [hd tl] in E1, E2.
    destruct (IH _ _ E2) as (l1 & l2 & -> & <- & <-). exists (x :: l1), l2. cbn [map app]. rewrite E1. auto.
Qed.
(** Where the printer stands after some parts. *)
Definition stood (s s' : rstate) (n a y : Z) (t : option (list Z)) (l : list part) : Prop :=
  exists new n' a' y' t', rs_calls s' = rs_calls s ++ new /\ drawn_lines (y' + rise n' t') new /\ ready_at e s' n' a' y' t' /\ 0 <= receipt_height l /\
    lines_of new ++ puts n' a' y' t' = puts n a y t ++ put_parts (y + rise n t) l /\ y' + rise n' t' = y + rise n t + receipt_height l.
Lemma part_run p cmds s s' n a y t : ready_at e s n a y t -> part_ok p -> Forall sent cmds -> map observe cmds = part_seen p -> run_commands e cmds s = Ok s' ->
  stood s s' n a y t [p].
Proof.
  intros R P Sc O H.
  assert (SP : match p with Line _ _ _ => False | _ => True end -> stood s s' n a y t [p]).
  { intros N. destruct (part_single p N) as (o & Eo). rewrite Eo in O. destruct cmds as [|c [|c2 cmds]]; [discriminate O | | discriminate O].
    cbn [map] in O. rewrite <- Eo in O. apply Forall_cons_iff in Sc. destruct Sc as (Sc & _). unfold run_commands in H. cbn [fold_res] in H. apply bind_ok in H. destruct H as (s1 & H & E1). assert (s' = s1) by congruence. subst s1.
    destruct (feed_step _ _ _ _ _ _ _ _ R Sc (fed_part p c P N O) H) as (new & C & K0 & Dr & L & R').
    exists new, n, a, (y + rise n t + part_height p), None. split; [exact C|]. cbn [puts rise put_parts receipt_height fold_right]. split; [apply (drawn_more _ _ _ Dr); lia|]. split; [exact R'|]. split; [lia|]. rewrite L. cbn [puts rise put_parts receipt_height fold_right]. rewrite Z.add_0_r. split; [|lia].
    f_equal. destruct p; [contradiction| | | |]; reflexivity. }
  destruct p as [n' a' l|k|k|m|m k]; [clear SP | apply SP; exact Logic.I ..].
  cbn [part_seen] in O. apply map_app_inv in O. destruct O as (h & body & -> & Oh & Ob). destruct h as [|c1 [|c2 [|c3 h]]]; try discriminate Oh.
  pose proof (f_equal (fun l => o_prefix (hd o_lf l)) Oh) as P1. pose proof (f_equal (fun l => o_data (hd o_lf l)) Oh) as D1.
  pose proof (f_equal (fun l => o_prefix (hd o_lf (tl l))) Oh) as P2. pose proof (f_equal (fun l => o_data (hd o_lf (tl l))) Oh) as D2. cbn in P1, D1, P2, D2. clear Oh.
  apply Forall_app in Sc. destruct Sc as (Sh & Sb). apply Forall_cons_iff in Sh. destruct Sh as (S1 & Sh). apply Forall_cons_iff in Sh. destruct Sh as (S2 & _).
  unfold run_commands in H. cbn [app fold_res] in H. apply bind_ok in H. destruct H as (s1 & H1 & H). apply bind_ok in H. destruct H as (s2 & H2 & H).
  destruct (align_step _ _ _ _ _ _ _ _ R S1 P1 D1 H1) as (new & C & Dr & L & R1).
  destruct (style_step _ _ _ _ _ _ _ R1 S2 P2 D2 H2) as (C2 & R2).
  cbn [part_ok] in P. destruct P as (_ & _ & P).
  destruct (line_step _ _ _ _ _ _ _ R2 P Sb Ob H) as (C3 & R3).
  exists new, n', a', (y + rise n t), (Some l). split; [congruence|]. assert (LP : 0 <= line_pitch n' l) by (unfold line_pitch; destruct l; lia). split; [apply (drawn_more _ _ _ Dr); cbn [rise]; lia|]. split; [exact R3|]. split; [cbn [receipt_height fold_right part_height]; lia|]. rewrite L. cbn [puts rise put_parts receipt_height fold_right part_height]. rewrite app_nil_r. split; [reflexivity | lia].
Qed.
Lemma put_parts_app y l1 l2 : put_parts y (l1 ++ l2) = put_parts y l1 ++ put_parts (y + receipt_height l1) l2.
Proof.
  revert y. induction l1 as [|p r IH]; intros y; cbn [app put_parts receipt_height fold_right]; [rewrite Z.add_0_r; reflexivity|]. rewrite IH, <- app_assoc. f_equal. f_equal. f_equal. fold (receipt_height r). lia.
Qed.
Lemma parts_run l : forall cmds s s' n a y t, ready_at e s n a y t -> Forall part_ok l -> Forall sent cmds -> map observe cmds = flat_map part_seen l -> run_commands e cmds s = Ok s' ->
  stood s s' n a y t l.
Proof.
  induction l as [|p r IH]; intros cmds s s' n a y t R P Sc O H.
  - destruct cmds; [|discriminate O]. unfold run_commands in H. cbn [fold_res] in H. assert (s' = s) by congruence. subst. exists [], n, a, y, t. rewrite app_nil_r. split; [reflexivity|]. split; [constructor|]. split; [exact R|]. split; [cbn; lia|].
    cbn [lines_of flat_map app put_parts receipt_height fold_right]. rewrite app_nil_r. split; [reflexivity | lia].
  - cbn [flat_map] in O. apply map_app_inv in O. destruct O as (c1 & c2 & -> & O1 & O2). apply Forall_app in Sc. destruct Sc as (S1 & S2). apply Forall_cons_iff in P. destruct P as (P & Ps).
    unfold run_commands in H. rewrite fold_res_app in H. apply bind_ok in H. destruct H as (s1 & H1 & H2).
    destruct (part_run _ _ _ _ _ _ _ _ R P S1 O1 H1) as (new & n' & a' & y' & t' & C & Dr & R' & H0 & L & Y).
    destruct (IH _ _ _ _ _ _ _ R' Ps S2 O2 H2) as (new2 & n2 & a2 & y2 & t2 & C' & Dr' & R2 & H02 & L2 & Y2).
    exists (new ++ new2), n2, a2, y2, t2. split; [rewrite C', C, app_assoc; reflexivity|]. split; [apply Forall_app; split; [apply (drawn_more _ _ _ Dr); lia | exact Dr']|]. split; [exact R2|].
    split; [cbn [receipt_height fold_right] in *; fold (receipt_height r) in *; lia|]. cbn [receipt_height fold_right put_parts] in *. rewrite Z.add_0_r in Y. rewrite app_nil_r in L. fold (receipt_height r) in *. split; [|lia].
    rewrite lines_app, <- app_assoc, L2, app_assoc, L, <- app_assoc. f_equal. f_equal. f_equal. lia.
Qed.
End Steps.

(** ** The calls of the job *)
Lemma begin_high e c s x0 x1 a b : sent c -> observe c = o_begin -> process_command e c renderer_new = Ok s -> rs_calls s = [(x0, a); (x1, b)] -> get_y x0 <= 108 /\ get_y x1 <= 108.
Proof.
  intros Sc O H C. pose proof (f_equal o_name O) as N. cbn in N. apply (proj1 (frame_name _ Sc)) in N. pose proof (kind_of_special _ Sc) as K. rewrite N in K. destruct K as (K & _).
  unfold process_command in H. rewrite K in H. unfold get_device_command in H. rewrite N in H. cbn [device_plain bind] in H. clear -H C.
  assert (V : match (do s1 <- process_text renderer_new; process_device_commands [BeginPrint] s1) with Ok s => forallb (fun c => get_y (fst c) <=? 108) (rs_calls s) | Panic _ => true end = true) by (vm_compute; reflexivity).
  rewrite H in V. rewrite C in V. cbn [forallb fst] in V. lia.
Qed.
Lemma receipt_calls e l s : bytes_ok (receipt_bytes l) = true -> Forall part_ok l -> render e (receipt_bytes l) renderer_new = Ok s ->
  exists x0 x1 x new, rs_calls s = [(x0, EDevice BeginPrint); (x1, EBeginRender)] ++ new ++ [(x, EDevice EndPrint); (x, EGetErrors); (x, EEndRender)] /\
    drawn_lines (108 + receipt_height l) new /\ get_y x0 <= 108 /\ get_y x1 <= 108 /\ get_y x = 108 + receipt_height l /\ 0 <= receipt_height l /\ lines_of new = put_parts 108 l /\ a_y (g_render_area (c_graphics x)) = 108 + receipt_height l.
Proof.
  intros B P R. destruct (receipt_parse l P) as (cmds & Pc & O). unfold render in R. rewrite Pc in R. cbn [bind] in R. pose proof (PropsSafe.parsed_sent _ _ B Pc) as Sc.
  apply map_app_inv in O. destruct O as (h & rest & -> & Oh & O). apply map_app_inv in O. destruct O as (body & t & -> & Ob & Ot).
  destruct h as [|cb [|]]; try discriminate Oh. destruct t as [|ce [|]]; try discriminate Ot.
  pose proof (f_equal (hd o_lf) Oh) as Eb. pose proof (f_equal (hd o_lf) Ot) as Ee. cbn [hd map] in Eb, Ee. clear Oh Ot.
  apply Forall_app in Sc. destruct Sc as (S1 & Sc). apply Forall_cons_iff in S1. destruct S1 as (S1 & _). apply Forall_app in Sc. destruct Sc as (S2 & S3). apply Forall_cons_iff in S3. destruct S3 as (S3 & _).
  destruct (begin_step e cb S1 Eb) as (s0 & H0 & X0 & Sp0 & x0 & x1 & C0). destruct (begin_high e cb s0 _ _ _ _ S1 Eb H0 C0) as (V0 & V1).
  unfold run_commands in R. cbn [app fold_res] in R. rewrite H0 in R. cbn [bind] in R. rewrite fold_res_app in R. apply bind_ok in R. destruct R as (s1 & R1 & R). cbn [fold_res] in R. apply bind_ok in R. destruct R as (s2 & R2 & R). assert (s = s2) by congruence. subst s2. clear R.
  assert (Rd : ready_at e s0 0 0 108 None).
  { constructor; [exact (history_step _ _ _ _ (history_new e) S1 H0) | rewrite X0; apply rctx_start | exact Sp0 | exact Logic.I]. }
  destruct (parts_run e l _ _ _ _ _ _ _ Rd P S2 Ob R1) as (new & n & a & y & t & C1 & D1 & Rd1 & HH & L1 & Y1). cbn [rise] in Y1. replace (108 + 0) with 108 in Y1 by lia.
  destruct (end_step _ _ _ _ S3 Ee R2) as (s2 & PT & EC). destruct (flush_line _ _ _ _ _ _ _ Rd1 PT) as (new2 & C2 & D2 & L2 & X2 & _).
  exists x0, x1, (rs_ctx s2), (new ++ new2). split; [rewrite EC, C2, C1, C0, <- !app_assoc; reflexivity|]. split; [rewrite <- Y1; apply Forall_app; split; assumption|].
  split; [exact V0|]. split; [exact V1|]. split; [rewrite X2, rctx_y; exact Y1|]. split; [exact HH|]. split; [rewrite lines_app, L2, L1; reflexivity|]. rewrite X2. pose proof (rctx_y n a (y + rise n t)) as G. unfold get_y in G. pose proof (rctx_std n a (y + rise n t)) as SD. unfold standard in SD. rewrite SD in G. rewrite G. exact Y1.
Qed.
