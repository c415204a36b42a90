(** * PropsLines: C54, lines of text and the motion of the paper. *)
From Verif Require Import Base Command CommandSet Parser Vec Float32 GTypes Graphics Utf8 Decoder Context Text
  Upce Handlers Renderer ContextTheory RendererTheory Origin SpecPrinter StateTheory PropsText SpecRender
  PropsOutput LayoutTheory AreaTheory PlaceTheory PropsContext PropsLayout PropsPlace SafeTheory PenTheory CallsTheory SpecLines.
Local Open Scope Z_scope.
Local Open Scope list_scope.

(** ** One line *)
Lemma line_width_v l : forall a w, line_width l a = Ok w -> w = a + row_dots l.
Proof.
  induction l as [|s l IH]; intros a w H; cbn [line_width row_dots fold_right] in *; [injection H as <-; lia|].
  apply bind_ok in H. destruct H as (v & Hv & H). apply bind_ok in H. destruct H as (b & Hb & H).
  apply span_width_v in Hv. destruct Hv as (-> & _). apply add_u32v in Hb. destruct Hb as (-> & _).
  rewrite (IH _ _ H). fold (row_dots l). unfold word_dots, vlen. lia.
Qed.
Lemma line_height_from l : forall h, fold_left (fun h s => Z.max h (s_character_height s)) l h = h \/
  Exists (fun w => s_character_height w = fold_left (fun h s => Z.max h (s_character_height s)) l h) l.
Proof.
  induction l as [|s l IH]; intros h; cbn [fold_left]; [left; reflexivity|].
  destruct (IH (Z.max h (s_character_height s))) as [E|E]; [|right; constructor 2; exact E].
  rewrite E. destruct (Z.max_spec h (s_character_height s)) as [(_ & ->)|(_ & ->)]; [right; constructor; reflexivity | left; reflexivity].
Qed.
Lemma line_height_highest f l : Forall (fun w => 0 < s_character_height w) (f :: l) -> highest_of (f :: l) (line_height (f :: l)).
Proof.
  intros P. split.
  - destruct (line_height_from (f :: l) 0) as [E|E]; [|exact E]. exfalso.
    pose proof (tallest_in (f :: l) f (or_introl eq_refl) 0) as T. unfold tallest in T.
    apply Forall_cons_iff in P. destruct P as (P & _). lia.
  - apply Forall_forall. intros w Hw. exact (tallest_in _ _ Hw 0).
Qed.
Lemma shift_v j width total off : line_offset j width total = Ok off -> off = shift_for j width total /\ 0 <= off.
Proof.
  intros H. destruct j; cbn [line_offset shift_for] in *.
  - injection H as <-. lia.
  - injection H as <-. destruct (Z.ltb_spec total width).
    + assert (0 <= (width - total) / 2) by (apply Z.div_pos; lia). lia.
    + assert ((width - total) / 2 <= 0) by (apply Z.div_le_upper_bound; lia). lia.
  - apply sub_u32v in H. destruct H as (-> & U). unfold u32v in U. lia.
Qed.
(** every line that is printed anywhere *)
Definition texts (x : context * event) : list (context * event) := match snd x with EText _ _ _ _ => [x] | _ => [] end.
Lemma texts_h : forall (c : context) e, match e with EText _ _ _ _ => False | _ => True end -> texts (c, e) = [].
Proof. intros c e E. destruct e; try contradiction; reflexivity. Qed.
Definition all_framed (s : rstate) : Prop := Forall framed_call (flat_map texts (rs_calls s)).
Lemma all_framed_same s s' : flat_map texts (rs_calls s') = flat_map texts (rs_calls s) -> all_framed s -> all_framed s'.
Proof. unfold all_framed. intros ->. auto. Qed.
Lemma all_framed_text s s' : sinv (rs_ctx s) -> process_text s = Ok s' -> all_framed s -> all_framed s'.
Proof.
  intros S H F. destruct (flush_band _ _ S H) as (new & E & _ & Fr & _). unfold all_framed. rewrite E, flat_map_app. apply Forall_app. split; [exact F|].
  apply Forall_forall. intros x Hx. apply in_flat_map in Hx. destruct Hx as (y & Hy & Hx). unfold texts in Hx.
  destruct (snd y); try contradiction. destruct Hx as [<-|[]]. exact (proj1 (Forall_forall _ _) Fr _ Hy).
Qed.
Lemma on_ctx_moved f s s' : (forall c, f (rs_ctx s) = Ok c -> moved (rs_ctx s) c) -> on_ctx f s = Ok s' -> moved (rs_ctx s) (rs_ctx s').
Proof. intros F H. apply on_ctx_inv in H. destruct H as (c & Hc & ->). exact (F _ Hc). Qed.
Lemma all_framed_hri b s s' : sinv (rs_ctx s) -> barcode_text b s = Ok s' -> all_framed s -> all_framed s' /\ sinv (rs_ctx s').
Proof.
  intros S H F. unfold barcode_text in H. apply bind_ok in H. destruct H as (s1 & H1 & H).
  assert (F1 : all_framed s1) by (refine (all_framed_text (collect_text (b_text b) s) _ _ H1 F); exact S).
  split; [exact (all_framed_same _ _ (silent_ctx _ texts _ _ _ H) F1)|].
  pose proof (proj1 (proj1 (process_text_quiet _ _ H1))) as M1. 
  pose proof (on_ctx_moved _ _ _ (fun c Hc => newline_moved _ _ _ Hc) H) as M2.
  exact (sinv_moved _ _ (moved_trans _ _ _ M1 M2) S).
Qed.
Lemma all_framed_barcode b s s' : sinv (rs_ctx s) -> process_barcode b s = Ok s' -> all_framed s -> all_framed s'.
Proof.
  intros S H F. unfold process_barcode in H. apply bind_ok in H. destruct H as (s1 & H1 & H).
  assert (X1 : all_framed s1 /\ sinv (rs_ctx s1)).
  { destruct (bc_human_readable _); try (injection H1 as <-; auto); exact (all_framed_hri _ _ _ S H1 F). }
  clear H1 S F. destruct X1 as (F & S). apply bind_ok in H. destruct H as (t & _ & H). apply bind_ok in H. destruct H as (s2 & H2 & H).
  pose proof (all_framed_same _ _ (silent_ctx _ texts _ _ _ H2) F) as F2.
  pose proof (sinv_moved _ _ (on_ctx_moved _ _ _ (fun c Hc => set_x_moved _ _ _ Hc) H2) S) as S2. clear H2 F S.
  apply bind_ok in H. destruct H as ((c & rects) & Hf & H). cbv zeta in H.
  assert (M : moved (rs_ctx s2) c).
  { refine (fold_res_ind _ (fun y => moved (rs_ctx s2) (fst y)) _ (rs_ctx s2, []) (c, rects) (moved_refl _) _ Hf).
    intros x y y' _ My E. exact (moved_trans _ _ _ My (barcode_point_moved _ _ _ _ E)). }
  apply bind_ok in H. destruct H as (s4 & H4 & H).
  assert (F4 : all_framed s4).
  { refine (all_framed_same _ _ _ F2). rewrite (silent_ctx _ texts _ _ _ H4). exact (silent_call _ texts texts_h (EGraphics rects) (with_ctx c s2) Logic.I). }
  assert (S4 : sinv (rs_ctx s4)).
  { refine (sinv_moved _ _ (moved_trans _ _ _ M _) S2). 
    refine (on_ctx_moved _ _ _ _ H4). intros d Hd. exact (moved_trans _ _ _ (moved_reset_x _) (offset_y_moved _ _ _ Hd)). }
  clear H4 F2 S2. destruct (bc_human_readable (c_barcode (rs_ctx s4))); try (injection H as <-; exact F4);
    (apply bind_ok in H; destruct H as (s5 & H5 & H); refine (proj1 (all_framed_hri _ _ _ _ H _));
     [exact (sinv_moved _ _ (on_ctx_moved _ _ _ (fun c Hc => offset_y_moved _ _ _ Hc) H5) S4) | exact (all_framed_same _ _ (silent_ctx _ texts _ _ _ H5) F4)]).
Qed.
Lemma all_framed_gfx g s s' : sinv (rs_ctx s) -> process_gfx g s = Ok s' -> all_framed s -> all_framed s'.
Proof.
  intros S H F. destruct g; [| |exact (all_framed_barcode _ _ _ S H F)|].
  all: exact (all_framed_same _ _ (silent_gfx _ texts texts_h _ _ _ H Logic.I) F).
Qed.
Lemma all_framed_step e c s s' : sinv (rs_ctx s) -> process_command e c s = Ok s' -> all_framed s -> all_framed s'.
Proof.
  intros S H F. unfold process_command in H. destruct (c_kind c) eqn:K.
  - apply bind_ok in H. destruct H as (d & _ & H). apply bind_ok in H. destruct H as (s1 & H1 & H).
    exact (all_framed_same _ _ (silent_devices _ texts texts_h _ _ _ H) (all_framed_text _ _ S H1 F)).
  - injection H as <-. destruct (get_text c (rs_ctx s)); exact F.
  - apply bind_ok in H. destruct H as (s1 & H1 & H). apply bind_ok in H. destruct H as (d & _ & H).
    exact (all_framed_same _ _ (silent_devices _ texts texts_h _ _ _ H) (all_framed_same _ _ (silent_ctx _ texts _ _ _ H1) F)).
  - apply bind_ok in H. destruct H as (s1 & H1 & H). apply bind_ok in H. destruct H as (g & Hg & H).
    apply bind_ok in H. destruct H as (s2 & H2 & H). apply bind_ok in H. destruct H as (d & _ & H).
    pose proof (all_framed_text _ _ S H1 F) as F1. refine (all_framed_same _ _ (silent_devices _ texts texts_h _ _ _ H) _).
    pose proof (sinv_moved _ _ (proj1 (proj1 (process_text_quiet _ _ H1))) S) as S1.
    destruct g as [g|]; [exact (all_framed_gfx _ _ _ S1 H2 F1) | injection H2 as <-; exact F1].
  - apply bind_ok in H. destruct H as (s1 & H1 & H). exact (all_framed_same _ _ (silent_ctx _ texts _ _ _ H) (all_framed_text _ _ S H1 F)).
  - apply bind_ok in H. destruct H as (s1 & H1 & H). apply bind_ok in H. destruct H as (s2 & H2 & H). apply bind_ok in H. destruct H as (d & _ & H).
    exact (all_framed_same _ _ (silent_devices _ texts texts_h _ _ _ H) (all_framed_same _ _ (silent_ctx _ texts _ _ _ H2) (all_framed_text _ _ S H1 F))).
  - injection H as <-. exact F.
  - apply bind_ok in H. destruct H as (s1 & H1 & H). injection H as <-. exact (all_framed_text _ _ S H1 F).
Qed.
Lemma history_framed e s : history e s -> all_framed s.
Proof.
  intros (l & F & H). unfold run_commands in H.
  refine (proj2 (fold_res_ind _ (fun s => lay_ok s /\ all_framed s) _ renderer_new s (conj (conj (Forall_nil _) (conj sinv_new uinv_new)) (Forall_nil _)) _ H)).
  intros c y y' Hin (L & A) E. split; [exact (step_lay_ok _ _ _ _ L (proj1 (Forall_forall _ _) F _ Hin) E)|].
  exact (all_framed_step _ _ _ _ (proj1 (proj2 L)) E A).
Qed.

(** *** C54: every line of text is shifted as the first word on it asks for - not at all, into the middle,
    or to the right edge - and is as high as its highest characters. *)
Theorem C54_line : forall e s x line off h j, history e s -> In (x, EText line off h j) (rs_calls s) ->
  line_call (get_width x) line off h j.
Proof.
  intros e s x line off h j Hh Hi.
  assert (Fr : framed_call (x, EText line off h j)).
  { refine (proj1 (Forall_forall _ _) (history_framed _ _ Hh) _ _). apply in_flat_map. exists (x, EText line off h j). split; [exact Hi | left; reflexivity]. }
  pose proof (proj1 (Forall_forall _ _) (td_calls _ (history_tidy _ _ Hh)) _ Hi) as (_ & Wf & _).
  unfold framed_call in Fr. cbn [fst snd] in *. destruct line as [|f r]; [contradiction|]. destruct Fr as (Ej & Eh & w & Hw & Ho).
  exists f, r. split; [reflexivity|]. split; [exact Ej|]. apply line_width_v in Hw. apply shift_v in Ho. destruct Ho as (Eo & O).
  replace w with (row_dots (f :: r)) in Eo by lia. split; [exact Eo|]. split; [exact O|]. rewrite Eh. apply line_height_highest.
  eapply Forall_impl; [|exact Wf]. intros a Wa. destruct (sw_base _ Wa) as (_ & B). destruct (sw_height _ Wa) as (m & M & ->). nia.
Qed.

(** ** Several lines *)
Lemma row_height_max ws : forall h a, row_height (Z.max h a) ws = Z.max a (row_height h ws).
Proof.
  induction ws as [|w r IH]; intros h a; cbn [row_height fold_right]; [lia|]. fold (row_height (Z.max h a) r). fold (row_height h r).
  rewrite IH. destruct (is_tab w); lia.
Qed.
Lemma row_tallest tabs y ws : forall x h, fold_left (fun h s => Z.max h (s_character_height s)) (row tabs x y ws) h = row_height h ws.
Proof.
  induction ws as [|w r IH]; intros x h; cbn [row]; [reflexivity|]. cbn [row_height fold_right]. fold (row_height h r).
  destruct (is_tab w); [exact (IH _ _)|]. cbn [fold_left]. rewrite IH. exact (row_height_max _ _ _).
Qed.
Lemma tab_is w : is_tab w = is_single 9 (s_text w).
Proof. reflexivity. Qed.
Lemma word_text_lf w : is_single 10 (s_text w) = true <-> lf w.
Proof.
  unfold is_single, lf. destruct (s_text w) as [|a [|b t]]; [split; discriminate | | split; discriminate]. split; intros H; [f_equal; lia | injection H as ->; reflexivity].
Qed.
Section Rows.
Variable c : context.
Hypothesis Std : standard c.
Hypothesis Sinv : sinv c.
Let tabs := t_tabs (c_text c).
Let spacing := t_line_spacing (c_text c).
Lemma walk_tabs cw x y l : forall pos c', tab_walk l cw x pos (at_xy x y c) = Ok c' ->
  c' = at_xy (match find (fun p => x <=? p) (stops pos l cw) with Some p => p | None => x end) y c.
Proof.
  induction l as [|t l IH]; intros pos c' H; cbn [tab_walk stops find] in *; [injection H as <-; reflexivity|].
  destruct (x <=? pos); [rewrite (at_set_x pos x y c Std) in H; injection H as <-; reflexivity|].
  apply bind_ok in H. destruct H as (w & Hw & H). apply bind_ok in H. destruct H as (p' & Hp & H).
  apply mul_u32v in Hw. destruct Hw as (-> & _). apply add_u32v in Hp. destruct Hp as (-> & _). exact (IH _ _ H).
Qed.
Lemma set_row ws : forall x y lines cur out, row_fits 609 tabs x ws ->
  fold_res (place_word 609) ws (at_xy x y c, lines, cur) = Ok out ->
  out = (at_xy (row_end tabs x ws) y c, lines, cur ++ row tabs x y ws).
Proof.
  induction ws as [|w r IH]; intros x y lines cur out F H; cbn [fold_res row row_end row_fits] in *.
  - injection H as <-. rewrite app_nil_r. reflexivity.
  - destruct F as (NL & F). apply bind_ok in H. destruct H as (l1 & H1 & H). unfold place_word in H1. cbv zeta in H1.
    apply bind_ok in H1. destruct H1 as (ww & Hw & H1). pose proof Hw as Hw'. apply span_width_v in Hw'. destruct Hw' as (Ew & _).
    destruct (is_single 10 (s_text w)) eqn:E10; [destruct (NL (proj1 (word_text_lf w) E10))|]. rewrite <- tab_is in H1.
    destruct (is_tab w).
    + apply bind_ok in H1. destruct H1 as (c' & Hc & H1). injection H1 as <-.
      rewrite at_text, (at_x x y c Std) in Hc. apply walk_tabs in Hc. subst c'. exact (IH _ _ _ _ _ F H).
    + destruct F as (Fx & F). assert (Ed : ww = word_dots w) by (rewrite Ew; reflexivity).
      assert (LE : (ww <=? get_available_width (at_xy x y c)) = true).
      { rewrite (at_avail x y c Std Sinv), Ed. apply Z.leb_le. lia. }
      rewrite LE in H1. apply bind_ok in H1. destruct H1 as (w' & Hd & H1). apply bind_ok in H1. destruct H1 as (c' & Hc & H1). injection H1 as <-.
      apply (went_x _ _ _ _ _ Std) in Hc. subst c'.
      assert (Ew' : w' = put_at x y w).
      { unfold get_dimensions in Hd. rewrite Hw in Hd. cbn [bind] in Hd. rewrite (at_x x y c Std), (at_y x y c Std), Ed in Hd. injection Hd as <-. reflexivity. }
      subst w'. rewrite Ed in H. rewrite (IH _ _ _ _ _ F H), <- app_assoc. reflexivity.
Qed.
Lemma set_rows lines last text : lines_of_text lines last text -> forall x y done out,
  rows_fit 609 tabs x lines -> row_fits 609 tabs (last_start x lines) last ->
  fold_res (place_word 609) text (at_xy x y c, done, []) = Ok out ->
  exists done', out = (at_xy (row_end tabs (last_start x lines) last) (rows_bottom spacing y lines) c, done',
                       row tabs (last_start x lines) (rows_bottom spacing y lines) last) /\
    filter nonempty done' = filter nonempty done ++ filter nonempty (rows spacing tabs x y lines).
Proof.
  induction 1 as [last|l e more lines last E T IH]; intros x y done out F G H.
  - exists done. cbn [last_start rows_bottom fold_left rows filter]. rewrite app_nil_r. split; [|reflexivity]. exact (set_row _ _ _ _ [] _ G H).
  - cbn [rows_fit rows filter] in *. destruct F as (F1 & F).
    change (l ++ e :: more) with (l ++ ([e] ++ more)) in H. rewrite fold_res_app in H. apply bind_ok in H. destruct H as (o1 & H1 & H).
    apply (set_row _ _ _ _ _ _ F1) in H1. subst o1. cbn [app fold_res] in H. apply bind_ok in H. destruct H as (o2 & H2 & H).
    unfold place_word in H2. cbv zeta in H2. apply bind_ok in H2. destruct H2 as (ww & _ & H2).
    rewrite (proj2 (word_text_lf e) E) in H2. apply bind_ok in H2. destruct H2 as (c' & Hc & H2). injection H2 as <-.
    assert (Ec : c' = at_xy 0 (y + row_height spacing l) c).
    { unfold newline_for_spans in Hc. cbv zeta in Hc. rewrite at_text, (at_reset _ _ _ Std) in Hc.
      apply (went_y _ _ _ _ _ Std) in Hc. fold spacing in Hc. rewrite row_tallest in Hc. exact Hc. }
    subst c'. destruct (IH 0 _ _ _ F ltac:(destruct lines; exact G) H) as (done' & -> & Ef).
    exists done'. cbn [last_start rows_bottom fold_left]. fold (rows_bottom spacing (y + row_height spacing l) lines). split.
    + destruct lines; reflexivity.
    + rewrite Ef, filter_app. cbn [filter nonempty]. destruct (row tabs x y l) as [|a b]; cbn [nonempty app]; rewrite <- ?app_assoc; reflexivity.
Qed.
End Rows.
Lemma render_lines_exact lines : forall s s', fold_res render_line lines s = Ok s' ->
  lines_of (rs_calls s') = lines_of (rs_calls s) ++
    map (fun l => (l, shift_for (match l with f :: _ => s_justify f | [] => JLeft end) (get_width (rs_ctx s)) (row_dots l))) (filter nonempty lines) /\
  rs_ctx s' = rs_ctx s.
Proof.
  induction lines as [|l r IH]; intros s s' H; cbn [fold_res] in H.
  - injection H as <-. cbn [filter map]. rewrite app_nil_r. auto.
  - apply bind_ok in H. destruct H as (s1 & H1 & H). destruct (IH _ _ H) as (E & X). unfold render_line in H1. destruct l as [|f l].
    + injection H1 as <-. auto.
    + cbv zeta in H1. apply bind_ok in H1. destruct H1 as (w & Hw & H1). apply bind_ok in H1. destruct H1 as (off & Ho & H1). injection H1 as <-.
      apply line_width_v in Hw. apply shift_v in Ho. destruct Ho as (-> & _). cbn [call rs_calls rs_ctx] in *.
      rewrite E, lines_app, <- app_assoc. cbn [filter nonempty map]. rewrite Z.add_0_l in Hw. subst w. auto.
Qed.
Lemma flush_rows s s' lines last : standard (rs_ctx s) -> sinv (rs_ctx s) -> process_text s = Ok s' ->
  lines_of_text lines last (flat_map break_into_words (rs_spans s)) ->
  rows_fit 609 (t_tabs (c_text (rs_ctx s))) (get_x (rs_ctx s)) lines ->
  row_fits 609 (t_tabs (c_text (rs_ctx s))) (last_start (get_x (rs_ctx s)) lines) last ->
  lines_of (rs_calls s') = lines_of (rs_calls s) ++
    map (placed_line 609) (printed_rows (t_line_spacing (c_text (rs_ctx s))) (t_tabs (c_text (rs_ctx s))) (get_x (rs_ctx s)) (get_y (rs_ctx s)) lines last) /\
  rs_ctx s' = at_xy (row_end (t_tabs (c_text (rs_ctx s))) (last_start (get_x (rs_ctx s)) lines) last)
                    (rows_bottom (t_line_spacing (c_text (rs_ctx s))) (get_y (rs_ctx s)) lines) (rs_ctx s).
Proof.
  intros Std S H T F G. unfold process_text in H. destruct (rs_spans s) as [|sp r] eqn:Es.
  { injection H as <-. cbn [flat_map] in T. inversion T as [l0 E0|l e0 more ls l0 E0 T0 E1]; [|destruct l; discriminate]. subst lines last.
    unfold printed_rows. cbn [last_start row_end rows rows_bottom fold_left row app filter nonempty map]. rewrite app_nil_r. split; [reflexivity | exact (at_self _ Std)]. }
  rewrite <- Es in *. clear Es sp r. apply bind_ok in H. destruct H as ((c & all) & Hl & H). unfold layout_words in Hl.
  apply bind_ok in Hl. destruct Hl as ([[c1 l1] cur] & Ha & Hl). assert (Hl1 : c = c1 /\ all = match cur with [] => l1 | _ => l1 ++ [cur] end) by (split; congruence).
  destruct Hl1 as (-> & ->). clear Hl. rewrite (std_width _ Std S), (at_self _ Std) in Ha.
  destruct (set_rows (rs_ctx s) Std S _ _ _ T _ _ _ _ F G Ha) as (done' & E & Ef). injection E as -> -> ->. cbn [filter app] in Ef.
  destruct (render_lines_exact _ _ _ H) as (E & X). cbn [with_ctx with_spans rs_calls rs_ctx] in E, X. rewrite at_width, (std_width _ Std S) in E.
  split; [|exact X]. rewrite E. f_equal. unfold printed_rows. rewrite filter_app, <- Ef. unfold placed_line. f_equal.
  set (lr := row _ _ _ last). destruct lr; cbn [filter nonempty]; [symmetry; apply app_nil_r | rewrite filter_app; reflexivity].
Qed.

(** *** C54: lines.  A text in standard mode that is made of lines short enough to need no wrapping is
    printed line by line: on each line the words one after the other, a tab leading to the next tab
    stop; each line below the one before by the line spacing, or by the height of the highest
    characters on that one if that is more; each shifted by its justification. *)
Theorem C54_lines : forall e c s s' lines last, history e s -> sent c -> c_commands c <> [29; 107] ->
  process_command e c s = Ok s' -> rs_spans s' = [] -> p_enabled (c_page (rs_ctx s)) = false ->
  let spacing := t_line_spacing (c_text (rs_ctx s)) in let tabs := t_tabs (c_text (rs_ctx s)) in
  lines_of_text lines last (flat_map break_into_words (rs_spans s)) ->
  rows_fit 609 tabs (get_x (rs_ctx s)) lines -> row_fits 609 tabs (last_start (get_x (rs_ctx s)) lines) last ->
  lines_of (rs_calls s') = lines_of (rs_calls s) ++
    map (placed_line 609) (printed_rows spacing tabs (get_x (rs_ctx s)) (get_y (rs_ctx s)) lines last).
Proof.
  intros e c s s' lines last Hh Sc NB H Emp Std spacing tabs T F G.
  destruct (history_lay_ok _ _ Hh) as (_ & S & _).
  destruct (step_text _ _ lines_h _ _ _ _ Hh Sc NB H) as (s1 & [(-> & t & X) | P] & E); fold (lines_of (rs_calls s')) in E.
  - rewrite Emp in X. symmetry in X. apply app_eq_nil in X. destruct X as (X & _). rewrite E. fold (lines_of (rs_calls s)).
    rewrite X in T. cbn [flat_map] in T. inversion T as [l0 E0|l e0 more ls l0 E0 T0 E1]; [|destruct l; discriminate]. subst lines last. cbn. rewrite app_nil_r. reflexivity.
  - rewrite E. exact (proj1 (flush_rows _ _ _ _ Std S P T F G)).
Qed.

(** ** Feeding *)
Definition dots_of (spacing : Z) (d : device_command) : option Z :=
  match d with
  | FullCut | PartialCut => Some (2 * spacing)
  | Feed n => if n <? 0 then None else Some n
  | FeedLine n => if n <? 0 then None else Some (n * spacing)
  | _ => None
  end.
Lemma device_dots d s s' n : standard (rs_ctx s) -> process_device_command d s = Ok s' ->
  dots_of (t_line_spacing (c_text (rs_ctx s))) d = Some n -> rs_ctx s' = at_xy 0 (get_y (rs_ctx s) + n) (rs_ctx s).
Proof.
  intros Std H D. unfold process_device_command in H. cbv zeta in H.
  assert (L : forall k y', on_ctx (newline k) (call (EDevice d) s) = Ok y' -> rs_ctx y' = at_xy 0 (get_y (rs_ctx s) + t_line_spacing (c_text (rs_ctx s)) * k) (rs_ctx s)).
  { intros k y' E. apply on_ctx_inv in E. destruct E as (x & Hx & ->). cbn [call rs_ctx with_ctx] in *. rewrite (at_self _ Std) in Hx at 1. exact (went_lines _ _ _ _ _ Std Hx). }
  assert (Some_eq : forall a b : Z, Some a = Some b -> b = a) by congruence.
  destruct d; try discriminate; cbn [dots_of] in D.
  - apply Some_eq in D. subst n. rewrite (L _ _ H). f_equal. lia.
  - apply Some_eq in D. subst n. rewrite (L _ _ H). f_equal. lia.
  - apply on_ctx_inv in H. destruct H as (x & Hx & ->). cbn [call rs_ctx with_ctx] in *. destruct (Z.ltb_spec n0 0) as [|P]; [discriminate|]. injection D as ->.
    unfold Context.feed, i16_as_u32 in Hx. replace (n <? 0) with false in Hx by lia. apply bind_ok in Hx. destruct Hx as (y & Hy & Hx).
    rewrite (at_self _ Std) in Hy at 1. apply (went_y _ _ _ _ _ Std) in Hy. subst y. injection Hx as <-. exact (at_reset _ _ _ Std).
  - destruct (Z.ltb_spec n0 0) as [|P]; [discriminate|]. apply Some_eq in D. subst n. rewrite (L _ _ H). unfold i16_as_u32. replace (n0 <? 0) with false by lia. f_equal. lia.
Qed.
Lemma devices_dots l : forall s s' n, standard (rs_ctx s) -> process_device_commands l s = Ok s' ->
  fold_right (fun d a => match dots_of (t_line_spacing (c_text (rs_ctx s))) d, a with Some m, Some k => Some (m + k) | _, _ => None end) (Some 0) l = Some n -> l <> [] ->
  rs_ctx s' = at_xy 0 (get_y (rs_ctx s) + n) (rs_ctx s).
Proof.
  unfold process_device_commands. induction l as [|d l IH]; intros s s' n Std H D N; [congruence|]. cbn [fold_res fold_right] in *.
  apply bind_ok in H. destruct H as (s1 & H1 & H). destruct (dots_of _ d) as [m|] eqn:Dm; [|discriminate].
  destruct (fold_right _ _ l) as [k|] eqn:Dk; [|discriminate]. injection D as <-.
  pose proof (device_dots _ _ _ _ Std H1 Dm) as E1. destruct l as [|d' l].
  - cbn in Dk. injection Dk as <-. cbn [fold_res] in H. injection H as <-. rewrite E1. f_equal. lia.
  - rewrite (IH s1 s' k); [| | exact H | | discriminate].
    + rewrite E1, (at_y _ _ _ Std), at_at. f_equal. lia.
    + rewrite E1. apply at_std, Std.
    + rewrite E1, at_text. exact Dk.
Qed.
Lemma feed_devices c n spacing : sent c -> fed spacing c = Some n -> c_kind c = KControl /\
  exists l, (forall x, get_device_command c x = Ok l) /\ l <> [] /\
  fold_right (fun d a => match dots_of spacing d, a with Some m, Some k => Some (m + k) | _, _ => None end) (Some 0) l = Some n.
Proof.
  intros Sc F. pose proof (sent_arg c 0 0 Sc ltac:(lia)) as A0. pose proof (sent_arg c 1 0 Sc ltac:(lia)) as A1.
  unfold fed in F.
  assert (Cases : (c_commands c = [27; 74] /\ exists m, c_data c = [m] /\ n = m) \/ (c_commands c = [27; 100] /\ exists m, c_data c = [m] /\ n = m * spacing) \/
    (c_commands c = [29; 86] /\ ((exists m, c_data c = [m] /\ In m [0; 1; 48; 49] /\ n = 2 * spacing) \/ 
       (exists m k, c_data c = [m; k] /\ In m [65; 97; 103; 66; 98; 104] /\ n = 2 * spacing + k)))).
  { assert (Ex : forall m l, existsb (Z.eqb m) l = true -> In m l).
    { intros m l E. apply existsb_exists in E. destruct E as (y & Hy & E). replace m with y by lia. exact Hy. }
    destruct (list_eq_dec Z.eq_dec (c_commands c) [27; 74]) as [E|E1].
    { left. rewrite E in F. destruct (c_data c) as [|m [|]]; try discriminate. split; [exact E|]. exists m. split; [reflexivity | congruence]. }
    destruct (list_eq_dec Z.eq_dec (c_commands c) [27; 100]) as [E|E2].
    { right; left. rewrite E in F. destruct (c_data c) as [|m [|]]; try discriminate. split; [exact E|]. exists m. split; [reflexivity | congruence]. }
    destruct (list_eq_dec Z.eq_dec (c_commands c) [29; 86]) as [E|E3].
    { right; right. rewrite E in F. split; [exact E|]. destruct (c_data c) as [|m [|k [|]]]; try discriminate.
      - destruct (existsb _ _) eqn:X; [|discriminate]. left. exists m. split; [reflexivity|]. split; [exact (Ex _ _ X) | congruence].
      - destruct (existsb _ _) eqn:X; [|discriminate]. right. exists m, k. split; [reflexivity|]. split; [exact (Ex _ _ X) | congruence]. }
    exfalso. revert F E1 E2 E3. clear. intros F E1 E2 E3.
    repeat match type of F with
    | match ?z with _ => _ end = Some _ => is_var z; destruct z; try discriminate
    | match ?z with _ => _ end = Some _ => destruct z as [|? ?]; try discriminate
    | match ?z with _ => _ end = Some _ => destruct z; try discriminate
    end; congruence. }
  destruct Cases as [(C & m & D & ->)|[(C & m & D & ->)|(C & Cut)]].
  - known c Sc C cmd_print_and_feed P_print_and_feed. split; [exact K|]. exists [Feed m]. split; [|split; [discriminate|]].
    + intros x. unfold get_device_command. rewrite Hd. cbn [device_plain]. unfold arg. rewrite D. reflexivity.
    + rewrite D in A0. cbn in A0. cbn [fold_right dots_of]. replace (m <? 0) with false by lia. f_equal. lia.
  - known c Sc C cmd_print_and_feed_lines P_print_and_feed_lines. split; [exact K|]. exists [FeedLine m]. split; [|split; [discriminate|]].
    + intros x. unfold get_device_command. rewrite Hd. cbn [device_plain]. unfold arg. rewrite D. reflexivity.
    + rewrite D in A0. cbn in A0. cbn [fold_right dots_of]. replace (m <? 0) with false by lia. f_equal. lia.
  - pose proof (sent_entry c _ cmd_feed_and_cut Sc C ltac:(cbn; lia) eq_refl) as I. 
    pose proof (in_kind _ _ I) as K. pose proof (in_handler _ _ I) as Hd. cbn [cmd_feed_and_cut c_kind c_handler mk_cmd] in K, Hd.
    assert (Hc : c_handler c = HFeedCut) by (destruct (c_handler c); try contradiction; reflexivity). clear Hd I.
    split; [exact K|]. exists (feed_cut_device c). split; [intros x; unfold get_device_command; rewrite Hc; reflexivity|].
    unfold feed_cut_device, arg. destruct Cut as [(m & D & Im & ->)|(m & k & D & Im & ->)]; rewrite D in *; cbn [get_or nth] in *.
    + cbn [In] in Im. repeat destruct Im as [<-|Im]; try contradiction; cbn [get_or nth]; (split; [discriminate|]); cbn [fold_right dots_of]; f_equal; lia.
    + cbn in A1. cbn [In] in Im. repeat destruct Im as [<-|Im]; try contradiction; cbn [get_or nth nth_error]; (split; [discriminate|]); cbn [fold_right dots_of]; replace (k <? 0) with false by lia; f_equal; lia.
Qed.
(** *** C54: feeding.  ESC J, ESC d and the cuts print the waiting text; then the paper moves by the dots, or
    the lines, they ask for - a cut by two lines - and the pen returns to the left edge. *)
Theorem C54_feed : forall e c s s' lines last n, history e s -> sent c ->
  process_command e c s = Ok s' -> p_enabled (c_page (rs_ctx s)) = false ->
  let spacing := t_line_spacing (c_text (rs_ctx s)) in let tabs := t_tabs (c_text (rs_ctx s)) in
  fed spacing c = Some n -> lines_of_text lines last (flat_map break_into_words (rs_spans s)) ->
  rows_fit 609 tabs (get_x (rs_ctx s)) lines -> row_fits 609 tabs (last_start (get_x (rs_ctx s)) lines) last ->
  rs_spans s' = [] /\ get_x (rs_ctx s') = 0 /\ get_y (rs_ctx s') = rows_bottom spacing (get_y (rs_ctx s)) lines + n /\
  c_text (rs_ctx s') = c_text (rs_ctx s).
Proof.
  intros e c s s' lines last n Hh Sc H Std spacing tabs D T F G. destruct (history_lay_ok _ _ Hh) as (_ & S & _).
  destruct (feed_devices _ _ _ Sc D) as (K & l & Hl & N & Dl). unfold process_command in H. rewrite K, Hl in H. cbn [bind] in H.
  apply bind_ok in H. destruct H as (s1 & H1 & H). destruct (flush_rows _ _ _ _ Std S H1 T F G) as (_ & X).
  fold spacing tabs in X.
  assert (Std1 : standard (rs_ctx s1)) by (rewrite X; apply at_std, Std).
  assert (Sp : t_line_spacing (c_text (rs_ctx s1)) = spacing) by (rewrite X, at_text; reflexivity).
  rewrite (devices_dots l s1 s' n Std1 H) by (try exact N; rewrite Sp; exact Dl).
  rewrite (at_x _ _ _ Std1), (at_y _ _ _ Std1), at_text. split.
  - rewrite (proj2 (devices_ink _ _ _ H)). exact (proj2 (process_text_quiet _ _ H1)).
  - rewrite X. rewrite (at_y _ _ _ Std), at_text. auto.
Qed.
