(** * PropsPlain: C65, a receipt of plain text from the bytes to the dots. *)
From Verif Require Import Base Command CommandSet Parser Vec Float32 GTypes Graphics Utf8 Decoder Context Text Upce Handlers Renderer
  SpecStream StreamProofs ContextTheory RendererTheory Origin SpecPrinter StateTheory PropsText SpecRender
  PropsOutput LayoutTheory AreaTheory PlaceTheory PropsContext PropsLayout PropsPlace SafeTheory PenTheory CallsTheory SpecLines PropsLines
  ManualTheory PropsQr PropsDecoder ThermalImage SpecCanvas ImageRenderer SpecImage ImageTheory PropsImage SpecDraw DrawTheory SpecSafe PropsSafe PropsDraw
  PropsCells SpecScene GlyphTheory PixelTheory SceneTheory PropsScene SpecPlain PlainTheory PlainRun PlainJob.
Local Open Scope Z_scope.
Local Open Scope list_scope.
Local Arguments at_ : simpl never.
Local Arguments vlen : simpl never.

(** ** The dots *)
Lemma scene_text fo new : Forall is_text_call new -> Forall framed_call new -> Forall (fun c => p_enabled (c_page (fst c)) = false) new -> forall p,
  scene fo 609 new p = sheet_lines fo (lines_of new) p.
Proof.
  induction new as [|c new IH]; intros T F P p; [reflexivity|]. apply Forall_cons_iff in T. apply Forall_cons_iff in F. apply Forall_cons_iff in P.
  destruct T as (T & Ts), F as (F & Fs), P as (P & Ps). unfold scene. cbn [fold_left]. fold (scene fo 609 new (sketch fo 609 c p)). rewrite (IH Ts Fs Ps).
  unfold sketch. rewrite P. destruct c as [x ev]. unfold is_text_call, framed_call in *. cbn [fst snd] in *. destruct ev; try contradiction.
  destruct spans as [|f l]; [contradiction|]. destruct F as (_ & -> & _). reflexivity.
Qed.
Lemma strokes_text fo new : Forall is_text_call new -> Forall framed_call new -> Forall (fun c => p_enabled (c_page (fst c)) = false) new ->
  flat_map (strokes fo) new = flat_map (fun l => flat_map (span_strokes fo (snd l) (Renderer.line_height (fst l))) (fst l)) (lines_of new).
Proof.
  induction new as [|c new IH]; intros T F P; [reflexivity|]. apply Forall_cons_iff in T. apply Forall_cons_iff in F. apply Forall_cons_iff in P.
  destruct T as (T & Ts), F as (F & Fs), P as (P & Ps). cbn [flat_map]. rewrite (IH Ts Fs Ps).
  destruct c as [x ev]. unfold is_text_call, framed_call in *. cbn [fst snd] in *. unfold strokes. rewrite P. destruct ev; try contradiction.
  destruct spans as [|f l]; [contradiction|]. destruct F as (_ & -> & _). reflexivity.
Qed.

(** ** How far down they go *)
Section Down.
Variable fo : fonts.
Variable n : Z.
Lemma styled_wf t : span_wf (styled (sp n) t).
Proof.
  assert (E : styled (sp n) t = span_new t (mode_ctx n)) by reflexivity. rewrite E. clear E.
  constructor; [| | |exact Logic.I]; unfold mode_ctx, flag; destruct (Z.testbit n 0), (Z.testbit n 3), (Z.testbit n 4), (Z.testbit n 5), (Z.testbit n 6);
    vm_compute; try (exists 1; split; [split|]; congruence); try (exists 2; split; [split|]; congruence); intuition congruence.
Qed.
Lemma cells_low s chars : span_wf (set_s_dimensions None s) -> forall x top, Forall (fun k => bottom 609 k <= top + s_character_height s \/ bottom 609 k <= 0) (cells fo s x top chars).
Proof.
  intros W. induction chars as [|c r IH]; intros x top; cbn [cells]; [constructor|]. apply Forall_app. split; [|apply IH].
  destruct (render_char fo s c) as [[[[px w] h]|]|] eqn:E; try constructor; [|constructor].
  destruct (render_char_size fo (set_s_dimensions None s) c px w h W E) as (_ & -> & _). unfold bottom. cbn [s_character_height set_s_dimensions]. destruct (x <? 609); lia.
Qed.
Lemma word_low_at q x y t off : span_wf (styled q t) -> s_strikethrough q = 0 -> s_upside_down q = false -> 0 <= rule_at q < s_character_height q ->
  Forall (fun k => bottom 609 k <= y + s_character_height q \/ bottom 609 k <= 0) (span_strokes fo off (s_character_height q) (put_at x y (styled q t))).
Proof.
  intros W ES EU RW. unfold span_strokes.
  assert (LO : lowered (s_character_height q) (put_at x y (styled q t)) = Ok 0).
  { unfold lowered. cbn [put_at styled clone_with set_s_text set_s_dimensions s_character_height s_font]. unfold sub_u32. rewrite Z.sub_diag. reflexivity. }
  rewrite LO. pose proof (depth_exact (s_font q) _ (size_in (styled q t) W)) as ED. cbn [styled clone_with set_s_text set_s_dimensions s_character_height s_font] in ED.
  pose proof (cells_low (put_at x y (styled q t)) t W (x + off) y) as C.
  unfold put_at, styled, clone_with in *. cbn [s_dimensions set_s_dimensions set_s_text s_character_height s_text s_font s_underline s_strikethrough s_text_color s_upside_down d_x d_y d_w d_h] in *.
  rewrite ES, EU, ED. change (0 <? 0) with false. cbv iota. rewrite !app_nil_r, Z.add_0_r. apply Forall_app. split; [exact C|].
  destruct (0 <? _); [|constructor]. constructor; [|constructor].
  unfold line_of, bottom. unfold rule_at in RW. destruct (x + off <? 609); lia.
Qed.
Lemma word_low x y t off : Forall (fun k => bottom 609 k <= y + cell_height n \/ bottom 609 k <= 0) (span_strokes fo off (cell_height n) (put_at x y (styled (sp n) t))).
Proof.
  pose proof (word_low_at (sp n) x y t off (styled_wf t) (sp_strike n) (sp_upright n)) as H. rewrite rule_same, sp_ch in H. exact (H (rule_within n)).
Qed.
Lemma row_word tabs ts : forall x y w, In w (row tabs x y (map (styled (sp n)) ts)) -> exists x' t, w = put_at x' y (styled (sp n) t).
Proof.
  induction ts as [|t ts IH]; intros x y w H; cbn [map row] in H; [contradiction|]. destruct (is_tab (styled (sp n) t)); [exact (IH _ _ _ H)|].
  destruct H as [<-|H]; [eauto | exact (IH _ _ _ H)].
Qed.
Lemma rows_low tabs lines : Forall (Forall printable) lines -> forall y k,
  In k (flat_map (fun l => flat_map (span_strokes fo (snd l) (Renderer.line_height (fst l))) (fst l)) (map (placed_line 609) (filter nonempty (rows 24 tabs 0 y (wordy (sp n) words lines))))) ->
  0 <= y -> bottom 609 k <= y + text_height n lines.
Proof.
  induction lines as [|l r IH]; intros F y k; [intros []|]. apply Forall_cons_iff in F. destruct F as (F & Fs). cbn [wordy map rows filter]. fold (wordy (sp n) words r).
  set (R := rows 24 tabs 0 _ (wordy (sp n) words r)).
  assert (PW := proj1 (plain_words (sp n) l F)).
  assert (RH : row_height 24 (map (styled (sp n)) (words l)) = line_pitch n l).
  { rewrite (row_height_styled (sp n)); [|lia | exact PW]. rewrite sp_ch. unfold line_pitch. destruct l as [|a l]; [reflexivity|].
    pose proof (words_some (a :: l) ltac:(discriminate)). destruct (words (a :: l)); [contradiction | reflexivity]. }
  assert (LP : 0 < line_pitch n l) by (unfold line_pitch; destruct l; lia).
  assert (TH : 0 <= text_height n r). { clear. induction r as [|a r IH]; cbn [text_height fold_right]; [lia|]. fold (text_height n r). unfold line_pitch. destruct a; lia. }
  cbn [text_height fold_right]. fold (text_height n r).
  assert (Q : forall k, In k (flat_map (fun l => flat_map (span_strokes fo (snd l) (Renderer.line_height (fst l))) (fst l)) (map (placed_line 609) (filter nonempty R))) -> 0 <= y -> bottom 609 k <= y + (line_pitch n l + text_height n r)).
  { intros k' H Y. unfold R in H. rewrite RH in H. pose proof (IH Fs _ _ H ltac:(lia)). lia. }
  rewrite row_none by exact PW. destruct (words l) as [|t ts] eqn:W; [exact (Q k)|]. change (nonempty (map (styled (sp n)) (t :: ts))) with true. cbv iota.
  set (Rw := row tabs 0 y (map (styled (sp n)) (t :: ts))). cbn [map flat_map]. intros H Y. apply in_app_or in H. destruct H as [H|H]; [|exact (Q k H Y)].
  unfold Rw in H. rewrite row_shift in H; [|exact (sp_left n) | exact PW]. cbn [fst snd] in H. rewrite row_line_height in H; [|rewrite sp_ch; apply cell_high | exact PW]. rewrite sp_ch in H.
  apply in_flat_map in H. destruct H as (w & Hw & H). apply row_word in Hw. destruct Hw as (x' & t' & ->).
  pose proof (proj1 (Forall_forall _ _) (word_low x' y t' 0) _ H) as B. cbv beta in B.
  assert (LH : cell_height n <= line_pitch n l). { unfold line_pitch. destruct l; [discriminate W | lia]. }
  pose proof (cell_high n). lia.
Qed.
Lemma bottoms_low l : forall h b, h <= b -> (forall k, In k l -> bottom 609 k <= b) -> bottoms 609 l h <= b.
Proof.
  unfold bottoms. induction l as [|k l IH]; intros h b H F; cbn [fold_left]; [exact H|]. apply IH; [|intros; apply F; right; assumption]. pose proof (F k (or_introl eq_refl)). lia.
Qed.
End Down.

Lemma no_ends_count (l : list (context * event)) : Forall (fun c => snd c <> EEndRender /\ snd c <> ERenderPage) l -> ev_ends l = 0%nat.
Proof.
  induction 1 as [|[x ev] l (N & _) F IH]; [reflexivity|]. unfold ev_ends in *. cbn [filter]. destruct ev; cbn [ends_output snd] in *; try exact IH. contradiction.
Qed.
(** ** Colours *)
Lemma nearest_exact k : nearest_255 (255 * k) = k.
Proof. unfold nearest_255. symmetry. apply (Z.div_unique _ _ _ 255); lia. Qed.
Lemma coverage_byte fo b i f sc ch g x y : fonts_fine fo -> fo b i f sc ch = Some g -> 0 <= coverage g x y <= 255.
Proof.
  intros FF E. specialize (FF b i f sc ch). rewrite E in FF. destruct FF as (_ & _ & _ & A). unfold coverage. destruct (_ && _); [|lia].
  unfold at_. match goal with |- 0 <= nth ?k ?l 0 <= 255 => destruct (nth_in_or_default k l 0) as [I|D] end; [exact (proj1 (Forall_forall _ _) A _ I) | lia].
Qed.
Lemma shrunk_exact scale m s : scale <= 2 -> shrunk scale m s = s * scale / m.
Proof. intros L. unfold shrunk, slips. replace (scale =? 7) with false by lia. cbn [andb]. lia. Qed.
Lemma ink_black fo n c i j : fonts_fine fo -> rgb_of (ink_of fo (sp n) white c i j) = (let v := 255 - blackness fo n c i j in (v, v, v)).
Proof.
  intros FF. unfold ink_of, blackness. rewrite sp_under, rule_same, sp_bold, sp_italic, sp_font, sp_fore. unfold drawn_at. rewrite sp_across, sp_down.
  assert (W : Z.max (wide n) (tall n) <= 2) by (unfold wide, tall; destruct (Z.testbit n 5), (Z.testbit n 4); lia).
  set (p := match fo _ _ _ _ _ with Some g => _ | None => _ end).
  assert (P : exists v, p = mk_rgba v v v 255 /\ v = 255 - match fo (bold_face n) false (typeface n) (Z.max (wide n) (tall n)) c with
       | Some g => coverage g (i * Z.max (wide n) (tall n) / wide n) (j * Z.max (wide n) (tall n) / tall n) | None => 0 end).
  { unfold p. destruct (fo _ _ _ _ c) as [g|] eqn:E; [|exists 255; split; [reflexivity | lia]].
    unfold dot, drawn_at. rewrite sp_across, sp_down, sp_fore, sp_back. rewrite !shrunk_exact by exact W.
    pose proof (coverage_byte fo _ _ _ _ _ _ (i * Z.max (wide n) (tall n) / wide n) (j * Z.max (wide n) (tall n) / tall n) FF E) as CB.
    set (v := coverage g _ _) in *. clearbody v. exists (255 - v). split; [|reflexivity]. unfold fade, press, white. cbn [c_r c_g c_b c_a]. change (255 =? 0) with false. cbv iota. unfold fade1.
    replace (0 * v + 255 * (255 - v)) with (255 * (255 - v)) by lia. rewrite !nearest_exact. reflexivity. }
  destruct P as (v & -> & Ev). destruct (underlined n && (j =? rule_row n)).
  - unfold press. cbn [c_r c_g c_b c_a]. change (255 =? 0) with false. cbv iota. rewrite Z.mul_0_r. reflexivity.
  - cbv zeta. rewrite <- Ev. reflexivity.
Qed.
Lemma cell_same n lines : forall x y, cell_of n lines x y = cell_in (cell_width n) (cell_height n) (line_pitch n) lines x y.
Proof. induction lines as [|l r IH]; intros x y; cbn [cell_of cell_in]; [reflexivity|]. rewrite IH. reflexivity. Qed.
Lemma cell_beside n lines : fits_paper n lines -> forall x y, x < 0 \/ 609 <= x -> cell_of n lines x y = None.
Proof.
  induction 1 as [|l r (_ & L) F IH]; intros x y H; cbn [cell_of]; [reflexivity|]. destruct (Z.ltb_spec x 0) as [X|X]; [reflexivity|]. cbn [orb].
  destruct (y <? 0); [reflexivity|]. destruct (y <? line_pitch n l); [|apply IH; lia]. destruct (y <? cell_height n); [|reflexivity].
  pose proof (cell_wide n) as CW. replace (nth_error l (Z.to_nat (x / cell_width n))) with (@None Z); [reflexivity|]. symmetry. apply nth_error_None.
  assert (Z.of_nat (length l) <= x / cell_width n) by (apply Z.div_le_lower_bound; lia). lia.
Qed.

(** ** The sheet *)
Lemma sheet_of fo e n lines bs s im : fonts_fine fo -> bytes_ok bs = true -> render e bs renderer_new = Ok s -> render_images fo e bs = Ok im -> fits_paper n lines ->
  (exists x0 x1 x new, rs_calls s = [(x0, EDevice BeginPrint); (x1, EBeginRender)] ++ new ++ [(x, EDevice EndPrint); (x, EGetErrors); (x, EEndRender)] /\
    Forall is_text_call new /\ Forall framed_call new /\ Forall (fun c => p_enabled (c_page (fst c)) = false) new /\
    lines_of new = map (placed_line 609) (filter nonempty (rows 24 (t_tabs (c_text (mode_ctx n))) 0 108 (wordy (sp n) words lines))) /\
    a_y (g_render_area (c_graphics x)) = 108 + text_height n lines) ->
  exists r, im_out im = [r] /\ r_width r = 649 /\ r_height r = 108 + text_height n lines /\
    forall X Y, 0 <= X < 649 -> 0 <= Y < r_height r -> rgb_at r X Y = let v := 255 - text_dot fo n lines (X - 20) (Y - 108) in (v, v, v).
Proof.
  intros FF B R E FP (x0 & x1 & x & new & Ec & T & F & P & L & AY). pose proof (fits_printable _ _ FP) as PR.
  set (calls := [(x0, EDevice BeginPrint); (x1, EBeginRender)] ++ new ++ [(x, EDevice EndPrint); (x, EGetErrors)]).
  assert (Ec' : rs_calls s = calls ++ (x, EEndRender) :: []) by (rewrite Ec; unfold calls; rewrite <- !app_assoc; reflexivity).
  assert (O : Forall (fun c => snd c <> EEndRender /\ snd c <> ERenderPage) calls).
  { unfold calls. constructor; [split; discriminate|]. constructor; [split; discriminate|]. apply Forall_app. split.
    - eapply Forall_impl; [|exact T]. intros [y ev]. unfold is_text_call. cbn [snd]. destruct ev; try contradiction. split; discriminate.
    - constructor; [split; discriminate|]. constructor; [split; discriminate | constructor]. }
  destruct (C40_first_image fo e bs s im calls x [] B R E Ec' O) as (r & la & A1 & A2 & A3 & _).
  destruct (C60_first_image fo e bs s im calls x [] FF B R E Ec' O) as (r' & la' & B1 & _ & _ & B4).
  assert (Er : r' = r) by congruence. subst r'.
  exists r. split.
  { assert (One : length (im_out im) = 1%nat).
    { unfold render in R. apply bind_ok in R. destruct R as (cmds & Pc & R). destruct (C39_images fo e bs cmds im B Pc E) as (Len & _). rewrite Len. f_equal.
      destruct (C31_outputs e bs cmds renderer_new s B Pc R) as (l & N & C & _). pose proof (new_calls_all _ _ N) as M. rewrite <- M, <- ends_count, Ec' in C. rewrite ev_ends_app, (no_ends_count calls O) in C. change (ev_ends [(x, EEndRender)]) with 1%nat in C. change (p_enabled (c_page (rs_ctx renderer_new))) with false in C. lia. }
    rewrite A1 in *. destruct la; [reflexivity | discriminate]. }
  split; [exact A2|]. assert (SC : flat_map (strokes fo) calls = flat_map (strokes fo) new).
  { unfold calls. rewrite !flat_map_app. cbn [flat_map]. unfold strokes. destruct (p_enabled (c_page x0)), (p_enabled (c_page x1)), (p_enabled (c_page x)); rewrite ?app_nil_r; reflexivity. }
  assert (HT : 0 <= text_height n lines). { clear. induction lines as [|a r IH]; cbn [text_height fold_right]; [lia|]. fold (text_height n r). unfold line_pitch. destruct a; lia. }
  split.
  { rewrite A3, AY. assert (Bt : bottoms 609 (flat_map (strokes fo) calls) 0 <= 108 + text_height n lines).
    { rewrite SC, (strokes_text fo new T F P), L. apply bottoms_low; [lia|]. intros k Hk. exact (rows_low fo n _ lines PR 108 k Hk ltac:(lia)). }
    lia. }
  intros X Y HX HY. rewrite (B4 X Y HX HY). unfold text_dot. destruct ((20 <=? X) && (X <? 629)) eqn:IN.
  - assert (SS : scene fo 609 calls blank_sheet (X - 20) Y = scene fo 609 new blank_sheet (X - 20) Y).
    { unfold calls, scene. rewrite !fold_left_app. cbn [fold_left]. unfold sketch. cbn [fst snd]. destruct (p_enabled (c_page x0)), (p_enabled (c_page x1)), (p_enabled (c_page x)); reflexivity. }
    rewrite SS, (scene_text fo new T F P), L. pose proof (cell_wide n) as CW. pose proof (cell_high n) as CH.
    rewrite (rows_stamps fo (sp n)) with (q := blank_sheet); try (rewrite ?sp_cw, ?sp_ch; assumption);
      [|exact (sp_strike n) | exact (sp_upright n) | exact (sp_left n) | intros _; rewrite rule_same, sp_ch; apply rule_within | exact words_text | exact words_some | reflexivity | lia
       | eapply Forall_impl; [|exact PR]; intros l Hl; exact (proj1 (plain_words (sp n) l Hl)) | reflexivity].
    rewrite stamps_cell; [|rewrite sp_cw; exact CW | intros l; unfold pitch_of; destruct l; rewrite ?sp_ch; lia | intros l Nl; unfold pitch_of; destruct l; [contradiction | lia]].
    rewrite sp_cw, sp_ch. rewrite (cell_same n lines).
    assert (PE : forall l, pitch_of (sp n) 24 l = line_pitch n l) by (intros l; unfold pitch_of, line_pitch; rewrite sp_ch; reflexivity).
    assert (CE : forall ls x y, cell_in (cell_width n) (cell_height n) (pitch_of (sp n) 24) ls x y = cell_in (cell_width n) (cell_height n) (line_pitch n) ls x y).
    { induction ls as [|l ls IH]; intros a b; cbn [cell_in]; [reflexivity|]. rewrite IH, PE. reflexivity. }
    rewrite CE. destruct (cell_in _ _ _ lines (X - 20) (Y - 108)) as [[[c i] j]|]; [apply ink_black, FF | reflexivity].
  - rewrite (cell_beside n lines FP); [reflexivity|]. lia.
Qed.

(** ** The job *)
Definition o_mode (n : Z) : ocmd := simple "Set Print Mode" KTextStyle [27; 33] [n].
Lemma plain_calls e n lines bs heads cmds s : bytes_ok bs = true -> parse_esc_pos bs = Ok cmds -> map observe cmds = [o_begin] ++ heads ++ flat_map line_seen lines ++ [o_end] ->
  (n = 0 /\ (heads = [] \/ heads = [o_unknown []])) \/ heads = [o_mode n] -> fits_paper n lines -> render e bs renderer_new = Ok s ->
  exists x0 x1 x new, rs_calls s = [(x0, EDevice BeginPrint); (x1, EBeginRender)] ++ new ++ [(x, EDevice EndPrint); (x, EGetErrors); (x, EEndRender)] /\
    Forall is_text_call new /\ Forall framed_call new /\ Forall (fun c => p_enabled (c_page (fst c)) = false) new /\
    lines_of new = map (placed_line 609) (filter nonempty (rows 24 (t_tabs (c_text (mode_ctx n))) 0 108 (wordy (sp n) words lines))) /\
    a_y (g_render_area (c_graphics x)) = 108 + text_height n lines.
Proof.
  intros B Pc O Hd FP R. unfold render in R. rewrite Pc in R. cbn [bind] in R. pose proof (parsed_sent _ _ B Pc) as Sc.
  apply map_eq_app in O. destruct O as (l0 & l1 & -> & O0 & O1). apply map_eq_app in O1. destruct O1 as (lh & l2 & -> & Oh & O2). apply map_eq_app in O2. destruct O2 as (body & l3 & -> & Ob & O3).
  destruct l0 as [|c0 [|? ?]]; [discriminate | | discriminate]. destruct l3 as [|cend [|? ?]]; [discriminate | | discriminate].
  pose proof (f_equal (hd o_lf) O0) as Oc. pose proof (f_equal (hd o_lf) O3) as Oe. cbn [hd map] in Oc, Oe. clear O0 O3.
  apply Forall_app in Sc. destruct Sc as (S0 & Sc). apply Forall_app in Sc. destruct Sc as (Sh & Sc). apply Forall_app in Sc. destruct Sc as (Sb & Se).
  apply Forall_cons_iff in S0. destruct S0 as (S0 & _). apply Forall_cons_iff in Se. destruct Se as (Se & _).
  destruct (begin_step e c0 S0 Oc) as (s0 & P0 & X0 & Sp0 & x0 & x1 & C0).
  pose proof (history_step e c0 _ _ (history_new e) S0 P0) as H0.
  cbn [app] in R. unfold run_commands in R. cbn [fold_res] in R. rewrite P0 in R. cbn [bind] in R. rewrite fold_res_app in R. apply bind_ok in R. destruct R as (s1 & Rh & R).
  assert (A : history e s1 /\ rs_ctx s1 = mode_ctx n /\ rs_spans s1 = [] /\ rs_calls s1 = rs_calls s0).
  { destruct Hd as [(-> & [->| ->])| ->].
    - apply map_eq_nil in Oh. subst lh. cbn [fold_res] in Rh. assert (s1 = s0) by congruence. subst s1. rewrite mode_none. auto.
    - destruct lh as [|c [|? ?]]; [discriminate Oh | | discriminate Oh]. pose proof (f_equal (hd o_lf) Oh) as Oc1. cbn [hd map] in Oc1. apply Forall_cons_iff in Sh. destruct Sh as (Sh & _).
      destruct (lead_step e c s0 Sh Oc1 Sp0) as (s' & Pl & Xl & Spl & Cl). cbn [fold_res] in Rh. rewrite Pl in Rh. cbn [bind] in Rh. assert (s1 = s') by congruence. subst s1.
      split; [exact (history_step _ _ _ _ H0 Sh Pl)|]. rewrite mode_none, Xl. auto.
    - destruct lh as [|c [|? ?]]; [discriminate Oh | | discriminate Oh]. pose proof (f_equal (hd o_lf) Oh) as Oc1. cbn [hd map] in Oc1. apply Forall_cons_iff in Sh. destruct Sh as (Sh & _).
      destruct (mode_step e c s0 n Sh Oc1 Sp0 X0) as (s' & Pl & Xl & Spl & Cl). cbn [fold_res] in Rh. rewrite Pl in Rh. cbn [bind] in Rh. assert (s1 = s') by congruence. subst s1.
      split; [exact (history_step _ _ _ _ H0 Sh Pl)|]. auto. }
  destruct A as (H1 & X1 & Sp1 & C1).
  destruct (body_run e n lines body cend s1 s H1 Sb Se Ob Oe X1 Sp1 FP R) as (x & new & Ec & Rest).
  exists x0, x1, x, new. split; [rewrite Ec, C1, C0; reflexivity | exact Rest].
Qed.
Lemma typed_bytes lines : Forall (Forall printable) lines -> bytes_ok (typed lines) = true.
Proof.
  intros F. unfold bytes_ok. rewrite forallb_forall. intros b Hb. unfold typed in Hb. apply in_flat_map in Hb. destruct Hb as (l & Hl & Hb). apply in_app_or in Hb. unfold is_byte.
  destruct Hb as [Hb|[<-|[]]]; [|reflexivity]. pose proof (proj1 (Forall_forall _ _) (proj1 (Forall_forall _ _) F _ Hl) _ Hb) as P. unfold printable in P. lia.
Qed.
Lemma parse_plain lines : Forall (Forall printable) lines -> exists cmds heads, parse_esc_pos (typed lines) = Ok cmds /\ (heads = [] \/ heads = [o_unknown []]) /\
  map observe cmds = [o_begin] ++ heads ++ flat_map line_seen lines ++ [o_end].
Proof.
  intros F. destruct (parse_stream (text_items lines)) as (cmds & P & O); [split; [exact (text_items_ok lines F) | exact (text_items_sep lines)]|].
  rewrite text_wire in P. exists cmds, (lead (text_items lines)). split; [exact P|]. split.
  - destruct (text_items lines) as [|i r]; [left; reflexivity|]. cbn [lead]. destruct (open_ended i); auto.
  - rewrite O. unfold parse_spec. rewrite expect_items. reflexivity.
Qed.
Lemma parse_moded n lines : Forall (Forall printable) lines -> exists cmds, parse_esc_pos ([27; 33; n] ++ typed lines) = Ok cmds /\
  map observe cmds = [o_begin] ++ [o_mode n] ++ flat_map line_seen lines ++ [o_end].
Proof.
  intros F. set (hd := IFixed "Set Print Mode" KTextStyle [27; 33] [n]).
  destruct (parse_stream (hd :: text_items lines)) as (cmds & P & O).
  { split; [constructor; [|exact (text_items_ok lines F)]; cbn; unfold in_fixed; vm_compute; tauto|]. rewrite separated_fixed by reflexivity. exact (text_items_sep lines). }
  exists cmds. split.
  - rewrite <- P. unfold encode. cbn [flat_map]. fold (encode (text_items lines)). rewrite text_wire. reflexivity.
  - rewrite O. unfold parse_spec. rewrite <- expect_items. cbn [lead]. destruct (text_items lines) as [|i r]; reflexivity.
Qed.

(** *** C65: plain lines after one ESC ! n. *)
Theorem C65_typed : forall fo e n lines im, fonts_fine fo -> 0 <= n <= 255 -> fits_paper n lines ->
  render_images fo e ([27; 33; n] ++ typed lines) = Ok im ->
  exists r, im_out im = [r] /\ r_width r = 649 /\ r_height r = 108 + text_height n lines /\
    forall X Y, 0 <= X < 649 -> 0 <= Y < r_height r -> rgb_at r X Y = let v := 255 - text_dot fo n lines (X - 20) (Y - 108) in (v, v, v).
Proof.
  intros fo e n lines im FF Bn FP E. pose proof (fits_printable _ _ FP) as PR.
  assert (B : bytes_ok ([27; 33; n] ++ typed lines) = true).
  { pose proof (typed_bytes lines PR) as T. unfold bytes_ok in *. rewrite forallb_app, T, andb_true_r. cbn [forallb]. unfold is_byte. lia. }
  destruct (parse_moded n lines PR) as (cmds & P & O).
  assert (R : exists s, render e ([27; 33; n] ++ typed lines) renderer_new = Ok s). { unfold render_images in E. apply bind_ok in E. destruct E as (s & R & _). eauto. }
  destruct R as (s & R). apply (sheet_of fo e n lines _ s im FF B R E FP). apply (plain_calls e n lines _ [o_mode n] cmds s B P O); auto.
Qed.
(** *** C65: plain lines and nothing else. *)
Theorem C65_plain : forall fo e lines im, fonts_fine fo -> fits_paper 0 lines -> render_images fo e (typed lines) = Ok im ->
  exists r, im_out im = [r] /\ r_width r = 649 /\ r_height r = 108 + text_height 0 lines /\
    forall X Y, 0 <= X < 649 -> 0 <= Y < r_height r -> rgb_at r X Y = let v := 255 - text_dot fo 0 lines (X - 20) (Y - 108) in (v, v, v).
Proof.
  intros fo e lines im FF FP E. pose proof (fits_printable _ _ FP) as PR. pose proof (typed_bytes lines PR) as B.
  destruct (parse_plain lines PR) as (cmds & heads & P & Hd & O).
  assert (R : exists s, render e (typed lines) renderer_new = Ok s). { unfold render_images in E. apply bind_ok in E. destruct E as (s & R & _). eauto. }
  destruct R as (s & R). apply (sheet_of fo e 0 lines _ s im FF B R E FP). apply (plain_calls e 0 lines _ heads cmds s B P O); auto.
Qed.

(** ** Such a job does become an image, if it is not too long. *)
Lemma unknown_entry c : sent c -> c_kind c = KUnknown -> c_handler c = HPlain P_unknown.
Proof.
  intros Sc K. destruct (sent_reported _ Sc) as [(t & Ht & _ & I)|(sc & Hs & I)].
  - assert (F : forallb (fun t => match c_kind t with KUnknown => match c_handler t with HPlain P_unknown => true | _ => false end | _ => true end) all_commands = true) by (vm_compute; reflexivity).
    pose proof (proj1 (forallb_forall _ _) F _ Ht) as E. cbv beta in E. clear F.
    rewrite <- (in_kind _ _ I), K in E. pose proof (in_handler _ _ I) as L. unfold handler_like in L. destruct (c_handler t) as [id| | | | | | |]; try discriminate E. destruct id; try discriminate E.
    destruct (c_handler c); try contradiction. subst. reflexivity.
  - exfalso. assert (F : forallb (fun sc => match sc_kind sc with KUnknown => false | _ => true end) (code2d_table ++ graphics_table) = true) by (vm_compute; reflexivity).
    pose proof (proj1 (forallb_forall _ _) F _ Hs) as E. cbv beta in E. rewrite (si_kind _ _ I) in K. rewrite K in E. discriminate.
Qed.
Definition plain_seen (o : ocmd) : Prop := o = o_begin \/ o = o_end \/ o_kind o = KText \/ o_kind o = KUnknown \/ o_prefix o = [27; 33].
Lemma plain_gentle c : sent c -> plain_seen (observe c) -> gentle false c.
Proof.
  intros Sc [O|[O|[O|[O|O]]]]; unfold gentle.
  - pose proof (f_equal o_name O) as N. cbn in N. apply (proj1 (frame_name _ Sc)) in N. rewrite N. exact Logic.I.
  - pose proof (f_equal o_name O) as N. cbn in N. apply (proj2 (frame_name _ Sc)) in N. rewrite N. exact Logic.I.
  - cbn in O. destruct (text_entry c Sc O) as [(_ & H)|[(_ & H)|[(_ & H)|(_ & H)]]]; rewrite H; exact Logic.I.
  - cbn in O. rewrite (unknown_entry c Sc O). exact Logic.I.
  - cbn in O. known c Sc O cmd_set_print_mode P_set_print_mode. rewrite Hd. exact Logic.I.
Qed.
Definition paper_seen (o : ocmd) : Z :=
  match o_kind o with KText => 255 * (1 + vlen (o_data o)) | KGraphics => 200000 | KControl | KContextControl | KTextStyle => 65025 | _ => 0 end.
Definition papers_seen (l : list ocmd) : Z := fold_right (fun o a => paper_seen o + a) 0 l.
Lemma papers_app a b : papers_seen (a ++ b) = papers_seen a + papers_seen b.
Proof. unfold papers_seen. induction a as [|o a IH]; cbn [app fold_right]; [lia|]. rewrite IH. lia. Qed.
Lemma papers_of cmds : paper_for_all cmds = papers_seen (map observe cmds).
Proof. unfold paper_for_all, papers_seen. induction cmds as [|c l IH]; cbn [map fold_right]; [reflexivity|]. rewrite IH. reflexivity. Qed.
Lemma papers_lines lines : papers_seen (flat_map line_seen lines) <= 510 * Z.of_nat (length (typed lines)).
Proof.
  unfold typed. induction lines as [|l r IH]; cbn [flat_map]; [cbn; lia|]. rewrite papers_app, !app_length. cbn [length].
  assert (H : papers_seen (line_seen l) <= 510 * Z.of_nat (length l + 1)).
  { destruct l as [|a l]; [vm_compute; congruence|]. cbn [line_seen]. unfold papers_seen. cbn [fold_right]. unfold paper_seen. cbn [o_text o_lf simple o_kind o_data]. unfold vlen. cbn [length]. lia. }
  lia.
Qed.
Lemma lines_plain lines : Forall plain_seen (flat_map line_seen lines).
Proof.
  apply Forall_forall. intros o Ho. apply in_flat_map in Ho. destruct Ho as (l & _ & Ho). right. right. left.
  destruct l; cbn [line_seen In] in Ho; [destruct Ho as [<-|[]]; reflexivity | destruct Ho as [<-|[<-|[]]]; reflexivity].
Qed.
Lemma plain_prints fo e n lines bs heads cmds : fonts_fine fo -> encoders_ok e -> bytes_ok bs = true -> parse_esc_pos bs = Ok cmds ->
  map observe cmds = [o_begin] ++ heads ++ flat_map line_seen lines ++ [o_end] ->
  heads = [] \/ heads = [o_unknown []] \/ heads = [o_mode n] -> Z.of_nat (length (typed lines)) <= 12000 -> exists im, render_images fo e bs = Ok im.
Proof.
  intros FF Ee B P O Hd L. apply (C59_short_job fo e false bs cmds Ee (fonts_fine_ok _ FF) B P).
  - assert (G : Forall plain_seen (map observe cmds)).
    { rewrite O. constructor; [left; reflexivity|]. apply Forall_app. split; [|apply Forall_app; split; [apply lines_plain | constructor; [right; left; reflexivity | constructor]]].
      destruct Hd as [->|[->| ->]]; [constructor | constructor; [right; right; right; left; reflexivity | constructor] | constructor; [right; right; right; right; reflexivity | constructor]]. }
    pose proof (parsed_sent _ _ B P) as Sc. apply Forall_forall. intros c Hc. apply plain_gentle; [exact (proj1 (Forall_forall _ _) Sc _ Hc)|]. exact (proj1 (Forall_forall _ _) G _ (in_map observe _ _ Hc)).
  - rewrite papers_of, O, !papers_app. pose proof (papers_lines lines) as PL. change (papers_seen [o_begin]) with 65025. change (papers_seen [o_end]) with 65025.
    assert (PH : papers_seen heads <= 65025) by (destruct Hd as [->|[->| ->]]; vm_compute; congruence). unfold longest_paper. lia.
Qed.
Theorem C65_prints : forall fo e n lines, fonts_fine fo -> encoders_ok e -> 0 <= n <= 255 -> Forall (Forall printable) lines -> Z.of_nat (length (typed lines)) <= 12000 ->
  (exists im, render_images fo e ([27; 33; n] ++ typed lines) = Ok im) /\ (exists im, render_images fo e (typed lines) = Ok im).
Proof.
  intros fo e n lines FF Ee Bn PR L. pose proof (typed_bytes lines PR) as B. split.
  - assert (B' : bytes_ok ([27; 33; n] ++ typed lines) = true).
    { unfold bytes_ok in *. rewrite forallb_app, B, andb_true_r. cbn [forallb]. unfold is_byte. lia. }
    destruct (parse_moded n lines PR) as (cmds & P & O). exact (plain_prints fo e n lines _ [o_mode n] cmds FF Ee B' P O (or_intror (or_intror eq_refl)) L).
  - destruct (parse_plain lines PR) as (cmds & heads & P & Hd & O). apply (plain_prints fo e n lines _ heads cmds FF Ee B P O); [|exact L]. destruct Hd; auto.
Qed.

(** Three lines, "A", an empty one and " A", underlined, in double height (n = 80): the first is 48 dots high. *)
Definition two_lines : list (list Z) := [[65]; []; [32; 65]].
Example C65_demo : fits_paper 80 two_lines /\ text_height 80 two_lines = 120 /\
  map (fun d => text_dot eight_dots 80 two_lines (fst d) (snd d)) [(1, 3); (1, 4); (2, 4); (0, 33); (13, 33); (14, 76); (0, 105)] = [255; 10; 30; 255; 0; 30; 255].
Proof. split; [repeat constructor; unfold printable; try lia; vm_compute; congruence|]. vm_compute. auto. Qed.
Example C65_demo_prints : exists im r, render_images eight_dots no_encoders1 ([27; 33; 80] ++ typed two_lines) = Ok im /\ im_out im = [r] /\ r_width r = 649 /\ r_height r = 228 /\
  rgb_at r 22 112 = (225, 225, 225).
Proof.
  destruct C65_demo as (FP & HT & D). destruct (C65_prints eight_dots no_encoders1 80 two_lines eight_fine C33_demo_encoders) as ((im & E) & _); [lia | exact (fits_printable _ _ FP) | vm_compute; congruence|].
  destruct (C65_typed eight_dots no_encoders1 80 two_lines im eight_fine ltac:(lia) FP E) as (r & A1 & A2 & A3 & A4). exists im, r. rewrite HT in A3.
  split; [exact E|]. split; [exact A1|]. split; [exact A2|]. split; [exact A3|]. rewrite (A4 22 112) by lia. vm_compute. reflexivity.
Qed.
