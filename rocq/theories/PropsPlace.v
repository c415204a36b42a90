(** * PropsPlace: C32, where text is put. *)
From Verif Require Import Base Command CommandSet Parser Vec Float32 GTypes Graphics Utf8 Decoder Context Text
  Upce Handlers Renderer ContextTheory RendererTheory Origin SpecPrinter StateTheory PropsText SpecRender
  PropsOutput LayoutTheory AreaTheory PlaceTheory PropsLayout.
Local Open Scope Z_scope.
Local Open Scope list_scope.

(** ** Which commands draw text *)
Section Silent.
Variables (T : Type) (h : context * event -> list T).
Hypothesis Hh : forall c e, match e with EText _ _ _ _ => False | _ => True end -> h (c, e) = [].
Let seen (s : rstate) : list T := flat_map h (rs_calls s).
Lemma silent_call e s : match e with EText _ _ _ _ => False | _ => True end -> seen (call e s) = seen s.
Proof. intros E. unfold seen. cbn [call rs_calls]. rewrite flat_map_app. cbn [flat_map]. rewrite (Hh _ _ E). apply app_nil_r. Qed.
Lemma silent_ctx f s s' : on_ctx f s = Ok s' -> seen s' = seen s.
Proof. intros E. apply on_ctx_spans in E. unfold seen. destruct E as (_ & ->). reflexivity. Qed.
Lemma silent_device d s s' : process_device_command d s = Ok s' -> seen s' = seen s.
Proof.
  intros H. unfold process_device_command in H. cbv zeta in H.
  assert (P : forall s s', page_geometry s = Ok s' -> seen s' = seen s).
  { intros y y' E. unfold page_geometry in E. apply bind_ok in E. destruct E as ([[[rot w] hh] p] & _ & E). injection E as <-.
    exact (silent_call (EPageAreaChanged rot w hh) (with_ctx _ y) I). }
  rewrite <- (silent_call (EDevice d) s I). set (s0 := call (EDevice d) s) in *. clearbody s0. clear s.
  destruct d; try (injection H as <-; reflexivity); try exact (silent_ctx _ _ _ H); try exact (P _ _ H).
  - apply bind_ok in H. destruct H as (a & Ha & H). injection H as <-. rewrite (silent_call EBeginRender a I). exact (silent_ctx _ _ _ Ha).
  - injection H as <-. rewrite (silent_call EEndRender (call EGetErrors s0) I). exact (silent_call EGetErrors s0 I).
  - apply bind_ok in H. destruct H as (a & Ha & H). injection H as <-. rewrite (silent_call EPageBegin a I). exact (silent_ctx _ _ _ Ha).
  - rewrite (silent_ctx _ _ _ H). exact (silent_call EPageEnd s0 I).
  - rewrite (silent_ctx _ _ _ H). exact (silent_call ERenderPage s0 I).
Qed.
Lemma silent_devices l : forall s s', process_device_commands l s = Ok s' -> seen s' = seen s.
Proof.
  unfold process_device_commands. induction l as [|d l IH]; intros s s' H; cbn [fold_res] in H.
  - injection H as <-. auto.
  - apply bind_ok in H. destruct H as (s1 & H1 & H). rewrite (IH _ _ H). exact (silent_device _ _ _ H1).
Qed.
Lemma silent_gfx g s s' : process_gfx g s = Ok s' -> match g with GBarcode _ => False | _ => True end -> seen s' = seen s.
Proof.
  intros H N. destruct g as [m|q|b|i]; try contradiction; cbn [process_gfx] in H.
  - injection H as <-. reflexivity.
  - unfold process_code_2d in H. apply bind_ok in H. destruct H as (t & _ & H). cbv zeta in H.
    apply bind_ok in H. destruct H as (cx & _ & H). apply bind_ok in H. destruct H as ([[c1 i] rects] & _ & H). injection H as <-.
    exact (silent_call (EGraphics rects) (with_ctx _ s) I).
  - unfold process_image in H. cbv zeta in H. apply bind_ok in H. destruct H as (s1 & H1 & H).
    assert (D1 : seen s1 = seen s).
    { repeat match type of H1 with (match ?z with _ => _ end) = _ => destruct z end;
        first [injection H1 as <-; reflexivity | exact (silent_ctx _ _ _ H1)]. }
    rewrite <- D1. match type of H with context [call (EImage ?j) s1] => rewrite <- (silent_call (EImage j) s1 I) end.
    repeat match type of H with (match ?z with _ => _ end) = _ => destruct z end;
      first [injection H as <-; reflexivity | exact (silent_ctx _ _ _ H)].
Qed.
(** every command but a barcode prints the waiting text, if anything *)
Lemma step_text e c s s' : history e s -> sent c -> c_commands c <> [29; 107] -> process_command e c s = Ok s' ->
  exists s1, ((s1 = s /\ exists t, rs_spans s' = rs_spans s ++ t) \/ process_text s = Ok s1) /\ seen s' = seen s1.
Proof.
  intros Hh' Sc NB H. pose proof (history_lay_ok _ _ Hh') as L. unfold process_command in H. destruct (c_kind c) eqn:K.
  - apply bind_ok in H. destruct H as (d & _ & H). apply bind_ok in H. destruct H as (s1 & H1 & H).
    exists s1. split; [right; exact H1 | exact (silent_devices _ _ _ H)].
  - injection H as <-. exists s. split; [left; split; [reflexivity|] | destruct (get_text c (rs_ctx s)); reflexivity].
    destruct (get_text c (rs_ctx s)) as [t|]; [exists [t]; reflexivity | exists []; symmetry; apply app_nil_r].
  - apply bind_ok in H. destruct H as (s1 & H1 & H). apply bind_ok in H. destruct H as (d & _ & H).
    exists s. split; [left; split; [reflexivity|] | rewrite (silent_devices _ _ _ H); exact (silent_ctx _ _ _ H1)].
    exists []. rewrite app_nil_r, (proj2 (devices_ink _ _ _ H)). exact (proj1 (on_ctx_spans _ _ _ H1)).
  - apply bind_ok in H. destruct H as (s1 & H1 & H). apply bind_ok in H. destruct H as (g & Hg & H).
    apply bind_ok in H. destruct H as (s2 & H2 & H). apply bind_ok in H. destruct H as (d & _ & H).
    exists s1. split; [right; exact H1|]. rewrite (silent_devices _ _ _ H).
    destruct (flush_ok _ _ L H1) as (_ & _ & _ & L1).
    destruct g as [g|]; [|injection H2 as <-; reflexivity]. apply (silent_gfx _ _ _ H2).
    destruct g; try exact I. apply NB. exact (proj1 (barcode_only _ _ _ _ Sc (proj2 (proj2 L1)) Hg)).
  - apply bind_ok in H. destruct H as (s1 & H1 & H). exists s1. split; [right; exact H1 | exact (silent_ctx _ _ _ H)].
  - apply bind_ok in H. destruct H as (s1 & H1 & H). apply bind_ok in H. destruct H as (s2 & H2 & H). apply bind_ok in H. destruct H as (d & _ & H).
    exists s1. split; [right; exact H1|]. rewrite (silent_devices _ _ _ H). exact (silent_ctx _ _ _ H2).
  - injection H as <-. exists s. split; [left; split; [reflexivity | exists []; symmetry; apply app_nil_r] | reflexivity].
  - apply bind_ok in H. destruct H as (s1 & H1 & H). injection H as <-. exists s1. split; [right; exact H1|reflexivity].
Qed.
End Silent.

(** ** One printing of the waiting text *)
Lemma lines_app a b : lines_of (a ++ b) = lines_of a ++ lines_of b.
Proof. apply flat_map_app. Qed.
Definition framed (c : context) (x : list text_span * Z) : Prop :=
  exists f r w, fst x = f :: r /\ line_width (fst x) 0 = Ok w /\ line_offset (s_justify f) (get_width c) w = Ok (snd x).
Lemma render_lines_lines lines : forall s s', fold_res render_line lines s = Ok s' ->
  exists new, lines_of (rs_calls s') = lines_of (rs_calls s) ++ new /\ concat (map fst new) = concat lines /\
    Forall (fun x => In (fst x) lines /\ framed (rs_ctx s) x) new /\ rs_ctx s' = rs_ctx s.
Proof.
  induction lines as [|l r IH]; intros s s' H; cbn [fold_res] in H.
  - injection H as <-. exists []. rewrite app_nil_r. auto.
  - apply bind_ok in H. destruct H as (s1 & H1 & H). destruct (IH _ _ H) as (new & L & C & F & X).
    unfold render_line in H1. destruct l as [|f l].
    + injection H1 as <-. exists new. split; [exact L | split; [exact C | split; [|exact X]]].
      eapply Forall_impl; [|exact F]. intros a (Ia & Fa). split; [right; exact Ia | exact Fa].
    + cbv zeta in H1. apply bind_ok in H1. destruct H1 as (w & Hw & H1). apply bind_ok in H1. destruct H1 as (off & Ho & H1). injection H1 as <-.
      exists ((f :: l, off) :: new). split; [|split; [|split; [|exact X]]].
      * rewrite L. cbn [call rs_calls]. rewrite lines_app, <- app_assoc. reflexivity.
      * cbn [map fst concat]. rewrite C. reflexivity.
      * constructor; [split; [left; reflexivity | exists f, l, w; auto]|].
        eapply Forall_impl; [|exact F]. intros a (Ia & Fa). split; [right; exact Ia | exact Fa].
Qed.
Lemma gapless_sum l : forall b e a w, gapless b l e -> line_width l a = Ok w -> e = b + (w - a) /\ Forall (fun s => exists d, s_dimensions s = Some d /\ d_x d + d_w d <= e) l.
Proof.
  induction l as [|s l IH]; intros b e a w G H; cbn [gapless line_width] in *.
  - injection H as <-. split; [lia|constructor].
  - destruct G as (d & D & X & W & G). apply bind_ok in H. destruct H as (v & Hv & H). apply bind_ok in H. destruct H as (a' & Ha & H).
    rewrite W in Hv. injection Hv as <-. apply add_u32v in Ha. destruct Ha as (-> & _).
    destruct (IH _ _ _ _ G H) as (E & F). split; [lia|]. constructor; [|exact F]. exists d. split; [exact D|].
    assert (M : forall l b e, gapless b l e -> b <= e).
    { clear. induction l as [|s l IH]; intros b e G; cbn in G; [lia|]. destruct G as (d & _ & _ & W & G). apply IH in G.
      destruct (span_width_v _ _ W). lia. }
    apply M in G. lia.
Qed.

Definition words_of (s : rstate) : list text_span := flat_map break_into_words (rs_spans s).

Lemma words_laid (c0 : context) (fit run : Prop) : 0 <= t_line_spacing (c_text c0) -> 0 <= get_width c0 ->
  forall ws l l', laid c0 fit run l -> fold_res (place_word (get_width c0)) ws l = Ok l' ->
  Forall (fun w => 0 < s_character_width w /\ (fit -> narrow c0 w) /\ (run -> s_text w <> [9])) ws -> laid c0 fit run l'.
Proof.
  intros SP W0. induction ws as [|w ws IH]; intros l l' L H F; cbn [fold_res] in H.
  - injection H as <-. exact L.
  - apply bind_ok in H. destruct H as (l1 & H1 & H). apply Forall_cons_iff in F. destruct F as ((F1 & F2 & F3) & F).
    exact (IH _ _ (word_laid _ _ _ SP _ _ _ L H1 W0 F1 F2 F3) H F).
Qed.
Lemma flush_laid (fit run : Prop) s s' : uinv (rs_ctx s) -> sinv (rs_ctx s) -> process_text s = Ok s' ->
  Forall (fun w => 0 < s_character_width w /\ (fit -> narrow (rs_ctx s) w) /\ (run -> s_text w <> [9])) (words_of s) ->
  (run -> get_x (rs_ctx s) = get_base_x (rs_ctx s)) ->
  exists new, lines_of (rs_calls s') = lines_of (rs_calls s) ++ new /\
    ForallOrdPairs reads_before (concat (map fst new)) /\
    Forall has_place (concat (map fst new)) /\
    (fit -> Forall (ends_within (right_edge (rs_ctx s)) 0) (concat (map fst new))) /\
    Forall (framed (rs_ctx s)) new /\
    (run -> Forall (fun x => exists e, gapless (get_base_x (rs_ctx s)) (fst x) e) new).
Proof.
  intros U S H F R. unfold process_text in H. unfold words_of in F. destruct (rs_spans s) as [|x r].
  { injection H as <-. exists []. rewrite app_nil_r. repeat split; try constructor. }
  apply bind_ok in H. destruct H as ((c & lines) & Hl & H). unfold layout_words in Hl.
  apply bind_ok in Hl. destruct Hl as ([[c1 l1] cur] & Ha & Hl). injection Hl as -> <-.
  assert (I0 : laid (rs_ctx s) fit run (rs_ctx s, [], [])).
  { constructor; cbn [lay_ctx fst snd]; [apply moved_refl | exact U |]. constructor; cbn [concat app].
    - constructor.
    - constructor.
    - constructor.
    - intros _. constructor.
    - intros q. symmetry. exact (R q).
    - intros _. constructor. }
  pose proof (words_laid _ _ _ (proj1 (tk_spacing _ (si_text _ S))) (proj1 (width_u _ U)) _ _ _ I0 Ha F) as [M U' C].
  cbn [lay_ctx fst snd] in *. destruct C as [O A L Ft G Gs].
  set (all := match cur with [] => l1 | _ :: _ => l1 ++ [cur] end) in *.
  assert (EC : concat all = concat l1 ++ cur).
  { unfold all. destruct cur; [rewrite app_nil_r; reflexivity|]. rewrite concat_app. cbn [concat]. rewrite app_nil_r. reflexivity. }
  assert (EG : run -> Forall (fun line => exists e, gapless (get_base_x (rs_ctx s)) line e) all).
  { intros q. unfold all. specialize (Gs q). specialize (G q). destruct cur; [exact Gs|]. apply Forall_app. split; [exact Gs|]. constructor; [eexists; exact G | constructor]. }
  destruct (render_lines_lines _ _ _ H) as (new & EL & EN & FN & _). cbn [with_ctx with_spans rs_calls rs_ctx] in *.
  exists new. rewrite EN, EC. split; [exact EL | split; [exact O | split; [|split; [exact Ft | split]]]].
  - apply Forall_app. split; [eapply Forall_impl; [|exact A] | eapply Forall_impl; [|exact L]]; intros a (d & D & _); exists d; exact D.
  - eapply Forall_impl; [|exact FN]. intros a (_ & f & t & w & E1 & E2 & E3). exists f, t, w. rewrite (moved_width _ _ M) in E3. auto.
  - intros q. apply Forall_forall. intros a Ia. destruct (proj1 (Forall_forall _ _) FN _ Ia) as (Il & _).
    exact (proj1 (Forall_forall _ _) (EG q) _ Il).
Qed.
(** words that fit on a line are not broken, and a new line is begun only when the next word does not fit *)
Definition text_word (w : text_span) : Prop := s_text w <> [10] /\ s_text w <> [9].
Definition flowed (c0 : context) (l : layout) : Prop :=
  chain (wraps c0) (concat (snd (fst l)) ++ snd l) /\ last_at (concat (snd (fst l)) ++ snd l) (get_x (lay_ctx l)) (get_y (lay_ctx l)) .
Lemma word_whole c0 w l l' ww : moved c0 (lay_ctx l) -> place_word (get_width c0) w l = Ok l' -> text_word w ->
  span_width w = Ok ww -> ww <= get_width c0 ->
  exists p, concat (snd (fst l')) ++ snd l' = (concat (snd (fst l)) ++ snd l) ++ [p] /\ s_text p = s_text w /\ style_of p = style_of w.
Proof.
  intros M H (N & N') W LE. destruct l as [[c lines] cur]. rewrite (place_word_text _ _ _ _ _ N N'), W in H. cbn [bind] in H.
  destruct (Z.leb_spec ww (get_available_width c)) as [L|G].
  - apply bind_ok in H. destruct H as (w' & D & H). apply bind_ok in H. destruct H as (c' & _ & H). injection H as <-.
    destruct (get_dimensions_ok _ _ _ D) as (v & _ & ->). eexists. cbn [fst snd]. rewrite app_assoc. split; [reflexivity|split; reflexivity].
  - destruct (Z.ltb_spec (get_width c0) ww) as [L2|_]; [lia|].
    apply bind_ok in H. destruct H as (c1 & _ & H). apply bind_ok in H. destruct H as (w' & D & H). apply bind_ok in H. destruct H as (c' & _ & H). injection H as <-.
    destruct (get_dimensions_ok _ _ _ D) as (v & _ & ->). eexists. cbn [fst snd]. rewrite concat_app. cbn [concat]. rewrite app_nil_r.
    split; [reflexivity|split; reflexivity].
Qed.
Lemma word_flow c0 w l l' ww fit run : laid c0 fit run l -> 0 <= t_line_spacing (c_text c0) -> flowed c0 l ->
  place_word (get_width c0) w l = Ok l' -> text_word w -> span_width w = Ok ww -> ww <= get_width c0 -> flowed c0 l'.
Proof.
  intros [M U [O A L _ _ _]] SP (C & LA) H (N & N') W LE. destruct l as [[c lines] cur]. rewrite (place_word_text _ _ _ _ _ N N'), W in H. cbn [bind] in H.
  unfold flowed. cbn [lay_ctx fst snd] in *.
  destruct (Z.leb_spec ww (get_available_width c)) as [L1|G].
  - apply bind_ok in H. destruct H as (w' & D & H). apply bind_ok in H. destruct H as (c' & Ox & H). injection H as <-.
    destruct (get_dimensions_ok _ _ _ D) as (v & V & E). rewrite W in V. injection V as <-. cbn [lay_ctx fst snd]. rewrite app_assoc.
    destruct (offset_x_pos _ _ _ Ox) as (X & Y). split.
    + apply chain_snoc; [exact C|]. intros a La. destruct (LA a La) as (d & Da & Xa & Ya). unfold wraps. rewrite Da, E. cbn. left. lia.
    + intros a La. rewrite map_app in La. cbn in La. rewrite last_last in La. injection La as <-. rewrite E. eexists. split; [reflexivity|]. cbn. lia.
  - destruct (Z.ltb_spec (get_width c0) ww) as [L2|_]; [lia|].
    apply bind_ok in H. destruct H as (c1 & Nl & H). apply bind_ok in H. destruct H as (w' & D & H). apply bind_ok in H. destruct H as (c' & Ox & H). injection H as <-.
    destruct (get_dimensions_ok _ _ _ D) as (v & V & E). rewrite W in V. injection V as <-. cbn [lay_ctx fst snd]. rewrite concat_app. cbn [concat]. rewrite app_nil_r.
    destruct (offset_x_pos _ _ _ Ox) as (X & Y). destruct (newline_pos _ _ _ Nl) as (X1 & Y1). split.
    + apply chain_snoc; [exact C|]. intros a La. destruct (LA a La) as (d & Da & Xa & Ya). unfold wraps. rewrite Da, E. cbn. right.
      rewrite X1, (moved_base_x _ _ M), <- (moved_edge _ _ M).
      pose proof (avail_left c ww G). rewrite (moved_width _ _ M) in H. specialize (H LE).
      split; [|split; [reflexivity | lia]].
      pose proof (tallest_ge cur (t_line_spacing (c_text c))) as TG. rewrite (moved_text _ _ M) in *.
      assert (Ia : In a (concat lines ++ cur)).
      { clear - La. revert La. generalize (concat lines ++ cur) as z. induction z as [|b z IH]; [discriminate|].
        destruct z as [|b' z]; [intros E; injection E as ->; left; reflexivity|]. intros E. right. apply IH. exact E. }
      apply in_app_or in Ia. destruct Ia as [Ia|Ia].
      * destruct (proj1 (Forall_forall _ _) A _ Ia) as (d' & D' & H'). rewrite Da in D'. injection D' as <-. lia.
      * destruct (proj1 (Forall_forall _ _) L _ Ia) as (d' & D' & Y' & _ & H'). rewrite Da in D'. injection D' as <-.
        pose proof (tallest_in cur a Ia (t_line_spacing (c_text c0))). lia.
    + intros a La. rewrite map_app in La. cbn in La. rewrite last_last in La. injection La as <-. rewrite E. eexists. split; [reflexivity|]. cbn. lia.
Qed.
Definition fits_line (c : context) (w : text_span) : Prop := exists v, span_width w = Ok v /\ v <= get_width c.
Lemma words_flow (c0 : context) : 0 <= t_line_spacing (c_text c0) -> 0 <= get_width c0 ->
  forall ws l l', laid c0 False False l -> fold_res (place_word (get_width c0)) ws l = Ok l' ->
  Forall (fun w => 0 < s_character_width w) ws -> Forall text_word ws -> Forall (fits_line c0) ws -> flowed c0 l ->
  flowed c0 l' /\ map s_text (concat (snd (fst l')) ++ snd l') = map s_text (concat (snd (fst l)) ++ snd l) ++ map s_text ws.
Proof.
  intros SP W0. induction ws as [|w ws IH]; intros l l' L H F T B Fl; cbn [fold_res] in H.
  - injection H as <-. rewrite app_nil_r. auto.
  - apply bind_ok in H. destruct H as (l1 & H1 & H). apply Forall_cons_iff in F. destruct F as (F1 & F).
    apply Forall_cons_iff in T. destruct T as (T1 & T). apply Forall_cons_iff in B. destruct B as ((v & V & B1) & B).
    assert (L1 : laid c0 False False l1) by (apply (word_laid _ _ _ SP _ _ _ L H1 W0 F1); contradiction).
    destruct (IH _ _ L1 H F T B (word_flow _ _ _ _ _ _ _ L SP Fl H1 T1 V B1)) as (R1 & R2).
    split; [exact R1|]. destruct (word_whole _ _ _ _ _ (ld_moved _ _ _ _ L) H1 T1 V B1) as (p & E & Ep & _).
    rewrite R2, E, map_app. cbn [map]. rewrite Ep, <- app_assoc. reflexivity.
Qed.
Lemma flush_flow s s' : uinv (rs_ctx s) -> sinv (rs_ctx s) -> process_text s = Ok s' -> rs_spans s <> [] ->
  Forall wide (rs_spans s) -> Forall text_word (words_of s) -> Forall (fits_line (rs_ctx s)) (words_of s) ->
  exists new, lines_of (rs_calls s') = lines_of (rs_calls s) ++ new /\ chain (wraps (rs_ctx s)) (concat (map fst new)) /\
    map s_text (concat (map fst new)) = map s_text (words_of s).
Proof.
  intros U S H NE Wd T B. unfold process_text in H. unfold words_of in *. destruct (rs_spans s) as [|x r]; [congruence|].
  apply bind_ok in H. destruct H as ((c & lines) & Hl & H). unfold layout_words in Hl.
  apply bind_ok in Hl. destruct Hl as ([[c1 l1] cur] & Ha & Hl). injection Hl as -> <-.
  assert (I0 : laid (rs_ctx s) False False (rs_ctx s, [], [])).
  { constructor; cbn [lay_ctx fst snd]; [apply moved_refl | exact U |]. constructor; cbn [concat app].
    all: try contradiction. all: constructor. }
  assert (F0 : flowed (rs_ctx s) (rs_ctx s, [], [])).
  { split; cbn [lay_ctx fst snd concat app]; [intros pre a b post E; destruct pre; discriminate | intros a E; discriminate]. }
  destruct (words_flow _ (proj1 (tk_spacing _ (si_text _ S))) (proj1 (width_u _ U)) _ _ _ I0 Ha (words_wide _ Wd) T B F0) as ((Ch & _) & Tx).
  cbn [lay_ctx fst snd concat app map] in *.
  set (all := match cur with [] => l1 | _ :: _ => l1 ++ [cur] end) in *.
  assert (EC : concat all = concat l1 ++ cur).
  { unfold all. destruct cur; [rewrite app_nil_r; reflexivity|]. rewrite concat_app. cbn [concat]. rewrite app_nil_r. reflexivity. }
  destruct (render_lines_lines _ _ _ H) as (new & EL & EN & _ & _). cbn [with_ctx with_spans rs_calls rs_ctx] in *.
  exists new. rewrite EN, EC. auto.
Qed.

(** ** C32 *)
Lemma lines_h : forall (c : context) e, match e with EText _ _ _ _ => False | _ => True end ->
  (fun x : context * event => match snd x with EText l off _ _ => [(l, off)] | _ => [] end) (c, e) = [].
Proof. intros c e E. destruct e; try contradiction; reflexivity. Qed.
Lemma words_cw s : Forall wide (rs_spans s) -> Forall wide (words_of s).
Proof. apply words_wide. Qed.

(** *** C32: reading order.  Of the words one command causes to be printed, an earlier one lies
    entirely above a later one, or on the same line to its left. *)
Theorem C32_reading_order : forall e c s s', history e s -> sent c -> c_commands c <> [29; 107] ->
  process_command e c s = Ok s' ->
  exists new, lines_of (rs_calls s') = lines_of (rs_calls s) ++ new /\
    Forall has_place (concat (map fst new)) /\ ForallOrdPairs reads_before (concat (map fst new)).
Proof.
  intros e c s s' Hh Sc NB H. destruct (step_text _ _ lines_h _ _ _ _ Hh Sc NB H) as (s1 & [(-> & _) | P] & E); fold (lines_of (rs_calls s')) in E.
  - exists []. rewrite app_nil_r. split; [exact E | split; constructor].
  - destruct (history_lay_ok _ _ Hh) as (Wd & S & U).
    destruct (flush_laid False False _ _ U S P) as (new & EL & O & Pl & _).
    + eapply Forall_impl; [|exact (words_cw _ Wd)]. intros a Wa. split; [exact Wa | split; contradiction].
    + contradiction.
    + exists new. split; [rewrite <- EL; exact E | auto].
Qed.

(** *** C32: the right edge.  If a line holds at least as many of the waiting characters as one of
    them is dots wide, nothing visible is put past the right edge; nor does justification move it
    there, if the text starts at the left edge and has no tabs. *)
Theorem C32_right_edge : forall e c s s', history e s -> sent c -> c_commands c <> [29; 107] ->
  process_command e c s = Ok s' -> Forall (narrow (rs_ctx s)) (rs_spans s) ->
  exists new, lines_of (rs_calls s') = lines_of (rs_calls s) ++ new /\
    Forall (ends_within (right_edge (rs_ctx s)) 0) (concat (map fst new)) /\
    (get_x (rs_ctx s) = get_base_x (rs_ctx s) -> Forall (fun t => ~ In 9 (s_text t)) (rs_spans s) ->
     Forall (fun line => Forall (ends_within (right_edge (rs_ctx s)) (snd line)) (fst line)) new).
Proof.
  intros e c s s' Hh Sc NB H Nw. destruct (step_text _ _ lines_h _ _ _ _ Hh Sc NB H) as (s1 & [(-> & _) | P] & E); fold (lines_of (rs_calls s')) in E.
  - exists []. rewrite app_nil_r. split; [exact E | split; constructor].
  - destruct (history_lay_ok _ _ Hh) as (Wd & S & U).
    set (run := get_x (rs_ctx s) = get_base_x (rs_ctx s) /\ Forall (fun t => ~ In 9 (s_text t)) (rs_spans s)).
    destruct (flush_laid True run _ _ U S P) as (new & EL & O & Pl & Ft & Fr & Gp).
    + apply Forall_forall. intros w Hw. unfold words_of in Hw. apply in_flat_map in Hw. destruct Hw as (t & Ht & Hw).
      unfold break_into_words in Hw. apply in_map_iff in Hw. destruct Hw as (x & <- & Hx). split; [|split].
      * exact (proj1 (Forall_forall _ _) Wd _ Ht).
      * intros _. exact (proj1 (Forall_forall _ _) Nw _ Ht).
      * intros (_ & NT) E9. cbn in E9. subst x. apply (proj1 (Forall_forall _ _) NT _ Ht).
        pose proof (C25_words_lossless t) as (LL & _). rewrite <- LL. apply in_concat. exists [9]. split; [|left; reflexivity].
        unfold break_into_words. rewrite map_map. apply in_map_iff. exists [9]. split; [reflexivity | exact Hx].
    + intros (X & _). exact X.
    + exists new. split; [rewrite <- EL; exact E | split; [exact (Ft I)|]]. intros X NT. specialize (Gp (conj X NT)). specialize (Ft I).
      apply Forall_forall. intros (line & off) Hl. cbn [fst snd].
      destruct (proj1 (Forall_forall _ _) Fr _ Hl) as (f & r & w & E1 & E2 & E3). cbn [fst snd] in *.
      destruct (proj1 (Forall_forall _ _) Gp _ Hl) as (e0 & G). cbn [fst] in G. destruct (gapless_sum _ _ _ _ _ G E2) as (Ee & Fe).
      apply Forall_forall. intros t It NEt. destruct (proj1 (Forall_forall _ _) Fe _ It) as (d & D & LE). exists d. split; [exact D|].
      assert (In0 : In t (concat (map fst new))).
      { apply in_concat. exists line. split; [apply in_map_iff; exists (line, off); auto | exact It]. }
      destruct (proj1 (Forall_forall _ _) Ft _ In0 NEt) as (d' & D' & LE0). rewrite D in D'. injection D' as <-.
      unfold right_edge in *. unfold line_offset in E3. destruct (s_justify f).
      * injection E3 as <-. lia.
      * injection E3 as <-. destruct (Z.ltb_spec w (get_width (rs_ctx s))) as [LT|_]; [|lia].
        assert (2 * ((get_width (rs_ctx s) - w) / 2) <= get_width (rs_ctx s) - w) by (apply Z.mul_div_le; lia). lia.
      * apply sub_u32v in E3. lia.
Qed.

(** *** C32: wrapping.  Words (C25) that fit on a line are printed whole, each directly after the one
    before unless it would not have fitted there; then it begins a new line below. *)
Theorem C32_wraps_words : forall e c s s', history e s -> sent c -> c_commands c <> [29; 107] ->
  process_command e c s = Ok s' -> rs_spans s' = [] -> 
  Forall (fun w => s_text w <> [10] /\ s_text w <> [9] /\
            character_count w * s_character_width w <= get_width (rs_ctx s))
    (flat_map break_into_words (rs_spans s)) ->
  exists new, lines_of (rs_calls s') = lines_of (rs_calls s) ++ new /\
    map s_text (concat (map fst new)) = map s_text (flat_map break_into_words (rs_spans s)) /\
    forall pre a b post, concat (map fst new) = pre ++ a :: b :: post -> wraps (rs_ctx s) a b.
Proof.
  intros e c s s' Hh Sc NB H Emp F. destruct (step_text _ _ lines_h _ _ _ _ Hh Sc NB H) as (s1 & [(-> & t & X) | P] & E); fold (lines_of (rs_calls s')) in E.
  - exists []. rewrite app_nil_r. rewrite Emp in X. symmetry in X. apply app_eq_nil in X. destruct X as (-> & _).
    split; [exact E | split; [reflexivity|]]. intros pre a b post Z0. destruct pre; discriminate.
  - destruct (history_lay_ok _ _ Hh) as (Wd & S & U). destruct (rs_spans s) as [|x r] eqn:Es.
    { unfold process_text in P. rewrite Es in P. injection P as <-. exists []. rewrite app_nil_r.
      split; [exact E | split; [reflexivity|]]. intros pre a b post Z0. destruct pre; discriminate. }
    rewrite <- Es in *. destruct (flush_flow _ _ U S P) as (new & EL & Ch & Tx).
    + congruence.
    + exact Wd.
    + eapply Forall_impl; [|exact F]. intros w (A & B & _). split; assumption.
    + apply Forall_forall. intros w Hw. pose proof (proj1 (Forall_forall _ _) (words_cw _ Wd) _ Hw) as CW. unfold wide in CW.
      destruct (proj1 (Forall_forall _ _) F _ Hw) as (_ & _ & LE). exists (character_count w * s_character_width w). split; [|exact LE].
      unfold span_width, mul_u32, chk, u32_max. pose proof (width_u _ U) as (_ & WU).
      assert (0 <= character_count w) by (unfold character_count, vlen; lia).
      rewrite (proj2 (Z.leb_le 0 _)) by nia. rewrite (proj2 (Z.leb_le _ 4294967295)) by lia. reflexivity.
    + exists new. split; [rewrite <- EL; exact E | split; [exact Tx | exact Ch]].
Qed.

(** ** Demonstrations *)
Definition spots (s : rstate) : list (list (nat * Z * Z * Z) * Z) :=
  map (fun x => (map (fun t => (length (s_text t), match s_dimensions t with Some d => d_x d | None => -1 end,
                                match s_dimensions t with Some d => d_y d | None => -1 end,
                                match s_dimensions t with Some d => d_w d | None => -1 end)) (fst x), snd x)) (lines_of (rs_calls s)).
(** ESC a 1, thirty letters, a space, twenty-five letters, LF: two centred lines. *)
Definition c32_job : list Z := [27; 97; 1] ++ repeat 65 30 ++ [32] ++ repeat 66 25 ++ [10].
Example C32_demo :
  match render no_encoders1 c32_job renderer_new with
  | Ok s => spots s = [([(31%nat, 0, 108, 372)], 118); ([(25%nat, 0, 132, 300)], 154)]
  | Panic _ => False
  end.
Proof. vm_compute. reflexivity. Qed.
Example C32_demo_ink :
  match render no_encoders1 [72; 105; 27; 69; 1; 33; 10] renderer_new with
  | Ok s => map (fun i => (s_bold (fst i), snd i)) (drawn (rs_calls s)) = [(false, 72); (false, 105); (true, 33)]
  | Panic _ => False
  end.
Proof. vm_compute. reflexivity. Qed.

(** a visible word that ends past the right edge *)
Definition past_edge (s : rstate) : bool :=
  existsb (fun x => existsb (fun t => match s_text t, s_dimensions t with
                                      | _ :: _, Some d => right_edge (rs_ctx s) <? d_x d + d_w d + snd x
                                      | _, _ => false end) (fst x)) (lines_of (rs_calls s)).
Lemma past_edge_out s : past_edge s = true ->
  exists line, In line (lines_of (rs_calls s)) /\ ~ Forall (ends_within (right_edge (rs_ctx s)) (snd line)) (fst line).
Proof.
  unfold past_edge. intros H. apply existsb_exists in H. destruct H as (line & Il & H). apply existsb_exists in H. destruct H as (t & It & H).
  exists line. split; [exact Il|]. intros F. pose proof (proj1 (Forall_forall _ _) F _ It) as G. unfold ends_within in G.
  destruct (s_text t) as [|a r]; [discriminate|]. destruct G as (d & D & LE); [discriminate|]. rewrite D in H. apply Z.ltb_lt in H. lia.
Qed.
Lemma run_past_edge bs : match render no_encoders1 bs renderer_new with Ok s => past_edge s | Panic _ => false end = true ->
  exists s line, render no_encoders1 bs renderer_new = Ok s /\ In line (lines_of (rs_calls s)) /\
    ~ Forall (ends_within (right_edge (rs_ctx s)) (snd line)) (fst line).
Proof.
  destruct (render no_encoders1 bs renderer_new) as [s|]; [|discriminate]. intros H. destruct (past_edge_out _ H) as (line & A & B).
  exists s, line. auto.
Qed.
(** The conditions are needed.  Triple width (GS ! 0x20, a 36-dot cell of which 16 make a line): a
    long word is cut into pieces of 36 characters and runs over the edge. *)
Theorem C32_wide_word_refuted : exists bs s line,
  render no_encoders1 bs renderer_new = Ok s /\ In line (lines_of (rs_calls s)) /\
  ~ Forall (ends_within (right_edge (rs_ctx s)) (snd line)) (fst line).
Proof. exists ([29; 33; 32] ++ repeat 65 60 ++ [10]). apply run_past_edge. vm_compute. reflexivity. Qed.
(** A tab before a right-justified word moves it past the edge. *)
Theorem C32_tab_right_refuted : exists bs s line,
  render no_encoders1 bs renderer_new = Ok s /\ In line (lines_of (rs_calls s)) /\
  ~ Forall (ends_within (right_edge (rs_ctx s)) (snd line)) (fst line).
Proof. exists [27; 97; 2; 65; 9; 66; 10]. apply run_past_edge. vm_compute. reflexivity. Qed.
(** ... and so does an absolute position (ESC $). *)
Theorem C32_position_right_refuted : exists bs s line,
  render no_encoders1 bs renderer_new = Ok s /\ In line (lines_of (rs_calls s)) /\
  ~ Forall (ends_within (right_edge (rs_ctx s)) (snd line)) (fst line).
Proof. exists [27; 97; 2; 27; 36; 100; 0; 66; 10]. apply run_past_edge. vm_compute. reflexivity. Qed.
(** A right-justified word that is too wide stops the program (ESC a 2, GS ! 0x70). *)
Theorem C32_right_panics : exists bs, bytes_ok bs = true /\ render no_encoders1 bs renderer_new = Panic POverflow.
Proof. exists ([27; 97; 2; 29; 33; 112] ++ repeat 65 20 ++ [10]). vm_compute. auto. Qed.

Print Assumptions C32_reading_order.
Print Assumptions C32_right_edge.
Print Assumptions C32_wraps_words.
Print Assumptions C32_every_character_once.
