(** * LayoutTheory: what laying out text does with the characters (used by PropsLayout). *)
From Verif Require Import Base Command CommandSet Parser Vec Float32 GTypes Graphics Decoder Context Text
  Handlers Renderer ContextTheory RendererTheory Origin SpecPrinter StateTheory PropsText SpecRender.
Local Open Scope Z_scope.
Local Open Scope list_scope.

(** ** Characters *)
Definition all_ink (l : list text_span) : list ink := flat_map (fun s => inked s (s_text s)) l.
Lemma all_ink_app a b : all_ink (a ++ b) = all_ink a ++ all_ink b.
Proof. apply flat_map_app. Qed.
Lemma inked_app s a b : inked s (a ++ b) = inked s a ++ inked s b.
Proof. apply map_app. Qed.
Lemma style_dims d s : style_of (set_s_dimensions d s) = style_of s.
Proof. reflexivity. Qed.
Lemma style_clone t s : style_of (clone_with t s) = style_of s.
Proof. reflexivity. Qed.
Lemma get_dimensions_ok c s s' : get_dimensions c s = Ok s' ->
  exists w, span_width s = Ok w /\ s' = set_s_dimensions (Some (mk_dims (get_x c) (get_y c) w (s_character_height s))) s.
Proof. unfold get_dimensions. intros H. inv_bind H. injection H as <-. exists a. auto. Qed.
Lemma ink_dims s s' c : get_dimensions c s = Ok s' -> inked s' (s_text s') = inked s (s_text s).
Proof. intros H. destruct (get_dimensions_ok _ _ _ H) as (w & _ & ->). reflexivity. Qed.

Definition keep (t : ustring) : bool := negb (is_single 10 t || is_single 9 t).
(** with the pending characters not blank *)
Lemma words_shown : forall l cur, blank_free cur ->
  concat (filter keep (words_loop cur l)) =
  match cur with [] => shown true l | _ => cur ++ shown false l end.
Proof.
  induction l as [|c r IH]; intros cur Hc; cbn [words_loop].
  - destruct cur as [|a cur]; [reflexivity|]. cbn [filter].
    assert (K : keep (a :: cur) = true).
    { unfold keep. apply Forall_cons_iff in Hc. destruct Hc as (Ha & _).
      destruct cur; [|reflexivity]. cbn [is_single].
      destruct (Z.eqb_spec a 10) as [->|]; [discriminate|]. destruct (Z.eqb_spec a 9) as [->|]; [discriminate|]. reflexivity. }
    rewrite K. cbn [concat shown]. rewrite app_nil_r. reflexivity.
  - destruct (is_whitespace c) eqn:W.
    + cbn [filter]. destruct cur as [|a cur].
      * cbn [app]. unfold keep at 1. cbn [is_single shown andb].
        destruct (Z.eqb_spec c 10) as [->|N1].
        { cbn. exact (IH [] (Forall_nil _)). }
        destruct (Z.eqb_spec c 9) as [->|N2].
        { cbn. exact (IH [] (Forall_nil _)). }
        cbn [orb negb concat]. rewrite (IH [] (Forall_nil _)), W. reflexivity.
      * assert (K : keep ((a :: cur) ++ [c]) = true) by (unfold keep; destruct cur; reflexivity).
        rewrite K. cbn [concat]. rewrite (IH [] (Forall_nil _)). cbn [shown andb]. rewrite W, <- app_assoc. reflexivity.
    + rewrite IH by (apply Forall_app; split; [exact Hc | constructor; [exact W | constructor]]).
      assert (N : (c =? 9) || (c =? 10) = false).
      { destruct (Z.eqb_spec c 9) as [->|]; [discriminate|]. destruct (Z.eqb_spec c 10) as [->|]; [discriminate|]. reflexivity. }
      destruct cur as [|a cur]; cbn [app shown andb]; rewrite W.
      * rewrite N. reflexivity.
      * rewrite <- app_assoc. reflexivity.
Qed.
(** the ink of a word when it is placed *)
Definition word_ink (w : text_span) : list ink := if keep (s_text w) then inked w (s_text w) else [].
Lemma words_ink s : flat_map word_ink (break_into_words s) = span_ink s.
Proof.
  unfold break_into_words, span_ink. rewrite <- (words_shown (s_text s) [] (Forall_nil _)).
  generalize (words_loop [] (s_text s)) as l. induction l as [|t l IH]; [reflexivity|].
  cbn [map flat_map filter]. unfold word_ink at 1. cbn [clone_with s_text set_s_text].
  rewrite IH. destruct (keep t); [|reflexivity]. cbn [concat]. rewrite inked_app. reflexivity.
Qed.

Definition lay_ink (l : layout) : list ink := let '(_, lines, cur) := l in all_ink (concat lines ++ cur).
Lemma place_pieces_ink ps : forall l l', place_pieces ps l = Ok l' -> lay_ink l' = lay_ink l ++ all_ink ps.
Proof.
  induction ps as [|p r IH]; intros [[c lines] cur] l' H.
  - cbn in H. injection H as <-. cbn. now rewrite app_nil_r.
  - cbn [place_pieces] in H. destruct r as [|q r].
    + apply bind_ok in H. destruct H as (p' & Hp & H). repeat inv_bind H. injection H as <-.
      unfold lay_ink. rewrite !all_ink_app. unfold all_ink at 3. cbn [flat_map]. rewrite (ink_dims _ _ _ Hp).
      unfold all_ink. cbn [flat_map]. rewrite app_assoc. reflexivity.
    + apply bind_ok in H. destruct H as (p' & Hp & H). inv_bind H. apply IH in H. rewrite H.
      unfold lay_ink. rewrite concat_app. cbn [concat]. rewrite !app_nil_r, !all_ink_app.
      change (all_ink (p :: q :: r)) with (inked p (s_text p) ++ all_ink (q :: r)).
      unfold all_ink at 3. cbn [flat_map]. rewrite (ink_dims _ _ _ Hp), app_nil_r, <- !app_assoc. reflexivity.
Qed.
Lemma break_apart_ink w f n ps : break_apart w f n = Ok ps -> 0 <= f -> 0 < n ->
  all_ink ps = inked w (s_text w).
Proof.
  intros H Hf Hn. destruct (C25_break_apart w f n Hf Hn) as (a & r & E & T & _).
  rewrite H in E. injection E as ->. rewrite <- T.
  assert (X : Forall (fun p => style_of p = style_of w) (a :: r)).
  { unfold break_apart in H. destruct (n =? 0); [discriminate|]. cbv zeta in H. injection H as <- <-.
    constructor; [reflexivity|]. apply Forall_forall. intros p Hp. apply in_map_iff in Hp. destruct Hp as (t & <- & _). reflexivity. }
  clear - X. induction X as [|p l Hp X IH]; [reflexivity|].
  cbn [map concat]. rewrite inked_app, <- IH. unfold all_ink. cbn [flat_map]. f_equal.
  unfold inked. rewrite Hp. reflexivity.
Qed.

Lemma div_u_nonneg a b v : 0 <= a -> 0 <= b -> div_u a b = Ok v -> 0 <= v /\ 0 < b /\ v = a / b.
Proof.
  intros Ha Hb H. unfold div_u in H. destruct (Z.eqb_spec b 0) as [->|N]; [discriminate|]. injection H as <-.
  split; [apply Z.div_pos; lia | split; [lia | reflexivity]].
Qed.
Lemma avail_nonneg c : 0 <= get_available_width c.
Proof. unfold get_available_width, sat_sub. destruct (p_enabled _); [lia|]. destruct (_ <=? _); lia. Qed.

Lemma place_word_ink mw w l l' : 0 <= mw -> 0 <= s_character_width w ->
  place_word mw w l = Ok l' -> lay_ink l' = lay_ink l ++ word_ink w.
Proof.
  intros Hmw Hcw H. destruct l as [[c lines] cur].
  unfold word_ink, keep.
  destruct (list_eq_dec Z.eq_dec (s_text w) [10]) as [E|N].
  { unfold place_word in H. rewrite E in *. inv_bind H. cbn [is_single Z.eqb] in *. cbn in H. inv_bind H. injection H as <-.
    cbn. rewrite concat_app. cbn [concat]. rewrite !app_nil_r. reflexivity. }
  destruct (list_eq_dec Z.eq_dec (s_text w) [9]) as [E|N'].
  { unfold place_word in H. rewrite E in *. inv_bind H. cbn [is_single Z.eqb] in *. cbn in H. inv_bind H. injection H as <-.
    cbn. rewrite app_nil_r. reflexivity. }
  rewrite (place_word_text _ _ _ _ _ N N') in H.
  rewrite (is_single_no 10 _ N), (is_single_no 9 _ N'). cbn [orb negb].
  apply bind_ok in H. destruct H as (ww & Hww & H).
  destruct (ww <=? get_available_width c).
  { apply bind_ok in H. destruct H as (w' & Hw' & H). inv_bind H. injection H as <-.
    unfold lay_ink. rewrite !all_ink_app. unfold all_ink at 3. cbn [flat_map]. rewrite (ink_dims _ _ _ Hw'), app_nil_r, app_assoc. reflexivity. }
  destruct (mw <? ww).
  { apply bind_ok in H. destruct H as (first & Hf & H). apply bind_ok in H. destruct H as (rest & Hr & H).
    apply bind_ok in H. destruct H as (ps & Hp & H).
    destruct (div_u_nonneg _ _ _ (avail_nonneg c) Hcw Hf) as (F0 & C0 & _).
    rewrite (place_pieces_ink _ _ _ H). f_equal. apply (break_apart_ink _ _ _ _ Hp F0). lia. }
  apply bind_ok in H. destruct H as (c1 & Hc1 & H). apply bind_ok in H. destruct H as (w' & Hw' & H). inv_bind H. injection H as <-.
  unfold lay_ink. rewrite concat_app. cbn [concat]. rewrite app_nil_r, !all_ink_app.
  unfold all_ink at 3. cbn [flat_map]. rewrite (ink_dims _ _ _ Hw'), app_nil_r. reflexivity.
Qed.
Lemma layout_words_ink ws c c' lines : 0 <= get_width c -> Forall (fun w => 0 <= s_character_width w) ws ->
  layout_words ws c = Ok (c', lines) -> all_ink (concat lines) = flat_map word_ink ws.
Proof.
  intros Hw F H. unfold layout_words in H. apply bind_ok in H. destruct H as ([[c1 l1] cur] & Ha & H). injection H as <- <-.
  assert (G : forall ws l l', Forall (fun w => 0 <= s_character_width w) ws ->
     fold_res (place_word (get_width c)) ws l = Ok l' -> lay_ink l' = lay_ink l ++ flat_map word_ink ws).
  { clear - Hw. induction ws as [|w ws IH]; intros l l' F H; cbn [fold_res] in H.
    - injection H as <-. cbn. now rewrite app_nil_r.
    - apply Forall_cons_iff in F. destruct F as (F1 & F2). apply bind_ok in H. destruct H as (l1 & H1 & H).
      rewrite (IH _ _ F2 H), (place_word_ink _ _ _ _ Hw F1 H1). cbn [flat_map]. rewrite app_assoc. reflexivity. }
  apply (G _ _ _ F) in Ha. cbn [lay_ink concat app all_ink flat_map] in Ha. rewrite <- Ha.
  destruct cur; [rewrite app_nil_r; reflexivity|]. rewrite concat_app. cbn [concat]. now rewrite app_nil_r.
Qed.

Lemma drawn_app a b : drawn (a ++ b) = drawn a ++ drawn b.
Proof. apply flat_map_app. Qed.
Lemma render_lines_drawn lines : forall s s', fold_res render_line lines s = Ok s' ->
  drawn (rs_calls s') = drawn (rs_calls s) ++ all_ink (concat lines).
Proof.
  induction lines as [|l r IH]; intros s s' H; cbn [fold_res] in H.
  - injection H as <-. cbn. now rewrite app_nil_r.
  - apply bind_ok in H. destruct H as (s1 & H1 & H). rewrite (IH _ _ H). cbn [concat]. rewrite all_ink_app, app_assoc. f_equal.
    unfold render_line in H1. destruct l as [|f l].
    + injection H1 as <-. cbn. now rewrite app_nil_r.
    + repeat inv_bind H1. injection H1 as <-. cbn [call rs_calls]. rewrite drawn_app. cbn. rewrite app_nil_r. reflexivity.
Qed.

Definition wide (s : text_span) : Prop := 0 < s_character_width s.
Lemma words_wide l : Forall wide l -> Forall wide (flat_map break_into_words l).
Proof.
  intros F. apply Forall_forall. intros w Hw. apply in_flat_map in Hw. destruct Hw as (s & Hs & Hw).
  unfold break_into_words in Hw. apply in_map_iff in Hw. destruct Hw as (t & <- & _).
  exact (proj1 (Forall_forall _ _) F _ Hs).
Qed.
Lemma process_text_ink s s' : 0 <= get_width (rs_ctx s) -> Forall wide (rs_spans s) ->
  process_text s = Ok s' -> drawn (rs_calls s') = drawn (rs_calls s) ++ pending s /\ pending s' = [] .
Proof.
  intros W F H. unfold process_text in H. unfold pending. destruct (rs_spans s) as [|x r] eqn:E.
  - injection H as <-. rewrite E. cbn. rewrite app_nil_r. auto.
  - apply bind_ok in H. destruct H as ((c & lines) & Hl & H).
    destruct (render_lines_quiet _ _ _ H) as (_ & _ & S). cbn [with_ctx with_spans rs_spans] in S. rewrite S. split; [|reflexivity].
    rewrite (render_lines_drawn _ _ _ H). cbn [with_ctx with_spans rs_calls]. f_equal.
    rewrite (layout_words_ink _ _ _ _ W (Forall_impl _ (fun a (Ha : wide a) => Z.lt_le_incl _ _ Ha) (words_wide _ F)) Hl).
    generalize (x :: r) as l. clear. induction l as [|a l IH]; [reflexivity|].
    cbn [flat_map]. rewrite flat_map_app, words_ink, IH. reflexivity.
Qed.
