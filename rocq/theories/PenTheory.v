(** * PenTheory: how far the pen moves when text is printed (used by C49 and later). *)
From Verif Require Import Base Command CommandSet Parser Vec Float32 GTypes Graphics Decoder Context Text
  Handlers Renderer ContextTheory RendererTheory Origin SpecPrinter StateTheory PropsText SpecRender LayoutTheory AreaTheory PlaceTheory SafeTheory.
Local Open Scope Z_scope.
Local Open Scope list_scope.

(** ** Movements that succeeded *)
Lemma went_x v x y c c' : standard c -> offset_x v (at_xy x y c) = Ok c' -> c' = at_xy (x + v) y c.
Proof.
  destruct c as [d [t b q [[ax ay aw ah] rc pa dpi h u r st bu] p]]. intros S H. ctx_open. rewrite S in H.
  apply bind_ok in H. destruct H as (n & Hn & H). unfold add_u32, chk in Hn. destruct (_ && _); [|discriminate]. injection Hn as <-. injection H as <-. reflexivity.
Qed.
Lemma went_y v x y c c' : standard c -> offset_y v (at_xy x y c) = Ok c' -> c' = at_xy x (y + v) c.
Proof.
  destruct c as [d [t b q [[ax ay aw ah] rc pa dpi h u r st bu] p]]. intros S H. ctx_open. rewrite S in H.
  apply bind_ok in H. destruct H as (n & Hn & H). unfold add_u32, chk in Hn. destruct (_ && _); [|discriminate]. injection Hn as <-. injection H as <-. reflexivity.
Qed.
Lemma went_lines n x y c c' : standard c -> newline n (at_xy x y c) = Ok c' -> c' = at_xy 0 (y + t_line_spacing (c_text c) * n) c.
Proof.
  intros S H. unfold newline in H. cbv zeta in H. rewrite at_text, at_reset in H by exact S. apply bind_ok in H. destruct H as (v & Hv & H).
  unfold mul_u32, chk in Hv. destruct (_ && _); [|discriminate]. injection Hv as <-. exact (went_y _ _ _ _ _ S H).
Qed.
Lemma line_pos n c c' : newline n c = Ok c' -> get_x c' = get_base_x c /\ get_y c' = get_y c + t_line_spacing (c_text c) * n.
Proof.
  unfold newline. cbv zeta. intros H. apply bind_ok in H. destruct H as (v & Hv & H). unfold mul_u32, chk in Hv. destruct (_ && _); [|discriminate]. injection Hv as <-.
  destruct (offset_y_pos _ _ _ H) as (Y & X). destruct (reset_x_pos c) as (X0 & Y0). rewrite X, Y, X0, Y0. auto.
Qed.

(** ** The band of paper printed text lies in *)
Definition in_band (y0 y1 : Z) (s : text_span) : Prop := exists d, s_dimensions s = Some d /\ y0 <= d_y d <= y1.
Lemma in_band_more y0 y1 y2 s : in_band y0 y1 s -> y1 <= y2 -> in_band y0 y2 s.
Proof. intros (d & D & B) L. exists d. split; [exact D | lia]. Qed.
Definition banded (c0 : context) (l : layout) : Prop :=
  moved c0 (lay_ctx l) /\ get_y c0 <= get_y (lay_ctx l) /\ Forall (in_band (get_y c0) (get_y (lay_ctx l))) (concat (snd (fst l)) ++ snd l).

Section Band.
Variable c0 : context.
Hypothesis spacing : 0 <= t_line_spacing (c_text c0).
Lemma banded_put c lines cur p p' w c' : banded c0 (c, lines, cur) -> get_dimensions c p = Ok p' -> offset_x w c = Ok c' -> banded c0 (c', lines, cur ++ [p']).
Proof.
  intros (M & Y & F) D O. destruct (get_dimensions_ok _ _ _ D) as (w' & W' & ->). destruct (offset_x_pos _ _ _ O) as (X & Y').
  unfold banded in *. cbn [lay_ctx fst snd] in *. rewrite Y'. split; [exact (moved_trans _ _ _ M (offset_x_moved _ _ _ O))|]. split; [exact Y|].
  rewrite app_assoc. apply Forall_app. split; [exact F|]. constructor; [|constructor]. eexists. split; [reflexivity|]. cbn [d_y]. lia.
Qed.
Lemma banded_break c lines cur c' : banded c0 (c, lines, cur) -> newline_for_spans cur c = Ok c' -> banded c0 (c', lines ++ [cur], []).
Proof.
  intros (M & Y & F) N. destruct (newline_pos _ _ _ N) as (X & Y'). unfold banded in *. cbn [lay_ctx fst snd] in *.
  rewrite (moved_text _ _ M) in Y'. pose proof (tallest_ge cur (t_line_spacing (c_text c0))).
  split; [exact (moved_trans _ _ _ M (newline_for_spans_moved _ _ _ N))|]. split; [lia|].
  rewrite concat_app. cbn [concat]. rewrite !app_nil_r. eapply Forall_impl; [|exact F]. intros a B. apply (in_band_more _ _ _ _ B). lia.
Qed.
Lemma banded_put_break c lines cur p p' c' : banded c0 (c, lines, cur) -> get_dimensions c p = Ok p' -> newline_for_spans (cur ++ [p']) c = Ok c' -> banded c0 (c', lines ++ [cur ++ [p']], []).
Proof.
  intros (M & Y & F) D N. apply (banded_break c); [|exact N]. split; [exact M|]. split; [exact Y|]. cbn [lay_ctx fst snd] in *.
  destruct (get_dimensions_ok _ _ _ D) as (w' & W' & ->).
  rewrite app_assoc. apply Forall_app. split; [exact F|]. constructor; [|constructor]. eexists. split; [reflexivity|]. cbn [d_y]. lia.
Qed.
Lemma pieces_banded ps : forall c lines cur l', banded c0 (c, lines, cur) -> place_pieces ps (c, lines, cur) = Ok l' -> banded c0 l'.
Proof.
  induction ps as [|p r IH]; intros c lines cur l' L H; cbn [place_pieces] in H.
  - injection H as <-. exact L.
  - destruct r as [|q r].
    + apply bind_ok in H. destruct H as (p' & D & H). apply bind_ok in H. destruct H as (w & W & H). apply bind_ok in H. destruct H as (c' & O & H).
      injection H as <-. exact (banded_put _ _ _ _ _ _ _ L D O).
    + apply bind_ok in H. destruct H as (p' & D & H). apply bind_ok in H. destruct H as (c' & O & H).
      exact (IH _ _ _ _ (banded_put_break _ _ _ _ _ _ L D O) H).
Qed.
Lemma tab_level tabs cw cx : forall pos c c', tab_walk tabs cw cx pos c = Ok c' -> get_y c' = get_y c.
Proof.
  induction tabs as [|t r IH]; intros pos c c' H; cbn [tab_walk] in H.
  - injection H as <-. reflexivity.
  - destruct (Z.leb_spec cx pos) as [L|_].
    + exact (proj2 (set_x_pos _ _ _ H)).
    + apply bind_ok in H. destruct H as (w & _ & H). apply bind_ok in H. destruct H as (p' & _ & H). exact (IH _ _ _ H).
Qed.
Lemma word_banded mw w l l' : banded c0 l -> place_word mw w l = Ok l' -> banded c0 l'.
Proof.
  intros L H. destruct l as [[c lines] cur]. unfold place_word in H. apply bind_ok in H. destruct H as (ww & _ & H).
  destruct (is_single 10 (s_text w)).
  { apply bind_ok in H. destruct H as (c' & Hc & H). injection H as <-. destruct (banded_break _ _ _ _ L Hc) as (A & B & C).
    split; [exact A|]. split; [exact B|]. cbn [lay_ctx fst snd] in *. change [cur; []] with ([cur] ++ [[]]). rewrite app_assoc, concat_app. cbn [concat]. rewrite !app_nil_r in *. exact C. }
  destruct (is_single 9 (s_text w)).
  { apply bind_ok in H. destruct H as (c' & Hc & H). injection H as <-. destruct L as (A & B & C). unfold banded. cbn [lay_ctx fst snd] in *.
    rewrite (tab_level _ _ _ _ _ _ Hc). split; [exact (moved_trans _ _ _ A (tab_walk_moved _ _ _ _ _ _ Hc))|]. auto. }
  destruct (ww <=? get_available_width c).
  { apply bind_ok in H. destruct H as (w' & Hw' & H). apply bind_ok in H. destruct H as (c' & O & H). injection H as <-. exact (banded_put _ _ _ _ _ _ _ L Hw' O). }
  destruct (mw <? ww).
  { apply bind_ok in H. destruct H as (first & Hf & H). apply bind_ok in H. destruct H as (rest & Hr & H). apply bind_ok in H. destruct H as (ps & Hp & H).
    exact (pieces_banded _ _ _ _ _ L H). }
  apply bind_ok in H. destruct H as (c1 & Hc1 & H). apply bind_ok in H. destruct H as (w' & Hw' & H). apply bind_ok in H. destruct H as (c2 & O & H). injection H as <-.
  exact (banded_put _ _ _ _ _ _ _ (banded_break _ _ _ _ L Hc1) Hw' O).
Qed.
Lemma words_banded mw ws : forall l l', banded c0 l -> fold_res (place_word mw) ws l = Ok l' -> banded c0 l'.
Proof.
  induction ws as [|w ws IH]; intros l l' L H; cbn [fold_res] in H.
  - injection H as <-. exact L.
  - apply bind_ok in H. destruct H as (l1 & H1 & H). exact (IH _ _ (word_banded _ _ _ _ L H1) H).
Qed.
End Band.

(** the pieces a call prints *)
Definition pieces_of (calls : list (context * event)) : list text_span :=
  flat_map (fun x => match snd x with EText l _ _ _ => l | _ => [] end) calls.
Lemma pieces_of_app a b : pieces_of (a ++ b) = pieces_of a ++ pieces_of b.
Proof. apply flat_map_app. Qed.
(** the offset a line is given *)
Definition framed_call (x : context * event) : Prop :=
  match snd x with
  | EText (f :: r) off h j => j = s_justify f /\ h = line_height (f :: r) /\ exists w, line_width (f :: r) 0 = Ok w /\ line_offset j (get_width (fst x)) w = Ok off
  | _ => False
  end.
Lemma render_lines_calls lines : forall s s', fold_res render_line lines s = Ok s' ->
  exists new, rs_calls s' = rs_calls s ++ new /\ pieces_of new = concat lines /\ Forall is_text_call new /\ Forall framed_call new /\
    Forall (fun x => fst x = rs_ctx s) new /\ rs_ctx s' = rs_ctx s /\ rs_spans s' = rs_spans s /\ rs_errors s' = rs_errors s.
Proof.
  induction lines as [|l r IH]; intros s s' H; cbn [fold_res] in H.
  - injection H as <-. exists []. rewrite app_nil_r. auto 10.
  - apply bind_ok in H. destruct H as (s1 & H1 & H). destruct (IH _ _ H) as (new & L & C & T & F & FX & X & Sp & E).
    unfold render_line in H1. destruct l as [|f l].
    + injection H1 as <-. exists new. cbn [concat app]. auto 10.
    + cbv zeta in H1. apply bind_ok in H1. destruct H1 as (w & Hw & H1). apply bind_ok in H1. destruct H1 as (off & Ho & H1). injection H1 as <-.
      cbn [call rs_calls rs_ctx rs_spans rs_errors] in *. eexists. split; [rewrite L, <- app_assoc; reflexivity|].
      rewrite pieces_of_app, C. split; [cbn [pieces_of flat_map snd concat]; rewrite app_nil_r; reflexivity|].
      split; [constructor; [exact Logic.I | exact T]|]. split; [constructor; [|exact F]|].
      * cbn [framed_call snd fst]. eauto 10.
      * split; [constructor; [reflexivity | exact FX]|]. auto.
Qed.
(** Printing the waiting text: only text is printed, between the line the pen was on and the line it
    is on afterwards. *)
Lemma flush_band s s' : sinv (rs_ctx s) -> process_text s = Ok s' ->
  exists new, rs_calls s' = rs_calls s ++ new /\ Forall is_text_call new /\ Forall framed_call new /\ Forall (fun x => moved (rs_ctx s) (fst x)) new /\
    Forall (in_band (get_y (rs_ctx s)) (get_y (rs_ctx s'))) (pieces_of new) /\ get_y (rs_ctx s) <= get_y (rs_ctx s') /\ rs_spans s' = [] /\
    (rs_spans s = [] -> s' = s).
Proof.
  intros S H. unfold process_text in H. destruct (rs_spans s) as [|x r] eqn:Es.
  { injection H as <-. exists []. rewrite app_nil_r. split; [reflexivity|]. split; [constructor|]. split; [constructor|]. split; [constructor|]. split; [constructor|]. split; [lia|]. auto. }
  apply bind_ok in H. destruct H as ((c & lines) & Hl & H). unfold layout_words in Hl.
  apply bind_ok in Hl. destruct Hl as ([[c1 l1] cur] & Ha & Hl). injection Hl as -> <-.
  assert (B0 : banded (rs_ctx s) (rs_ctx s, [], [])).
  { split; [apply moved_refl|]. split; [cbn [lay_ctx fst]; lia | constructor]. }
  destruct (words_banded _ (proj1 (tk_spacing _ (si_text _ S))) _ _ _ _ B0 Ha) as (M & Y & F). cbn [lay_ctx fst snd] in *.
  set (all := match cur with [] => l1 | _ :: _ => l1 ++ [cur] end) in *.
  assert (EC : concat all = concat l1 ++ cur).
  { unfold all. destruct cur; [rewrite app_nil_r; reflexivity|]. rewrite concat_app. cbn [concat]. rewrite app_nil_r. reflexivity. }
  destruct (render_lines_calls _ _ _ H) as (new & E & C & T & Fr & FX & X & Sp & _). cbn [with_ctx with_spans rs_calls rs_ctx rs_spans] in *.
  exists new. rewrite X, C, EC. split; [exact E|]. split; [exact T|]. split; [exact Fr|]. split.
  - eapply Forall_impl; [|exact FX]. intros a ->. exact M.
  - split; [exact F|]. split; [exact Y|]. split; [exact Sp|]. discriminate.
Qed.
