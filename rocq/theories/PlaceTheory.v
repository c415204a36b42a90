(** * PlaceTheory: where the layout of text puts the words (used by PropsLayout). *)
From Verif Require Import Base Command CommandSet Parser Vec Float32 GTypes Graphics Decoder Context Text
  Handlers Renderer ContextTheory RendererTheory Origin SpecPrinter StateTheory PropsText SpecRender LayoutTheory AreaTheory.
Local Open Scope Z_scope.
Local Open Scope list_scope.

(** ** The pen *)
Lemma moved_base_x c c' : moved c c' -> get_base_x c' = get_base_x c.
Proof. intros M. unfold get_base_x. rewrite (moved_enabled _ _ M), (moved_page_area _ _ M). reflexivity. Qed.
Lemma reset_x_pos c : get_x (reset_x c) = get_base_x c /\ get_y (reset_x c) = get_y c.
Proof.
  unfold reset_x, get_x, get_y, get_base_x. destruct c as [d [t b q g p]]; unfold c_page, c_graphics, upd_page, upd_gra, upd_graphics, upd_now; cbn.
  destruct (p_enabled p) eqn:E; cbn; rewrite E; auto.
Qed.
Lemma offset_x_pos w c c' : offset_x w c = Ok c' -> get_x c' = get_x c + w /\ get_y c' = get_y c.
Proof.
  unfold offset_x, in_page, pm_offset_x, get_x, get_y. intros H. destruct c as [d [t b q g p]].
  unfold c_page, c_graphics, upd_page, upd_gra, upd_graphics, upd_now in *; cbn in *.
  destruct (p_enabled p) eqn:E; repeat (apply bind_ok in H; let v := fresh "v" in let Hv := fresh "Hv" in destruct H as (v & Hv & H)); injection H as <-;
    repeat match goal with Hv : bind _ _ = Ok _ |- _ => apply bind_ok in Hv; let u := fresh "u" in let Hu := fresh "Hu" in destruct Hv as (u & Hu & Hv); injection Hv as <- end;
    match goal with Ha : add_u32 _ _ = Ok _ |- _ => apply add_u32v in Ha; destruct Ha as (-> & _) end; cbn; rewrite E; auto.
Qed.
Lemma offset_y_pos w c c' : offset_y w c = Ok c' -> get_y c' = get_y c + w /\ get_x c' = get_x c.
Proof.
  unfold offset_y, in_page, pm_offset_y, get_x, get_y. intros H. destruct c as [d [t b q g p]].
  unfold c_page, c_graphics, upd_page, upd_gra, upd_graphics, upd_now in *; cbn in *.
  destruct (p_enabled p) eqn:E; repeat (apply bind_ok in H; let v := fresh "v" in let Hv := fresh "Hv" in destruct H as (v & Hv & H)); injection H as <-;
    repeat match goal with Hv : bind _ _ = Ok _ |- _ => apply bind_ok in Hv; let u := fresh "u" in let Hu := fresh "Hu" in destruct Hv as (u & Hu & Hv); injection Hv as <- end;
    match goal with Ha : add_u32 _ _ = Ok _ |- _ => apply add_u32v in Ha; destruct Ha as (-> & _) end; cbn; rewrite E; auto.
Qed.
Lemma set_x_pos x c c' : set_x x c = Ok c' -> get_x c' = get_base_x c + x /\ get_y c' = get_y c.
Proof.
  unfold set_x, in_page, pm_set_x, get_x, get_y, get_base_x. intros H. destruct c as [d [t b q g p]].
  unfold c_page, c_graphics, upd_page, upd_gra, upd_graphics, upd_now in *; cbn in *.
  destruct (p_enabled p) eqn:E; repeat (apply bind_ok in H; let v := fresh "v" in let Hv := fresh "Hv" in destruct H as (v & Hv & H)); injection H as <-;
    repeat match goal with Hv : bind _ _ = Ok _ |- _ => apply bind_ok in Hv; let u := fresh "u" in let Hu := fresh "Hu" in destruct Hv as (u & Hu & Hv); injection Hv as <- end;
    try match goal with Ha : add_u32 _ _ = Ok _ |- _ => apply add_u32v in Ha; destruct Ha as (-> & _) end; cbn; rewrite E; auto.
Qed.
Definition tallest (spans : list text_span) (h : Z) : Z := fold_left (fun h s => Z.max h (s_character_height s)) spans h.
Lemma tallest_ge spans : forall h, h <= tallest spans h.
Proof. induction spans as [|s l IH]; intros h; cbn [tallest fold_left]; [lia|]. specialize (IH (Z.max h (s_character_height s))). unfold tallest in IH. lia. Qed.
Lemma tallest_in spans s : In s spans -> forall h, s_character_height s <= tallest spans h.
Proof.
  induction spans as [|t l IH]; intros Hi h; [destruct Hi|]. cbn [tallest fold_left]. destruct Hi as [->|Hi].
  - pose proof (tallest_ge l (Z.max h (s_character_height s))) as G. unfold tallest in G. lia.
  - exact (IH Hi _).
Qed.
Lemma newline_pos l c c' : newline_for_spans l c = Ok c' ->
  get_x c' = get_base_x c /\ get_y c' = get_y c + tallest l (t_line_spacing (c_text c)).
Proof.
  unfold newline_for_spans. cbv zeta. intros H. destruct (offset_y_pos _ _ _ H) as (Y & X).
  destruct (reset_x_pos c) as (X0 & Y0). rewrite X, Y, X0, Y0. auto.
Qed.
Lemma tab_pos tabs cw cx : forall pos c c', uinv c -> tab_walk tabs cw cx pos c = Ok c' -> cx = get_x c ->
  get_x c <= get_x c' /\ get_y c' = get_y c.
Proof.
  induction tabs as [|t r IH]; intros pos c c' U H E; cbn [tab_walk] in H.
  - injection H as <-. split; lia.
  - destruct (Z.leb_spec cx pos) as [L|_].
    + destruct (set_x_pos _ _ _ H) as (X & Y). rewrite X. split; [|exact Y]. pose proof (proj1 (base_x_u _ U)). lia.
    + apply bind_ok in H. destruct H as (w & _ & H). apply bind_ok in H. destruct H as (p' & _ & H). exact (IH _ _ _ U H E).
Qed.
Lemma avail_right c w : 0 < w -> w <= get_available_width c -> get_x c + w <= right_edge c.
Proof.
  unfold get_available_width, right_edge, get_width, get_x, get_base_x, sat_sub. destruct (p_enabled _); [lia|].
  destruct (Z.leb_spec (a_x (g_render_area (c_graphics c))) (a_w (g_render_area (c_graphics c)))); lia.
Qed.
Lemma avail_left c w : get_available_width c < w -> w <= get_width c -> right_edge c < get_x c + w.
Proof.
  unfold get_available_width, right_edge, get_width, get_x, get_base_x, sat_sub. destruct (p_enabled _); [lia|].
  destruct (Z.leb_spec (a_x (g_render_area (c_graphics c))) (a_w (g_render_area (c_graphics c)))); lia.
Qed.
Lemma span_width_v s w : span_width s = Ok w -> w = vlen (s_text s) * s_character_width s /\ 0 <= w.
Proof. unfold span_width, character_count. intros H. apply mul_u32v in H. destruct H as (-> & U). destruct U. split; [reflexivity|assumption]. Qed.

(** ** Lists of pairs *)
Lemma fop_snoc {A} (R : A -> A -> Prop) l x : ForallOrdPairs R l -> Forall (fun a => R a x) l -> ForallOrdPairs R (l ++ [x]).
Proof.
  induction l as [|a l IH]; intros O F; cbn.
  - constructor; constructor.
  - inversion O; subst. inversion F; subst. constructor; [apply Forall_app; auto | auto].
Qed.

Definition at_line (y x : Z) (s : text_span) : Prop :=
  exists d, s_dimensions s = Some d /\ d_y d = y /\ d_x d + d_w d <= x /\ d_h d = s_character_height s.
Definition above (y : Z) (s : text_span) : Prop := exists d, s_dimensions s = Some d /\ d_y d + d_h d <= y.
Definition lay_ctx' (l : layout) : context := fst (fst l).
(** a line laid without gaps from [x] to [e] *)
Fixpoint gapless (x : Z) (l : list text_span) (e : Z) : Prop :=
  match l with
  | [] => x = e
  | s :: r => exists d, s_dimensions s = Some d /\ d_x d = x /\ span_width s = Ok (d_w d) /\ gapless (x + d_w d) r e
  end.
Lemma gapless_snoc l : forall x m s d, gapless x l m -> s_dimensions s = Some d -> d_x d = m -> span_width s = Ok (d_w d) ->
  gapless x (l ++ [s]) (m + d_w d).
Proof.
  induction l as [|a l IH]; intros x m s d G D X W; cbn in *.
  - subst. exists d. auto.
  - destruct G as (da & Da & Xa & Wa & G). exists da. split; [exact Da | split; [exact Xa | split; [exact Wa | exact (IH _ _ _ _ G D X W)]]].
Qed.
Definition last_at (l : list text_span) (x y : Z) : Prop :=
  forall s, last (map Some l) None = Some s -> exists d, s_dimensions s = Some d /\ d_x d + d_w d = x /\ d_y d = y.
Definition chain (R : text_span -> text_span -> Prop) (l : list text_span) : Prop :=
  forall pre a b post, l = pre ++ a :: b :: post -> R a b.
Lemma last_snoc {A} (l : list A) x d : last (l ++ [x]) d = x.
Proof. apply last_last. Qed.
Lemma chain_snoc R l x : chain R l -> (forall a, last (map Some l) None = Some a -> R a x) -> chain R (l ++ [x]).
Proof.
  intros C L pre a b post E. destruct post as [|p post] using rev_ind.
  - change (pre ++ [a; b]) with (pre ++ [a] ++ [b]) in E. rewrite app_assoc in E. apply app_inj_tail in E. destruct E as (-> & ->).
    apply L. rewrite map_app. cbn. apply last_last.
  - clear IHpost. assert (E' : l ++ [x] = (pre ++ a :: b :: post) ++ [p]) by (rewrite E, <- app_assoc; reflexivity).
    apply app_inj_tail in E'. destruct E' as (-> & _). exact (C _ _ _ _ eq_refl).
Qed.

(** ** The invariant of the layout loop *)
Section Layout.
Variables (base edge : Z) (fit run : Prop).

(** the finished lines, the line in progress, and the pen *)
Record core (lines : list (list text_span)) (cur : list text_span) (x y : Z) : Prop := mk_core {
  ld_order : ForallOrdPairs reads_before (concat lines ++ cur);
  ld_above : Forall (above y) (concat lines);
  ld_line : Forall (at_line y x) cur;
  ld_fit : fit -> Forall (ends_within edge 0) (concat lines ++ cur);
  ld_gap : run -> gapless base cur x;
  ld_gaps : run -> Forall (fun line => exists e, gapless base line e) lines }.

Lemma core_put lines cur x y p d : core lines cur x y -> s_dimensions p = Some d ->
  d_x d = x -> d_y d = y -> d_h d = s_character_height p -> span_width p = Ok (d_w d) ->
  (fit -> s_text p <> [] -> x + d_w d <= edge) -> core lines (cur ++ [p]) (x + d_w d) y.
Proof.
  intros [O A L F G Gs] D X Y Hh W Fit. destruct (span_width_v _ _ W) as (_ & W0). constructor.
  - rewrite app_assoc. apply fop_snoc; [exact O|]. apply Forall_app. split.
    + eapply Forall_impl; [|exact A]. intros a (da & Da & Ha). unfold reads_before. rewrite Da, D. left. lia.
    + eapply Forall_impl; [|exact L]. intros a (da & Da & Ya & Xa & _). unfold reads_before. rewrite Da, D. right. lia.
  - exact A.
  - apply Forall_app. split.
    + eapply Forall_impl; [|exact L]. intros a (da & Da & Ya & Xa & Ha). exists da. split; [exact Da | split; [exact Ya | split; [lia | exact Ha]]].
    + constructor; [|constructor]. exists d. split; [exact D | split; [exact Y | split; [lia | exact Hh]]].
  - intros f. rewrite app_assoc. apply Forall_app. split; [exact (F f)|]. constructor; [|constructor].
    intros N. exists d. split; [exact D|]. specialize (Fit f N). lia.
  - intros r. exact (gapless_snoc _ _ _ _ _ (G r) D X W).
  - exact Gs.
Qed.
Lemma core_break lines cur x y sp y' : core lines cur x y -> 0 <= sp -> y' = y + tallest cur sp ->
  core (lines ++ [cur]) [] base y'.
Proof.
  intros [O A L F G Gs] S Y. pose proof (tallest_ge cur sp) as T. constructor.
  - rewrite concat_app. cbn [concat]. rewrite !app_nil_r. exact O.
  - rewrite concat_app. cbn [concat]. rewrite app_nil_r. apply Forall_app. split.
    + eapply Forall_impl; [|exact A]. intros a (da & Da & Ha). exists da. split; [exact Da|lia].
    + apply Forall_forall. intros a Ha. destruct (proj1 (Forall_forall _ _) L _ Ha) as (da & Da & Ya & _ & Hh).
      exists da. split; [exact Da|]. pose proof (tallest_in cur a Ha sp). lia.
  - constructor.
  - intros f. rewrite concat_app. cbn [concat]. rewrite !app_nil_r. exact (F f).
  - intros _. reflexivity.
  - intros r. apply Forall_app. split; [exact (Gs r)|]. constructor; [|constructor]. exists x. exact (G r).
Qed.
Lemma core_blank lines x y : core lines [] x y -> core (lines ++ [[]]) [] x y.
Proof.
  intros [O A L F G Gs]. constructor; try rewrite concat_app; cbn [concat]; rewrite ?app_nil_r in *; auto.
  intros r. apply Forall_app. split; [exact (Gs r)|]. constructor; [|constructor]. exists base. reflexivity.
Qed.
Lemma core_tab lines cur x y x' : core lines cur x y -> x <= x' -> ~ run -> core lines cur x' y.
Proof.
  intros [O A L F G Gs] X N. constructor; auto; try (intros r; contradiction).
  eapply Forall_impl; [|exact L]. intros a (da & Da & Ya & Xa & Ha). exists da. split; [exact Da | split; [exact Ya | split; [lia | exact Ha]]].
Qed.
End Layout.

Lemma pieces_len n l : pieces n l -> forall t, In t l -> (length t <= n)%nat.
Proof. induction 1; intros x Hx; cbn in Hx; [contradiction | destruct Hx as [->|[]]; assumption | destruct Hx as [->|Hx]; [lia | auto]]. Qed.

Section Steps.
Variables (c0 : context) (fit run : Prop).
Hypothesis spacing : 0 <= t_line_spacing (c_text c0).

Record laid (l : layout) : Prop := mk_laid {
  ld_moved : moved c0 (lay_ctx l);
  ld_u : uinv (lay_ctx l);
  ld_core : core (get_base_x c0) (right_edge c0) fit run (snd (fst l)) (snd l) (get_x (lay_ctx l)) (get_y (lay_ctx l)) }.

Lemma moved_edge c c' : moved c c' -> right_edge c' = right_edge c.
Proof. intros M. unfold right_edge. rewrite (moved_base_x _ _ M), (moved_width _ _ M). reflexivity. Qed.

Lemma laid_put c lines cur p p' w c' : laid (c, lines, cur) -> get_dimensions c p = Ok p' -> span_width p = Ok w -> offset_x w c = Ok c' ->
  (fit -> s_text p <> [] -> get_x c + w <= right_edge c0) -> laid (c', lines, cur ++ [p']).
Proof.
  intros [M U C] D W O F. destruct (get_dimensions_ok _ _ _ D) as (w' & W' & ->). rewrite W in W'. injection W' as <-.
  destruct (offset_x_pos _ _ _ O) as (X & Y). cbn [lay_ctx fst snd] in *. constructor; cbn [lay_ctx fst snd].
  - exact (moved_trans _ _ _ M (offset_x_moved _ _ _ O)).
  - exact (offset_x_u _ _ _ O U).
  - rewrite X, Y. exact (core_put _ _ _ _ _ _ _ _ (set_s_dimensions (Some (mk_dims (get_x c) (get_y c) w (s_character_height p))) p) _ C eq_refl eq_refl eq_refl eq_refl W F).
Qed.
Lemma laid_break c lines cur c' : laid (c, lines, cur) -> newline_for_spans cur c = Ok c' -> laid (c', lines ++ [cur], []).
Proof.
  intros [M U C] N. destruct (newline_pos _ _ _ N) as (X & Y). cbn [lay_ctx fst snd] in *. constructor; cbn [lay_ctx fst snd].
  - exact (moved_trans _ _ _ M (newline_for_spans_moved _ _ _ N)).
  - exact (newline_for_spans_u _ _ _ N U).
  - rewrite X, (moved_base_x _ _ M). rewrite (moved_text _ _ M) in Y. exact (core_break _ _ _ _ _ _ _ _ _ _ C spacing Y).
Qed.
Lemma laid_put_break c lines cur p p' w c' : laid (c, lines, cur) -> get_dimensions c p = Ok p' -> span_width p = Ok w ->
  newline_for_spans (cur ++ [p']) c = Ok c' ->
  (fit -> s_text p <> [] -> get_x c + w <= right_edge c0) -> laid (c', lines ++ [cur ++ [p']], []).
Proof.
  intros [M U C] D W N F. destruct (get_dimensions_ok _ _ _ D) as (w' & W' & E). rewrite W in W'. injection W' as <-.
  destruct (newline_pos _ _ _ N) as (X & Y). cbn [lay_ctx fst snd] in *. constructor; cbn [lay_ctx fst snd].
  - exact (moved_trans _ _ _ M (newline_for_spans_moved _ _ _ N)).
  - exact (newline_for_spans_u _ _ _ N U).
  - rewrite X, (moved_base_x _ _ M). rewrite (moved_text _ _ M) in Y. subst p'.
    exact (core_break _ _ _ _ _ _ _ _ _ _ (core_put _ _ _ _ _ _ _ _ (set_s_dimensions (Some (mk_dims (get_x c) (get_y c) w (s_character_height p))) p) _ C eq_refl eq_refl eq_refl eq_refl W F) spacing Y).
Qed.

(** the pieces of a word that is broken *)
Lemma pieces_laid ps : forall c lines cur l', laid (c, lines, cur) -> place_pieces ps (c, lines, cur) = Ok l' ->
  (fit -> match ps with [] => True | p :: r =>
     (s_text p <> [] -> forall w, span_width p = Ok w -> get_x c + w <= right_edge c0) /\
     Forall (fun q => forall w, span_width q = Ok w -> w <= get_width c0) r end) -> laid l'.
Proof.
  induction ps as [|p r IH]; intros c lines cur l' L H F; cbn [place_pieces] in H.
  - injection H as <-. exact L.
  - destruct r as [|q r].
    + apply bind_ok in H. destruct H as (p' & D & H). apply bind_ok in H. destruct H as (w & W & H). apply bind_ok in H. destruct H as (c' & O & H).
      injection H as <-. assert (W' : span_width p = Ok w).
      { destruct (get_dimensions_ok _ _ _ D) as (w' & W' & ->). exact W. }
      apply (laid_put _ _ _ _ _ _ _ L D W' O). intros f N. exact (proj1 (F f) N _ W').
    + apply bind_ok in H. destruct H as (p' & D & H). apply bind_ok in H. destruct H as (c' & O & H).
      destruct (get_dimensions_ok _ _ _ D) as (w & W & _).
      pose proof (laid_put_break _ _ _ _ _ _ _ L D W O (fun f N => proj1 (F f) N _ W)) as L'.
      refine (IH _ _ _ _ L' H _). intros f. destruct (F f) as (_ & FF). apply Forall_cons_iff in FF. destruct FF as (Fq & Fr).
      split; [|exact Fr]. intros _ v V. specialize (Fq v V). rewrite (proj1 (newline_pos _ _ _ O)).
      pose proof (moved_base_x _ _ (ld_moved _ L)) as B. cbn [lay_ctx fst] in B. rewrite B. unfold right_edge. lia.
Qed.

Lemma word_laid w l l' : laid l -> place_word (get_width c0) w l = Ok l' -> 0 <= get_width c0 -> 0 < s_character_width w ->
  (fit -> narrow c0 w) -> (run -> s_text w <> [9]) -> laid l'.
Proof.
  intros L H W0 CW F R. destruct l as [[c lines] cur].
  pose proof (ld_moved _ L) as M. cbn [lay_ctx fst] in M.
  destruct (list_eq_dec Z.eq_dec (s_text w) [10]) as [E|N].
  { unfold place_word in H. rewrite E in *. apply bind_ok in H. destruct H as (ww & _ & H). cbn [is_single Z.eqb] in *. cbn in H.
    apply bind_ok in H. destruct H as (c' & Hc & H). injection H as <-.
    pose proof (laid_break _ _ _ _ L Hc) as [M' U' C']. cbn [lay_ctx fst snd] in *. constructor; [exact M' | exact U' |].
    cbn [lay_ctx fst snd]. replace (lines ++ [cur; []]) with ((lines ++ [cur]) ++ [[]]) by (rewrite <- app_assoc; reflexivity).
    exact (core_blank _ _ _ _ _ _ _ C'). }
  destruct (list_eq_dec Z.eq_dec (s_text w) [9]) as [E|N'].
  { unfold place_word in H. rewrite E in *. apply bind_ok in H. destruct H as (ww & _ & H). cbn [is_single Z.eqb] in *. cbn in H.
    apply bind_ok in H. destruct H as (c' & Hc & H). injection H as <-.
    destruct L as [M' U' C']. cbn [lay_ctx fst snd] in *. destruct (tab_pos _ _ _ _ _ _ U' Hc eq_refl) as (X & Y).
    constructor; cbn [lay_ctx fst snd].
    - exact (moved_trans _ _ _ M (tab_walk_moved _ _ _ _ _ _ Hc)).
    - refine (tab_walk_u _ _ _ _ _ _ _ Hc U'). unfold u32v. lia.
    - rewrite Y. exact (core_tab _ _ _ _ _ _ _ _ _ C' X (fun r => R r eq_refl)). }
  rewrite (place_word_text _ _ _ _ _ N N') in H.
  apply bind_ok in H. destruct H as (ww & Hww & H). destruct (span_width_v _ _ Hww) as (Ew & W1).
  destruct (Z.leb_spec ww (get_available_width c)) as [LE|GT].
  { apply bind_ok in H. destruct H as (w' & Hw' & H). apply bind_ok in H. destruct H as (c' & O & H). injection H as <-.
    apply (laid_put _ _ _ _ _ _ _ L Hw' Hww O). intros _ NE. rewrite <- (moved_edge _ _ M). apply avail_right; [|exact LE].
    assert (0 < vlen (s_text w)) by (destruct (s_text w); [congruence | unfold vlen; cbn [length]; lia]). nia. }
  destruct (Z.ltb_spec (get_width c0) ww) as [LT|GE].
  { apply bind_ok in H. destruct H as (first & Hf & H). apply bind_ok in H. destruct H as (rest & Hr & H).
    apply bind_ok in H. destruct H as (ps & Hp & H).
    destruct (div_u_nonneg _ _ _ (avail_nonneg c) (Z.lt_le_incl _ _ CW) Hf) as (F0 & _ & Ef).
    destruct (div_u_nonneg _ _ _ W0 (Z.lt_le_incl _ _ CW) Hr) as (R0 & _ & Er).
    refine (pieces_laid _ _ _ _ _ L H _). intros f. specialize (F f). unfold narrow in F.
    assert (CWR : s_character_width w <= rest) by (rewrite Er; apply Z.div_le_lower_bound; lia).
    rewrite Z.max_l in Hp by exact CWR.
    destruct (C25_break_apart w first rest F0) as (a & r & E & T & ST & LA & LR); [lia|].
    rewrite Hp in E. injection E as ->.
    apply Forall_cons_iff in ST. destruct ST as ((SA & _) & SR).
    assert (CA : s_character_width a = s_character_width w) by apply SA. split.
    - intros NE v V. destruct (span_width_v _ _ V) as (Ev & _). unfold character_count in LA. rewrite LA, CA in Ev.
      rewrite <- (moved_edge _ _ M). apply avail_right.
      + assert (0 < vlen (s_text a)) by (destruct (s_text a); [congruence | unfold vlen; cbn [length]; lia]). nia.
      + pose proof (Z.mul_div_le (get_available_width c) _ CW). rewrite <- Ef in H0. nia.
    - apply Forall_forall. intros q Hq v V. destruct (span_width_v _ _ V) as (Ev & _).
      assert (CQ : s_character_width q = s_character_width w) by apply (proj1 (Forall_forall _ _) SR _ Hq).
      assert (LQ : vlen (s_text q) <= rest).
      { pose proof (pieces_len _ _ LR _ (in_map s_text _ _ Hq)). unfold vlen. lia. }
      pose proof (Z.mul_div_le (get_width c0) _ CW). rewrite <- Er in H0. rewrite Ev, CQ. nia. }
  apply bind_ok in H. destruct H as (c1 & Hc1 & H). apply bind_ok in H. destruct H as (w' & Hw' & H). apply bind_ok in H. destruct H as (c2 & O & H). injection H as <-.
  pose proof (laid_break _ _ _ _ L Hc1) as L1. apply (laid_put _ _ _ _ _ _ _ L1 Hw' Hww O).
  intros _ _. rewrite (proj1 (newline_pos _ _ _ Hc1)), (moved_base_x _ _ M). unfold right_edge. lia.
Qed.
End Steps.
