(** * RendererTheory: what each renderer step can change. *)
From Verif Require Import Base Command Parser Vec Float32 GTypes Graphics Decoder Context Text Handlers Renderer ContextTheory.
Local Open Scope Z_scope.
Local Open Scope list_scope.

(** the calls added by a step, all satisfying [P] *)
Definition adds (P : context * event -> Prop) (s s' : rstate) : Prop :=
  exists new, rs_calls s' = rs_calls s ++ new /\ Forall P new.
Lemma adds_refl P s : adds P s s.
Proof. exists []. rewrite app_nil_r. auto. Qed.
Lemma adds_same P s s' : rs_calls s' = rs_calls s -> adds P s s'.
Proof. intros E. exists []. rewrite app_nil_r. auto. Qed.
Lemma adds_trans P a b c : adds P a b -> adds P b c -> adds P a c.
Proof.
  intros (x & Hx & Fx) (y & Hy & Fy). exists (x ++ y). split.
  - rewrite Hy, Hx. symmetry. apply app_assoc.
  - apply Forall_app; auto.
Qed.
Lemma adds_weaken (P Q : context * event -> Prop) s s' :
  (forall x, P x -> Q x) -> adds P s s' -> adds Q s s'.
Proof. intros W (n & E & F). exists n. split; [exact E | eapply Forall_impl; eauto]. Qed.
Lemma adds_call (P : context * event -> Prop) e s : P (rs_ctx s, e) -> adds P s (call e s).
Proof. intros H. exists [(rs_ctx s, e)]. split; [reflexivity | constructor; [exact H | constructor]]. Qed.

(** a step that only moves the cursor and emits calls satisfying [P] *)
Definition quiet (P : context * event -> Prop) (s s' : rstate) : Prop :=
  moved (rs_ctx s) (rs_ctx s') /\ rs_errors s' = rs_errors s /\ adds P s s'.
Lemma quiet_refl P s : quiet P s s.
Proof. split; [apply moved_refl | split; [reflexivity | apply adds_refl]]. Qed.
Lemma quiet_trans P a b c : quiet P a b -> quiet P b c -> quiet P a c.
Proof.
  intros (M1 & E1 & A1) (M2 & E2 & A2).
  split; [exact (moved_trans _ _ _ M1 M2) | split; [congruence | exact (adds_trans _ _ _ _ A1 A2)]].
Qed.
Lemma quiet_call (P : context * event -> Prop) e s : P (rs_ctx s, e) -> quiet P s (call e s).
Proof. intros H. split; [apply moved_refl | split; [reflexivity | apply adds_call; exact H]]. Qed.
Lemma quiet_weaken (P Q : context * event -> Prop) s s' :
  (forall x, P x -> Q x) -> quiet P s s' -> quiet Q s s'.
Proof. intros W (M & E & A). split; [exact M | split; [exact E | exact (adds_weaken _ _ _ _ W A)]]. Qed.
Lemma quiet_on_ctx P f s s' :
  (forall c', f (rs_ctx s) = Ok c' -> moved (rs_ctx s) c') -> on_ctx f s = Ok s' -> quiet P s s'.
Proof.
  intros F H. unfold on_ctx in H. inv_bind H. injection H as <-.
  split; [exact (F _ Ha) | split; [reflexivity | apply adds_same; reflexivity]].
Qed.

Lemma fold_res_ind {A B} (f : A -> B -> res B) (I : B -> Prop) l b b' :
  I b -> (forall x y y', In x l -> I y -> f x y = Ok y' -> I y') -> fold_res f l b = Ok b' -> I b'.
Proof.
  revert b. induction l as [|x l IH]; intros b Hb Hf H; cbn in H.
  - injection H as <-. exact Hb.
  - inv_bind H. apply (IH a); [apply (Hf x b); auto; left; reflexivity | | exact H].
    intros x0 y y' Hin. apply Hf. right. exact Hin.
Qed.

Lemma fold_res_app {A B} (f : A -> B -> res B) l1 l2 b :
  fold_res f (l1 ++ l2) b = (do m <- fold_res f l1 b; fold_res f l2 m).
Proof.
  revert b. induction l1 as [|x l IH]; intros b; cbn; [reflexivity|].
  destruct (f x b); cbn; [apply IH | reflexivity].
Qed.

Definition is_text_call (x : context * event) : Prop :=
  match snd x with EText _ _ _ _ => True | _ => False end.
Definition is_graphics_call (x : context * event) : Prop :=
  match snd x with EGraphics _ | EText _ _ _ _ => True | _ => False end.
Definition is_draw_call (x : context * event) : Prop :=
  match snd x with EGraphics _ | EText _ _ _ _ | EImage _ => True | _ => False end.

(** ** process_text *)
Definition lay_ctx (l : layout) : context := fst (fst l).

Lemma place_pieces_moved pieces l l' : place_pieces pieces l = Ok l' -> moved (lay_ctx l) (lay_ctx l').
Proof.
  revert l. induction pieces as [|p r IH]; intros [[c lines] cur] H.
  - cbn in H. injection H as <-. apply moved_refl.
  - cbn [place_pieces] in H. destruct r as [|q r].
    + repeat inv_bind H. injection H as <-. cbn. eapply offset_x_moved; eauto.
    + repeat inv_bind H. apply IH in H. cbn in H |- *.
      eapply moved_trans; [eapply newline_for_spans_moved; eauto | exact H].
Qed.
Lemma tab_walk_moved tabs cw cx pos c c' : tab_walk tabs cw cx pos c = Ok c' -> moved c c'.
Proof.
  revert pos. induction tabs as [|t r IH]; intros pos H; cbn in H.
  - injection H as <-. apply moved_refl.
  - destruct (cx <=? pos); [eapply set_x_moved; eauto|]. repeat inv_bind H. eapply IH; eauto.
Qed.
Lemma is_single_spec ch t : is_single ch t = true <-> t = [ch].
Proof.
  destruct t as [|x [|y r]]; cbn; split; intros H; try discriminate; try congruence.
  - apply Z.eqb_eq in H. congruence.
  - injection H as ->. apply Z.eqb_refl.
Qed.
Lemma is_single_no ch t : t <> [ch] -> is_single ch t = false.
Proof. intros N. destruct (is_single ch t) eqn:E; [|reflexivity]. apply is_single_spec in E. congruence. Qed.
(** the three kinds of words *)
Lemma place_word_text mw w c lines cur :
  s_text w <> [10] -> s_text w <> [9] ->
  place_word mw w (c, lines, cur) =
  (do word_width <- span_width w;
   if word_width <=? get_available_width c then
     do word <- get_dimensions c w; do c' <- offset_x word_width c; Ok (c', lines, cur ++ [word])
   else if mw <? word_width then
     do first <- div_u (get_available_width c) (s_character_width w);
     do rest <- div_u mw (s_character_width w);
     do pieces <- break_apart w first (Z.max rest (s_character_width w));
     place_pieces pieces (c, lines, cur)
   else
     do c1 <- newline_for_spans cur c; do word <- get_dimensions c1 w;
     do c2 <- offset_x word_width c1; Ok (c2, lines ++ [cur], [word])).
Proof.
  intros N T. unfold place_word. destruct (span_width w) as [ww|p]; cbn [bind]; [|reflexivity].
  rewrite (is_single_no 10 _ N), (is_single_no 9 _ T). reflexivity.
Qed.

Lemma place_word_moved mw w l l' : place_word mw w l = Ok l' -> moved (lay_ctx l) (lay_ctx l').
Proof.
  destruct l as [[c lines] cur]. intros H.
  destruct (list_eq_dec Z.eq_dec (s_text w) [10]) as [E|N].
  { unfold place_word in H. rewrite E in H. inv_bind H. cbn [is_single Z.eqb] in H. cbn in H. inv_bind H. injection H as <-. cbn.
    eapply newline_for_spans_moved; eauto. }
  destruct (list_eq_dec Z.eq_dec (s_text w) [9]) as [E|N'].
  { unfold place_word in H. rewrite E in H. inv_bind H. cbn [is_single Z.eqb] in H. cbn in H. inv_bind H. injection H as <-. cbn.
    eapply tab_walk_moved; eauto. }
  rewrite (place_word_text _ _ _ _ _ N N') in H. inv_bind H.
  destruct (a <=? get_available_width c).
  { repeat inv_bind H. injection H as <-. cbn. eapply offset_x_moved; eauto. }
  destruct (mw <? a).
  { repeat inv_bind H. apply place_pieces_moved in H. exact H. }
  repeat inv_bind H. injection H as <-. cbn.
  eapply moved_trans; [eapply newline_for_spans_moved; eauto | eapply offset_x_moved; eauto].
Qed.

Lemma layout_words_moved ws c c' lines : layout_words ws c = Ok (c', lines) -> moved c c'.
Proof.
  intros H. unfold layout_words in H. inv_bind H. destruct a as [[c1 l1] cur]. injection H as <- _.
  refine (fold_res_ind _ (fun l => moved c (lay_ctx l)) _ (c, [], []) (c1, l1, cur) (moved_refl c) _ Ha).
  intros x y y' _ M E. exact (moved_trans _ _ _ M (place_word_moved _ _ _ _ E)).
Qed.

Lemma render_line_quiet line s s' :
  render_line line s = Ok s' -> quiet is_text_call s s' /\ rs_ctx s' = rs_ctx s /\ rs_spans s' = rs_spans s.
Proof.
  intros H. unfold render_line in H. destruct line as [|f r].
  - injection H as <-. split; [apply quiet_refl | auto].
  - repeat inv_bind H. injection H as <-. split; [apply quiet_call; exact I | auto].
Qed.
Lemma render_lines_quiet lines s s' :
  fold_res render_line lines s = Ok s' -> quiet is_text_call s s' /\ rs_ctx s' = rs_ctx s /\ rs_spans s' = rs_spans s.
Proof.
  intros H.
  refine (fold_res_ind _ (fun y => quiet is_text_call s y /\ rs_ctx y = rs_ctx s /\ rs_spans y = rs_spans s) _ _ _ _ _ H).
  - split; [apply quiet_refl | auto].
  - intros l y y' _ (Q & C & S) E. apply render_line_quiet in E. destruct E as (Q' & C' & S').
    split; [exact (quiet_trans _ _ _ _ Q Q') | split; congruence].
Qed.

Lemma process_text_quiet s s' : process_text s = Ok s' -> quiet is_text_call s s' /\ rs_spans s' = [].
Proof.
  intros H. unfold process_text in H. destruct (rs_spans s) as [|x r] eqn:Es.
  - injection H as <-. split; [apply quiet_refl | exact Es].
  - inv_bind H. destruct a as [c lines]. apply layout_words_moved in Ha.
    apply render_lines_quiet in H. destruct H as (Q & C & S). split; [|rewrite S; reflexivity].
    refine (quiet_trans _ _ _ _ _ Q).
    split; [exact Ha | split; [reflexivity | apply adds_same; reflexivity]].
Qed.

(** ** graphics *)
Lemma code2d_point_moved q o p st st' :
  code2d_point q o p st = Ok st' -> moved (fst (fst st)) (fst (fst st')).
Proof.
  destruct st as [[c i] rects]. unfold code2d_point. intros H. inv_bind H.
  assert (M : moved c a).
  { destruct (negb (i =? 1)); [|injection Ha as <-; apply moved_refl].
    destruct (q_width q =? 0); [discriminate|].
    destruct (i mod q_width q =? 1); [|injection Ha as <-; apply moved_refl].
    inv_bind Ha. exact (moved_trans _ _ _ (set_x_moved _ _ _ Ha0) (offset_y_moved _ _ _ Ha)). }
  destruct ((0 <? p) && (get_available_width a <? q_point_width q)).
  - injection H as <-. exact M.
  - repeat inv_bind H. injection H as <-. exact (moved_trans _ _ _ M (offset_x_moved _ _ _ Ha0)).
Qed.
Lemma process_code_2d_quiet q s s' :
  process_code_2d q s = Ok s' -> quiet is_graphics_call s s' /\ rs_spans s' = rs_spans s.
Proof.
  unfold process_code_2d. intros H. inv_bind H. inv_bind H. inv_bind H. destruct a1 as [[c i] rects].
  injection H as <-. split; [|reflexivity].
  refine (quiet_trans _ _ _ _ _ (quiet_call _ _ _ I)).
  split; [|split; [reflexivity | apply adds_same; reflexivity]].
  eapply moved_trans; [eapply set_x_moved; exact Ha0|].
  eapply moved_trans; [|apply moved_reset_x].
  refine (fold_res_ind _ (fun y => moved a0 (fst (fst y))) _ (a0, 1, []) (c, i, rects) (moved_refl a0) _ Ha1).
  intros x y y' _ M E. exact (moved_trans _ _ _ M (code2d_point_moved _ _ _ _ _ E)).
Qed.
Lemma barcode_point_moved b p st st' : barcode_point b p st = Ok st' -> moved (fst st) (fst st').
Proof.
  destruct st as [c rects]. unfold barcode_point. intros H.
  destruct ((0 <? p) && (get_available_width c <? b_point_width b)).
  - injection H as <-. apply moved_refl.
  - inv_bind H. injection H as <-. exact (offset_x_moved _ _ _ Ha).
Qed.
Lemma barcode_text_quiet b s s' : barcode_text b s = Ok s' -> quiet is_text_call s s' /\ rs_spans s' = [].
Proof.
  unfold barcode_text. intros H. inv_bind H. apply process_text_quiet in Ha. destruct Ha as (Q & S).
  assert (Q2 : quiet is_text_call a s') by (refine (quiet_on_ctx _ _ _ _ _ H); intros c' Hc; exact (newline_moved _ _ _ Hc)).
  split; [|unfold on_ctx in H; inv_bind H; injection H as <-; exact S].
  refine (quiet_trans _ _ _ _ _ Q2). exact Q.
Qed.
Lemma text_is_graphics x : is_text_call x -> is_graphics_call x.
Proof. destruct x as [c e]; destruct e; cbn; auto. Qed.
Lemma graphics_is_draw x : is_graphics_call x -> is_draw_call x.
Proof. destruct x as [c e]; destruct e; cbn; auto. Qed.
Lemma text_is_draw x : is_text_call x -> is_draw_call x.
Proof. destruct x as [c e]; destruct e; cbn; auto. Qed.

Lemma on_ctx_spans f s s' : on_ctx f s = Ok s' -> rs_spans s' = rs_spans s /\ rs_calls s' = rs_calls s.
Proof. unfold on_ctx. intros H. inv_bind H. injection H as <-. auto. Qed.

Lemma process_barcode_quiet b s s' :
  process_barcode b s = Ok s' -> rs_spans s = [] -> quiet is_graphics_call s s' /\ rs_spans s' = [].
Proof.
  unfold process_barcode. intros H S0. inv_bind H. inv_bind H. inv_bind H. inv_bind H. destruct a2 as [c rects].
  inv_bind H.
  assert (Q1 : quiet is_graphics_call s a /\ rs_spans a = []).
  { destruct (bc_human_readable (c_barcode (rs_ctx s))); try (injection Ha as <-; split; [apply quiet_refl | exact S0]);
      apply barcode_text_quiet in Ha; destruct Ha as (Q & S); (split; [exact (quiet_weaken _ _ _ _ text_is_graphics Q) | exact S]). }
  destruct Q1 as (Q1 & S1).
  assert (Q2 : quiet is_graphics_call a a1) by (refine (quiet_on_ctx _ _ _ _ _ Ha1); intros c' Hc; exact (set_x_moved _ _ _ Hc)).
  apply on_ctx_spans in Ha1. destruct Ha1 as (S2 & _).
  assert (M3 : moved (rs_ctx a1) c).
  { refine (fold_res_ind _ (fun y => moved (rs_ctx a1) (fst y)) _ (rs_ctx a1, []) (c, rects) (moved_refl _) _ Ha2).
    intros x y y' _ M E. exact (moved_trans _ _ _ M (barcode_point_moved _ _ _ _ E)). }
  assert (Q4 : quiet is_graphics_call a1 a2).
  { refine (quiet_trans _ _ (with_ctx c a1) _ _ _); [split; [exact M3 | split; [reflexivity | apply adds_same; reflexivity]]|].
    refine (quiet_trans _ _ _ _ (quiet_call _ (EGraphics rects) _ I) _).
    refine (quiet_on_ctx _ _ _ _ _ Ha3). intros c' Hc.
    exact (moved_trans _ _ _ (moved_reset_x _) (offset_y_moved _ _ _ Hc)). }
  apply on_ctx_spans in Ha3. destruct Ha3 as (S4 & _). cbn in S4.
  assert (Q124 : quiet is_graphics_call s a2) by (exact (quiet_trans _ _ _ _ Q1 (quiet_trans _ _ _ _ Q2 Q4))).
  assert (S124 : rs_spans a2 = []) by congruence.
  destruct (bc_human_readable (c_barcode (rs_ctx a2))); try (injection H as <-; split; [exact Q124 | exact S124]);
    (apply bind_ok in H; destruct H as (a3 & Ha3 & H);
     assert (Q5 : quiet is_graphics_call a2 a3) by (refine (quiet_on_ctx _ _ _ _ _ Ha3); intros c' Hc; exact (offset_y_moved _ _ _ Hc));
     apply barcode_text_quiet in H; destruct H as (Q6 & S6); split; [|exact S6];
     exact (quiet_trans _ _ _ _ Q124 (quiet_trans _ _ _ _ Q5 (quiet_weaken _ _ _ _ text_is_graphics Q6)))).
Qed.

Lemma process_image_quiet i s s' :
  process_image i s = Ok s' -> quiet is_draw_call s s' /\ rs_spans s' = rs_spans s.
Proof.
  unfold process_image. intros H. inv_bind H.
  assert (Q1 : quiet is_draw_call s a /\ rs_spans a = rs_spans s).
  { destruct (i_flow i).
    - destruct (get_available_width (rs_ctx s) <? i_w i); [|injection Ha as <-; split; [apply quiet_refl | reflexivity]].
      split; [|apply on_ctx_spans in Ha; tauto].
      refine (quiet_on_ctx _ _ _ _ _ Ha); intros c' Hc; exact (newline_moved _ _ _ Hc).
    - destruct (p_enabled (c_page (rs_ctx s))); [injection Ha as <-; split; [apply quiet_refl | reflexivity]|].
      split; [|apply on_ctx_spans in Ha; tauto].
      refine (quiet_on_ctx _ _ _ _ _ Ha); intros c' Hc; exact (set_x_moved _ _ _ Hc).
    - injection Ha as <-. split; [apply quiet_refl | reflexivity]. }
  destruct Q1 as (Q1 & S1).
  cbv zeta in H. set (i' := set_i_y _ _) in H.
  assert (Q2 : quiet is_draw_call s (call (EImage i') a)) by (exact (quiet_trans _ _ _ _ Q1 (quiet_call is_draw_call (EImage i') a I))).
  destruct (i_flow i').
  - split; [|apply on_ctx_spans in H; cbn in H; destruct H; congruence].
    refine (quiet_trans _ _ _ _ Q2 _). refine (quiet_on_ctx _ _ _ _ _ H); intros c' Hc; exact (offset_x_moved _ _ _ Hc).
  - destruct (p_enabled (c_page (rs_ctx (call (EImage i') a)))); [injection H as <-; split; [exact Q2 | exact S1]|].
    split; [|apply on_ctx_spans in H; cbn in H; destruct H; congruence].
    refine (quiet_trans _ _ _ _ Q2 _). refine (quiet_on_ctx _ _ _ _ _ H).
    intros c' Hc. inv_bind Hc. injection Hc as <-. exact (moved_trans _ _ _ (offset_y_moved _ _ _ Ha0) (moved_reset_x _)).
  - injection H as <-. split; [exact Q2 | exact S1].
Qed.

(** ** drawing a graphic: cursor and draw calls only, at most one error *)
Lemma process_gfx_moved g s s' :
  process_gfx g s = Ok s' -> rs_spans s = [] ->
  moved (rs_ctx s) (rs_ctx s') /\ adds is_draw_call s s' /\ rs_spans s' = [] /\
  rs_errors s' = rs_errors s ++ match g with GError m => [GraphicsError m] | _ => [] end.
Proof.
  intros H S0. destruct g; cbn [process_gfx] in H.
  - injection H as <-. split; [apply moved_refl | split; [exists []; split; [cbn; now rewrite app_nil_r | constructor] | auto]].
  - apply process_code_2d_quiet in H. destruct H as ((M & E & A) & S). rewrite app_nil_r.
    split; [exact M | split; [exact (adds_weaken _ _ _ _ graphics_is_draw A) | split; [congruence | exact E]]].
  - apply process_barcode_quiet in H; [|exact S0]. destruct H as ((M & E & A) & S). rewrite app_nil_r.
    split; [exact M | split; [exact (adds_weaken _ _ _ _ graphics_is_draw A) | split; [congruence | exact E]]].
  - apply process_image_quiet in H. destruct H as ((M & E & A) & S). rewrite app_nil_r.
    split; [exact M | split; [exact A | split; [congruence | exact E]]].
Qed.
