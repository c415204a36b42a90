(** * AreaTheory: in every history the areas hold u32 values and stored images are rectangles of
      pixels (used by PropsLayout, PropsSymbols and the image renderer). *)
From Verif Require Import Base Command CommandSet Parser Vec Float32 GTypes Graphics Utf8 Decoder Context Text
  Handlers Renderer ContextTheory RendererTheory Origin SpecPrinter StateTheory.
Local Open Scope Z_scope.
Local Open Scope list_scope.

Definition u32v (v : Z) : Prop := 0 <= v <= 4294967295.
Record uarea (a : area) : Prop := mk_uarea { ua_x : u32v (a_x a); ua_y : u32v (a_y a); ua_w : u32v (a_w a); ua_h : u32v (a_h a) }.
(** an image with one pixel for every point of its rectangle *)
Record img_wf (i : image) : Prop := mk_img_wf { iw_w : u32v (i_w i); iw_h : u32v (i_h i); iw_px : vlen (i_pixels i) = i_w i * i_h i }.
Definition gfx_wf (g : gfx) : Prop := match g with GImage i => img_wf i | _ => True end.
(** what may be kept in the memory for graphics *)
Definition kept_wf (g : gfx) : Prop := match g with GImage i => img_wf i | GError _ => True | _ => False end.
Lemma kept_gfx g : kept_wf g -> gfx_wf g.
Proof. destruct g; cbn; tauto. Qed.
Record uinv (c : context) : Prop := mk_uinv {
  ui_render : uarea (g_render_area (c_graphics c));
  ui_page : uarea (p_page_area (c_page c));
  ui_prender : uarea (p_render_area (c_page c));
  ui_logical : uarea (p_logical_area (c_page c));
  ui_stored : Forall (fun kv => kept_wf (snd kv)) (g_stored_graphics (c_graphics c));
  ui_buffer : Forall kept_wf (g_buffer_graphics (c_graphics c)) }.

Lemma chk_inv lo hi x v : chk lo hi x = Ok v -> v = x /\ lo <= x <= hi.
Proof. unfold chk. destruct ((lo <=? x) && (x <=? hi)) eqn:E; [|discriminate]. intros H. injection H as <-. lia. Qed.
Lemma add_u32v a b v : add_u32 a b = Ok v -> v = a + b /\ u32v v.
Proof. intros H. apply chk_inv in H. destruct H as (-> & H). split; [reflexivity | exact H]. Qed.
Lemma sub_u32v a b v : sub_u32 a b = Ok v -> v = a - b /\ u32v v.
Proof. intros H. apply chk_inv in H. destruct H as (-> & H). split; [reflexivity | exact H]. Qed.
Lemma mul_u32v a b v : mul_u32 a b = Ok v -> v = a * b /\ u32v v.
Proof. intros H. apply chk_inv in H. destruct H as (-> & H). split; [reflexivity | exact H]. Qed.

(** ** Cursor operations *)
Lemma u_x v a : uarea a -> u32v v -> uarea (set_a_x v a).
Proof. intros [? ? ? ?] ?. constructor; assumption. Qed.
Lemma u_y v a : uarea a -> u32v v -> uarea (set_a_y v a).
Proof. intros [? ? ? ?] ?. constructor; assumption. Qed.
Lemma uinv_gra f c : uinv c -> uarea (f (g_render_area (c_graphics c))) -> uinv (upd_gra f c).
Proof. intros [? ? ? ? ? ?] H. constructor; assumption. Qed.
Lemma uinv_pra f c : uinv c -> uarea (f (p_render_area (c_page c))) -> uinv (upd_page (upd_pra f) c).
Proof. intros [? ? ? ? ? ?] H. constructor; assumption. Qed.
Lemma base_x_u c : uinv c -> u32v (get_base_x c).
Proof. intros U. unfold get_base_x. destruct (p_enabled _); [exact (ua_x _ (ui_page _ U)) | unfold u32v; lia]. Qed.
Lemma width_u c : uinv c -> u32v (get_width c).
Proof. intros U. unfold get_width. destruct (p_enabled _); [exact (ua_w _ (ui_prender _ U)) | exact (ua_w _ (ui_render _ U))]. Qed.
Lemma x_u c : uinv c -> u32v (get_x c).
Proof. intros U. unfold get_x. destruct (p_enabled _); [exact (ua_x _ (ui_prender _ U)) | exact (ua_x _ (ui_render _ U))]. Qed.
Lemma y_u c : uinv c -> u32v (get_y c).
Proof. intros U. unfold get_y. destruct (p_enabled _); [exact (ua_y _ (ui_prender _ U)) | exact (ua_y _ (ui_render _ U))]. Qed.
Lemma reset_x_u c : uinv c -> uinv (reset_x c).
Proof.
  intros U. pose proof (base_x_u _ U) as B. unfold reset_x. destruct (p_enabled _).
  - apply uinv_pra; [exact U | apply u_x; [exact (ui_prender _ U) | exact B]].
  - apply uinv_gra; [exact U | apply u_x; [exact (ui_render _ U) | exact B]].
Qed.
Definition page_keeps (f : page_ctx -> res page_ctx) : Prop :=
  forall p p', f p = Ok p' -> uarea (p_render_area p) -> uarea (p_page_area p) ->
    exists v, u32v v /\ (p' = upd_pra (set_a_x v) p \/ p' = upd_pra (set_a_y v) p).
Lemma in_page_u f c c' : page_keeps f -> uinv c -> in_page f c = Ok c' -> uinv c'.
Proof.
  intros F U H. unfold in_page in H. inv_bind H. injection H as <-.
  destruct (F _ _ Ha (ui_prender _ U) (ui_page _ U)) as (v & V & [-> | ->]).
  - exact (uinv_pra (set_a_x v) c U (u_x _ _ (ui_prender _ U) V)).
  - exact (uinv_pra (set_a_y v) c U (u_y _ _ (ui_prender _ U) V)).
Qed.
Lemma offset_x_u x c c' : offset_x x c = Ok c' -> uinv c -> uinv c'.
Proof.
  intros H U. unfold offset_x in H. destruct (p_enabled (c_page c)).
  - refine (in_page_u _ _ _ _ U H). intros p p' Hp _ _. unfold pm_offset_x in Hp. inv_bind Hp. injection Hp as <-.
    exists a. split; [exact (proj2 (add_u32v _ _ _ Ha)) | left; reflexivity].
  - inv_bind H. injection H as <-. apply uinv_gra; [exact U | apply u_x; [exact (ui_render _ U) | exact (proj2 (add_u32v _ _ _ Ha))]].
Qed.
Lemma offset_y_u x c c' : offset_y x c = Ok c' -> uinv c -> uinv c'.
Proof.
  intros H U. unfold offset_y in H. destruct (p_enabled (c_page c)).
  - refine (in_page_u _ _ _ _ U H). intros p p' Hp _ _. unfold pm_offset_y in Hp. inv_bind Hp. injection Hp as <-.
    exists a. split; [exact (proj2 (add_u32v _ _ _ Ha)) | right; reflexivity].
  - inv_bind H. injection H as <-. apply uinv_gra; [exact U | apply u_y; [exact (ui_render _ U) | exact (proj2 (add_u32v _ _ _ Ha))]].
Qed.
Lemma set_x_u x c c' : u32v x -> set_x x c = Ok c' -> uinv c -> uinv c'.
Proof.
  intros V H U. unfold set_x in H. destruct (p_enabled (c_page c)).
  - refine (in_page_u _ _ _ _ U H). intros p p' Hp _ _. unfold pm_set_x in Hp. inv_bind Hp. injection Hp as <-.
    exists a. split; [exact (proj2 (add_u32v _ _ _ Ha)) | left; reflexivity].
  - injection H as <-. apply uinv_gra; [exact U | apply u_x; [exact (ui_render _ U) | exact V]].
Qed.
Lemma add_i32_max a b v : add_i32 a b = Ok v -> u32v (Z.max v 0).
Proof. intros H. apply chk_inv in H. unfold u32v. lia. Qed.
Lemma offset_y_relative_u x c c' : offset_y_relative x c = Ok c' -> uinv c -> uinv c'.
Proof.
  intros H U. unfold offset_y_relative in H. inv_bind H. destruct (p_enabled (c_page c)).
  - refine (in_page_u _ _ _ _ U H). intros p p' Hp _ _. unfold pm_offset_y_relative in Hp. inv_bind Hp. injection Hp as <-.
    exists (Z.max a0 0). split; [exact (add_i32_max _ _ _ Ha0) | right; reflexivity].
  - inv_bind H. injection H as <-. apply uinv_gra; [exact U | apply u_y; [exact (ui_render _ U) | exact (add_i32_max _ _ _ Ha0)]].
Qed.
Lemma sat_sub_u a b : u32v a -> 0 <= b -> u32v (sat_sub a b).
Proof. unfold u32v, sat_sub. lia. Qed.
Lemma div_u_u a b v : u32v a -> 0 <= b -> div_u a b = Ok v -> u32v v.
Proof.
  intros A B H. unfold div_u in H. destruct (b =? 0) eqn:E; [discriminate|]. injection H as <-. unfold u32v in *.
  split; [apply Z.div_pos; lia|]. apply Z.le_trans with a; [|lia]. apply Z.div_le_upper_bound; [lia|].
  assert (b >= 1) by lia. clear E. rewrite <- (Z.mul_1_l a) at 1. apply Z.mul_le_mono_nonneg_r; lia.
Qed.
Lemma pm_set_x_absolute_u x : u32v x -> page_keeps (pm_set_x_absolute x).
Proof.
  intros V p p' H R P. unfold pm_set_x_absolute in H. cbv zeta in H.
  assert (0 <= x) by (unfold u32v in V; lia).
  destruct (p_direction p); try inv_bind H; injection H as <-; eexists; (split; [|first [left; reflexivity | right; reflexivity]]);
    first [exact (proj2 (add_u32v _ _ _ Ha)) | apply sat_sub_u; [first [exact (ua_h _ R) | exact (proj2 (add_u32v _ _ _ Ha))] | assumption]].
Qed.
Lemma pm_set_y_absolute_u x : page_keeps (pm_set_y_absolute x).
Proof.
  intros p p' H R P. unfold pm_set_y_absolute in H. cbv zeta in H. destruct (p_direction p); inv_bind H; injection H as <-;
    exists a; (split; [exact (proj2 (add_u32v _ _ _ Ha)) | auto]).
Qed.
Lemma hmu_nonneg c : sinv c -> 0 <= g_h_motion_unit (c_graphics c).
Proof. intros S. destruct (gk_motion _ (si_graphics _ S)) as (H & _). lia. Qed.
Lemma vmu_nonneg c : sinv c -> 0 <= g_v_motion_unit (c_graphics c).
Proof. intros S. destruct (gk_motion _ (si_graphics _ S)) as (_ & H). lia. Qed.
Lemma set_x_absolute_u x c c' : sinv c -> u32v x -> set_x_absolute x c = Ok c' -> uinv c -> uinv c'.
Proof.
  intros S V H U. unfold set_x_absolute in H. inv_bind H. pose proof (div_u_u _ _ _ V (hmu_nonneg _ S) Ha) as D.
  destruct (p_enabled (c_page c)).
  - exact (in_page_u _ _ _ (pm_set_x_absolute_u _ D) U H).
  - injection H as <-. apply uinv_gra; [exact U | apply u_x; [exact (ui_render _ U) | exact D]].
Qed.
Lemma set_y_absolute_u x c c' : sinv c -> u32v x -> set_y_absolute x c = Ok c' -> uinv c -> uinv c'.
Proof.
  intros S V H U. unfold set_y_absolute in H. inv_bind H. pose proof (div_u_u _ _ _ V (vmu_nonneg _ S) Ha) as D.
  destruct (p_enabled (c_page c)).
  - exact (in_page_u _ _ _ (pm_set_y_absolute_u _) U H).
  - injection H as <-. apply uinv_gra; [exact U | apply u_y; [exact (ui_render _ U) | exact D]].
Qed.
Lemma newline_u n c c' : newline n c = Ok c' -> uinv c -> uinv c'.
Proof. intros H U. unfold newline in H. cbv zeta in H. inv_bind H. exact (offset_y_u _ _ _ H (reset_x_u _ U)). Qed.
Lemma newline_for_spans_u n c c' : newline_for_spans n c = Ok c' -> uinv c -> uinv c'.
Proof. intros H U. unfold newline_for_spans in H. exact (offset_y_u _ _ _ H (reset_x_u _ U)). Qed.
Lemma feed_u n c c' : feed n c = Ok c' -> uinv c -> uinv c'.
Proof. intros H U. unfold feed in H. inv_bind H. injection H as <-. exact (reset_x_u _ (offset_y_u _ _ _ Ha U)). Qed.
Lemma justification_u w c : uinv c -> 0 <= w -> u32v (calculate_justification w c) /\ calculate_justification w c + w <= Z.max w (get_width c).
Proof.
  intros U W. pose proof (width_u _ U) as R. unfold calculate_justification. cbv zeta. unfold u32v in *.
  destruct (get_width c <? w) eqn:E; [lia|]. destruct (t_justify (c_text c)); [lia | | lia].
  destruct (0 <? get_width c - w) eqn:E2; [|lia]. set (v := get_width c - w) in *.
  assert (0 <= v / 2 <= v) by (split; [apply Z.div_pos; lia | apply Z.div_le_upper_bound; lia]). lia.
Qed.
Lemma tab_walk_u tabs cw cx : forall pos c c', u32v pos -> tab_walk tabs cw cx pos c = Ok c' -> uinv c -> uinv c'.
Proof.
  induction tabs as [|t r IH]; intros pos c c' V H U; cbn [tab_walk] in H; [injection H as <-; exact U|].
  destruct (cx <=? pos); [exact (set_x_u _ _ _ V H U)|]. inv_bind H. inv_bind H.
  exact (IH _ _ _ (proj2 (add_u32v _ _ _ Ha0)) H U).
Qed.

(** ** Text *)
Lemma place_pieces_u pieces : forall l l', place_pieces pieces l = Ok l' -> uinv (lay_ctx l) -> uinv (lay_ctx l').
Proof.
  induction pieces as [|p r IH]; intros [[c lines] cur] l' H U.
  - cbn in H. injection H as <-. exact U.
  - cbn [place_pieces] in H. destruct r as [|q r].
    + apply bind_ok in H. destruct H as (p' & _ & H). apply bind_ok in H. destruct H as (w & _ & H).
      apply bind_ok in H. destruct H as (c' & Hc & H). injection H as <-. exact (offset_x_u _ _ _ Hc U).
    + apply bind_ok in H. destruct H as (p' & _ & H). apply bind_ok in H. destruct H as (c' & Hc & H).
      refine (IH _ _ H _). exact (newline_for_spans_u _ _ _ Hc U).
Qed.
Lemma place_word_u mw w l l' : place_word mw w l = Ok l' -> uinv (lay_ctx l) -> uinv (lay_ctx l').
Proof.
  destruct l as [[c lines] cur]. intros H U. change (lay_ctx (c, lines, cur)) with c in U.
  unfold place_word in H. cbv zeta in H. apply bind_ok in H. destruct H as (ww & _ & H).
  destruct (is_single 10 (s_text w)).
  { apply bind_ok in H. destruct H as (c' & Hc & H). injection H as <-. exact (newline_for_spans_u _ _ _ Hc U). }
  destruct (is_single 9 (s_text w)).
  { apply bind_ok in H. destruct H as (c' & Hc & H). injection H as <-. refine (tab_walk_u _ _ _ _ _ _ _ Hc U). unfold u32v; lia. }
  destruct (ww <=? get_available_width c).
  { apply bind_ok in H. destruct H as (w' & _ & H). apply bind_ok in H. destruct H as (c' & Hc & H). injection H as <-.
    exact (offset_x_u _ _ _ Hc U). }
  destruct (mw <? ww).
  { apply bind_ok in H. destruct H as (f & _ & H). apply bind_ok in H. destruct H as (g & _ & H).
    apply bind_ok in H. destruct H as (ps & _ & H). exact (place_pieces_u _ _ _ H U). }
  apply bind_ok in H. destruct H as (c1 & Hc1 & H). apply bind_ok in H. destruct H as (w' & _ & H).
  apply bind_ok in H. destruct H as (c2 & Hc2 & H). injection H as <-.
  exact (offset_x_u _ _ _ Hc2 (newline_for_spans_u _ _ _ Hc1 U)).
Qed.
Lemma layout_words_u ws c c' lines : layout_words ws c = Ok (c', lines) -> uinv c -> uinv c'.
Proof.
  intros H U. unfold layout_words in H. inv_bind H. destruct a as [[c1 l1] cur]. injection H as <- _.
  refine (fold_res_ind _ (fun l => uinv (lay_ctx l)) _ (c, [], []) (c1, l1, cur) U _ Ha).
  intros x y y' _ M E. exact (place_word_u _ _ _ _ E M).
Qed.
Lemma process_text_u s s' : process_text s = Ok s' -> uinv (rs_ctx s) -> uinv (rs_ctx s').
Proof.
  intros H U. unfold process_text in H. destruct (rs_spans s) as [|x r] eqn:Es; [injection H as <-; exact U|].
  inv_bind H. destruct a as [c lines]. apply render_lines_quiet in H. destruct H as (_ & C & _). rewrite C.
  exact (layout_words_u _ _ _ _ Ha U).
Qed.

(** ** Graphics *)
Lemma on_ctx_u f s s' : (forall c', f (rs_ctx s) = Ok c' -> uinv c') -> on_ctx f s = Ok s' -> uinv (rs_ctx s').
Proof. intros F H. apply on_ctx_inv in H. destruct H as (c & Hc & ->). exact (F _ Hc). Qed.
Lemma code2d_point_u q o p st st' : u32v o -> code2d_point q o p st = Ok st' -> uinv (fst (fst st)) -> uinv (fst (fst st')).
Proof.
  destruct st as [[c i] rects]. unfold code2d_point. intros O H U. cbn [fst] in U. inv_bind H.
  assert (M : uinv a).
  { destruct (negb (i =? 1)); [|injection Ha as <-; exact U].
    destruct (q_width q =? 0); [discriminate|].
    destruct (i mod q_width q =? 1); [|injection Ha as <-; exact U].
    inv_bind Ha. exact (offset_y_u _ _ _ Ha (set_x_u _ _ _ O Ha0 U)). }
  destruct ((0 <? p) && (get_available_width a <? q_point_width q)).
  - injection H as <-. exact M.
  - cbv zeta in H. inv_bind H. inv_bind H. injection H as <-. exact (offset_x_u _ _ _ Ha0 M).
Qed.
Lemma process_code_2d_u q s s' : process_code_2d q s = Ok s' -> uinv (rs_ctx s) -> uinv (rs_ctx s').
Proof.
  unfold process_code_2d. intros H U. apply bind_ok in H. destruct H as (t & Ht & H). cbv zeta in H.
  assert (O : u32v (calculate_justification t (rs_ctx s))).
  { refine (proj1 (justification_u _ _ U _)). destruct (mul_u32v _ _ _ Ht) as (_ & V). unfold u32v in V; lia. }
  apply bind_ok in H. destruct H as (c & Hc & H). apply bind_ok in H. destruct H as ([[c1 i] rects] & Hf & H). injection H as <-.
  cbn [call rs_ctx with_ctx]. apply reset_x_u.
  refine (fold_res_ind _ (fun y => uinv (fst (fst y))) _ (c, 1, []) (c1, i, rects) (set_x_u _ _ _ O Hc U) _ Hf).
  intros x y y' _ M E. exact (code2d_point_u _ _ _ _ _ O E M).
Qed.
Lemma barcode_point_u b p st st' : barcode_point b p st = Ok st' -> uinv (fst st) -> uinv (fst st').
Proof.
  destruct st as [c rects]. unfold barcode_point. intros H U.
  destruct ((0 <? p) && (get_available_width c <? b_point_width b)).
  - injection H as <-. exact U.
  - cbv zeta in H. inv_bind H. injection H as <-. exact (offset_x_u _ _ _ Ha U).
Qed.
Lemma barcode_text_u b s s' : barcode_text b s = Ok s' -> uinv (rs_ctx s) -> uinv (rs_ctx s').
Proof.
  unfold barcode_text. intros H U. inv_bind H.
  assert (Ua : uinv (rs_ctx a)) by exact (process_text_u _ _ Ha U).
  refine (on_ctx_u _ _ _ _ H). intros c' Hc. exact (newline_u _ _ _ Hc Ua).
Qed.
Lemma process_barcode_u b s s' : process_barcode b s = Ok s' -> uinv (rs_ctx s) -> uinv (rs_ctx s').
Proof.
  unfold process_barcode. intros H U. apply bind_ok in H. destruct H as (s1 & H1 & H).
  assert (U1 : uinv (rs_ctx s1)).
  { destruct (bc_human_readable _); try (injection H1 as <-; exact U); exact (barcode_text_u _ _ _ H1 U). }
  apply bind_ok in H. destruct H as (t & Ht & H). apply bind_ok in H. destruct H as (s2 & H2 & H).
  assert (U2 : uinv (rs_ctx s2)).
  { refine (on_ctx_u _ _ _ _ H2). intros c' Hc. refine (set_x_u _ _ _ _ Hc U1).
    refine (proj1 (justification_u _ _ U1 _)). destruct (mul_u32v _ _ _ Ht) as (_ & V). unfold u32v in V; lia. }
  apply bind_ok in H. destruct H as ((c & rects) & Hf & H). cbv zeta in H.
  assert (U3 : uinv c).
  { refine (fold_res_ind _ (fun y => uinv (fst y)) _ (rs_ctx s2, []) (c, rects) U2 _ Hf).
    intros x y y' _ M E. exact (barcode_point_u _ _ _ _ E M). }
  apply bind_ok in H. destruct H as (s4 & H4 & H).
  assert (U4 : uinv (rs_ctx s4)).
  { refine (on_ctx_u _ _ _ _ H4). intros c' Hc. exact (offset_y_u _ _ _ Hc (reset_x_u _ U3)). }
  destruct (bc_human_readable (c_barcode (rs_ctx s4))); try (injection H as <-; exact U4);
    (apply bind_ok in H; destruct H as (s5 & H5 & H); refine (barcode_text_u _ _ _ H _);
     refine (on_ctx_u _ _ _ _ H5); intros c' Hc; exact (offset_y_u _ _ _ Hc U4)).
Qed.
Lemma process_image_u i s s' : 0 <= i_w i -> process_image i s = Ok s' -> uinv (rs_ctx s) -> uinv (rs_ctx s').
Proof.
  intros W H U. unfold process_image in H. cbv zeta in H. apply bind_ok in H. destruct H as (s1 & H1 & H).
  assert (U1 : uinv (rs_ctx s1)).
  { destruct (i_flow i).
    - destruct (_ <? _); [|injection H1 as <-; exact U]. refine (on_ctx_u _ _ _ _ H1). intros c' Hc. exact (newline_u _ _ _ Hc U).
    - destruct (p_enabled _); [injection H1 as <-; exact U|]. refine (on_ctx_u _ _ _ _ H1). intros c' Hc.
      exact (set_x_u _ _ _ (proj1 (justification_u _ _ U W)) Hc U).
    - injection H1 as <-. exact U. }
  match type of H with match i_flow ?z with _ => _ end = _ => destruct (i_flow z) end.
  - refine (on_ctx_u _ _ _ _ H). intros c' Hc. exact (offset_x_u _ _ _ Hc U1).
  - match type of H with context [p_enabled ?z] => destruct (p_enabled z) end; [injection H as <-; exact U1|].
    refine (on_ctx_u _ _ _ _ H). intros c' Hc.
    inv_bind Hc. injection Hc as <-. exact (reset_x_u _ (offset_y_u _ _ _ Ha U1)).
  - injection H as <-. exact U1.
Qed.
Lemma process_gfx_u g s s' : gfx_wf g -> process_gfx g s = Ok s' -> uinv (rs_ctx s) -> uinv (rs_ctx s').
Proof.
  intros W H U. destruct g; cbn [process_gfx] in H.
  - injection H as <-. exact U.
  - exact (process_code_2d_u _ _ _ H U).
  - exact (process_barcode_u _ _ _ H U).
  - refine (process_image_u _ _ _ _ H U). destruct W as [W _ _]. unfold u32v in W. lia.
Qed.

(** ** Images built from data are rectangles of pixels *)
Lemma vset_len {A} (l : list A) i v l' : vset l i v = Ok l' -> vlen l' = vlen l.
Proof. unfold vset. destruct (_ || _); [discriminate|]. intros H. injection H as <-. unfold vlen. now rewrite set_nth_length. Qed.
Lemma for_range_len {A} n (f : Z -> list A -> res (list A)) l l' :
  (forall i l l', f i l = Ok l' -> vlen l' = vlen l) -> for_range n f l = Ok l' -> vlen l' = vlen l.
Proof.
  intros F H. unfold for_range in H.
  refine (fold_res_ind _ (fun y => vlen y = vlen l) _ _ _ eq_refl _ H). intros x y y' _ E Hx. rewrite <- E. exact (F _ _ _ Hx).
Qed.
Lemma scale_pixels_wf bytes ow oh sx sy nw nh out :
  scale_pixels bytes ow oh sx sy = Ok (nw, nh, out) -> u32v nw /\ u32v nh /\ vlen out = nw * nh.
Proof.
  unfold scale_pixels. intros H. cbv zeta in H. apply bind_ok in H. destruct H as (a & Ha & H). apply bind_ok in H. destruct H as (b & Hb & H).
  apply bind_ok in H. destruct H as (n & Hn & H). apply bind_ok in H. destruct H as (o & Ho & H). injection H as <- <- <-.
  destruct (mul_u32v _ _ _ Ha) as (_ & A). destruct (mul_u32v _ _ _ Hb) as (_ & B). destruct (mul_u32v _ _ _ Hn) as (En & N).
  split; [exact A | split; [exact B|]]. rewrite <- En.
  apply for_range_len in Ho.
  - rewrite Ho, vlen_repeat. unfold u32v in N. lia.
  - intros i l l' Hi. refine (for_range_len _ _ _ _ _ Hi). clear. intros j l l' Hj.
    apply bind_ok in Hj. destruct Hj as (? & _ & Hj). apply bind_ok in Hj. destruct Hj as (? & _ & Hj).
    apply bind_ok in Hj. destruct Hj as (px & _ & Hj).
    refine (for_range_len _ _ _ _ _ Hj). clear. intros k l l' Hk.
    refine (for_range_len _ _ _ _ _ Hk). clear. intros m l l' Hm.
    repeat (apply bind_ok in Hm; destruct Hm as (? & _ & Hm)). exact (vset_len _ _ _ _ Hm).
Qed.
Lemma raster_single_wf w h st color flow data bits g :
  u32v w -> u32v h -> image_from_raster_single w h st color flow data bits = Ok g -> kept_wf g.
Proof.
  intros W Hh H. unfold image_from_raster_single in H. cbv zeta in H. apply bind_ok in H. destruct H as (n & Hn & H).
  destruct (mul_u32v _ _ _ Hn) as (En & _).
  destruct (negb _) eqn:E; [injection H as <-; exact I|].
  apply bind_ok in H. destruct H as ([[nw nh] raw] & Ho & H). injection H as <-.
  assert (X : u32v nw /\ u32v nh /\ vlen raw = nw * nh).
  { destruct ((1 <? fst st) || (1 <? snd st)); [exact (scale_pixels_wf _ _ _ _ _ _ _ _ Ho)|].
    injection Ho as <- <- <-. split; [exact W | split; [exact Hh|]]. apply negb_false_iff, Z.eqb_eq in E. congruence. }
  destruct X as (X1 & X2 & X3). constructor; [exact X1 | exact X2 | cbn [i_pixels i_w i_h]; rewrite vlen_map; exact X3].
Qed.
Lemma column_single_wf w h st color flow data g :
  u32v w -> u32v h -> image_from_column_single w h st color flow data = Ok g -> kept_wf g.
Proof. intros W Hh H. unfold image_from_column_single in H. inv_bind H. exact (raster_single_wf _ _ _ _ _ _ _ _ W Hh H). Qed.
Lemma raster_layers_wf w h st rc flow data bits bpl : u32v w -> u32v h ->
  forall n k l, raster_layers k n w h st rc flow data bits bpl = Ok (inl l) -> Forall img_wf l.
Proof.
  intros W Hh. induction n as [|n IH]; intros k l H; cbn [raster_layers] in H; cbv zeta in H.
  - injection H as <-. constructor.
  - apply bind_ok in H. destruct H as (cn & _ & H). apply bind_ok in H. destruct H as (d & _ & H).
    apply bind_ok in H. destruct H as (g & Hg & H). pose proof (raster_single_wf _ _ _ _ _ _ _ _ W Hh Hg) as G.
    destruct g; [discriminate | contradiction | contradiction|].
    apply bind_ok in H. destruct H as (rest & Hr & H). destruct rest as [r|]; [|discriminate]. injection H as <-.
    constructor; [exact G | exact (IH _ _ Hr)].
Qed.
Lemma merge_rest_wf layers : forall base i, img_wf base -> merge_rest base layers = Ok (inl i) -> img_wf i.
Proof.
  induction layers as [|l r IH]; intros base i B H; cbn [merge_rest] in H.
  - injection H as <-. exact B.
  - destruct (_ || _); [discriminate|]. apply bind_ok in H. destruct H as (px & Hp & H). refine (IH _ _ _ H).
    destruct B as [B1 B2 B3]. constructor; [exact B1 | exact B2|]. cbn [set_i_pixels i_pixels i_w i_h]. rewrite <- B3.
    unfold merge_one in Hp. refine (for_range_len _ _ _ _ _ Hp). clear. intros i l1 l2 H.
    repeat (apply bind_ok in H; destruct H as (? & _ & H)). exact (vset_len _ _ _ _ H).
Qed.
Lemma merge_layers_wf l i : Forall img_wf l -> merge_image_layers l = Ok (inl i) -> img_wf i.
Proof.
  intros F H. unfold merge_image_layers in H. destruct l as [|a [|b l]]; [discriminate | |].
  - injection H as <-. inversion F; assumption.
  - apply Forall_cons_iff in F. exact (merge_rest_wf _ _ _ (proj1 F) H).
Qed.
Lemma merged_wf l m : Forall img_wf l -> merge_image_layers l = Ok m -> kept_wf (merged_gfx m).
Proof. intros F H. destruct m as [i|e]; [exact (merge_layers_wf _ _ F H) | exact I]. Qed.
Lemma raster_multi_wf w h st n rc flow data bits g : u32v w -> u32v h ->
  image_from_raster_multi w h st n rc flow data bits = Ok g -> kept_wf g.
Proof.
  intros W Hh H. unfold image_from_raster_multi in H. cbv zeta in H. destruct (negb _); [injection H as <-; exact I|].
  apply bind_ok in H. destruct H as (l & Hl & H). destruct l as [l|]; [|injection H as <-; exact I].
  apply bind_ok in H. destruct H as (m & Hm & H). injection H as <-.
  exact (merged_wf _ _ (raster_layers_wf _ _ _ _ _ _ _ _ W Hh _ _ _ Hl) Hm).
Qed.

Lemma map_get_wf r m g : Forall (fun kv => kept_wf (snd kv)) m -> map_get r m = Some g -> kept_wf g.
Proof.
  intros F H. unfold map_get in H. destruct (find _ m) as [kv|] eqn:E; [|discriminate]. injection H as <-.
  apply find_some in E. exact (proj1 (Forall_forall _ _) F _ (proj1 E)).
Qed.
Lemma forall_filter {A} (P : A -> Prop) f l : Forall P l -> Forall P (filter f l).
Proof. intros F. apply Forall_forall. intros x Hx. apply filter_In in Hx. exact (proj1 (Forall_forall _ _) F _ (proj1 Hx)). Qed.
Lemma buffer_layers_wf l r : Forall kept_wf l -> buffer_layers l = inl r -> Forall img_wf r.
Proof.
  revert r. induction l as [|g l IH]; intros r F H; cbn [buffer_layers] in H; [injection H as <-; constructor|].
  apply Forall_cons_iff in F. destruct F as (G & F). destruct g; [discriminate | exact (IH _ F H) | exact (IH _ F H)|].
  destruct (buffer_layers l) as [t|] eqn:E; [|discriminate]. injection H as <-. constructor; [exact G | exact (IH _ F eq_refl)].
Qed.
Lemma lor_disjoint_bound a b n : 0 <= n -> 0 <= a < 2 ^ n -> 0 <= b < 2 ^ n -> 0 <= Z.lor a b < 2 ^ n.
Proof.
  intros N A B. split; [apply Z.lor_nonneg; lia|].
  destruct (Z.eq_dec (Z.lor a b) 0) as [->|NZ]; [apply Z.pow_pos_nonneg; lia|].
  assert (P : 0 < Z.lor a b) by (pose proof (proj2 (Z.lor_nonneg a b) ltac:(lia)); lia).
  apply Z.log2_lt_pow2; [exact P|]. rewrite Z.log2_lor by lia.
  apply Z.max_lub_lt.
  - destruct (Z.eq_dec a 0) as [->|]; [|apply Z.log2_lt_pow2; lia]. cbn.
    destruct (Z.eq_dec n 0) as [->|]; [|lia]. change (2 ^ 0) with 1 in *. assert (b = 0) by lia. subst. cbn in NZ. lia.
  - destruct (Z.eq_dec b 0) as [->|]; [|apply Z.log2_lt_pow2; lia]. cbn.
    destruct (Z.eq_dec n 0) as [->|]; [|lia]. change (2 ^ 0) with 1 in *. assert (a = 0) by lia. subst. cbn in NZ. lia.
Qed.
Lemma parse_u16_u data k : bytes_ok data = true -> u32v (parse_u16 data k).
Proof.
  intros B. unfold parse_u16. pose proof (bytes_get data k B) as H1. pose proof (bytes_get data (k + 1) B) as H2.
  rewrite Z.shiftl_mul_pow2 by lia. change (2 ^ 8) with 256.
  assert (X : 0 <= Z.lor (get_or 0 data (k + 1) * 256) (get_or 0 data k) < 2 ^ 16) by (apply lor_disjoint_bound; lia).
  change (2 ^ 16) with 65536 in X. unfold u32v. lia.
Qed.
Lemma sub_graphics_wf id data x g : uinv x -> sub_graphics id data x = Ok (Some g) ->
  match g with GImage i => img_wf i | GBarcode _ => False | _ => True end.
Proof.
  intros U H. unfold sub_graphics in H. cbv zeta in H.
  assert (Q : forall (o : option code2d_g) g, match o with Some q => Some (GCode2D q) | None => None end = Some g ->
    match g with GImage i => img_wf i | GBarcode _ => False | _ => True end).
  { intros [q|] g' E; [injection E as <-; exact I | discriminate]. }
  assert (G : forall g, kept_wf g -> match g with GImage i => img_wf i | GBarcode _ => False | _ => True end).
  { intros g'. destruct g'; cbn; tauto. }
  destruct id; try discriminate; try (injection H as H; exact (Q _ _ H)).
  - injection H as H. rewrite <- H. destruct (k_symbol_storage (c_code2d x)); exact I.
  - unfold print_buffer in H. destruct (buffer_layers _) as [l|e] eqn:E; [|injection H as <-].
    + pose proof (buffer_layers_wf _ _ (ui_buffer _ U) E) as F. destruct l as [|a l]; [discriminate|].
      apply bind_ok in H. destruct H as (m & Hm & H). injection H as <-. destruct m as [i|]; [|exact I]. exact (merge_layers_wf _ _ F Hm).
    + clear - E. revert E. generalize (g_buffer_graphics (c_graphics x)) as l. induction l as [|g l IH]; cbn [buffer_layers]; [discriminate|].
      destruct g; intros E; [injection E as <-; exact I | exact (IH E) | exact (IH E)|].
      destruct (buffer_layers l) as [t|e'] eqn:E'; [discriminate|]. injection E as ->. exact (IH eq_refl).
  - injection H as H. destruct (ref_from_data data Ram); [|discriminate]. exact (G _ (map_get_wf _ _ _ (ui_stored _ U) H)).
  - injection H as H. destruct (ref_from_data data Disc); [|discriminate]. exact (G _ (map_get_wf _ _ _ (ui_stored _ U) H)).
Qed.
Lemma sub_graphics_gfx id data x g : uinv x -> sub_graphics id data x = Ok (Some g) -> gfx_wf g.
Proof. intros U H. pose proof (sub_graphics_wf _ _ _ _ U H) as W. destruct g; cbn; tauto. Qed.
Lemma sent_ranges c : sent c ->
  match c_handler c with
  | HBitImage s => u32v (bi_width s) /\ u32v (bi_height s)
  | HRaster s => u32v (ra_width s) /\ u32v (ra_height s)
  | _ => True
  end.
Proof.
  intros Sc. destruct (sent_reported _ Sc) as [(t & _ & _ & I)|(sc & _ & I)].
  - pose proof (in_handler _ _ I) as L. destruct (c_handler t), (c_handler c); cbn [handler_like] in L; try contradiction; try exact Logic.I;
      unfold u16b, u32v in *; lia.
  - rewrite (si_handler _ _ I). exact Logic.I.
Qed.
Lemma get_graphics_wf e c x g : sent c -> uinv x -> get_graphics e c x = Ok (Some g) -> gfx_wf g.
Proof.
  intros Sc U H. pose proof (sent_ranges _ Sc) as R. unfold get_graphics in H.
  destruct (c_handler c) as [id| |cap|s|s|s|s|id]; try discriminate.
  - apply bind_ok in H. destruct H as (g0 & Hg & H). injection H as <-.
    assert (X : match g0 with GImage _ => False | _ => True end); [|destruct g0; [exact I | exact I | exact I | contradiction]].
    unfold barcode_graphics in Hg. cbv zeta in Hg.
    destruct (negb _); [injection Hg as <-; exact I|].
    assert (F : forall p t x, match finish_barcode p t x with GImage _ => False | _ => True end) by (intros [p|] t y; exact I).
    destruct (bc_kind s); try (injection Hg as <-; first [exact I | apply F]).
    + apply bind_ok in Hg. destruct Hg as (u & _ & Hg). destruct u as [code|]; [|injection Hg as <-; exact I].
      apply bind_ok in Hg. destruct Hg as (p & _ & Hg). injection Hg as <-. exact I.
    + destruct (_ && _); [discriminate|]. destruct (from_utf8 _); [|discriminate]. injection Hg as <-. apply F.
  - apply bind_ok in H. destruct H as (g0 & Hg & H). injection H as <-. destruct R as (R1 & R2).
    unfold bit_image_graphics in Hg. cbv zeta in Hg. destruct (bi_col_encoded s);
      [apply kept_gfx; exact (column_single_wf _ _ _ _ _ _ _ R1 R2 Hg) | apply kept_gfx; exact (raster_single_wf _ _ _ _ _ _ _ _ R1 R2 Hg)].
  - apply bind_ok in H. destruct H as (g0 & Hg & H). injection H as <-. destruct R as (R1 & R2).
    unfold raster_graphics in Hg. apply kept_gfx; exact (raster_single_wf _ _ _ _ _ _ _ _ R1 R2 Hg).
  - destruct (ss_subcommand s) as [sc|]; [|discriminate]. exact (sub_graphics_gfx _ _ _ _ U H).
  - exact (sub_graphics_gfx _ _ _ _ U H).
Qed.

(** ** Commands *)
Lemma uinv_frame c c' : uinv c ->
  g_render_area (c_graphics c') = g_render_area (c_graphics c) -> c_page c' = c_page c ->
  g_stored_graphics (c_graphics c') = g_stored_graphics (c_graphics c) ->
  g_buffer_graphics (c_graphics c') = g_buffer_graphics (c_graphics c) -> uinv c'.
Proof. intros [U1 U2 U3 U4 U5 U6] E1 E2 E3 E4. constructor; rewrite ?E1, ?E2, ?E3, ?E4; assumption. Qed.
Lemma uinv_text f c : uinv c -> uinv (upd_text f c).
Proof. intros U. apply (uinv_frame c); try reflexivity; exact U. Qed.
Lemma uinv_barcode f c : uinv c -> uinv (upd_barcode f c).
Proof. intros U. apply (uinv_frame c); try reflexivity; exact U. Qed.
Lemma uinv_code2d f c : uinv c -> uinv (upd_code2d f c).
Proof. intros U. apply (uinv_frame c); try reflexivity; exact U. Qed.
Lemma uinv_new : uinv context_new.
Proof.
  assert (Z0 : uarea (mk_area 0 0 0 0)) by (constructor; cbn; unfold u32v; lia).
  assert (R : uarea (mk_area 0 60 609 0)) by (constructor; cbn; unfold u32v; lia).
  constructor; [|exact Z0|exact Z0|exact Z0|apply Forall_nil|apply Forall_nil].
  replace (g_render_area (c_graphics context_new)) with (mk_area 0 60 609 0); [exact R | vm_compute; reflexivity].
Qed.
Lemma uinv_page f c : uinv c -> (forall p, p_page_area (f p) = p_page_area p /\ p_render_area (f p) = p_render_area p /\
  p_logical_area (f p) = p_logical_area p) -> uinv (upd_page f c).
Proof.
  intros [U1 U2 U3 U4 U5 U6] F. destruct (F (c_page c)) as (E1 & E2 & E3).
  constructor; change (c_page (upd_page f c)) with (f (c_page c)); rewrite ?E1, ?E2, ?E3; assumption.
Qed.
Lemma sent_arg0 c i d : sent c -> 0 <= d <= 255 -> 0 <= arg d c i <= 255.
Proof. intros Sc D. exact (sent_arg c i d Sc D). Qed.
Lemma sent_bytes c : sent c -> bytes_ok (c_data c) = true.
Proof.
  intros Sc. destruct (sent_reported _ Sc) as [(t & _ & _ & I)|(sc & _ & I)]; [exact (in_data _ _ I) | exact (si_data _ _ I)].
Qed.
Lemma get_pos_u c : sent c -> u32v (get_pos c).
Proof.
  intros Sc. unfold get_pos, u32v. pose proof (sent_arg0 c 0 0 Sc ltac:(lia)). pose proof (sent_arg0 c 1 0 Sc ltac:(lia)). lia.
Qed.
Lemma reset_u c : sinv c -> uinv c -> uinv (reset c).
Proof.
  intros S [U1 U2 U3 U4 U5 U6]. pose proof uinv_new as [N1 _ _ _ N5 N6]. unfold reset. rewrite (si_default _ S).
  constructor; assumption.
Qed.
Lemma set_page_area_u a c c' : sinv c -> uarea a -> uinv c -> set_page_area a c = Ok c' -> uinv c'.
Proof.
  intros S [A1 A2 A3 A4] [U1 U2 U3 U4 U5 U6] H. unfold set_page_area in H. cbv zeta in H.
  apply bind_ok in H. destruct H as (x & Hx & H). apply bind_ok in H. destruct H as (y & Hy & H).
  apply bind_ok in H. destruct H as (w & Hw & H). apply bind_ok in H. destruct H as (h & Hh & H). injection H as <-.
  pose proof (hmu_nonneg _ S) as Mh. pose proof (vmu_nonneg _ S) as Mv.
  constructor; try assumption. change (p_logical_area _) with (mk_area x y w h).
  constructor; [exact (div_u_u _ _ _ A1 Mh Hx) | exact (div_u_u _ _ _ A2 Mv Hy) | exact (div_u_u _ _ _ A3 Mh Hw) | exact (div_u_u _ _ _ A4 Mv Hh)].
Qed.
Lemma apply_plain_u id c x x' : sent c -> sinv x -> uinv x -> apply_plain id c x = Ok x' -> uinv x'.
Proof.
  intros Sc S U H. destruct id; cbn [apply_plain] in H; cbv zeta in H;
    try (injection H as <-; unfold update_decoder, set_font, set_print_mode; cbv zeta;
         first [exact U | repeat apply uinv_text; exact U | apply uinv_barcode; exact U]).
  - injection H as <-. destruct (ctx_default x); [apply uinv_text|]; exact U.
  - injection H as <-. exact (reset_u _ S U).
  - destruct (p_enabled (c_page x)); [|injection H as <-; exact U]. exact (offset_y_relative_u _ _ _ H U).
  - destruct (p_enabled (c_page x)); [|injection H as <-; exact U]. refine (set_page_area_u _ _ _ S _ U H).
    pose proof (sent_bytes _ Sc) as B. constructor; apply parse_u16_u; exact B.
  - injection H as <-. destruct (p_enabled (c_page x)); [|exact U]. apply uinv_page; [exact U | intros p; auto].
  - injection H as <-. apply uinv_page; [exact U | intros p; auto].
  - injection H as <-. destruct (6 <? _); [exact U | apply uinv_barcode; exact U].
  - exact (set_x_absolute_u _ _ _ S (get_pos_u _ Sc) H U).
  - inv_bind H. injection H as <-. apply uinv_text; exact U.
  - injection H as <-. unfold set_motion_units. cbv zeta. destruct (_ || _); [exact U|].
    apply (uinv_frame x); try reflexivity; exact U.
  - destruct (p_enabled (c_page x)); [|injection H as <-; exact U]. exact (set_y_absolute_u _ _ _ S (get_pos_u _ Sc) H U).
Qed.
Lemma uinv_stored f c : uinv c -> (forall m, Forall (fun kv => kept_wf (snd kv)) m -> Forall (fun kv => kept_wf (snd kv)) (f m)) ->
  uinv (upd_stored f c).
Proof. intros [U1 U2 U3 U4 U5 U6] F. constructor; try assumption. exact (F _ U5). Qed.
Lemma stored_insert r g m : kept_wf g -> Forall (fun kv : image_ref * gfx => kept_wf (snd kv)) m ->
  Forall (fun kv => kept_wf (snd kv)) (map_insert r g m).
Proof. intros G F. unfold map_insert. constructor; [exact G | apply forall_filter; exact F]. Qed.
Lemma push_buffer_u g c : kept_wf g -> uinv c -> uinv (push_buffer g c).
Proof.
  intros G [U1 U2 U3 U4 U5 U6]. constructor; try assumption.
  change (g_buffer_graphics (c_graphics (push_buffer g c))) with (g_buffer_graphics (c_graphics c) ++ [g]).
  apply Forall_app. split; [exact U6 | constructor; [exact G | constructor]].
Qed.
Lemma define_column_u s data x x' : bytes_ok data = true -> uinv x -> define_column s data x = Ok x' -> uinv x'.
Proof.
  intros B U H. unfold define_column in H.
  do 5 (apply bind_ok in H; destruct H as (? & _ & H)). apply bind_ok in H. destruct H as (g & Hg & H). injection H as <-.
  apply (uinv_stored (map_insert _ g) x U). intros m. apply stored_insert.
  exact (raster_multi_wf _ _ _ _ _ _ _ _ _ (parse_u16_u _ _ B) (parse_u16_u _ _ B) Hg).
Qed.
Lemma define_raster_u s data x x' : bytes_ok data = true -> uinv x -> define_raster s data x = Ok x' -> uinv x'.
Proof.
  intros B U H. unfold define_raster in H. destruct (vlen data <? 8); [injection H as <-; exact U|].
  do 4 (apply bind_ok in H; destruct H as (? & _ & H)). apply bind_ok in H. destruct H as (g & Hg & H). injection H as <-.
  apply (uinv_stored (map_insert _ g) x U). intros m. apply stored_insert.
  exact (raster_multi_wf _ _ _ _ _ _ _ _ _ (parse_u16_u _ _ B) (parse_u16_u _ _ B) Hg).
Qed.
Lemma store_buffer_u col data x x' : bytes_ok data = true -> uinv x -> store_buffer col data x = Ok x' -> uinv x'.
Proof.
  intros B U H. unfold store_buffer in H. destruct (vlen data <? 4); [injection H as <-; apply push_buffer_u; [exact I | exact U]|].
  do 4 (apply bind_ok in H; destruct H as (? & _ & H)). cbv zeta in H. apply bind_ok in H. destruct H as (g & Hg & H). injection H as <-.
  apply push_buffer_u; [|exact U]. pose proof (parse_u16_u data 4 B) as W. pose proof (parse_u16_u data 6 B) as Hh.
  destruct col; [exact (column_single_wf _ _ _ _ _ _ _ W Hh Hg) | exact (raster_single_wf _ _ _ _ _ _ _ _ W Hh Hg)].
Qed.
Lemma apply_sub_u e id c x x' : bytes_ok (c_data c) = true -> uinv x -> apply_sub e id c x = Ok x' -> uinv x'.
Proof.
  intros B U H. destruct id; cbn [apply_sub] in H; cbv zeta in H;
    try (injection H as <-; first [exact U | apply uinv_code2d; exact U]);
    try exact (define_column_u _ _ _ _ B U H); try exact (define_raster_u _ _ _ _ B U H); try exact (store_buffer_u _ _ _ _ B U H).
  - destruct (vlen (c_data c) <? 2); [discriminate|]. inv_bind H. injection H as <-. apply uinv_code2d; exact U.
  - injection H as <-. unfold qr_store. cbv zeta. destruct (e_qr _ _ _ _ _) as [[bits w]|]; [apply uinv_code2d|]; exact U.
  - inv_bind H. injection H as <-. apply uinv_code2d; exact U.
  - injection H as <-. destruct (_ || _); [|apply uinv_code2d]; exact U.
  - inv_bind H. injection H as <-. destruct a as [[[? ?] ?]|]; [apply uinv_code2d|]; exact U.
  - injection H as <-. apply uinv_stored; [exact U | intros m; apply forall_filter].
  - injection H as <-. apply uinv_stored; [exact U | intros m; apply forall_filter].
  - injection H as <-. unfold clear_one. destruct (ref_from_data _ _); [|exact U]. apply uinv_stored; [exact U | intros m; apply forall_filter].
  - injection H as <-. unfold clear_one. destruct (ref_from_data _ _); [|exact U]. apply uinv_stored; [exact U | intros m; apply forall_filter].
  - injection H as <-. repeat match goal with |- uinv (if ?z then _ else _) => destruct z end;
      first [exact U | apply (uinv_frame x); try reflexivity; exact U].
Qed.
Lemma apply_context_u e c x x' : sent c -> sinv x -> uinv x -> apply_context e c x = Ok x' -> uinv x'.
Proof.
  intros Sc S U H. pose proof (sent_bytes _ Sc) as B. unfold apply_context in H. destruct (c_handler c) as [id| |cap|s|s|s|s|id];
    try (injection H as <-; exact U).
  - exact (apply_plain_u _ _ _ _ Sc S U H).
  - injection H as <-. unfold character_effects. cbv zeta. destruct (_ <? _); [exact U|].
    repeat match goal with |- uinv (match ?z with _ => _ end) => destruct z end; first [exact U | apply uinv_text; exact U].
  - destruct (ss_subcommand s) as [sc|]; [exact (apply_sub_u _ _ _ _ _ B U H) | injection H as <-; exact U].
  - exact (apply_sub_u _ _ _ _ _ B U H).
Qed.

Lemma apply_logical_u p rot w h p' :
  uarea (p_page_area p) -> uarea (p_logical_area p) -> apply_logical_area p = Ok (rot, w, h, p') ->
  uarea (p_page_area p') /\ uarea (p_render_area p') /\ p_logical_area p' = p_logical_area p /\ u32v w /\ u32v h.
Proof.
  intros P L H. unfold apply_logical_area in H. cbv zeta in H.
  match type of H with context [p_direction (if ?b then ?x else ?y)] => set (p1 := if b then x else y) in H; set (b1 := b) in p1 end.
  assert (P1 : uarea (p_page_area p1) /\ p_logical_area p1 = p_logical_area p /\ p_direction p1 = p_direction p).
  { subst p1. destruct b1; [|auto]. destruct P as [? ? ? ?]. split; [constructor; assumption | auto]. }
  clearbody p1. destruct P1 as (P1 & L1 & D1). rewrite <- L1 in L.
  apply bind_ok in H. destruct H as (p2 & H2 & H).
  assert (P2 : p_page_area p2 = p_page_area p1 /\ p_logical_area p2 = p_logical_area p1 /\ uarea (p_render_area p2)).
  { destruct P1 as [B1 B2 B3 B4], L as [M1 M2 M3 M4]. destruct (p_direction p1).
    - unfold translate_top_left_to_right in H2. cbv zeta in H2. injection H2 as <-.
      split; [reflexivity | split; [reflexivity | constructor; assumption]].
    - unfold translate_bottom_right_to_left in H2. cbv zeta in H2. inv_bind H2. injection H2 as <-.
      destruct (add_u32v _ _ _ Ha) as (_ & V).
      split; [reflexivity | split; [reflexivity | constructor; try assumption]].
      apply sat_sub_u; [exact B3 | unfold u32v in V; lia].
    - unfold translate_top_right_to_bottom in H2. cbv zeta in H2. inv_bind H2. inv_bind H2. injection H2 as <-.
      destruct (add_u32v _ _ _ Ha) as (_ & V). destruct (add_u32v _ _ _ Ha0) as (_ & V').
      split; [reflexivity | split; [reflexivity | constructor; try assumption]];
        apply sat_sub_u; first [assumption | unfold u32v in *; lia].
    - unfold translate_bottom_left_to_top in H2. cbv zeta in H2. inv_bind H2. injection H2 as <-.
      destruct (add_u32v _ _ _ Ha) as (_ & V).
      split; [reflexivity | split; [reflexivity | constructor; try assumption]].
      apply sat_sub_u; [exact B3 | unfold u32v in V; lia]. }
  destruct P2 as (E1 & E2 & R). apply bind_ok in H. destruct H as (mw & Hw & H). apply bind_ok in H. destruct H as (mh & Hh & H).
  injection H as _ <- <- <-.
  destruct (add_u32v _ _ _ Hw) as (_ & Vw). destruct (add_u32v _ _ _ Hh) as (_ & Vh).
  rewrite <- E1 in P1. destruct P1 as [B1 B2 B3 B4]. destruct R as [R1 R2 R3 R4].
  assert (X : forall a b, u32v a -> u32v b -> u32v (Z.max a b)) by (unfold u32v; intros; lia).
  split; [constructor; cbn; [exact R1 | exact R2 | exact (X _ _ Vw B3) | exact (X _ _ Vh B4)]|].
  split; [constructor; assumption|]. split; [cbn; congruence|]. cbn. split; [exact (X _ _ Vw B3) | exact (X _ _ Vh B4)].
Qed.
Lemma page_geometry_u s s' : page_geometry s = Ok s' -> uinv (rs_ctx s) -> uinv (rs_ctx s').
Proof.
  intros H [U1 U2 U3 U4 U5 U6]. unfold page_geometry in H. inv_bind H. destruct a as [[[rot w] h] p]. injection H as <-.
  destruct (apply_logical_u _ _ _ _ _ U2 U4 Ha) as (X1 & X2 & X3 & _).
  constructor; try assumption. change (p_logical_area _) with (p_logical_area p). rewrite X3. exact U4.
Qed.
Lemma process_device_u d s s' : process_device_command d s = Ok s' -> uinv (rs_ctx s) -> uinv (rs_ctx s').
Proof.
  intros H U. unfold process_device_command in H. cbv zeta in H.
  set (s0 := call (EDevice d) s) in H. assert (U0 : uinv (rs_ctx s0)) by exact U. clearbody s0. clear U.
  destruct d; try (injection H as <-; exact U0);
    try (refine (on_ctx_u _ _ _ _ H); intros c' Hc; first
      [ exact (newline_u _ _ _ Hc U0) | exact (feed_u _ _ _ Hc U0)
      | injection Hc as <-; first [apply uinv_text; exact U0 | apply uinv_page; [exact U0 | intros p; auto]] ]).
  - inv_bind H. injection H as <-. change (uinv (rs_ctx a)). refine (on_ctx_u _ _ _ _ Ha). intros c' Hc. exact (newline_u _ _ _ Hc U0).
  - inv_bind H. injection H as <-. change (uinv (rs_ctx a)). refine (on_ctx_u _ _ _ _ Ha). intros c' Hc. injection Hc as <-.
    apply uinv_page; [exact U0 | intros p; auto].
  - refine (on_ctx_u _ _ _ _ H); intros c' Hc. inv_bind Hc. injection Hc as <-.
    apply uinv_gra; [exact U0|]. apply u_x; [apply u_y|].
    + exact (ui_render _ U0).
    + exact (proj2 (add_u32v _ _ _ Ha)).
    + unfold u32v; lia.
  - exact (page_geometry_u _ _ H U0).
  - inv_bind H. refine (page_geometry_u _ _ H _). refine (on_ctx_u _ _ _ _ Ha); intros c' Hc. injection Hc as <-.
    apply uinv_page; [exact U0 | intros p; auto].
  - refine (on_ctx_u _ _ _ _ H); intros c' Hc. injection Hc as <-. unfold set_tab_len. destruct (_ <? _); [apply uinv_text|]; exact U0.
  - refine (on_ctx_u _ _ _ _ H); intros c' Hc. injection Hc as <-. destruct U0 as [X1 X2 X3 X4 X5 X6]. constructor; try assumption. constructor.
Qed.
Lemma process_devices_u l s s' : process_device_commands l s = Ok s' -> uinv (rs_ctx s) -> uinv (rs_ctx s').
Proof.
  intros H U. unfold process_device_commands in H. refine (fold_res_ind _ (fun y => uinv (rs_ctx y)) _ _ _ U _ H).
  intros d y y' _ Uy E. exact (process_device_u _ _ _ E Uy).
Qed.
Lemma process_command_u e c s s' :
  sent c -> sinv (rs_ctx s) -> uinv (rs_ctx s) -> process_command e c s = Ok s' -> uinv (rs_ctx s').
Proof.
  intros Sc S U H. unfold process_command in H. destruct (c_kind c).
  - apply bind_ok in H. destruct H as (d & _ & H). apply bind_ok in H. destruct H as (s1 & H1 & H).
    exact (process_devices_u _ _ _ H (process_text_u _ _ H1 U)).
  - injection H as <-. destruct (get_text c (rs_ctx s)); exact U.
  - apply bind_ok in H. destruct H as (s1 & H1 & H). apply bind_ok in H. destruct H as (d & _ & H).
    refine (process_devices_u _ _ _ H _). refine (on_ctx_u _ _ _ _ H1). intros c' Hc. exact (apply_context_u _ _ _ _ Sc S U Hc).
  - apply bind_ok in H. destruct H as (s1 & H1 & H). apply bind_ok in H. destruct H as (g & Hg & H).
    apply bind_ok in H. destruct H as (s2 & H2 & H). apply bind_ok in H. destruct H as (d & _ & H).
    pose proof (process_text_u _ _ H1 U) as U1. refine (process_devices_u _ _ _ H _).
    destruct g as [g|]; [|injection H2 as <-; exact U1]. exact (process_gfx_u _ _ _ (get_graphics_wf _ _ _ _ Sc U1 Hg) H2 U1).
  - apply bind_ok in H. destruct H as (s1 & H1 & H). pose proof (process_text_u _ _ H1 U) as U1.
    destruct (process_text_moved _ _ H1) as (M & _). pose proof (sinv_moved _ _ M S) as S1.
    refine (on_ctx_u _ _ _ _ H). intros c' Hc. exact (apply_context_u _ _ _ _ Sc S1 U1 Hc).
  - apply bind_ok in H. destruct H as (s1 & H1 & H). pose proof (process_text_u _ _ H1 U) as U1.
    destruct (process_text_moved _ _ H1) as (M & _). pose proof (sinv_moved _ _ M S) as S1.
    apply bind_ok in H. destruct H as (s2 & H2 & H). apply bind_ok in H. destruct H as (d & _ & H).
    refine (process_devices_u _ _ _ H _). refine (on_ctx_u _ _ _ _ H2). intros c' Hc. exact (apply_context_u _ _ _ _ Sc S1 U1 Hc).
  - injection H as <-. exact U.
  - apply bind_ok in H. destruct H as (s1 & H1 & H). injection H as <-. exact (process_text_u _ _ H1 U).
Qed.
Lemma history_uinv e s : history e s -> uinv (rs_ctx s).
Proof.
  intros (l & F & H). unfold run_commands in H.
  refine (proj1 (fold_res_ind _ (fun y => uinv (rs_ctx y) /\ sinv (rs_ctx y)) _ renderer_new s (conj uinv_new sinv_new) _ H)).
  intros c y y' Hin (U & S) E. pose proof (proj1 (Forall_forall _ _) F _ Hin) as Sc.
  split; [exact (process_command_u _ _ _ _ Sc S U E) | exact (process_command_sinv _ _ _ _ Sc S E)].
Qed.
