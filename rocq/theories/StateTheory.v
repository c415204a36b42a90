(** * StateTheory: the settings invariant of every history (used by PropsContext, PropsRenderer). *)
From Verif Require Import Base Command CommandSet Parser Vec Float32 GTypes Graphics Decoder Context Text
  Handlers Renderer ContextTheory RendererTheory Origin SpecPrinter.
Local Open Scope Z_scope.
Local Open Scope list_scope.

Record text_ok (t : text_ctx) : Prop := mk_text_ok {
  tk_cell : (t_character_width t, t_character_height t) = cell_of (t_font t);
  tk_wmult : 1 <= t_width_mult t <= 8;
  tk_hmult : 1 <= t_height_mult t <= 8;
  tk_spacing : 0 <= t_line_spacing t <= 255;
  tk_tabs : length (t_tabs t) = 32%nat /\ bytes_ok (t_tabs t) = true;
  tk_table : 0 <= t_code_table t <= 255 /\ 0 <= t_character_set t <= 255;
  tk_decoder : t_decoder t =
      (let cp := get_codepage (t_code_table t) (t_character_set t) in
       {| cp_table := cp_table cp; cp_name := cp_name cp; cp_language := cp_language cp;
          cp_utf8 := t_code_table t =? 255 |}) }.
Record bc_ok (b : barcode_ctx) : Prop := mk_bc_ok {
  bk_width : 2 <= bc_width b <= 6; bk_height : 0 <= bc_height b <= 255 }.
Record gr_ok (g : graphics_ctx) : Prop := mk_gr_ok {
  gk_dpi : In (g_dots_per_inch g) [203; 180; 360];
  gk_motion : 0 <= g_h_motion_unit g <= 255 /\ 0 <= g_v_motion_unit g <= 255;
  gk_colors : g_render_colors g = default_colors;
  gk_paper : g_paper_area g = g_paper_area default_graphics;
  gk_width : a_w (g_render_area g) = 609 }.
Record sinv (c : context) : Prop := mk_sinv {
  si_default : ctx_default c = Some default_settings;
  si_text : text_ok (c_text c);
  si_barcode : bc_ok (c_barcode c);
  si_graphics : gr_ok (c_graphics c) }.

Lemma sinv_settings c : sinv c <-> settings_ok c.
Proof.
  split.
  - intros [D [T1 T2 T3 T4 T5 T6 T7] [B1 B2] [G1 G2 G3 G4 G5]]. constructor; auto.
  - intros [D T1 T2 T3 T4 T5 T6 T7 B1 B2 G1 G2 G3 G4 G5].
    constructor; [exact D | constructor; auto | constructor; auto | constructor; auto].
Qed.

Lemma default_text_ok : text_ok default_text.
Proof.
  constructor.
  - reflexivity.
  - cbn; lia.
  - cbn; lia.
  - cbn; lia.
  - split; reflexivity.
  - cbn; lia.
  - vm_compute. reflexivity.
Qed.
Lemma default_bc_ok : bc_ok default_barcode.
Proof. constructor; cbn; lia. Qed.
Lemma default_gr_ok : gr_ok default_graphics.
Proof. constructor; [left; reflexivity | cbn; lia | reflexivity | reflexivity | vm_compute; reflexivity]. Qed.
Lemma sinv_new : sinv context_new.
Proof. constructor; [reflexivity | exact default_text_ok | exact default_bc_ok | exact default_gr_ok]. Qed.

Lemma sinv_moved c c' : moved c c' -> sinv c -> sinv c'.
Proof.
  intros M [D T B [G1 G2 G3 G4 G5]]. constructor.
  - rewrite (moved_default _ _ M). exact D.
  - rewrite (moved_text _ _ M). exact T.
  - rewrite (moved_barcode _ _ M). exact B.
  - constructor.
    + rewrite (moved_dpi _ _ M). exact G1.
    + rewrite (moved_hmu _ _ M), (moved_vmu _ _ M). exact G2.
    + rewrite (moved_colors _ _ M). exact G3.
    + rewrite (moved_paper _ _ M). exact G4.
    + rewrite (moved_render_w _ _ M). exact G5.
Qed.
Lemma sinv_text f c : sinv c -> text_ok (f (c_text c)) -> sinv (upd_text f c).
Proof. intros [D T B G] H. constructor; assumption. Qed.
Lemma sinv_barcode f c : sinv c -> bc_ok (f (c_barcode c)) -> sinv (upd_barcode f c).
Proof. intros [D T B G] H. constructor; assumption. Qed.
Lemma sinv_code2d f c : sinv c -> sinv (upd_code2d f c).
Proof. intros [D T B G]. constructor; assumption. Qed.
Lemma sinv_page f c : sinv c -> sinv (upd_page f c).
Proof. intros [D T B G]. constructor; assumption. Qed.
Lemma sinv_graphics f c : sinv c -> gr_ok (f (c_graphics c)) -> sinv (upd_graphics f c).
Proof. intros [D T B G] H. constructor; assumption. Qed.

Lemma font_cell f : font_to_size f = cell_of f.
Proof. destruct f; reflexivity. Qed.
Lemma sinv_font f c : sinv c -> sinv (set_font f c).
Proof.
  intros S. apply sinv_text; [exact S|]. destruct S as [_ [T1 T2 T3 T4 T5 T6 T7] _ _].
  constructor; cbn; auto. rewrite font_cell. destruct f; reflexivity.
Qed.
Lemma sinv_update_decoder c : sinv c -> sinv (update_decoder c).
Proof.
  intros S. apply sinv_text; [exact S|]. destruct S as [_ [T1 T2 T3 T4 T5 T6 T7] _ _].
  constructor; auto.
Qed.

(** after changing table or set, [update_decoder] restores the invariant *)
Lemma sinv_retable f c :
  sinv c ->
  (forall t, text_ok t -> 0 <= t_code_table (f t) <= 255 /\ 0 <= t_character_set (f t) <= 255) ->
  (forall t, text_ok t -> (t_character_width (f t), t_character_height (f t)) = cell_of (t_font (f t)) /\
     t_width_mult (f t) = t_width_mult t /\ t_height_mult (f t) = t_height_mult t /\
     t_line_spacing (f t) = t_line_spacing t /\ t_tabs (f t) = t_tabs t) ->
  sinv (update_decoder (upd_text f c)).
Proof.
  intros [D T B G] H1 H2. destruct (H2 _ T) as (E1 & E2 & E3 & E4 & E5). pose proof (H1 _ T) as E6.
  unfold update_decoder. constructor; try assumption.
  change (c_text (upd_text ?g (upd_text f c))) with (g (f (c_text c))).
  destruct T as [T1 T2 T3 T4 T5 T6 T7].
  constructor; cbn [set_t_decoder t_character_width t_character_height t_font t_width_mult t_height_mult
     t_line_spacing t_tabs t_code_table t_character_set t_decoder].
  - exact E1.
  - rewrite E2; exact T2.
  - rewrite E3; exact T3.
  - rewrite E4; exact T4.
  - rewrite E5; exact T5.
  - exact E6.
  - reflexivity.
Qed.

Ltac texts := intros; match goal with S : sinv ?c |- sinv (upd_text _ ?c) =>
  apply sinv_text; [exact S|]; destruct S as [_ [? ? ? ? ? ? ?] _ _]; constructor; cbn; auto end.

Lemma sinv_reset c : sinv c -> sinv (reset c).
Proof.
  intros [D T B G]. unfold reset. rewrite D.
  constructor; [reflexivity | exact default_text_ok | exact default_bc_ok | exact default_gr_ok].
Qed.

Lemma div_u_ok a b v : div_u a b = Ok v -> b <> 0 /\ v = a / b.
Proof. unfold div_u. destruct (b =? 0) eqn:E; [discriminate|]. intros H. injection H as <-. lia. Qed.

Lemma set_page_area_sinv a c c' : sinv c -> set_page_area a c = Ok c' -> sinv c'.
Proof. unfold set_page_area. intros S H. repeat inv_bind H. injection H as <-. apply sinv_page; exact S. Qed.

Lemma sinv_graphics_same f c :
  sinv c ->
  (forall g, g_dots_per_inch (f g) = g_dots_per_inch g /\ g_h_motion_unit (f g) = g_h_motion_unit g /\
     g_v_motion_unit (f g) = g_v_motion_unit g /\ g_render_colors (f g) = g_render_colors g /\
     g_paper_area (f g) = g_paper_area g /\ g_render_area (f g) = g_render_area g) ->
  sinv (upd_graphics f c).
Proof.
  intros S H. apply sinv_graphics; [exact S|]. destruct S as [_ _ _ [G1 G2 G3 G4 G5]].
  destruct (H (c_graphics c)) as (E1 & E2 & E3 & E4 & E5 & E6).
  constructor; congruence.
Qed.

Lemma apply_plain_sinv id c x x' :
  sent c -> sinv x -> apply_plain id c x = Ok x' -> sinv x'.
Proof.
  intros Sc S H. pose proof (sent_arg c 0 0 Sc ltac:(lia)) as A0.
  fold (arg 0 c 0) in A0.
  destruct id; cbn [apply_plain] in H; try (injection H as <-; exact S).
  - (* default_line_spacing *)
    injection H as <-. rewrite (si_default _ S). texts. lia.
  - injection H as <-. apply sinv_reset; exact S.
  - destruct (p_enabled (c_page x)); [|injection H as <-; exact S].
    exact (sinv_moved _ _ (offset_y_relative_moved _ _ _ H) S).
  - destruct (p_enabled (c_page x)); [|injection H as <-; exact S].
    exact (set_page_area_sinv _ _ _ S H).
  - injection H as <-. destruct (p_enabled (c_page x)); [apply sinv_page|]; exact S.
  - injection H as <-. apply sinv_page; exact S.
  - injection H as <-. texts.
  - injection H as <-. apply sinv_barcode; [exact S|]. destruct S as [_ _ [? ?] _]. constructor; cbn; auto.
  - injection H as <-. apply sinv_barcode; [exact S|]. destruct S as [_ _ [? ?] _]. constructor; cbn; auto.
  - injection H as <-. apply sinv_barcode; [exact S|]. destruct S as [_ _ [? ?] _]. constructor; cbn; auto.
  - injection H as <-. destruct (arg 2 c 0 <? 2) eqn:E1.
    + cbn. apply sinv_barcode; [exact S|]. destruct S as [_ _ [? ?] _]. constructor; cbn; auto. lia.
    + destruct (6 <? arg 2 c 0) eqn:E2; [exact S|].
      apply sinv_barcode; [exact S|]. destruct S as [_ _ [? ?] _]. constructor; cbn; auto. lia.
  - injection H as <-. apply sinv_text; [exact S|]. destruct S as [_ [? ? ? ? ? ? ?] _ _].
    destruct (arg 0 c 0 =? 1); constructor; cbn; auto.
  - injection H as <-. apply sinv_retable; [exact S| |];
      intros t [? ? ? ? ? ? ?]; cbn [set_t_code_table t_code_table t_character_set t_character_width
        t_character_height t_font t_width_mult t_height_mult t_line_spacing t_tabs]; tauto.
  - injection H as <-. texts.
  - injection H as <-. texts.
  - injection H as <-. apply sinv_font; exact S.
  - exact (sinv_moved _ _ (set_x_absolute_moved _ _ _ H) S).
  - injection H as <-. apply sinv_retable; [exact S| |];
      intros t [? ? ? ? ? ? ?]; cbn [set_t_character_set t_code_table t_character_set t_character_width
        t_character_height t_font t_width_mult t_height_mult t_line_spacing t_tabs]; tauto.
  - injection H as <-. texts.
  - inv_bind H. injection H as <-.
    unfold default_spacing in Ha. rewrite (si_default _ S) in Ha. injection Ha as <-.
    pose proof (sent_arg c 0 24 Sc ltac:(lia)) as A. texts.
  - injection H as <-. unfold set_motion_units.
    destruct ((arg 0 c 0 =? 0) || (arg 0 c 1 =? 0)); [exact S|].
    apply sinv_graphics; [exact S|]. destruct S as [_ _ _ [G1 G2 G3 G4 G5]].
    constructor; cbn [set_g_v_motion_unit set_g_h_motion_unit g_dots_per_inch g_h_motion_unit g_v_motion_unit
      g_render_colors g_paper_area g_render_area]; try assumption.
    set (q1 := g_dots_per_inch _ / arg 0 c 0). set (q2 := g_dots_per_inch _ / arg 0 c 1).
    pose proof (Z.mod_pos_bound q1 256 eq_refl). pose proof (Z.mod_pos_bound q2 256 eq_refl).
    clearbody q1 q2. clear -H H0. set (m1 := q1 mod 256) in *. set (m2 := q2 mod 256) in *. clearbody m1 m2. lia.
  - injection H as <-. unfold set_print_mode. apply sinv_text.
    + apply sinv_font; exact S.
    + pose proof (sinv_font (if flag (arg 0 c 0) 0 then FontB else FontA) _ S) as [_ [? ? ? ? ? ? ?] _ _].
      constructor; cbn [set_t_underline set_t_width_mult set_t_height_mult set_t_bold t_character_width
        t_character_height t_font t_width_mult t_height_mult t_line_spacing t_tabs t_code_table t_character_set t_decoder]; auto.
      * destruct (flag (arg 0 c 0) 5); lia.
      * destruct (flag (arg 0 c 0) 4); lia.
  - injection H as <-. texts.
  - injection H as <-. texts.
  - injection H as <-. texts.
  - destruct (p_enabled (c_page x)); [|injection H as <-; exact S].
    exact (sinv_moved _ _ (set_y_absolute_moved _ _ _ H) S).
Qed.

Lemma character_effects_sinv c x : sinv x -> sinv (character_effects c x).
Proof.
  intros S. unfold character_effects. destruct (vlen (c_data c) <? 3); [exact S|].
  assert (G : forall t t', text_ok t -> t_character_width t' = t_character_width t ->
    t_character_height t' = t_character_height t -> t_font t' = t_font t -> t_width_mult t' = t_width_mult t ->
    t_height_mult t' = t_height_mult t -> t_line_spacing t' = t_line_spacing t -> t_tabs t' = t_tabs t ->
    t_code_table t' = t_code_table t -> t_character_set t' = t_character_set t -> t_decoder t' = t_decoder t -> text_ok t').
  { intros t t' [T1 T2 T3 T4 T5 T6 T7] E1 E2 E3 E4 E5 E6 E7 E8 E9 E10. constructor; rewrite ?E1, ?E2, ?E3, ?E4, ?E5, ?E6, ?E7, ?E8, ?E9, ?E10; auto. }
  repeat match goal with |- sinv (match ?z with _ => _ end) => destruct z end;
    first [exact S | apply sinv_text; [exact S | apply (G (c_text x)); try reflexivity; exact (si_text _ S)]].
Qed.

Lemma apply_sub_sinv e id c x x' : sinv x -> apply_sub e id c x = Ok x' -> sinv x'.
Proof.
  intros S H. destruct id; cbn [apply_sub] in H;
    try (injection H as <-; exact S);
    try (injection H as <-; apply sinv_code2d; exact S).
  - destruct (vlen (c_data c) <? 2); [discriminate|]. inv_bind H. injection H as <-. apply sinv_code2d; exact S.
  - injection H as <-. unfold qr_store. destruct (e_qr _ _ _ _ _) as [[bits w]|]; [apply sinv_code2d|]; exact S.
  - inv_bind H. injection H as <-. apply sinv_code2d; exact S.
  - injection H as <-. destruct ((arg 1 c 0 <? 2) || (16 <? arg 1 c 0)); [|apply sinv_code2d]; exact S.
  - inv_bind H. injection H as <-. destruct a as [[[cols rows] ty]|]; [apply sinv_code2d|]; exact S.
  - injection H as <-. apply sinv_graphics_same; [exact S | intros g; cbn; auto 10].
  - injection H as <-. apply sinv_graphics_same; [exact S | intros g; cbn; auto 10].
  - injection H as <-. unfold clear_one. destruct (ref_from_data (c_data c) Ram); [|exact S].
    apply sinv_graphics_same; [exact S | intros g; cbn; auto 10].
  - injection H as <-. unfold clear_one. destruct (ref_from_data (c_data c) Disc); [|exact S].
    apply sinv_graphics_same; [exact S | intros g; cbn; auto 10].
  - unfold define_column in H. repeat inv_bind H. injection H as <-.
    apply sinv_graphics_same; [exact S | intros g; cbn; auto 10].
  - unfold define_raster in H. destruct (vlen (c_data c) <? 8); [injection H as <-; exact S|].
    repeat inv_bind H. injection H as <-. apply sinv_graphics_same; [exact S | intros g; cbn; auto 10].
  - unfold define_column in H. repeat inv_bind H. injection H as <-.
    apply sinv_graphics_same; [exact S | intros g; cbn; auto 10].
  - unfold define_raster in H. destruct (vlen (c_data c) <? 8); [injection H as <-; exact S|].
    repeat inv_bind H. injection H as <-. apply sinv_graphics_same; [exact S | intros g; cbn; auto 10].
  - injection H as <-.
    assert (G : forall v, In v [203; 180; 360] -> sinv (upd_graphics (set_g_dots_per_inch v) x)).
    { intros v Hv. apply sinv_graphics; [exact S|]. destruct S as [_ _ _ [G1 G2 G3 G4 G5]]. constructor; assumption. }
    destruct ((arg 50 c 0 =? 50) && (arg 50 c 1 =? 50)); [apply G; cbn; auto|].
    destruct ((arg 50 c 0 =? 51) && (arg 50 c 1 =? 51)); [apply G; cbn; auto | exact S].
  - unfold store_buffer, push_buffer in H. destruct (vlen (c_data c) <? 4).
    + injection H as <-. apply sinv_graphics_same; [exact S | intros g; cbn; auto 10].
    + repeat inv_bind H. injection H as <-. apply sinv_graphics_same; [exact S | intros g; cbn; auto 10].
  - unfold store_buffer, push_buffer in H. destruct (vlen (c_data c) <? 4).
    + injection H as <-. apply sinv_graphics_same; [exact S | intros g; cbn; auto 10].
    + repeat inv_bind H. injection H as <-. apply sinv_graphics_same; [exact S | intros g; cbn; auto 10].
Qed.

Lemma apply_context_sinv e c x x' : sent c -> sinv x -> apply_context e c x = Ok x' -> sinv x'.
Proof.
  intros Sc S H. unfold apply_context in H. destruct (c_handler c) as [id| |cap|s|s|s|s|id];
    try (injection H as <-; exact S).
  - exact (apply_plain_sinv _ _ _ _ Sc S H).
  - injection H as <-. apply character_effects_sinv; exact S.
  - destruct (ss_subcommand s) as [sc|]; [exact (apply_sub_sinv _ _ _ _ _ S H) | injection H as <-; exact S].
  - exact (apply_sub_sinv _ _ _ _ _ S H).
Qed.

Lemma land_le_l a b : 0 <= a -> Z.land a b <= a.
Proof.
  intros H. apply Z.ldiff_le; [exact H|]. apply Z.bits_inj'. intros n Hn.
  rewrite Z.ldiff_spec, Z.land_spec, Z.bits_0. destruct (Z.testbit a n), (Z.testbit b n); reflexivity.
Qed.

(** device commands with arguments in range *)
Definition device_ok (d : device_command) : Prop :=
  match d with
  | SetTextWidth w | SetTextHeight w => 1 <= w <= 8
  | ChangeTabs n k => 0 <= n <= 255 /\ 0 <= k <= 255
  | _ => True
  end.

Lemma device_ok_sent c x d : sent c -> sinv x -> get_device_command c x = Ok d -> Forall device_ok d.
Proof.
  intros Sc S H. unfold get_device_command in H.
  pose proof (sent_arg c 0 0 Sc ltac:(lia)) as A0. fold (arg 0 c 0) in A0.
  destruct (c_handler c) as [id| |cap|s|s|s|s|id]; try (injection H as <-; constructor).
  - assert (R1 : 1 <= Z.shiftr (Z.land 112 (arg 0 c 0)) 4 + 1 <= 8).
    { assert (0 <= Z.shiftr (Z.land 112 (arg 0 c 0)) 4 <= 7); [|lia].
      rewrite Z.shiftr_div_pow2 by lia.
      assert (0 <= Z.land 112 (arg 0 c 0)) by (apply Z.land_nonneg; lia).
      assert (Z.land 112 (arg 0 c 0) <= 112) by (apply land_le_l; lia).
      change (2 ^ 4) with 16. split; [apply Z.div_pos; lia | apply Z.div_le_upper_bound; lia]. }
    assert (R2 : 1 <= Z.land 7 (arg 0 c 0) + 1 <= 8).
    { assert (0 <= Z.land 7 (arg 0 c 0)) by (apply Z.land_nonneg; lia).
      assert (Z.land 7 (arg 0 c 0) <= 7) by (apply land_le_l; lia). lia. }
    destruct id; cbn [device_plain] in H;
      match type of H with
      | bind _ _ = _ =>
          inv_bind H; injection H as <-; unfold default_spacing in Ha; rewrite (si_default _ S) in Ha; injection Ha as <-;
          pose proof (sent_arg c 0 24 Sc ltac:(lia)); pose proof (sent_arg c 1 24 Sc ltac:(lia));
          constructor; [cbn; auto | constructor]
      | _ => injection H as <-; try destruct (p_enabled (c_page x));
             repeat (apply Forall_cons || apply Forall_nil); cbn [device_ok]; auto
      end.
  - injection H as <-. unfold feed_cut_device.
    repeat match goal with |- Forall device_ok (match ?z with _ => _ end) => destruct z end; repeat constructor.
  - destruct id; injection H as <-; repeat constructor.
Qed.

Lemma set_nth_bytes l i v : bytes_ok l = true -> 0 <= v <= 255 ->
  length (set_nth l i v) = length l /\ bytes_ok (set_nth l i v) = true.
Proof.
  intros B V. revert i. induction l as [|x l IH]; intros [|i]; cbn; auto.
  - cbn [bytes_ok forallb] in B. apply andb_prop in B. destruct B as [B1 B2].
    split; [reflexivity|]. cbn [bytes_ok forallb]. unfold bytes_ok in B2. rewrite B2. unfold is_byte. lia.
  - cbn [bytes_ok forallb] in B. apply andb_prop in B. destruct B as [B1 B2].
    destruct (IH B2 i) as (L & B'). split; [now rewrite L|]. unfold bytes_ok in B'. cbn [bytes_ok forallb]. now rewrite B1, B'.
Qed.

Lemma page_geometry_sinv s s' : sinv (rs_ctx s) -> page_geometry s = Ok s' -> sinv (rs_ctx s').
Proof.
  intros S H. unfold page_geometry in H. inv_bind H. destruct a as [[[rot w] h] p]. injection H as <-.
  apply sinv_page. exact S.
Qed.

Lemma on_ctx_inv f s s' : on_ctx f s = Ok s' -> exists c, f (rs_ctx s) = Ok c /\ s' = with_ctx c s.
Proof. unfold on_ctx. intros H. inv_bind H. injection H as <-. eauto. Qed.

Lemma process_device_sinv d s s' :
  device_ok d -> sinv (rs_ctx s) -> process_device_command d s = Ok s' -> sinv (rs_ctx s').
Proof.
  intros Hd S H. unfold process_device_command in H. cbv zeta in H.
  set (s0 := call (EDevice d) s) in H. assert (S0 : sinv (rs_ctx s0)) by exact S. clearbody s0.
  destruct d; cbn [device_ok] in Hd; try (injection H as <-; exact S0).
  - inv_bind H. injection H as <-. apply on_ctx_inv in Ha. destruct Ha as (c & Hc & ->).
    exact (sinv_moved _ _ (newline_moved _ _ _ Hc) S0).
  - apply on_ctx_inv in H. destruct H as (c & Hc & ->). exact (sinv_moved _ _ (newline_moved _ _ _ Hc) S0).
  - apply on_ctx_inv in H. destruct H as (c & Hc & ->). exact (sinv_moved _ _ (newline_moved _ _ _ Hc) S0).
  - apply on_ctx_inv in H. destruct H as (c & Hc & ->). exact (sinv_moved _ _ (feed_moved _ _ _ Hc) S0).
  - apply on_ctx_inv in H. destruct H as (c & Hc & ->). exact (sinv_moved _ _ (newline_moved _ _ _ Hc) S0).
  - inv_bind H. injection H as <-. apply on_ctx_inv in Ha. destruct Ha as (c & Hc & ->). injection Hc as <-.
    apply sinv_page; exact S0.
  - apply on_ctx_inv in H. destruct H as (c & Hc & ->). injection Hc as <-. apply sinv_page; exact S0.
  - apply on_ctx_inv in H. destruct H as (c & Hc & ->). inv_bind Hc. injection Hc as <-.
    exact (sinv_moved _ _ (moved_gra _ 0 a) S0).
  - exact (page_geometry_sinv _ _ S0 H).
  - inv_bind H. apply on_ctx_inv in Ha. destruct Ha as (c & Hc & ->). injection Hc as <-.
    refine (page_geometry_sinv _ _ _ H). apply sinv_page; exact S0.
  - apply on_ctx_inv in H. destruct H as (c & Hc & ->). injection Hc as <-. cbn [with_ctx rs_ctx].
    apply sinv_text; [exact S0|]. destruct S0 as [_ [? ? ? ? ? ? ?] _ _]. constructor; cbn; auto.
  - apply on_ctx_inv in H. destruct H as (c & Hc & ->). injection Hc as <-. cbn [with_ctx rs_ctx].
    apply sinv_text; [exact S0|]. destruct S0 as [_ [? ? ? ? ? ? ?] _ _]. constructor; cbn; auto.
  - apply on_ctx_inv in H. destruct H as (c & Hc & ->). injection Hc as <-. cbn [with_ctx rs_ctx].
    apply sinv_text; [exact S0|]. destruct S0 as [_ [? ? ? ? ? ? ?] _ _]. constructor; cbn; auto.
  - apply on_ctx_inv in H. destruct H as (c & Hc & ->). injection Hc as <-. cbn [with_ctx rs_ctx].
    unfold set_tab_len. destruct (_ <? _); [|exact S0].
    apply sinv_text; [exact S0|]. destruct S0 as [_ [? ? ? ? [L B] ? ?] _ _].
    destruct (set_nth_bytes _ (Z.to_nat at_) count B ltac:(lia)) as (L' & B').
    constructor; cbn; auto. split; [congruence | exact B'].
  - apply on_ctx_inv in H. destruct H as (c & Hc & ->). injection Hc as <-. cbn [with_ctx rs_ctx].
    apply sinv_graphics_same; [exact S0 | intros g; cbn; auto 10].
Qed.
Lemma process_devices_sinv l s s' :
  Forall device_ok l -> sinv (rs_ctx s) -> process_device_commands l s = Ok s' -> sinv (rs_ctx s').
Proof.
  intros F S H. unfold process_device_commands in H.
  refine (fold_res_ind _ (fun y => sinv (rs_ctx y)) _ _ _ S _ H).
  intros d y y' Hin Sy E. exact (process_device_sinv _ _ _ (proj1 (Forall_forall _ _) F _ Hin) Sy E).
Qed.

Lemma process_text_moved s s' : process_text s = Ok s' -> moved (rs_ctx s) (rs_ctx s') /\ rs_spans s' = [].
Proof. intros H. apply process_text_quiet in H. destruct H as ((M & _ & _) & S). auto. Qed.

Lemma process_command_sinv e c s s' :
  sent c -> sinv (rs_ctx s) -> process_command e c s = Ok s' -> sinv (rs_ctx s').
Proof.
  intros Sc S H. unfold process_command in H. destruct (c_kind c).
  - inv_bind H. inv_bind H. pose proof (device_ok_sent _ _ _ Sc S Ha) as D.
    destruct (process_text_moved _ _ Ha0) as (M & _).
    exact (process_devices_sinv _ _ _ D (sinv_moved _ _ M S) H).
  - injection H as <-. destruct (get_text c (rs_ctx s)); exact S.
  - inv_bind H. inv_bind H. apply on_ctx_inv in Ha. destruct Ha as (x & Hx & ->).
    assert (Sx : sinv x) by (exact (apply_context_sinv _ _ _ _ Sc S Hx)).
    exact (process_devices_sinv _ (with_ctx x _) _ (device_ok_sent _ _ _ Sc Sx Ha0) Sx H).
  - inv_bind H. inv_bind H. inv_bind H. inv_bind H.
    destruct (process_text_moved _ _ Ha) as (M & Sp). pose proof (sinv_moved _ _ M S) as S1.
    assert (S2 : sinv (rs_ctx a1)).
    { destruct a0 as [g|]; [|injection Ha1 as <-; exact S1].
      destruct (process_gfx_moved _ _ _ Ha1 Sp) as (M2 & _). exact (sinv_moved _ _ M2 S1). }
    exact (process_devices_sinv _ _ _ (device_ok_sent _ _ _ Sc S2 Ha2) S2 H).
  - inv_bind H. destruct (process_text_moved _ _ Ha) as (M & _). pose proof (sinv_moved _ _ M S) as S1.
    apply on_ctx_inv in H. destruct H as (x & Hx & ->). exact (apply_context_sinv _ _ _ _ Sc S1 Hx).
  - inv_bind H. inv_bind H. inv_bind H. destruct (process_text_moved _ _ Ha) as (M & _).
    pose proof (sinv_moved _ _ M S) as S1. apply on_ctx_inv in Ha0. destruct Ha0 as (x & Hx & ->).
    assert (Sx : sinv x) by (exact (apply_context_sinv _ _ _ _ Sc S1 Hx)).
    exact (process_devices_sinv _ (with_ctx x _) _ (device_ok_sent _ _ _ Sc Sx Ha1) Sx H).
  - injection H as <-. exact S.
  - inv_bind H. injection H as <-. destruct (process_text_moved _ _ Ha) as (M & _). exact (sinv_moved _ _ M S).
Qed.

Lemma history_sinv e s : history e s -> sinv (rs_ctx s).
Proof.
  intros (l & F & H). unfold run_commands in H.
  refine (fold_res_ind _ (fun y => sinv (rs_ctx y)) _ renderer_new s sinv_new _ H).
  intros c y y' Hin S E. exact (process_command_sinv _ _ _ _ (proj1 (Forall_forall _ _) F _ Hin) S E).
Qed.
