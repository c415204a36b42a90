(** * SafeTheory5: context updates, device commands and whole commands (used by PropsSafe). *)
From Verif Require Import Base Command CommandSet Parser Vec Float32 GTypes Graphics SpecGraphics GraphicsTheory GraphicsTheory2 Utf8 Decoder Context Text
  Upce SpecUpc PropsUpce PropsDecoder Handlers Renderer ContextTheory RendererTheory Origin SpecPrinter StateTheory PropsText SpecRender LayoutTheory AreaTheory
  SpecSafe SafeTheory SafeTheory2 SafeTheory3 SafeTheory4.
Local Open Scope Z_scope.
Local Open Scope list_scope.

Definition where_ok (c : context) : Prop := 0 <= get_x c <= xb /\ 60 <= get_y c.
(** the pen stays on the paper and does not move down *)
Definition pen_ok (c c' : context) : Prop := 0 <= get_x c' <= xb /\ 60 <= get_y c' <= get_y c.
Lemma pen_ok_same c c' : where_ok c -> get_x c' = get_x c -> get_y c' = get_y c -> pen_ok c c'.
Proof. intros (X & Y) E1 E2. unfold pen_ok. rewrite E1, E2. lia. Qed.

(** ** apply_context *)
Section Apply.
Variables (right : bool) (x : context).
Hypothesis C : ctx_calm right x.
Hypothesis W : where_ok x.
Definition fine (x' : context) : Prop := ctx_rest right x' /\ pen_ok x x'.
Lemma fine_same : fine x.
Proof. split; [exact (cc_r _ _ C) | apply pen_ok_same; auto]. Qed.
Lemma fine_text f : (if right then t_width_mult (f (c_text x)) <= 2 else t_justify (f (c_text x)) <> JRight) -> fine (upd_text f x).
Proof.
  intros J. destruct (cc_r _ _ C) as [R1 R2 R3 R4 R5 R6 R7]. split; [constructor; assumption | apply pen_ok_same; [exact W | reflexivity | reflexivity]].
Qed.
Lemma fine_text' f : t_width_mult (f (c_text x)) = t_width_mult (c_text x) -> t_justify (f (c_text x)) = t_justify (c_text x) -> fine (upd_text f x).
Proof. intros E1 E2. apply fine_text. rewrite E1, E2. exact (cr_just _ _ (cc_r _ _ C)). Qed.
Lemma fine_barcode f : fine (upd_barcode f x).
Proof.
  destruct (cc_r _ _ C) as [R1 R2 R3 R4 R5 R6 R7]. split; [constructor; assumption | apply pen_ok_same; [exact W | reflexivity | reflexivity]].
Qed.
Lemma fine_code2d f : match k_symbol_storage (f (c_code2d x)) with Some q => code_ok q | None => True end ->
  0 <= k_qr_size (f (c_code2d x)) <= 255 -> fine (upd_code2d f x).
Proof.
  intros Q1 Q2. destruct (cc_r _ _ C) as [R1 R2 R3 R4 R5 R6 R7]. split; [constructor; assumption | apply pen_ok_same; [exact W | reflexivity | reflexivity]].
Qed.
Lemma fine_code2d' f : k_symbol_storage (f (c_code2d x)) = k_symbol_storage (c_code2d x) -> k_qr_size (f (c_code2d x)) = k_qr_size (c_code2d x) ->
  fine (upd_code2d f x).
Proof. intros E1 E2. apply fine_code2d; rewrite ?E1, ?E2; [exact (cr_sym _ _ (cc_r _ _ C)) | exact (cr_qr _ _ (cc_r _ _ C))]. Qed.
Lemma fine_stored f : (forall m, Forall (fun kv => low (snd kv)) m -> Forall (fun kv => low (snd kv)) (f m)) -> fine (upd_stored f x).
Proof.
  intros F. destruct (cc_r _ _ C) as [R1 R2 R3 R4 R5 R6 R7]. split; [constructor; try assumption; exact (F _ R6) | apply pen_ok_same; [exact W | reflexivity | reflexivity]].
Qed.
Lemma fine_push g : low g -> fine (push_buffer g x).
Proof.
  intros G. destruct (cc_r _ _ C) as [R1 R2 R3 R4 R5 R6 R7].
  split; [constructor; try assumption; apply Forall_app; split; [exact R7 | constructor; [exact G | constructor]] | apply pen_ok_same; [exact W | reflexivity | reflexivity]].
Qed.
Lemma default_y : a_y (g_render_area default_graphics) = 60.
Proof. vm_compute. reflexivity. Qed.
Lemma default_x : a_x (g_render_area default_graphics) = 0.
Proof. vm_compute. reflexivity. Qed.
Lemma fine_reset : fine (reset x).
Proof.
  destruct C as [S U R]. destruct R as [R1 R2 R3 R4 R5 R6 R7]. destruct W as (X & Y). unfold reset. rewrite (si_default _ S).
  set (x' := mk_context _ _).
  assert (P : c_page x' = default_page) by exact R1. assert (EG : c_graphics x' = default_graphics) by reflexivity.
  split.
  - constructor; [exact P | rewrite EG; cbn; lia | cbn; destruct right; [lia | discriminate] | exact I | cbn; lia | rewrite EG; constructor | rewrite EG; constructor].
  - unfold pen_ok. unfold get_x at 1 2, get_y at 1 2. rewrite P, EG. cbn [p_enabled default_page]. rewrite default_x, default_y. unfold xb. lia.
Qed.
Lemma byte0 c i d : sent c -> 0 <= d <= 255 -> 0 <= arg d c i <= 255.
Proof. intros Sc D. exact (sent_arg c i d Sc D). Qed.
Lemma motion_fine c : sent c -> arg 0 c 0 <= 180 -> fine (set_motion_units c x).
Proof.
  intros Sc A. unfold set_motion_units. cbv zeta. pose proof (byte0 c 0 0 Sc ltac:(lia)) as B0.
  destruct (_ || _) eqn:E; [exact fine_same|]. apply orb_false_iff in E. destruct E as (E1 & _). apply Z.eqb_neq in E1.
  destruct C as [S _ R]. pose proof (gk_dpi _ (si_graphics _ S)) as D. destruct R as [R1 R2 R3 R4 R5 R6 R7].
  assert (H : 1 <= (g_dots_per_inch (c_graphics x) / arg 0 c 0) mod 256).
  { assert (I1 : 1 <= arg 0 c 0 <= 180) by lia. revert I1. generalize (arg 0 c 0) as a. clear - D.
    assert (T : forallb (fun a => (1 <=? (203 / (a + 1)) mod 256) && (1 <=? (180 / (a + 1)) mod 256) && (1 <=? (360 / (a + 1)) mod 256)) (zrange 180) = true)
      by (vm_compute; reflexivity).
    intros a A. pose proof (proj1 (forallb_forall _ _) T (a - 1)) as Ta. cbn beta in Ta. replace (a - 1 + 1) with a in Ta by lia.
    assert (IN : In (a - 1) (zrange 180)) by (unfold zrange; apply in_map_iff; exists (Z.to_nat (a - 1)); split; [lia | apply in_seq; lia]).
    specialize (Ta IN). apply andb_prop in Ta. destruct Ta as (Ta & T3). apply andb_prop in Ta. destruct Ta as (T1 & T2).
    destruct D as [<-|[<-|[<-|[]]]]; apply Z.leb_le; assumption. }
  split; [constructor; assumption | apply pen_ok_same; [exact W | reflexivity | reflexivity]].
Qed.
Lemma apply_plain_good id c : sent c -> c_handler c = HPlain id -> gentle right c -> okp (apply_plain id c x) fine.
Proof.
  intros Sc Hh G. pose proof C as [S U R]. pose proof (calm_std _ _ R) as Std.
  unfold gentle in G. rewrite Hh in G.
  destruct id; cbn [apply_plain]; cbv zeta; try exact fine_same; try (apply fine_barcode);
    try (cbn [okp]; unfold update_decoder, set_font, set_print_mode; cbv zeta; apply fine_text'; reflexivity);
    try (unfold standard in Std; rewrite Std; exact fine_same).
  - cbn [okp]. rewrite (si_default _ S). apply fine_text'; reflexivity.
  - exact fine_reset.
  - cbn [okp]. destruct R as [R1 R2 R3 R4 R5 R6 R7]. assert (P : c_page (upd_page (set_p_enabled false) x) = default_page).
    { change (c_page (upd_page (set_p_enabled false) x)) with (set_p_enabled false (c_page x)). rewrite R1. reflexivity. }
    split; [constructor; assumption|]. apply pen_ok_same; [exact W | |]; unfold get_x, get_y; rewrite P, R1; reflexivity.
  - cbn [okp]. destruct (6 <? _); [exact fine_same | apply fine_barcode].
  - cbn [okp]. apply fine_text'; destruct (arg 0 c 0 =? 1); reflexivity.
  - cbn [okp]. exact (fine_text' (fun t => set_t_decoder {| cp_table := cp_table (get_codepage (arg 0 c 0) (t_character_set t));
      cp_name := cp_name (get_codepage (arg 0 c 0) (t_character_set t)); cp_language := cp_language (get_codepage (arg 0 c 0) (t_character_set t));
      cp_utf8 := arg 0 c 0 =? 255 |} (set_t_code_table (arg 0 c 0) t)) eq_refl eq_refl).
  - unfold set_x_absolute. apply okp_bind. unfold div_u. pose proof (cr_h _ _ R). replace (_ =? 0) with false by lia. cbn [okp].
    unfold standard in Std. rewrite Std. cbn [okp]. change (standard x) in Std.
    pose proof (byte0 c 0 0 Sc ltac:(lia)). pose proof (byte0 c 1 0 Sc ltac:(lia)).
    assert (B : 0 <= get_pos c / g_h_motion_unit (c_graphics x) <= xb).
    { assert (P0 : 0 <= get_pos c <= 65535) by (unfold get_pos; lia). split; [apply Z.div_pos; lia|].
      apply Z.le_trans with (get_pos c); [|unfold xb; lia]. apply Z.div_le_upper_bound; [lia | nia]. }
    set (v := get_pos c / _) in *. clearbody v. destruct R as [R1 R2 R3 R4 R5 R6 R7]. destruct W as (X & Y).
    split; [constructor; assumption|]. unfold standard in Std.
    assert (EX : get_x (upd_gra (set_a_x v) x) = v) by (unfold get_x; change (c_page (upd_gra (set_a_x v) x)) with (c_page x); rewrite Std; reflexivity).
    assert (EY : get_y (upd_gra (set_a_x v) x) = get_y x) by (unfold get_y; change (c_page (upd_gra (set_a_x v) x)) with (c_page x); rewrite Std; reflexivity).
    unfold pen_ok. rewrite EX, EY. lia.
  - cbn [okp]. exact (fine_text' (fun t => set_t_decoder {| cp_table := cp_table (get_codepage (t_code_table t) (arg 0 c 0));
      cp_name := cp_name (get_codepage (t_code_table t) (arg 0 c 0)); cp_language := cp_language (get_codepage (t_code_table t) (arg 0 c 0));
      cp_utf8 := t_code_table t =? 255 |} (set_t_character_set (arg 0 c 0) t)) eq_refl eq_refl).
  - unfold default_spacing. rewrite (si_default _ S). cbn [bind okp]. apply fine_text'; reflexivity.
  - cbn [okp]. exact (motion_fine c Sc G).
  - cbn [okp]. unfold set_print_mode. cbv zeta. unfold set_font. cbv zeta.
    match goal with |- fine (upd_text ?f (upd_text ?g x)) => apply (fine_text (fun t => f (g t))) end.
    pose proof (cr_just _ _ R). destruct right; [|assumption].
    assert (TW : forall b : bool, (if b then 2 else 1) <= 2) by (intros []; lia). exact (TW (flag (arg 0 c 0) 5)).
Qed.

Lemma get_chk_ok p (l : list Z) i : Z.of_nat i < vlen l -> okp (get_chk p l i) (fun a => forall d, a = get_or d l i).
Proof.
  intros H. unfold get_chk. destruct (nth_error l i) as [a|] eqn:E; [|apply nth_error_None in E; unfold vlen in H; lia].
  cbn [okp]. intros d. unfold get_or. symmetry. exact (nth_error_nth l i d E).
Qed.
Lemma slice_from8 {A} (l : list A) : 8 <= vlen l -> vslice_from l 8 = Ok (skipn 8 l).
Proof.
  intros H. unfold vslice_from, vslice. replace (_ || _) with false by (symmetry; rewrite !orb_false_iff; lia).
  f_equal. change (Z.to_nat 8) with 8%nat. apply firstn_all2. rewrite skipn_length. unfold vlen. lia.
Qed.
Lemma u16_bound data k : bytes_ok data = true -> 0 <= parse_u16 data k <= 65535.
Proof.
  intros B. unfold parse_u16. pose proof (bytes_get data k B) as H1. pose proof (bytes_get data (k + 1) B) as H2.
  rewrite Z.shiftl_mul_pow2 by lia. change (2 ^ 8) with 256.
  assert (X : 0 <= Z.lor (get_or 0 data (k + 1) * 256) (get_or 0 data k) < 2 ^ 16) by (apply lor_disjoint_bound; lia).
  change (2 ^ 16) with 65536 in X. lia.
Qed.
Lemma insert_low r g m : low g -> Forall (fun kv : image_ref * gfx => low (snd kv)) m -> Forall (fun kv => low (snd kv)) (map_insert r g m).
Proof. intros G F. unfold map_insert. constructor; [exact G | apply forall_filter; exact F]. Qed.
Lemma define_column_good s c : sent c -> 8 <= vlen (c_data c) -> okp (define_column s (c_data c) x) fine.
Proof.
  intros Sc L. pose proof (sent_bytes _ Sc) as B. unfold define_column.
  apply okp_bind. eapply okp_weaken; [apply get_chk_ok; lia|]. intros a0 _.
  apply okp_bind. eapply okp_weaken; [apply get_chk_ok; lia|]. intros a1 _.
  apply okp_bind. eapply okp_weaken; [apply get_chk_ok; lia|]. intros a2 _.
  apply okp_bind. eapply okp_weaken; [apply get_chk_ok; lia|]. intros a3 E3.
  rewrite slice_from8 by exact L. cbn [bind]. apply okp_bind.
  eapply okp_weaken; [apply raster_multi_good; [apply u16_bound; exact B | apply u16_bound; exact B | rewrite (E3 0); pose proof (bytes_get (c_data c) 3 B); lia]|].
  cbn beta. intros g Hg. cbn [okp]. apply (fine_stored (map_insert _ g)). intros m. apply insert_low. exact Hg.
Qed.
Lemma define_raster_good s c : sent c -> okp (define_raster s (c_data c) x) fine.
Proof.
  intros Sc. pose proof (sent_bytes _ Sc) as B. unfold define_raster. destruct (Z.ltb_spec (vlen (c_data c)) 8) as [_|L]; [exact fine_same|].
  apply okp_bind. eapply okp_weaken; [apply get_chk_ok; lia|]. intros a1 _.
  apply okp_bind. eapply okp_weaken; [apply get_chk_ok; lia|]. intros a2 _.
  apply okp_bind. eapply okp_weaken; [apply get_chk_ok; lia|]. intros a3 E3.
  rewrite slice_from8 by exact L. cbn [bind]. apply okp_bind.
  eapply okp_weaken; [apply raster_multi_good; [apply u16_bound; exact B | apply u16_bound; exact B | rewrite (E3 0); pose proof (bytes_get (c_data c) 3 B); lia]|].
  cbn beta. intros g Hg. cbn [okp]. apply (fine_stored (map_insert _ g)). intros m. apply insert_low. exact Hg.
Qed.
Lemma store_buffer_good col c : sent c ->
  vlen (c_data c) < 4 \/
  (8 <= vlen (c_data c) /\
   small_image (parse_u16 (c_data c) 4) (parse_u16 (c_data c) 6) (arg 0 c 1) (arg 0 c 2) /\
   parse_u16 (c_data c) 6 * Z.max (arg 0 c 2) 1 <= 131070 /\
   (col = true -> complete_columns (parse_u16 (c_data c) 4) (parse_u16 (c_data c) 6) (body (c_data c)))) ->
  okp (store_buffer col (c_data c) x) fine.
Proof.
  intros Sc G. pose proof (sent_bytes _ Sc) as B. unfold store_buffer. destruct (Z.ltb_spec (vlen (c_data c)) 4) as [_|L]; [cbn [okp]; apply fine_push; exact I|].
  destruct G as [G|(G1 & G2 & G3 & G4)]; [lia|].
  apply okp_bind. eapply okp_weaken; [apply get_chk_ok; lia|]. intros a1 E1.
  apply okp_bind. eapply okp_weaken; [apply get_chk_ok; lia|]. intros a2 E2.
  apply okp_bind. eapply okp_weaken; [apply get_chk_ok; lia|]. intros a3 E3.
  rewrite slice_from8 by exact G1. cbn [bind]. cbv zeta. rewrite (E1 0), (E2 0). fold (arg 0 c 1) (arg 0 c 2).
  pose proof (u16_bound _ 4 B). pose proof (u16_bound _ 6 B).
  assert (Q : forall g, sized (parse_u16 (c_data c) 4 * Z.max (arg 0 c 1) 1) (parse_u16 (c_data c) 6 * Z.max (arg 0 c 2) 1) FlowBlock g -> low g).
  { intros g. destruct g; cbn [sized low]; try tauto. intros (_ & _ & Q2 & Q3 & Q4). split; [lia | split; [exact Q3 | exact Q4]]. }
  apply okp_bind. destruct col.
  - eapply okp_weaken; [apply column_good; [lia | exact (G4 eq_refl) | exact G2]|]. cbn beta. intros g Hg. cbn [okp]. apply fine_push. exact (Q _ Hg).
  - eapply okp_weaken; [apply raster_good; [lia | lia | exact G2]|]. cbn beta. intros g Hg. cbn [okp]. apply fine_push. exact (Q _ Hg).
Qed.
Lemma vlen_map' {A B} (f : A -> B) l : vlen (map f l) = vlen l.
Proof. unfold vlen. now rewrite map_length. Qed.
Lemma apply_sub_good e id c : sent c -> c_handler c = HSubPlain id -> gentle right c -> encoders_ok e -> okp (apply_sub e id c x) fine.
Proof.
  intros Sc Hh G E. unfold gentle in G. rewrite Hh in G.
  destruct id; cbn [apply_sub]; cbv zeta; try exact fine_same;
    try (cbn [okp]; apply fine_code2d'; reflexivity);
    try (apply define_column_good; [exact Sc | exact G]); try (apply define_raster_good; exact Sc);
    try (cbn [okp]; apply fine_stored; intros m; apply forall_filter).
  - destruct G as (G1 & G2). destruct (Z.ltb_spec (vlen (c_data c)) 2); [lia|].
    pose proof (byte0 c 0 48 Sc ltac:(lia)). apply okp_bind. unfold pdf417_level, sub_u8. rewrite chk_ok by (unfold u8_max; lia). cbn [bind okp].
    apply fine_code2d'; reflexivity.
  - cbn [okp]. unfold qr_store. cbv zeta. pose proof (eo_qr e E (c_data c)
      (match k_qr_model (c_code2d x) with QrMicro => true | _ => false end)
      (minimum_version_for_bytes (as_i16 (vlen (c_data c) mod 65536)) (max_modules (k_qr_model (c_code2d x)))) (k_qr_error_correction (c_code2d x))) as Q.
    destruct (e_qr _ _ _ _ _) as [[bits w]|]; [|exact fine_same]. destruct Q as (Q1 & Q2). pose proof (cr_qr _ _ (cc_r _ _ C)).
    apply fine_code2d; [|assumption]. change (code_ok (mk_code2d_g (map (fun b : bool => if b then 1 else 0) bits) w (k_qr_size (c_code2d x)) (k_qr_size (c_code2d x)))).
    constructor; cbn [q_width q_points q_point_width q_point_height]; [exact Q1 | rewrite vlen_map'; exact Q2 | assumption | assumption].
  - cbn [okp]. apply fine_code2d; [exact (cr_sym _ _ (cc_r _ _ C)) | exact (byte0 c 0 1 Sc ltac:(lia))].
  - pose proof (byte0 c 0 50 Sc ltac:(lia)). unfold sub_u8. rewrite chk_ok by (unfold u8_max; lia). cbn [bind okp]. apply fine_code2d'; reflexivity.
  - cbn [okp]. destruct (_ || _); [exact fine_same | apply fine_code2d'; reflexivity].
  - pose proof (byte0 c 1 0 Sc ltac:(lia)). pose proof (byte0 c 2 0 Sc ltac:(lia)).
    assert (Q : okp (datamatrix_options (arg 0 c 0) (arg 0 c 1) (arg 0 c 2)) (fun _ => True)).
    { revert G. generalize (arg 0 c 0) as m. intros m G. unfold datamatrix_options.
      repeat match goal with |- okp (match ?z with _ => _ end) _ => destruct z end; try exact I;
        (unfold add_u8; rewrite chk_ok by (unfold u8_max; specialize (G ltac:(auto)); lia); exact I). }
    apply okp_bind. eapply okp_weaken; [exact Q|]. intros o _. cbn [okp]. destruct o as [[[a b] d]|]; [apply fine_code2d'; reflexivity | exact fine_same].
  - cbn [okp]. unfold clear_one. destruct (ref_from_data _ _); [|exact fine_same]. apply fine_stored. intros m. apply forall_filter.
  - cbn [okp]. unfold clear_one. destruct (ref_from_data _ _); [|exact fine_same]. apply fine_stored. intros m. apply forall_filter.
  - cbn [okp]. destruct (cc_r _ _ C) as [R1 R2 R3 R4 R5 R6 R7].
    assert (FD : forall n, fine (upd_graphics (set_g_dots_per_inch n) x)).
    { intros n. split; [constructor; assumption | apply pen_ok_same; [exact W | reflexivity | reflexivity]]. }
    destruct (_ && _); [apply FD|]. destruct (_ && _); [apply FD | exact fine_same].
  - apply store_buffer_good; [exact Sc|]. destruct G as [G|(G1 & G2 & G3)]; [left; exact G | right; split; [exact G1 | split; [exact G2 | split; [exact G3 | discriminate]]]].
  - apply store_buffer_good; [exact Sc|]. destruct G as [G|(G1 & G2 & G3 & G4)]; [left; exact G | right; split; [exact G1 | split; [exact G2 | split; [exact G3 | intros _; exact G4]]]].
Qed.
Lemma apply_context_good e c : sent c -> gentle right c -> encoders_ok e ->
  okp (apply_context e c x) (fun x' => ctx_calm right x' /\ pen_ok x x').
Proof.
  intros Sc G E.
  assert (P : okp (apply_context e c x) fine).
  { unfold apply_context. pose proof (sent_shape _ Sc) as Sh. destruct (c_handler c) as [id| |cap|s|s|s|s|id] eqn:Hh; try exact fine_same.
    - exact (apply_plain_good id c Sc Hh G).
    - cbn [okp]. unfold character_effects. cbv zeta. destruct (_ <? _); [exact fine_same|].
      repeat match goal with |- fine (match ?z with _ => _ end) => destruct z end; try exact fine_same; apply fine_text'; reflexivity.
    - rewrite Sh. exact fine_same.
    - exact (apply_sub_good e id c Sc Hh G E). }
  eapply okp_weaken; [apply okp_and; [exact P | intros a Ha; exact Ha]|]. cbn beta. intros a ((F1 & F2) & Ha). split; [|exact F2].
  constructor; [exact (apply_context_sinv _ _ _ _ Sc (cc_s _ _ C) Ha) | exact (apply_context_u _ _ _ _ Sc (cc_s _ _ C) (cc_u _ _ C) Ha) | exact F1].
Qed.
End Apply.

(** ** Device commands *)
Definition gdev (right : bool) (d : device_command) : Prop :=
  device_ok d /\
  match d with
  | FeedLine n | Feed n => 0 <= n <= 255
  | BeginPageMode | EndPageMode | PrintPageMode => False
  | Justify j => right = false -> j <> JRight
  | SetTextWidth w => right = true -> w <= 2
  | _ => True
  end.
Definition dcost (d : device_command) : Z :=
  match d with FeedLine _ => 65025 | Feed _ => 255 | BeginPrint | FullCut | PartialCut => 510 | _ => 0 end.
Definition dcosts (l : list device_command) : Z := fold_right (fun d a => dcost d + a) 0 l.

Record calm (right : bool) (K : Z) (s : rstate) : Prop := mk_calm {
  ca_ctx : ctx_calm right (rs_ctx s);
  ca_spans : Forall (span_ok right) (rs_spans s);
  ca_x : 0 <= get_x (rs_ctx s) <= xb;
  ca_y : 60 <= get_y (rs_ctx s);
  ca_room : get_y (rs_ctx s) + 255 * chars_of (rs_spans s) + K <= top }.
Lemma calm_less right K K' s : calm right K s -> K' <= K -> calm right K' s.
Proof. intros [A B D E F] L. constructor; try assumption. lia. Qed.
Lemma calm_call right K s e : calm right K s -> calm right K (call e s).
Proof. intros [A B D E F]. constructor; assumption. Qed.
Lemma rest_at right x y c : ctx_rest right c -> ctx_rest right (at_xy x y c).
Proof. intros [R1 R2 R3 R4 R5 R6 R7]. constructor; assumption. Qed.
Lemma calm_moved right K s x y (c' := at_xy x y (rs_ctx s)) : calm right K s -> uinv c' -> 0 <= x <= xb -> 60 <= y ->
  y + 255 * chars_of (rs_spans s) + K <= top -> calm right K (with_ctx c' s).
Proof.
  intros [[S U R] B D E F] U' X Y L. pose proof (calm_std _ _ R) as Std. constructor; cbn [with_ctx rs_ctx rs_spans].
  - constructor; [exact (sinv_moved _ _ (at_moved _ _ _) S) | exact U' | apply rest_at; exact R].
  - exact B.
  - unfold c'. rewrite at_x by exact Std. exact X.
  - unfold c'. rewrite at_y by exact Std. exact Y.
  - unfold c'. rewrite at_y by exact Std. exact L.
Qed.
Lemma dcost_nonneg d : 0 <= dcost d.
Proof. destruct d; cbn; lia. Qed.
(** a move of the pen, known exactly *)
Lemma device_move right K d f s x y : calm right (K + dcost d) s -> (forall c', f (rs_ctx s) = Ok c' -> uinv c') ->
  f (rs_ctx s) = Ok (at_xy x y (rs_ctx s)) -> 0 <= x <= xb -> 60 <= y <= get_y (rs_ctx s) + dcost d ->
  okp (on_ctx f (call (EDevice d) s)) (calm right K).
Proof.
  intros CA U E X Y. unfold on_ctx. cbn [call rs_ctx]. rewrite E. cbn [bind okp]. pose proof (ca_room _ _ _ CA) as L.
  apply (calm_moved right K (call (EDevice d) s)); [|exact (U _ E) | exact X | lia | cbn [call rs_spans]; lia].
  apply calm_call. apply (calm_less _ _ _ _ CA). pose proof (dcost_nonneg d). lia.
Qed.
Lemma newline_at n c : standard c -> sinv c -> 0 <= n <= 255 -> 60 <= get_y c -> get_y c + 255 * n <= top ->
  newline n c = Ok (at_xy 0 (get_y c + t_line_spacing (c_text c) * n) c).
Proof.
  intros S I N Y L. pose proof (tk_spacing _ (si_text _ I)). rewrite (at_self c S) at 1. apply at_newline; [exact S | nia | nia | lia].
Qed.
Lemma device_good right d s K : calm right (K + dcost d) s -> 0 <= K -> gdev right d -> okp (process_device_command d s) (calm right K).
Proof.
  intros CA K0 (DO & G). pose proof CA as [[S U R] B X Y L]. pose proof (calm_std _ _ R) as Std. pose proof (chars_nonneg (rs_spans s)) as CN.
  pose proof (tk_spacing _ (si_text _ S)) as SP.
  unfold process_device_command. cbv zeta.
  assert (SAME : dcost d = 0 -> okp (Ok (call (EDevice d) s)) (calm right K)).
  { intros D. cbn [okp]. apply calm_call. apply (calm_less _ _ _ _ CA). lia. }
  assert (CC : forall c', sinv c' -> uinv c' -> ctx_rest right c' -> get_x c' = get_x (rs_ctx s) -> get_y c' = get_y (rs_ctx s) -> dcost d = 0 ->
    calm right K (with_ctx c' (call (EDevice d) s))).
  { intros c' S' U' R' Ex Ey D. constructor; cbn [with_ctx call rs_ctx rs_spans]; rewrite ?Ex, ?Ey; try assumption; [constructor; assumption | lia]. }
  assert (TX : forall f, sinv (upd_text f (rs_ctx s)) -> (if right then t_width_mult (f (c_text (rs_ctx s))) <= 2 else t_justify (f (c_text (rs_ctx s))) <> JRight) -> dcost d = 0 ->
     calm right K (with_ctx (upd_text f (rs_ctx s)) (call (EDevice d) s))).
  { intros f S' J D. apply CC; [exact S' | apply uinv_text; exact U | | reflexivity | reflexivity | exact D].
    destruct R as [R1 R2 R3 R4 R5 R6 R7]. constructor; assumption. }
  assert (GEO : forall s1, rs_ctx s1 = rs_ctx s -> rs_spans s1 = rs_spans s -> dcost d = 0 -> okp (page_geometry s1) (calm right K)).
  { intros s1 E1 E2 D. unfold page_geometry. rewrite E1, (cr_page _ _ R).
    change (apply_logical_area default_page) with (Ok (R0, 0, 0, default_page)). cbn [bind okp]. apply calm_call.
    assert (EP : upd_page (fun _ => default_page) (rs_ctx s) = rs_ctx s).
    { rewrite <- (cr_page _ _ R). destruct (rs_ctx s) as [dd [t b q g p]]. reflexivity. }
    rewrite EP. constructor; cbn [with_ctx rs_ctx rs_spans]; rewrite ?E2; try assumption; [constructor; assumption | lia]. }
  assert (SV : forall s', process_device_command d s = Ok s' -> sinv (rs_ctx s')) by (intros s' H; exact (process_device_sinv d s s' DO S H)).
  unfold process_device_command in SV. cbv zeta in SV.
  destruct d; try (apply SAME; reflexivity); try contradiction; cbn [dcost] in *.
  - apply okp_bind. eapply okp_weaken; [eapply (device_move right K BeginPrint (newline 2) s); [exact CA | intros c' H; exact (newline_u _ _ _ H U) |
      apply newline_at; [exact Std | exact S | lia | exact Y | lia] | unfold xb; lia | cbn [dcost]; lia]|].
    intros s' CS. cbn [okp]. apply calm_call. exact CS.
  - eapply (device_move right K PartialCut (newline 2) s); [exact CA | intros c' H; exact (newline_u _ _ _ H U) |
      apply newline_at; [exact Std | exact S | lia | exact Y | lia] | unfold xb; lia | cbn [dcost]; lia].
  - eapply (device_move right K FullCut (newline 2) s); [exact CA | intros c' H; exact (newline_u _ _ _ H U) |
      apply newline_at; [exact Std | exact S | lia | exact Y | lia] | unfold xb; lia | cbn [dcost]; lia].
  - assert (EN : i16_as_u32 n = n) by (unfold i16_as_u32; replace (n <? 0) with false by lia; reflexivity). rewrite EN.
    eapply (device_move right K (Feed n) (feed n) s); [exact CA | intros c' H; exact (feed_u _ _ _ H U) | | | ].
    + unfold feed. rewrite (at_self _ Std) at 1. rewrite at_offset_y; [|exact Std | unfold top in *; lia]. cbn [bind]. rewrite at_reset by exact Std. reflexivity.
    + unfold xb; lia.
    + cbn [dcost]; lia.
  - assert (EN : i16_as_u32 n = n) by (unfold i16_as_u32; replace (n <? 0) with false by lia; reflexivity). rewrite EN.
    eapply (device_move right K (FeedLine n) (newline n) s); [exact CA | intros c' H; exact (newline_u _ _ _ H U) |
      apply newline_at; [exact Std | exact S | lia | exact Y | lia] | unfold xb; lia | cbn [dcost]; nia].
  - cbn [okp]. apply calm_call, calm_call, calm_call. apply (calm_less _ _ _ _ CA). lia.
  - apply GEO; reflexivity.
  - unfold on_ctx. cbn [call rs_ctx bind].
    assert (EP : upd_page (fun p => set_p_previous_direction (p_direction p) p) (rs_ctx s) = rs_ctx s).
    { pose proof (cr_page _ _ R) as P. destruct (rs_ctx s) as [dd [t b q g p]]. unfold c_page in P. cbn in P. subst p. reflexivity. }
    rewrite EP. apply GEO; reflexivity.
  - unfold on_ctx in *. cbn [call rs_ctx bind okp] in *. apply TX; [exact (SV _ eq_refl) | | reflexivity].
    pose proof (cr_just _ _ R). destruct right; [assumption | exact (G eq_refl)].
  - unfold on_ctx in *. cbn [call rs_ctx bind okp] in *. apply TX; [exact (SV _ eq_refl) | | reflexivity].
    pose proof (cr_just _ _ R). destruct right; [exact (G eq_refl) | assumption].
  - unfold on_ctx in *. cbn [call rs_ctx bind okp] in *. apply TX; [exact (SV _ eq_refl) | exact (cr_just _ _ R) | reflexivity].
  - unfold on_ctx in *. cbn [call rs_ctx bind okp] in *. pose proof (SV _ eq_refl) as SS. cbn [with_ctx rs_ctx] in SS. clear SV. unfold set_tab_len in *.
    destruct (at_ <? _); [apply TX; [exact SS | exact (cr_just _ _ R) | reflexivity]|].
    apply CC; auto.
  - unfold on_ctx in *. cbn [call rs_ctx bind okp] in *. apply CC; [exact (SV _ eq_refl) | | | reflexivity | reflexivity | reflexivity].
    + destruct U as [X1 X2 X3 X4 X5 X6]. constructor; try assumption. constructor.
    + destruct R as [R1 R2 R3 R4 R5 R6 R7]. constructor; try assumption. constructor.
Qed.
Lemma devices_good right l : forall s K, calm right (K + dcosts l) s -> 0 <= K -> Forall (gdev right) l -> okp (process_device_commands l s) (calm right K).
Proof.
  unfold process_device_commands. induction l as [|d l IH]; intros s K CA K0 F; cbn [fold_res].
  - cbn [okp]. unfold dcosts in CA. cbn [fold_right] in CA. replace (K + 0) with K in CA by lia. exact CA.
  - apply Forall_cons_iff in F. destruct F as (F1 & F2). change (dcosts (d :: l)) with (dcost d + dcosts l) in CA.
    assert (DL : 0 <= dcosts l) by (clear; induction l as [|d l IH]; [cbn; lia | change (dcosts (d :: l)) with (dcost d + dcosts l); pose proof (dcost_nonneg d); lia]).
    apply okp_bind. eapply okp_weaken; [apply (device_good right d s (K + dcosts l)); [replace (K + dcosts l + dcost d) with (K + (dcost d + dcosts l)) by lia; exact CA | lia | exact F1]|].
    intros s' CS. exact (IH s' K CS K0 F2).
Qed.
Lemma get_device_good right c x : ctx_calm right x -> sent c -> gentle right c ->
  okp (get_device_command c x) (fun l => Forall (gdev right) l /\ dcosts l <= match c_handler c with HPlain _ | HFeedCut => 65025 | _ => 0 end).
Proof.
  intros [S U R] Sc G. pose proof (calm_std _ _ R) as Std. unfold standard in Std.
  pose proof (sent_arg c 0 0 Sc ltac:(lia)) as A0. fold (arg 0 c 0) in A0. pose proof (sent_arg c 1 0 Sc ltac:(lia)) as A1. fold (arg 0 c 1) in A1.
  assert (P : okp (get_device_command c x) (fun l => Forall (fun d => device_ok d -> gdev right d) l /\ dcosts l <= match c_handler c with HPlain _ | HFeedCut => 65025 | _ => 0 end)).
  { unfold get_device_command, gentle in *. destruct (c_handler c) as [id| |cap|s|s|s|s|id]; try (cbn [okp]; split; [constructor | unfold dcosts; cbn [fold_right]; lia]).
    - destruct id; cbn [device_plain]; cbv zeta; try rewrite Std;
        try (cbn [okp]; split; [repeat first [apply Forall_cons | apply Forall_nil]; intros DO; (split; [exact DO | first [exact I | exact G | assumption | lia]]) | unfold dcosts; cbn [fold_right dcost]; lia]);
        try contradiction.
      unfold default_spacing. rewrite (si_default _ S). cbn [bind okp]. split; [repeat first [apply Forall_cons | apply Forall_nil]; intros DO; split; [exact DO | exact I] | cbn; lia].
    - cbn [okp]. unfold feed_cut_device. cbv zeta.
      repeat match goal with |- context [match ?z with _ => _ end] => destruct z end;
        (split; [repeat first [apply Forall_cons | apply Forall_nil]; intros DO; (split; [exact DO | first [exact I | assumption | lia]]) | unfold dcosts; cbn [fold_right dcost]; lia]).
    - destruct id; cbn [okp]; (split; [repeat first [apply Forall_cons | apply Forall_nil]; intros DO; (split; [exact DO | exact I]) | unfold dcosts; cbn [fold_right dcost]; lia]). }
  eapply okp_weaken; [apply okp_and; [exact P | intros a Ha; exact (device_ok_sent _ _ _ Sc S Ha)]|].
  cbn beta. intros l ((F & D) & O). split; [|exact D]. clear - F O. induction F as [|d l Hd F IH]; constructor; apply Forall_cons_iff in O; [apply Hd; tauto | apply IH; tauto].
Qed.

(** ** One command *)
Lemma flush_calm right K s : calm right K s -> 0 <= K ->
  okp (process_text s) (fun s' => calm right K s' /\ rs_spans s' = []).
Proof.
  intros CA K0. pose proof CA as [[S U R] B X Y L]. pose proof (calm_std _ _ R) as Std.
  eapply okp_weaken; [apply okp_and; [apply (flush_good right s Std S B X Y); lia | intros a Ha; exact (process_text_u _ _ Ha U)]|].
  cbn beta. intros s' ((E & x & y & Ec & Xs & Ys) & U'). split; [|exact E].
  constructor.
  - rewrite Ec in *. constructor; [exact (sinv_moved _ _ (at_moved _ _ _) S) | exact U' | apply rest_at; exact R].
  - rewrite E. constructor.
  - rewrite Ec, at_x by exact Std. exact Xs.
  - rewrite Ec, at_y by exact Std. lia.
  - rewrite Ec, at_y by exact Std. rewrite E. change (chars_of []) with 0. lia.
Qed.
Lemma pen_calm right K s s' d : calm right (K + d) s -> rs_spans s = [] -> uinv (rs_ctx s') -> pen_to s s' d -> calm right K s'.
Proof.
  intros [[S U R] B X Y L] E U' (E' & x & y & Ec & Xs & Ys). pose proof (calm_std _ _ R) as Std. rewrite E in L. change (chars_of []) with 0 in L.
  constructor.
  - rewrite Ec in *. constructor; [exact (sinv_moved _ _ (at_moved _ _ _) S) | exact U' | apply rest_at; exact R].
  - rewrite E'. constructor.
  - rewrite Ec, at_x by exact Std. exact Xs.
  - rewrite Ec, at_y by exact Std. lia.
  - rewrite Ec, at_y by exact Std. rewrite E'. change (chars_of []) with 0. lia.
Qed.
Lemma gfx_good right K g s : calm right (K + 131070) s -> 0 <= K -> rs_spans s = [] -> ready right g -> gfx_wf g ->
  okp (process_gfx g s) (calm right K).
Proof.
  intros CA K0 E G WF. pose proof CA as [[S U R] B X Y L]. pose proof (calm_std _ _ R) as Std.
  rewrite E in L. change (chars_of []) with 0 in L.
  assert (PU : forall s', process_gfx g s = Ok s' -> uinv (rs_ctx s')) by (intros s' H; exact (process_gfx_u _ _ _ WF H U)).
  destruct g as [m|q|b|i]; cbn [process_gfx ready] in *.
  - cbn [okp]. constructor; try assumption; [constructor; assumption | cbn [log_error rs_ctx rs_spans]; rewrite E; change (chars_of []) with 0; lia].
  - eapply okp_weaken; [apply okp_and; [eapply (code2d_good s); eauto; lia | exact PU]|]. cbn beta. intros s' (P & U').
    apply (pen_calm right K s s' 131070 CA E U'). apply (pen_more _ _ _ _ P). lia.
  - eapply okp_weaken; [apply okp_and; [exact (barcode_good right b s Std S E X Y G ltac:(lia)) | exact PU]|]. cbn beta. intros s' (P & U').
    apply (pen_calm right K s s' 131070 CA E U'). apply (pen_more _ _ _ _ P). lia.
  - destruct G as (G1 & G2 & G3 & _).
    eapply okp_weaken; [apply okp_and; [exact (image_good i s Std S E X Y G1 G2 G3 ltac:(lia)) | exact PU]|]. cbn beta. intros s' (P & U').
    exact (pen_calm right K s s' 131070 CA E U' P).
Qed.
Lemma context_calm right K e c s : calm right K s -> sent c -> gentle right c -> encoders_ok e -> okp (on_ctx (apply_context e c) s) (calm right K).
Proof.
  intros [CC B X Y L] Sc G E. unfold on_ctx. apply okp_bind.
  eapply okp_weaken; [exact (apply_context_good right (rs_ctx s) CC (conj X Y) e c Sc G E)|]. cbn beta. intros x' (C' & PX & PY). cbn [okp].
  constructor; cbn [with_ctx rs_ctx rs_spans]; try assumption; lia.
Qed.
(** sub-commands' kinds and handlers *)
Lemma text_len c x : sent c -> sinv x -> match get_text c x with Some t => vlen (s_text t) <= 1 + vlen (c_data c) | None => True end.
Proof.
  intros Sc S. unfold get_text. destruct (c_handler c) as [id| |cap|s|s|s|s|id]; try exact I. pose proof (vlen_nonneg (c_data c)).
  destruct id; cbn [plain_text]; try exact I; unfold span_new; cbv zeta; cbn [s_text].
  1-3: change (1 <= 1 + vlen (c_data c)); lia.
  pose proof (decode_len x (c_data c) S (sent_bytes _ Sc)). lia.
Qed.
Lemma get_text_new c x : match get_text c x with Some t => exists u, t = span_new u x | None => True end.
Proof.
  unfold get_text. destruct (c_handler c) as [id| |cap|s|s|s|s|id]; try exact I. destruct id; cbn [plain_text]; try exact I; eauto.
Qed.
Lemma command_good right K e c s : calm right (K + paper_for c) s -> 0 <= K -> sent c -> gentle right c -> encoders_ok e ->
  okp (process_command e c s) (calm right K).
Proof.
  intros CA K0 Sc G E. unfold process_command, paper_for in *. pose proof (vlen_nonneg (c_data c)) as V0.
  assert (DV : forall K' s, calm right (K' + 65025) s -> 0 <= K' -> okp (do d <- get_device_command c (rs_ctx s); process_device_commands d s) (calm right K')).
  { intros K' s1 C1 K1. apply okp_bind. eapply okp_weaken; [exact (get_device_good right c _ (ca_ctx _ _ _ C1) Sc G)|]. cbn beta. intros l (F & D).
    apply devices_good; [|exact K1 | exact F]. apply (calm_less _ _ _ _ C1). destruct (c_handler c); lia. }
  destruct (c_kind c).
  - (* KControl *) apply okp_bind. eapply okp_weaken; [exact (get_device_good right c _ (ca_ctx _ _ _ CA) Sc G)|]. cbn beta. intros l (F & D).
    apply okp_bind. eapply okp_weaken; [exact (flush_calm right _ s CA ltac:(lia))|]. cbn beta. intros s1 (C1 & _).
    apply devices_good; [|exact K0 | exact F]. apply (calm_less _ _ _ _ C1). destruct (c_handler c); lia.
  - (* KText *) pose proof (text_len c (rs_ctx s) Sc (cc_s _ _ (ca_ctx _ _ _ CA))) as TL. pose proof (get_text_new c (rs_ctx s)) as TN.
    cbn [okp]. destruct (get_text c (rs_ctx s)) as [t|]; [|apply (calm_less _ _ _ _ CA); lia].
    destruct TN as (u & ->). destruct CA as [CC B X Y L]. constructor; cbn [collect_text with_spans rs_ctx rs_spans]; try assumption.
    + apply Forall_app. split; [exact B | constructor; [apply span_new_ok; exact CC | constructor]].
    + rewrite chars_app. unfold chars_of at 2. cbn [fold_right]. lia.
  - (* KTextStyle *) apply okp_bind. eapply okp_weaken; [exact (context_calm right _ e c s CA Sc G E)|]. intros s1 C1. exact (DV K s1 C1 K0).
  - (* KGraphics *) replace (K + 200000) with ((K + 65025 + 131070) + 3905) in CA by lia.
    assert (CA' : calm right (K + 65025 + 131070) s) by (apply (calm_less _ _ _ _ CA); lia). clear CA.
    apply okp_bind. eapply okp_weaken; [exact (flush_calm right _ s CA' ltac:(lia))|]. cbn beta. intros s1 (C1 & E1).
    apply okp_bind. eapply okp_weaken; [apply okp_and; [exact (get_graphics_good right e c _ (ca_ctx _ _ _ C1) Sc G E) | intros o Ho; exact Ho]|]. cbn beta. intros o (RD & Ho).
    apply okp_bind. apply (okp_weaken _ (calm right (K + 65025))).
    { destruct o as [g|]; [|cbn [okp]; apply (calm_less _ _ _ _ C1); lia]. apply gfx_good; [exact C1 | lia | exact E1 | exact RD|].
      exact (get_graphics_wf _ _ _ _ Sc (cc_u _ _ (ca_ctx _ _ _ C1)) Ho). }
    intros s2 C2. exact (DV K s2 C2 K0).
  - (* KContext *) replace (K + 0) with K in CA by lia. apply okp_bind. eapply okp_weaken; [exact (flush_calm right _ s CA K0)|]. cbn beta. intros s1 (C1 & _).
    exact (context_calm right _ e c s1 C1 Sc G E).
  - (* KContextControl *) apply okp_bind. eapply okp_weaken; [exact (flush_calm right _ s CA ltac:(lia))|]. cbn beta. intros s1 (C1 & _).
    apply okp_bind. eapply okp_weaken; [exact (context_calm right _ e c s1 C1 Sc G E)|]. intros s2 C2. exact (DV K s2 C2 K0).
  - (* KSubcommand *) cbn [okp]. apply (calm_less _ _ _ _ CA). lia.
  - (* KUnknown *) replace (K + 0) with K in CA by lia. apply okp_bind. eapply okp_weaken; [exact (flush_calm right _ s CA K0)|]. cbn beta. intros s1 ([A B D F L] & _).
    cbn [okp]. constructor; assumption.
Qed.
Lemma paper_nonneg c : 0 <= paper_for c.
Proof. unfold paper_for. pose proof (vlen_nonneg (c_data c)). destruct (c_kind c); lia. Qed.
Lemma papers_nonneg l : 0 <= paper_for_all l.
Proof. induction l as [|c l IH]; [cbn; lia|]. change (paper_for_all (c :: l)) with (paper_for c + paper_for_all l). pose proof (paper_nonneg c). lia. Qed.
Lemma commands_good right e l : encoders_ok e -> forall K s, calm right (K + paper_for_all l) s -> 0 <= K -> Forall sent l -> Forall (gentle right) l ->
  okp (run_commands e l s) (calm right K).
Proof.
  intros E. unfold run_commands. induction l as [|c l IH]; intros K s CA K0 Fs Fg; cbn [fold_res].
  - cbn [okp]. change (paper_for_all []) with 0 in CA. replace (K + 0) with K in CA by lia. exact CA.
  - apply Forall_cons_iff in Fs, Fg. destruct Fs as (S1 & S2), Fg as (G1 & G2). change (paper_for_all (c :: l)) with (paper_for c + paper_for_all l) in CA.
    pose proof (papers_nonneg l). apply okp_bind.
    eapply okp_weaken; [apply (command_good right (K + paper_for_all l) e c s); [replace (K + paper_for_all l + paper_for c) with (K + (paper_for c + paper_for_all l)) by lia; exact CA | lia | exact S1 | exact G1 | exact E]|].
    intros s1 C1. exact (IH K s1 C1 K0 S2 G2).
Qed.
Lemma calm_new right K : 60 + K <= top -> calm right K renderer_new.
Proof.
  intros L. pose proof default_x as DX. pose proof default_y as DY.
  constructor; cbn [renderer_new rs_ctx rs_spans].
  - constructor; [exact sinv_new | exact uinv_new|]. constructor; try reflexivity; cbn; try lia; try constructor. destruct right; [cbn; lia | discriminate].
  - constructor.
  - change (get_x context_new) with (a_x (g_render_area default_graphics)). rewrite DX. unfold xb. lia.
  - change (get_y context_new) with (a_y (g_render_area default_graphics)). rewrite DY. lia.
  - change (get_y context_new) with (a_y (g_render_area default_graphics)). rewrite DY. change (chars_of []) with 0. lia.
Qed.
