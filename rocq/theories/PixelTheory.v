(** * PixelTheory: the colours of bars and of the dots of pictures. *)
From Verif Require Import Utf8 Base Command CommandSet Parser Vec Float32 GTypes Graphics Decoder Context Text Handlers Renderer StateTheory ContextTheory RendererTheory AreaTheory CallsTheory
  Origin SpecPrinter SpecRender PropsContext PropsOutput PropsLayout MemoryTheory SpecRow InkTheory HueTheory SpecCanvas ThermalImage ImageRenderer SpecImage SpecScene GlyphTheory.
Local Open Scope Z_scope.
Local Open Scope list_scope.
Local Arguments at_ : simpl never.
Local Arguments vlen : simpl never.

(** a dot that covers the paper, leaves it alone, or blackens it *)
Definition printable (c : rgba) : Prop := bytes3 c /\ (c_a c = 255 \/ c_a c = 0 \/ (c_r c = 0 /\ c_g c = 0 /\ c_b c = 0)).
Lemma inked_printable c : inked c -> printable c.
Proof. intros (B & [A|A]); split; auto. Qed.

Lemma zero_round d : f32_round 0 d = (0, 1).
Proof. reflexivity. Qed.
Lemma multiply_zero s a : 0 <= s <= 255 -> multiply_channel s 0 a = 0.
Proof.
  intros S. unfold multiply_channel. cbv zeta. set (al := f32_div (f32_of a) (f32_of 255)).
  assert (E : f32_mul (f32_div (f32_of s) (f32_of 255)) (f32_of 0) = (0, 1)).
  { unfold f32_mul. cbn [f32_of fst snd]. rewrite Z.mul_0_r. apply zero_round. }
  rewrite E. replace (f32_div (0, 1) (f32_of 255)) with ((0, 1) : f32) by reflexivity.
  assert (E2 : f32_mul (0, 1) al = (0, 1)) by (unfold f32_mul; cbn [fst snd]; rewrite Z.mul_0_l; apply zero_round).
  rewrite E2. reflexivity.
Qed.
Lemma press_printable p q : bytes3 p -> printable q -> multiply_foreground p q = press p q.
Proof.
  intros P (Q & A). destruct A as [A|[A|(R & G & B)]]; [apply press_multiply; [exact P | split; auto] .. |].
  destruct P as (P1 & P2 & P3). unfold multiply_foreground, press. destruct (c_a q =? 0); [reflexivity|].
  rewrite R, G, B, !multiply_zero, !Z.mul_0_r by assumption. reflexivity.
Qed.
Lemma press_stays p q : opaque p -> printable q -> opaque (press p q).
Proof.
  intros ((P1 & P2 & P3) & A) ((Q1 & Q2 & Q3) & _). unfold press. destruct (c_a q =? 0); [split; [split; [exact P1 | split; [exact P2 | exact P3]] | exact A]|].
  split; [|exact A]. unfold bytes3. cbn [c_r c_g c_b]. split; [|split]; apply nearest_byte; nia.
Qed.
Lemma colours_opaque c : colours c -> opaque c.
Proof. intros (k & E & A). split; [|exact A]. unfold bytes3. destruct k; cbn in E; injection E as -> -> ->; lia. Qed.

(** ** Decoding *)
Lemma for_range_keep {B} (P : B -> Prop) n f (b r : B) : P b -> (forall i a a', P a -> f i a = Ok a' -> P a') -> for_range n f b = Ok r -> P r.
Proof. intros Hb K H. unfold for_range in H. refine (fold_res_ind _ P _ _ _ Hb _ H). intros x y y' _ Hy E. exact (K _ _ _ Hy E). Qed.
Lemma set_nth_forall {A} (P : A -> Prop) l n v : Forall P l -> P v -> Forall P (set_nth l n v).
Proof. revert n. induction l as [|x l IH]; intros [|n] F V; cbn [set_nth]; auto; inversion F; subst; constructor; auto. Qed.
Lemma vset_forall {A} (P : A -> Prop) l i v l' : Forall P l -> P v -> vset l i v = Ok l' -> Forall P l'.
Proof. unfold vset. intros F V H. destruct (_ || _); [discriminate|]. injection H as <-. apply set_nth_forall; assumption. Qed.
Lemma vget_forall {A} (P : A -> Prop) l i v : Forall P l -> vget l i = Ok v -> P v.
Proof.
  unfold vget. intros F H. destruct (i <? 0); [discriminate|]. destruct (nth_error l (Z.to_nat i)) eqn:E; [|discriminate]. injection H as <-.
  exact (proj1 (Forall_forall _ _) F _ (nth_error_In _ _ E)).
Qed.
Definition two (v : Z) : Prop := v = 0 \/ v = 255.
Lemma unpack_two w h data : Forall two (unpack_bytes data w h).
Proof.
  unfold unpack_bytes. cbv zeta. generalize (if w mod 8 =? 0 then 8 else w mod 8) as pad. intros pad. generalize 0 as col. revert data.
  assert (B : forall b n, two (bit_px b n)) by (intros b n; unfold bit_px, two; destruct (_ =? 0); auto).
  induction data as [|b r IH]; intros col; cbn [unpack_loop]; [constructor|].
  destruct (w <=? col + 8); apply Forall_app; (split; [apply Forall_map, Forall_forall; intros n _; apply B | apply IH]).
Qed.
Lemma column_two data w h r : column_to_bytes data w h = Ok r -> Forall two r.
Proof.
  unfold column_to_bytes. intros H. apply bind_ok in H. destruct H as (rot & Hr & H).
  assert (Z0 : forall n, Forall two (repeat 0 n)) by (intros n; apply Forall_forall; intros x Hx; apply repeat_spec in Hx; left; exact Hx).
  assert (R : Forall two rot).
  { unfold rotate_90_clockwise in Hr. refine (for_range_keep (Forall two) _ _ _ _ (Z0 _) _ Hr). intros y a a' Fa E.
    refine (for_range_keep (Forall two) _ _ _ _ Fa _ E). clear a a' Fa E. intros x a a' Fa E.
    apply bind_ok in E. destruct E as (p & Hp & E). exact (vset_forall _ _ _ _ _ Fa (vget_forall _ _ _ _ (unpack_two _ _ _) Hp) E). }
  unfold flip_right_to_left in H. refine (for_range_keep (Forall two) _ _ _ _ (Z0 _) _ H). intros y a a' Fa E.
  refine (for_range_keep (Forall two) _ _ _ _ Fa _ E). clear a a' Fa E. intros x a a' Fa E.
  apply bind_ok in E. destruct E as (p & Hp & E). exact (vset_forall _ _ _ _ _ Fa (vget_forall _ _ _ _ R Hp) E).
Qed.
Lemma scaled_two data w h sx sy nw nh r : Forall two data -> scale_pixels data w h sx sy = Ok (nw, nh, r) -> Forall two r.
Proof.
  intros F H. unfold scale_pixels in H. cbv zeta in H. do 3 (apply bind_ok in H; destruct H as (? & _ & H)). apply bind_ok in H. destruct H as (out & Ho & H). injection H as _ _ <-.
  assert (Z0 : forall n, Forall two (repeat 0 n)) by (intros n; apply Forall_forall; intros x' Hx; apply repeat_spec in Hx; left; exact Hx).
  refine (for_range_keep (Forall two) _ _ _ _ (Z0 _) _ Ho). clear Ho. intros y a a' Fa E.
  refine (for_range_keep (Forall two) _ _ _ _ Fa _ E). clear a a' Fa E. intros x' a a' Fa E.
  do 2 (apply bind_ok in E; destruct E as (? & _ & E)). apply bind_ok in E. destruct E as (p & Hp & E). pose proof (vget_forall _ _ _ _ F Hp) as Pt.
  refine (for_range_keep (Forall two) _ _ _ _ Fa _ E). clear a a' Fa E. intros dy a a' Fa E.
  refine (for_range_keep (Forall two) _ _ _ _ Fa _ E). clear a a' Fa E. intros dx a a' Fa E.
  do 6 (apply bind_ok in E; destruct E as (? & _ & E)). exact (vset_forall _ _ _ _ _ Fa Pt E).
Qed.
(** what may be kept, and what may be printed *)
Definition kept_ink (g : gfx) : Prop := match g with GImage i => Forall inked (i_pixels i) | _ => True end.
Definition gfx_ink (g : gfx) : Prop := match g with GImage i => Forall printable (i_pixels i) | _ => True end.
Lemma kept_gfx_ink g : kept_ink g -> gfx_ink g.
Proof. destruct g; cbn; auto. intros F. eapply Forall_impl; [exact inked_printable | exact F]. Qed.
Lemma raster_single_ink w h st color flow data bits g : opaque color -> (bits = false -> Forall two data) ->
  image_from_raster_single w h st color flow data bits = Ok g -> kept_ink g.
Proof.
  intros ((C1 & C2 & C3) & _) T H. unfold image_from_raster_single in H. cbv zeta in H. apply bind_ok in H. destruct H as (n & _ & H).
  destruct (negb _); [injection H as <-; exact I|]. apply bind_ok in H. destruct H as ([[nw nh] raw] & Ho & H). injection H as <-. cbn [kept_ink i_pixels].
  assert (D : Forall two (if bits then unpack_bytes data w h else data)) by (destruct bits; [apply unpack_two | apply T; reflexivity]).
  assert (R : Forall two raw). { destruct (_ || _); [exact (scaled_two _ _ _ _ _ _ _ _ D Ho) | injection Ho as _ _ <-; exact D]. }
  apply Forall_map. refine (Forall_impl _ _ R). intros v V. unfold inked, bytes3, with_alpha. cbn [c_r c_g c_b c_a]. split; [auto | destruct V as [->| ->]; auto].
Qed.
Lemma column_single_ink w h st color flow data g : opaque color -> image_from_column_single w h st color flow data = Ok g -> kept_ink g.
Proof.
  intros C H. unfold image_from_column_single in H. apply bind_ok in H. destruct H as (r & Hr & H). refine (raster_single_ink _ _ _ _ _ _ _ _ C _ H). intros _. exact (column_two _ _ _ _ Hr).
Qed.
Lemma black_single_ink w h st color flow data bits g : c_r color = 0 -> c_g color = 0 ->
  image_from_raster_single w h st color flow data bits = Ok g -> gfx_ink g.
Proof.
  intros R G H. unfold image_from_raster_single in H. cbv zeta in H. apply bind_ok in H. destruct H as (n & _ & H).
  destruct (negb _); [injection H as <-; exact I|]. apply bind_ok in H. destruct H as ([[nw nh] raw] & Ho & H). injection H as <-. cbn [gfx_ink i_pixels].
  apply Forall_map, Forall_forall. intros v _. unfold printable, bytes3, with_alpha. cbn [c_r c_g c_b c_a]. rewrite R, G. split; [lia | auto].
Qed.
Lemma blend_inked p q : inked p -> inked q -> inked (blend_foreground p q).
Proof.
  intros P (Q & [A|A]).
  - rewrite blend_with_opaque by (split; assumption). split; auto.
  - unfold blend_foreground, blend_with_alpha. rewrite A. exact P.
Qed.
Lemma merge_one_inked a b r : Forall inked a -> Forall inked b -> merge_one a b = Ok r -> Forall inked r.
Proof.
  intros A B H. unfold merge_one in H. refine (for_range_keep (Forall inked) _ _ _ _ A _ H). intros i x x' F E.
  apply bind_ok in E. destruct E as (p & Hp & E). apply bind_ok in E. destruct E as (q & Hq & E).
  exact (vset_forall _ _ _ _ _ F (blend_inked _ _ (vget_forall _ _ _ _ F Hp) (vget_forall _ _ _ _ B Hq)) E).
Qed.
Definition layer_ink (i : image) : Prop := Forall inked (i_pixels i).
Lemma merge_rest_ink l : forall base i, layer_ink base -> Forall layer_ink l -> merge_rest base l = Ok (inl i) -> layer_ink i.
Proof.
  induction l as [|a r IH]; intros base i B F H; cbn [merge_rest] in H; [injection H as <-; exact B|].
  destruct (_ || _); [discriminate|]. apply bind_ok in H. destruct H as (p & Hp & H). apply Forall_cons_iff in F. destruct F as (F1 & F2). refine (IH _ _ _ F2 H). exact (merge_one_inked _ _ _ B F1 Hp).
Qed.
Lemma merged_ink l m : Forall layer_ink l -> merge_image_layers l = Ok m -> kept_ink (merged_gfx m).
Proof.
  intros F H. destruct m as [i|e]; [|exact I]. unfold merge_image_layers in H. destruct l as [|a [|b l]]; [discriminate | |].
  - injection H as <-. inversion F; assumption.
  - apply Forall_cons_iff in F. exact (merge_rest_ink _ _ _ (proj1 F) (proj2 F) H).
Qed.
Lemma raster_layers_ink w h st flow data bpl : forall n k l, raster_layers k n w h st default_colors flow data true bpl = Ok (inl l) -> Forall layer_ink l.
Proof.
  induction n as [|n IH]; intros k l H; cbn [raster_layers] in H; cbv zeta in H; [injection H as <-; constructor|].
  apply bind_ok in H. destruct H as (cn & _ & H). apply bind_ok in H. destruct H as (d & _ & H). apply bind_ok in H. destruct H as (g & Hg & H).
  assert (G : kept_ink g) by (refine (raster_single_ink _ _ _ _ _ _ _ _ (colours_opaque _ (number_colour cn)) _ Hg); discriminate).
  destruct g; [discriminate | exact (IH _ _ H) | exact (IH _ _ H)|].
  apply bind_ok in H. destruct H as (rest & Hr & H). destruct rest as [r|]; [|discriminate]. injection H as <-. constructor; [exact G | exact (IH _ _ Hr)].
Qed.
Lemma raster_multi_ink w h st n flow data g : image_from_raster_multi w h st n default_colors flow data true = Ok g -> kept_ink g.
Proof.
  intros H. unfold image_from_raster_multi in H. cbv zeta in H. destruct (negb _); [injection H as <-; exact I|].
  apply bind_ok in H. destruct H as (l & Hl & H). destruct l as [l|]; [|injection H as <-; exact I].
  apply bind_ok in H. destruct H as (m & Hm & H). injection H as <-. exact (merged_ink _ _ (raster_layers_ink _ _ _ _ _ _ _ _ _ Hl) Hm).
Qed.

(** ** The memory *)
Definition pot (x : context) : Prop :=
  Forall (fun kv => kept_ink (snd kv)) (g_stored_graphics (c_graphics x)) /\ Forall kept_ink (g_buffer_graphics (c_graphics x)).
Lemma pot_mem x x' : mem x' = mem x -> pot x -> pot x'.
Proof. unfold mem, pot. intros E. injection E as _ -> ->. auto. Qed.
Lemma pot_new : pot context_new.
Proof. split; constructor. Qed.
Lemma pot_stored f x : pot x -> (forall m, Forall (fun kv => kept_ink (snd kv)) m -> Forall (fun kv => kept_ink (snd kv)) (f m)) -> pot (upd_stored f x).
Proof. intros (S & B) F. split; [exact (F _ S) | exact B]. Qed.
Lemma pot_insert r g m : kept_ink g -> Forall (fun kv : image_ref * gfx => kept_ink (snd kv)) m -> Forall (fun kv => kept_ink (snd kv)) (map_insert r g m).
Proof. intros G F. unfold map_insert. constructor; [exact G | apply forall_filter; exact F]. Qed.
Lemma pot_push g x : kept_ink g -> pot x -> pot (push_buffer g x).
Proof.
  intros G (S & B). split; [exact S|]. change (g_buffer_graphics (c_graphics (push_buffer g x))) with (g_buffer_graphics (c_graphics x) ++ [g]).
  apply Forall_app. split; [exact B | constructor; [exact G | constructor]].
Qed.
Lemma sub_pot e id c x x' : g_render_colors (c_graphics x) = default_colors -> pot x -> apply_sub e id c x = Ok x' -> pot x'.
Proof.
  intros RC P H. destruct id; cbn [apply_sub] in H; cbv zeta in H; try (injection H as <-; exact P).
  all: try (unfold define_column in H; do 5 (apply bind_ok in H; destruct H as (? & _ & H)); apply bind_ok in H; destruct H as (g & Hg & H); injection H as <-; rewrite RC in Hg;
     refine (pot_stored (map_insert _ g) x P _); intros m; apply pot_insert; exact (raster_multi_ink _ _ _ _ _ _ _ Hg)).
  all: try (unfold define_raster in H; destruct (vlen (c_data c) <? 8); [injection H as <-; exact P|];
     do 4 (apply bind_ok in H; destruct H as (? & _ & H)); apply bind_ok in H; destruct H as (g & Hg & H); injection H as <-; rewrite RC in Hg;
     refine (pot_stored (map_insert _ g) x P _); intros m; apply pot_insert; exact (raster_multi_ink _ _ _ _ _ _ _ Hg)).
  all: try (injection H as <-; apply pot_stored; [exact P | intros m; apply forall_filter]).
  all: try (injection H as <-; unfold clear_one; destruct (ref_from_data _ _); [|exact P]; apply pot_stored; [exact P | intros m; apply forall_filter]).
  all: try (unfold store_buffer in H; destruct (vlen (c_data c) <? 4); [injection H as <-; apply pot_push; [exact I | exact P]|];
     do 4 (apply bind_ok in H; destruct H as (? & _ & H)); cbv zeta in H; apply bind_ok in H; destruct H as (g & Hg & H); injection H as <-; rewrite RC in Hg;
     apply pot_push; [|exact P];
     first [exact (column_single_ink _ _ _ _ _ _ _ (colours_opaque _ (number_colour _)) Hg) | refine (raster_single_ink _ _ _ _ _ _ _ _ (colours_opaque _ (number_colour _)) _ Hg); discriminate]).
  - destruct (vlen (c_data c) <? 2); [discriminate|]. apply bind_ok in H. destruct H as (? & _ & H). injection H as <-. exact P.
  - injection H as <-. unfold qr_store. cbv zeta. destruct (e_qr _ _ _ _ _) as [[bits w]|]; exact P.
  - apply bind_ok in H. destruct H as (? & _ & H). injection H as <-. exact P.
  - injection H as <-. destruct (_ || _); exact P.
  - apply bind_ok in H. destruct H as ([[[? ?] ?]|] & _ & H); injection H as <-; exact P.
  - injection H as <-. repeat match goal with |- pot (if ?z then _ else _) => destruct z end; exact P.
Qed.
Lemma step_pot e c s s' : history e s -> sent c -> pot (rs_ctx s) -> process_command e c s = Ok s' -> pot (rs_ctx s').
Proof.
  intros Hh Sc P H.
  assert (Sub : (exists id, c_handler c = HSubPlain id) \/ forall id, c_handler c <> HSubPlain id) by (destruct (c_handler c); first [left; eexists; reflexivity | right; intros; discriminate]).
  destruct Sub as [(id & Hd)|N].
  - pose proof (sub_step _ _ _ _ _ Sc Hd H) as K.
    assert (O : pot (rs_ctx s') \/ exists x x', mem x = mem (rs_ctx s) /\ moved (rs_ctx s) x /\ apply_sub e id c x = Ok x' /\ rs_ctx s' = x').
    { destruct (c_kind c); try (left; destruct id; try exact (pot_mem _ _ K P); unfold mem in K; injection K as _ K1 K2; unfold pot; rewrite K1, K2; split; [exact (proj1 P) | constructor]).
      right. exact K. }
    destruct O as [O|(x & x' & M & Mv & A & E)]; [exact O|]. rewrite E. refine (sub_pot _ _ _ _ _ _ (pot_mem _ _ M P) A).
    pose proof (history_sinv _ _ Hh) as S. exact (gk_colors _ (si_graphics _ (sinv_moved _ _ Mv S))).
  - destruct (list_eq_dec Z.eq_dec (c_commands c) [27; 64]) as [E|NE].
    + refine (pot_mem _ _ _ pot_new). exact (step_reset _ _ _ _ Hh Sc E H).
    + exact (pot_mem _ _ (step_kept _ _ _ _ Sc NE N H) P).
Qed.

(** ** What is printed *)
Lemma layers_ink l r : Forall kept_ink l -> buffer_layers l = inl r -> Forall layer_ink r.
Proof.
  revert r. induction l as [|g l IH]; intros r F H; cbn [buffer_layers] in H; [injection H as <-; constructor|].
  apply Forall_cons_iff in F. destruct F as (G & F). destruct g; [discriminate | exact (IH _ F H) | exact (IH _ F H)|].
  destruct (buffer_layers l) as [t|] eqn:E; [|discriminate]. injection H as <-. constructor; [exact G | exact (IH _ F eq_refl)].
Qed.
Lemma stored_ink r m g : Forall (fun kv => kept_ink (snd kv)) m -> map_get r m = Some g -> kept_ink g.
Proof.
  intros F H. unfold map_get in H. destruct (find _ m) as [kv|] eqn:E; [|discriminate]. injection H as <-.
  apply find_some in E. exact (proj1 (Forall_forall _ _) F _ (proj1 E)).
Qed.
Lemma sub_graphics_ink id data x g : pot x -> sub_graphics id data x = Ok (Some g) -> gfx_ink g.
Proof.
  intros (S & B) H. apply kept_gfx_ink. unfold sub_graphics in H. cbv zeta in H.
  assert (Q : forall (o : option code2d_g) g, match o with Some q => Some (GCode2D q) | None => None end = Some g -> kept_ink g).
  { intros [q|] g' E; [injection E as <-; exact I | discriminate]. }
  destruct id; try discriminate; try (injection H as H; exact (Q _ _ H)).
  - injection H as H. rewrite <- H. destruct (k_symbol_storage (c_code2d x)); exact I.
  - unfold print_buffer in H. destruct (buffer_layers _) as [l|e] eqn:E; [|injection H as <-].
    + pose proof (layers_ink _ _ B E) as F. destruct l as [|a l]; [discriminate|].
      apply bind_ok in H. destruct H as (m & Hm & H). injection H as <-. pose proof (merged_ink _ _ F Hm) as Mk. destruct m; [exact Mk | exact I].
    + clear - E. revert E. generalize (g_buffer_graphics (c_graphics x)) as l. induction l as [|g l IH]; cbn [buffer_layers]; [discriminate|].
      destruct g; intros E; [injection E as <-; exact I | exact (IH E) | exact (IH E)|].
      destruct (buffer_layers l) as [t|e'] eqn:E'; [discriminate|]. injection E as ->. exact (IH eq_refl).
  - injection H as H. destruct (ref_from_data data Ram); [|discriminate]. exact (stored_ink _ _ _ S H).
  - injection H as H. destruct (ref_from_data data Disc); [|discriminate]. exact (stored_ink _ _ _ S H).
Qed.
Lemma get_graphics_ink e c x g : g_render_colors (c_graphics x) = default_colors -> pot x -> get_graphics e c x = Ok (Some g) -> gfx_ink g.
Proof.
  intros RC P H. unfold get_graphics in H. destruct (c_handler c) as [id| |cap|s|s|s|s|id]; try discriminate.
  - apply bind_ok in H. destruct H as (g0 & Hg & H). injection H as <-.
    assert (X : match g0 with GImage _ => False | _ => True end); [|destruct g0; [exact I | exact I | exact I | contradiction]].
    unfold barcode_graphics in Hg. cbv zeta in Hg. destruct (negb _); [injection Hg as <-; exact I|].
    assert (F : forall p t x, match finish_barcode p t x with GImage _ => False | _ => True end) by (intros [p|] t y; exact I).
    destruct (bc_kind s); try (injection Hg as <-; first [exact I | apply F]).
    + apply bind_ok in Hg. destruct Hg as (u & _ & Hg). destruct u as [code|]; [|injection Hg as <-; exact I].
      apply bind_ok in Hg. destruct Hg as (p & _ & Hg). injection Hg as <-. exact I.
    + destruct (_ && _); [discriminate|]. destruct (from_utf8 _); [|discriminate]. injection Hg as <-. apply F.
  - apply bind_ok in H. destruct H as (g0 & Hg & H). injection H as <-. unfold bit_image_graphics in Hg. cbv zeta in Hg. rewrite RC in Hg.
    destruct (bi_col_encoded s); [apply kept_gfx_ink; exact (column_single_ink _ _ _ _ _ _ _ (colours_opaque _ ink1_colour) Hg) | refine (black_single_ink _ _ _ _ _ _ _ _ _ _ Hg); reflexivity].
  - apply bind_ok in H. destruct H as (g0 & Hg & H). injection H as <-. unfold raster_graphics in Hg. rewrite RC in Hg.
    apply kept_gfx_ink. refine (raster_single_ink _ _ _ _ _ _ _ _ (colours_opaque _ (number_colour 1)) _ Hg). discriminate.
  - destruct (ss_subcommand s) as [sc|]; [|discriminate]. exact (sub_graphics_ink _ _ _ _ P H).
  - exact (sub_graphics_ink _ _ _ _ P H).
Qed.

(** ** The calls *)
Definition hue_call (call : context * event) : Prop :=
  match snd call with EGraphics _ => colours (t_color (c_text (fst call))) | EImage i => Forall printable (i_pixels i) | _ => True end.
Lemma text_hue x : is_text_call x -> hue_call x.
Proof. destruct x as [c ev]. destruct ev; cbn; tauto. Qed.
Lemma code2d_hue q s s' : inky (rs_ctx s) -> process_code_2d q s = Ok s' -> adds hue_call s s'.
Proof.
  intros K H. pose proof (proj1 (process_code_2d_quiet _ _ _ H)) as (Mv & _). unfold process_code_2d in H. apply bind_ok in H. destruct H as (? & _ & H). apply bind_ok in H. destruct H as (? & _ & H).
  apply bind_ok in H. destruct H as ([[c n] rects] & _ & H). injection H as <-. exists [(reset_x c, EGraphics rects)]. split; [reflexivity|]. constructor; [|constructor].
  cbn [hue_call fst snd]. cbn [call rs_ctx with_ctx] in Mv. rewrite (moved_text _ _ Mv). exact (proj1 K).
Qed.
Lemma barcode_hue b s s' : inky (rs_ctx s) -> rs_spans s = [] -> process_barcode b s = Ok s' -> adds hue_call s s'.
Proof.
  intros K S0 H. unfold process_barcode in H. cbv zeta in H. apply bind_ok in H. destruct H as (s1 & H1 & H). apply bind_ok in H. destruct H as (tot & _ & H).
  apply bind_ok in H. destruct H as (s2 & H2 & H). apply bind_ok in H. destruct H as ([c rects] & H3 & H). apply bind_ok in H. destruct H as (s4 & H4 & H).
  assert (T : forall a b', barcode_text b a = Ok b' -> quiet hue_call a b') by (intros a b' E; exact (quiet_weaken _ _ _ _ text_hue (proj1 (barcode_text_quiet _ _ _ E)))).
  assert (Q1 : quiet hue_call s s1) by (destruct (bc_human_readable (c_barcode (rs_ctx s))); first [injection H1 as <-; apply quiet_refl | exact (T _ _ H1)]).
  assert (Q2 : quiet hue_call s1 s2) by (refine (quiet_on_ctx _ _ _ _ _ H2); intros c' Hc; exact (set_x_moved _ _ _ Hc)).
  assert (M3 : moved (rs_ctx s2) c).
  { refine (fold_res_ind _ (fun y => moved (rs_ctx s2) (fst y)) _ (rs_ctx s2, []) (c, rects) (moved_refl _) _ H3).
    intros x y y' _ M E. exact (moved_trans _ _ _ M (barcode_point_moved _ _ _ _ E)). }
  assert (Q3 : quiet hue_call s2 (call (EGraphics rects) (with_ctx c s2))).
  { refine (quiet_trans _ _ (with_ctx c s2) _ _ (quiet_call _ _ _ _)); [split; [exact M3 | split; [reflexivity | apply adds_same; reflexivity]]|].
    cbn [hue_call fst snd with_ctx rs_ctx]. rewrite (moved_text _ _ (moved_trans _ _ _ (proj1 Q1) (moved_trans _ _ _ (proj1 Q2) M3))). exact (proj1 K). }
  assert (Q4 : quiet hue_call (call (EGraphics rects) (with_ctx c s2)) s4).
  { refine (quiet_on_ctx _ _ _ _ _ H4). intros c' Hc. exact (moved_trans _ _ _ (moved_reset_x _) (offset_y_moved _ _ _ Hc)). }
  pose proof (quiet_trans _ _ _ _ Q1 (quiet_trans _ _ _ _ Q2 (quiet_trans _ _ _ _ Q3 Q4))) as Q. 
  destruct (bc_human_readable (c_barcode (rs_ctx s4))); try (injection H as <-; exact (proj2 (proj2 Q)));
    (apply bind_ok in H; destruct H as (s5 & H5 & H);
     assert (Q5 : quiet hue_call s4 s5) by (refine (quiet_on_ctx _ _ _ _ _ H5); intros c' Hc; exact (offset_y_moved _ _ _ Hc));
     exact (proj2 (proj2 (quiet_trans _ _ _ _ Q (quiet_trans _ _ _ _ Q5 (T _ _ H)))))).
Qed.
Lemma on_ctx_calls f s s' : on_ctx f s = Ok s' -> rs_calls s' = rs_calls s.
Proof. intros H. exact (proj2 (on_ctx_spans _ _ _ H)). Qed.
Lemma image_hue i s s' : Forall printable (i_pixels i) -> process_image i s = Ok s' -> adds hue_call s s'.
Proof.
  intros F H. unfold process_image in H. cbv zeta in H. apply bind_ok in H. destruct H as (s1 & H1 & H). set (i' := set_i_y _ _) in H.
  assert (C1 : rs_calls s1 = rs_calls s) by (repeat match type of H1 with (match ?z with _ => _ end) = _ => destruct z end; first [injection H1 as <-; reflexivity | exact (on_ctx_calls _ _ _ H1)]).
  exists [(rs_ctx s1, EImage i')]. split; [|constructor; [exact F | constructor]]. rewrite <- C1.
  repeat match type of H with (match ?z with _ => _ end) = _ => destruct z end; first [injection H as <-; reflexivity | rewrite (on_ctx_calls _ _ _ H); reflexivity].
Qed.
Lemma gfx_hue g s s' : gfx_ink g -> inky (rs_ctx s) -> rs_spans s = [] -> process_gfx g s = Ok s' -> adds hue_call s s'.
Proof.
  intros G K S0 H. destruct g; cbn [process_gfx] in H.
  - injection H as <-. apply adds_same. reflexivity.
  - exact (code2d_hue _ _ _ K H).
  - exact (barcode_hue _ _ _ K S0 H).
  - exact (image_hue _ _ _ G H).
Qed.
Lemma device_hue d s s' : process_device_command d s = Ok s' -> adds hue_call s s'.
Proof.
  intros H. unfold process_device_command in H. cbv zeta in H.
  assert (C : adds hue_call s (call (EDevice d) s)) by (apply adds_call; exact I). refine (adds_trans _ _ _ _ C _). set (s0 := call (EDevice d) s) in *. clearbody s0. clear C.
  assert (O : forall f a b, on_ctx f a = Ok b -> adds hue_call a b) by (intros f a b E; apply adds_same; exact (on_ctx_calls _ _ _ E)).
  assert (G : forall a b, page_geometry a = Ok b -> adds hue_call a b).
  { intros a b E. unfold page_geometry in E. apply bind_ok in E. destruct E as ((((r & w) & h) & p) & _ & E). injection E as <-. refine (adds_trans _ _ (with_ctx (upd_page (fun _ => p) (rs_ctx a)) a) _ (adds_same _ _ _ eq_refl) _). apply adds_call. exact I. }
  destruct d; try (injection H as <-; apply adds_refl); try exact (O _ _ _ H); try exact (G _ _ H).
  - apply bind_ok in H. destruct H as (s1 & H1 & H). injection H as <-. refine (adds_trans _ _ _ _ (O _ _ _ H1) _). apply adds_call. exact I.
  - injection H as <-. refine (adds_trans _ _ (call EGetErrors s0) _ _ _); apply adds_call; exact I.
  - apply bind_ok in H. destruct H as (s1 & H1 & H). injection H as <-. refine (adds_trans _ _ _ _ (O _ _ _ H1) _). apply adds_call. exact I.
  - refine (adds_trans _ _ _ _ (adds_call _ EPageEnd s0 I) (O _ _ _ H)).
  - refine (adds_trans _ _ _ _ (adds_call _ ERenderPage s0 I) (O _ _ _ H)).
Qed.
Lemma devices_hue l s s' : process_device_commands l s = Ok s' -> adds hue_call s s'.
Proof.
  intros H. unfold process_device_commands in H. refine (fold_res_ind _ (fun y => adds hue_call s y) l s s' (adds_refl _ _) _ H).
  intros d y y' _ A E. exact (adds_trans _ _ _ _ A (device_hue _ _ _ E)).
Qed.
Lemma step_hue e c s s' : history e s -> sent c -> pot (rs_ctx s) -> process_command e c s = Ok s' -> adds hue_call s s'.
Proof.
  intros Hh Sc P H. pose proof (history_inky _ _ Hh) as K. pose proof (history_sinv _ _ Hh) as S. unfold process_command in H.
  assert (T : forall a b, process_text a = Ok b -> adds hue_call a b) by (intros a b E; exact (proj2 (proj2 (quiet_weaken _ _ _ _ text_hue (proj1 (process_text_quiet _ _ E)))))).
  assert (O : forall f a b, on_ctx f a = Ok b -> adds hue_call a b) by (intros f a b E; apply adds_same; exact (on_ctx_calls _ _ _ E)).
  destruct (c_kind c).
  - apply bind_ok in H. destruct H as (d & Hd & H). apply bind_ok in H. destruct H as (s1 & H1 & H). exact (adds_trans _ _ _ _ (T _ _ H1) (devices_hue _ _ _ H)).
  - injection H as <-. apply adds_same. destruct (get_text c (rs_ctx s)); reflexivity.
  - apply bind_ok in H. destruct H as (s1 & H1 & H). apply bind_ok in H. destruct H as (d & Hd & H). exact (adds_trans _ _ _ _ (O _ _ _ H1) (devices_hue _ _ _ H)).
  - apply bind_ok in H. destruct H as (s1 & H1 & H). apply bind_ok in H. destruct H as (g & Hg & H). apply bind_ok in H. destruct H as (s2 & H2 & H). apply bind_ok in H. destruct H as (d & Hd & H).
    refine (adds_trans _ _ _ _ (T _ _ H1) (adds_trans _ _ _ _ _ (devices_hue _ _ _ H))). destruct (process_text_moved _ _ H1) as (M & Sp).
    destruct g as [g|]; [|injection H2 as <-; apply adds_refl].
    refine (gfx_hue _ _ _ _ (inky_cols _ _ (moved_cols _ _ M) K) Sp H2).
    exact (get_graphics_ink _ _ _ _ (gk_colors _ (si_graphics _ (sinv_moved _ _ M S))) (pot_mem _ _ (moved_mem _ _ M) P) Hg).
  - apply bind_ok in H. destruct H as (s1 & H1 & H). exact (adds_trans _ _ _ _ (T _ _ H1) (O _ _ _ H)).
  - apply bind_ok in H. destruct H as (s1 & H1 & H). apply bind_ok in H. destruct H as (s2 & H2 & H). apply bind_ok in H. destruct H as (d & Hd & H).
    exact (adds_trans _ _ _ _ (T _ _ H1) (adds_trans _ _ _ _ (O _ _ _ H2) (devices_hue _ _ _ H))).
  - injection H as <-. apply adds_refl.
  - apply bind_ok in H. destruct H as (s1 & H1 & H). injection H as <-. refine (adds_trans _ _ _ _ (T _ _ H1) _). apply adds_same. reflexivity.
Qed.
Lemma hue_run e l : forall s s', history e s -> Forall sent l -> pot (rs_ctx s) -> Forall hue_call (rs_calls s) -> run_commands e l s = Ok s' ->
  pot (rs_ctx s') /\ Forall hue_call (rs_calls s').
Proof.
  unfold run_commands. induction l as [|c l IH]; intros s s' Hy F P Q H; cbn [fold_res] in *; [injection H as <-; auto|].
  apply bind_ok in H. destruct H as (s1 & H1 & H). apply Forall_cons_iff in F. destruct F as (Sc & F).
  refine (IH s1 s' _ F (step_pot _ _ _ _ Hy Sc P H1) _ H).
  - destruct Hy as (l0 & F0 & R0). exists (l0 ++ [c]). split; [apply Forall_app; auto|].
    unfold run_commands in *. rewrite fold_res_app, R0. cbn [bind fold_res]. rewrite H1. reflexivity.
  - destruct (step_hue _ _ _ _ Hy Sc P H1) as (n & -> & Fn). apply Forall_app. auto.
Qed.
Lemma history_hue e s : history e s -> Forall hue_call (rs_calls s).
Proof.
  intros (l & F & R). refine (proj2 (hue_run e l renderer_new s _ F pot_new _ R)); [|constructor].
  exists []. split; [constructor | reflexivity].
Qed.
