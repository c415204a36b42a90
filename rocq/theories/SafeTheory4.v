(** * SafeTheory4: one gentle command, from a calm state to a calm state (used by PropsSafe). *)
From Verif Require Import Base Command CommandSet Parser Vec Float32 GTypes Graphics SpecGraphics GraphicsTheory GraphicsTheory2 Utf8 Decoder Context Text
  Upce SpecUpc PropsUpce PropsDecoder Handlers Renderer ContextTheory RendererTheory Origin SpecPrinter StateTheory PropsText SpecRender LayoutTheory AreaTheory
  SpecSafe SafeTheory SafeTheory2 SafeTheory3.
Local Open Scope Z_scope.
Local Open Scope list_scope.

Record ctx_rest (right : bool) (c : context) : Prop := mk_ctx_rest {
  cr_page : c_page c = default_page;
  cr_h : 1 <= g_h_motion_unit (c_graphics c);
  cr_just : if right then t_width_mult (c_text c) <= 2 else t_justify (c_text c) <> JRight;
  cr_sym : match k_symbol_storage (c_code2d c) with Some q => code_ok q | None => True end;
  cr_qr : 0 <= k_qr_size (c_code2d c) <= 255;
  cr_stored : Forall (fun kv => low (snd kv)) (g_stored_graphics (c_graphics c));
  cr_buffer : Forall low (g_buffer_graphics (c_graphics c)) }.
Record ctx_calm (right : bool) (c : context) : Prop := mk_ctx_calm {
  cc_s : sinv c; cc_u : uinv c; cc_r : ctx_rest right c }.
Lemma calm_std right c : ctx_rest right c -> standard c.
Proof. intros C. unfold standard. rewrite (cr_page _ _ C). reflexivity. Qed.

(** ** Spans *)
(** strike-through lines are at most 10 dots high *)
Lemma strike_dots c : sinv c -> 0 <= match t_strikethrough (c_text c) with StrikeOn => points_to_pixels c 1 | StrikeDouble => points_to_pixels c 2 | StrikeOff => 0 end <= 10.
Proof.
  intros S. unfold points_to_pixels. destruct (gk_dpi _ (si_graphics _ S)) as [<-|[<-|[<-|[]]]]; destruct (t_strikethrough (c_text c)); vm_compute; split; discriminate.
Qed.
Lemma span_new_ok right t c : ctx_calm right c -> span_ok right (span_new t c).
Proof.
  intros [S _ R]. destruct (si_text _ S) as [T1 T2 T3 _ _ _ _]. pose proof (cr_just _ _ R) as J.
  unfold span_new. cbv zeta.
  assert (W : 9 <= t_character_width (c_text c) <= 12 /\ 17 <= t_character_height (c_text c) <= 24).
  { destruct (t_font (c_text c)); cbn [cell_of] in T1; injection T1 as -> ->; lia. }
  constructor; cbn [s_character_width s_character_height s_justify s_strikethrough]; [nia | nia | destruct right; [nia | exact J]|].
  exact (strike_dots _ S).
Qed.
Lemma barcode_span_ok right t c : ctx_calm right c -> span_ok right (span_new_for_barcode t c).
Proof. intros C. destruct (span_new_ok right t c C) as [A B D N]. constructor; assumption. Qed.

(** ** Graphics *)
Definition ready (right : bool) (g : gfx) : Prop :=
  match g with
  | GError _ => True
  | GCode2D q => code_ok q
  | GBarcode b => bars_ok right b
  | GImage i => 0 <= i_w i /\ (i_flow i <> FlowBlock -> i_w i <= 131070) /\ 0 <= i_h i <= 131070 /\ i_w i * i_h i <= u32_max
  end.
Lemma finish_good right p t c : ctx_calm right c -> short p -> vlen t <= 255 -> ready right (finish_barcode p t c).
Proof.
  intros C P T. unfold finish_barcode. destruct p as [p|]; [|exact I]. cbn [ready]. destruct (si_barcode _ (cc_s _ _ C)) as [B1 B2].
  constructor; cbn [b_points b_point_width b_point_height b_text]; [exact P | lia | lia | apply barcode_span_ok; exact C | exact T].
Qed.
Lemma barcode_graphics_good right e s raw c : ctx_calm right c -> encoders_ok e ->
  (bc_kind s = Ean13 -> is_cont (get_or 0 raw 12) = false) -> okp (barcode_graphics e s raw c) (ready right).
Proof.
  intros C E G. unfold barcode_graphics. cbv zeta.
  destruct (negb _) eqn:V; [exact I|]. apply negb_false_iff in V.
  assert (LD : vlen (match from_utf8 raw with Some d => d | None => [] end) <= 255).
  { destruct (from_utf8 raw) as [d|] eqn:U; [|cbn; lia]. pose proof (utf8_len _ _ U). unfold validate_data_length in V.
    destruct (Z.ltb_spec 255 (vlen raw)); [discriminate | lia]. }
  assert (UE : bc_kind s = Ean13 -> exists d, from_utf8 raw = Some d).
  { intros K. rewrite K in V. destruct (from_utf8 raw) as [d|]; [eauto|]. cbn in V. discriminate. }
  set (data := match from_utf8 raw with Some d => d | None => [] end) in *. clearbody data. clear V.
  pose proof (eo_bars e E) as EB.
  assert (RL : forall a b l, vlen l <= 255 -> vlen (replace2 a b [] l) <= 255) by (intros a b l L; pose proof (replace2_len a b l); lia).
  destruct (bc_kind s) eqn:K; try exact I; try (cbn [okp]; apply finish_good; [exact C | apply EB | first [exact LD | apply RL, RL, RL, LD]]).
  - (* UPC-E *) destruct (C29_symbol raw) as (r & -> & Hs). cbn [bind]. destruct r as [code|err]; [|exact I].
    destruct (Hs code eq_refl) as (-> & L51 & _). cbn [bind okp]. apply finish_good; [exact C | | exact LD].
    cbn [short]. unfold vlen. rewrite L51. cbn. lia.
  - (* EAN-13 *) specialize (G eq_refl). rewrite G, andb_false_r. destruct (UE eq_refl) as (d & Hd).
    destruct (utf8_prefix raw 12 d Hd G) as (t' & ->). cbn [okp]. apply finish_good; [exact C | apply EB | exact LD].
Qed.

Lemma sent_shape c : sent c ->
  match c_handler c with
  | HBitImage s => u16b (bi_width s) /\ 0 <= bi_height s <= 24 /\ (bi_stretch s = (1, 1) \/ bi_stretch s = (2, 3))
  | HRaster s => 0 <= ra_width s <= 524280 /\ u16b (ra_height s)
  | HSub s => ss_subcommand s = None
  | _ => True
  end.
Proof.
  intros Sc. destruct (sent_reported _ Sc) as [(t & Ht & Hk & I)|(sc & _ & I)].
  - pose proof (in_handler _ _ I) as L.
    assert (Q : forallb (fun t => match c_handler t, c_kind t with HSub _, KSubcommand => true | HSub s, _ => match ss_commands s with [] => true | _ => false end | _, _ => true end) all_commands = true)
      by (vm_compute; reflexivity).
    pose proof (proj1 (forallb_forall _ _) Q t Ht) as QT. cbn beta in QT.
    destruct (c_handler t), (c_handler c); cbn [handler_like] in L; try contradiction; try exact Logic.I; try exact L.
    destruct L as (L1 & L2). assert (EN : ss_commands s = []) by (clear - QT Hk; destruct (ss_commands s); [reflexivity|]; destruct (c_kind t); try discriminate QT; exfalso; apply Hk; reflexivity).
    destruct (ss_subcommand s0) as [sc|]; [|reflexivity]. rewrite EN in L2. destruct L2 as (_ & _ & u & [] & _).
  - rewrite (si_handler _ _ I). exact Logic.I.
Qed.

Lemma buffer_low l : Forall low l -> Forall kept_wf l ->
  match buffer_layers l with
  | inl r => Forall (fun i => i_h i <= 131070 /\ i_flow i = FlowBlock /\ i_w i * i_h i <= u32_max) r /\ Forall img_wf r
  | inr g => match g with GError _ => True | _ => False end
  end.
Proof.
  induction l as [|g l IH]; intros F K; cbn [buffer_layers]; [split; constructor|].
  apply Forall_cons_iff in F, K. destruct F as (F1 & F2), K as (K1 & K2). specialize (IH F2 K2).
  destruct g as [m|q|b|i]; [exact I | exact IH | exact IH|]. destruct (buffer_layers l) as [t|e]; [|exact IH].
  destruct IH. split; constructor; assumption.
Qed.
Lemma low_ready right g : low g -> kept_wf g -> ready right g.
Proof.
  destruct g; cbn [low kept_wf ready]; try tauto. intros (H1 & H2 & H3) [W1 W2 _]. unfold u32v in *. rewrite H2. split; [lia | split; [congruence | lia]].
Qed.
Lemma print_buffer_good right x : ctx_calm right x -> okp (print_buffer x) (fun o => match o with Some g => ready right g | None => True end).
Proof.
  intros [S U R]. unfold print_buffer. pose proof (buffer_low _ (cr_buffer _ _ R) (ui_buffer _ U)) as B.
  destruct (buffer_layers _) as [l|g]; [|cbn [okp]; destruct g; [exact I | contradiction ..]].
  destruct l as [|a l]; [exact I|]. destruct B as (B1 & B2). apply okp_bind.
  eapply okp_weaken; [apply okp_and; [exact (merge_good 131070 FlowBlock (a :: l) B2 B1) | intros m Hm; exact Hm]|].
  cbn beta. intros m (P & Hm). cbn [okp]. destruct m as [i|e]; [|exact I]. apply low_ready; [exact P|]. exact (merge_layers_wf _ _ B2 Hm).
Qed.
Lemma get_graphics_good right e c x : ctx_calm right x -> sent c -> gentle right c -> encoders_ok e ->
  okp (get_graphics e c x) (fun o => match o with Some g => ready right g | None => True end).
Proof.
  intros C Sc G E. pose proof (sent_shape _ Sc) as Sh. unfold get_graphics. unfold gentle in G.
  assert (SZ : forall w h f g, (f <> FlowBlock -> w <= 131070) -> h <= 131070 -> sized w h f g -> ready right g).
  { intros w h f g L1 L2. destruct g; cbn [sized ready]; try tauto. intros ([W1 W2 _] & H1 & H2 & H3 & H4). unfold u32v in *. rewrite H3.
    split; [lia | split; [intros N; specialize (L1 N); lia | lia]]. }
  destruct (c_handler c) as [id| |cap|s|s|s|s|id]; try exact I.
  - apply okp_bind. eapply okp_weaken; [exact (barcode_graphics_good right e s _ x C E G)|]. intros g Hg. exact Hg.
  - apply okp_bind. destruct Sh as (W & H & St). unfold u16b in W. unfold bit_image_graphics. cbv zeta.
    assert (Q : forall bits, okp (if bits : bool then image_from_column_single (bi_width s) (bi_height s) (bi_stretch s) (rc_color_1 (g_render_colors (c_graphics x))) FlowInline (c_data c)
      else image_from_raster_single (bi_width s) (bi_height s) (bi_stretch s) (rc_color_1 (g_render_colors (c_graphics x))) FlowInline (c_data c) false) (ready right) \/ bits <> bi_col_encoded s).
    { intros bits. destruct (bool_dec bits (bi_col_encoded s)) as [->|N]; [left|right; exact N].
      assert (SM : forall sx sy, 1 <= sx <= 2 -> 1 <= sy <= 3 -> small_image (bi_width s) (bi_height s) sx sy).
      { intros sx sy X Y. unfold small_image, u32_max. rewrite !Z.max_l by lia. assert (0 <= bi_width s * sx <= 131070) by nia. assert (0 <= bi_height s * sy <= 72) by nia. nia. }
      destruct (bi_col_encoded s) eqn:CE.
      - destruct St as [-> | ->].
        + eapply okp_weaken; [apply column_good; [lia | exact (G eq_refl) | apply SM; lia]|]. intros g. apply SZ; lia.
        + eapply okp_weaken; [apply column_good; [lia | exact (G eq_refl) | apply SM; lia]|]. intros g. apply SZ; lia.
      - destruct St as [-> | ->].
        + eapply okp_weaken; [apply raster_good; [lia | lia | apply SM; lia]|]. intros g. apply SZ; lia.
        + eapply okp_weaken; [apply raster_good; [lia | lia | apply SM; lia]|]. intros g. apply SZ; lia. }
    destruct (Q (bi_col_encoded s)) as [Q'|Q']; [|congruence]. eapply okp_weaken; [exact Q'|]. intros g Hg. exact Hg.
  - apply okp_bind. destruct Sh as (W & H). unfold u16b in H. unfold raster_graphics.
    assert (ST : 1 <= snd (raster_stretch (ra_scaling s)) <= 2).
    { unfold raster_stretch. repeat match goal with |- context [match ?z with _ => _ end] => destruct z end; cbn [snd]; lia. }
    destruct (raster_stretch (ra_scaling s)) as [sx sy]. cbn [fst snd] in *.
    eapply okp_weaken; [apply raster_good; [lia | lia | exact G]|]. intros g Hg. cbn [okp]. refine (SZ _ _ _ _ _ _ Hg); [congruence | nia].
  - rewrite Sh. exact I.
  - destruct C as [S U R]. assert (C : ctx_calm right x) by (constructor; assumption).
    assert (ST : forall k, match match ref_from_data (c_data c) k with Some r => map_get r (g_stored_graphics (c_graphics x)) | None => None end with
      Some g => ready right g | None => True end).
    { intros k. destruct (ref_from_data (c_data c) k) as [r|]; [|exact I]. destruct (map_get r _) as [g|] eqn:Eg; [|exact I].
      apply low_ready; [|exact (map_get_wf _ _ _ (ui_stored _ U) Eg)]. unfold map_get in Eg.
      destruct (find _ _) as [kv|] eqn:Ef; [|discriminate]. injection Eg as <-. apply find_some in Ef.
      exact (proj1 (Forall_forall _ _) (cr_stored _ _ R) _ (proj1 Ef)). }
    pose proof (cr_sym _ _ R) as SY. clear G Sh.
    destruct id; cbn [sub_graphics]; cbv zeta; try exact I; try exact (ST _); try exact (print_buffer_good right x C);
      destruct (k_symbol_storage (c_code2d x)) as [q|]; cbn [okp ready]; try exact SY; exact I.
Qed.
