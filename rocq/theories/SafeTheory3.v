(** * SafeTheory3: the command handlers on gentle commands (used by PropsSafe). *)
From Verif Require Import Base Command CommandSet Parser Vec Float32 GTypes Graphics SpecGraphics GraphicsTheory GraphicsTheory2 Utf8 Decoder Context Text
  Upce SpecUpc PropsUpce PropsDecoder Handlers Renderer ContextTheory RendererTheory Origin SpecPrinter StateTheory PropsText SpecRender LayoutTheory AreaTheory
  SpecSafe SafeTheory SafeTheory2.
Local Open Scope Z_scope.
Local Open Scope list_scope.

(** ** Images *)
(** what may be kept in the graphics memory of the printer: not too high, drawn as a block *)
Definition low (g : gfx) : Prop :=
  match g with GImage i => i_h i <= 131070 /\ i_flow i = FlowBlock /\ i_w i * i_h i <= u32_max | _ => True end.
Definition sized (W H : Z) (f : image_flow) (g : gfx) : Prop :=
  match g with GImage i => img_wf i /\ i_w i <= W /\ i_h i <= H /\ i_flow i = f /\ i_w i * i_h i <= u32_max | GError _ => True | _ => False end.

Lemma raster_good w h sx sy color flow data bits : 0 <= w -> 0 <= h -> small_image w h sx sy ->
  okp (image_from_raster_single w h (sx, sy) color flow data bits) (sized (w * Z.max sx 1) (h * Z.max sy 1) flow).
Proof.
  intros W H (P & P1 & P2).
  assert (N1 : w <= w * Z.max sx 1) by (rewrite <- (Z.mul_1_r w) at 1; apply Z.mul_le_mono_nonneg_l; lia).
  assert (N2 : h <= h * Z.max sy 1) by (rewrite <- (Z.mul_1_r h) at 1; apply Z.mul_le_mono_nonneg_l; lia).
  assert (Hle : w * h <= (w * Z.max sx 1) * (h * Z.max sy 1)) by (apply Z.mul_le_mono_nonneg; lia).
  assert (N3 : 0 <= w * h) by (apply Z.mul_nonneg_nonneg; lia).
  destruct (Z.eq_dec (vlen (if bits then unpack_bytes data w h else data)) (w * h)) as [E|E].
  - destruct (raster_single_ok w h sx sy color flow data bits _ W H eq_refl E P1 P2 P) as (img & -> & R & EW & EH & _ & _ & F & _).
    cbn [okp sized]. split; [|rewrite EW, EH; split; [lia | split; [lia | split; [exact F | lia]]]].
    unfold rect in R. destruct R as (R1 & R2 & R3). constructor; [unfold u32v, u32_max in *; rewrite EW in *; lia | unfold u32v, u32_max in *; rewrite EH in *; lia | exact R3].
  - destruct (raster_single_wrong w h sx sy color flow data bits ltac:(lia) E) as (m & ->). exact I.
Qed.
Lemma column_good w h sx sy color flow data : 0 <= w -> complete_columns w h data -> small_image w h sx sy ->
  okp (image_from_column_single w h (sx, sy) color flow data) (sized (w * Z.max sx 1) (h * Z.max sy 1) flow).
Proof.
  intros W (H & L) S. unfold image_from_column_single. apply okp_bind.
  destruct (column_to_bytes_spec data w h W H L) as (r & -> & _). cbn [okp]. apply raster_good; [exact W | lia | exact S].
Qed.

Lemma merge_one_good a b : vlen b <= vlen a -> okp (merge_one a b) (fun r => vlen r = vlen a).
Proof. intros H. destruct (merge_one_ok a b H) as (r & -> & L & _). exact L. Qed.
Lemma merge_rest_good H f layers : forall base, img_wf base -> i_h base <= H -> i_flow base = f -> i_w base * i_h base <= u32_max -> Forall img_wf layers ->
  okp (merge_rest base layers) (fun m => match m with inl i => i_h i <= H /\ i_flow i = f /\ i_w i * i_h i <= u32_max | inr _ => True end).
Proof.
  induction layers as [|l r IH]; intros base B L F AR A; cbn [merge_rest].
  - cbn [okp]. auto.
  - apply Forall_cons_iff in A. destruct A as (A1 & A2). destruct (_ || _) eqn:E; [exact I|].
    apply orb_false_iff in E. destruct E as (E1 & E2). apply Z.ltb_ge in E1, E2.
    apply okp_bind. destruct B as [B1 B2 B3], A1 as [L1 L2 L3].
    eapply okp_weaken; [apply merge_one_good; rewrite B3, L3; unfold u32v in *; apply Z.mul_le_mono_nonneg; lia|].
    cbn beta. intros px Hp. apply IH; [constructor; cbn; [exact B1 | exact B2 | congruence] | exact L | exact F | exact AR | exact A2].
Qed.
Lemma merge_good H f l : Forall img_wf l -> Forall (fun i => i_h i <= H /\ i_flow i = f /\ i_w i * i_h i <= u32_max) l ->
  okp (merge_image_layers l) (fun m => match m with inl i => i_h i <= H /\ i_flow i = f /\ i_w i * i_h i <= u32_max | inr _ => True end).
Proof.
  intros F A. unfold merge_image_layers. destruct l as [|a [|b l]]; [exact I| |].
  - cbn [okp]. exact (Forall_inv A).
  - apply Forall_cons_iff in F. destruct F as (F1 & F2). destruct (Forall_inv A) as (A1 & A2 & A3). exact (merge_rest_good H f _ a F1 A1 A2 A3 F2).
Qed.
Lemma merged_good H f l : Forall img_wf l -> Forall (fun i => i_h i <= H /\ i_flow i = f /\ i_w i * i_h i <= u32_max) l ->
  okp (merge_image_layers l) (fun m => match merged_gfx m with GImage i => i_h i <= H /\ i_flow i = f /\ i_w i * i_h i <= u32_max | GError _ => True | _ => False end).
Proof. intros F A. eapply okp_weaken; [exact (merge_good H f l F A)|]. intros [i|e]; cbn; auto. Qed.

Lemma raster_layers_good w h rc flow data bpl : 0 <= w <= 65535 -> 0 <= h <= 65535 -> 1 <= bpl ->
  forall n k, 0 <= k -> bpl * (k + Z.of_nat n) <= vlen data ->
  okp (raster_layers k n w h (1, 1) rc flow data true bpl)
    (fun r => match r with inl l => Forall img_wf l /\ Forall (fun i => i_h i <= h /\ i_flow i = flow /\ i_w i * i_h i <= u32_max) l | inr _ => True end).
Proof.
  intros W Hh B. assert (SM : small_image w h 1 1) by (unfold small_image, u32_max; nia).
  induction n as [|n IH]; intros k K L; cbn [raster_layers]; cbv zeta.
  - cbn [okp]. split; constructor.
  - assert (L' : k * bpl + bpl <= vlen data) by nia.
    apply okp_bind. unfold vget. assert (KB : 0 <= k * bpl) by nia. replace (k * bpl <? 0) with false by lia.
    destruct (nth_error data (Z.to_nat (k * bpl))) eqn:En; [|exfalso; apply nth_error_None in En; unfold vlen in *; lia].
    cbn [okp]. apply okp_bind. unfold vslice. 
    replace (_ || _) with false by (symmetry; rewrite !orb_false_iff; nia). cbn [okp].
    apply okp_bind. eapply okp_weaken; [apply (raster_good w h 1 1); [lia | lia | exact SM]|].
    cbn beta. intros g Hg. destruct g as [m|q|b|i]; cbn [sized] in Hg; [exact I | contradiction | contradiction|].
    apply okp_bind. eapply okp_weaken; [apply IH; [lia|nia]|]. cbn beta. intros [l|e]; [|exact (fun _ => I)].
    intros (F1 & F2). cbn [okp]. destruct Hg as (G1 & G2 & G3 & G4 & G5). split; constructor; auto. split; [lia | split; [exact G4 | exact G5]].
Qed.
Lemma raster_multi_good w h n rc data : 0 <= w <= 65535 -> 0 <= h <= 65535 -> 0 <= n ->
  okp (image_from_raster_multi w h (1, 1) n rc FlowBlock data true) low.
Proof.
  intros W H N. unfold image_from_raster_multi. cbv zeta. destruct (negb _) eqn:E; [exact I|].
  apply negb_false_iff, Z.eqb_eq in E. assert (D : 0 <= w / 8) by (apply Z.div_pos; lia).
  apply okp_bind. eapply okp_weaken; [apply raster_layers_good; [exact W | exact H | nia | lia | rewrite Z2Nat.id by lia; lia]|].
  cbn beta. intros [l|e]; [|exact (fun _ => I)]. intros (F1 & F2). apply okp_bind.
  eapply okp_weaken; [apply (merged_good h FlowBlock l F1 F2)|]. cbn beta. intros m Hm. cbn [okp].
  destruct (merged_gfx m); cbn [low] in *; try exact I. split; [lia | tauto].
Qed.

(** ** Strings *)
Lemma list_ind_len (P : list Z -> Prop) : (forall l, (forall l', (length l' < length l)%nat -> P l') -> P l) -> forall l, P l.
Proof.
  intros H l. assert (G : forall n l, (length l <= n)%nat -> P l); [|exact (G (length l) l (le_n _))].
  induction n as [|n IH]; intros l' L; apply H; intros l'' L''; [lia|]. apply IH. lia.
Qed.
Lemma lossy_len l : vlen (from_utf8_lossy l) <= vlen l.
Proof.
  unfold vlen. induction l as [l IH] using list_ind_len. destruct l as [|b r1]; [cbn; lia|]. cbn [from_utf8_lossy].
  assert (T : forall r c, (length r < length (b :: r1))%nat -> Z.of_nat (length (c :: from_utf8_lossy r)) <= Z.of_nat (length (b :: r1))).
  { intros r c L. specialize (IH r L). cbn [length] in *. lia. }
  destruct (b <? 128); [apply T; cbn [length]; lia|].
  destruct (lead2 b). { destruct r1 as [|c r2]; [cbn; lia|]. destruct (is_cont c); apply T; cbn [length]; lia. }
  destruct (lead3 b).
  { destruct r1 as [|c r2]; [cbn; lia|]. destruct (second3 b c); [|apply T; cbn [length]; lia].
    destruct r2 as [|d r3]; [cbn; lia|]. destruct (is_cont d); apply T; cbn [length]; lia. }
  destruct (lead4 b); [|apply T; cbn [length]; lia].
  destruct r1 as [|c r2]; [cbn; lia|]. destruct (second4 b c); [|apply T; cbn [length]; lia].
  destruct r2 as [|d r3]; [cbn; lia|]. destruct (is_cont d); [|apply T; cbn [length]; lia].
  destruct r3 as [|e r4]; [cbn; lia|]. destruct (is_cont e); apply T; cbn [length]; lia.
Qed.
Lemma utf8_len l : forall t, from_utf8 l = Some t -> vlen t <= vlen l.
Proof.
  unfold vlen. induction l as [l IH] using list_ind_len. destruct l as [|b r1]; intros t H; cbn [from_utf8] in H; [injection H as <-; cbn; lia|].
  assert (T : forall r c, (length r < length (b :: r1))%nat -> match from_utf8 r with Some r => Some (c :: r) | None => None end = Some t ->
    Z.of_nat (length t) <= Z.of_nat (length (b :: r1))).
  { intros r c L E. destruct (from_utf8 r) as [t'|] eqn:F; [|discriminate]. injection E as <-. specialize (IH r L _ F). cbn [length] in *. lia. }
  destruct (b <? 128); [refine (T _ _ _ H); cbn [length]; lia|].
  destruct (lead2 b). { destruct r1 as [|c r2]; [discriminate|]. destruct (is_cont c); [|discriminate]. refine (T _ _ _ H); cbn [length]; lia. }
  destruct (lead3 b).
  { destruct r1 as [|c [|d r3]]; try discriminate. destruct (second3 b c && is_cont d); [|discriminate]. refine (T _ _ _ H); cbn [length]; lia. }
  destruct (lead4 b); [|discriminate].
  destruct r1 as [|c [|d [|e r4]]]; try discriminate. destruct (second4 b c && is_cont d && is_cont e); [|discriminate]. refine (T _ _ _ H); cbn [length]; lia.
Qed.
Lemma second3_cont b c : second3 b c = true -> is_cont c = true.
Proof. unfold second3, is_cont. destruct (b =? 224), (b =? 237); lia. Qed.
Lemma second4_cont b c : second4 b c = true -> is_cont c = true.
Proof. unfold second4, is_cont. destruct (b =? 240), (b =? 244); lia. Qed.
(** cutting a valid string where no character is cut gives a valid string *)
Lemma utf8_prefix l : forall n t, from_utf8 l = Some t -> is_cont (get_or 0 l n) = false -> exists t', from_utf8 (firstn n l) = Some t'.
Proof.
  induction l as [l IH] using list_ind_len. intros n t H C. destruct n as [|n]; [exists []; reflexivity|].
  destruct l as [|b r1]; [exists []; reflexivity|]. cbn [from_utf8] in H.
  assert (T : forall r c, (length r < length (b :: r1))%nat -> match from_utf8 r with Some r => Some (c :: r) | None => None end = Some t ->
    exists t0, from_utf8 r = Some t0).
  { intros r c L E. destruct (from_utf8 r) as [t'|] eqn:F; [|discriminate]. eauto. }
  cbn [firstn from_utf8]. destruct (b <? 128).
  { destruct (T r1 b ltac:(cbn [length]; lia) H) as (t0 & E0). destruct (IH r1 ltac:(cbn [length]; lia) n _ E0 C) as (t' & ->). eauto. }
  destruct (lead2 b).
  { destruct r1 as [|c r2]; [discriminate|]. destruct (is_cont c) eqn:Ec; [|discriminate].
    destruct (T r2 (ucp2 b c) ltac:(cbn [length]; lia) H) as (t0 & E0).
    destruct n as [|n]; [unfold get_or in C; cbn [nth] in C; congruence|]. cbn [firstn]. rewrite Ec.
    destruct (IH r2 ltac:(cbn [length]; lia) n _ E0 C) as (t' & ->). eauto. }
  destruct (lead3 b).
  { destruct r1 as [|c [|d r3]]; try discriminate. destruct (second3 b c && is_cont d) eqn:E; [|discriminate].
    destruct (T r3 (ucp3 b c d) ltac:(cbn [length]; lia) H) as (t0 & E0). apply andb_prop in E. destruct E as (E1 & E2).
    destruct n as [|[|n]]; [unfold get_or in C; cbn [nth] in C; rewrite (second3_cont _ _ E1) in C; discriminate | unfold get_or in C; cbn [nth] in C; congruence|].
    cbn [firstn]. rewrite E1, E2. cbn [andb]. destruct (IH r3 ltac:(cbn [length]; lia) n _ E0 C) as (t' & ->). eauto. }
  destruct (lead4 b); [|discriminate].
  destruct r1 as [|c [|d [|e r4]]]; try discriminate. destruct (second4 b c && is_cont d && is_cont e) eqn:E; [|discriminate].
  destruct (T r4 (ucp4 b c d e) ltac:(cbn [length]; lia) H) as (t0 & E0). apply andb_prop in E. destruct E as (E & E3). apply andb_prop in E. destruct E as (E1 & E2).
  destruct n as [|[|[|n]]]; [unfold get_or in C; cbn [nth] in C; rewrite (second4_cont _ _ E1) in C; discriminate |
    unfold get_or in C; cbn [nth] in C; congruence | unfold get_or in C; cbn [nth] in C; congruence|].
  cbn [firstn]. rewrite E1, E2, E3. cbn [andb]. destruct (IH r4 ltac:(cbn [length]; lia) n _ E0 C) as (t' & ->). eauto.
Qed.
Lemma replace2_len a b l : vlen (replace2 a b [] l) <= vlen l.
Proof.
  unfold vlen. induction l as [l IH] using list_ind_len. destruct l as [|x [|y r]]; [cbn; lia | cbn; lia |].
  change (replace2 a b [] (x :: y :: r)) with (if (x =? a) && (y =? b) then [] ++ replace2 a b [] r else x :: replace2 a b [] (y :: r)).
  destruct ((x =? a) && (y =? b)).
  - specialize (IH r ltac:(cbn [length]; lia)). cbn [app length] in *. lia.
  - specialize (IH (y :: r) ltac:(cbn [length]; lia)). change (length (x :: replace2 a b [] (y :: r))) with (S (length (replace2 a b [] (y :: r)))). change (length (x :: y :: r)) with (S (length (y :: r))). lia.
Qed.
Lemma filter_len {A} (f : A -> bool) l : vlen (filter f l) <= vlen l.
Proof. unfold vlen. induction l as [|a l IH]; [cbn; lia|]. cbn [filter]. destruct (f a); cbn [length]; lia. Qed.
Lemma decode_len c data : sinv c -> bytes_ok data = true -> vlen (decode_utf8 (t_decoder (c_text c)) data) <= vlen data.
Proof.
  intros S B. rewrite (tk_decoder _ (si_text _ S)). cbv zeta. unfold decode_utf8. cbn [cp_utf8 cp_table].
  destruct (t_code_table (c_text c) =? 255); [apply lossy_len|].
  pose proof (C26_one_char_per_byte (t_code_table (c_text c)) (t_character_set (c_text c)) data B) as E.
  unfold decode_utf8 in E.
  assert (F : cp_utf8 (get_codepage (t_code_table (c_text c)) (t_character_set (c_text c))) = false) by reflexivity.
  rewrite F in E. unfold vlen. rewrite E. apply (filter_len _ data).
Qed.
