(** * GraphicsTheory2: single-colour images, layer merging, multi-colour images. *)
From Verif Require Import Base Vec Float32 GTypes Graphics SpecGraphics GraphicsTheory.
Local Open Scope Z_scope.
Local Arguments at_ : simpl never.
Local Arguments vlen : simpl never.
Local Arguments Z.mul : simpl never.
Local Arguments Z.max : simpl never.

(** ** Single colour raster *)

Lemma raster_single_ok w h sx sy color flow data (bits : bool) (raw : list Z) :
  0 <= w -> 0 <= h -> raw = (if bits then unpack_bytes data w h else data) ->
  vlen raw = w * h ->
  w * Z.max sx 1 <= u32_max -> h * Z.max sy 1 <= u32_max ->
  (w * Z.max sx 1) * (h * Z.max sy 1) <= u32_max ->
  exists img, image_from_raster_single w h (sx, sy) color flow data bits = Ok (GImage img) /\
    rect img /\ i_w img = w * Z.max sx 1 /\ i_h img = h * Z.max sy 1 /\
    i_x img = 0 /\ i_y img = 0 /\ i_flow img = flow /\ i_upside_down img = false /\
    forall x y, 0 <= x < i_w img -> 0 <= y < i_h img ->
      px img x y = with_alpha color (at_ 0 raw (y / Z.max sy 1 * w + x / Z.max sx 1)).
Proof.
  intros Hw Hh Hraw Hlen H1 H2 H3.
  assert (N1 : 0 <= w * Z.max sx 1) by (apply Z.mul_nonneg_nonneg; lia).
  assert (N2 : 0 <= h * Z.max sy 1) by (apply Z.mul_nonneg_nonneg; lia).
  assert (Hle : w * h <= (w * Z.max sx 1) * (h * Z.max sy 1)).
  { apply Z.mul_le_mono_nonneg; [lia| |lia|].
    - rewrite <- (Z.mul_1_r w) at 1. apply Z.mul_le_mono_nonneg_l; lia.
    - rewrite <- (Z.mul_1_r h) at 1. apply Z.mul_le_mono_nonneg_l; lia. }
  assert (N3 : 0 <= w * h) by (apply Z.mul_nonneg_nonneg; lia).
  unfold image_from_raster_single. cbn [fst snd]. rewrite <- Hraw.
  rewrite mul_u32_ok by lia. cbn [bind]. replace (negb (vlen raw =? w * h)) with false by lia.
  destruct ((1 <? sx) || (1 <? sy)) eqn:Es.
  - destruct (scale_pixels_spec raw w h sx sy Hw Hh Hlen H1 H2 H3) as (out & E & L & G).
    rewrite E. cbn [bind]. eexists. split; [reflexivity|]. unfold rect. cbn.
    rewrite vlen_map. repeat split; try assumption; try lia.
    intros x y Hx Hy. unfold px. cbn.
    rewrite (at_map (with_alpha color) 0) by (rewrite L; apply rowmajor_range; assumption).
    rewrite G by assumption. reflexivity.
  - replace (Z.max sx 1) with 1 in * by lia. replace (Z.max sy 1) with 1 in * by lia.
    rewrite !Z.mul_1_r in *. cbn [bind].
    eexists. split; [reflexivity|]. unfold rect. cbn. rewrite vlen_map.
    repeat split; try assumption; try lia.
    intros x y Hx Hy. unfold px. cbn. rewrite !Z.div_1_r.
    rewrite (at_map (with_alpha color) 0) by (rewrite Hlen; apply rowmajor_range; assumption).
    reflexivity.
Qed.

Lemma raster_single_wrong w h sx sy color flow data (bits : bool) :
  0 <= w * h <= u32_max ->
  vlen (if bits then unpack_bytes data w h else data) <> w * h ->
  exists m, image_from_raster_single w h (sx, sy) color flow data bits = Ok (GError m).
Proof.
  intros Hn Hne. unfold image_from_raster_single. rewrite mul_u32_ok by lia. cbn [bind].
  replace (negb _) with true by lia. eexists. reflexivity.
Qed.

Lemma unpack_zero_len data h : vlen (unpack_bytes data 0 h) = 8 * vlen data.
Proof.
  rewrite unpack_bytes_loop. change (pad_of 0) with 8.
  induction data as [|b data IH]; [reflexivity|]. cbn [unpack_loop].
  change (0 <=? 0 + 8) with true. cbn iota. rewrite vlen_app, IH, vlen_cons, vlen_map. rewrite vlen_zrange by lia. lia.
Qed.

Lemma unpack_len_any w h data : 0 <= w -> 0 <= h ->
  (vlen (unpack_bytes data w h) = w * h <-> vlen data = line_bytes w * h).
Proof.
  intros Hw Hh. destruct (Z.eq_dec w 0) as [-> |Hne].
  - rewrite unpack_zero_len. change (line_bytes 0) with 0. pose proof (vlen_nonneg data). lia.
  - rewrite unpack_bytes_loop. apply unpack_len_iff; lia.
Qed.

(** ** Blending with alpha 0 and 255 *)

Lemma blend_channel_self_255 c : 0 <= c <= 255 -> blend_channel c c 255 = c.
Proof.
  intros H.
  assert (A : forallb (fun c => blend_channel c c 255 =? c) (zrange 256) = true) by (vm_compute; reflexivity).
  rewrite forallb_forall in A. apply Z.eqb_eq. apply A. apply in_zrange. lia.
Qed.

Definition channels_ok (c : rgba) : Prop :=
  0 <= c_r c <= 255 /\ 0 <= c_g c <= 255 /\ 0 <= c_b c <= 255.

Lemma blend_transparent p q : c_a q = 0 -> blend_foreground p q = p.
Proof. intros H. unfold blend_foreground, blend_with_alpha. rewrite H. reflexivity. Qed.

Lemma blend_opaque p q : c_a q = 255 -> channels_ok q -> blend_foreground p q = q.
Proof.
  intros H (Hr & Hg & Hb). unfold blend_foreground, blend_with_alpha. rewrite H.
  change (255 =? 255) with true. change (255 =? 0) with false. cbn iota. cbn [c_r c_g c_b c_a].
  rewrite !blend_channel_self_255 by assumption. destruct q; cbn in *; subst; reflexivity.
Qed.

(** ** Merging one layer *)

Lemma merge_one_ok base layer : vlen layer <= vlen base ->
  exists r, merge_one base layer = Ok r /\ vlen r = vlen base /\
    (forall i, 0 <= i < vlen layer ->
       at_ transparent r i = blend_foreground (at_ transparent base i) (at_ transparent layer i)) /\
    (forall i, vlen layer <= i < vlen base -> at_ transparent r i = at_ transparent base i).
Proof.
  intros H. unfold merge_one.
  apply (for_range_rule (fun k acc => vlen acc = vlen base /\
    (forall i, 0 <= i < k -> at_ transparent acc i = blend_foreground (at_ transparent base i) (at_ transparent layer i)) /\
    (forall i, k <= i < vlen base -> at_ transparent acc i = at_ transparent base i))).
  - apply vlen_nonneg.
  - split; [reflexivity|]. split; intros; [lia|reflexivity].
  - intros i acc Hi (L & G1 & G2).
    rewrite (vget_ok transparent) by lia. cbn [bind].
    rewrite (vget_ok transparent) by lia. cbn [bind].
    destruct (vset_ok acc i (blend_foreground (at_ transparent acc i) (at_ transparent layer i))) as (r & E & L' & He); [lia|].
    exists r. split; [exact E|]. split; [lia|]. split.
    + intros j Hj. destruct (Z.eq_dec j i) as [-> |Hn].
      * rewrite He by lia. rewrite Z.eqb_refl. rewrite G2 by lia. reflexivity.
      * rewrite He by lia. replace (j =? i) with false by lia. apply G1. lia.
    + intros j Hj. rewrite He by lia. replace (j =? i) with false by lia. apply G2. lia.
Qed.

Definition same_size (a b : image) : Prop := i_w a = i_w b /\ i_h a = i_h b.

Lemma merge_rest_ok layers : forall base, rect base ->
  Forall (fun l => rect l /\ same_size l base) layers ->
  exists m, merge_rest base layers = Ok (inl m) /\ rect m /\ same_size m base /\
    set_i_pixels [] m = set_i_pixels [] base /\
    forall x y, 0 <= x < i_w base -> 0 <= y < i_h base ->
      px m x y = fold_left blend_foreground (map (fun l => px l x y) layers) (px base x y).
Proof.
  induction layers as [|l r IH]; intros base Hr Hf.
  - exists base. cbn. repeat split; try apply Hr.
  - inversion Hf as [|? ? ((Rw & Rh & Rl) & Sw & Sh) Hf']; subst.
    cbn [merge_rest]. replace (_ || _) with false by lia.
    assert (Hlb : vlen (i_pixels l) = vlen (i_pixels base)).
    { destruct Hr as (_ & _ & Hrl). rewrite Rl, Hrl, Sw, Sh. reflexivity. }
    destruct (merge_one_ok (i_pixels base) (i_pixels l)) as (p & E & L & G & _); [lia|].
    rewrite E. cbn [bind].
    destruct (IH (set_i_pixels p base)) as (m & E' & R' & S' & F' & G').
    { destruct Hr as (A & B & C). split; [exact A|]. split; [exact B|]. cbn. lia. }
    { revert Hf'. apply Forall_impl. intros a (Ra & Sa). split; [exact Ra|]. exact Sa. }
    exists m. split; [exact E'|]. split; [exact R'|]. split; [exact S'|]. split.
    { rewrite F'. destruct base; reflexivity. }
    intros x y Hx Hy. rewrite G' by assumption. cbn [map fold_left]. f_equal.
    unfold px. change (i_w (set_i_pixels p base)) with (i_w base).
    change (i_pixels (set_i_pixels p base)) with p. rewrite Sw.
    apply G. rewrite Hlb. destruct Hr as (_ & _ & Hrl). rewrite Hrl. apply rowmajor_range; assumption.
Qed.

Lemma merge_layers_ok base rest : rect base ->
  Forall (fun l => rect l /\ same_size l base) rest ->
  exists m, merge_image_layers (base :: rest) = Ok (inl m) /\ rect m /\ same_size m base /\
    set_i_pixels [] m = set_i_pixels [] base /\
    forall x y, 0 <= x < i_w base -> 0 <= y < i_h base ->
      px m x y = fold_left blend_foreground (map (fun l => px l x y) rest) (px base x y).
Proof.
  intros Hr Hf. destruct rest as [|l r].
  - exists base. cbn. repeat split; try apply Hr.
  - apply (merge_rest_ok (l :: r) base Hr Hf).
Qed.

(** The last opaque element of [above], or [under]. *)
Lemma topmost_fold above : forall under,
  Forall (fun q => c_a q = 0 \/ (c_a q = 255 /\ channels_ok q)) above ->
  fold_left blend_foreground above under = topmost under above.
Proof.
  intros under H. unfold topmost. revert under. induction above as [|q r IH]; intros under; [reflexivity|].
  inversion H as [|? ? Hq Hr]; subst. cbn [fold_left rev]. rewrite (IH Hr).
  clear IH. generalize (rev r) as l. intros l. induction l as [|z l IHl].
  - cbn. destruct Hq as [Hq|(Hq & Hc)].
    + rewrite blend_transparent by exact Hq. rewrite Hq. reflexivity.
    + rewrite blend_opaque by assumption. rewrite Hq. reflexivity.
  - cbn. destruct (c_a z =? 255); [reflexivity|]. exact IHl.
Qed.

(** ** Multi-colour raster *)

Definition layer_wire (l : Z * list Z) : list Z := fst l :: snd l.

Lemma raster_layers_ok w h sx sy rc flow : 0 < w -> w mod 8 = 0 -> 0 <= h ->
  w * Z.max sx 1 <= u32_max -> h * Z.max sy 1 <= u32_max ->
  (w * Z.max sx 1) * (h * Z.max sy 1) <= u32_max ->
  forall ls pre, Forall (fun l => vlen (snd l) = (w / 8) * h) ls ->
  vlen pre mod ((w / 8) * h + 1) = 0 ->
  exists imgs,
    raster_layers (vlen pre / ((w / 8) * h + 1)) (length ls) w h (sx, sy) rc flow
      (pre ++ flat_map layer_wire ls) true ((w / 8) * h + 1) = Ok (inl imgs) /\
    Forall2 (fun l img => image_from_raster_single w h (sx, sy) (color_for_number rc (fst l)) flow (snd l) true = Ok (GImage img)) ls imgs.
Proof.
  intros Hw Hm Hh H1 H2 H3. remember ((w / 8) * h) as k eqn:Ek.
  assert (Hk : 0 <= k) by (rewrite Ek; apply Z.mul_nonneg_nonneg; lia).
  induction ls as [|[cn d] ls IH]; intros pre Hf Hp.
  - exists []. split; [reflexivity|constructor].
  - apply Forall_cons_iff in Hf as [Hd Hf']. cbn [snd] in Hd. cbn [length raster_layers].
    set (q := vlen pre / (k + 1)) in *.
    pose proof (vlen_nonneg pre) as Hpn.
    assert (Hq : q * (k + 1) = vlen pre).
    { unfold q. pose proof (Z.div_mod (vlen pre) (k + 1) ltac:(lia)). lia. }
    assert (Hq0 : 0 <= q) by (unfold q; apply Z.div_pos; lia).
    change (flat_map layer_wire ((cn, d) :: ls)) with ((cn :: d) ++ flat_map layer_wire ls).
    rewrite Hq.
    pose proof (vlen_nonneg (flat_map layer_wire ls)) as Hrn.
    assert (Ltot : vlen (pre ++ (cn :: d) ++ flat_map layer_wire ls) = vlen pre + 1 + k + vlen (flat_map layer_wire ls)).
    { rewrite !vlen_app, vlen_cons. lia. }
    rewrite (vget_ok 0) by (rewrite Ltot; lia). cbn [bind].
    assert (Ecn : at_ 0 (pre ++ (cn :: d) ++ flat_map layer_wire ls) (vlen pre) = cn).
    { rewrite at_app_r by lia. rewrite Z.sub_diag. reflexivity. }
    rewrite Ecn. rewrite vslice_ok by (rewrite ?Ltot; lia). cbn [bind].
    assert (Esl : firstn (Z.to_nat (vlen pre + (k + 1) - 1 + 1 - (vlen pre + 1)))
                    (skipn (Z.to_nat (vlen pre + 1)) (pre ++ (cn :: d) ++ flat_map layer_wire ls)) = d).
    { replace (Z.to_nat (vlen pre + 1)) with (length pre + 1)%nat by (unfold vlen; lia).
      rewrite skipn_app. rewrite (skipn_all2 pre) by lia.
      replace (length pre + 1 - length pre)%nat with 1%nat by lia. cbn [app skipn].
      replace (Z.to_nat (vlen pre + (k + 1) - 1 + 1 - (vlen pre + 1))) with (length d) by (unfold vlen in *; lia).
      rewrite firstn_app, Nat.sub_diag, firstn_all. apply app_nil_r. }
    rewrite Esl.
    destruct (raster_single_ok w h sx sy (color_for_number rc cn) flow d true (unpack_bytes d w h))
      as (img & E & _); try assumption; try reflexivity; try lia.
    { apply unpack_len_any; try lia. unfold line_bytes. rewrite Hd.
      replace ((w + 7) / 8) with (w / 8) by lia. exact Ek. }
    rewrite E. cbn [bind].
    destruct (IH (pre ++ cn :: d)) as (imgs & E' & F').
    { exact Hf'. }
    { rewrite vlen_app, vlen_cons, Hd, <- Hq. replace (q * (k + 1) + (1 + k)) with ((q + 1) * (k + 1)) by ring.
      apply Z.mod_mul. lia. }
    assert (Eq : vlen (pre ++ cn :: d) / (k + 1) = q + 1).
    { rewrite vlen_app, vlen_cons, Hd, <- Hq. replace (q * (k + 1) + (1 + k)) with ((q + 1) * (k + 1)) by ring.
      apply Z.div_mul. lia. }
    rewrite Eq in E'. rewrite <- app_assoc in E'. rewrite E'. cbn [bind].
    exists (img :: imgs). split; [reflexivity|]. constructor; [exact E|exact F'].
Qed.
