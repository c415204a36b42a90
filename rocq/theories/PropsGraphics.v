(** * PropsGraphics: properties C15-C18 (decoding and merging of bitmap images).

    Statements use [raster_dot], [column_dot], [px], [rect], [ink] and [topmost] of
    SpecGraphics.v; [u32_max] is the largest 32-bit dimension product the decoder can handle. *)
From Verif Require Import Base Vec Float32 GTypes Graphics SpecGraphics GraphicsTheory GraphicsTheory2.
Local Open Scope Z_scope.

Local Arguments at_ : simpl never.
Local Arguments vlen : simpl never.

(** ** C15 *)

(** Every dot of the packed data appears as a block of [sx] x [sy] pixels, opaque ink where the
    bit is set and fully transparent where it is not; padding bits do not matter. *)
Theorem C15_raster_pixels : forall w h sx sy color flow data,
  0 < w -> 0 <= h -> 1 <= sx -> 1 <= sy ->
  vlen data = line_bytes w * h ->
  w * sx <= u32_max -> h * sy <= u32_max -> (w * sx) * (h * sy) <= u32_max ->
  exists img,
    image_from_raster_single w h (sx, sy) color flow data true = Ok (GImage img) /\
    rect img /\ i_w img = w * sx /\ i_h img = h * sy /\ i_x img = 0 /\ i_y img = 0 /\
    i_flow img = flow /\ i_upside_down img = false /\
    forall x y, 0 <= x < w * sx -> 0 <= y < h * sy ->
      c_r (px img x y) = c_r color /\ c_g (px img x y) = c_g color /\
      c_b (px img x y) = c_g color /\
      c_a (px img x y) = (if raster_dot data w (x / sx) (y / sy) then 255 else 0).
Proof.
  intros w h sx sy color flow data Hw Hh Hsx Hsy Hl H1 H2 H3.
  destruct (unpack_bytes_spec w h data Hw Hh Hl) as (L & G).
  pose proof (raster_single_ok w h sx sy color flow data true (unpack_bytes data w h)) as S.
  replace (Z.max sx 1) with sx in S by lia. replace (Z.max sy 1) with sy in S by lia.
  destruct S as (img & E & R & W & H & X & Y & F & U & P); try assumption; try lia; try reflexivity.
  exists img. repeat (split; [assumption|]). intros x y Hx Hy.
  rewrite P by lia.
  assert (Ax : 0 <= x / sx < w) by (split; [apply Z.div_pos; lia|apply Z.div_lt_upper_bound; lia]).
  assert (Ay : 0 <= y / sy < h) by (split; [apply Z.div_pos; lia|apply Z.div_lt_upper_bound; lia]).
  rewrite G by assumption. cbn. auto.
Qed.

(** With a colour whose blue equals its green (black, white, grey, red) the pixel is the ink. *)
Theorem C15_raster_ink : forall w h sx sy color flow data,
  0 < w -> 0 <= h -> 1 <= sx -> 1 <= sy -> c_b color = c_g color ->
  vlen data = line_bytes w * h ->
  w * sx <= u32_max -> h * sy <= u32_max -> (w * sx) * (h * sy) <= u32_max ->
  exists img,
    image_from_raster_single w h (sx, sy) color flow data true = Ok (GImage img) /\
    rect img /\ i_w img = w * sx /\ i_h img = h * sy /\
    forall x y, 0 <= x < w * sx -> 0 <= y < h * sy ->
      px img x y = ink color (raster_dot data w (x / sx) (y / sy)).
Proof.
  intros w h sx sy color flow data Hw Hh Hsx Hsy Hc Hl H1 H2 H3.
  destruct (C15_raster_pixels w h sx sy color flow data Hw Hh Hsx Hsy Hl H1 H2 H3)
    as (img & E & R & W & H & _ & _ & _ & _ & P).
  exists img. repeat (split; [assumption|]). intros x y Hx Hy.
  destruct (P x y Hx Hy) as (Pr & Pg & Pb & Pa). unfold ink. rewrite Hc.
  destruct (px img x y) as [r g b a]. cbn in *. congruence.
Qed.

(** The full claim (the dot is printed in the requested colour) fails as soon as blue and green
    differ: the decoder fills the blue channel from green.  Witness: the default colour 3. *)
Theorem C15_raster_ink_refuted : exists w h color data img,
  vlen data = line_bytes w * h /\
  image_from_raster_single w h (1, 1) color FlowBlock data true = Ok (GImage img) /\
  raster_dot data w 0 0 = true /\ px img 0 0 <> ink color true.
Proof.
  exists 8, 1, (mk_rgba 27 57 169 255), [255]. eexists. split; [reflexivity|].
  split; [reflexivity|]. split; [reflexivity|]. discriminate.
Qed.

(** Data of any other length is reported as an error; it is neither padded nor cut. *)
Theorem C15_wrong_length_is_error : forall w h sx sy color flow data,
  0 <= w -> 0 <= h -> w * h <= u32_max -> vlen data <> line_bytes w * h ->
  exists msg, image_from_raster_single w h (sx, sy) color flow data true = Ok (GError msg).
Proof.
  intros w h sx sy color flow data Hw Hh Hn Hl. apply raster_single_wrong.
  - split; [apply Z.mul_nonneg_nonneg; lia|lia].
  - rewrite (unpack_len_any w h data Hw Hh). exact Hl.
Qed.

Example C15_demo : exists img,
  image_from_raster_single 10 2 (2, 1) (mk_rgba 0 0 0 255) FlowBlock [0xAA; 0x3F; 0x01; 0x80] true = Ok (GImage img) /\
  i_w img = 20 /\ px img 16 0 = ink (mk_rgba 0 0 0 255) false /\ px img 16 1 = ink (mk_rgba 0 0 0 255) true.
Proof. eexists. split; [vm_compute; reflexivity|]. repeat split. Qed.

(** ** C16 *)

Theorem C16_column_pixels : forall w h sx sy color flow data,
  0 <= w -> 0 < h -> 1 <= sx -> 1 <= sy ->
  vlen data = line_bytes h * w ->
  w * sx <= u32_max -> h * sy <= u32_max -> (w * sx) * (h * sy) <= u32_max ->
  exists img,
    image_from_column_single w h (sx, sy) color flow data = Ok (GImage img) /\
    rect img /\ i_w img = w * sx /\ i_h img = h * sy /\ i_flow img = flow /\
    forall x y, 0 <= x < w * sx -> 0 <= y < h * sy ->
      c_r (px img x y) = c_r color /\ c_g (px img x y) = c_g color /\
      c_b (px img x y) = c_g color /\
      c_a (px img x y) = (if column_dot data h (x / sx) (y / sy) then 255 else 0).
Proof.
  intros w h sx sy color flow data Hw Hh Hsx Hsy Hl H1 H2 H3.
  destruct (column_to_bytes_spec data w h Hw Hh Hl) as (r & Er & L & G).
  unfold image_from_column_single. rewrite Er. cbn [bind].
  pose proof (raster_single_ok w h sx sy color flow r false r) as S.
  replace (Z.max sx 1) with sx in S by lia. replace (Z.max sy 1) with sy in S by lia.
  destruct S as (img & E & R & W & H & X & Y & F & U & P); try assumption; try lia; try reflexivity.
  exists img. repeat (split; [assumption|]). intros x y Hx Hy.
  rewrite P by lia.
  assert (Ax : 0 <= x / sx < w) by (split; [apply Z.div_pos; lia|apply Z.div_lt_upper_bound; lia]).
  assert (Ay : 0 <= y / sy < h) by (split; [apply Z.div_pos; lia|apply Z.div_lt_upper_bound; lia]).
  rewrite G by assumption. cbn. auto.
Qed.

(** A column image and the raster image of the transposed dots are the same picture. *)
Theorem C16_column_is_transposed_raster : forall w h sx sy color flow cdata rdata,
  0 < w -> 0 < h -> 1 <= sx -> 1 <= sy ->
  vlen cdata = line_bytes h * w -> vlen rdata = line_bytes w * h ->
  w * sx <= u32_max -> h * sy <= u32_max -> (w * sx) * (h * sy) <= u32_max ->
  (forall x y, 0 <= x < w -> 0 <= y < h -> column_dot cdata h x y = raster_dot rdata w x y) ->
  image_from_column_single w h (sx, sy) color flow cdata =
  image_from_raster_single w h (sx, sy) color flow rdata true.
Proof.
  intros w h sx sy color flow cdata rdata Hw Hh Hsx Hsy Hc Hr H1 H2 H3 Heq.
  destruct (column_to_bytes_spec cdata w h ltac:(lia) Hh Hc) as (r & Er & L & G).
  destruct (unpack_bytes_spec w h rdata Hw ltac:(lia) Hr) as (L' & G').
  unfold image_from_column_single, image_from_raster_single. rewrite Er. cbn [bind].
  replace (unpack_bytes rdata w h) with r; [reflexivity|].
  apply (at_ext 0); [lia|]. intros i Hi. rewrite L in Hi.
  assert (Ei : i = i / w * w + i mod w) by (pose proof (Z.div_mod i w ltac:(lia)); lia).
  assert (Hx : 0 <= i mod w < w) by (apply Z.mod_pos_bound; lia).
  assert (Hy : 0 <= i / w < h) by (split; [apply Z.div_pos; lia|apply Z.div_lt_upper_bound; lia]).
  rewrite Ei. rewrite G, G' by assumption. rewrite Heq by assumption. reflexivity.
Qed.

(** Unlike the raster decoder, truncated column data is not reported: the decoder aborts. *)
Theorem C16_truncated_column_data_panics : forall w h sx sy color flow data,
  0 < w -> 0 < h -> vlen data < line_bytes h * w ->
  exists p, image_from_column_single w h (sx, sy) color flow data = Panic p.
Proof.
  intros w h sx sy color flow data Hw Hh Hl. unfold image_from_column_single.
  pose proof (column_to_bytes_short data w h Hw Hh Hl) as H.
  destruct (column_to_bytes data w h) as [r|p]; [discriminate|]. exists p. reflexivity.
Qed.

(** The multi-colour column decoder never yields an image. *)
Theorem C16_multicolour_column_never_decodes : forall w h stretch n rc flow data img,
  0 <= w -> 0 <= h -> 0 <= n ->
  image_from_column_multi w h stretch n rc flow data <> Ok (GImage img).
Proof.
  intros w h st n rc flow data img Hw Hh Hn. unfold image_from_column_multi.
  assert (Hk : 0 <= w / 8 * h) by (apply Z.mul_nonneg_nonneg; [apply Z.div_pos; lia|lia]).
  set (k := w / 8 * h) in *. clearbody k.
  destruct (negb (vlen data =? (k + 1 + 1) * n)) eqn:El; [discriminate|].
  destruct (Z.eq_dec n 0) as [-> |Hn0].
  - assert (data = []) by (destruct data; [reflexivity|rewrite vlen_cons in El; pose proof (vlen_nonneg data); lia]).
    subst data. cbn. discriminate.
  - replace (Z.to_nat n) with (S (Z.to_nat (n - 1))) by lia. cbn [column_layers].
    assert (Panics : forall c, exists p, column_layers (0 + 1) (S c) w h st rc flow data (k + 1) = Panic p).
    { intros c. cbn [column_layers]. destruct (vget data ((0 + 1) * (k + 1))); cbn [bind]; [|eexists; reflexivity].
      unfold vslice. replace (_ || _ || _) with true by lia. eexists. reflexivity. }
    destruct (Panics (Z.to_nat (n - 1))) as (p & Ep). cbn [column_layers] in Ep. rewrite Ep. clear Ep Panics.
    destruct (vget data (0 * (k + 1))); cbn [bind]; [|discriminate].
    destruct (vslice data (0 * (k + 1)) (k + 1 - 1)); cbn [bind]; [|discriminate].
    destruct (column_to_bytes a0 w h); cbn [bind]; [|discriminate].
    unfold image_from_raster_single.
    destruct (mul_u32 w h); cbn [bind]; [|discriminate].
    match goal with |- context [negb (vlen ?v =? ?n)] => destruct (negb (vlen v =? n)) end; cbn [bind]; [discriminate|].
    destruct (if (1 <? fst st) || (1 <? snd st) then _ else _) as [((w' & h') & raw)|]; cbn [bind]; discriminate.
Qed.

Example C16_demo : exists img,
  image_from_column_single 3 8 (1, 1) (mk_rgba 0 0 0 255) FlowInline [0x80; 0x01; 0xFF] = Ok (GImage img) /\
  px img 0 0 = ink (mk_rgba 0 0 0 255) true /\ px img 1 0 = ink (mk_rgba 0 0 0 255) false /\
  px img 1 7 = ink (mk_rgba 0 0 0 255) true /\ px img 2 3 = ink (mk_rgba 0 0 0 255) true.
Proof. eexists. split; [vm_compute; reflexivity|]. repeat split. Qed.

(** ** C17 *)

Theorem C17_scaling : forall bytes w h sx sy,
  0 <= w -> 0 <= h -> 1 <= sx -> 1 <= sy -> vlen bytes = w * h ->
  w * sx <= u32_max -> h * sy <= u32_max -> (w * sx) * (h * sy) <= u32_max ->
  exists out, scale_pixels bytes w h sx sy = Ok (w * sx, h * sy, out) /\
    vlen out = (w * sx) * (h * sy) /\
    forall x y, 0 <= x < w * sx -> 0 <= y < h * sy ->
      at_ 0 out (y * (w * sx) + x) = at_ 0 bytes (y / sy * w + x / sx).
Proof.
  intros bytes w h sx sy Hw Hh Hsx Hsy Hl H1 H2 H3.
  pose proof (scale_pixels_spec bytes w h sx sy) as S. cbv zeta in S.
  replace (Z.max sx 1) with sx in S by lia. replace (Z.max sy 1) with sy in S by lia.
  apply S; assumption.
Qed.

(** Factor 0 counts as 1 (the code clamps), so scaling by (0,0) or (1,1) is the identity. *)
Theorem C17_scaling_by_one : forall bytes w h sx sy,
  0 <= w -> 0 <= h -> sx <= 1 -> sy <= 1 -> vlen bytes = w * h ->
  w <= u32_max -> h <= u32_max -> w * h <= u32_max ->
  scale_pixels bytes w h sx sy = Ok (w, h, bytes).
Proof.
  intros bytes w h sx sy Hw Hh Hsx Hsy Hl H1 H2 H3.
  destruct (scale_pixels_spec bytes w h sx sy Hw Hh Hl) as (out & E & L & G);
    replace (Z.max sx 1) with 1 in * by lia; replace (Z.max sy 1) with 1 in * by lia;
    rewrite ?Z.mul_1_r in *; try lia.
  rewrite E. f_equal. f_equal. apply (at_ext 0); [lia|]. intros i Hi. rewrite L in Hi.
  assert (Hw0 : 0 < w) by (destruct (Z.eq_dec w 0) as [-> |]; lia).
  assert (Ei : i = i / w * w + i mod w) by (pose proof (Z.div_mod i w ltac:(lia)); lia).
  assert (Hx : 0 <= i mod w < w) by (apply Z.mod_pos_bound; lia).
  assert (Hy : 0 <= i / w < h) by (split; [apply Z.div_pos; lia|apply Z.div_lt_upper_bound; lia]).
  rewrite Ei. rewrite G by assumption. rewrite !Z.div_1_r. reflexivity.
Qed.

(** ** C18 *)

(** A layer image as the decoder makes it: every pixel fully opaque or fully transparent. *)
Definition crisp (i : image) : Prop :=
  Forall (fun q => c_a q = 0 \/ (c_a q = 255 /\ channels_ok q)) (i_pixels i).

Theorem C18_topmost_opaque_layer_wins : forall base rest,
  rect base -> Forall (fun l => rect l /\ i_w l = i_w base /\ i_h l = i_h base /\ crisp l) rest ->
  exists m, merge_image_layers (base :: rest) = Ok (inl m) /\
    rect m /\ i_w m = i_w base /\ i_h m = i_h base /\
    i_x m = i_x base /\ i_y m = i_y base /\ i_flow m = i_flow base /\
    i_upside_down m = i_upside_down base /\
    forall x y, 0 <= x < i_w base -> 0 <= y < i_h base ->
      px m x y = topmost (px base x y) (map (fun l => px l x y) rest).
Proof.
  intros base rest Hr Hf.
  destruct (merge_layers_ok base rest Hr) as (m & E & R & (W & H) & F & P).
  { revert Hf. apply Forall_impl. intros l (A & B & C & _). split; [exact A|]. split; assumption. }
  exists m. split; [exact E|]. split; [exact R|]. split; [exact W|]. split; [exact H|].
  destruct m as [mp mx my mw mh mf mu], base as [bp bx by_ bw bh bf bu]. cbn in F.
  injection F as -> -> _ _ -> ->. cbn [i_x i_y i_flow i_upside_down i_w i_h] in *.
  repeat (split; [reflexivity|]). intros x y Hx Hy. rewrite P by assumption.
  apply topmost_fold. apply Forall_map. rewrite Forall_forall in Hf |- *. intros l Hl.
  destruct (Hf l Hl) as ((_ & _ & Ll) & Wl & Hhl & Cl). unfold crisp in Cl. rewrite Forall_forall in Cl.
  apply Cl. unfold px, at_. apply nth_In.
  assert (A : 0 <= y * i_w l + x < i_w l * i_h l) by (apply rowmajor_range; rewrite ?Wl, ?Hhl; assumption).
  unfold vlen in Ll. lia.
Qed.

(** The same for arbitrary alpha: each layer is blended onto what lies below. *)
Theorem C18_layers_blend_in_order : forall base rest,
  rect base -> Forall (fun l => rect l /\ i_w l = i_w base /\ i_h l = i_h base) rest ->
  exists m, merge_image_layers (base :: rest) = Ok (inl m) /\ rect m /\
    i_w m = i_w base /\ i_h m = i_h base /\
    forall x y, 0 <= x < i_w base -> 0 <= y < i_h base ->
      px m x y = fold_left blend_foreground (map (fun l => px l x y) rest) (px base x y).
Proof.
  intros base rest Hr Hf.
  destruct (merge_layers_ok base rest Hr) as (m & E & R & (W & H) & F & P).
  { revert Hf. apply Forall_impl. intros l (A & B & C). split; [exact A|]. split; assumption. }
  exists m. auto.
Qed.

(** Layers larger than the base are refused. *)
Theorem C18_larger_layer_refused : forall base layer rest,
  i_w base < i_w layer \/ i_h base < i_h layer ->
  exists msg, merge_image_layers (base :: layer :: rest) = Ok (inr msg).
Proof.
  intros base layer rest H. cbn [merge_image_layers merge_rest].
  replace (_ || _) with true by lia. eexists. reflexivity.
Qed.

(** Layers smaller than the base are accepted but painted at the wrong place: the pixels are taken
    in storage order, not by position.  Here a 1x2 layer paints pixel (1,0) of a 2x2 base, which
    lies outside the layer, and leaves (0,1), which lies inside, unpainted. *)
Theorem C18_smaller_layer_misplaced_refuted : exists base layer m,
  rect base /\ rect layer /\ crisp layer /\ i_w layer <= i_w base /\ i_h layer <= i_h base /\
  merge_image_layers [base; layer] = Ok (inl m) /\
  (exists x y, i_w layer <= x < i_w base /\ 0 <= y < i_h base /\ px m x y <> px base x y) /\
  (exists x y, 0 <= x < i_w layer /\ 0 <= y < i_h layer /\ c_a (px layer x y) = 255 /\ px m x y <> px layer x y).
Proof.
  set (w := mk_rgba 255 255 255 255). set (k := mk_rgba 0 0 0 255).
  exists (mk_image [w; w; w; w] 0 0 2 2 FlowBlock false), (mk_image [k; k] 0 0 1 2 FlowBlock false).
  eexists. split; [repeat split; cbn; lia|]. split; [repeat split; cbn; lia|].
  split. { unfold crisp. cbn. repeat (apply Forall_cons; [right; split; [reflexivity|unfold channels_ok; cbn; lia]|]). apply Forall_nil. }
  split; [cbn; lia|]. split; [cbn; lia|]. split; [vm_compute; reflexivity|]. split.
  - exists 1, 0. repeat split; try (cbn; lia). discriminate.
  - exists 0, 1. repeat split; try (cbn; lia). discriminate.
Qed.

(** Multi-colour raster data: one plane per colour, each a colour number and w/8*h bytes.  When the
    width is a whole number of bytes the decoded pixel shows the last plane having that dot. *)
Theorem C18_multicolour_raster : forall w h sx sy rc flow cn0 d0 planes,
  0 < w -> w mod 8 = 0 -> 0 <= h -> 1 <= sx -> 1 <= sy ->
  w * sx <= u32_max -> h * sy <= u32_max -> (w * sx) * (h * sy) <= u32_max ->
  (forall n, channels_ok (color_for_number rc n)) ->
  Forall (fun l => vlen (snd l) = (w / 8) * h) ((cn0, d0) :: planes) ->
  exists img,
    image_from_raster_multi w h (sx, sy) (vlen ((cn0, d0) :: planes)) rc flow
      (flat_map (fun l => fst l :: snd l) ((cn0, d0) :: planes)) true = Ok (GImage img) /\
    rect img /\ i_w img = w * sx /\ i_h img = h * sy /\
    forall x y, 0 <= x < w * sx -> 0 <= y < h * sy ->
      px img x y =
        topmost (with_alpha (color_for_number rc cn0) (if raster_dot d0 w (x / sx) (y / sy) then 255 else 0))
          (map (fun l => with_alpha (color_for_number rc (fst l))
                           (if raster_dot (snd l) w (x / sx) (y / sy) then 255 else 0)) planes).
Proof.
  intros w h sx sy rc flow cn0 d0 planes Hw Hm Hh Hsx Hsy H1 H2 H3 Hch Hf.
  assert (Hk : 0 <= w / 8 * h) by (apply Z.mul_nonneg_nonneg; [apply Z.div_pos; lia|lia]).
  assert (Hlb : line_bytes w = w / 8) by (unfold line_bytes; lia).
  destruct (raster_layers_ok w h sx sy rc flow Hw Hm Hh) with (ls := (cn0, d0) :: planes) (pre := @nil Z)
    as (imgs & E & F2).
  { replace (Z.max sx 1) with sx by lia. lia. }
  { replace (Z.max sy 1) with sy by lia. lia. }
  { replace (Z.max sx 1) with sx by lia. replace (Z.max sy 1) with sy by lia. lia. }
  { exact Hf. }
  { reflexivity. }
  change (vlen [] / (w / 8 * h + 1)) with (0 / (w / 8 * h + 1)) in E. rewrite Z.div_0_l in E by lia.
  cbn [app] in E.
  unfold image_from_raster_multi.
  assert (Hlen : vlen (flat_map (fun l => fst l :: snd l) ((cn0, d0) :: planes)) =
                 (w / 8 * h + 1) * vlen ((cn0, d0) :: planes)).
  { clear E F2 imgs. induction ((cn0, d0) :: planes) as [|l ls IH]; [cbn; unfold vlen; cbn; lia|].
    apply Forall_cons_iff in Hf as [Hd Hf']. cbn [flat_map]. rewrite vlen_app, vlen_cons, Hd, (IH Hf'), vlen_cons. ring. }
  rewrite Hlen, Z.eqb_refl. cbn [negb].
  assert (Hn : Z.to_nat (vlen ((cn0, d0) :: planes)) = length ((cn0, d0) :: planes)) by (unfold vlen; apply Nat2Z.id).
  rewrite Hn. unfold layer_wire in E. rewrite E. cbn [bind].
  inversion F2 as [|? img0 ? imgs' E0 F2' Ea Eb]; subst. cbn [fst snd] in E0.
  assert (Spec : forall l img, vlen (snd l) = w / 8 * h ->
     image_from_raster_single w h (sx, sy) (color_for_number rc (fst l)) flow (snd l) true = Ok (GImage img) ->
     rect img /\ i_w img = w * sx /\ i_h img = h * sy /\
     forall x y, 0 <= x < w * sx -> 0 <= y < h * sy ->
       px img x y = with_alpha (color_for_number rc (fst l)) (if raster_dot (snd l) w (x / sx) (y / sy) then 255 else 0)).
  { intros l img Hl Ei.
    destruct (C15_raster_pixels w h sx sy (color_for_number rc (fst l)) flow (snd l))
      as (img' & E' & R & W & H & _ & _ & _ & _ & P); try assumption; [rewrite Hlb; exact Hl|].
    rewrite E' in Ei. injection Ei as ->. repeat (split; [assumption|]). intros x y Hx Hy.
    destruct (P x y Hx Hy) as (Pr & Pg & Pb & Pa). unfold with_alpha.
    destruct (px img x y) as [r g b a]. cbn in *. congruence. }
  apply Forall_cons_iff in Hf as [Hd0 Hf'].
  destruct (Spec (cn0, d0) img0 Hd0 E0) as (R0 & W0 & H0 & P0).
  assert (Hrest : Forall (fun l => rect l /\ i_w l = i_w img0 /\ i_h l = i_h img0 /\ crisp l) imgs' /\
     forall x y, 0 <= x < w * sx -> 0 <= y < h * sy ->
       map (fun l => px l x y) imgs' =
       map (fun l => with_alpha (color_for_number rc (fst l)) (if raster_dot (snd l) w (x / sx) (y / sy) then 255 else 0)) planes).
  { clear E E0 Hlen Hn F2. induction F2' as [|l img ls imgs Hh2 F2 IH]; [split; [constructor|reflexivity]|].
    apply Forall_cons_iff in Hf' as [Hd Hf'']. destruct (IH Hf'') as (A & B).
    destruct (Spec l img Hd Hh2) as (R1 & W1 & H1' & P1). split.
    - constructor; [|exact A]. split; [exact R1|]. split; [congruence|]. split; [congruence|].
      unfold crisp. rewrite Forall_forall. intros q Hq.
      destruct (In_nth _ _ transparent Hq) as (i & Hi & Eq).
      destruct R1 as (_ & _ & L1). unfold vlen in L1. rewrite W1, H1' in L1.
      set (z := Z.of_nat i). assert (Hz : 0 <= z < (w * sx) * (h * sy)) by lia.
      assert (Hws : 0 < w * sx) by (apply Z.mul_pos_pos; lia).
      destruct (rowmajor_split_range (w * sx) (h * sy) z Hws Hz) as [Hx Hy].
      pose proof (P1 _ _ Hx Hy) as P. unfold px, at_ in P. rewrite W1 in P.
      rewrite rowmajor_split in P by exact Hws.
      unfold z in P. rewrite Nat2Z.id, Eq in P. rewrite P. unfold with_alpha. cbn.
      destruct (Hch (fst l)) as (C1 & C2 & C3).
      destruct (raster_dot _ _ _ _); [right|left; reflexivity]. split; [reflexivity|].
      unfold channels_ok. cbn. auto.
    - intros x y Hx Hy. cbn [map]. rewrite P1 by assumption. rewrite B by assumption. reflexivity. }
  destruct Hrest as (HF & HP).
  destruct (C18_topmost_opaque_layer_wins img0 imgs' R0 HF) as (m & Em & Rm & Wm & Hmm & _ & _ & _ & _ & Pm).
  rewrite Em. cbn [bind merged_gfx]. exists m. split; [reflexivity|]. split; [exact Rm|].
  split; [congruence|]. split; [congruence|]. intros x y Hx Hy.
  rewrite Pm by (rewrite ?W0, ?H0; assumption). rewrite P0 by assumption. rewrite HP by assumption. reflexivity.
Qed.

(** When the width is not a whole number of bytes the full claim fails completely: no input at all
    is decoded to an image (the plane size is computed with a truncating division). *)
Theorem C18_multicolour_raster_odd_width_refuted : forall w h stretch n rc flow data img,
  0 < w -> w mod 8 <> 0 -> 0 < h -> 0 <= n -> w * h <= u32_max ->
  image_from_raster_multi w h stretch n rc flow data true <> Ok (GImage img).
Proof.
  intros w h [sx sy] n rc flow data img Hw Hm Hh Hn Hu. unfold image_from_raster_multi.
  assert (Hk : 0 <= w / 8 * h) by (apply Z.mul_nonneg_nonneg; [apply Z.div_pos; lia|lia]).
  destruct (negb _) eqn:El; [discriminate|].
  destruct (Z.eq_dec n 0) as [-> |Hn0]; [cbn; discriminate|].
  replace (Z.to_nat n) with (S (Z.to_nat (n - 1))) by lia. cbn [raster_layers].
  destruct (vget data _); cbn [bind]; [|discriminate].
  destruct (vslice data _ _) as [d|] eqn:Es; cbn [bind]; [|discriminate].
  destruct (C15_wrong_length_is_error w h sx sy (color_for_number rc a) flow d) as (msg & Emsg).
  - lia.
  - lia.
  - lia.
  - assert (Ld : vlen d = w / 8 * h).
    { set (k := w / 8 * h) in *. clearbody k. unfold vslice in Es.
      destruct (_ || _ || _) eqn:Eb; [discriminate|]. apply (f_equal (fun r => match r with Ok l => vlen l | _ => 0 end)) in Es.
      cbv beta iota in Es. rewrite <- Es.
      rewrite vlen_firstn; [|rewrite vlen_skipn; lia]. lia. }
    rewrite Ld. unfold line_bytes. replace ((w + 7) / 8) with (w / 8 + 1) by lia.
    rewrite Z.mul_add_distr_r. lia.
  - rewrite Emsg. cbn [bind]. discriminate.
Qed.

Example C18_demo : exists img,
  let rc := mk_render_colors (mk_rgba 255 255 255 0) (mk_rgba 0 0 0 255) (mk_rgba 158 22 22 255) (mk_rgba 27 57 169 255) in
  image_from_raster_multi 8 1 (1, 1) 2 rc FlowBlock [49; 0xF0; 50; 0x3C] true = Ok (GImage img) /\
  px img 0 0 = mk_rgba 0 0 0 255 /\ px img 2 0 = mk_rgba 158 22 22 255 /\ c_a (px img 7 0) = 0.
Proof. eexists. split; [vm_compute; reflexivity|]. repeat split. Qed.

Print Assumptions C15_raster_pixels.
Print Assumptions C15_raster_ink.
Print Assumptions C15_raster_ink_refuted.
Print Assumptions C15_wrong_length_is_error.
Print Assumptions C16_column_pixels.
Print Assumptions C16_column_is_transposed_raster.
Print Assumptions C16_truncated_column_data_panics.
Print Assumptions C16_multicolour_column_never_decodes.
Print Assumptions C17_scaling.
Print Assumptions C17_scaling_by_one.
Print Assumptions C18_topmost_opaque_layer_wins.
Print Assumptions C18_layers_blend_in_order.
Print Assumptions C18_larger_layer_refused.
Print Assumptions C18_smaller_layer_misplaced_refuted.
Print Assumptions C18_multicolour_raster.
Print Assumptions C18_multicolour_raster_odd_width_refuted.
