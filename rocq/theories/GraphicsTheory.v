(** * GraphicsTheory: lemmas about the image decoders. *)
From Verif Require Import Base Vec Float32 GTypes Graphics SpecGraphics.
Local Open Scope Z_scope.

(** ** Bits *)

Lemma bit_px_spec byte n : 0 <= n < 8 -> bit_px byte n = if Z.testbit byte (7 - n) then 255 else 0.
Proof.
  intros Hn. unfold bit_px. rewrite Z.shiftl_1_l.
  destruct (Z.testbit byte (7 - n)) eqn:E.
  - replace (Z.land byte (2 ^ (7 - n)) =? 0) with false; [reflexivity|].
    symmetry. apply Z.eqb_neq. intros H.
    assert (H' : Z.testbit (Z.land byte (2 ^ (7 - n))) (7 - n) = false) by (rewrite H; apply Z.bits_0).
    rewrite Z.land_spec, E, Z.pow2_bits_true in H' by lia. discriminate.
  - replace (Z.land byte (2 ^ (7 - n)) =? 0) with true; [reflexivity|].
    symmetry. apply Z.eqb_eq. apply Z.bits_inj'. intros k Hk.
    rewrite Z.land_spec, Z.bits_0. destruct (Z.eq_dec k (7 - n)) as [-> |Hne].
    + rewrite E. reflexivity.
    + rewrite Z.pow2_bits_false by lia. apply andb_false_r.
Qed.

(** ** unpack_bytes *)

Definition row_px (row : list Z) (x : Z) : Z := bit_px (at_ 0 row (x / 8)) (x mod 8).

Lemma zrange_split a b : 0 <= a -> 0 <= b -> zrange (a + b) = zrange a ++ map (Z.add a) (zrange b).
Proof.
  intros Ha Hb. unfold zrange. rewrite Z2Nat.inj_add, seq_app, map_app by lia. f_equal.
  rewrite map_map. cbn [plus].
  rewrite <- (Nat.add_0_r (Z.to_nat a)) at 1.
  generalize (Z.to_nat b) as n, 0%nat as s. intros n. induction n as [|n IH]; intros s; [reflexivity|].
  cbn [seq map]. f_equal; [lia|]. rewrite <- IH. f_equal. f_equal. lia.
Qed.

Definition pad_of (w : Z) : Z := if w mod 8 =? 0 then 8 else w mod 8.

Lemma unpack_row w rest : 0 < w ->
  forall row col, row <> [] -> 0 <= col -> col mod 8 = 0 -> vlen row = line_bytes w - col / 8 ->
  unpack_loop w (pad_of w) col (row ++ rest) =
  map (row_px row) (zrange (w - col)) ++ unpack_loop w (pad_of w) 0 rest.
Proof.
  intros Hw. induction row as [|b row IH]; intros col Hne Hc Hm Hl; [congruence|].
  unfold line_bytes in Hl. rewrite vlen_cons in Hl. cbn [app unpack_loop].
  pose proof (vlen_nonneg row) as Hp.
  destruct (w <=? col + 8) eqn:E.
  - assert (Hrow : row = []) by (destruct row; [reflexivity|rewrite vlen_cons in Hl; pose proof (vlen_nonneg row); exfalso; lia]).
    subst row. assert (Hpad : pad_of w = w - col) by (unfold pad_of; destruct (w mod 8 =? 0) eqn:Em; unfold vlen in Hl; cbn in Hl; lia).
    cbn [app]. f_equal. rewrite Hpad. apply map_ext_in. intros x Hx. apply in_zrange in Hx.
    unfold row_px, at_. replace (x / 8) with 0 by lia. replace (x mod 8) with x by lia. reflexivity.
  - destruct row as [|b' row].
    { unfold vlen in Hl. cbn in Hl. exfalso. lia. }
    rewrite IH; [|discriminate|lia|lia|unfold line_bytes; lia].
    rewrite app_assoc. f_equal.
    replace (w - col) with (8 + (w - (col + 8))) by lia. rewrite zrange_split, map_app by lia.
    apply f_equal2; [reflexivity|]. rewrite map_map. apply map_ext_in. intros x Hx. apply in_zrange in Hx.
    unfold row_px, at_. replace ((8 + x) / 8) with (1 + x / 8) by lia.
    replace ((8 + x) mod 8) with (x mod 8) by lia.
    replace (Z.to_nat (1 + x / 8)) with (S (Z.to_nat (x / 8))) by lia. reflexivity.
Qed.

Lemma line_bytes_pos w : 0 < w -> 0 < line_bytes w.
Proof. unfold line_bytes. lia. Qed.

Lemma at_firstn {A} (d : A) l n i : 0 <= i < n -> at_ d (firstn (Z.to_nat n) l) i = at_ d l i.
Proof.
  intros H. unfold at_. assert (Hn : (Z.to_nat i < Z.to_nat n)%nat) by lia.
  revert Hn. generalize (Z.to_nat i) as k, (Z.to_nat n) as m. induction l as [|x l IH]; intros k m Hk.
  - rewrite firstn_nil. reflexivity.
  - destruct m as [|m]; [lia|]. destruct k as [|k]; [reflexivity|]. cbn. apply IH. lia.
Qed.
Lemma at_skipn {A} (d : A) l n i : 0 <= n -> 0 <= i -> at_ d (skipn (Z.to_nat n) l) i = at_ d l (n + i).
Proof.
  intros H Hi. unfold at_. rewrite Z2Nat.inj_add by lia.
  generalize (Z.to_nat n) as m. intros m. revert l. induction m as [|m IH]; intros l; [reflexivity|].
  destruct l as [|x l]; [destruct (Z.to_nat i); reflexivity|]. cbn. apply IH.
Qed.
Lemma vlen_firstn {A} (l : list A) n : 0 <= n <= vlen l -> vlen (firstn (Z.to_nat n) l) = n.
Proof. unfold vlen. intros. rewrite firstn_length. lia. Qed.
Lemma vlen_skipn {A} (l : list A) n : 0 <= n <= vlen l -> vlen (skipn (Z.to_nat n) l) = vlen l - n.
Proof. unfold vlen. intros. rewrite skipn_length. lia. Qed.

Lemma unpack_rows w : 0 < w -> forall h data, 0 <= h -> vlen data = line_bytes w * h ->
  let u := unpack_loop w (pad_of w) 0 data in
  vlen u = w * h /\
  forall x y, 0 <= x < w -> 0 <= y < h ->
    at_ 0 u (y * w + x) = bit_px (at_ 0 data (y * line_bytes w + x / 8)) (x mod 8).
Proof.
  intros Hw h data Hh. rewrite <- (Z2Nat.id h Hh). clear Hh. revert data.
  pose proof (line_bytes_pos w Hw) as Hlb.
  induction (Z.to_nat h) as [|n IH]; intros data Hd.
  - assert (data = []) by (destruct data; [reflexivity|rewrite vlen_cons in Hd; pose proof (vlen_nonneg data); exfalso; nia]).
    subst. cbn. split; [unfold vlen; cbn; lia|intros; lia].
  - set (lb := line_bytes w) in *.
    assert (Hge : lb <= vlen data) by nia.
    set (row := firstn (Z.to_nat lb) data). set (rest := skipn (Z.to_nat lb) data).
    assert (Hrow : vlen row = lb) by (apply vlen_firstn; lia).
    assert (Hrest : vlen rest = lb * Z.of_nat n) by (unfold rest; rewrite vlen_skipn by lia; nia).
    assert (Hsplit : data = row ++ rest) by (symmetry; apply firstn_skipn).
    assert (Hu : unpack_loop w (pad_of w) 0 data =
                 map (row_px row) (zrange w) ++ unpack_loop w (pad_of w) 0 rest).
    { rewrite Hsplit at 1. rewrite (unpack_row w rest Hw row 0); [|destruct row; [unfold vlen in Hrow; cbn in Hrow; lia|discriminate]|lia|reflexivity|fold lb; change (0 / 8) with 0; lia].
      rewrite Z.sub_0_r. reflexivity. }
    cbv zeta. rewrite Hu. destruct (IH rest Hrest) as (L & G). split.
    + rewrite vlen_app, vlen_map, vlen_zrange by lia. rewrite L. nia.
    + intros x y Hx Hy. destruct (Z.eq_dec y 0) as [-> |Hy0].
      * rewrite at_app_l by (rewrite vlen_map, vlen_zrange by lia; lia).
        rewrite (at_map (row_px row) 0) by (rewrite vlen_zrange by lia; lia).
        unfold at_ at 1. rewrite nth_zrange by lia. unfold row_px.
        replace (0 * w + x) with x by lia. replace (0 * lb + x / 8) with (x / 8) by lia.
        unfold row. rewrite at_firstn; [reflexivity|]. unfold lb, line_bytes. lia.
      * rewrite at_app_r by (rewrite vlen_map, vlen_zrange by lia; nia).
        rewrite vlen_map, vlen_zrange by lia.
        replace (y * w + x - w) with ((y - 1) * w + x) by lia.
        rewrite G by lia. f_equal. unfold rest. rewrite at_skipn by nia. f_equal. nia.
Qed.

(** The unpacked length tells the data length: other data lengths are always detected. *)
Lemma unpack_len_mono w : 0 < w -> forall data col, 0 <= col -> vlen data <= vlen (unpack_loop w (pad_of w) col data).
Proof.
  intros Hw. induction data as [|b data IH]; intros col Hc; [unfold vlen; cbn; lia|].
  cbn [unpack_loop]. rewrite vlen_cons.
  assert (Hp : 1 <= pad_of w) by (unfold pad_of; destruct (w mod 8 =? 0) eqn:E; lia).
  destruct (w <=? col + 8); rewrite vlen_app, vlen_map.
  - rewrite vlen_zrange by lia. specialize (IH 0 ltac:(lia)). lia.
  - specialize (IH (col + 8) ltac:(lia)). unfold vlen in *. cbn [length]. lia.
Qed.

Lemma unpack_app w : 0 < w -> forall a b col, 0 <= col -> exists col', 0 <= col' /\
  unpack_loop w (pad_of w) col (a ++ b) = unpack_loop w (pad_of w) col a ++ unpack_loop w (pad_of w) col' b.
Proof.
  intros Hw. induction a as [|x a IH]; intros b col Hc; [exists col; auto|]. cbn [app unpack_loop].
  destruct (w <=? col + 8).
  - destruct (IH b 0 ltac:(lia)) as (c' & H & E). exists c'. split; [exact H|]. rewrite E, app_assoc. reflexivity.
  - destruct (IH b (col + 8) ltac:(lia)) as (c' & H & E). exists c'. split; [exact H|]. rewrite E, app_assoc. reflexivity.
Qed.

Lemma unpack_len_lt w a b : 0 < w -> b <> [] ->
  vlen (unpack_loop w (pad_of w) 0 a) < vlen (unpack_loop w (pad_of w) 0 (a ++ b)).
Proof.
  intros Hw Hb. destruct (unpack_app w Hw a b 0 ltac:(lia)) as (c & Hc & ->). rewrite vlen_app.
  pose proof (unpack_len_mono w Hw b c Hc). destruct b; [congruence|]. rewrite vlen_cons in H.
  pose proof (vlen_nonneg b). lia.
Qed.

Lemma unpack_len_iff w h data : 0 < w -> 0 <= h ->
  (vlen (unpack_loop w (pad_of w) 0 data) = w * h <-> vlen data = line_bytes w * h).
Proof.
  intros Hw Hh. split; [|intros H; apply (unpack_rows w Hw h data Hh H)].
  intros H. pose proof (line_bytes_pos w Hw) as Hlb. set (n := line_bytes w * h) in *.
  assert (Hn : 0 <= n) by (unfold n; nia).
  destruct (Z.lt_trichotomy (vlen data) n) as [Hlt|[He|Hgt]]; [|exact He|]; exfalso.
  - (* pad with zeros up to n *)
    set (ext := repeat 0 (Z.to_nat (n - vlen data))).
    assert (L : vlen (data ++ ext) = n) by (rewrite vlen_app; unfold ext; rewrite vlen_repeat; lia).
    destruct (unpack_rows w Hw h (data ++ ext) Hh L) as (L2 & _).
    assert (Hx : ext <> []) by (unfold ext; destruct (Z.to_nat (n - vlen data)) eqn:E; [lia|discriminate]).
    pose proof (unpack_len_lt w data ext Hw Hx). lia.
  - rewrite <- (firstn_skipn (Z.to_nat n) data) in H.
    destruct (unpack_rows w Hw h (firstn (Z.to_nat n) data) Hh) as (L2 & _); [apply vlen_firstn; lia|].
    assert (Hx : skipn (Z.to_nat n) data <> []).
    { intros E. pose proof (vlen_skipn data n ltac:(lia)) as E2. rewrite E in E2. unfold vlen in E2 at 1. cbn in E2. lia. }
    pose proof (unpack_len_lt w (firstn (Z.to_nat n) data) _ Hw Hx). lia.
Qed.

(** ** The decoder of single-colour raster data *)

Lemma unpack_bytes_loop data w h : unpack_bytes data w h = unpack_loop w (pad_of w) 0 data.
Proof. reflexivity. Qed.

Lemma unpack_bytes_spec w h data : 0 < w -> 0 <= h -> vlen data = line_bytes w * h ->
  vlen (unpack_bytes data w h) = w * h /\
  forall x y, 0 <= x < w -> 0 <= y < h ->
    at_ 0 (unpack_bytes data w h) (y * w + x) = if raster_dot data w x y then 255 else 0.
Proof.
  intros Hw Hh Hd. rewrite unpack_bytes_loop. destruct (unpack_rows w Hw h data Hh Hd) as (L & G).
  split; [exact L|]. intros x y Hx Hy. rewrite G by assumption. rewrite bit_px_spec by lia. reflexivity.
Qed.

Lemma chk_ok lo hi x : lo <= x <= hi -> chk lo hi x = Ok x.
Proof. intros H. unfold chk. replace ((lo <=? x) && (x <=? hi)) with true by lia. reflexivity. Qed.
Lemma mul_u32_ok a b : 0 <= a * b <= u32_max -> mul_u32 a b = Ok (a * b).
Proof. apply chk_ok. Qed.
Lemma add_u32_ok a b : 0 <= a + b <= u32_max -> add_u32 a b = Ok (a + b).
Proof. apply chk_ok. Qed.

(** ** Scaling *)

Lemma scale_pixels_spec bytes ow oh sx0 sy0 :
  let sx := Z.max sx0 1 in let sy := Z.max sy0 1 in
  0 <= ow -> 0 <= oh -> vlen bytes = ow * oh ->
  ow * sx <= u32_max -> oh * sy <= u32_max -> (ow * sx) * (oh * sy) <= u32_max ->
  exists out, scale_pixels bytes ow oh sx0 sy0 = Ok (ow * sx, oh * sy, out) /\
    vlen out = (ow * sx) * (oh * sy) /\
    forall x y, 0 <= x < ow * sx -> 0 <= y < oh * sy ->
      at_ 0 out (y * (ow * sx) + x) = at_ 0 bytes (y / sy * ow + x / sx).
Proof.
  intros sx sy Hw Hh Hb H1 H2 H3. assert (Hsx : 1 <= sx) by lia. assert (Hsy : 1 <= sy) by lia.
  assert (N1 : 0 <= ow * sx) by (apply Z.mul_nonneg_nonneg; lia).
  assert (N2 : 0 <= oh * sy) by (apply Z.mul_nonneg_nonneg; lia).
  assert (N3 : 0 <= (ow * sx) * (oh * sy)) by (apply Z.mul_nonneg_nonneg; lia).
  unfold scale_pixels. fold sx sy. rewrite mul_u32_ok by lia. cbn [bind].
  rewrite mul_u32_ok by lia. cbn [bind]. rewrite mul_u32_ok by lia. cbn [bind].
  clearbody sx sy.
  set (nw := ow * sx) in *. set (nh := oh * sy) in *. set (n := nw * nh) in *.
  assert (Hn : 0 <= n) by exact N3.
  set (g := fun k => at_ 0 bytes ((k / nw) / sy * ow + (k mod nw) / sx)).
  set (J := fun x y dx dy => (y * sy + dy) * nw + (x * sx + dx)).
  assert (HJ : forall x y dx dy, 0 <= x < ow -> 0 <= y < oh -> 0 <= dx < sx -> 0 <= dy < sy ->
            0 <= x * sx + dx < nw /\ 0 <= y * sy + dy < nh /\ 0 <= J x y dx dy < n /\
            g (J x y dx dy) = at_ 0 bytes (y * ow + x)).
  { intros x y dx dy Hx Hy Hdx Hdy. assert (A : 0 <= x * sx + dx < nw) by (unfold nw; rewrite (Z.mul_comm ow); clear - Hx Hdx Hw Hsx; nia).
    assert (B : 0 <= y * sy + dy < nh) by (unfold nh; clear - Hy Hdy Hh Hsy; nia).
    split; [exact A|]. split; [exact B|]. split; [unfold J, n; apply rowmajor_range; assumption|].
    unfold g, J. rewrite rowmajor_div, rowmajor_mod by exact A. rewrite !rowmajor_div by assumption.
    reflexivity. }
  assert (C : covers 0 g n (fun k => exists y, 0 <= y < oh /\ exists x, 0 <= x < ow /\
                exists dy, 0 <= dy < sy /\ exists dx, 0 <= dx < sx /\ k = J x y dx dy)
     (for_range oh (fun y acc =>
        for_range ow (fun x acc =>
          do r <- mul_u32 y ow;
          do i <- add_u32 r x;
          do pixel <- vget bytes i;
          for_range sy (fun dy acc =>
            for_range sx (fun dx acc =>
              do ax <- mul_u32 x sx; do nx <- add_u32 ax dx;
              do ay <- mul_u32 y sy; do ny <- add_u32 ay dy;
              do rr <- mul_u32 ny nw; do j <- add_u32 rr nx;
              vset acc j pixel) acc) acc) acc))).
  { apply covers_for; [exact Hh|]. intros y Hy. apply covers_for; [exact Hw|]. intros x Hx.
    pose proof (HJ x y 0 0 Hx Hy ltac:(lia) ltac:(lia)) as (A & B & _ & _).
    assert (Hyx : 0 <= y * ow + x < ow * oh) by (apply rowmajor_range; assumption).
    assert (Hle : ow * oh <= n).
    { unfold n. apply Z.mul_le_mono_nonneg; [lia| |lia|]; unfold nw, nh.
      - rewrite <- (Z.mul_1_r ow) at 1. apply Z.mul_le_mono_nonneg_l; lia.
      - rewrite <- (Z.mul_1_r oh) at 1. apply Z.mul_le_mono_nonneg_l; lia. }
    assert (P1 : 0 <= y * ow) by (apply Z.mul_nonneg_nonneg; lia).
    assert (P2 : 0 <= x * sx) by (apply Z.mul_nonneg_nonneg; lia).
    assert (P3 : 0 <= y * sy) by (apply Z.mul_nonneg_nonneg; lia).
    eapply covers_ext.
    { intros acc Hacc. rewrite mul_u32_ok by lia. cbn [bind]. rewrite add_u32_ok by lia. cbn [bind].
      rewrite (vget_ok 0) by lia. cbn [bind]. reflexivity. }
    apply covers_for; [lia|]. intros dy Hdy. apply covers_for; [lia|]. intros dx Hdx.
    destruct (HJ x y dx dy Hx Hy Hdx Hdy) as (A' & B' & C' & D').
    eapply covers_ext.
    { intros acc Hacc. rewrite mul_u32_ok by lia. cbn [bind]. rewrite add_u32_ok by lia. cbn [bind].
      rewrite mul_u32_ok by lia. cbn [bind]. rewrite add_u32_ok by lia. cbn [bind].
      assert (Hnn : 0 <= (y * sy + dy) * nw) by (apply Z.mul_nonneg_nonneg; lia).
      unfold J in C'. rewrite mul_u32_ok by lia. cbn [bind]. rewrite add_u32_ok by lia. cbn [bind].
      reflexivity. }
    apply covers_vset; [exact C'|]. symmetry. exact D'. }
  destruct (C (repeat 0 (Z.to_nat n))) as (out & E & L & _ & G & _); [rewrite vlen_repeat; lia|].
  rewrite E. cbn [bind]. exists out. split; [reflexivity|]. split; [exact L|].
  intros x y Hx Hy. rewrite G.
  - unfold g. rewrite rowmajor_div, rowmajor_mod by exact Hx. reflexivity.
  - apply rowmajor_range; assumption.
  - exists (y / sy). split; [split; [apply Z.div_pos; lia|apply Z.div_lt_upper_bound; unfold nh in Hy; lia]|].
    exists (x / sx). split; [split; [apply Z.div_pos; lia|apply Z.div_lt_upper_bound; unfold nw in Hx; lia]|].
    exists (y mod sy). split; [apply Z.mod_pos_bound; lia|].
    exists (x mod sx). split; [apply Z.mod_pos_bound; lia|].
    unfold J. pose proof (Z.div_mod y sy ltac:(lia)). pose proof (Z.div_mod x sx ltac:(lia)).
    replace (y / sy * sy + y mod sy) with y by lia. replace (x / sx * sx + x mod sx) with x by lia.
    reflexivity.
Qed.

(** ** Column format *)

Lemma rotate_spec data w h : 0 <= w -> 0 <= h -> vlen data >= w * h ->
  exists r, rotate_90_clockwise data w h = Ok r /\ vlen r = vlen data /\
    forall x y, 0 <= x < w -> 0 <= y < h ->
      at_ 0 r (x * h + (h - 1 - y)) = at_ 0 data (y * w + x).
Proof.
  intros Hw Hh Hd. unfold rotate_90_clockwise.
  set (g := fun k => at_ 0 data ((h - 1 - k mod h) * w + k / h)).
  assert (C : covers 0 g (vlen data)
     (fun k => exists y, 0 <= y < h /\ exists x, 0 <= x < w /\ k = x * h + (h - 1 - y))
     (for_range h (fun y acc => for_range w (fun x acc =>
        do p <- vget data (y * w + x); vset acc (x * h + (h - 1 - y)) p) acc))).
  { apply covers_for; [exact Hh|]. intros y Hy. apply covers_for; [exact Hw|]. intros x Hx.
    assert (A : 0 <= y * w + x < w * h) by (apply rowmajor_range; assumption).
    assert (B : 0 <= x * h + (h - 1 - y) < h * w) by (apply rowmajor_range; lia).
    eapply covers_ext.
    { intros acc Hacc. rewrite (vget_ok 0) by lia. cbn [bind]. reflexivity. }
    apply covers_vset; [lia|]. unfold g. rewrite rowmajor_div, rowmajor_mod by lia.
    f_equal. f_equal. lia. }
  destruct (C (repeat 0 (length data))) as (r & E & L & _ & G & _); [rewrite vlen_repeat; reflexivity|].
  exists r. split; [exact E|]. split; [exact L|]. intros x y Hx Hy. rewrite G.
  - unfold g. rewrite rowmajor_div, rowmajor_mod by lia. f_equal. f_equal. lia.
  - assert (0 <= x * h + (h - 1 - y) < h * w) by (apply rowmajor_range; lia). lia.
  - exists y. split; [exact Hy|]. exists x. split; [exact Hx|reflexivity].
Qed.

Lemma flip_spec data w h : 0 <= w -> 0 <= h -> vlen data >= w * h ->
  exists r, flip_right_to_left data w h = Ok r /\ vlen r = vlen data /\
    forall x y, 0 <= x < w -> 0 <= y < h ->
      at_ 0 r (y * w + (w - 1 - x)) = at_ 0 data (y * w + x).
Proof.
  intros Hw Hh Hd. unfold flip_right_to_left.
  set (g := fun k => at_ 0 data ((k / w) * w + (w - 1 - k mod w))).
  assert (C : covers 0 g (vlen data)
     (fun k => exists y, 0 <= y < h /\ exists x, 0 <= x < w /\ k = y * w + (w - 1 - x))
     (for_range h (fun y acc => for_range w (fun x acc =>
        do p <- vget data (y * w + x); vset acc (y * w + (w - 1 - x)) p) acc))).
  { apply covers_for; [exact Hh|]. intros y Hy. apply covers_for; [exact Hw|]. intros x Hx.
    assert (A : 0 <= y * w + x < w * h) by (apply rowmajor_range; assumption).
    assert (B : 0 <= y * w + (w - 1 - x) < w * h) by (apply rowmajor_range; lia).
    eapply covers_ext.
    { intros acc Hacc. rewrite (vget_ok 0) by lia. cbn [bind]. reflexivity. }
    apply covers_vset; [lia|]. unfold g. rewrite rowmajor_div, rowmajor_mod by lia.
    f_equal. f_equal. lia. }
  destruct (C (repeat 0 (length data))) as (r & E & L & _ & G & _); [rewrite vlen_repeat; reflexivity|].
  exists r. split; [exact E|]. split; [exact L|]. intros x y Hx Hy. rewrite G.
  - unfold g. rewrite rowmajor_div, rowmajor_mod by lia. f_equal. f_equal. lia.
  - assert (0 <= y * w + (w - 1 - x) < w * h) by (apply rowmajor_range; lia). lia.
  - exists y. split; [exact Hy|]. exists x. split; [exact Hx|reflexivity].
Qed.

Lemma column_to_bytes_spec data w h : 0 <= w -> 0 < h -> vlen data = line_bytes h * w ->
  exists r, column_to_bytes data w h = Ok r /\ vlen r = w * h /\
    forall x y, 0 <= x < w -> 0 <= y < h ->
      at_ 0 r (y * w + x) = if column_dot data h x y then 255 else 0.
Proof.
  intros Hw Hh Hd. unfold column_to_bytes.
  destruct (unpack_bytes_spec h w data Hh Hw Hd) as (L & G).
  destruct (rotate_spec (unpack_bytes data h w) h w) as (r1 & E1 & L1 & G1); [lia|lia|lia|].
  rewrite E1. cbn [bind].
  destruct (flip_spec r1 w h) as (r2 & E2 & L2 & G2); [lia|lia|lia|].
  exists r2. split; [exact E2|]. split; [lia|]. intros x y Hx Hy.
  specialize (G2 (w - 1 - x) y ltac:(lia) ltac:(lia)).
  replace (w - 1 - (w - 1 - x)) with x in G2 by lia. rewrite G2.
  rewrite (G1 y x) by lia. rewrite G by lia. reflexivity.
Qed.

(** Too little column data: the decoder does not return. *)
Lemma column_to_bytes_short data w h : 0 < w -> 0 < h -> vlen data < line_bytes h * w ->
  is_ok (column_to_bytes data w h) = false.
Proof.
  intros Hw Hh Hd. unfold column_to_bytes.
  assert (L : vlen (unpack_bytes data h w) < h * w).
  { rewrite unpack_bytes_loop. set (n := line_bytes h * w) in *.
    set (ext := repeat 0 (Z.to_nat (n - vlen data))).
    assert (Ln : vlen (data ++ ext) = n) by (rewrite vlen_app; unfold ext; rewrite vlen_repeat; lia).
    destruct (unpack_rows h Hh w (data ++ ext) ltac:(lia) Ln) as (L2 & _).
    assert (Hx : ext <> []) by (unfold ext; destruct (Z.to_nat (n - vlen data)) eqn:E; [lia|discriminate]).
    pose proof (unpack_len_lt h data ext Hh Hx). lia. }
  destruct (rotate_90_clockwise (unpack_bytes data h w) h w) as [r|p] eqn:E; [|reflexivity].
  exfalso. unfold rotate_90_clockwise in E.
  destruct (for_range_inv _ _ _ _ E (w - 1) ltac:(lia)) as (a1 & a2 & E1).
  destruct (for_range_inv _ _ _ _ E1 (h - 1) ltac:(lia)) as (a3 & a4 & E2).
  destruct (vget (unpack_bytes data h w) ((w - 1) * h + (h - 1))) as [p|] eqn:Ev; [|discriminate].
  apply (vget_inv 0) in Ev. lia.
Qed.
