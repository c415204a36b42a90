(** * HueTheory: the rounding error of the colour arithmetic, and the exact result of mixing. *)
From Verif Require Import Base Float32.
From Coq Require Import QArith Lqa Lia.
Local Open Scope Z_scope.

(** ** One rounding *)
Lemma scaled n d e j : 0 < n -> 0 < d -> j = e + 23 ->
  (if 0 <=? j then d * 2 ^ j <= n else d <= n * 2 ^ (- j)) ->
  (if 0 <=? e then d * 2 ^ e else d) * 2 ^ 23 <= (if 0 <=? e then n else n * 2 ^ (- e)).
Proof.
  intros N D J H. destruct (Z.leb_spec 0 e) as [E|E].
  - rewrite (proj2 (Z.leb_le 0 j)) in H by lia. rewrite J, Z.pow_add_r in H by lia. lia.
  - destruct (Z.leb_spec 0 j) as [F|F].
    + replace (- e) with (23 - j) by lia. assert (P : 2 ^ 23 = 2 ^ j * 2 ^ (23 - j)) by (rewrite <- Z.pow_add_r by lia; f_equal; lia).
      rewrite P. pose proof (Z.pow_pos_nonneg 2 (23 - j) ltac:(lia) ltac:(lia)). nia.
    + replace (- e) with (23 + - j) by lia. rewrite Z.pow_add_r by lia. pose proof (Z.pow_pos_nonneg 2 23 ltac:(lia) ltac:(lia)). nia.
Qed.
Lemma f32_round_err n d : 0 <= n -> 0 < d ->
  0 < snd (f32_round n d) /\ 0 <= fst (f32_round n d) /\
  Z.abs (fst (f32_round n d) * d - n * snd (f32_round n d)) * 2 ^ 24 <= n * snd (f32_round n d).
Proof.
  intros N D. unfold f32_round. destruct (Z.eqb_spec n 0) as [->|N0]; [cbn [fst snd]; lia|].
  set (k := Z.log2 n - Z.log2 d). set (at_least := if 0 <=? k then _ else _). set (e := if at_least then k - 23 else k - 24).
  set (p := if 0 <=? e then n else n * 2 ^ (- e)). set (q := if 0 <=? e then d * 2 ^ e else d).
  assert (S : q * 2 ^ 23 <= p).
  { unfold p, q. destruct at_least eqn:A.
    - apply (scaled n d e k); try lia. unfold at_least in A. destruct (0 <=? k); apply Z.leb_le in A; exact A.
    - apply (scaled n d e (k - 1)); try lia.
      pose proof (Z.log2_spec n ltac:(lia)) as (L1 & _). pose proof (Z.log2_spec d ltac:(lia)) as (_ & L2).
      pose proof (Z.log2_nonneg n) as A0. pose proof (Z.log2_nonneg d) as B0. subst k. set (a := Z.log2 n) in *. set (b := Z.log2 d) in *.
      destruct (Z.leb_spec 0 (a - b - 1)) as [K|K].
      + assert (P : 2 ^ a = 2 ^ (a - b - 1) * 2 ^ Z.succ b) by (rewrite <- Z.pow_add_r by lia; f_equal; lia).
        pose proof (Z.pow_pos_nonneg 2 (a - b - 1) ltac:(lia) ltac:(lia)). nia.
      + assert (P : 2 ^ Z.succ b = 2 ^ a * 2 ^ (- (a - b - 1))) by (rewrite <- Z.pow_add_r by lia; f_equal; lia).
        pose proof (Z.pow_pos_nonneg 2 (- (a - b - 1)) ltac:(lia) ltac:(lia)). nia. }
  assert (Q0 : 0 < q) by (unfold q; destruct (Z.leb_spec 0 e); [pose proof (Z.pow_pos_nonneg 2 e ltac:(lia) ltac:(lia)); nia | lia]).
  set (m := p / q). set (r := p mod q).
  assert (PE : p = q * m + r) by (apply Z.div_mod; lia). assert (R : 0 <= r < q) by (apply Z.mod_pos_bound; lia).
  set (m' := if 2 * r <? q then m else _).
  assert (C : 2 * Z.abs (m' * q - p) <= q).
  { unfold m'. destruct (Z.ltb_spec (2 * r) q); [lia|]. destruct (Z.ltb_spec q (2 * r)); [lia|]. destruct (Z.even m); lia. }
  assert (M0 : 0 <= m').
  { assert (0 <= m) by (unfold m; apply Z.div_pos; lia). unfold m'. destruct (2 * r <? q), (q <? 2 * r), (Z.even m); lia. }
  clearbody m'. clear PE R. clearbody m r. revert S Q0 C. unfold p, q. destruct (Z.leb_spec 0 e) as [E|E]; intros S Q0 C; cbn [fst snd].
  - pose proof (Z.pow_pos_nonneg 2 e ltac:(lia) ltac:(lia)). split; [lia|]. split; [nia|]. replace (m' * 2 ^ e * d) with (m' * (d * 2 ^ e)) by ring.
    change (2 ^ 24) with (2 * 2 ^ 23). lia.
  - pose proof (Z.pow_pos_nonneg 2 (- e) ltac:(lia) ltac:(lia)). split; [lia|]. split; [lia|]. change (2 ^ 24) with (2 * 2 ^ 23). lia.
Qed.

(** ** In fractions *)
Local Open Scope Q_scope.
Definition val (a : f32) : Q := inject_Z (fst a) / inject_Z (snd a).
Definition good (a : f32) : Prop := (0 < snd a)%Z /\ (0 <= fst a)%Z.
(** [a] is within [t] units of 2^-24 of [v] *)
Definition near (a : f32) (v t : Q) : Prop := v - t * (1 # 16777216) <= val a /\ val a <= v + t * (1 # 16777216).
Lemma inject_pos z : (0 < z)%Z -> 0 < inject_Z z.
Proof. intros H. unfold Qlt. cbn. lia. Qed.
Lemma round_near n d B : (0 <= n)%Z -> (0 < d)%Z -> inject_Z n / inject_Z d <= B ->
  good (f32_round n d) /\ near (f32_round n d) (inject_Z n / inject_Z d) B.
Proof.
  intros N D HB. destruct (f32_round_err n d N D) as (S & F & E). split; [split; assumption|].
  destruct (f32_round n d) as [m q]. cbn [fst snd] in *. unfold near, val. cbn [fst snd].
  pose proof (inject_pos _ S) as Sq. pose proof (inject_pos _ D) as Dq.
  assert (E1 : (16777216 * (m * d - n * q) <= n * q)%Z) by lia. assert (E2 : (- (n * q) <= 16777216 * (m * d - n * q))%Z) by lia. clear E.
  assert (I1 : 16777216 * (inject_Z m * inject_Z d - inject_Z n * inject_Z q) <= inject_Z n * inject_Z q).
  { rewrite Zle_Qle in E1. change (16777216) with (inject_Z 16777216). unfold Qminus. rewrite <- !inject_Z_mult, <- inject_Z_opp, <- inject_Z_plus, <- !inject_Z_mult. exact E1. }
  assert (I2 : - (inject_Z n * inject_Z q) <= 16777216 * (inject_Z m * inject_Z d - inject_Z n * inject_Z q)).
  { rewrite Zle_Qle in E2. change (16777216) with (inject_Z 16777216). unfold Qminus. rewrite <- !inject_Z_mult, <- !inject_Z_opp, <- inject_Z_plus, <- !inject_Z_mult. exact E2. }
  set (x := inject_Z m / inject_Z q). set (v := inject_Z n / inject_Z d) in *.
  assert (X : inject_Z m == x * inject_Z q) by (unfold x; field; lra). assert (V : inject_Z n == v * inject_Z d) by (unfold v; field; lra).
  rewrite X, V in I1, I2. set (w := inject_Z q * inject_Z d).
  assert (W : 0 < w) by (unfold w; apply Qmult_lt_0_compat; assumption).
  assert (I1' : (16777216 * (x - v)) * w <= v * w) by (unfold w; lra). assert (I2' : (- v) * w <= (16777216 * (x - v)) * w) by (unfold w; lra).
  apply Qmult_lt_0_le_reg_r in I1'; [|exact W]. apply Qmult_lt_0_le_reg_r in I2'; [|exact W]. clearbody x v w. split; lra.
Qed.
Lemma good_val a : good a -> 0 <= val a.
Proof. intros (S & F). unfold val. apply Qle_shift_div_l; [apply inject_pos; exact S|]. rewrite Qmult_0_l. change 0 with (inject_Z 0). rewrite <- Zle_Qle. exact F. Qed.
Lemma val_frac a b x y : (0 < b)%Z -> (0 < y)%Z -> inject_Z (a * x) / inject_Z (b * y) == (inject_Z a / inject_Z b) * (inject_Z x / inject_Z y).
Proof. intros B Y. rewrite !inject_Z_mult. apply inject_pos in B, Y. field. split; lra. Qed.
Lemma mul_near a b B : good a -> good b -> val a * val b <= B -> good (f32_mul a b) /\ near (f32_mul a b) (val a * val b) B.
Proof.
  intros (Sa & Fa) (Sb & Fb) HB. unfold f32_mul.
  assert (E : inject_Z (fst a * fst b) / inject_Z (snd a * snd b) == val a * val b) by (apply val_frac; assumption).
  destruct (round_near (fst a * fst b) (snd a * snd b) B) as (G & N); [nia | nia | rewrite E; exact HB|].
  split; [exact G|]. unfold near in *. rewrite E in N. exact N.
Qed.
Lemma div_near a b B : good a -> (0 < snd b)%Z -> (0 < fst b)%Z -> val a / val b <= B -> good (f32_div a b) /\ near (f32_div a b) (val a / val b) B.
Proof.
  intros (Sa & Fa) Sb Fb HB. unfold f32_div.
  assert (E : inject_Z (fst a * snd b) / inject_Z (snd a * fst b) == val a / val b).
  { rewrite !inject_Z_mult. unfold val. apply inject_pos in Sa, Sb, Fb. field. repeat split; lra. }
  destruct (round_near (fst a * snd b) (snd a * fst b) B) as (G & N); [nia | nia | rewrite E; exact HB|].
  split; [exact G|]. unfold near in *. rewrite E in N. exact N.
Qed.
Lemma add_near a b B : good a -> good b -> val a + val b <= B -> good (f32_add a b) /\ near (f32_add a b) (val a + val b) B.
Proof.
  intros (Sa & Fa) (Sb & Fb) HB. unfold f32_add.
  assert (E : inject_Z (fst a * snd b + fst b * snd a) / inject_Z (snd a * snd b) == val a + val b).
  { rewrite inject_Z_plus, !inject_Z_mult. unfold val. apply inject_pos in Sa, Sb. field. split; lra. }
  destruct (round_near (fst a * snd b + fst b * snd a) (snd a * snd b) B) as (G & N); [nia | nia | rewrite E; exact HB|].
  split; [exact G|]. unfold near in *. rewrite E in N. exact N.
Qed.
Lemma sub_near a b B : good a -> good b -> (fst b * snd a <= fst a * snd b)%Z -> val a - val b <= B -> good (f32_sub a b) /\ near (f32_sub a b) (val a - val b) B.
Proof.
  intros (Sa & Fa) (Sb & Fb) L HB. unfold f32_sub.
  assert (E : inject_Z (fst a * snd b - fst b * snd a) / inject_Z (snd a * snd b) == val a - val b).
  { unfold Z.sub. rewrite inject_Z_plus, inject_Z_opp, !inject_Z_mult. unfold val. apply inject_pos in Sa, Sb. field. split; lra. }
  destruct (round_near (fst a * snd b - fst b * snd a) (snd a * snd b) B) as (G & N); [lia | nia | rewrite E; exact HB|].
  split; [exact G|]. unfold near in *. rewrite E in N. exact N.
Qed.
Lemma of_val x : val (f32_of x) == inject_Z x.
Proof. unfold val, f32_of. cbn [fst snd]. field. Qed.
Lemma of_good x : (0 <= x)%Z -> good (f32_of x).
Proof. intros H. split; cbn [f32_of fst snd]; [lia | exact H]. Qed.
(** ** The last rounding: to the nearest byte; a distance below 1/510 from a 255th decides it. *)
Lemma round_u8_near a N : good a -> inject_Z N * (1 # 255) - (1 # 510) < val a -> val a < inject_Z N * (1 # 255) + (1 # 510) -> (0 <= N <= 65025)%Z ->
  f32_round_u8 a = ((2 * N + 255) / 510)%Z.
Proof.
  intros (S & F) L U HN. unfold f32_round_u8. destruct a as [f s]. unfold val in *. cbn [fst snd] in *.
  pose proof (inject_pos _ S) as Sq. set (x := inject_Z f / inject_Z s) in *. assert (X : inject_Z f == x * inject_Z s) by (unfold x; field; lra).
  assert (L' : (2 * inject_Z N - 1) * inject_Z s < 510 * x * inject_Z s) by (apply Qmult_lt_compat_r; [exact Sq | lra]).
  assert (U' : 510 * x * inject_Z s < (2 * inject_Z N + 1) * inject_Z s) by (apply Qmult_lt_compat_r; [exact Sq | lra]).
  assert (LZ : ((2 * N - 1) * s < 510 * f)%Z).
  { rewrite Zlt_Qlt. unfold Z.sub. rewrite !inject_Z_mult, inject_Z_plus, !inject_Z_mult. change (inject_Z (- (1))) with (-(1)). change (inject_Z 2) with 2. change (inject_Z 510) with 510. lra. }
  assert (UZ : (510 * f < (2 * N + 1) * s)%Z).
  { rewrite Zlt_Qlt. rewrite !inject_Z_mult, inject_Z_plus, !inject_Z_mult. change (inject_Z 1) with 1. change (inject_Z 2) with 2. change (inject_Z 510) with 510. lra. }
  clear - LZ UZ S HN. pose proof (Z.div_mod (2 * N + 255) 510 ltac:(lia)) as D. pose proof (Z.mod_pos_bound (2 * N + 255) 510 ltac:(lia)) as M.
  set (t := ((2 * N + 255) / 510)%Z) in *. set (md := ((2 * N + 255) mod 510)%Z) in *. clearbody t md.
  assert (MD : (1 <= md <= 509)%Z) by lia.
  assert (E : ((2 * f + s) / (2 * s) = t)%Z).
  { symmetry. apply (Z.div_unique _ _ _ (2 * f + s - 2 * s * t)); [left|ring]. assert (255 * (2 * s * t) < 255 * (2 * f + s))%Z by nia. assert (255 * (2 * f + s) < 255 * (2 * s * (t + 1)))%Z by nia. lia. }
  rewrite E. lia.
Qed.
(** ** The two ways of mixing *)
Lemma byte_q c : (0 <= c <= 255)%Z -> 0 <= inject_Z c /\ inject_Z c <= 255.
Proof. intros (A & B). rewrite Zle_Qle in A, B. split; assumption. Qed.
(** a factor of at most [B] times something known up to [t] *)
Lemma times_near c B v t a : 0 <= c -> c <= B -> 0 <= t -> near a v t ->
  c * v - B * t * (1 # 16777216) <= c * val a /\ c * val a <= c * v + B * t * (1 # 16777216).
Proof.
  intros C0 CB T (L & U). set (u := 1 # 16777216) in *. assert (U0 : 0 <= u) by (unfold u, Qle; cbn; lia).
  assert (CT : c * (t * u) <= B * (t * u)) by (apply Qmult_le_compat_r; [exact CB | apply Qmult_le_0_compat; assumption]).
  assert (L' : c * (v - t * u) <= c * val a) by (rewrite !(Qmult_comm c); apply Qmult_le_compat_r; assumption).
  assert (U' : c * val a <= c * (v + t * u)) by (rewrite !(Qmult_comm c); apply Qmult_le_compat_r; assumption).
  split; lra.
Qed.
Lemma fraction_of a : (0 <= a <= 255)%Z -> good (f32_div (f32_of a) (f32_of 255)) /\ near (f32_div (f32_of a) (f32_of 255)) (inject_Z a * (1 # 255)) 1.
Proof.
  intros A. destruct (byte_q a A) as (A0 & A1).
  assert (E : val (f32_of a) / val (f32_of 255) == inject_Z a * (1 # 255)).
  { rewrite !of_val. change (inject_Z 255) with 255. field. }
  destruct (div_near (f32_of a) (f32_of 255) 1) as (G & N); [apply of_good; lia | reflexivity | reflexivity | rewrite E; lra|].
  split; [exact G|]. unfold near in *. rewrite E in N. exact N.
Qed.
Lemma fraction_small a : (0 <= a <= 255)%Z -> (fst (f32_div (f32_of a) (f32_of 255)) <= snd (f32_div (f32_of a) (f32_of 255)))%Z.
Proof.
  intros A. assert (T : forallb (fun a => fst (f32_div (f32_of a) (f32_of 255)) <=? snd (f32_div (f32_of a) (f32_of 255)))%Z (map Z.of_nat (seq 0 256)) = true) by (vm_compute; reflexivity).
  rewrite forallb_forall in T. apply Z.leb_le, T. apply in_map_iff. exists (Z.to_nat a). split; [lia|]. apply in_seq. lia.
Qed.
Theorem blend_channel_exact : forall color self alpha, (0 <= color <= 255)%Z -> (0 <= self <= 255)%Z -> (0 <= alpha <= 255)%Z ->
  blend_channel color self alpha = ((2 * (color * alpha + self * (255 - alpha)) + 255) / 510)%Z.
Proof.
  intros c s a C S A. unfold blend_channel. cbv zeta. destruct (fraction_of a A) as (G1 & N1). pose proof (fraction_small a A) as SM.
  set (al := f32_div (f32_of a) (f32_of 255)) in *. clearbody al.
  destruct (byte_q c C) as (C0 & C1), (byte_q s S) as (S0 & S1), (byte_q a A) as (A0 & A1). pose proof (good_val _ G1) as V1.
  pose proof (times_near _ 255 _ 1 _ C0 C1 ltac:(lra) N1) as P1.
  destruct (mul_near (f32_of c) al 256) as (G2 & N2); [apply of_good; lia | exact G1 | rewrite of_val | ].
  { set (k := inject_Z c) in *. assert (X : k * (inject_Z a * (1 # 255)) <= k * 1) by (rewrite !(Qmult_comm k); apply Qmult_le_compat_r; lra). lra. }
  destruct (sub_near (f32_of 1) al 2) as (G3 & N3); [apply of_good; lia | exact G1 | cbn [f32_of fst snd]; lia | rewrite of_val; change (inject_Z 1) with 1; lra|].
  unfold near in N2, N3. rewrite of_val in N2. rewrite of_val in N3. change (inject_Z 1) with 1 in N3.
  set (m1 := f32_mul (f32_of c) al) in *. set (om := f32_sub (f32_of 1) al) in *. clearbody m1 om. pose proof (good_val _ G2) as V2. pose proof (good_val _ G3) as V3.
  assert (N3' : near om (1 - inject_Z a * (1 # 255)) 3) by (unfold near in *; split; lra).
  pose proof (times_near _ 255 _ 3 _ S0 S1 ltac:(lra) N3') as P3.
  destruct (mul_near (f32_of s) om 512) as (G4 & N4); [apply of_good; lia | exact G3 | rewrite of_val |].
  { set (k := inject_Z s) in *. assert (X : k * (1 - inject_Z a * (1 # 255)) <= k * 1) by (rewrite !(Qmult_comm k); apply Qmult_le_compat_r; lra). lra. }
  unfold near in N4. rewrite of_val in N4. set (m2 := f32_mul (f32_of s) om) in *. clearbody m2. pose proof (good_val _ G4) as V4.
  set (ca := inject_Z c * (inject_Z a * (1 # 255))) in *. set (sa := inject_Z s * (1 - inject_Z a * (1 # 255))) in *.
  assert (BC : ca <= 255) by (unfold ca; assert (X : inject_Z c * (inject_Z a * (1 # 255)) <= inject_Z c * 1) by (rewrite !(Qmult_comm (inject_Z c)); apply Qmult_le_compat_r; lra); lra).
  assert (BS : sa <= 255) by (unfold sa; assert (X : inject_Z s * (1 - inject_Z a * (1 # 255)) <= inject_Z s * 1) by (rewrite !(Qmult_comm (inject_Z s)); apply Qmult_le_compat_r; lra); lra).
  destruct (add_near m1 m2 1024) as (G5 & N5); [exact G2 | exact G4 | lra |]. unfold near in N5. set (sum := f32_add m1 m2) in *. clearbody sum.
  assert (EX : inject_Z (c * a + s * (255 - a)) * (1 # 255) == ca + sa).
  { unfold ca, sa. unfold Z.sub. rewrite inject_Z_plus, !inject_Z_mult, inject_Z_plus, inject_Z_opp. change (inject_Z 255) with 255. ring. }
  apply round_u8_near; [exact G5 | rewrite EX; lra | rewrite EX; lra | nia].
Qed.
Theorem multiply_channel_exact : forall self color, (0 <= color <= 255)%Z -> (0 <= self <= 255)%Z ->
  multiply_channel self color 255 = ((2 * (self * color) + 255) / 510)%Z.
Proof.
  intros s c C S. unfold multiply_channel. cbv zeta.
  assert (A1 : f32_div (f32_of 255) (f32_of 255) = (8388608, 8388608)%Z) by (vm_compute; reflexivity). rewrite A1. clear A1.
  destruct (fraction_of s S) as (G1 & N1). set (f := f32_div (f32_of s) (f32_of 255)) in *. clearbody f.
  destruct (byte_q c C) as (C0 & C1), (byte_q s S) as (S0 & S1). pose proof (good_val _ G1) as V1.
  pose proof (times_near _ 255 _ 1 _ C0 C1 ltac:(lra) N1) as P1.
  set (sc := inject_Z c * (inject_Z s * (1 # 255))) in *.
  assert (B1 : sc <= 255) by (unfold sc; assert (X : inject_Z c * (inject_Z s * (1 # 255)) <= inject_Z c * 1) by (rewrite !(Qmult_comm (inject_Z c)); apply Qmult_le_compat_r; lra); lra).
  destruct (mul_near f (f32_of c) 256) as (G2 & N2); [exact G1 | apply of_good; lia | rewrite of_val; lra|]. unfold near in N2. rewrite of_val in N2.
  set (m := f32_mul f (f32_of c)) in *. clearbody m. pose proof (good_val _ G2) as V2.
  assert (E3 : val m / val (f32_of 255) == val m * (1 # 255)) by (rewrite of_val; change (inject_Z 255) with 255; field).
  destruct (div_near m (f32_of 255) 2) as (G3 & N3); [exact G2 | reflexivity | reflexivity | rewrite E3; lra|]. unfold near in N3. rewrite E3 in N3.
  set (t := f32_div m (f32_of 255)) in *. clearbody t. pose proof (good_val _ G3) as V3.
  assert (E4 : val t * val (8388608, 8388608)%Z == val t) by (unfold val at 2; cbn [fst snd]; field).
  destruct (mul_near t (8388608, 8388608)%Z 3) as (G4 & N4); [exact G3 | split; cbn; lia | rewrite E4; lra|]. unfold near in N4. rewrite E4 in N4.
  set (t2 := f32_mul t _) in *. clearbody t2. pose proof (good_val _ G4) as V4.
  destruct (mul_near t2 (f32_of 255) 512) as (G5 & N5); [exact G4 | apply of_good; lia | rewrite of_val; change (inject_Z 255) with 255; lra|].
  unfold near in N5. rewrite of_val in N5. change (inject_Z 255) with 255 in N5. set (m5 := f32_mul t2 (f32_of 255)) in *. clearbody m5.
  assert (EX : inject_Z (s * c) * (1 # 255) == sc) by (unfold sc; rewrite inject_Z_mult; ring).
  apply round_u8_near; [exact G5 | rewrite EX; lra | rewrite EX; lra | nia].
Qed.
