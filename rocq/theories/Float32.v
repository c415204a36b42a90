(** * Float32: the f32 arithmetic used by the colour code, exactly.

    A finite non-negative f32 is a fraction (numerator, denominator) of the form m*2^e.
    [f32_round] is IEEE-754 binary32 round-to-nearest-even for normal numbers; every value that
    occurs here is 0 or lies in [2^-16, 2^16], so neither overflow nor subnormals arise. *)
From Verif Require Import Base.

Definition f32 := (Z * Z)%type.

(** binary32: 24 significant bits, nearest, ties to even *)
Definition f32_round (n d : Z) : f32 :=
  if n =? 0 then (0, 1)
  else
    let k := Z.log2 n - Z.log2 d in
    let at_least := if 0 <=? k then d * 2 ^ k <=? n else d <=? n * 2 ^ (- k) in
    let e := if at_least then k - 23 else k - 24 in
    let p := if 0 <=? e then n else n * 2 ^ (- e) in
    let q := if 0 <=? e then d * 2 ^ e else d in
    let m := p / q in
    let r := p mod q in
    let m' := if 2 * r <? q then m
              else if q <? 2 * r then m + 1
              else if Z.even m then m else m + 1 in
    if 0 <=? e then (m' * 2 ^ e, 1) else (m', 2 ^ (- e)).

(** [x as f32] for x < 2^24 *)
Definition f32_of (x : Z) : f32 := (x, 1).
Definition f32_mul (a b : f32) : f32 := f32_round (fst a * fst b) (snd a * snd b).
Definition f32_div (a b : f32) : f32 := f32_round (fst a * snd b) (snd a * fst b).
Definition f32_add (a b : f32) : f32 := f32_round (fst a * snd b + fst b * snd a) (snd a * snd b).
(** only used with a >= b *)
Definition f32_sub (a b : f32) : f32 := f32_round (fst a * snd b - fst b * snd a) (snd a * snd b).
(** [x.round() as u8]: half away from zero, saturating *)
Definition f32_round_u8 (a : f32) : Z :=
  Z.min 255 ((2 * fst a + snd a) / (2 * snd a)).

(** One channel of RGBA::blend_foreground_with_alpha, thermal_parser/src/graphics.rs:76-79 *)
Definition blend_channel (color self alpha : Z) : Z :=
  let al := f32_div (f32_of alpha) (f32_of 255) in
  f32_round_u8 (f32_add (f32_mul (f32_of color) al)
                        (f32_mul (f32_of self) (f32_sub (f32_of 1) al))).

(** One channel of RGBA::multiply_foreground, thermal_parser/src/graphics.rs:53-56 *)
Definition multiply_channel (self color alpha : Z) : Z :=
  let al := f32_div (f32_of alpha) (f32_of 255) in
  f32_round_u8
    (f32_mul
       (f32_mul (f32_div (f32_mul (f32_div (f32_of self) (f32_of 255)) (f32_of color)) (f32_of 255)) al)
       (f32_of 255)).
