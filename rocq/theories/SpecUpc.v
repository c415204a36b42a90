(** * SpecUpc: UPC-A / UPC-E as the GS1 General Specifications define them, independently of the code. *)
From Verif Require Import Base.
Local Open Scope Z_scope.

Definition digit (d : Z) : Prop := 0 <= d <= 9.

(** The UPC-A check equation on twelve digits: three times the digits in odd positions plus the
    digits in even positions is a multiple of ten. *)
Definition check_equation (a : list Z) : Prop :=
  match a with
  | [a1; a2; a3; a4; a5; a6; a7; a8; a9; a10; a11; a12] =>
      (3 * (a1 + a3 + a5 + a7 + a9 + a11) + (a2 + a4 + a6 + a8 + a10 + a12)) mod 10 = 0
  | _ => False
  end.

(** Zero suppression: the UPC-A number (eleven digits, without check digit) that the UPC-E code
    [n d1..d6] abbreviates. *)
Inductive abbreviates : list Z -> list Z -> Prop :=
| ab_012 : forall n d1 d2 d3 d4 d5 d6, 0 <= d6 <= 2 ->
    abbreviates [n; d1; d2; d3; d4; d5; d6] [n; d1; d2; d6; 0; 0; 0; 0; d3; d4; d5]
| ab_3 : forall n d1 d2 d3 d4 d5,
    abbreviates [n; d1; d2; d3; d4; d5; 3] [n; d1; d2; d3; 0; 0; 0; 0; 0; d4; d5]
| ab_4 : forall n d1 d2 d3 d4 d5,
    abbreviates [n; d1; d2; d3; d4; d5; 4] [n; d1; d2; d3; d4; 0; 0; 0; 0; 0; d5]
| ab_59 : forall n d1 d2 d3 d4 d5 d6, 5 <= d6 <= 9 ->
    abbreviates [n; d1; d2; d3; d4; d5; d6] [n; d1; d2; d3; d4; d5; 0; 0; 0; 0; d6].

(** The UPC-E symbol: start guard, six digits of seven modules, end guard.  A digit is drawn in its
    odd-parity (L) pattern or its even-parity (G) pattern; G is the reversed complement of L.  The
    choice of parities encodes the check digit; number system 1 uses the complementary choice. *)
Definition L_pattern (d : Z) : list Z :=
  nth (Z.to_nat d)
    [ [0;0;0;1;1;0;1]; [0;0;1;1;0;0;1]; [0;0;1;0;0;1;1]; [0;1;1;1;1;0;1]; [0;1;0;0;0;1;1];
      [0;1;1;0;0;0;1]; [0;1;0;1;1;1;1]; [0;1;1;1;0;1;1]; [0;1;1;0;1;1;1]; [0;0;0;1;0;1;1] ] [].
Definition G_pattern (d : Z) : list Z := rev (map (fun m => 1 - m) (L_pattern d)).
Definition even_positions (check : Z) : list bool :=   (* number system 0; true = even parity *)
  nth (Z.to_nat check)
    (map (map (fun c => c =? 1))
    [ [1;1;1;0;0;0]; [1;1;0;1;0;0]; [1;1;0;0;1;0]; [1;1;0;0;0;1]; [1;0;1;1;0;0];
      [1;0;0;1;1;0]; [1;0;0;0;1;1]; [1;0;1;0;1;0]; [1;0;1;0;0;1]; [1;0;0;1;0;1] ]) [].
Definition digit_modules (n d : Z) (even : bool) : list Z :=
  if Bool.eqb even (n =? 0) then G_pattern d else L_pattern d.
Definition upce_symbol (code : list Z) : list Z :=
  match code with
  | [n; d1; d2; d3; d4; d5; d6; c] =>
      [1; 0; 1]
      ++ concat (map (fun p => digit_modules n (fst p) (snd p)) (combine [d1; d2; d3; d4; d5; d6] (even_positions c)))
      ++ [0; 1; 0; 1; 0; 1]
  | _ => []
  end.
