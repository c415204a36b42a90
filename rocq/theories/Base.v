(** * Base: conventions shared by every model file.

    Integers are [Z].  A Rust operation that would panic in the dev/test profile
    (arithmetic overflow/underflow, slice index out of range, [unwrap] on [None],
    division by zero, explicit [panic!]) yields the explicit error value [Panic]. *)
From Coq Require Export String Ascii.
From Coq Require Export List ZArith Lia Bool.
From Coq Require Export ZifyBool ZifyNat.
Export ListNotations.
Global Open Scope Z_scope.
Global Open Scope list_scope.
Global Open Scope bool_scope.

Ltac Zify.zify_post_hook ::= Z.div_mod_to_equations.

(** Why an execution aborted. *)
Inductive panic :=
| POverflow          (* checked integer arithmetic left its range *)
| PIndex             (* slice / Vec index out of bounds *)
| PUnwrap            (* Option::unwrap on None *)
| PDivZero           (* division by zero *)
| PExplicit.         (* panic! in the source *)

Inductive res (A : Type) :=
| Ok (a : A)
| Panic (p : panic).
Arguments Ok {A} a.
Arguments Panic {A} p.

Definition bind {A B} (x : res A) (f : A -> res B) : res B :=
  match x with Ok a => f a | Panic p => Panic p end.
Notation "'do' x <- e ; f" := (bind e (fun x => f))
  (at level 200, x pattern, e at level 100, f at level 200).

Definition is_ok {A} (x : res A) : bool := match x with Ok _ => true | Panic _ => false end.

(** Ranges of the Rust integer types. *)
Definition u8_max := 255.
Definition u16_max := 65535.
Definition u32_max := 4294967295.
Definition is_byte (b : Z) : bool := (0 <=? b) && (b <=? 255).
Definition is_u32 (b : Z) : bool := (0 <=? b) && (b <=? u32_max).
Definition bytes_ok (l : list Z) : bool := forallb is_byte l.

(** Checked arithmetic of the dev/test profile. *)
Definition chk (lo hi x : Z) : res Z := if (lo <=? x) && (x <=? hi) then Ok x else Panic POverflow.
Definition add_u8 a b := chk 0 u8_max (a + b).
Definition sub_u8 a b := chk 0 u8_max (a - b).
Definition add_u32 a b := chk 0 u32_max (a + b).
Definition sub_u32 a b := chk 0 u32_max (a - b).
Definition mul_u32 a b := chk 0 u32_max (a * b).
(** [a.saturating_sub(b)] on unsigned operands. *)
Definition sat_sub a b := Z.max 0 (a - b).
(** [Vec::get(i).unwrap_or(&d)] *)
Definition get_or (d : Z) (l : list Z) (i : nat) : Z := nth i l d.
(** [l\[i\]] / [Vec::get(i).unwrap()] *)
Definition get_chk {A} (p : panic) (l : list A) (i : nat) : res A :=
  match nth_error l i with Some x => Ok x | None => Panic p end.

(** thermal_parser/src/constants.rs:1-11 *)
Definition NUL := 0. Definition ESC := 27. Definition HT := 9. Definition LF := 10.
Definition FF := 12. Definition CR := 13. Definition GS := 29. Definition FS := 28.
Definition DLE := 16. Definition CAN := 24.

(** thermal_parser/src/util.rs:1-6 *)
Definition parse_u16 (bytes : list Z) (index : nat) : Z :=
  Z.lor (Z.shiftl (get_or 0 bytes (index + 1)) 8) (get_or 0 bytes index).

(** thermal_parser/src/util.rs:8-16 (Rust precedence: all shifts bind tighter than [|]) *)
Definition parse_u32 (bytes : list Z) (index : nat) : Z :=
  let b0 := get_or 0 bytes index in
  let b1 := get_or 0 bytes (index + 1) in
  let b2 := get_or 0 bytes (index + 2) in
  let b3 := get_or 0 bytes (index + 3) in
  Z.lor (Z.lor (Z.lor (Z.shiftl b3 24) (Z.shiftl b2 16)) (Z.shiftl b1 8)) b0.

Definition mem_byte (b : Z) (l : list Z) : bool := existsb (Z.eqb b) l.
