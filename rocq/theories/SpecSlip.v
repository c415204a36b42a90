(** * SpecSlip: a receipt with pictures: the parts of SpecReceipt and pictures sent with GS v 0, from the bytes to the dots. *)
From Verif Require Import Base Vec GTypes ImageRenderer SpecScene SpecPlain SpecReceipt.
Local Open Scope Z_scope.
Local Open Scope list_scope.

Inductive element :=
| Part (p : part)
| Picture (a m w h : Z) (d : list Z).  (* ESC a a, GS v 0 m: h rows of w bytes *)

Definition element_bytes (e : element) : list Z :=
  match e with
  | Part p => part_bytes p
  | Picture a m w h d => [27; 97; a; 29; 118; 48; m; w mod 256; w / 256; h mod 256; h / 256] ++ d
  end.
Definition slip_bytes (l : list element) : list Z := flat_map element_bytes l.

(** m = 1 (or 49) doubles the width, m = 2 (or 50) the height, m = 3 both. *)
Definition dot_width (m : Z) : Z := if (m =? 1) || (m =? 49) || (m =? 3) then 2 else 1.
Definition dot_height (m : Z) : Z := if (m =? 2) || (m =? 50) || (m =? 3) then 2 else 1.
Definition element_height (e : element) : Z :=
  match e with Part p => part_height p | Picture _ m _ h _ => h * dot_height m end.
Definition slip_height (l : list element) : Z := fold_right (fun e h => element_height e + h) 0 l.
(** Where something [w] dots wide begins under ESC a. *)
Definition place (a w : Z) : Z :=
  if (a =? 1) || (a =? 49) then (609 - w) / 2 else if (a =? 2) || (a =? 50) then 609 - w else 0.
(** The bit of column [x], row [y] of the data: rows of [w] bytes, the most significant bit leftmost. *)
Definition bit_at (d : list Z) (w x y : Z) : bool := Z.testbit (nth (Z.to_nat (y * w + x / 8)) d 0) (7 - x mod 8).

(** How black the dot in column [x], row [y] is. *)
Fixpoint slip_dot (fo : fonts) (l : list element) (x y : Z) : Z :=
  match l with
  | [] => 0
  | e :: r =>
      if y <? element_height e then
        match e with
        | Part p => receipt_dot fo [p] x y
        | Picture a m w h d =>
            let W := 8 * w * dot_width m in
            let x := x - place a W in
            if (0 <=? x) && (x <? W) && (0 <=? y) && bit_at d w (x / dot_width m) (y / dot_height m) then 255 else 0
        end
      else slip_dot fo r x (y - element_height e)
  end.

(** Pictures fit the paper and are complete. *)
Definition element_ok (e : element) : Prop :=
  match e with
  | Part p => part_ok p
  | Picture a m w h d => 0 <= a <= 255 /\ In m [0; 1; 2; 3; 48; 49; 50] /\ 0 < w /\ 8 * w * dot_width m <= 609 /\ 0 <= h <= 65535 /\
                         Forall (fun b => 0 <= b <= 255) d /\ Z.of_nat (length d) = w * h
  end.
