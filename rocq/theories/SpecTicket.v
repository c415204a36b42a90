(** * SpecTicket: a receipt with pictures and barcodes, from the bytes to the dots. *)
From Verif Require Import Base Vec GTypes Handlers ImageRenderer SpecScene SpecPlain SpecReceipt SpecSlip SpecBarcode.
Local Open Scope Z_scope.
Local Open Scope list_scope.

Inductive entry :=
| Element (q : element)
| Bars (a m : Z) (d ms : list Z).  (* ESC a a, GS k m (function B) with the data d, whose symbol has the modules ms *)

Definition entry_bytes (q : entry) : list Z :=
  match q with
  | Element q => element_bytes q
  | Bars a m d _ => [27; 97; a; 29; 107; m; Z.of_nat (length d)] ++ d
  end.
Definition ticket_bytes (l : list entry) : list Z := flat_map entry_bytes l.

(** A module is 3 dots wide and the bars are 40 dots high, as after power on. *)
Definition symbol_width (ms : list Z) : Z := 3 * Z.of_nat (length ms).
Definition entry_height (q : entry) : Z := match q with Element q => element_height q | Bars _ _ _ _ => 40 end.
Definition ticket_height (l : list entry) : Z := fold_right (fun q h => entry_height q + h) 0 l.

(** How black the dot in column [x], row [y] is. *)
Fixpoint ticket_dot (fo : fonts) (l : list entry) (x y : Z) : Z :=
  match l with
  | [] => 0
  | q :: r =>
      if y <? entry_height q then
        match q with
        | Element q => slip_dot fo [q] x y
        | Bars a m d ms =>
            let x := x - place a (symbol_width ms) in
            if (0 <=? x) && (x <? symbol_width ms) && (0 <=? y) && (0 <? nth (Z.to_nat (x / 3)) ms 0) then 255 else 0
        end
      else ticket_dot fo r x (y - entry_height q)
  end.

(** Barcodes: the data has a symbol (SpecBarcode), and the symbol fits the paper.  The data of EAN-13 is ASCII. *)
Definition entry_ok (e : encoders) (q : entry) : Prop :=
  match q with
  | Element q => element_ok q
  | Bars a m d ms => 0 <= a <= 255 /\ 65 <= m <= 73 /\ Forall (fun b => 0 <= b <= 255) d /\ symbol_width ms <= 609 /\
                     (exists text, barcode e m d ms text) /\ (m = 67 -> Forall (fun b => b < 128) d)
  end.
