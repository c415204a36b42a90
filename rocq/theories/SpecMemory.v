(** * SpecMemory: the vocabulary of C51 - C53: what the printer remembers between commands.

    The commands are read off their bytes.  GS ( k, GS ( L and GS 8 L carry, after the prefix and the
    two or four length bytes, two bytes that name the function. *)
From Verif Require Import Base Command GTypes Graphics SpecGraphics SpecSymbol Handlers Origin.
Local Open Scope Z_scope.
Local Open Scope list_scope.

Definition header_end (c : command) : option (Z * Z) :=
  match rev (skipn 3 (c_commands c)) with
  | fn :: m :: _ :: _ :: _ => Some (m, fn)
  | _ => None
  end.
(** GS ( k pL pH cn fn *)
Definition symbol_function (c : command) : option (Z * Z) :=
  if list_eqb (firstn 3 (c_commands c)) [29; 40; 107] then header_end c else None.
(** GS ( L pL pH m fn and GS 8 L p1 p2 p3 p4 m fn *)
Definition picture_function (c : command) : option Z :=
  if list_eqb (firstn 3 (c_commands c)) [29; 40; 76] || list_eqb (firstn 3 (c_commands c)) [29; 56; 76]
  then option_map snd (header_end c) else None.
