(** * SpecThermal: the .thermal format, independently of the code that reads it.

    A source is a list of lines; a line is a comment, blank, or a sequence of tokens and white
    space.  [spell] gives the characters of a source, [meant] the bytes it stands for.  Characters
    are Unicode scalar values; an ASCII word is written with [chars]. *)
From Verif Require Import Base SpecText Text.
Local Open Scope Z_scope.
Local Open Scope list_scope.

Fixpoint chars (s : string) : list Z :=
  match s with EmptyString => [] | String a r => Z.of_nat (nat_of_ascii a) :: chars r end.

(** the named constants of the format *)
Definition names : list (string * Z) :=
  [("NUL", 0); ("HT", 9); ("LF", 10); ("FF", 12); ("CR", 13); ("DLE", 16); ("CAN", 24); ("ESC", 27);
   ("FS", 28); ("GS", 29)]%string.

(** digits *)
Definition dec_digit (c : Z) : option Z := if (48 <=? c) && (c <=? 57) then Some (c - 48) else None.
Definition hex_digit_value (c : Z) : option Z :=
  if (48 <=? c) && (c <=? 57) then Some (c - 48)
  else if (65 <=? c) && (c <=? 70) then Some (c - 55)
  else if (97 <=? c) && (c <=? 102) then Some (c - 87) else None.
(** the number a digit string denotes, most significant digit first *)
Fixpoint numeral (base : Z) (digit : Z -> option Z) (l : list Z) (sofar : Z) : option Z :=
  match l with
  | [] => Some sofar
  | c :: r => match digit c with Some d => numeral base digit r (sofar * base + d) | None => None end
  end.

(** inside quotes a backslash or a quote is preceded by a backslash *)
Definition escape1 (c : Z) : list Z := if (c =? 92) || (c =? 34) then [92; c] else [c].
Definition escape (t : list Z) : list Z := flat_map escape1 t.

Inductive token :=
| TName (s : string) (b : Z)
| THex (digits : list Z) (b : Z)
| TDec (digits : list Z) (b : Z)
| TQuoted (t : list Z)
| TWord (w : list Z).

Definition token_ok (t : token) : Prop :=
  match t with
  | TName s b => In (s, b) names
  | THex ds b => ds <> [] /\ numeral 16 hex_digit_value ds 0 = Some b /\ b <= 255
  | TDec ds b => ds <> [] /\ numeral 10 dec_digit ds 0 = Some b /\ b <= 255
  | TQuoted t => ~ In 10 t
  | TWord w =>
      (forall c, In c w -> is_whitespace c = false /\ c <> 34) /\
      (forall s b, In (s, b) names -> w <> chars s) /\
      exists c r, w = c :: r /\ dec_digit c = None /\ c <> 43 /\ c <> 39
  end.
Definition spell_token (t : token) : list Z :=
  match t with
  | TName s _ => chars s
  | THex ds _ => chars "0x" ++ ds
  | TDec ds _ => ds
  | TQuoted t => [34] ++ escape t ++ [34]
  | TWord w => w
  end.
Definition token_meant (t : token) : list Z :=
  match t with
  | TName _ b | THex _ b | TDec _ b => [b]
  | TQuoted t => utf8_encode t
  | TWord w => utf8_encode w
  end.
Definition quoted (t : token) : bool := match t with TQuoted _ => true | _ => false end.

(** white space between tokens: blank, tab, form feed or carriage return *)
Inductive piece := Gap (c : Z) | Tok (t : token).
Definition gap_char (c : Z) : bool := (c =? 32) || (c =? 9) || (c =? 12) || (c =? 13).
(** only a quoted token may touch the token after it *)
Fixpoint pieces_ok (l : list piece) : Prop :=
  match l with
  | [] => True
  | Gap c :: r => gap_char c = true /\ pieces_ok r
  | Tok t :: r =>
      token_ok t /\ (quoted t = true \/ match r with Tok _ :: _ => False | _ => True end) /\ pieces_ok r
  end.
Definition spell_piece (p : piece) : list Z := match p with Gap c => [c] | Tok t => spell_token t end.
Definition piece_meant (p : piece) : list Z := match p with Gap _ => [] | Tok t => token_meant t end.

Inductive line :=
| LComment (t : list Z)
| LBlank (t : list Z)
| LTokens (l : list piece).
Definition line_ok (l : line) : Prop :=
  match l with
  | LComment t => ~ In 10 t
  | LBlank t => forall c, In c t -> is_whitespace c = true /\ c <> 10
  | LTokens l => pieces_ok l
  end.
Definition spell_line (l : line) : list Z :=
  match l with
  | LComment t => chars "'//" ++ t
  | LBlank t => t
  | LTokens l => flat_map spell_piece l
  end.
Definition line_meant (l : line) : list Z :=
  match l with LTokens l => flat_map piece_meant l | _ => [] end.

(** a line ends with a line feed or with a carriage return and a line feed; the last may be open *)
Definition terminator (crlf : bool) : list Z := if crlf then [13; 10] else [10].
Definition spell_lines (l : list (line * bool)) : list Z :=
  flat_map (fun x => spell_line (fst x) ++ terminator (snd x)) l.
Definition lines_meant (l : list (line * bool)) : list Z := flat_map (fun x => line_meant (fst x)) l.
Definition lines_ok (l : list (line * bool)) : Prop := Forall (fun x => line_ok (fst x)) l.

Definition spell (l : list (line * bool)) (last : line) : list Z := spell_lines l ++ spell_line last.
Definition meant (l : list (line * bool)) (last : line) : list Z := lines_meant l ++ line_meant last.
