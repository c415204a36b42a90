(** * SpecBarcode: the vocabulary of C49 and C50: what a barcode looks like and which data gives one. *)
From Verif Require Import Base Vec GTypes Utf8 Upce SpecUpc Handlers.
Local Open Scope Z_scope.
Local Open Scope list_scope.

(** The modules of a one-dimensional symbol: each [w] dots wide, next to each other from [x] on; those
    that are bars are drawn. *)
Fixpoint bars (x y w h : Z) (modules : list Z) : list rectangle :=
  match modules with
  | [] => []
  | m :: r => (if 0 <? m then [mk_rectangle x y w h] else []) ++ bars (x + w) y w h r
  end.
(** what ends inside an area [area] dots wide *)
Definition within (area : Z) (r : rectangle) : bool := r_x r + r_w r <=? area.

(** GS k m: the system the byte [m] selects (function A: 0 - 6, function B: 65 - 73). *)
Inductive symbology := UPC_A | UPC_E | JAN_13 | JAN_8 | CODE_39 | ITF | CODABAR | CODE_93 | CODE_128.
Definition systems : list symbology := [UPC_A; UPC_E; JAN_13; JAN_8; CODE_39; ITF; CODABAR; CODE_93; CODE_128].
Definition symbology_of (m : Z) : option symbology :=
  if (0 <=? m) && (m <=? 6) then nth_error systems (Z.to_nat m)
  else if (65 <=? m) && (m <=? 73) then nth_error systems (Z.to_nat (m - 65)) else None.
(** how many bytes of data it takes *)
Definition takes (k : symbology) (n : Z) : Prop :=
  match k with
  | UPC_A => n = 11 \/ n = 12
  | UPC_E => In n [6; 7; 8; 11; 12]
  | JAN_13 => n = 12 \/ n = 13
  | JAN_8 => n = 7 \/ n = 8
  | CODE_39 | CODE_93 => 1 <= n <= 255
  | ITF | CODABAR => 3 <= n <= 255
  | CODE_128 => 2 <= n <= 255
  end.
(** CODE128 data selects code sets with {A, {B and {C; the encoder of the crate wants the letters
    U+00C0, U+0181 and U+0106 in their place. *)
Fixpoint code_sets (l : ustring) : ustring :=
  match l with
  | x :: ((y :: r) as t) =>
      if x =? 123 then
        if y =? 65 then 192 :: code_sets r
        else if y =? 66 then 385 :: code_sets r
        else if y =? 67 then 262 :: code_sets r
        else x :: code_sets t
      else x :: code_sets t
  | _ => l
  end.
(** the same data without the selections *)
Fixpoint without_sets (l : ustring) : ustring :=
  match l with
  | x :: ((y :: r) as t) =>
      if (x =? 123) && ((y =? 65) || (y =? 66) || (y =? 67)) then without_sets r else x :: without_sets t
  | _ => l
  end.
Fixpoint no_double_brace (l : ustring) : Prop :=
  match l with
  | x :: ((y :: _) as t) => ~ (x = 123 /\ y = 123) /\ no_double_brace t
  | _ => True
  end.

(** The modules of the symbol for the data [d] (the characters of the bytes [raw]).  The encoders [e]
    are those of the external crate, except for UPC-E, see SpecUpc and C28 - C30. *)
Definition modules_of (e : encoders) (k : symbology) (raw : list Z) (d : ustring) : option (list Z) :=
  match k with
  | UPC_A => e_upca e d
  | UPC_E => match upce_new raw with Ok (UOk code) => Some (upce_symbol code) | _ => None end
  | JAN_13 => match from_utf8 (firstn 12 raw) with Some d' => e_ean13 e d' | None => None end
  | JAN_8 => e_ean8 e d
  | CODE_39 => e_code39 e (filter (fun x => negb (x =? 42)) d)
  | ITF => e_itf e d
  | CODABAR => e_codabar e d
  | CODE_93 => e_code93 e d
  | CODE_128 => e_code128 e (code_sets d)
  end.
(** the text printed for people *)
Definition readable (k : symbology) (d : ustring) : ustring :=
  match k with CODE_128 => without_sets d | _ => d end.

(** [barcode e m raw modules text]: GS k with system byte [m] and data [raw] stands for this symbol. *)
Definition barcode (e : encoders) (m : Z) (raw : list Z) (modules : list Z) (text : ustring) : Prop :=
  exists k d, symbology_of m = Some k /\ takes k (vlen raw) /\ from_utf8 raw = Some d /\
    (k = CODE_128 -> no_double_brace d) /\ modules_of e k raw d = Some modules /\ text = readable k d.
