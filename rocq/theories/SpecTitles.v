(** * SpecTitles: the text of a whole job as the manual describes it, with the text of its barcodes (GS H, GS f). *)
From Verif Require Import Base Command GTypes Vec Utf8 Decoder Handlers SpecRender SpecManual SpecBarcode.
Local Open Scope Z_scope.
Local Open Scope list_scope.

(** how many bytes of data a system takes: [SpecBarcode.takes], as a test *)
Definition takesb (k : symbology) (n : Z) : bool :=
  match k with
  | UPC_A => existsb (Z.eqb n) [11; 12]
  | UPC_E => existsb (Z.eqb n) [6; 7; 8; 11; 12]
  | JAN_13 => existsb (Z.eqb n) [12; 13]
  | JAN_8 => existsb (Z.eqb n) [7; 8]
  | CODE_39 | CODE_93 => (1 <=? n) && (n <=? 255)
  | ITF | CODABAR => (3 <=? n) && (n <=? 255)
  | CODE_128 => (2 <=? n) && (n <=? 255)
  end.
(** The text of the barcode that GS k prints for system byte [m] and data [raw]; none if these give no barcode. *)
Definition barcode_text (e : encoders) (m : Z) (raw : list Z) : option ustring :=
  match symbology_of m, from_utf8 raw with
  | Some k, Some d => if takesb k (vlen raw) then match modules_of e k raw d with Some _ => Some (readable k d) | None => None end else None
  | _, _ => None
  end.
(** Its characters, once per place GS H asks for, in the style of the settings but in the font of GS f. *)
Definition title (e : encoders) (m : panel) (c : command) : list ink :=
  if list_eq_dec Z.eq_dec (c_commands c) [29; 107] then
    match nth_error (fst (get_command_bytes c)) 2 with
    | Some k =>
        match barcode_text e k (c_data c) with
        | Some t => times (copies (m_bar_text m)) (map (pair (set_s_font (m_bar_font m) (styled m))) (shown true t))
        | None => []
        end
    | None => []
    end
  else [].
(** Everything a stream of commands prints as text: the text runs, CR (SpecManual) and the barcodes' texts. *)
Fixpoint whole_text (e : encoders) (m : panel) (l : list command) : list ink :=
  match l with
  | [] => []
  | c :: r => manuscript m [c] ++ title e m c ++ whole_text e (obeyed m c) r
  end.
(** CODE128 data in which two opening braces stand for one are not understood by the crate (C50). *)
Definition single_braces (c : command) : Prop :=
  forall k r d t, get_command_bytes c = ([29; 107; k] ++ r, d) -> symbology_of k = Some CODE_128 -> from_utf8 (c_data c) = Some t -> no_double_brace t.
