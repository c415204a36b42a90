(** * Decoder: thermal_parser/src/decoder/mod.rs *)
From Verif Require Import Base Vec GTypes Utf8 DecoderTables.
Local Open Scope Z_scope.

(** decoder/mod.rs:23-37.  [self.table\[byte\]] cannot be out of range: the table has 256 entries
    and the index is a u8; [at_] with default [] stands for it. *)
Definition decode_utf8 (cp : codepage) (bytes : list Z) : ustring :=
  if cp_utf8 cp then from_utf8_lossy bytes
  else flat_map (fun byte => at_ [] (cp_table cp) byte) bytes.

(** decoder/mod.rs:73-85 *)
Definition get_codepage_table (codepage_index : Z) : string * list ustring :=
  match codepage_index with
  | 1 => katakana_table
  | 2 => cp850_table
  | 3 => cp860_table
  | 4 => cp863_table
  | 5 => cp865_table
  | 11 => cp851_table
  | 12 => cp853_table
  | 13 => cp857_table
  | _ => cp437_table
  end.

(** decoder/mod.rs:87-119 *)
Definition get_language_replacements (language_index : Z) : string * list (Z * ustring) :=
  match language_index with
  | 1 => intl_france
  | 2 => intl_germany
  | 3 => intl_uk
  | 4 => intl_denmark_i
  | 5 => intl_sweden
  | 6 => intl_italy
  | 7 => intl_spain_i
  | 8 => intl_japan
  | 9 => intl_norway
  | 10 => intl_denmark_ii
  | 11 => intl_spain_ii
  | 12 => intl_latin_america
  | 13 => intl_korea
  | 14 => intl_slovenia
  | 15 => intl_china
  | 16 => intl_vietnam
  | 17 => intl_arabia
  | 66 => intl_devanagari
  | 67 => intl_bengali
  | 68 => intl_tamil
  | 69 => intl_telugu
  | 70 => intl_assamese
  | 71 => intl_oriya
  | 72 => intl_kannada
  | 73 => intl_malayalam
  | 74 => intl_gujarati
  | 75 => intl_punjabi
  | 82 => intl_marathi
  | _ => intl_usa
  end.

(** decoder/mod.rs:40-71: base half, code page half, then the replacements in order *)
Definition get_codepage (codepage_index language_index : Z) : codepage :=
  let half := get_codepage_table codepage_index in
  let lang := get_language_replacements language_index in
  let table := fold_left (fun t r => set_nth t (Z.to_nat (fst r)) (snd r)) (snd lang)
                 (snd base_table ++ snd half) in
  {| cp_table := table; cp_name := fst half; cp_language := fst lang; cp_utf8 := false |}.

Global Strategy 1000 [get_codepage base_table].
Global Arguments get_codepage : simpl never.
