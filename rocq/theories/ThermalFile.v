(** * ThermalFile: thermal_parser/src/thermal_file.rs, the readable .thermal format.

    A Rust [str] is its list of Unicode scalar values.  The byte spans of [parse_tokens] always lie
    on character boundaries (they advance by [len_utf8], or by 1 over a quote or a backslash), so a span is
    the list of characters it covers and no slice can panic. *)
From Verif Require Import Base Command Vec GTypes SpecText Handlers Text Utf8.
Local Open Scope Z_scope.
Local Open Scope list_scope.

(** an ASCII literal of the source *)
Fixpoint str (s : string) : list Z :=
  match s with EmptyString => [] | String a r => Z.of_nat (nat_of_ascii a) :: str r end.
(** the bytes of a string ([as_bytes]) *)
Definition as_bytes (t : list Z) : list Z := utf8_encode t.
Fixpoint str_eqb (a b : list Z) : bool :=
  match a, b with [], [] => true | x :: a, y :: b => (x =? y) && str_eqb a b | _, _ => false end.
Fixpoint starts_with (p l : list Z) : bool :=
  match p, l with [], _ => true | x :: p, y :: l => (x =? y) && starts_with p l | _, _ => false end.

(** [str::lines] (Rust library): split after each line feed; a line feed is removed together with a
    carriage return before it; the last line needs no line feed *)
Definition strip_cr (l : list Z) : list Z :=
  match rev l with 13 :: r => rev r | _ => l end.
Fixpoint lines_from (cur : list Z) (l : list Z) : list (list Z) :=
  match l with
  | [] => match cur with [] => [] | _ => [cur] end
  | c :: r => if c =? 10 then strip_cr cur :: lines_from [] r else lines_from (cur ++ [c]) r
  end.
Definition lines (l : list Z) : list (list Z) := lines_from [] l.

(** [str::trim] *)
Fixpoint trim_start (l : list Z) : list Z :=
  match l with c :: r => if is_whitespace c then trim_start r else l | [] => [] end.
Definition trim (l : list Z) : list Z := rev (trim_start (rev (trim_start l))).

(** [char::is_ascii_whitespace] *)
Definition is_ascii_whitespace (c : Z) : bool := (c =? 32) || (c =? 9) || (c =? 10) || (c =? 12) || (c =? 13).

(** [u8::from_str_radix] and [str::parse::<u8>] (Rust library): an optional plus sign, at least one
    digit, no overflow *)
Definition digit_value (radix c : Z) : option Z :=
  let d := if (48 <=? c) && (c <=? 57) then c - 48
           else if (97 <=? c) && (c <=? 122) then c - 97 + 10
           else if (65 <=? c) && (c <=? 90) then c - 65 + 10
           else 255 in
  if d <? radix then Some d else None.
Fixpoint parse_digits (radix acc : Z) (l : list Z) : option Z :=
  match l with
  | [] => Some acc
  | c :: r =>
      match digit_value radix c with
      | Some d => if acc * radix + d <=? 255 then parse_digits radix (acc * radix + d) r else None
      | None => None
      end
  end.
Definition parse_u8 (radix : Z) (l : list Z) : option Z :=
  match l with
  | [] => None
  | [43] | [45] => None
  | 43 :: r => parse_digits radix 0 r
  | _ => parse_digits radix 0 l
  end.

(** thermal_file.rs:42-43 *)
Definition COMMENT_PREFIX : list Z := str "'//".
Definition HEX_PREFIX : list Z := str "0x".

(** thermal_file.rs:58-70: the named constants *)
Definition const_table : list (list Z * Z) :=
  [(str "NUL", NUL); (str "ESC", ESC); (str "HT", HT); (str "LF", LF); (str "FF", FF);
   (str "CR", CR); (str "GS", GS); (str "FS", FS); (str "DLE", DLE); (str "CAN", CAN)].
Definition const_of (t : list Z) : option Z :=
  match find (fun x => str_eqb (fst x) t) const_table with Some (_, b) => Some b | None => None end.

(** thermal_file.rs:58-100: one token *)
Definition token_bytes (t : list Z) : list Z :=
  match const_of t with
  | Some b => [b]
  | None =>
      if starts_with HEX_PREFIX t then
        match parse_u8 16 (skipn 2 t) with Some b => [b] | None => [] end
      else if starts_with [34] t then
        as_bytes (skipn 1 (replace2 92 34 [34] (replace2 92 92 [92] t)))
      else match parse_u8 10 t with Some b => [b] | None => as_bytes t end
  end.

(** thermal_file.rs:109-190.  [cur] is the text of the span; tokens are emitted in order. *)
Fixpoint tokens_from (cur : list Z) (gobble esc : bool) (l : list Z) : list (list Z) :=
  match l with
  | [] => match cur with [] => [] | _ => [cur] end
  | c :: r =>
      if gobble then
        if (c =? 92) && esc then tokens_from (cur ++ [c]) true false r
        else if (c =? 34) && esc then tokens_from (cur ++ [c]) true false r
        else if c =? 92 then tokens_from (cur ++ [c]) true true r
        else if c =? 34 then cur :: tokens_from [] false false r
        else tokens_from (cur ++ [c]) true false r
      else if c =? 34 then tokens_from [34] true false r
      else if is_ascii_whitespace c then
        match cur with [] => tokens_from [] false esc r | _ => cur :: tokens_from [] false esc r end
      else tokens_from (cur ++ [c]) false esc r
  end.
Definition parse_tokens (line : list Z) : list (list Z) := tokens_from [] false false line.

(** thermal_file.rs:46-107 *)
Definition line_skipped (line : list Z) : bool :=
  starts_with COMMENT_PREFIX line || match trim line with [] => true | _ => false end.
Definition line_bytes (line : list Z) : list Z :=
  if line_skipped line then [] else flat_map token_bytes (parse_tokens line).
Definition parse_str (text : list Z) : list Z := flat_map line_bytes (lines text).

(** ** Writing *)

(** a byte formatted in decimal and as two upper-case hexadecimal digits *)
Definition dec (b : Z) : list Z :=
  if b <? 10 then [48 + b]
  else if b <? 100 then [48 + b / 10; 48 + b mod 10]
  else [48 + b / 100; 48 + b / 10 mod 10; 48 + b mod 10].
Definition hex_digit (d : Z) : Z := if d <? 10 then 48 + d else 65 + d - 10.
Definition hex2 (b : Z) : list Z := [hex_digit (b / 16); hex_digit (b mod 16)].

(** thermal_file.rs:256-268 *)
Definition try_const (b : Z) : list Z :=
  match b with
  | 27 => str "ESC" | 29 => str "GS" | 28 => str "FS" | 12 => str "FF" | 0 => str "NUL"
  | 13 => str "CR" | 16 => str "DLE" | 24 => str "CAN"
  | _ => str "0x" ++ hex2 b
  end.
(** thermal_file.rs:273-292 *)
Definition try_string (b : Z) : list Z :=
  if (b <? 128) && ((b <? 32) || (b =? 127)) then dec b
  else if b =? 92 then [34; 92; 92; 34]
  else if b =? 34 then [34; 92; 34; 34]
  else match from_utf8 [b] with Some s => [34] ++ s ++ [34] | None => dec b end.

(** thermal_file.rs:294-321 *)
Definition explain_unknown (data : list Z) : list Z :=
  match data with
  | first :: second :: rest =>
      try_const first ++ [32] ++ try_string second ++ [32] ++ flat_map (fun b => try_const b ++ [32]) rest
  | [first] => try_const first
  | [] => str "'// No bytes provided"
  end.
(** thermal_file.rs:323-340 *)
Definition explain_command (rc : list Z) : list Z :=
  match rc with
  | [] => []
  | first :: rest => try_const first ++ [32] ++ flat_map (fun b => try_string b ++ [32]) rest
  end.

(** [data.chunks(32)] *)
Fixpoint chunks_of (fuel : nat) (n : nat) (l : list Z) : list (list Z) :=
  match fuel, l with
  | S f, _ :: _ => firstn n l :: chunks_of f n (skipn n l)
  | _, _ => []
  end.
(** thermal_file.rs:232-249 *)
Definition data_text (data : list Z) : list Z :=
  if vlen data <? 10 then flat_map (fun b => [32] ++ dec b) data
  else [10] ++ flat_map (fun chunk => trim (flat_map (fun b => [32] ++ str "0x" ++ hex2 b) chunk) ++ [10])
                 (chunks_of (length data) 32 data).

(** thermal_file.rs:209-254 *)
Definition cmd_to_thermal (c : command) : list Z :=
  let '(commands, data) := get_command_bytes c in
  match c_kind c with
  | KText =>
      match commands with
      | 10 :: _ => str "LF " ++ [10]
      | _ => [34] ++ from_utf8_lossy data ++ [34; 10]
      end
  | KUnknown => str "'// Unknown command " ++ [10; 32] ++ explain_unknown data ++ [10; 10]
  | _ => str "'// " ++ str (c_name c) ++ [10] ++ explain_command commands ++ data_text data ++ [10; 10]
  end.

(** thermal_file.rs:199-207 *)
Definition cmds_to_thermal (l : list command) : list Z := flat_map cmd_to_thermal l.

(** thermal_file.rs:192-195: always empty *)
Definition parse_binary (bytes : list Z) : list (list Z) := [].
