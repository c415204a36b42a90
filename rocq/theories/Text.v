(** * Text: thermal_parser/src/text.rs (text spans and how they are broken). *)
From Verif Require Import Base Vec Float32 GTypes Decoder Context.
Local Open Scope Z_scope.

(** [char::is_whitespace]: the Unicode White_Space property (Rust library) *)
Definition is_whitespace (c : Z) : bool :=
  ((9 <=? c) && (c <=? 13)) || (c =? 32) || (c =? 133) || (c =? 160) || (c =? 5760) ||
  ((8192 <=? c) && (c <=? 8202)) || (c =? 8232) || (c =? 8233) || (c =? 8239) || (c =? 8287) || (c =? 12288).

(** text.rs:36-76 *)
Definition span_new (text : ustring) (c : context) : text_span :=
  let s := c_text c in
  let under := match t_underline s with
               | UnderOn => points_to_pixels c 1 | UnderDouble => points_to_pixels c 2 | UnderOff => 0 end in
  let strike := match t_strikethrough s with
               | StrikeOn => points_to_pixels c 1 | StrikeDouble => points_to_pixels c 2 | StrikeOff => 0 end in
  mk_text_span (t_font s) (t_character_width s * t_width_mult s) (t_character_height s * t_height_mult s)
    (t_character_width s) (t_character_height s) text (t_bold s) (t_italic s) under strike
    (t_width_mult s) (t_height_mult s) (t_invert s) (t_upside_down s) (t_justify s) None
    (t_background_color s) (t_color s).

(** text.rs:78-82 *)
Definition span_new_for_barcode (text : ustring) (c : context) : text_span :=
  set_s_font (bc_font (c_barcode c)) (span_new text c).

(** text.rs:97-99 *)
Definition character_count (s : text_span) : Z := vlen (s_text s).
(** text.rs:93-95 *)
Definition span_width (s : text_span) : res Z := mul_u32 (character_count s) (s_character_width s).
(** text.rs:84-91 *)
Definition get_dimensions (c : context) (s : text_span) : res text_span :=
  do w <- span_width s;
  Ok (set_s_dimensions (Some (mk_dims (get_x c) (get_y c) w (s_character_height s))) s).
(** text.rs:101-124 *)
Definition clone_with (text : ustring) (s : text_span) : text_span :=
  set_s_text text (set_s_dimensions None s).

(** text.rs:153-162: chunks of [n] characters; [fuel] bounds the number of iterations and is
    always passed at least the number of characters, while [n >= 1] *)
Fixpoint chunks (fuel : nat) (n : nat) (chars : ustring) : list ustring :=
  match fuel, chars with
  | S f, _ :: _ => firstn n chars :: chunks f n (skipn n chars)
  | _, _ => []
  end.

(** text.rs:126-165 *)
Definition break_apart (s : text_span) (first_line_length line_length : Z) : res (list text_span) :=
  if line_length =? 0 then Panic PExplicit
  else
    let chars := s_text s in
    let first := (0 <? first_line_length) && (0 <? vlen chars) in
    let head := if first then firstn (Z.to_nat first_line_length) chars else [] in
    let index := if first then first_line_length else 0 in
    let rest := skipn (Z.to_nat index) chars in
    Ok (map (fun t => clone_with t s) (head :: chunks (length rest) (Z.to_nat line_length) rest)).

(** text.rs:167-197 *)
Fixpoint words_loop (current : ustring) (l : ustring) : list ustring :=
  match l with
  | [] => match current with [] => [] | _ => [current] end
  | c :: r => if is_whitespace c then (current ++ [c]) :: words_loop [] r
              else words_loop (current ++ [c]) r
  end.
Definition break_into_words (s : text_span) : list text_span :=
  map (fun t => clone_with t s) (words_loop [] (s_text s)).
