(** * SpecRender: the vocabulary of the rendering properties (C31-C33, C39 and later).

    Read with the OutputRenderer trait only (renderer.rs:591-643): what the calls mean, not how
    Renderer produces them. *)
From Verif Require Import Base Command CommandSet Parser GTypes Decoder Context Text Handlers Renderer.
Local Open Scope Z_scope.
Local Open Scope list_scope.

(** ** C31: sheets *)

(** The sheets a command list ends by a form feed: page mode is switched on by ESC L, off by ESC S
    and by FF, and a form feed ends a sheet only when page mode is off. *)
Fixpoint sheets (page_mode : bool) (l : list command) : nat :=
  match l with
  | [] => 0
  | c :: r =>
      match c_commands c with
      | [12] => (if page_mode then 0 else 1) + sheets false r      (* FF *)
      | [27; 76] => sheets true r                                  (* ESC L *)
      | [27; 83] => sheets false r                                 (* ESC S *)
      | _ => sheets page_mode r
      end
  end.
(** the calls [s'] has beyond [s] *)
Definition new_calls (s s' : rstate) (l : list event) : Prop :=
  exists n, rs_calls s' = rs_calls s ++ n /\ map snd n = l.
(** the number of calls satisfying a test *)
Definition count (f : event -> bool) (l : list event) : nat := length (filter f l).
Definition ends_output (e : event) : bool := match e with EEndRender => true | _ => false end.
Definition begins_output (e : event) : bool := match e with EBeginRender => true | _ => false end.

(** ** C32: text *)

(** A span's style: the span without its text and position. *)
Definition style_of (s : text_span) : text_span := set_s_text [] (set_s_dimensions None s).
(** characters with the style they are to be printed in *)
Definition ink := (text_span * Z)%type.
Definition inked (s : text_span) (t : ustring) : list ink := map (pair (style_of s)) t.
(** The part of a text that is to be seen: a line feed or a tab at the beginning of a word (at the
    start of the text or after a white space) is a movement, everything else is printed. *)
Fixpoint shown (word_start : bool) (t : ustring) : ustring :=
  match t with
  | [] => []
  | c :: r => if word_start && ((c =? 9) || (c =? 10)) then shown true r
              else c :: shown (is_whitespace c) r
  end.
(** what a span waiting to be printed will show *)
Definition span_ink (s : text_span) : list ink := inked s (shown true (s_text s)).
Definition pending (s : rstate) : list ink := flat_map span_ink (rs_spans s).
(** everything the output renderer was given to draw as text, in order *)
Definition drawn (calls : list (context * event)) : list ink :=
  flat_map (fun x => match snd x with EText l _ _ _ => flat_map (fun s => inked s (s_text s)) l | _ => [] end) calls.

(** How often a barcode's text is printed (GS H). *)
Definition copies (h : hri) : nat := match h with HriNone => 0 | HriAbove | HriBelow => 1 | HriBoth => 2 end.
Fixpoint times {A} (n : nat) (l : list A) : list A := match n with O => [] | S k => l ++ times k l end.
(** What a command adds to the text to be printed when the settings are [x]: a text run its decoded
    characters in the current style, CR one carriage-return character, GS k the barcode's text. *)
Definition typed (e : encoders) (c : command) (x : context) : list ink :=
  match c_kind c, c_commands c with
  | KText, [] => span_ink (span_new (decode_utf8 (t_decoder (c_text x)) (c_data c)) x)
  | KText, [13] => inked (span_new [13] x) [13]
  | KGraphics, [29; 107] =>
      match get_graphics e c x with
      | Ok (Some (GBarcode b)) => times (copies (bc_human_readable (c_barcode x))) (span_ink (b_text b))
      | _ => []
      end
  | _, _ => []
  end.
(** ... and a whole run of commands, each under the settings it meets *)
Fixpoint typed_run (e : encoders) (l : list command) (s : rstate) : list ink :=
  match l with
  | [] => []
  | c :: r => typed e c (rs_ctx s) ++
              match process_command e c s with Ok s' => typed_run e r s' | Panic _ => [] end
  end.

(** Where text is put. *)
Definition has_place (s : text_span) : Prop := exists d, s_dimensions s = Some d.
(** [a] is read before [b]: it lies entirely above it, or to its left on the same line *)
Definition reads_before (a b : text_span) : Prop :=
  match s_dimensions a, s_dimensions b with
  | Some p, Some q => d_y p + d_h p <= d_y q \/ (d_y p = d_y q /\ d_x p + d_w p <= d_x q)
  | _, _ => False
  end.
(** the right edge of the area text is wrapped in (ESC W and page mode, GS W and GS L otherwise) *)
Definition right_edge (x : context) : Z := get_base_x x + get_width x.
(** what is visible of the span, moved right by [off], ends before [edge] *)
Definition ends_within (edge off : Z) (s : text_span) : Prop :=
  s_text s <> [] -> exists d, s_dimensions s = Some d /\ d_x d + d_w d + off <= edge.
(** a line holds at least as many of the span's characters as one character is dots wide *)
Definition narrow (x : context) (s : text_span) : Prop := s_character_width s * s_character_width s <= get_width x.
(** [b] follows [a] directly on the same line, or it starts a new line because it would not have fitted *)
Definition wraps (x : context) (a b : text_span) : Prop :=
  match s_dimensions a, s_dimensions b with
  | Some p, Some q =>
      (d_y q = d_y p /\ d_x q = d_x p + d_w p) \/
      (d_y p + d_h p <= d_y q /\ d_x q = get_base_x x /\ right_edge x < d_x p + d_w p + d_w q)
  | _, _ => False
  end.
(** the lines of text handed to the output renderer, each with the shift its justification asks for *)
Definition lines_of (calls : list (context * event)) : list (list text_span * Z) :=
  flat_map (fun x => match snd x with EText l off _ _ => [(l, off)] | _ => [] end) calls.
