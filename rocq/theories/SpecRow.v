(** * SpecRow: what the HTML of a receipt says about one thing printed, and how a browser reads it. *)
From Verif Require Import Base Command Vec GTypes Context Handlers Renderer SpecRender ThermalFile HtmlTemplate HtmlRenderer SpecHtml.
Local Open Scope Z_scope.
Local Open Scope list_scope.

(** ** Numbers *)

(** The number a row of decimal digits stands for. *)
Definition read_number (l : list Z) : Z := fold_left (fun n c => 10 * n + (c - 48)) l 0.
Definition is_digit (c : Z) : bool := (48 <=? c) && (c <=? 57).
(** [l] is the usual way to write [n]: digits only, no zeros in front. *)
Definition writes (n : Z) (l : list Z) : Prop :=
  read_number l = n /\ l <> [] /\ forallb is_digit l = true /\ (hd 0 l = 48 -> l = [48]).

(** ** Pieces of text *)

(** A piece of text in a paragraph: its distance from the left edge and from the top of the paragraph
    in dots, its classes, its characters. *)
Record run := mk_run { ru_left : Z; ru_top : Z; ru_classes : list (list Z); ru_text : list Z }.
(** [between sep parts]: the parts with [sep] between them *)
Definition between (sep : Z) (parts : list (list Z)) : list Z :=
  match parts with [] => [] | p :: rest => p ++ flat_map (fun q => sep :: q) rest end.
Definition run_is (r : run) (html : list Z) : Prop := exists left top,
  writes (ru_left r) left /\ writes (ru_top r) top /\
  html = str "<span style='left: " ++ left ++ str "px; top: " ++ top ++ str "px' class='" ++
         between 32 (ru_classes r) ++ str "'>" ++ ru_text r ++ str "</span>".

(** Small characters stand lower than high ones, so that they have the same base line, 78 hundredths
    below their upper edge: exactly, up to a dot. *)
Definition aligned (line_height height top : Z) : Prop :=
  0 <= top /\ top + height <= line_height /\ Z.abs (100 * top + 78 * height - 78 * line_height) <= 100.

(** The printer has four colours: that of the paper and three inks. *)
Inductive palette : Set := Paper | Ink1 | Ink2 | Ink3.
Definition rgb_of (k : palette) : Z * Z * Z :=
  match k with Paper => (255, 255, 255) | Ink1 => (0, 0, 0) | Ink2 => (158, 22, 22) | Ink3 => (27, 57, 169) end.
Definition has_colour (c : rgba) (k : palette) : Prop := (c_r c, c_g c, c_b c) = rgb_of k /\ c_a c = 255.

(** What each class of a piece of text stands for. *)
Inductive class_for (s : text_span) : list Z -> Prop :=
| cl_bold : s_bold s = true -> class_for s (str "b")
| cl_italic : s_italic s = true -> class_for s (str "i")
| cl_strike : 1 <= s_strikethrough s -> class_for s (str "s")
| cl_strike2 : 2 <= s_strikethrough s -> class_for s (str "sd")
| cl_under : 1 <= s_underline s -> class_for s (str "u")
| cl_under2 : 2 <= s_underline s -> class_for s (str "ud")
| cl_upside : s_upside_down s = true -> class_for s (str "upd")
| cl_width : forall n c, 2 <= n <= 8 -> s_stretch_width s = n -> writes n c -> class_for s (119 :: c)
| cl_height : forall n c, 2 <= n <= 8 -> s_stretch_height s = n -> writes n c -> class_for s (104 :: c)
| cl_stretched : 2 <= s_stretch_width s <= 8 \/ 2 <= s_stretch_height s <= 8 -> class_for s (str "str")
| cl_font_b : s_font s = FontB -> class_for s (str "fb")
| cl_font_c : s_font s = FontC -> class_for s (str "fc")
| cl_ink2 : has_colour (s_text_color s) Ink2 -> class_for s (str "fg_2")
| cl_ink3 : has_colour (s_text_color s) Ink3 -> class_for s (str "fg_3")
| cl_paper : (forall k, k <> Paper -> ~ has_colour (s_text_color s) k) -> class_for s (str "fg_0")
| cl_ground1 : has_colour (s_background_color s) Ink1 -> class_for s (str "bg_1")
| cl_ground2 : has_colour (s_background_color s) Ink2 -> class_for s (str "bg_2")
| cl_ground3 : has_colour (s_background_color s) Ink3 -> class_for s (str "bg_3").

(** A piece of text says what is printed in the line: the same characters, as far from the left edge, with the
    classes that stand for how it is printed, each once, and no other. *)
Definition says (offset line_height : Z) (s : text_span) (r : run) : Prop :=
  ru_text r = s_text s /\
  ru_left r = offset + match s_dimensions s with Some d => d_x d | None => 0 end /\
  aligned line_height (s_character_height s) (ru_top r) /\
  NoDup (ru_classes r) /\ (forall c, In c (ru_classes r) <-> class_for s c).

(** ** Rectangles *)

(** A rectangle in a drawing: where it is in the drawing, and how large it is. *)
Definition rect_is (r : rectangle) (html : list Z) : Prop := exists w h x y,
  writes (r_w r) w /\ writes (r_h r) h /\ writes (r_x r) x /\ writes (r_y r) y /\
  html = str "<rect width='" ++ w ++ str "' height='" ++ h ++ str "' x='" ++ x ++ str "' y='" ++ y ++ str "' fill='black' />".
(** [r] is [q] moved *)
Definition moved_by (dx dy : Z) (q r : rectangle) : Prop :=
  r_x r = r_x q + dx /\ r_y r = r_y q + dy /\ r_w r = r_w q /\ r_h r = r_h q.
(** A drawing shows only what is inside it. *)
Definition inside (w h : Z) (r : rectangle) : Prop := 0 <= r_x r /\ 0 <= r_y r /\ r_x r + r_w r <= w /\ r_y r + r_h r <= h.

(** ** What a paragraph shows *)

(** [shows pn ev top height html]: the content [html] of a paragraph of that height whose upper edge is
    [top] dots down the paper shows what the call [ev] prints. *)
Definition shows (pn : pngs) (ev : event) (top height : Z) (html : list Z) : Prop :=
  match ev with
  | EText spans offset line_height _ => exists runs pieces,
      html = between 10 pieces /\ Forall2 run_is runs pieces /\ Forall2 (says offset line_height) spans runs /\ line_height = height
  | EGraphics rects => exists left w left_html w_html h_html drawing pieces,
      html = str "<svg style='left: " ++ left_html ++ str "px;' class='gfx' width='" ++ w_html ++ str "' height='" ++ h_html ++ str "'>" ++
             between 10 pieces ++ str "</svg>" /\
      writes left left_html /\ writes w w_html /\ writes height h_html /\
      Forall2 rect_is drawing pieces /\ Forall2 (moved_by left top) drawing rects /\ Forall (inside w height) drawing
  | EImage i => exists left_html w_html data,
      html = str "<img style='left: " ++ left_html ++ str "px;' class='img' width='" ++ w_html ++ str "' src='data:image/png;base64, " ++ data ++ str "' />" /\
      writes (i_x i) left_html /\ writes (i_w i) w_html /\
      pn (i_w i) (i_h i) (flat_map (fun p => [c_r p; c_g p; c_b p; c_a p]) (i_pixels i)) = Some data
  | _ => False
  end.

(** ** Style sheets *)

Definition blank (c : Z) : bool := (c =? 32) || (c =? 10) || (c =? 13) || (c =? 9).
Fixpoint drop_blank (l : list Z) : list Z := match l with c :: r => if blank c then drop_blank r else l | [] => [] end.
Definition trim (l : list Z) : list Z := rev (drop_blank (rev (drop_blank l))).
(** [split_at sep l]: the parts of [l] between the separators *)
Fixpoint split_at (sep : Z) (l : list Z) : list (list Z) :=
  match l with
  | [] => [[]]
  | c :: r => if c =? sep then [] :: split_at sep r
              else match split_at sep r with p :: ps => (c :: p) :: ps | [] => [[c]] end
  end.
(** A style sheet is a list of rules: a selector, and properties with their values.  In the text, a
    selector is the line in front of a brace (several, with commas, share the properties). *)
Record rule := mk_rule { ru_selector : list Z; ru_property : list Z; ru_value : list Z }.
Definition declarations (l : list Z) : list (list Z * list Z) :=
  flat_map (fun d => match split_at 58 d with p :: v => match trim p with [] => [] | p => [(p, trim (concat v))] end | [] => [] end) (split_at 59 l).
Definition rules_of (selector body : list Z) : list rule :=
  flat_map (fun s => map (fun d => mk_rule (trim s) (fst d) (snd d)) (declarations body)) (split_at 44 selector).
Fixpoint read_sheet (l acc selector : list Z) : list rule :=
  match l with
  | [] => []
  | c :: r =>
      if c =? 123 then read_sheet r [] (trim (last (split_at 10 (rev acc)) []))
      else if c =? 125 then rules_of selector (rev acc) ++ read_sheet r [] []
      else read_sheet r (c :: acc) selector
  end.
(** Which rules a piece of text with the given classes obeys, and how particular each is: the one for every
    piece, those for one class, those for two classes together. *)
Definition has (cs : list (list Z)) (c : list Z) : bool := existsb (fun d => if list_eq_dec Z.eq_dec d c then true else false) cs.
Definition weight (given : list Z -> bool) (selector : list Z) : option Z :=
  match selector with
  | 46 :: r => let names := split_at 46 r in if forallb given names then Some (vlen names) else None
  | _ => if list_eq_dec Z.eq_dec selector (str "span") then Some 0 else None
  end.
(** Of the rules for a property that apply, the most particular one counts, the last of these if there are several. *)
Fixpoint value_from (sheet : list rule) (property : list Z) (given : list Z -> bool) (best : Z * option (list Z)) : option (list Z) :=
  match sheet with
  | [] => snd best
  | r :: rest =>
      value_from rest property given
        (if list_eq_dec Z.eq_dec (ru_property r) property then
           match weight given (ru_selector r) with Some k => if fst best <=? k then (k, Some (ru_value r)) else best | None => best end
         else best)
  end.
Definition value_of (sheet : list rule) (property : string) (cs : list (list Z)) : option (list Z) := value_from sheet (str property) (has cs) (0, None).
(** The style sheet of a document is what is between the tags style and /style. *)
Fixpoint after (p l : list Z) : list Z :=
  match l with [] => [] | _ :: r => if starts_with p l then skipn (length p) l else after p r end.
Fixpoint before (p l : list Z) : list Z :=
  match l with [] => [] | c :: r => if starts_with p l then [] else c :: before p r end.
Definition sheet_of (head : list Z) : list rule := read_sheet (before (str "</style>") (after (str "<style>") head)) [] [].

(** A colour in a style sheet: # and two hexadecimal digits each for red, green, blue and how opaque it is. *)
Definition hex_digit (c : Z) : Z := if c <=? 57 then c - 48 else c - 55.
Definition colour_is (v : list Z) (k : palette) : Prop :=
  match v with
  | [35; r1; r0; g1; g0; b1; b0; a1; a0] =>
      (16 * hex_digit r1 + hex_digit r0, 16 * hex_digit g1 + hex_digit g0, 16 * hex_digit b1 + hex_digit b0) = rgb_of k /\ 16 * hex_digit a1 + hex_digit a0 = 255
  | _ => False
  end.
(** [scaled name n v]: the value [v] is name(n) *)
Definition scaled (name : string) (n : Z) (v : list Z) : Prop := exists d, writes n d /\ v = str name ++ [40] ++ d ++ [41].
