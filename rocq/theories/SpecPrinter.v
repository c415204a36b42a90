(** * SpecPrinter: the vocabulary of the printer-state properties (C19-C24, C31-C33).

    Nothing here refers to the handlers of the crate: the text settings a command may touch, as the
    ESC/POS documentation lists them, and what "the printer's history" means. *)
From Verif Require Import Base Command CommandSet Parser GTypes Decoder Context Handlers Renderer Origin.
Local Open Scope Z_scope.
Local Open Scope list_scope.

(** A state of the renderer that some history of jobs leads to: a fresh renderer that executed
    commands the parser reports for some byte strings. *)
Definition history (e : encoders) (s : rstate) : Prop :=
  exists l, Forall sent l /\ run_commands e l renderer_new = Ok s.

(** The text settings. *)
Inductive tfield :=
| FCharWidth | FCharHeight | FCharSet | FCodeTable | FDecoder | FFontSize | FJustify | FFont | FBold
| FItalic | FUnderline | FStrike | FInvert | FWidthMult | FHeightMult | FUpsideDown | FLineSpacing
| FColor | FBackground | FShadowColor | FShadow | FSmoothing | FTabs.
(** [agrees f t t']: the two text settings have the same value of field [f] *)
Definition agrees (f : tfield) (t t' : text_ctx) : Prop :=
  match f with
  | FCharWidth => t_character_width t' = t_character_width t
  | FCharHeight => t_character_height t' = t_character_height t
  | FCharSet => t_character_set t' = t_character_set t
  | FCodeTable => t_code_table t' = t_code_table t
  | FDecoder => t_decoder t' = t_decoder t
  | FFontSize => t_font_size t' = t_font_size t
  | FJustify => t_justify t' = t_justify t
  | FFont => t_font t' = t_font t
  | FBold => t_bold t' = t_bold t
  | FItalic => t_italic t' = t_italic t
  | FUnderline => t_underline t' = t_underline t
  | FStrike => t_strikethrough t' = t_strikethrough t
  | FInvert => t_invert t' = t_invert t
  | FWidthMult => t_width_mult t' = t_width_mult t
  | FHeightMult => t_height_mult t' = t_height_mult t
  | FUpsideDown => t_upside_down t' = t_upside_down t
  | FLineSpacing => t_line_spacing t' = t_line_spacing t
  | FColor => t_color t' = t_color t
  | FBackground => t_background_color t' = t_background_color t
  | FShadowColor => t_shadow_color t' = t_shadow_color t
  | FShadow => t_shadow t' = t_shadow t
  | FSmoothing => t_smoothing t' = t_smoothing t
  | FTabs => t_tabs t' = t_tabs t
  end.

(** The style commands, by their wire prefix, and the settings each may change. *)
Definition style_table : list (list Z * list tfield) :=
  [ ([27; 114], [FColor]);                                          (* ESC r: print colour *)
    ([29; 66], [FInvert; FColor; FBackground]);                     (* GS B: white on black *)
    ([29; 40; 78], [FColor; FBackground; FShadow; FShadowColor]);   (* GS ( N: character effects *)
    ([29; 33], [FWidthMult; FHeightMult]);                          (* GS !: character size *)
    ([27; 116], [FCodeTable; FDecoder]);                            (* ESC t: code page *)
    ([27; 82], [FCharSet; FDecoder]);                               (* ESC R: international set *)
    ([27; 71], [FStrike]);                                          (* ESC G: double strike *)
    ([27; 69], [FBold]);                                            (* ESC E: emphasis *)
    ([27; 77], [FFont; FCharWidth; FCharHeight]);                   (* ESC M: font *)
    ([27; 52], [FItalic]);                                          (* ESC 4: italic *)
    ([29; 98], [FSmoothing]);                                       (* GS b: smoothing *)
    ([27; 123], [FUpsideDown]);                                     (* ESC {: upside down *)
    ([27; 45], [FUnderline]);                                       (* ESC -: underline *)
    ([27; 33], [FFont; FCharWidth; FCharHeight; FBold; FWidthMult; FHeightMult; FUnderline]); (* ESC ! *)
    ([27; 68], [FTabs]) ].                                          (* ESC D: tab stops *)

(** The settings commands (kind Context) that act at once, and which record they may change. *)
Inductive part := PText (fs : list tfield) | PBarcode | PGraphics.
Definition setting_table : list (list Z * part) :=
  [ ([27; 50], PText [FLineSpacing]);      (* ESC 2 *)
    ([27; 51], PText [FLineSpacing]);      (* ESC 3 *)
    ([29; 102], PBarcode);                 (* GS f *)
    ([29; 104], PBarcode);                 (* GS h *)
    ([29; 72], PBarcode);                  (* GS H *)
    ([29; 119], PBarcode);                 (* GS w *)
    ([29; 80], PGraphics);                 (* GS P *)
    ([29; 40; 71], PText []) ].            (* GS ( G: ignored *)

(** Everything but the text settings is as before, and of those only [fs] may differ. *)
Definition only_text (fs : list tfield) (c c' : context) : Prop :=
  (forall f, ~ In f fs -> agrees f (c_text c) (c_text c')) /\
  ctx_default c' = ctx_default c /\ c_barcode c' = c_barcode c /\ c_code2d c' = c_code2d c /\
  c_graphics c' = c_graphics c /\ c_page c' = c_page c.

(** The cell of a font: 12x24 for font A, 9x17 for every other font. *)
Definition cell_of (f : font) : Z * Z := match f with FontA => (12, 24) | _ => (9, 17) end.

(** What holds of the printer's settings in every state (C21).  [ok_decoder]: the decoder in use is
    the one belonging to the selected code table and character set. *)
Record settings_ok (c : context) : Prop := mk_settings_ok {
  ok_default : ctx_default c = ctx_default context_new;
  ok_cell : (t_character_width (c_text c), t_character_height (c_text c)) = cell_of (t_font (c_text c));
  ok_wmult : 1 <= t_width_mult (c_text c) <= 8;
  ok_hmult : 1 <= t_height_mult (c_text c) <= 8;
  ok_spacing : 0 <= t_line_spacing (c_text c) <= 255;
  ok_tabs : length (t_tabs (c_text c)) = 32%nat /\ bytes_ok (t_tabs (c_text c)) = true;
  ok_table : 0 <= t_code_table (c_text c) <= 255 /\ 0 <= t_character_set (c_text c) <= 255;
  ok_decoder : t_decoder (c_text c) = t_decoder (c_text (update_decoder c));
  ok_bc_width : 2 <= bc_width (c_barcode c) <= 6;
  ok_bc_height : 0 <= bc_height (c_barcode c) <= 255;
  ok_dpi : In (g_dots_per_inch (c_graphics c)) [203; 180; 360];
  ok_motion : 0 <= g_h_motion_unit (c_graphics c) <= 255 /\ 0 <= g_v_motion_unit (c_graphics c) <= 255;
  ok_colors : g_render_colors (c_graphics c) = g_render_colors (c_graphics context_new);
  ok_paper : g_paper_area (c_graphics c) = g_paper_area (c_graphics context_new);
  ok_width : a_w (g_render_area (c_graphics c)) = 609 }.

(** The step only told the output renderer about device commands: nothing was drawn. *)
Definition draws_nothing (s s' : rstate) : Prop :=
  exists new, rs_calls s' = rs_calls s ++ new /\
    Forall (fun x => match snd x with EDevice _ => True | _ => False end) new.

(** Of the settings only the named part may differ. *)
Definition only_part (k : part) (c c' : context) : Prop :=
  match k with
  | PText fs => only_text fs c c'
  | PBarcode => ctx_default c' = ctx_default c /\ c_text c' = c_text c /\ c_code2d c' = c_code2d c /\
                c_graphics c' = c_graphics c /\ c_page c' = c_page c
  | PGraphics => ctx_default c' = ctx_default c /\ c_text c' = c_text c /\ c_code2d c' = c_code2d c /\
                 c_barcode c' = c_barcode c /\ c_page c' = c_page c /\
                 let g := c_graphics c in let g' := c_graphics c' in
                 g_render_area g' = g_render_area g /\ g_render_colors g' = g_render_colors g /\
                 g_paper_area g' = g_paper_area g /\ g_dots_per_inch g' = g_dots_per_inch g /\
                 g_stored_graphics g' = g_stored_graphics g /\ g_buffer_graphics g' = g_buffer_graphics g
  end.

(** the command's [i]-th parameter byte, 0 when it is missing *)
Definition param (c : command) (i : nat) : Z := nth i (c_data c) 0.

(** The codes of the argument tables of ESC M, ESC -, ESC a. *)
Definition font_code (n : Z) : font :=
  if (n =? 1) || (n =? 49) then FontB else if (n =? 2) || (n =? 50) then FontC
  else if (n =? 3) || (n =? 51) then FontD else if (n =? 4) || (n =? 52) then FontE
  else if n =? 97 then FontSpecialA else if n =? 98 then FontSpecialB else FontA.
Definition underline_code (n : Z) : underline :=
  if (n =? 1) || (n =? 49) then UnderOn else if (n =? 2) || (n =? 50) then UnderDouble else UnderOff.
Definition justify_code (n : Z) : text_justify :=
  if (n =? 1) || (n =? 49) then JCenter else if (n =? 2) || (n =? 50) then JRight else JLeft.

(** Quarter turns of a rotation and of a print direction (0 = the standard one). *)
Definition turns (r : rotation) : Z := match r with R0 => 0 | R90 => 1 | R180 => 2 | R270 => 3 end.
Definition direction_code (d : direction) : Z :=
  match d with TopLeft2Right => 0 | BottomLeft2Top => 1 | BottomRight2Left => 2 | TopRight2Bottom => 3 end.
(** the quarter turns the output renderer was told to make so far *)
Fixpoint turned (calls : list (context * event)) : Z :=
  match calls with
  | [] => 0
  | (_, EPageAreaChanged r _ _) :: l => turns r + turned l
  | _ :: l => turned l
  end.
(** Histories in which the print direction (ESC T) is only set while in page mode. *)
Inductive page_history (e : encoders) : rstate -> Prop :=
| ph_start : page_history e renderer_new
| ph_step c s s' : page_history e s -> sent c ->
    (c_commands c = [27; 84] -> p_enabled (c_page (rs_ctx s)) = true) ->
    process_command e c s = Ok s' -> page_history e s'.

(** A page of width [w] and height [h] in standard orientation, as it lies for direction [d]. *)
Definition oriented (d : direction) (w h : Z) : Z * Z :=
  match d with TopLeft2Right | BottomRight2Left => (w, h) | _ => (h, w) end.
(** directions in which the page lies on its side *)
Definition should_swap (d : direction) : bool :=
  match d with TopLeft2Right | BottomRight2Left => false | TopRight2Bottom | BottomLeft2Top => true end.
