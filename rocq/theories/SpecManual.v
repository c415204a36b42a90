(** * SpecManual: the vocabulary of C61: the printer's settings as the command manual describes them.

    A flat list of settings, their values after power-on, and what each command of the manual does to
    them, read off the command's bytes and parameters only.  Nothing here refers to the parser's command
    objects (kinds, handlers) or to the way the crate executes them. *)
From Verif Require Import Base Command GTypes Handlers SpecPrinter SpecMemory SpecRender Decoder Context Origin Renderer.
Local Open Scope Z_scope.
Local Open Scope list_scope.

Record panel := mk_panel {
  m_font : font;
  m_wide : Z;
  m_high : Z;
  m_bold : bool;
  m_italic : bool;
  m_under : underline;
  m_strike : strikethrough;
  m_invert : bool;
  m_upside : bool;
  m_smooth : bool;
  m_ink : rgba;
  m_back : rgba;
  m_shadow : bool;
  m_shade : rgba;
  m_place : text_justify;
  m_spacing : Z;
  m_table : Z;
  m_charset : Z;
  m_tabs : list Z;
  m_bar_height : Z;
  m_bar_width : Z;
  m_bar_text : hri;
  m_bar_font : font;
  m_dpi : Z;
  m_h_unit : Z;
  m_v_unit : Z }.
(** m_font: the font: ESC M, ESC !; m_wide: times as wide: GS !, ESC !; m_high: times as high: GS !, ESC !; m_bold: ESC E, ESC !; m_italic: ESC 4; m_under: ESC -, ESC !; m_strike: ESC G; m_invert: GS B; m_upside: ESC {; m_smooth: GS b; m_ink: the colour of the characters: ESC r, GS B, GS ( N; m_back: the colour behind them: GS B, GS ( N; m_shadow: GS ( N; m_shade: the colour of the shadow: GS ( N; m_place: ESC a; m_spacing: dots from line to line: ESC 2, ESC 3; m_table: code table: ESC t; m_charset: international character set: ESC R; m_tabs: tab stops: ESC D; m_bar_height: GS h; m_bar_width: GS w; m_bar_text: GS H; m_bar_font: GS f; m_dpi: dots per inch: GS ( L, function 49; m_h_unit: horizontal motion unit: GS P; m_v_unit: vertical motion unit: GS P *)

Definition with_font (v : font) (m : panel) : panel := mk_panel v (m_wide m) (m_high m) (m_bold m) (m_italic m) (m_under m) (m_strike m) (m_invert m) (m_upside m) (m_smooth m) (m_ink m) (m_back m) (m_shadow m) (m_shade m) (m_place m) (m_spacing m) (m_table m) (m_charset m) (m_tabs m) (m_bar_height m) (m_bar_width m) (m_bar_text m) (m_bar_font m) (m_dpi m) (m_h_unit m) (m_v_unit m).
Definition with_wide (v : Z) (m : panel) : panel := mk_panel (m_font m) v (m_high m) (m_bold m) (m_italic m) (m_under m) (m_strike m) (m_invert m) (m_upside m) (m_smooth m) (m_ink m) (m_back m) (m_shadow m) (m_shade m) (m_place m) (m_spacing m) (m_table m) (m_charset m) (m_tabs m) (m_bar_height m) (m_bar_width m) (m_bar_text m) (m_bar_font m) (m_dpi m) (m_h_unit m) (m_v_unit m).
Definition with_high (v : Z) (m : panel) : panel := mk_panel (m_font m) (m_wide m) v (m_bold m) (m_italic m) (m_under m) (m_strike m) (m_invert m) (m_upside m) (m_smooth m) (m_ink m) (m_back m) (m_shadow m) (m_shade m) (m_place m) (m_spacing m) (m_table m) (m_charset m) (m_tabs m) (m_bar_height m) (m_bar_width m) (m_bar_text m) (m_bar_font m) (m_dpi m) (m_h_unit m) (m_v_unit m).
Definition with_bold (v : bool) (m : panel) : panel := mk_panel (m_font m) (m_wide m) (m_high m) v (m_italic m) (m_under m) (m_strike m) (m_invert m) (m_upside m) (m_smooth m) (m_ink m) (m_back m) (m_shadow m) (m_shade m) (m_place m) (m_spacing m) (m_table m) (m_charset m) (m_tabs m) (m_bar_height m) (m_bar_width m) (m_bar_text m) (m_bar_font m) (m_dpi m) (m_h_unit m) (m_v_unit m).
Definition with_italic (v : bool) (m : panel) : panel := mk_panel (m_font m) (m_wide m) (m_high m) (m_bold m) v (m_under m) (m_strike m) (m_invert m) (m_upside m) (m_smooth m) (m_ink m) (m_back m) (m_shadow m) (m_shade m) (m_place m) (m_spacing m) (m_table m) (m_charset m) (m_tabs m) (m_bar_height m) (m_bar_width m) (m_bar_text m) (m_bar_font m) (m_dpi m) (m_h_unit m) (m_v_unit m).
Definition with_under (v : underline) (m : panel) : panel := mk_panel (m_font m) (m_wide m) (m_high m) (m_bold m) (m_italic m) v (m_strike m) (m_invert m) (m_upside m) (m_smooth m) (m_ink m) (m_back m) (m_shadow m) (m_shade m) (m_place m) (m_spacing m) (m_table m) (m_charset m) (m_tabs m) (m_bar_height m) (m_bar_width m) (m_bar_text m) (m_bar_font m) (m_dpi m) (m_h_unit m) (m_v_unit m).
Definition with_strike (v : strikethrough) (m : panel) : panel := mk_panel (m_font m) (m_wide m) (m_high m) (m_bold m) (m_italic m) (m_under m) v (m_invert m) (m_upside m) (m_smooth m) (m_ink m) (m_back m) (m_shadow m) (m_shade m) (m_place m) (m_spacing m) (m_table m) (m_charset m) (m_tabs m) (m_bar_height m) (m_bar_width m) (m_bar_text m) (m_bar_font m) (m_dpi m) (m_h_unit m) (m_v_unit m).
Definition with_invert (v : bool) (m : panel) : panel := mk_panel (m_font m) (m_wide m) (m_high m) (m_bold m) (m_italic m) (m_under m) (m_strike m) v (m_upside m) (m_smooth m) (m_ink m) (m_back m) (m_shadow m) (m_shade m) (m_place m) (m_spacing m) (m_table m) (m_charset m) (m_tabs m) (m_bar_height m) (m_bar_width m) (m_bar_text m) (m_bar_font m) (m_dpi m) (m_h_unit m) (m_v_unit m).
Definition with_upside (v : bool) (m : panel) : panel := mk_panel (m_font m) (m_wide m) (m_high m) (m_bold m) (m_italic m) (m_under m) (m_strike m) (m_invert m) v (m_smooth m) (m_ink m) (m_back m) (m_shadow m) (m_shade m) (m_place m) (m_spacing m) (m_table m) (m_charset m) (m_tabs m) (m_bar_height m) (m_bar_width m) (m_bar_text m) (m_bar_font m) (m_dpi m) (m_h_unit m) (m_v_unit m).
Definition with_smooth (v : bool) (m : panel) : panel := mk_panel (m_font m) (m_wide m) (m_high m) (m_bold m) (m_italic m) (m_under m) (m_strike m) (m_invert m) (m_upside m) v (m_ink m) (m_back m) (m_shadow m) (m_shade m) (m_place m) (m_spacing m) (m_table m) (m_charset m) (m_tabs m) (m_bar_height m) (m_bar_width m) (m_bar_text m) (m_bar_font m) (m_dpi m) (m_h_unit m) (m_v_unit m).
Definition with_ink (v : rgba) (m : panel) : panel := mk_panel (m_font m) (m_wide m) (m_high m) (m_bold m) (m_italic m) (m_under m) (m_strike m) (m_invert m) (m_upside m) (m_smooth m) v (m_back m) (m_shadow m) (m_shade m) (m_place m) (m_spacing m) (m_table m) (m_charset m) (m_tabs m) (m_bar_height m) (m_bar_width m) (m_bar_text m) (m_bar_font m) (m_dpi m) (m_h_unit m) (m_v_unit m).
Definition with_back (v : rgba) (m : panel) : panel := mk_panel (m_font m) (m_wide m) (m_high m) (m_bold m) (m_italic m) (m_under m) (m_strike m) (m_invert m) (m_upside m) (m_smooth m) (m_ink m) v (m_shadow m) (m_shade m) (m_place m) (m_spacing m) (m_table m) (m_charset m) (m_tabs m) (m_bar_height m) (m_bar_width m) (m_bar_text m) (m_bar_font m) (m_dpi m) (m_h_unit m) (m_v_unit m).
Definition with_shadow (v : bool) (m : panel) : panel := mk_panel (m_font m) (m_wide m) (m_high m) (m_bold m) (m_italic m) (m_under m) (m_strike m) (m_invert m) (m_upside m) (m_smooth m) (m_ink m) (m_back m) v (m_shade m) (m_place m) (m_spacing m) (m_table m) (m_charset m) (m_tabs m) (m_bar_height m) (m_bar_width m) (m_bar_text m) (m_bar_font m) (m_dpi m) (m_h_unit m) (m_v_unit m).
Definition with_shade (v : rgba) (m : panel) : panel := mk_panel (m_font m) (m_wide m) (m_high m) (m_bold m) (m_italic m) (m_under m) (m_strike m) (m_invert m) (m_upside m) (m_smooth m) (m_ink m) (m_back m) (m_shadow m) v (m_place m) (m_spacing m) (m_table m) (m_charset m) (m_tabs m) (m_bar_height m) (m_bar_width m) (m_bar_text m) (m_bar_font m) (m_dpi m) (m_h_unit m) (m_v_unit m).
Definition with_place (v : text_justify) (m : panel) : panel := mk_panel (m_font m) (m_wide m) (m_high m) (m_bold m) (m_italic m) (m_under m) (m_strike m) (m_invert m) (m_upside m) (m_smooth m) (m_ink m) (m_back m) (m_shadow m) (m_shade m) v (m_spacing m) (m_table m) (m_charset m) (m_tabs m) (m_bar_height m) (m_bar_width m) (m_bar_text m) (m_bar_font m) (m_dpi m) (m_h_unit m) (m_v_unit m).
Definition with_spacing (v : Z) (m : panel) : panel := mk_panel (m_font m) (m_wide m) (m_high m) (m_bold m) (m_italic m) (m_under m) (m_strike m) (m_invert m) (m_upside m) (m_smooth m) (m_ink m) (m_back m) (m_shadow m) (m_shade m) (m_place m) v (m_table m) (m_charset m) (m_tabs m) (m_bar_height m) (m_bar_width m) (m_bar_text m) (m_bar_font m) (m_dpi m) (m_h_unit m) (m_v_unit m).
Definition with_table (v : Z) (m : panel) : panel := mk_panel (m_font m) (m_wide m) (m_high m) (m_bold m) (m_italic m) (m_under m) (m_strike m) (m_invert m) (m_upside m) (m_smooth m) (m_ink m) (m_back m) (m_shadow m) (m_shade m) (m_place m) (m_spacing m) v (m_charset m) (m_tabs m) (m_bar_height m) (m_bar_width m) (m_bar_text m) (m_bar_font m) (m_dpi m) (m_h_unit m) (m_v_unit m).
Definition with_charset (v : Z) (m : panel) : panel := mk_panel (m_font m) (m_wide m) (m_high m) (m_bold m) (m_italic m) (m_under m) (m_strike m) (m_invert m) (m_upside m) (m_smooth m) (m_ink m) (m_back m) (m_shadow m) (m_shade m) (m_place m) (m_spacing m) (m_table m) v (m_tabs m) (m_bar_height m) (m_bar_width m) (m_bar_text m) (m_bar_font m) (m_dpi m) (m_h_unit m) (m_v_unit m).
Definition with_tabs (v : list Z) (m : panel) : panel := mk_panel (m_font m) (m_wide m) (m_high m) (m_bold m) (m_italic m) (m_under m) (m_strike m) (m_invert m) (m_upside m) (m_smooth m) (m_ink m) (m_back m) (m_shadow m) (m_shade m) (m_place m) (m_spacing m) (m_table m) (m_charset m) v (m_bar_height m) (m_bar_width m) (m_bar_text m) (m_bar_font m) (m_dpi m) (m_h_unit m) (m_v_unit m).
Definition with_bar_height (v : Z) (m : panel) : panel := mk_panel (m_font m) (m_wide m) (m_high m) (m_bold m) (m_italic m) (m_under m) (m_strike m) (m_invert m) (m_upside m) (m_smooth m) (m_ink m) (m_back m) (m_shadow m) (m_shade m) (m_place m) (m_spacing m) (m_table m) (m_charset m) (m_tabs m) v (m_bar_width m) (m_bar_text m) (m_bar_font m) (m_dpi m) (m_h_unit m) (m_v_unit m).
Definition with_bar_width (v : Z) (m : panel) : panel := mk_panel (m_font m) (m_wide m) (m_high m) (m_bold m) (m_italic m) (m_under m) (m_strike m) (m_invert m) (m_upside m) (m_smooth m) (m_ink m) (m_back m) (m_shadow m) (m_shade m) (m_place m) (m_spacing m) (m_table m) (m_charset m) (m_tabs m) (m_bar_height m) v (m_bar_text m) (m_bar_font m) (m_dpi m) (m_h_unit m) (m_v_unit m).
Definition with_bar_text (v : hri) (m : panel) : panel := mk_panel (m_font m) (m_wide m) (m_high m) (m_bold m) (m_italic m) (m_under m) (m_strike m) (m_invert m) (m_upside m) (m_smooth m) (m_ink m) (m_back m) (m_shadow m) (m_shade m) (m_place m) (m_spacing m) (m_table m) (m_charset m) (m_tabs m) (m_bar_height m) (m_bar_width m) v (m_bar_font m) (m_dpi m) (m_h_unit m) (m_v_unit m).
Definition with_bar_font (v : font) (m : panel) : panel := mk_panel (m_font m) (m_wide m) (m_high m) (m_bold m) (m_italic m) (m_under m) (m_strike m) (m_invert m) (m_upside m) (m_smooth m) (m_ink m) (m_back m) (m_shadow m) (m_shade m) (m_place m) (m_spacing m) (m_table m) (m_charset m) (m_tabs m) (m_bar_height m) (m_bar_width m) (m_bar_text m) v (m_dpi m) (m_h_unit m) (m_v_unit m).
Definition with_dpi (v : Z) (m : panel) : panel := mk_panel (m_font m) (m_wide m) (m_high m) (m_bold m) (m_italic m) (m_under m) (m_strike m) (m_invert m) (m_upside m) (m_smooth m) (m_ink m) (m_back m) (m_shadow m) (m_shade m) (m_place m) (m_spacing m) (m_table m) (m_charset m) (m_tabs m) (m_bar_height m) (m_bar_width m) (m_bar_text m) (m_bar_font m) v (m_h_unit m) (m_v_unit m).
Definition with_h_unit (v : Z) (m : panel) : panel := mk_panel (m_font m) (m_wide m) (m_high m) (m_bold m) (m_italic m) (m_under m) (m_strike m) (m_invert m) (m_upside m) (m_smooth m) (m_ink m) (m_back m) (m_shadow m) (m_shade m) (m_place m) (m_spacing m) (m_table m) (m_charset m) (m_tabs m) (m_bar_height m) (m_bar_width m) (m_bar_text m) (m_bar_font m) (m_dpi m) v (m_v_unit m).
Definition with_v_unit (v : Z) (m : panel) : panel := mk_panel (m_font m) (m_wide m) (m_high m) (m_bold m) (m_italic m) (m_under m) (m_strike m) (m_invert m) (m_upside m) (m_smooth m) (m_ink m) (m_back m) (m_shadow m) (m_shade m) (m_place m) (m_spacing m) (m_table m) (m_charset m) (m_tabs m) (m_bar_height m) (m_bar_width m) (m_bar_text m) (m_bar_font m) (m_dpi m) (m_h_unit m) v.

Definition black_ink : rgba := mk_rgba 0 0 0 255.
Definition white_ink : rgba := mk_rgba 255 255 255 255.
Definition red_ink : rgba := mk_rgba 158 22 22 255.
Definition blue_ink : rgba := mk_rgba 27 57 169 255.
(** after power-on and after ESC @ *)
Definition factory : panel :=
  mk_panel FontA 1 1 false false UnderOff StrikeOff false false false black_ink white_ink false black_ink JLeft 24 0 0
    (repeat 8 32) 40 3 HriNone FontA 203 1 1.

(** The commands of the manual, by their bytes. *)
Inductive order :=
| Initialise | PrintMode | CharacterFont | Underlining | Emphasis | DoubleStrike | Italics | UpsideDown | Smoothing
| CharacterSize | WhiteOnBlack | PrintColour | CharacterEffects | Justification | DefaultSpacing | LineSpacing
| CodeTable | InternationalSet | TabStops | BarcodeHeight | BarcodeWidth | BarcodeText | BarcodeFont | MotionUnits.
Definition manual : list (list Z * order) :=
  [ ([27; 64], Initialise);            (* ESC @ *)
    ([27; 33], PrintMode);             (* ESC ! n *)
    ([27; 77], CharacterFont);         (* ESC M n *)
    ([27; 45], Underlining);           (* ESC - n *)
    ([27; 69], Emphasis);              (* ESC E n *)
    ([27; 71], DoubleStrike);          (* ESC G n *)
    ([27; 52], Italics);               (* ESC 4 n *)
    ([27; 123], UpsideDown);           (* ESC { n *)
    ([29; 98], Smoothing);             (* GS b n *)
    ([29; 33], CharacterSize);         (* GS ! n *)
    ([29; 66], WhiteOnBlack);          (* GS B n *)
    ([27; 114], PrintColour);          (* ESC r n *)
    ([29; 40; 78], CharacterEffects);  (* GS ( N pL pH fn m *)
    ([27; 97], Justification);         (* ESC a n *)
    ([27; 50], DefaultSpacing);        (* ESC 2 *)
    ([27; 51], LineSpacing);           (* ESC 3 n *)
    ([27; 116], CodeTable);            (* ESC t n *)
    ([27; 82], InternationalSet);      (* ESC R n *)
    ([27; 68], TabStops);              (* ESC D *)
    ([29; 104], BarcodeHeight);        (* GS h n *)
    ([29; 119], BarcodeWidth);         (* GS w n *)
    ([29; 72], BarcodeText);           (* GS H n *)
    ([29; 102], BarcodeFont);          (* GS f n *)
    ([29; 80], MotionUnits) ].         (* GS P x y *)
Definition ordered (p : list Z) : option order := option_map snd (find (fun x => list_eqb (fst x) p) manual).

(** GS H *)
Definition hri_code (n : Z) : hri :=
  if (n =? 1) || (n =? 49) then HriAbove else if (n =? 2) || (n =? 50) then HriBelow
  else if (n =? 3) || (n =? 51) then HriBoth else HriNone.
(** GS ( N: 0 the paper's colour, 1 - 3 or 49 - 51 the three inks, anything else the first one *)
Definition colour_code (n : Z) : rgba :=
  if n =? 0 then white_ink else if (n =? 2) || (n =? 50) then red_ink else if (n =? 3) || (n =? 51) then blue_ink else black_ink.
Definition odd_byte (n : Z) : bool := n mod 2 =? 1.

(** What a command does to the settings, given its parameter bytes [d]. *)
Definition obey (o : order) (d : list Z) (m : panel) : panel :=
  let n := nth 0 d 0 in
  match o with
  | Initialise => factory
  | PrintMode =>
      with_font (if odd_byte n then FontB else FontA) (with_bold (odd_byte (n / 8)) (with_high (if odd_byte (n / 16) then 2 else 1)
        (with_wide (if odd_byte (n / 32) then 2 else 1) (with_under (if odd_byte (n / 64) then UnderOn else UnderOff) m))))
  | CharacterFont => with_font (font_code n) m
  | Underlining => with_under (underline_code n) m
  | Emphasis => with_bold (odd_byte n) m
  | DoubleStrike =>
      (* switching it off takes one step at a time: double, single, none *)
      with_strike (if odd_byte n then StrikeDouble else match m_strike m with StrikeDouble => StrikeOn | _ => StrikeOff end) m
  | Italics => with_italic (odd_byte n) m
  | UpsideDown => with_upside (odd_byte n) m
  | Smoothing => with_smooth (odd_byte n) m
  | CharacterSize => with_wide (n / 16 mod 8 + 1) (with_high (n mod 8 + 1) m)
  | WhiteOnBlack =>
      if n =? 1 then with_invert true (with_ink white_ink (with_back black_ink m))
      else with_invert false (with_ink black_ink (with_back white_ink m))
  | PrintColour => with_ink (if (n =? 1) || (n =? 49) then red_ink else black_ink) m
  | CharacterEffects =>
      (* pL pH fn colour; the colour defaults to 48 *)
      let fn := nth 2 d 0 in let colour := colour_code (nth 3 d 48) in
      if Z.of_nat (length d) <? 3 then m
      else if fn =? 48 then with_ink colour m
      else if fn =? 49 then with_back colour m
      else if fn =? 50 then with_shadow (negb ((nth 4 d 0 =? 0) || (nth 4 d 0 =? 48))) (with_shade colour m)
      else m
  | Justification => with_place (justify_code n) m
  | DefaultSpacing => with_spacing 24 m
  | LineSpacing => with_spacing (nth 0 d 24) m
  | CodeTable => with_table n m
  | InternationalSet => with_charset n m
  | TabStops =>
      (* the crate reads two parameters: the new length of a tab and which of the 32 tabs it is for *)
      if nth 1 d 24 <? 32 then (let k := Z.to_nat (nth 1 d 24) in with_tabs (firstn k (m_tabs m) ++ nth 0 d 24 :: skipn (S k) (m_tabs m)) m) else m
  | BarcodeHeight => with_bar_height n m
  | BarcodeWidth => let w := Z.max 2 (nth 0 d 2) in if w <=? 6 then with_bar_width w m else m
  | BarcodeText => with_bar_text (hri_code n) m
  | BarcodeFont => with_bar_font (font_code n) m
  | MotionUnits =>
      let k := nth 1 d 0 in
      if (n =? 0) || (k =? 0) then m else with_h_unit (m_dpi m / n mod 256) (with_v_unit (m_dpi m / k mod 256) m)
  end.
(** GS ( L / GS 8 L function 1 or 49: the dot density, 50 for 180 dots per inch, 51 for 360 *)
Definition density (d : list Z) (m : panel) : panel :=
  let x := nth 0 d 50 in let y := nth 1 d 50 in
  if (x =? 50) && (y =? 50) then with_dpi 180 m else if (x =? 51) && (y =? 51) then with_dpi 360 m else m.
Definition obeyed (m : panel) (c : command) : panel :=
  match picture_function c with
  | Some fn => if (fn =? 1) || (fn =? 49) then density (c_data c) m else m
  | None => match ordered (c_commands c) with Some o => obey o (c_data c) m | None => m end
  end.

(** The settings as they are in the printer. *)
Definition panel_of (x : context) : panel :=
  let t := c_text x in let b := c_barcode x in let g := c_graphics x in
  mk_panel (t_font t) (t_width_mult t) (t_height_mult t) (t_bold t) (t_italic t) (t_underline t) (t_strikethrough t) (t_invert t)
    (t_upside_down t) (t_smoothing t) (t_color t) (t_background_color t) (t_shadow t) (t_shadow_color t) (t_justify t) (t_line_spacing t)
    (t_code_table t) (t_character_set t) (t_tabs t) (bc_height b) (bc_width b) (bc_human_readable b) (bc_font b)
    (g_dots_per_inch g) (g_h_motion_unit g) (g_v_motion_unit g).

(** ** The text as the manual describes it *)

(** the thickness in dots of a line under or through the characters, of one or two points *)
Definition line_dots (m : panel) (double : bool) : Z :=
  if m_dpi m =? 360 then (if double then 7 else 3) else if m_dpi m =? 180 then (if double then 3 else 1) else (if double then 4 else 2).
(** the style characters are printed in *)
Definition styled (m : panel) : text_span :=
  let '(w, h) := cell_of (m_font m) in
  mk_text_span (m_font m) (w * m_wide m) (h * m_high m) w h [] (m_bold m) (m_italic m)
    (match m_under m with UnderOff => 0 | UnderOn => line_dots m false | UnderDouble => line_dots m true end)
    (match m_strike m with StrikeOff => 0 | StrikeOn => line_dots m false | StrikeDouble => line_dots m true end)
    (m_wide m) (m_high m) (m_invert m) (m_upside m) (m_place m) None (m_back m) (m_ink m).

(** the characters of a text run in a code table and an international character set *)
Definition characters (table charset : Z) (bytes : list Z) : ustring :=
  let cp := get_codepage table charset in
  decode_utf8 {| cp_table := cp_table cp; cp_name := cp_name cp; cp_language := cp_language cp; cp_utf8 := table =? 255 |} bytes.
(** What a stream of commands prints as text, in order, each character in the style its settings ask
    for (CR prints one carriage-return character). *)
Fixpoint manuscript (m : panel) (l : list command) : list ink :=
  match l with
  | [] => []
  | c :: r =>
      (match c_kind c, c_commands c with
       | KText, [] => map (pair (styled m)) (shown true (characters (m_table m) (m_charset m) (c_data c)))
       | KText, [13] => [(styled m, 13)]
       | _, _ => []
       end) ++ manuscript (obeyed m c) r
  end.
(** no barcode is printed while its text is switched on (GS H) *)
Fixpoint untitled (m : panel) (l : list command) : Prop :=
  match l with
  | [] => True
  | c :: r => (c_commands c = [29; 107] -> m_bar_text m = HriNone) /\ untitled (obeyed m c) r
  end.
