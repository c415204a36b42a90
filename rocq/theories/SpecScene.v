(** * SpecScene: what a printed sheet looks like, in whole numbers.

    SpecImage says which strokes a call leaves on the paper; here is what each of them looks like,
    dot by dot, and how ink mixes, with no floating point arithmetic and no code of the renderer. *)
From Verif Require Import Base Vec GTypes Graphics Context Renderer ThermalImage SpecCanvas ImageRenderer SpecImage.
Local Open Scope Z_scope.
Local Open Scope list_scope.

(** ** Ink.  A channel runs from 0 (dark) to 255 (light). *)
(** the nearest integer to n / 255 (there are no ties) *)
Definition nearest_255 (n : Z) : Z := (2 * n + 255) / 510.
(** Ink printed over a colour: channel by channel the product.  Clear ink changes nothing. *)
Definition press (below ink : rgba) : rgba :=
  if c_a ink =? 0 then below
  else mk_rgba (nearest_255 (c_r below * c_r ink)) (nearest_255 (c_g below * c_g ink)) (nearest_255 (c_b below * c_b ink)) (c_a below).
(** [cover] 255ths of the colour [fore], the rest [back]. *)
Definition fade1 (back fore cover : Z) : Z := nearest_255 (fore * cover + back * (255 - cover)).
Definition fade (back fore : rgba) (cover : Z) : rgba :=
  mk_rgba (fade1 (c_r back) (c_r fore) cover) (fade1 (c_g back) (c_g fore) cover) (fade1 (c_b back) (c_b fore) cover) (c_a back).

(** ** Characters *)
(** How much of the dot in column [i], row [j] the character covers; outside its bitmap, nothing. *)
Definition coverage (g : glyph) (i j : Z) : Z :=
  if (gl_x g <=? i) && (i <? gl_x g + gl_width g) && (gl_y g <=? j)
  then at_ 0 (gl_alpha g) ((j - gl_y g) * gl_width g + (i - gl_x g)) else 0.
(** A character is drawn at the larger of its two enlargements ... *)
Definition across (w : text_span) : Z := s_character_width w / s_base_character_width w.
Definition down (w : text_span) : Z := s_character_height w / s_base_character_height w.
Definition drawn_at (w : text_span) : Z := Z.max (across w) (down w).
(** ... and then shrunk to its cell: dot [s] of a cell [m]-fold in size shows dot [s * scale / m] of the drawn
    character.  Six of these divisions come out one too small in the code's 32 bit arithmetic, all of
    them when a character drawn sevenfold is shrunk to three or six. *)
Definition slips (scale m s : Z) : bool :=
  (scale =? 7) && (((m =? 3) && existsb (Z.eqb s) [27; 51; 54]) || ((m =? 6) && existsb (Z.eqb s) [54; 102; 108])).
Definition shrunk (scale m s : Z) : Z := s * scale / m - (if slips scale m s then 1 else 0).
Definition dot (w : text_span) (g : glyph) (i j : Z) : rgba :=
  fade (s_background_color w) (s_text_color w) (coverage g (shrunk (drawn_at w) (across w) i) (shrunk (drawn_at w) (down w) j)).
(** The characters of a word side by side, the first at (x, y); control characters leave a gap. *)
Definition letters (fo : fonts) (w : text_span) (x y : Z) (p : picture) : picture := fun X Y =>
  let cw := s_character_width w in
  if covers x y (vlen (s_text w) * cw) (s_character_height w) X Y
  then match fo (s_bold w) (s_italic w) (s_font w) (drawn_at w) (at_ 0 (s_text w) ((X - x) / cw)) with
       | Some g => press (p X Y) (dot w g ((X - x) mod cw) (Y - y))
       | None => p X Y
       end
  else p X Y.
(** ** Rules, pictures, turning upside down *)
Definition rule (x y w h : Z) (color : rgba) (p : picture) : picture := fun X Y =>
  if covers x y w h X Y then press (p X Y) color else p X Y.
Definition picture_at (x y w h : Z) (pixels : list rgba) (p : picture) : picture := fun X Y =>
  if covers x y w h X Y then press (p X Y) (block pixels w (X - x) (Y - y)) else p X Y.
Definition upside_down (W x y w h : Z) (p : picture) : picture :=
  if x + w <=? W then fun X Y => if covers x y w h X Y then p X (y + (h - 1 - (Y - y))) else p X Y else p.
(** ** A word in a line [mh] dots high *)
(** how far down in its cell the base line of a font runs, in millionths of the height *)
Definition base_line (f : font) : Z := match f with FontB => 508032 | FontC => 317520 | _ => 635040 end.
Definition word (fo : fonts) (W off mh : Z) (w : text_span) (p : picture) : picture :=
  match s_dimensions w with
  | None => p
  | Some d =>
      let h := s_character_height w in
      let x := d_x d + off in
      let y := d_y d + (mh - h) * base_line (s_font w) / 1000000 in
      let p := letters fo w x y p in
      let p := if 0 <? s_underline w then rule x (y + 3 + h * base_line (s_font w) / 1000000) (d_w d) 1 (s_text_color w) p else p in
      let p := if 0 <? s_strikethrough w then rule x (y + h * 2 / 5) (d_w d) (s_strikethrough w) (s_text_color w) p else p in
      if s_upside_down w then upside_down W x y (d_w d) (d_h d) p else p
  end.
(** ** A call, and the sheet *)
Definition sketch (fo : fonts) (W : Z) (call : context * event) (p : picture) : picture :=
  if p_enabled (c_page (fst call)) then p
  else match snd call with
       | EGraphics rects => fold_left (fun p r => rule (r_x r) (r_y r) (r_w r) (r_h r) (t_color (c_text (fst call))) p) rects p
       | EImage i => let p := picture_at (i_x i) (i_y i) (i_w i) (i_h i) (i_pixels i) p in
                     if i_upside_down i then upside_down W (i_x i) (i_y i) (i_w i) (i_h i) p else p
       | EText spans off mh _ => fold_left (fun p w => word fo W off mh w p) spans p
       | _ => p
       end.
Definition scene (fo : fonts) (W : Z) (calls : list (context * event)) (p : picture) : picture :=
  fold_left (fun p c => sketch fo W c p) calls p.

(** What is assumed of the fonts: sizes and offsets are unsigned, coverages are bytes. *)
Definition fonts_fine (fo : fonts) : Prop := forall b i f scale ch,
  match fo b i f scale ch with
  | Some g => 0 <= gl_width g /\ 0 <= gl_x g /\ 0 <= gl_y g /\ Forall (fun v => 0 <= v <= 255) (gl_alpha g)
  | None => True end.
