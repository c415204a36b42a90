(** * SpecPosition: places on a page, seen upright.

    In page mode things are drawn on a page that ESC T turns, so that text always runs from left to
    right on it.  Here its places are given as they lie when the page is printed, upright. *)
From Verif Require Import Base GTypes Context.
Local Open Scope Z_scope.

(** Where the point [x], [y] of the page lies upright, if the page as it is turned now is W wide and H high. *)
Definition upright (d : direction) (W H x y : Z) : Z * Z :=
  match d with
  | TopLeft2Right => (x, y)
  | BottomLeft2Top => (y, W - x)
  | BottomRight2Left => (W - x, H - y)
  | TopRight2Bottom => (H - y, x)
  end.
(** the size of something [w] wide and [h] high on the turned page, upright *)
Definition upright_size (d : direction) (w h : Z) : Z * Z :=
  match d with TopLeft2Right | BottomRight2Left => (w, h) | _ => (h, w) end.

(** The page, the print area and the pen - where the next thing is drawn. *)
Definition page_dir (c : context) : direction := p_direction (c_page c).
Definition page_w (c : context) : Z := a_w (p_page_area (c_page c)).
Definition page_h (c : context) : Z := a_h (p_page_area (c_page c)).
Definition page_size (c : context) : Z * Z := upright_size (page_dir c) (page_w c) (page_h c).
Definition pen (c : context) : Z * Z := upright (page_dir c) (page_w c) (page_h c) (get_x c) (get_y c).
(** The print area begins on the turned page at the place text starts from, and is as large as the lines
    can be long and all of them together high. *)
Definition area_size (c : context) : Z * Z := upright_size (page_dir c) (get_width c) (get_height c).
(** its upper left corner, upright *)
Definition area_corner (c : context) : Z * Z :=
  let x := get_base_x c in let y := get_base_y c in let w := get_width c in let h := get_height c in
  match page_dir c with
  | TopLeft2Right => upright (page_dir c) (page_w c) (page_h c) x y
  | BottomLeft2Top => upright (page_dir c) (page_w c) (page_h c) (x + w) y
  | BottomRight2Left => upright (page_dir c) (page_w c) (page_h c) (x + w) (y + h)
  | TopRight2Bottom => upright (page_dir c) (page_w c) (page_h c) x (y + h)
  end.
(** where text starts in an area, upright: at its upper left, lower left, lower right or upper right corner *)
Definition start_of (d : direction) (corner size : Z * Z) : Z * Z :=
  match d with
  | TopLeft2Right => corner
  | BottomLeft2Top => (fst corner, snd corner + snd size)
  | BottomRight2Left => (fst corner + fst size, snd corner + snd size)
  | TopRight2Bottom => (fst corner + fst size, snd corner)
  end.
(** The place of an area asked for [y] below the upper edge of a page [H] high; two of the directions count from
    the lower edge. *)
Definition area_top (d : direction) (H y h : Z) : Z :=
  match d with TopLeft2Right | BottomLeft2Top => y | BottomRight2Left | TopRight2Bottom => H - (y + h) end.
(** a number in two bytes, with and without sign *)
Definition two_bytes (a b : Z) : Z := a + 256 * b.
Definition signed (n : Z) : Z := if n <? 32768 then n else n - 65536.
