(** * ThermalImage: the canvas, thermal_renderer/src/image_renderer/thermal_image.rs *)
From Verif Require Import Base Vec Float32 GTypes Graphics.
Local Open Scope Z_scope.

(** thermal_image.rs:539-556: what put_pixels records when it refuses *)
Inductive canvas_error :=
| BadPixelData
| ExceedsPaper (x y w h : Z) (exceeds_w exceeds_h : bool).

(** thermal_image.rs:24-36 ThermalImage.  Fonts and the debug colours are left out; the debug
    profile is the default one (everything off). *)
Record canvas := mk_canvas {
  cv_bytes : list rgba;
  cv_width : Z;
  cv_auto_grow : bool;
  cv_paper_color : rgba;
  cv_errors : list canvas_error }.
Definition set_cv_bytes v c := mk_canvas v (cv_width c) (cv_auto_grow c) (cv_paper_color c) (cv_errors c).
Definition set_cv_width v c := mk_canvas (cv_bytes c) v (cv_auto_grow c) (cv_paper_color c) (cv_errors c).
Definition set_cv_auto_grow v c := mk_canvas (cv_bytes c) (cv_width c) v (cv_paper_color c) (cv_errors c).
Definition set_cv_paper_color v c := mk_canvas (cv_bytes c) (cv_width c) (cv_auto_grow c) v (cv_errors c).
Definition push_cv_error e c := mk_canvas (cv_bytes c) (cv_width c) (cv_auto_grow c) (cv_paper_color c) (cv_errors c ++ [e]).

(** thermal_image.rs:39-99 *)
Definition canvas_new (width : Z) : canvas := mk_canvas [] width true (mk_rgba 255 255 255 255) [].

(** thermal_image.rs:613-619 *)
Definition get_canvas_height (c : canvas) : Z :=
  if cv_width c =? 0 then 0 else vlen (cv_bytes c) / cv_width c.

(** thermal_image.rs:130-143 (usize arithmetic: [h - 1 - y] cannot underflow inside the loop) *)
Definition rotate_90 (c : canvas) : res canvas :=
  let w := cv_width c in
  let h := get_canvas_height c in
  do b <- for_range h (fun y acc => for_range w (fun x acc =>
            do p <- vget (cv_bytes c) (y * w + x); vset acc (x * h + (h - 1 - y)) p) acc)
          (repeat rgba_blank (Z.to_nat (w * h)));
  Ok (set_cv_width h (set_cv_bytes b c)).
(** thermal_image.rs:145-157 *)
Definition rotate_180 (c : canvas) : res canvas :=
  let w := cv_width c in
  let h := get_canvas_height c in
  do b <- for_range h (fun y acc => for_range w (fun x acc =>
            do p <- vget (cv_bytes c) (y * w + x); vset acc ((h - 1 - y) * w + (w - 1 - x)) p) acc)
          (repeat rgba_blank (Z.to_nat (w * h)));
  Ok (set_cv_bytes b c).
(** thermal_image.rs:159-172 *)
Definition rotate_270 (c : canvas) : res canvas :=
  let w := cv_width c in
  let h := get_canvas_height c in
  do b <- for_range h (fun y acc => for_range w (fun x acc =>
            do p <- vget (cv_bytes c) (y * w + x); vset acc ((w - 1 - x) * h + y) p) acc)
          (repeat rgba_blank (Z.to_nat (w * h)));
  Ok (set_cv_width h (set_cv_bytes b c)).

(** thermal_image.rs:175-178 *)
Definition set_width (width : Z) (c : canvas) : canvas := set_cv_bytes [] (set_cv_width width c).
(** thermal_image.rs:696-698 *)
Definition empty (c : canvas) : canvas := set_cv_bytes [] c.

(** thermal_image.rs:621-632 *)
Definition expand_to_height (height : Z) (c : canvas) : res canvas :=
  do len <- mul_u32 (cv_width c) height;
  let cur_len := vlen (cv_bytes c) in
  if len <=? cur_len then Ok c
  else Ok (set_cv_bytes (cv_bytes c ++ repeat (cv_paper_color c) (Z.to_nat (len - cur_len))) c).

(** thermal_image.rs:634-638 *)
Definition add_top_margin (height : Z) (c : canvas) : res canvas :=
  do n <- mul_u32 (cv_width c) height;
  Ok (set_cv_bytes (repeat (cv_paper_color c) (Z.to_nat n) ++ cv_bytes c) c).

(** [v.splice(i..i, xs)]: panics when [i] is past the end *)
Definition splice_insert {A} (i : Z) (xs l : list A) : res (list A) :=
  if (i <? 0) || (vlen l <? i) then Panic PIndex
  else Ok (firstn (Z.to_nat i) l ++ xs ++ skipn (Z.to_nat i) l).

(** thermal_image.rs:640-669.  [((new - old) as f32 / 2.0).floor()] is written as integer halving,
    which is exact for differences below 2^24 pixels; [try_reserve(..).unwrap()] (allocation
    failure) is not modelled, but its argument [height * new_width - len] is checked. *)
Definition expand_to_width (new_width : Z) (c : canvas) : res canvas :=
  let old_width := cv_width c in
  if new_width <? old_width then Ok c
  else
    let height := get_canvas_height c in
    let left := (new_width - old_width) / 2 in
    let right := new_width - (left + old_width) in
    if height * new_width <? vlen (cv_bytes c) then Panic POverflow
    else
      do (b, _) <- for_range height (fun _ st =>
             let '(b, i) := st in
             do b <- splice_insert i (repeat (cv_paper_color c) (Z.to_nat left)) b;
             let i := i + (left + old_width) in
             do b <- splice_insert i (repeat (cv_paper_color c) (Z.to_nat right)) b;
             Ok (b, i + right)) (cv_bytes c, 0);
      Ok (set_cv_width new_width (set_cv_bytes b c)).

(** thermal_image.rs:582-611 *)
Definition crop_pixels (pixels : list rgba) (width height max_width max_height : Z) (crop_height : bool)
  : res (Z * Z * list rgba) :=
  let new_width := if max_width <? width then max_width else width in
  let new_height := if crop_height then (if max_height <? height then max_height else height) else height in
  do _ <- mul_u32 new_width new_height;
  do cropped <- for_range new_height (fun y acc =>
       do row_start <- mul_u32 y width;
       do row <- vslice pixels row_start (row_start + new_width);
       Ok (acc ++ row)) [];
  Ok (new_width, new_height, cropped).

(** thermal_image.rs:556-577: the two identical painting loops, [op] being multiply_foreground or
    blend_foreground *)
Definition paint_step (op : rgba -> rgba -> rgba) (width x final_width : Z) (pixel : rgba)
    (st : Z * Z * list rgba) : res (Z * Z * list rgba) :=
  let '(cur_x, cur_y, bytes) := st in
  do r <- mul_u32 cur_y width;
  do idx <- add_u32 r cur_x;
  do old <- vget bytes idx;
  do bytes <- vset bytes idx (op old pixel);
  do e <- add_u32 x final_width;
  do last <- sub_u32 e 1;
  if cur_x =? last then do y' <- add_u32 cur_y 1; Ok (x, y', bytes)
  else do x' <- add_u32 cur_x 1; Ok (x', cur_y, bytes).

(** thermal_image.rs:489-580.  Note line 534: the height test adds [width], not [height]. *)
Definition put_pixels (x y width height : Z) (pixels : list rgba) (multiply : bool) (c : canvas) : res canvas :=
  do area <- mul_u32 width height;
  if area <? vlen pixels then Ok (push_cv_error BadPixelData c)
  else
    let exceeds_w := cv_width c <=? x in
    let exceeds_h := get_canvas_height c <=? y in
    if exceeds_w || (exceeds_h && negb (cv_auto_grow c)) then
      Ok (push_cv_error (ExceedsPaper x y (cv_width c) (get_canvas_height c) exceeds_w exceeds_h) c)
    else
      do xe <- add_u32 x width;
      let needs_crop_w := cv_width c <? xe in
      do needs_crop_h <- (if cv_auto_grow c then Ok false
                          else do ye <- add_u32 y width; Ok (get_canvas_height c <? ye));
      do (final_width, final_height, final_pixels) <-
        (if needs_crop_w || needs_crop_h then
           let max_width := cv_width c - x in
           let max_height := if get_canvas_height c <=? y then 0 else get_canvas_height c - y in
           crop_pixels pixels width height max_width max_height (negb (cv_auto_grow c))
         else Ok (width, height, pixels));
      do yh <- add_u32 y final_height;
      do c <- expand_to_height yh c;
      let op := if multiply then multiply_foreground else blend_foreground in
      do (_, _, bytes) <- fold_res (paint_step op (cv_width c) x final_width) final_pixels (x, y, cv_bytes c);
      Ok (set_cv_bytes bytes c).

(** thermal_image.rs:185-187, 452-461 *)
Definition draw_rect (x y w h : Z) (color : rgba) (multiply : bool) (c : canvas) : res canvas :=
  do n <- mul_u32 w h;
  put_pixels x y w h (repeat color (Z.to_nat n)) multiply c.

(** thermal_image.rs:415-450 *)
Definition swap {A} (l : list A) (i j : Z) : res (list A) :=
  do a <- vget l i; do b <- vget l j; do l <- vset l i b; vset l j a.
Definition flip_pixels (x y width height : Z) (c : canvas) : res canvas :=
  do xe <- add_u32 x width;
  if cv_width c <? xe then Ok c
  else
    do ye <- add_u32 y height;
    do c <- expand_to_height ye c;
    do _ <- mul_u32 width height;
    do sub_image <- for_range height (fun i acc =>
         do r <- mul_u32 (y + i) (cv_width c);
         do start_idx <- add_u32 r x;
         do row <- vslice (cv_bytes c) start_idx (start_idx + width);
         Ok (acc ++ row)) [];
    do flipped <- for_range (height / 2) (fun i acc => for_range width (fun j acc =>
         swap acc (i * width + j) ((height - i - 1) * width + j)) acc) sub_image;
    put_pixels x y width height flipped false c.

(** thermal_image.rs:463-478 (debug borders off) *)
Definition put_render_img (i : image) (c : canvas) : res canvas :=
  do c <- put_pixels (i_x i) (i_y i) (i_w i) (i_h i) (i_pixels i) true c;
  if i_upside_down i then flip_pixels (i_x i) (i_y i) (i_w i) (i_h i) c else Ok c.

(** thermal_image.rs:671-686 *)
Definition consume_rgb_u8 (c : canvas) : res ((Z * Z * list Z) * canvas) :=
  let w := cv_width c in
  let h := get_canvas_height c in
  do _ <- mul_u32 w h;
  Ok ((w, h, flat_map (fun p => [c_r p; c_g p; c_b p]) (cv_bytes c)), set_width 0 c).
(** thermal_image.rs:688-693 *)
Definition copy (c : canvas) : Z * Z * list rgba := (cv_width c, get_canvas_height c, cv_bytes c).
