(** * Graphics: model of thermal_parser/src/graphics.rs. *)
From Verif Require Import Base Vec Float32 GTypes.
Local Open Scope string_scope.
Local Open Scope Z_scope.
Local Open Scope list_scope.

(** graphics.rs:19-26 *)
Definition rgba_blank : rgba := mk_rgba 0 0 0 0.

(** graphics.rs:33-40 (the blue channel really is filled from [self.g]) *)
Definition with_alpha (c : rgba) (a : Z) : rgba := mk_rgba (c_r c) (c_g c) (c_g c) a.

(** graphics.rs:62-80.  The fully opaque case does not return: the interpolation is still run. *)
Definition blend_with_alpha (self color : rgba) (alpha : Z) : rgba :=
  let s := if alpha =? 255 then mk_rgba (c_r color) (c_g color) (c_b color) 255 else self in
  if alpha =? 0 then s
  else mk_rgba (blend_channel (c_r color) (c_r s) alpha)
               (blend_channel (c_g color) (c_g s) alpha)
               (blend_channel (c_b color) (c_b s) alpha)
               (c_a s).

(** graphics.rs:43-45 *)
Definition blend_foreground (self color : rgba) : rgba := blend_with_alpha self color (c_a color).

(** graphics.rs:47-57 *)
Definition multiply_foreground (self color : rgba) : rgba :=
  if c_a color =? 0 then self
  else mk_rgba (multiply_channel (c_r self) (c_r color) (c_a color))
               (multiply_channel (c_g self) (c_g color) (c_a color))
               (multiply_channel (c_b self) (c_b color) (c_a color))
               (c_a self).

(** graphics.rs:142-153 *)
Definition as_rgba_u8 (i : image) : list Z :=
  flat_map (fun p => [c_r p; c_g p; c_b p; c_a p]) (i_pixels i).

(** graphics.rs:392,396-403: one bit of a byte as 255 or 0 *)
Definition bit_px (byte n : Z) : Z :=
  if Z.land byte (Z.shiftl 1 (7 - n)) =? 0 then 0 else 255.

(** graphics.rs:388-406: the byte loop; [col] is the running column *)
Fixpoint unpack_loop (width padding col : Z) (pixels : list Z) : list Z :=
  match pixels with
  | [] => []
  | byte :: rest =>
      if width <=? col + 8
      then map (bit_px byte) (zrange padding) ++ unpack_loop width padding 0 rest
      else map (bit_px byte) [0; 1; 2; 3; 4; 5; 6; 7] ++ unpack_loop width padding (col + 8) rest
  end.

(** graphics.rs:378-409 ([height] is used for the capacity hint only) *)
Definition unpack_bytes (pixels : list Z) (width height : Z) : list Z :=
  let padding := if width mod 8 =? 0 then 8 else width mod 8 in
  unpack_loop width padding 0 pixels.

(** graphics.rs:418-432 *)
Definition rotate_90_clockwise (data : list Z) (width height : Z) : res (list Z) :=
  for_range height (fun y acc =>
    for_range width (fun x acc =>
      do p <- vget data (y * width + x);
      vset acc (x * height + (height - 1 - y)) p) acc)
    (repeat 0 (length data)).

(** graphics.rs:434-447 *)
Definition flip_right_to_left (data : list Z) (width height : Z) : res (list Z) :=
  for_range height (fun y acc =>
    for_range width (fun x acc =>
      do p <- vget data (y * width + x);
      vset acc (y * width + (width - 1 - x)) p) acc)
    (repeat 0 (length data)).

(** graphics.rs:412-416 *)
Definition column_to_bytes (pixels : list Z) (width height : Z) : res (list Z) :=
  do rot <- rotate_90_clockwise (unpack_bytes pixels height width) height width;
  flip_right_to_left rot width height.

(** graphics.rs:452-483 *)
Definition scale_pixels (bytes : list Z) (ow oh scale_x scale_y : Z) : res (Z * Z * list Z) :=
  let sx := Z.max scale_x 1 in
  let sy := Z.max scale_y 1 in
  do nw <- mul_u32 ow sx;
  do nh <- mul_u32 oh sy;
  do n <- mul_u32 nw nh;
  do out <- for_range oh (fun y acc =>
    for_range ow (fun x acc =>
      do r <- mul_u32 y ow;
      do i <- add_u32 r x;
      do pixel <- vget bytes i;
      for_range sy (fun dy acc =>
        for_range sx (fun dx acc =>
          do ax <- mul_u32 x sx; do nx <- add_u32 ax dx;
          do ay <- mul_u32 y sy; do ny <- add_u32 ay dy;
          do rr <- mul_u32 ny nw; do j <- add_u32 rr nx;
          vset acc j pixel) acc) acc) acc)
    (repeat 0 (Z.to_nat n));
  Ok (nw, nh, out).

(** graphics.rs:233-278.  u8 pixels; [width * height] is a u32 product. *)
Definition image_from_raster_single (width height : Z) (stretch : Z * Z) (color : rgba)
    (flow : image_flow) (data : list Z) (process_as_bits : bool) : res gfx :=
  let unpacked := if process_as_bits then unpack_bytes data width height else data in
  do n <- mul_u32 width height;
  if negb (vlen unpacked =? n)
  then Ok (GError "Not enough data to parse single color raster image")
  else
    do out <- (if (1 <? fst stretch) || (1 <? snd stretch)
               then scale_pixels unpacked width height (fst stretch) (snd stretch)
               else Ok (width, height, unpacked));
    let '(w, h, raw) := out in
    Ok (GImage (mk_image (map (with_alpha color) raw) 0 0 w h flow false)).

(** graphics.rs:161-173 *)
Definition image_from_column_single (width height : Z) (stretch : Z * Z) (color : rgba)
    (flow : image_flow) (data : list Z) : res gfx :=
  do raster <- column_to_bytes data width height;
  image_from_raster_single width height stretch color flow raster false.

(** context.rs:117-127 *)
Definition color_for_number (rc : render_colors) (number : Z) : rgba :=
  match number with
  | 0 => rc_paper_color rc
  | 1 | 49 => rc_color_1 rc
  | 2 | 50 => rc_color_2 rc
  | 3 | 51 => rc_color_3 rc
  | _ => rc_color_1 rc
  end.

(** graphics.rs:368-370: blending one layer onto the base, pixel by pixel in storage order *)
Definition merge_one (base layer : list rgba) : res (list rgba) :=
  for_range (vlen layer) (fun i acc =>
    do p <- vget acc i;
    do q <- vget layer i;
    vset acc i (blend_foreground p q)) base.

(** graphics.rs:363-371 *)
Fixpoint merge_rest (base : image) (layers : list image) : res (image + string) :=
  match layers with
  | [] => Ok (inl base)
  | l :: r =>
      if (i_w base <? i_w l) || (i_h base <? i_h l)
      then Ok (inr "Can't merge image layers with different w and h")
      else do px <- merge_one (i_pixels base) (i_pixels l);
           merge_rest (set_i_pixels px base) r
  end.

(** graphics.rs:352-374 *)
Definition merge_image_layers (layers : list image) : res (image + string) :=
  match layers with
  | [] => Ok (inr "No layers to merge")
  | [l] => Ok (inl l)
  | base :: rest => merge_rest base rest
  end.

(** graphics.rs:222-225, 339-342 *)
Definition merged_gfx (m : image + string) : gfx :=
  match m with inl i => GImage i | inr e => GError e end.

(** graphics.rs:312-336: the layer loop, [Err] is the early return of an error *)
Fixpoint raster_layers (layer_no : Z) (count : nat) (width height : Z) (stretch : Z * Z)
    (rc : render_colors) (flow : image_flow) (data : list Z) (bits : bool) (bytes_per_layer : Z)
    : res (list image + string) :=
  match count with
  | O => Ok (inl [])
  | S c =>
      let layer_start := layer_no * bytes_per_layer in
      let layer_end := layer_start + bytes_per_layer - 1 in
      do color_number <- vget data layer_start;
      let color := color_for_number rc color_number in
      do image_data <- vslice data (layer_start + 1) (layer_end + 1);
      do layer <- image_from_raster_single width height stretch color flow image_data bits;
      match layer with
      | GImage image =>
          do rest <- raster_layers (layer_no + 1) c width height stretch rc flow data bits bytes_per_layer;
          match rest with
          | inl l => Ok (inl (image :: l))
          | inr e => Ok (inr e)
          end
      | GError m => Ok (inr m)
      | _ => raster_layers (layer_no + 1) c width height stretch rc flow data bits bytes_per_layer
      end
  end.

(** graphics.rs:288-343 *)
Definition image_from_raster_multi (width height : Z) (stretch : Z * Z) (num_colors : Z)
    (rc : render_colors) (flow : image_flow) (data : list Z) (bits : bool) : res gfx :=
  let bytes_per_layer := if bits then (width / 8) * height + 1 else width * height + 1 in
  if negb (vlen data =? bytes_per_layer * num_colors)
  then Ok (GError "Not enough data to parse raster image multi color")
  else
    do layers <- raster_layers 0 (Z.to_nat num_colors) width height stretch rc flow data bits bytes_per_layer;
    match layers with
    | inr e => Ok (GError e)
    | inl l => do m <- merge_image_layers l; Ok (merged_gfx m)
    end.

(** graphics.rs:203-218: the column layer loop *)
Fixpoint column_layers (layer : Z) (count : nat) (width height : Z) (stretch : Z * Z)
    (rc : render_colors) (flow : image_flow) (data : list Z) (bytes_per_layer : Z)
    : res (list image + string) :=
  match count with
  | O => Ok (inl [])
  | S c =>
      let layer_start := layer * bytes_per_layer in
      do color_number <- vget data layer_start;
      let color := color_for_number rc color_number in
      do image_data <- vslice data layer_start (bytes_per_layer - 1);
      do raster <- column_to_bytes image_data width height;
      do l <- image_from_raster_single width height stretch color flow raster false;
      match l with
      | GImage image =>
          do rest <- column_layers (layer + 1) c width height stretch rc flow data bytes_per_layer;
          match rest with
          | inl l => Ok (inl (image :: l))
          | inr e => Ok (inr e)
          end
      | GError m => Ok (inr m)
      | _ => column_layers (layer + 1) c width height stretch rc flow data bytes_per_layer
      end
  end.

(** graphics.rs:185-226; the loop is [0..=num_colors] *)
Definition image_from_column_multi (width height : Z) (stretch : Z * Z) (num_colors : Z)
    (rc : render_colors) (flow : image_flow) (data : list Z) : res gfx :=
  let bytes_per_layer := (width / 8) * height + 1 in
  if negb (vlen data =? (bytes_per_layer + 1) * num_colors)
  then Ok (GError "Not enough data to parse raster image")
  else
    do layers <- column_layers 0 (S (Z.to_nat num_colors)) width height stretch rc flow data bytes_per_layer;
    match layers with
    | inr e => Ok (GError e)
    | inl l => do m <- merge_image_layers l; Ok (merged_gfx m)
    end.

(** graphics.rs:493-503 *)
Definition ref_from_data (data : list Z) (s : storage) : option image_ref :=
  match data with
  | a :: b :: _ => Some {| kc1 := a; kc2 := b; ref_storage := s |}
  | _ => None
  end.
