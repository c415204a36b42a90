(** * Renderer: thermal_renderer/src/renderer.rs.

    [Renderer] turns a command stream into calls on an [OutputRenderer].  The model records every
    call with the context passed to it: the observable behaviour of [Renderer::render] is the list
    of calls, the outputs (one per [end_render] call) and the errors.  Both output renderers of the
    crate read the context and never write it, so the call list determines what they produce.
    Debug printing is left out; [handler.debug] (renderer.rs:126) has no panicking operation. *)
From Verif Require Import Base Command Parser Vec GTypes Graphics Context Text Handlers.
Local Open Scope Z_scope.
Local Open Scope list_scope.

(** renderer.rs:591-643: the calls of the OutputRenderer trait *)
Inductive event :=
| EDevice (d : device_command)
| EBeginRender
| EPageBegin
| EPageAreaChanged (r : rotation) (w h : Z)
| EPageEnd
| ERenderPage
| EGraphics (rects : list rectangle)
| EImage (i : image)
| EText (spans : list text_span) (x_offset max_height : Z) (j : text_justify)
| EGetErrors
| EEndRender.

(** renderer.rs:49-58; the texts of the messages are kept as far as they are static *)
Inductive render_error :=
| UnknownCommand (c : command)
| GraphicsError (msg : string).

(** renderer.rs:66-73.  [rs_calls] is in chronological order. *)
Record rstate := mk_rstate {
  rs_ctx : context;
  rs_spans : list text_span;
  rs_errors : list render_error;
  rs_calls : list (context * event) }.
Definition with_ctx (c : context) (s : rstate) := mk_rstate c (rs_spans s) (rs_errors s) (rs_calls s).
Definition with_spans (l : list text_span) (s : rstate) := mk_rstate (rs_ctx s) l (rs_errors s) (rs_calls s).
(** log_error, renderer.rs:113-115 *)
Definition log_error (e : render_error) (s : rstate) :=
  mk_rstate (rs_ctx s) (rs_spans s) (rs_errors s ++ [e]) (rs_calls s).
(** a call on the output renderer *)
Definition call (e : event) (s : rstate) :=
  mk_rstate (rs_ctx s) (rs_spans s) (rs_errors s) (rs_calls s ++ [(rs_ctx s, e)]).
(** run a context operation *)
Definition on_ctx (f : context -> res context) (s : rstate) : res rstate :=
  do c <- f (rs_ctx s); Ok (with_ctx c s).

(** renderer.rs:76-88 *)
Definition renderer_new : rstate := mk_rstate context_new [] [] [].

(** renderer.rs:430-432 *)
Definition collect_text (t : text_span) (s : rstate) : rstate := with_spans (rs_spans s ++ [t]) s.

(** ** process_text *)

(** the state of the word loop: context, finished lines, current line *)
Definition layout := (context * list (list text_span) * list text_span)%type.

(** renderer.rs:480-488: the tab table walk from position [pos] *)
Fixpoint tab_walk (tabs : list Z) (cw current_x pos : Z) (c : context) : res context :=
  match tabs with
  | [] => Ok c
  | t :: r =>
      if current_x <=? pos then set_x pos c
      else do w <- mul_u32 t cw; do pos' <- add_u32 pos w; tab_walk r cw current_x pos' c
  end.

(** renderer.rs:507-529: the pieces of a long word *)
Fixpoint place_pieces (pieces : list text_span) (l : layout) : res layout :=
  let '(c, lines, cur) := l in
  match pieces with
  | [] => Ok l
  | [p] =>
      do p <- get_dimensions c p;
      do w <- span_width p;
      do c' <- offset_x w c;
      Ok (c', lines, cur ++ [p])
  | p :: r =>
      do p <- get_dimensions c p;
      do c' <- newline_for_spans (cur ++ [p]) c;
      place_pieces r (c', lines ++ [cur ++ [p]], [])
  end.

(** the text is exactly the one character [ch]: [word.text == "\n"] and the like *)
Definition is_single (ch : Z) (t : ustring) : bool := match t with [x] => x =? ch | _ => false end.
(** renderer.rs:453-546: one word *)
Definition place_word (max_width : Z) (word : text_span) (l : layout) : res layout :=
  let '(c, lines, cur) := l in
  let avail := get_available_width c in
  do word_width <- span_width word;
  if is_single 10 (s_text word) then
      do c' <- newline_for_spans cur c;
      Ok (c', lines ++ [cur; []], [])
  else if is_single 9 (s_text word) then
      do c' <- tab_walk (t_tabs (c_text c)) (s_character_width word) (get_x c) 0 c;
      Ok (c', lines, cur)
  else
      if word_width <=? avail then
        do word <- get_dimensions c word;
        do c' <- offset_x word_width c;
        Ok (c', lines, cur ++ [word])
      else if max_width <? word_width then
        do first <- div_u avail (s_character_width word);
        do rest <- div_u max_width (s_character_width word);
        do pieces <- break_apart word first (Z.max rest (s_character_width word));
        place_pieces pieces (c, lines, cur)
      else
        do c1 <- newline_for_spans cur c;
        do word <- get_dimensions c1 word;
        do c2 <- offset_x word_width c1;
        Ok (c2, lines ++ [cur], [word]).

(** renderer.rs:434-549: the words and the line list *)
Definition layout_words (words : list text_span) (c : context) : res (context * list (list text_span)) :=
  do out <- fold_res (place_word (get_width c)) words (c, [], []);
  let '(c', lines, cur) := out in
  Ok (c', match cur with [] => lines | _ => lines ++ [cur] end).

(** renderer.rs:552-583: one line's justification and the call *)
Fixpoint line_width (line : list text_span) (acc : Z) : res Z :=
  match line with
  | [] => Ok acc
  | s :: r => do w <- span_width s; do a <- add_u32 acc w; line_width r a
  end.
Definition line_height (line : list text_span) : Z :=
  fold_left (fun h s => Z.max h (s_character_height s)) line 0.
Definition line_offset (j : text_justify) (max_width width : Z) : res Z :=
  match j with
  | JRight => sub_u32 max_width width
  | JCenter => Ok (if width <? max_width then (max_width - width) / 2 else 0)
  | JLeft => Ok 0
  end.
Definition render_line (line : list text_span) (s : rstate) : res rstate :=
  match line with
  | [] => Ok s
  | first :: _ =>
      let j := s_justify first in
      do w <- line_width line 0;
      do off <- line_offset j (get_width (rs_ctx s)) w;
      Ok (call (EText line off (line_height line) j) s)
  end.

(** renderer.rs:434-584 *)
Definition process_text (s : rstate) : res rstate :=
  match rs_spans s with
  | [] => Ok s
  | spans =>
      do out <- layout_words (flat_map break_into_words spans) (rs_ctx s);
      let '(c, lines) := out in
      fold_res render_line lines (with_ctx c (with_spans [] s))
  end.

(** ** Symbols and images *)

(** renderer.rs:315-336: one module; [i] and the rectangles so far are threaded *)
Definition code2d_point (q : code2d_g) (origin : Z) (p : Z) (st : context * Z * list rectangle)
  : res (context * Z * list rectangle) :=
  let '(c, i, rects) := st in
  do c <- (if negb (i =? 1)
           then if q_width q =? 0 then Panic PDivZero
                else if i mod q_width q =? 1
                     then do c <- set_x origin c; offset_y (q_point_height q) c
                     else Ok c
           else Ok c);
  if (0 <? p) && (get_available_width c <? q_point_width q) then Ok (c, i, rects)
  else
    let rects := if 0 <? p
                 then rects ++ [mk_rectangle (get_x c) (get_y c) (q_point_width q) (q_point_height q)]
                 else rects in
    do c <- offset_x (q_point_width q) c;
    do i <- add_u32 i 1;
    Ok (c, i, rects).
(** renderer.rs:306-341 *)
Definition process_code_2d (q : code2d_g) (s : rstate) : res rstate :=
  do total <- mul_u32 (q_width q) (q_point_width q);
  let origin := calculate_justification total (rs_ctx s) in
  do c <- set_x origin (rs_ctx s);
  do out <- fold_res (code2d_point q origin) (q_points q) (c, 1, []);
  let '(c, _, rects) := out in
  Ok (call (EGraphics rects) (with_ctx (reset_x c) s)).

(** renderer.rs:361-375: one bar *)
Definition barcode_point (b : barcode_g) (p : Z) (st : context * list rectangle)
  : res (context * list rectangle) :=
  let '(c, rects) := st in
  if (0 <? p) && (get_available_width c <? b_point_width b) then Ok (c, rects)
  else
    let rects := if 0 <? p
                 then rects ++ [mk_rectangle (get_x c) (get_y c) (b_point_width b) (b_point_height b)]
                 else rects in
    do c <- offset_x (b_point_width b) c;
    Ok (c, rects).
(** renderer.rs:346-353, 383-390: the human readable text *)
Definition barcode_text (b : barcode_g) (s : rstate) : res rstate :=
  do s <- process_text (collect_text (b_text b) s);
  on_ctx (newline 1) s.
(** renderer.rs:342-391 *)
Definition process_barcode (b : barcode_g) (s : rstate) : res rstate :=
  do s <- match bc_human_readable (c_barcode (rs_ctx s)) with
          | HriAbove | HriBoth => barcode_text b s
          | _ => Ok s
          end;
  do total <- mul_u32 (vlen (b_points b)) (b_point_width b);
  do s <- on_ctx (set_x (calculate_justification total (rs_ctx s))) s;
  do out <- fold_res (barcode_point b) (b_points b) (rs_ctx s, []);
  let '(c, rects) := out in
  let s := call (EGraphics rects) (with_ctx c s) in
  do s <- on_ctx (fun c => offset_y (b_point_height b) (reset_x c)) s;
  match bc_human_readable (c_barcode (rs_ctx s)) with
  | HriBelow | HriBoth => do s <- on_ctx (offset_y 8) s; barcode_text b s
  | _ => Ok s
  end.

(** renderer.rs:393-428 *)
Definition process_image (i : image) (s : rstate) : res rstate :=
  let c := rs_ctx s in
  do s <- match i_flow i with
          | FlowInline => if get_available_width c <? i_w i then on_ctx (newline 1) s else Ok s
          | FlowBlock => if p_enabled (c_page c) then Ok s
                         else on_ctx (set_x (calculate_justification (i_w i) c)) s
          | FlowNone => Ok s
          end;
  let i := set_i_y (get_y (rs_ctx s)) (set_i_x (get_x (rs_ctx s)) i) in
  let s := call (EImage i) s in
  match i_flow i with
  | FlowInline => on_ctx (offset_x (i_w i)) s
  | FlowBlock => if p_enabled (c_page (rs_ctx s)) then Ok s
                 else on_ctx (fun c => do c <- offset_y (i_h i) c; Ok (reset_x c)) s
  | FlowNone => Ok s
  end.

(** ** Device commands *)

(** [n as u32] of an i16 *)
Definition i16_as_u32 (n : Z) : Z := if n <? 0 then n + 4294967296 else n.

(** page geometry change: renderer.rs:278-291 *)
Definition page_geometry (s : rstate) : res rstate :=
  do out <- apply_logical_area (c_page (rs_ctx s));
  let '(rot, w, h, p) := out in
  Ok (call (EPageAreaChanged rot w h) (with_ctx (upd_page (fun _ => p) (rs_ctx s)) s)).

(** renderer.rs:229-303: one device command *)
Definition process_device_command (d : device_command) (s : rstate) : res rstate :=
  let s := call (EDevice d) s in
  match d with
  | SetTextWidth w => on_ctx (fun c => Ok (upd_text (set_t_width_mult w) c)) s
  | SetTextHeight h => on_ctx (fun c => Ok (upd_text (set_t_height_mult h) c)) s
  | Justify j => on_ctx (fun c => Ok (upd_text (set_t_justify j) c)) s
  | BeginPrint => do s <- on_ctx (newline 2) s; Ok (call EBeginRender s)
  | EndPrint => Ok (call EEndRender (call EGetErrors s))
  | FeedLine n => on_ctx (newline (i16_as_u32 n)) s
  | Feed n => on_ctx (feed (i16_as_u32 n)) s
  | FullCut | PartialCut => on_ctx (newline 2) s
  | BeginPageMode =>
      do s <- on_ctx (fun c => Ok (upd_page (set_p_enabled true) c)) s; Ok (call EPageBegin s)
  | EndPageMode =>
      on_ctx (fun c => Ok (upd_page (set_p_enabled false) c)) (call EPageEnd s)
  | PrintPageMode =>
      on_ctx (fun c =>
        do y <- add_u32 (a_y (g_render_area (c_graphics c))) (a_h (p_page_area (c_page c)));
        Ok (upd_gra (fun a => set_a_x 0 (set_a_y y a)) c)) (call ERenderPage s)
  | ChangePageArea =>
      do s <- on_ctx (fun c => Ok (upd_page (fun p => set_p_previous_direction (p_direction p) p) c)) s;
      page_geometry s
  | ChangePageModeDirection => page_geometry s
  | ChangeTabs n k => on_ctx (fun c => Ok (set_tab_len n k c)) s
  | ClearBufferGraphics => on_ctx (fun c => Ok (upd_graphics (set_g_buffer_graphics []) c)) s
  | Initialize | Cancel | Pulse | Transmit _ | MoveX _ => Ok s
  end.
(** renderer.rs:226-304 *)
Definition process_device_commands (l : list device_command) (s : rstate) : res rstate :=
  fold_res process_device_command l s.

(** ** Commands *)

(** renderer.rs:165-181 *)
Definition process_gfx (g : gfx) (s : rstate) : res rstate :=
  match g with
  | GError m => Ok (log_error (GraphicsError m) s)
  | GCode2D q => process_code_2d q s
  | GBarcode b => process_barcode b s
  | GImage i => process_image i s
  end.

(** renderer.rs:146-224 *)
Definition process_command (e : encoders) (c : command) (s : rstate) : res rstate :=
  match c_kind c with
  | KUnknown => do s <- process_text s; Ok (log_error (UnknownCommand c) s)
  | KText =>
      Ok (match get_text c (rs_ctx s) with Some t => collect_text t s | None => s end)
  | KGraphics =>
      do s <- process_text s;
      do g <- get_graphics e c (rs_ctx s);
      do s <- match g with Some g => process_gfx g s | None => Ok s end;
      do d <- get_device_command c (rs_ctx s);
      process_device_commands d s
  | KContext => do s <- process_text s; on_ctx (apply_context e c) s
  | KContextControl =>
      do s <- process_text s;
      do s <- on_ctx (apply_context e c) s;
      do d <- get_device_command c (rs_ctx s);
      process_device_commands d s
  | KControl =>
      do d <- get_device_command c (rs_ctx s);
      do s <- process_text s;
      process_device_commands d s
  | KTextStyle =>
      do s <- on_ctx (apply_context e c) s;
      do d <- get_device_command c (rs_ctx s);
      process_device_commands d s
  | KSubcommand => Ok s
  end.

Definition run_commands (e : encoders) (l : list command) (s : rstate) : res rstate :=
  fold_res (process_command e) l s.

(** renderer.rs:117-143.  The output and error buffers are handed over; the context, the span buffer
    and the output renderer live on in the [Renderer]. *)
Definition render (e : encoders) (bytes : list Z) (s : rstate) : res rstate :=
  do cmds <- parse_esc_pos bytes;
  run_commands e cmds s.

(** The outputs collected by a run: one per end_render call (renderer.rs:254-257). *)
Definition is_end (x : context * event) : bool := match snd x with EEndRender => true | _ => false end.
Definition outputs (s : rstate) : nat := length (filter is_end (rs_calls s)).
