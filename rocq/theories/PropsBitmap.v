(** * PropsBitmap: C42, a bitmap sent as raster bands comes out exactly. *)
From Verif Require Import Base Command CommandSet Parser SpecStream ParserLemmas StreamProofs Vec Float32 GTypes Graphics SpecGraphics GraphicsTheory GraphicsTheory2 PropsGraphics
  Decoder Context Text Handlers Renderer ContextTheory RendererTheory Origin SpecPrinter StateTheory PropsParser SpecRender PropsOutput AreaTheory SafeTheory
  ThermalImage SpecCanvas CanvasTheory CanvasRect PropsCanvas ImageRenderer SpecImage CallsTheory ImageTheory PropsSafe PropsImage.
Local Open Scope Z_scope.
Local Open Scope list_scope.
Local Arguments at_ : simpl never.
Local Arguments vlen : simpl never.

(** A band: [bn_bytes] bytes for each of [bn_rows] rows of dots. *)
Record band := mk_band { bn_bytes : Z; bn_rows : Z; bn_data : list Z }.
Definition band_ok (b : band) : Prop :=
  1 <= bn_bytes b <= 65535 /\ 0 <= bn_rows b <= 65535 /\ bytes_ok (bn_data b) = true /\ vlen (bn_data b) = bn_bytes b * bn_rows b /\
  8 * bn_bytes b * bn_rows b <= u32_max.
(** GS v 0 0 xL xH yL yH d1 .. dn *)
Definition band_wire (b : band) : list Z :=
  [29; 118; 48; 0; bn_bytes b mod 256; bn_bytes b / 256; bn_rows b mod 256; bn_rows b / 256] ++ bn_data b.
(** Dot (X, Y) of the bitmap made of bands one below the other: the most significant bit is the
    leftmost dot of a byte. *)
Fixpoint dot (l : list band) (X Y : Z) : bool :=
  match l with
  | [] => false
  | b :: r => if Y <? bn_rows b
              then (X <? 8 * bn_bytes b) && Z.testbit (at_ 0 (bn_data b) (Y * bn_bytes b + X / 8)) (7 - X mod 8)
              else dot r X (Y - bn_rows b)
  end.
Definition rows (l : list band) : Z := fold_right (fun b n => bn_rows b + n) 0 l.

(** ** The parser *)
Definition band_cmd (b : band) : command :=
  cmd_h cmd_raster_bit_image
    (HRaster {| ra_width := bn_bytes b * 8; ra_height := bn_rows b; ra_capacity := bn_bytes b * bn_rows b; ra_scaling := 0; ra_accept := true;
                ra_params := [0; bn_bytes b mod 256; bn_bytes b / 256; bn_rows b mod 256; bn_rows b / 256] |}) (bn_data b).
Lemma split256 n : n mod 256 + n / 256 * 256 = n.
Proof. pose proof (Z.div_mod n 256 ltac:(lia)). lia. Qed.
Lemma feed_band b : band_ok b -> ParserLemmas.feed cmd_raster_bit_image (skipn 3 (band_wire b)) = Some (band_cmd b).
Proof.
  intros (B1 & B2 & B3 & B4 & B5). unfold band_wire. cbn [skipn app].
  cbn [ParserLemmas.feed]. rewrite <- (cmd_h_id cmd_raster_bit_image).
  do 5 (rewrite push_custom by reflexivity;
          cbn [c_handler c_data cmd_raster_bit_image mk_cmd handler_push];
          unfold raster_push at 1;
          cbn [raster_init ra_accept negb length Nat.ltb Nat.leb bind app]).
  unfold get_or. cbn [nth]. rewrite !split256.
  match goal with |- ParserLemmas.feed (cmd_h ?k _ _) _ = _ => change k with cmd_raster_bit_image end.
  rewrite feed_raster; [reflexivity | reflexivity | reflexivity|]. cbn [ra_capacity]. unfold vlen in B4. unfold zlen. cbn [length]. lia.
Qed.
Lemma band_closed b x : band_ok b -> cmd_push (band_cmd b) x = Ok (false, band_cmd b).
Proof.
  intros (B1 & B2 & B3 & B4 & B5). unfold band_cmd. rewrite push_custom by reflexivity. cbn [handler_push].
  rewrite raster_full; [reflexivity | reflexivity|]. cbn [ra_capacity]. exact (eq_sym B4).
Qed.
Lemma run_band b cur cap m cur' : band_ok b -> lets_go cur false 29 cur' ->
  parse_all esc_pos (bd cur false cap m) (band_wire b) = Ok (bd (Some (band_cmd b)) false (cap ++ emitted_opt cur') [cmd_raster_bit_image]).
Proof.
  intros B L. change (band_wire b) with ([29; 118; 48] ++ skipn 3 (band_wire b)). rewrite parse_all_app.
  rewrite (scan_boundary esc_pos [29; 118; 48] cur false cap m cmd_raster_bit_image cur'); [|vm_compute; reflexivity | exact L].
  cbn [bind]. apply feed_run. exact (feed_band b B).
Qed.
Lemma run_bands l : forall k cap m, cmd_push k 29 = Ok (false, k) -> emitted k = [k] -> Forall band_ok l ->
  exists st, parse_all esc_pos (bd (Some k) false cap m) (flat_map band_wire l) = Ok st /\
    p_captured st ++ emitted_opt (p_current st) = cap ++ k :: map band_cmd l.
Proof.
  induction l as [|b2 l IH]; intros k cap m Kc Ke F.
  - eexists. split; [reflexivity|]. cbn [p_captured p_current bd emitted_opt]. rewrite Ke. reflexivity.
  - apply Forall_cons_iff in F. destruct F as (B2 & F). cbn [flat_map]. rewrite parse_all_app.
    rewrite (run_band b2 _ cap m (Some k) B2). 2:{ exists k. split; [exact Kc | reflexivity]. }
    cbn [bind]. destruct (IH (band_cmd b2) (cap ++ emitted_opt (Some k)) [cmd_raster_bit_image] (band_closed b2 29 B2) eq_refl F) as (st & E & Ec).
    exists st. split; [exact E|]. rewrite Ec. cbn [emitted_opt]. rewrite Ke. rewrite <- app_assoc. reflexivity.
Qed.
Lemma parse_bands l : Forall band_ok l -> parse_esc_pos (flat_map band_wire l) = Ok (cmd_begin_print :: map band_cmd l ++ [cmd_end_print]).
Proof.
  intros F. destruct l as [|b l]; [vm_compute; reflexivity|].
  apply Forall_cons_iff in F. destruct F as (B & F). 
  destruct (run_bands l (band_cmd b) [cmd_begin_print] [cmd_raster_bit_image] (band_closed b 29 B) eq_refl F) as (st & E & Ec).
  rewrite (parse_esc_pos_run _ st).
  - rewrite app_assoc, Ec. reflexivity.
  - cbn [flat_map]. rewrite parse_all_app. rewrite (run_band b None [cmd_begin_print] [] None B); [|reflexivity].
    cbn [bind emitted_opt]. rewrite app_nil_r. exact E.
Qed.

(** ** The renderer *)
Definition pen (y : Z) : context := at_xy 0 y context_new.
Lemma new_std : standard context_new. Proof. reflexivity. Qed.
Lemma pen_std y : standard (pen y). Proof. apply at_std. exact new_std. Qed.
Lemma pen_colors y : g_render_colors (c_graphics (pen y)) = default_colors.
Proof. exact (moved_colors _ _ (at_moved 0 y context_new)). Qed.
(** The call a band makes: an image of the size of the band at the left edge, showing its dots in black. *)
Definition band_call (y : Z) (b : band) (call : context * event) : Prop :=
  exists i, call = (pen y, EImage i) /\ i_x i = 0 /\ i_y i = y /\ i_w i = 8 * bn_bytes b /\ i_h i = bn_rows b /\ i_upside_down i = false /\
    vlen (i_pixels i) = i_w i * i_h i /\
    forall X Y, 0 <= X < i_w i -> 0 <= Y < i_h i ->
      block (i_pixels i) (i_w i) X Y = mk_rgba 0 0 0 (if dot [b] X Y then 255 else 0).
Fixpoint band_calls (y : Z) (l : list band) (calls : list (context * event)) : Prop :=
  match l, calls with
  | [], [] => True
  | b :: l, c :: calls => band_call y b c /\ band_calls (y + bn_rows b) l calls
  | _, _ => False
  end.
Lemma band_step e b y s : band_ok b -> 0 <= y -> y + bn_rows b <= u32_max -> rs_spans s = [] -> rs_ctx s = pen y ->
  exists call s', process_command e (band_cmd b) s = Ok s' /\ band_call y b call /\
    rs_calls s' = rs_calls s ++ [call] /\ rs_spans s' = [] /\ rs_ctx s' = pen (y + bn_rows b).
Proof.
  intros (B1 & B2 & B3 & B4 & B5) Hy Hr Es Ec.
  assert (Hw : line_bytes (bn_bytes b * 8) = bn_bytes b).
  { unfold line_bytes. replace (bn_bytes b * 8 + 7) with (7 + bn_bytes b * 8) by lia. rewrite Z.div_add by lia. reflexivity. }
  destruct (C15_raster_pixels (bn_bytes b * 8) (bn_rows b) 1 1 (mk_rgba 0 0 0 255) FlowBlock (bn_data b)) as (img & Ei & (R1 & R2 & R3) & Ew & Eh & _ & _ & Ef & Eu & Px);
    [lia | lia | lia | lia | rewrite Hw; exact B4 | unfold u32_max; lia | unfold u32_max; lia | lia |].
  rewrite Z.mul_1_r in Ew, Eh.
  assert (G : get_graphics e (band_cmd b) (rs_ctx s) = Ok (Some (GImage img))).
  { rewrite Ec. unfold get_graphics, band_cmd. cbn [c_handler cmd_h with_handler with_data c_data]. unfold raster_graphics. cbn [ra_width ra_height ra_scaling raster_stretch].
    rewrite pen_colors. change (color_for_number default_colors 1) with (mk_rgba 0 0 0 255). rewrite Ei. reflexivity. }
  set (i := set_i_y y (set_i_x 0 img)).
  assert (Pi : process_image img s = Ok (with_ctx (pen (y + bn_rows b)) (call (EImage i) s))).
  { unfold process_image. rewrite Ef, Ec. replace (p_enabled (c_page (pen y))) with false by reflexivity.
    assert (J : calculate_justification (i_w img) (pen y) = 0).
    { unfold calculate_justification. unfold pen at 2. rewrite at_text. destruct (_ <? _); reflexivity. }
    rewrite J. unfold on_ctx. rewrite Ec. unfold pen at 1. rewrite at_set_x by exact new_std. cbn [bind]. cbv zeta. fold (pen y).
    cbn [rs_ctx with_ctx]. change (get_y (pen y)) with (get_y (at_xy 0 y context_new)). change (get_x (pen y)) with (get_x (at_xy 0 y context_new)).
    rewrite at_x, at_y by exact new_std. fold i. change (i_flow i) with (i_flow img). rewrite Ef.
    cbn [rs_ctx call with_ctx]. replace (p_enabled (c_page (pen y))) with false by reflexivity.
    change (i_h i) with (i_h img). rewrite Eh. unfold pen at 1. rewrite at_offset_y by (try exact new_std; unfold top, u32_max in *; lia). cbn [bind].
    rewrite at_reset by exact new_std. fold (pen (y + bn_rows b)). unfold call. rewrite Ec. reflexivity. }
  exists (pen y, EImage i), (with_ctx (pen (y + bn_rows b)) (call (EImage i) s)).
  split.
  { unfold process_command. change (c_kind (band_cmd b)) with KGraphics. unfold process_text. rewrite Es. cbn [bind]. rewrite G. cbn [bind process_gfx].
    rewrite Pi. cbn [bind]. reflexivity. }
  split; [|split; [cbn [rs_calls with_ctx call]; rewrite Ec; reflexivity | split; [exact Es | reflexivity]]].
  exists i. split; [reflexivity|]. split; [reflexivity|]. split; [reflexivity|].
  change (i_w i) with (i_w img). change (i_h i) with (i_h img). change (i_pixels i) with (i_pixels img). change (i_upside_down i) with (i_upside_down img).
  split; [lia|]. split; [exact Eh|]. split; [exact Eu|]. split; [exact R3|].
  intros X Y HX HY. destruct (Px X Y) as (P1 & P2 & P3 & P4); [lia | lia|]. rewrite !Z.div_1_r in P4.
  assert (D : dot [b] X Y = raster_dot (bn_data b) (bn_bytes b * 8) X Y).
  { cbn [dot]. unfold raster_dot. rewrite Hw. replace (Y <? bn_rows b) with true by lia. replace (X <? 8 * bn_bytes b) with true by lia. reflexivity. }
  rewrite D, <- P4. unfold block. change (at_ rgba_blank (i_pixels img) (Y * i_w img + X)) with (px img X Y).
  destruct (px img X Y) as [r g bl a]. cbn [c_r c_g c_b c_a] in *. congruence.
Qed.
Lemma bands_run e l : forall y s, Forall band_ok l -> 0 <= y -> y + rows l <= u32_max -> rs_spans s = [] -> rs_ctx s = pen y ->
  exists calls s', run_commands e (map band_cmd l) s = Ok s' /\ band_calls y l calls /\
    rs_calls s' = rs_calls s ++ calls /\ rs_spans s' = [] /\ rs_ctx s' = pen (y + rows l).
Proof.
  induction l as [|b l IH]; intros y s F Hy Hr Es Ec.
  - exists [], s. rewrite app_nil_r, Z.add_0_r. repeat split; assumption.
  - apply Forall_cons_iff in F. destruct F as (B & F). cbn [rows fold_right] in Hr. fold (rows l) in Hr.
    assert (N : 0 <= rows l) by (clear -F; induction F as [|x l (_ & X & _) F IH]; cbn [rows fold_right]; [lia|]; fold (rows l); lia).
    pose proof B as (_ & B2 & _).
    destruct (band_step e b y s B Hy ltac:(lia) Es Ec) as (call & s1 & E1 & C1 & K1 & S1 & X1).
    destruct (IH (y + bn_rows b) s1 F ltac:(lia) ltac:(lia) S1 X1) as (calls & s2 & E2 & C2 & K2 & S2 & X2).
    exists (call :: calls), s2. split; [unfold run_commands; cbn [map fold_res]; rewrite E1; exact E2|].
    split; [split; assumption|]. split; [rewrite K2, K1, <- app_assoc; reflexivity|]. split; [exact S2|].
    rewrite X2. f_equal. cbn [rows fold_right]. fold (rows l). lia.
Qed.

Lemma begin_step e : exists s, process_command e cmd_begin_print renderer_new = Ok s /\ rs_ctx s = pen 108 /\ rs_spans s = [] /\
  rs_calls s = [(context_new, EDevice BeginPrint); (pen 108, EBeginRender)].
Proof. eexists. split; [vm_compute; reflexivity|]. split; [vm_compute; reflexivity|]. split; vm_compute; reflexivity. Qed.
Lemma end_step e s : rs_spans s = [] -> process_command e cmd_end_print s = Ok (call EEndRender (call EGetErrors (call (EDevice EndPrint) s))).
Proof. intros Es. unfold process_command. change (c_kind cmd_end_print) with KControl. unfold process_text. rewrite Es. reflexivity. Qed.
Lemma bands_render e l : Forall band_ok l -> 108 + rows l <= u32_max ->
  exists calls s, render e (flat_map band_wire l) renderer_new = Ok s /\ band_calls 108 l calls /\
    rs_calls s = [(context_new, EDevice BeginPrint); (pen 108, EBeginRender)] ++ calls ++
                 [(pen (108 + rows l), EDevice EndPrint); (pen (108 + rows l), EGetErrors); (pen (108 + rows l), EEndRender)].
Proof.
  intros F Hr. destruct (begin_step e) as (s0 & E0 & X0 & S0 & K0).
  destruct (bands_run e l 108 s0 F ltac:(lia) Hr S0 X0) as (calls & s1 & E1 & C1 & K1 & S1 & X1).
  exists calls, (call EEndRender (call EGetErrors (call (EDevice EndPrint) s1))). split.
  - unfold render. rewrite (parse_bands l F). cbn [bind]. unfold run_commands in *. cbn [fold_res]. rewrite E0. cbn [bind]. rewrite fold_res_app, E1. cbn [bind fold_res].
    rewrite (end_step e s1 S1). reflexivity.
  - split; [exact C1|]. cbn [rs_calls call rs_ctx]. rewrite K1, K0, X1, <- !app_assoc. reflexivity.
Qed.

(** ** The image *)
Lemma strip_put_ok x y w h px c H p : on_strip c 609 H p -> 0 <= x < 609 -> 0 <= y -> 0 <= w -> 0 <= h -> vlen px = w * h ->
  x + w <= u32_max -> y + h <= u32_max -> w * h <= u32_max -> 609 * Z.max H (y + h) <= u32_max ->
  exists c', put_pixels x y w h px true c = Ok c' /\ same_setup c c'.
Proof.
  intros (q & [S G F B] & _) Hx Hy Hw Hh L A1 A2 A3 A4.
  destruct (put_pixels_shows c 609 H q x y w h px true S Hx Hy Hw Hh L ltac:(congruence) A1 ltac:(congruence) A2 A3 A4) as (c' & E & SS & _). eauto.
Qed.
Lemma bands_painted fo l : forall y calls s H p, Forall band_ok l -> band_calls y l calls -> on_strip (im_paper s) 609 H p ->
  0 <= y -> 0 <= H <= y -> 609 * (y + rows l) <= u32_max ->
  exists s', image_calls fo calls s = Ok s' /\ im_page s' = im_page s /\ im_out s' = im_out s /\ im_reported s' = im_reported s /\ same_setup (im_paper s) (im_paper s') /\
    exists H' p', on_strip (im_paper s') 609 H' p' /\ 0 <= H' <= y + rows l.
Proof.
  induction l as [|b l IH]; intros y calls s H p F C S Hy HH Hr; destruct calls as [|call calls]; cbn [band_calls] in C; try contradiction.
  - exists s. split; [reflexivity|]. do 3 (split; [reflexivity|]). split; [repeat split|]. exists H, p. cbn [rows fold_right]. split; [exact S | lia].
  - apply Forall_cons_iff in F. destruct F as (B & F). destruct C as (C1 & C). cbn [rows fold_right] in Hr. fold (rows l) in Hr.
    assert (N : 0 <= rows l) by (clear -F; induction F as [|x l (_ & X & _) F IH]; cbn [rows fold_right]; [lia|]; fold (rows l); lia).
    pose proof B as (B1 & B2 & _ & _ & B5).
    destruct C1 as (i & -> & Ix & Iy & Iw & Ih & Iu & L & _).
    destruct (strip_put_ok (i_x i) (i_y i) (i_w i) (i_h i) (i_pixels i) (im_paper s) H p S) as (c1 & E1 & SS1);
      rewrite ?Ix, ?Iy, ?Iw, ?Ih; try (unfold u32_max in *; lia).
    assert (Ec : image_event fo (pen y) (EImage i) s = Ok (with_paper c1 s)).
    { cbn [image_event]. unfold on_canvas. replace (p_enabled (c_page (pen y))) with false by reflexivity. unfold on_paper, put_render_img. rewrite E1. cbn [bind]. rewrite Iu. reflexivity. }
    destruct (put_strip (i_x i) (i_y i) (i_w i) (i_h i) (i_pixels i) (im_paper s) c1 609 H p S ltac:(lia) ltac:(lia) ltac:(lia) ltac:(lia) L E1) as (S1 & _).
    cbn [bottom] in S1. replace (i_x i <? 609) with true in S1 by lia.
    destruct (IH (y + bn_rows b) calls (with_paper c1 s) _ _ F C S1 ltac:(lia) ltac:(lia) ltac:(lia)) as (s' & E2 & Q1 & Q2 & Q3 & (Q4 & Q5 & Q6) & H' & p' & S2 & HH').
    exists s'. split; [unfold image_calls; cbn [fold_res fst snd]; rewrite Ec; exact E2|].
    split; [exact Q1|]. split; [exact Q2|]. split; [exact Q3|]. cbn [im_paper with_paper] in *. destruct SS1 as (T1 & T2 & T3).
    split; [repeat split; congruence|]. exists H', p'. split; [exact S2|]. cbn [rows fold_right]. fold (rows l). lia.
Qed.
Lemma ink_on_white b : multiply_foreground white (mk_rgba 0 0 0 (if b : bool then 255 else 0)) = if b then mk_rgba 0 0 0 255 else white.
Proof. destruct b; vm_compute; reflexivity. Qed.
Lemma dot_single b X Y : Y < bn_rows b -> forall r, dot (b :: r) X Y = dot [b] X Y.
Proof. intros H r. cbn [dot]. replace (Y <? bn_rows b) with true by lia. reflexivity. Qed.
Lemma bands_drawing fo l : forall y calls p, Forall band_ok l -> band_calls y l calls -> 0 <= y ->
  (forall X Y, y <= Y -> p X Y = white) ->
  forall X Y, 0 <= X -> drawing 609 (flat_map (strokes fo) calls) p X Y =
    if (y <=? Y) && dot l X (Y - y) then mk_rgba 0 0 0 255 else p X Y.
Proof.
  induction l as [|b l IH]; intros y calls p F C Hy Hp X Y HX; destruct calls as [|call calls]; cbn [band_calls] in C; try contradiction.
  - cbn [flat_map drawing fold_left dot]. rewrite andb_false_r. reflexivity.
  - apply Forall_cons_iff in F. destruct F as (B & F). destruct C as (C1 & C). pose proof B as (B1 & B2 & _ & _ & B5).
    destruct C1 as (i & -> & Ix & Iy & Iw & Ih & Iu & L & Px).
    cbn [flat_map]. unfold strokes at 1. replace (p_enabled (c_page (pen y))) with false by reflexivity. rewrite Iu. cbn [app].
    match goal with |- drawing 609 (?s :: ?r) p X Y = _ => change (drawing 609 (s :: r) p X Y) with (drawing 609 r (draw 609 s p) X Y) end.
    rewrite (IH (y + bn_rows b) calls _ F C ltac:(lia)); [|intros X' Y' HY'|exact HX].
    2:{ cbn [draw]. unfold covers. replace (Y' <? i_y i + i_h i) with false by lia. rewrite !andb_false_r. apply Hp. lia. }
    cbn [draw]. unfold covers. rewrite Ix, Iy, Iw, Ih. rewrite Z.sub_0_r, Z.add_0_l.
    destruct (Z.ltb_spec Y (y + bn_rows b)) as [Lo|Hi].
    + replace (y + bn_rows b <=? Y) with false by lia. cbn [andb].
      destruct (Z.leb_spec y Y) as [In|Out]; [|rewrite andb_false_r; cbn [andb]; reflexivity].
      rewrite (dot_single b X (Y - y) ltac:(lia) l). cbn [andb].
      replace (0 <=? X) with true by lia. cbn [andb]. rewrite andb_true_r, andb_true_r.
      destruct (Z.ltb_spec X (8 * bn_bytes b)) as [Ix'|Ox].
      * rewrite Hp by lia. rewrite <- Iw. rewrite Px by lia. rewrite ink_on_white. reflexivity.
      * replace (dot [b] X (Y - y)) with false; [reflexivity|]. cbn [dot]. replace (X <? 8 * bn_bytes b) with false by lia. destruct (_ <? _); reflexivity.
    + rewrite andb_false_r. replace (y + bn_rows b <=? Y) with true by lia. replace (y <=? Y) with true by lia. cbn [andb].
      cbn [dot]. replace (Y - y <? bn_rows b) with false by lia. replace (Y - (y + bn_rows b)) with (Y - y - bn_rows b) by lia. reflexivity.
Qed.
Lemma bands_bottom fo l : forall y calls H, Forall band_ok l -> band_calls y l calls -> 0 <= y -> 0 <= H <= y -> 
  H <= bottoms 609 (flat_map (strokes fo) calls) H <= y + rows l.
Proof.
  induction l as [|b l IH]; intros y calls H F C Hy HH; destruct calls as [|call calls]; cbn [band_calls] in C; try contradiction.
  - cbn [flat_map bottoms fold_left rows fold_right]. lia.
  - apply Forall_cons_iff in F. destruct F as (B & F). destruct C as (C1 & C). pose proof B as (B1 & B2 & _ & _ & B5).
    destruct C1 as (i & -> & Ix & Iy & Iw & Ih & Iu & L & Px).
    assert (St : strokes fo (pen y, EImage i) = [Paint (i_x i) (i_y i) (i_w i) (i_h i) (i_pixels i)]).
    { unfold strokes. replace (p_enabled (c_page (pen y))) with false by reflexivity. rewrite Iu. reflexivity. }
    cbn [flat_map]. rewrite St. cbn [app].
    match goal with |- context [bottoms 609 (?s :: ?r) H] => change (bottoms 609 (s :: r) H) with (bottoms 609 r (Z.max H (bottom 609 s))) end.
    cbn [bottom]. replace (i_x i <? 609) with true by lia. rewrite Iy, Ih.
    pose proof (IH (y + bn_rows b) calls (Z.max H (y + bn_rows b)) F C ltac:(lia) ltac:(lia)). cbn [rows fold_right]. fold (rows l). lia.
Qed.

Lemma rows_nonneg l : Forall band_ok l -> 0 <= rows l.
Proof. intros F. induction F as [|x l (_ & X & _) F IH]; cbn [rows fold_right]; [lia|]; fold (rows l); lia. Qed.
Lemma bands_bytes l : Forall band_ok l -> bytes_ok (flat_map band_wire l) = true.
Proof.
  intros F. clear -F. induction F as [|b l (B1 & B2 & B3 & _) F IH]; [reflexivity|]. cbn [flat_map]. unfold bytes_ok in *. rewrite forallb_app, IH, andb_true_r.
    unfold band_wire. rewrite forallb_app, B3, andb_true_r. cbn [forallb]. unfold is_byte.
    pose proof (Z.mod_pos_bound (bn_bytes b) 256 ltac:(lia)). pose proof (Z.mod_pos_bound (bn_rows b) 256 ltac:(lia)).
    assert (0 <= bn_bytes b / 256 <= 255) by (split; [apply Z.div_pos; lia | pose proof (Z.div_lt_upper_bound (bn_bytes b) 256 256 ltac:(lia) ltac:(lia)); lia]).
    assert (0 <= bn_rows b / 256 <= 255) by (split; [apply Z.div_pos; lia | pose proof (Z.div_lt_upper_bound (bn_rows b) 256 256 ltac:(lia) ltac:(lia)); lia]).
    lia.
Qed.
Lemma end_ok x s W H p : cinv x -> on_strip (im_paper s) W H p -> W <= 649 -> 0 <= a_y (g_render_area (c_graphics x)) ->
  649 * Z.max H (a_y (g_render_area (c_graphics x))) <= u32_max ->
  exists im, end_render x s = Ok im /\ im_reported im = im_reported s /\ im_page im = im_page s /\ cv_errors (im_paper im) = cv_errors (im_paper s).
Proof.
  intros C (q & [Sh G Fi Bl] & _) HW Hy Hb. unfold end_render. rewrite (paper_width x C). set (y1 := a_y _) in *. clearbody y1.
  destruct (expand_to_width_shows _ W H q 649 Sh HW) as (c1 & X1 & Sh1 & (_ & _ & SE1)). rewrite X1. cbn [bind].
  destruct (expand_to_height_shows c1 649 H _ y1 Sh1 ltac:(lia) ltac:(nia)) as (c2 & X2 & Sh2 & (_ & _ & SE2)). rewrite X2. cbn [bind].
  unfold consume_rgb_u8. rewrite (shows_height _ _ _ _ Sh2). destruct Sh2 as (_ & HH & EW & _). rewrite EW. unfold mul_u32. rewrite CanvasTheory.chk_ok by (clear - Hb HH; lia).
  cbn [bind]. eexists. split; [reflexivity|]. split; [reflexivity|]. split; [reflexivity|]. cbn [im_paper cv_errors set_width set_cv_bytes set_cv_width]. congruence.
Qed.

(** A bitmap sent as any number of raster bands, whatever the fonts and the encoders of symbols:
    nothing fails, there is one image, the bitmap stands at the left edge of the print area (20 dots
    from the edge of the paper) 108 dots from the top, every dot is black where its bit is set and
    everything else is white; what does not fit into the print width is cut off at the right. *)
Theorem C42_bitmap_printed_exactly : forall fo e bands,
  Forall band_ok bands -> 649 * (108 + rows bands) <= u32_max ->
  exists im r, render_images fo e (flat_map band_wire bands) = Ok im /\ im_out im = [r] /\ im_reported im = [] /\
    r_width r = 649 /\ r_height r = 108 + rows bands /\
    forall X Y, 0 <= X < 649 -> 0 <= Y < r_height r ->
      rgb_at r X Y = if (20 <=? X) && (X <? 629) && (108 <=? Y) && dot bands (X - 20) (Y - 108) then (0, 0, 0) else (255, 255, 255).
Proof.
  intros fo e l F Hr.
  pose proof (rows_nonneg l F) as N. pose proof (bands_bytes l F) as Bs.
  destruct (bands_render e l F ltac:(unfold u32_max in *; lia)) as (calls & s & Es & C & K).
  pose proof (job_calls _ _ _ Bs Es) as Wf. rewrite K in Wf. apply Forall_cons_iff in Wf. destruct Wf as (_ & Wf). apply Forall_cons_iff in Wf. destruct Wf as (W0 & Wf).
  apply Forall_app in Wf. destruct Wf as (_ & Wf). apply Forall_cons_iff in Wf. destruct Wf as (W1 & _).
  destruct (sheet_begin (pen 108) image_new (proj1 W0) image_new_ok) as ([R0 Wd0 P0 G0] & Wd0' & B0 & O0).
  destruct (bands_painted fo l 108 calls (begin_render (pen 108) image_new) 0 blank_sheet F C (fresh_strip _ Wd0' B0 G0 P0) ltac:(lia) ltac:(lia) ltac:(lia))
    as (s1 & E1 & Q1 & Q2 & Q3 & (Q4 & Q5 & Q6) & H' & p' & S1 & HH').
  set (s2 := mk_istate (im_paper s1) (im_page s1) (im_out s1) (im_reported s1 ++ cv_errors (im_paper s1) ++ cv_errors (im_page s1))).
  set (y1 := 108 + rows l) in *.
  assert (Ee : exists im, end_render (pen y1) s2 = Ok im /\ im_reported im = im_reported s2).
  { destruct (end_ok (pen y1) s2 609 H' p' (proj1 W1) S1) as (im & X1 & X2 & _); [lia | change (a_y (g_render_area (c_graphics (pen y1)))) with y1; lia | change (a_y (g_render_area (c_graphics (pen y1)))) with y1; lia|]. eauto. }
  destruct Ee as (im & Ee & Er).
  assert (Ei : render_images fo e (flat_map band_wire l) = Ok im).
  { unfold render_images. rewrite Es. cbn [bind]. rewrite K. unfold image_calls. cbn [app fold_res fst snd image_event bind]. rewrite fold_res_app.
    unfold image_calls in E1. rewrite E1. cbn [bind fold_res fst snd image_event]. fold s2. rewrite Ee. reflexivity. }
  assert (Rp : im_reported im = []).
  { rewrite Er. unfold s2. cbn [im_reported]. rewrite Q3, Q6, Q1. reflexivity. }
  destruct (C40_first_image fo e _ s im ([(context_new, EDevice BeginPrint); (pen 108, EBeginRender)] ++ calls ++ [(pen y1, EDevice EndPrint); (pen y1, EGetErrors)]) (pen y1) [] Bs Es Ei) as (r & later & O & A1 & A2 & A3).
  { rewrite K. rewrite <- !app_assoc. reflexivity. }
  { apply Forall_app. split; [repeat constructor; discriminate|]. apply Forall_app. split; [|repeat constructor; discriminate].
    clear -C. revert C. generalize 108. revert l. induction calls as [|c calls IH]; intros l y C; [constructor|]. destruct l as [|b l]; [contradiction|]. destruct C as ((i & -> & _) & C).
    constructor; [split; discriminate | exact (IH _ _ C)]. }
  assert (Em : flat_map (strokes fo) ([(context_new, EDevice BeginPrint); (pen 108, EBeginRender)] ++ calls ++ [(pen y1, EDevice EndPrint); (pen y1, EGetErrors)]) = flat_map (strokes fo) calls).
  { rewrite !flat_map_app. change (flat_map (strokes fo) [(context_new, EDevice BeginPrint); (pen 108, EBeginRender)]) with (@nil stroke).
    change (flat_map (strokes fo) [(pen y1, EDevice EndPrint); (pen y1, EGetErrors)]) with (@nil stroke). rewrite app_nil_r. reflexivity. }
  rewrite Em in A2, A3. pose proof (bands_bottom fo l 108 calls 0 F C ltac:(lia) ltac:(lia)) as Hb. fold y1 in Hb.
  change (a_y (g_render_area (c_graphics (pen y1)))) with y1 in A2.
  assert (later = []).
  { destruct (C39_images fo e _ _ im Bs (parse_bands l F) Ei) as (Ln & _). rewrite O in Ln.
    assert (Sh : sheets false (cmd_begin_print :: map band_cmd l ++ [cmd_end_print]) = 0%nat).
    { cbn [sheets]. change (c_commands cmd_begin_print) with (@nil Z). cbv iota. clear. induction l as [|b l IH]; [reflexivity|]. cbn [map app sheets].
      change (c_commands (band_cmd b)) with [29; 118; 48]. exact IH. }
    rewrite Sh in Ln. destruct later; [reflexivity | discriminate]. }
  subst later. exists im, r. split; [exact Ei|]. split; [exact O|]. split; [exact Rp|]. split; [exact A1|]. split; [lia|].
  intros X Y HX HY. rewrite (A3 X Y HX HY). destruct ((20 <=? X) && (X <? 629)) eqn:D; [|reflexivity].
  rewrite (bands_drawing fo l 108 calls blank_sheet F C ltac:(lia) ltac:(reflexivity) (X - 20) Y ltac:(lia)). cbn [andb].
  destruct ((108 <=? Y) && dot l (X - 20) (Y - 108)); reflexivity.
Qed.
(** Two bands: 16 dots wide, 1 row, and 8 dots wide, 2 rows. *)
Definition demo_bands : list band := [mk_band 2 1 [129; 1]; mk_band 1 2 [255; 16]].
Example C42_demo : Forall band_ok demo_bands /\ 649 * (108 + rows demo_bands) <= u32_max /\
  dot demo_bands 0 0 = true /\ dot demo_bands 1 0 = false /\ dot demo_bands 15 0 = true /\ dot demo_bands 3 2 = true /\ dot demo_bands 8 1 = false.
Proof.
  split; [|split; [vm_compute; discriminate | vm_compute; auto]].
  repeat constructor; cbn; try reflexivity; try lia; unfold u32_max; lia.
Qed.


(** ** The same bitmap after a form feed *)
Definition cmd_ff : command := cmd_formfeed.
Lemma parse_ff_bands l : Forall band_ok l -> parse_esc_pos (12 :: flat_map band_wire l) = Ok (cmd_begin_print :: cmd_ff :: map band_cmd l ++ [cmd_end_print]).
Proof.
  intros F. destruct (run_bands l cmd_ff [cmd_begin_print] [cmd_ff] eq_refl eq_refl F) as (st & E & Ec).
  rewrite (parse_esc_pos_run _ st).
  - rewrite app_assoc, Ec. reflexivity.
  - change (12 :: flat_map band_wire l) with ([12] ++ flat_map band_wire l). rewrite parse_all_app.
    rewrite (scan_boundary esc_pos [12] None false [cmd_begin_print] [] cmd_ff None); [|vm_compute; reflexivity | reflexivity].
    cbn [bind emitted_opt]. rewrite app_nil_r. exact E.
Qed.
Lemma ff_step e s y : rs_spans s = [] -> rs_ctx s = pen y -> process_command e cmd_ff s = Ok (call EEndRender (call EGetErrors (call (EDevice EndPrint) s))).
Proof.
  intros Es Ec. unfold process_command. change (c_kind cmd_ff) with KControl. unfold process_text. rewrite Es. cbn [bind].
  rewrite Ec. reflexivity.
Qed.
Definition closing (y : Z) : list (context * event) := [(pen y, EDevice EndPrint); (pen y, EGetErrors); (pen y, EEndRender)].
Lemma ff_bands_render e l : Forall band_ok l -> 108 + rows l <= u32_max ->
  exists calls s, render e (12 :: flat_map band_wire l) renderer_new = Ok s /\ band_calls 108 l calls /\
    rs_calls s = [(context_new, EDevice BeginPrint); (pen 108, EBeginRender)] ++ closing 108 ++ calls ++ closing (108 + rows l).
Proof.
  intros F Hr. destruct (begin_step e) as (s0 & E0 & X0 & S0 & K0).
  set (s0' := call EEndRender (call EGetErrors (call (EDevice EndPrint) s0))).
  destruct (bands_run e l 108 s0' F ltac:(lia) Hr S0 X0) as (calls & s1 & E1 & C1 & K1 & S1 & X1).
  exists calls, (call EEndRender (call EGetErrors (call (EDevice EndPrint) s1))). split.
  - unfold render. rewrite (parse_ff_bands l F). cbn [bind]. unfold run_commands in *. cbn [fold_res]. rewrite E0. cbn [bind].
    rewrite (ff_step e s0 108 S0 X0). cbn [bind]. fold s0'. rewrite fold_res_app, E1. cbn [bind fold_res].
    rewrite (end_step e s1 S1). reflexivity.
  - split; [exact C1|]. cbn [rs_calls call rs_ctx]. rewrite K1, X1. unfold s0', call. cbn [rs_calls rs_ctx]. rewrite K0, X0, <- !app_assoc. reflexivity.
Qed.
Lemma off_end_ok x s : cinv x -> off_ok (im_paper s) -> 649 * a_y (g_render_area (c_graphics x)) <= u32_max ->
  exists im, end_render x s = Ok im /\ im_reported im = im_reported s /\ im_page im = im_page s /\ cv_errors (im_paper im) = cv_errors (im_paper s).
Proof.
  intros C [A B P G] Hy. pose proof (ua_y _ (ui_render _ (ci_u _ C))) as Hu. unfold u32v in Hu.
  unfold end_render. rewrite (paper_width x C). set (ay := a_y _) in *. clearbody ay.
  unfold expand_to_width, get_canvas_height. rewrite A, B. change (649 <? 0) with false. change (0 =? 0) with true. cbv zeta iota. change (0 * 649 <? vlen (@nil rgba)) with false.
  cbv iota. rewrite for_range_neg by lia. cbn [bind].
  unfold expand_to_height at 1. cbn [cv_width set_cv_width set_cv_bytes cv_bytes]. unfold mul_u32. rewrite CanvasTheory.chk_ok by lia. cbn [bind].
  change (vlen (@nil rgba)) with 0. 
  match goal with |- exists im, bind ?a _ = _ /\ _ => assert (Q : exists c, a = Ok c /\ cv_width c = 649 /\ vlen (cv_bytes c) = 649 * ay /\ cv_errors c = cv_errors (im_paper s)) end.
  { destruct (Z.leb_spec (649 * ay) 0) as [L|L].
    - eexists. split; [reflexivity|]. split; [reflexivity|]. split; [|reflexivity]. cbn [cv_bytes set_cv_width set_cv_bytes]. change (vlen (@nil rgba)) with 0. clear - L Hu. lia.
    - eexists. split; [reflexivity|]. split; [reflexivity|]. split; [|reflexivity]. cbn [cv_bytes set_cv_bytes app]. unfold vlen. rewrite repeat_length. clear - L Hu. lia. }
  destruct Q as (c & -> & W & L & Er). cbn [bind]. unfold consume_rgb_u8. unfold get_canvas_height. rewrite W, L. change (649 =? 0) with false. cbv iota.
  rewrite (Z.mul_comm 649 ay), Z.div_mul by lia. unfold mul_u32. rewrite CanvasTheory.chk_ok by lia. cbn [bind].
  eexists. split; [reflexivity|]. split; [reflexivity|]. split; [reflexivity|]. exact Er.
Qed.


Lemma off_band fo y b call s : band_call y b call -> band_ok b -> off_ok (im_paper s) ->
  exists s', image_event fo (fst call) (snd call) s = Ok s' /\ off_ok (im_paper s') /\ im_page s' = im_page s /\ im_out s' = im_out s /\
    im_reported s' = im_reported s /\ length (cv_errors (im_paper s')) = S (length (cv_errors (im_paper s))).
Proof.
  intros (i & -> & Ix & Iy & Iw & Ih & Iu & L & _) (B1 & B2 & _ & _ & B5) [A B P G]. cbn [fst snd image_event].
  unfold on_canvas. replace (p_enabled (c_page (pen y))) with false by reflexivity. unfold on_paper, put_render_img, put_pixels.
  rewrite Iu, Ix. unfold mul_u32. rewrite CanvasTheory.chk_ok by lia. cbn [bind]. replace (i_w i * i_h i <? vlen (i_pixels i)) with false by lia.
  rewrite A. change (0 <=? 0) with true. cbn [orb bind]. eexists. split; [reflexivity|].
  split; [constructor; assumption|]. do 3 (split; [reflexivity|]).
  cbn [im_paper with_paper]. unfold push_cv_error. cbn [cv_errors]. rewrite app_length. cbn [length]. lia.
Qed.
Lemma off_bands fo l : forall y calls s, Forall band_ok l -> band_calls y l calls -> off_ok (im_paper s) ->
  exists s', image_calls fo calls s = Ok s' /\ off_ok (im_paper s') /\ im_page s' = im_page s /\ im_out s' = im_out s /\
    im_reported s' = im_reported s /\ length (cv_errors (im_paper s')) = (length l + length (cv_errors (im_paper s)))%nat.
Proof.
  induction l as [|b l IH]; intros y calls s F C O; destruct calls as [|call calls]; cbn [band_calls] in C; try contradiction.
  - exists s. split; [reflexivity|]. auto.
  - apply Forall_cons_iff in F. destruct F as (B & F). destruct C as (C1 & C).
    destruct (off_band fo y b call s C1 B O) as (s1 & E1 & O1 & P1 & U1 & R1 & L1).
    destruct (IH _ calls s1 F C O1) as (s2 & E2 & O2 & P2 & U2 & R2 & L2).
    exists s2. split; [unfold image_calls; cbn [fold_res]; rewrite E1; exact E2|]. split; [exact O2|]. split; [congruence|]. split; [congruence|]. split; [congruence|].
    cbn [length]. lia.
Qed.
Lemma run_two fo e input c0 p1 p2 s calls t2 t3 t5 :
  render e input renderer_new = Ok s ->
  rs_calls s = [(c0, EDevice BeginPrint); (p1, EBeginRender)] ++ [(p1, EDevice EndPrint); (p1, EGetErrors); (p1, EEndRender)] ++ calls ++
    [(p2, EDevice EndPrint); (p2, EGetErrors); (p2, EEndRender)] ->
  end_render p1 (mk_istate (im_paper (begin_render p1 image_new)) (im_page (begin_render p1 image_new)) (im_out (begin_render p1 image_new))
    (im_reported (begin_render p1 image_new) ++ cv_errors (im_paper (begin_render p1 image_new)) ++ cv_errors (im_page (begin_render p1 image_new)))) = Ok t2 ->
  image_calls fo calls t2 = Ok t3 ->
  end_render p2 (mk_istate (im_paper t3) (im_page t3) (im_out t3) (im_reported t3 ++ cv_errors (im_paper t3) ++ cv_errors (im_page t3))) = Ok t5 ->
  render_images fo e input = Ok t5.
Proof.
  intros Es K E2 E3 E5. unfold render_images. rewrite Es. cbn [bind]. rewrite K. unfold image_calls in *. cbn [app fold_res fst snd image_event bind].
  rewrite E2. cbn [bind]. rewrite fold_res_app, E3. cbn [bind fold_res fst snd image_event]. rewrite E5. reflexivity.
Qed.
(** The bitmap of [C42_bitmap_printed_exactly] sent after a form feed: the job succeeds and gives
    two images, but both are white all over; each band has been refused. *)
Theorem C41_form_feed_loses_the_bitmap : forall fo e bands,
  Forall band_ok bands -> 649 * (108 + rows bands) <= u32_max ->
  exists im r1 r2, render_images fo e (12 :: flat_map band_wire bands) = Ok im /\ im_out im = [r1; r2] /\
    all_white r1 /\ all_white r2 /\ r_height r1 = 108 /\ r_height r2 = 108 + rows bands /\ length (im_reported im) = length bands.
Proof.
  intros fo e l F Hr. pose proof (rows_nonneg l F) as N.
  destruct (ff_bands_render e l F ltac:(unfold u32_max in *; lia)) as (calls & s & Es & C & K).
  assert (Bs : bytes_ok (12 :: flat_map band_wire l) = true) by exact (bands_bytes l F).
  pose proof (job_calls _ _ _ Bs Es) as Wf. pose proof Wf as Wf'. rewrite K in Wf. apply Forall_cons_iff in Wf. destruct Wf as (_ & Wf). apply Forall_cons_iff in Wf. destruct Wf as (W0 & Wf).
  apply Forall_app in Wf. destruct Wf as (_ & Wf). apply Forall_app in Wf. destruct Wf as (_ & Wf). apply Forall_cons_iff in Wf. destruct Wf as (W1 & _).
  set (y1 := 108 + rows l) in *.
  destruct (sheet_begin (pen 108) image_new (proj1 W0) image_new_ok) as (Ok0 & Wd0' & B0 & O0).
  set (t0 := begin_render (pen 108) image_new) in *.
  set (t1 := mk_istate (im_paper t0) (im_page t0) (im_out t0) (im_reported t0 ++ cv_errors (im_paper t0) ++ cv_errors (im_page t0))).
  destruct Ok0 as [R0 Wd0 P0 G0].
  destruct (end_ok (pen 108) t1 609 0 blank_sheet (proj1 W0) (fresh_strip (im_paper t1) Wd0' B0 G0 P0)) as (t2 & E2 & Rp2 & Pg2 & Er2);
    try (change (a_y (g_render_area (c_graphics (pen 108)))) with 108; unfold u32_max; lia).
  destruct (strip_end (pen 108) t1 t2 0 blank_sheet (proj1 W0) (fresh_strip (im_paper t1) Wd0' B0 G0 P0) P0 E2) as (r1 & Or1 & A1 & A2 & A3 & _).
  destruct (sheet_end (pen 108) t1 t2 (proj1 W0) (mk_sheet (im_paper t1) R0 Wd0 P0 G0) E2) as (_ & c0 & _ & _ & _ & _ & Q7 & Q8 & Q9 & _).
  assert (S2 : off_ok (im_paper t2)) by (rewrite Q7; constructor; [reflexivity | reflexivity | exact Q8 | exact Q9]).
  destruct (off_bands fo l 108 calls t2 F C S2) as (t3 & E3 & S3 & Pg3 & Or3 & Rp3 & L3).
  set (t4 := mk_istate (im_paper t3) (im_page t3) (im_out t3) (im_reported t3 ++ cv_errors (im_paper t3) ++ cv_errors (im_page t3))).
  destruct (off_end_ok (pen y1) t4 (proj1 W1) S3 Hr) as (t5 & E5 & Rp5 & _ & _).
  destruct (off_end (pen y1) t4 t5 (proj1 W1) S3 E5) as (_ & r2 & Or5 & D1 & D2 & D3).
  exists t5, r1, r2. split.
  { exact (run_two fo e _ _ _ _ s calls t2 t3 t5 Es K E2 E3 E5). }
  change (a_y (g_render_area (c_graphics (pen 108)))) with 108 in A2. change (a_y (g_render_area (c_graphics (pen y1)))) with y1 in D2.
  split; [rewrite Or5; unfold t4; cbn [im_out]; rewrite Or3, Or1; reflexivity|].
  split. { intros X Y HX HY. rewrite A1 in HX. rewrite (A3 X Y HX HY). destruct (_ && _); reflexivity. }
  split. { intros X Y HX HY. rewrite D1 in HX. exact (D3 X Y HX HY). } split; [rewrite A2; reflexivity|]. split; [exact D2|].
  rewrite Rp5. unfold t4. cbn [im_reported]. rewrite Rp3, Rp2, !app_length, L3, Er2, Pg3, Pg2. cbn. lia.
Qed.

Print Assumptions C41_form_feed_loses_the_bitmap.
Print Assumptions C42_bitmap_printed_exactly.
