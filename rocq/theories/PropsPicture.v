(** * PropsPicture: C48, the image commands GS v 0 and ESC *. *)
From Verif Require Import Base Command CommandSet Parser Vec GTypes Graphics SpecGraphics GraphicsTheory GraphicsTheory2 PropsGraphics
  Context Text Handlers Renderer ContextTheory RendererTheory Origin Told SpecPrinter StateTheory PropsContext PropsLayout AreaTheory PropsThermal SpecSymbol.
Local Open Scope Z_scope.
Local Open Scope list_scope.
Local Arguments at_ : simpl never.
Local Arguments vlen : simpl never.

Lemma justified_eq c w : p_enabled (c_page c) = false -> a_w (g_render_area (c_graphics c)) = 609 -> 0 <= w ->
  calculate_justification w c = justified (t_justify (c_text c)) 609 w.
Proof.
  intros P W Hw. unfold calculate_justification, justified, get_width. rewrite P, W. destruct (Z.ltb_spec 609 w); [reflexivity|].
  destruct (t_justify (c_text c)); try reflexivity. destruct (Z.ltb_spec 0 (609 - w)); [reflexivity|].
  replace (609 - w) with 0 by lia. reflexivity.
Qed.
(** ** Images in standard mode *)
Lemma block_image i s s' : p_enabled (c_page (rs_ctx s)) = false -> a_w (g_render_area (c_graphics (rs_ctx s))) = 609 -> i_flow i = FlowBlock -> 0 <= i_w i ->
  process_image i s = Ok s' ->
  exists x, rs_calls s' = rs_calls s ++ [(x, EImage (set_i_y (get_y (rs_ctx s)) (set_i_x (justified (t_justify (c_text (rs_ctx s))) 609 (i_w i)) i)))] /\
    get_x (rs_ctx s') = 0 /\ get_y (rs_ctx s') = get_y (rs_ctx s) + i_h i.
Proof.
  intros Pg W Fl Hw H. rewrite <- (justified_eq _ _ Pg W Hw).
  unfold process_image in H. rewrite Fl, Pg in H. unfold on_ctx, set_x in H. rewrite Pg in H. cbn [bind] in H. cbv zeta in H.
  set (off := calculate_justification (i_w i) (rs_ctx s)) in *.
  change (i_flow (set_i_y _ (set_i_x _ i))) with (i_flow i) in H. rewrite Fl in H.
  cbn [rs_ctx call with_ctx] in H.
  assert (Pg' : p_enabled (c_page (upd_gra (set_a_x off) (rs_ctx s))) = false) by exact Pg.
  rewrite Pg' in H. unfold on_ctx in H. cbn [rs_ctx call with_ctx] in H.
  apply bind_ok in H. destruct H as (x & Hx & H). injection H as <-.
  apply bind_ok in Hx. destruct Hx as (c1 & Hc1 & Hx). injection Hx as <-.
  unfold offset_y in Hc1. rewrite Pg' in Hc1. apply bind_ok in Hc1. destruct Hc1 as (v & Hv & Hc1).
  injection Hc1 as <-. eexists. unfold get_x, get_y. cbn [rs_ctx with_ctx]. rewrite Pg', Pg.
  unfold add_u32, chk in Hv. destruct (_ && _); [|discriminate]. injection Hv as <-.
  split; [reflexivity|]. unfold reset_x, get_base_x.
  change (p_enabled (c_page (upd_gra ?f (upd_gra ?g (rs_ctx s))))) with (p_enabled (c_page (rs_ctx s))). rewrite Pg.
  change (p_enabled (c_page (upd_gra ?h (upd_gra ?f (upd_gra ?g (rs_ctx s)))))) with (p_enabled (c_page (rs_ctx s))).
  rewrite Pg. split; reflexivity.
Qed.
(** Images in the flow of text: next to what was printed before if there is room, else on the next line. *)
Lemma inline_image i s s' : p_enabled (c_page (rs_ctx s)) = false -> a_w (g_render_area (c_graphics (rs_ctx s))) = 609 -> i_flow i = FlowInline -> 0 < i_w i ->
  process_image i s = Ok s' ->
  let fits := get_x (rs_ctx s) + i_w i <=? 609 in
  let X := if fits then get_x (rs_ctx s) else 0 in
  let Y := if fits then get_y (rs_ctx s) else get_y (rs_ctx s) + t_line_spacing (c_text (rs_ctx s)) in
  exists x, rs_calls s' = rs_calls s ++ [(x, EImage (set_i_y Y (set_i_x X i)))] /\
    get_x (rs_ctx s') = X + i_w i /\ get_y (rs_ctx s') = Y.
Proof.
  intros Pg W Fl Hw H. cbv zeta. unfold process_image in H. rewrite Fl in H. cbv zeta in H.
  unfold get_available_width in H. rewrite Pg, W in H.
  set (x0 := a_x (g_render_area (c_graphics (rs_ctx s)))) in *.
  assert (Gx : get_x (rs_ctx s) = x0) by (unfold get_x; rewrite Pg; reflexivity). rewrite Gx.
  assert (C : ((if x0 <=? 609 then sat_sub 609 x0 else 0) <? i_w i) = negb (x0 + i_w i <=? 609)).
  { unfold sat_sub. destruct (Z.leb_spec x0 609), (Z.leb_spec (x0 + i_w i) 609); cbn [negb]; try lia. all: destruct (Z.ltb_spec 609 x0); try lia. }
  cbv zeta in C. rewrite C in H. clear C. apply bind_ok in H. destruct H as (s1 & H1 & H).
  change (i_flow (set_i_y _ (set_i_x _ i))) with (i_flow i) in H. rewrite Fl in H. change (i_w (set_i_y _ (set_i_x _ i))) with (i_w i) in H.
  assert (Q : p_enabled (c_page (rs_ctx s1)) = false /\ rs_calls s1 = rs_calls s /\
              get_x (rs_ctx s1) = (if x0 + i_w i <=? 609 then x0 else 0) /\
              get_y (rs_ctx s1) = (if x0 + i_w i <=? 609 then get_y (rs_ctx s) else get_y (rs_ctx s) + t_line_spacing (c_text (rs_ctx s)))).
  { destruct (x0 + i_w i <=? 609); cbn [negb] in H1.
    - injection H1 as <-. split; [exact Pg|]. split; [reflexivity|]. split; [unfold get_x; rewrite Pg; reflexivity | reflexivity].
    - unfold on_ctx, newline in H1. cbv zeta in H1. apply bind_ok in H1. destruct H1 as (c1 & Hc & H1). injection H1 as <-. apply bind_ok in Hc. destruct Hc as (n & Hn & Hc).
      unfold mul_u32, chk in Hn. destruct (_ && _); [|discriminate]. injection Hn as <-. rewrite Z.mul_1_r in Hc.
      unfold offset_y, reset_x, get_base_x in Hc. rewrite Pg in Hc.
      change (p_enabled (c_page (upd_gra ?f (rs_ctx s)))) with (p_enabled (c_page (rs_ctx s))) in Hc. rewrite Pg in Hc.
      apply bind_ok in Hc. destruct Hc as (v & Hv & Hc). injection Hc as <-. unfold add_u32, chk in Hv. destruct (_ && _); [|discriminate]. injection Hv as <-.
      cbn [rs_ctx with_ctx rs_calls]. unfold get_x, get_y. rewrite Pg. change (p_enabled (c_page (upd_gra ?h (upd_gra ?f (rs_ctx s))))) with (p_enabled (c_page (rs_ctx s))). rewrite Pg.
      split; [reflexivity|]. split; [reflexivity|]. split; reflexivity. }
  destruct Q as (P1 & K1 & X1 & Y1). rewrite X1, Y1 in H.
  unfold on_ctx in H. apply bind_ok in H. destruct H as (c2 & H2 & H). injection H as <-. cbn [rs_ctx call with_ctx rs_calls] in *.
  unfold offset_x in H2. rewrite P1 in H2. apply bind_ok in H2. destruct H2 as (v & Hv & H2). injection H2 as <-.
  unfold add_u32, chk in Hv. destruct (_ && _); [|discriminate]. injection Hv as <-.
  eexists. split; [rewrite K1; reflexivity|]. unfold get_x in X1 |- *. unfold get_y in Y1 |- *. rewrite P1 in X1, Y1. 
  change (p_enabled (c_page (upd_gra ?f (rs_ctx s1)))) with (p_enabled (c_page (rs_ctx s1))). rewrite P1.
  change (a_x (g_render_area (c_graphics (upd_gra (set_a_x ?v) ?c)))) with v. change (a_y (g_render_area (c_graphics (upd_gra (set_a_x ?v) ?c)))) with (a_y (g_render_area (c_graphics c))).
  rewrite X1. split; [reflexivity | exact Y1].
Qed.

Lemma enough w h sx sy : 0 < w -> 0 <= h -> 1 <= sx -> 1 <= sy -> (w * sx) * (h * sy) <= u32_max -> w <= 524280 -> h <= 65535 -> sx <= 2 -> sy <= 3 ->
  w * sx <= u32_max /\ h * sy <= u32_max.
Proof. intros. unfold u32_max in *. nia. Qed.
Lemma at_start s s1 : p_enabled (c_page (rs_ctx s)) = false -> sinv (rs_ctx s) -> process_text s = Ok s1 ->
  p_enabled (c_page (rs_ctx s1)) = false /\ a_w (g_render_area (c_graphics (rs_ctx s1))) = 609 /\ c_text (rs_ctx s1) = c_text (rs_ctx s) /\ rs_errors s1 = rs_errors s.
Proof.
  intros Pg I H. destruct (process_text_quiet _ _ H) as ((M & E & _) & _).
  assert (P1 : p_enabled (c_page (rs_ctx s1)) = false) by (rewrite (moved_enabled _ _ M); exact Pg).
  split; [exact P1|]. split; [|split; [exact (moved_text _ _ M) | exact E]].
  pose proof (moved_width _ _ M) as W. unfold get_width in W. rewrite P1, Pg in W. rewrite W. exact (gk_width _ (si_graphics _ I)).
Qed.

(** GS v 0 m xL xH yL yH d1 ... dk in standard mode.  After the text still waiting is printed
    (state [s1]) exactly one image is drawn: it has the announced number of dots times the
    magnification, every dot is black where its bit of the data is set and transparent elsewhere, it
    is placed by the justification and the paper moves down by exactly its height. *)
Theorem C48_raster : forall e c s s1 s' m xl xh yl yh sx sy,
  sent c -> c_commands c = [29; 118; 48] -> get_command_bytes c = ([29; 118; 48], [m; xl; xh; yl; yh] ++ c_data c) ->
  0 < num2 xl xh -> vlen (c_data c) = num2 xl xh * num2 yl yh -> raster_scale m = Some (sx, sy) ->
  (8 * num2 xl xh * sx) * (num2 yl yh * sy) <= u32_max ->
  history e s -> p_enabled (c_page (rs_ctx s)) = false -> process_text s = Ok s1 -> process_command e c s = Ok s' ->
  exists x i, rs_calls s' = rs_calls s1 ++ [(x, EImage i)] /\ rect i /\ i_w i = 8 * num2 xl xh * sx /\ i_h i = num2 yl yh * sy /\ i_upside_down i = false /\
    i_x i = justified (t_justify (c_text (rs_ctx s))) 609 (i_w i) /\ i_y i = get_y (rs_ctx s1) /\
    (forall X Y, 0 <= X < i_w i -> 0 <= Y < i_h i ->
       px i X Y = mk_rgba 0 0 0 (if raster_dot (c_data c) (8 * num2 xl xh) (X / sx) (Y / sy) then 255 else 0)) /\
    get_x (rs_ctx s') = 0 /\ get_y (rs_ctx s') = get_y (rs_ctx s1) + i_h i /\ rs_errors s' = rs_errors s.
Proof.
  intros e c s s1 s' m xl xh yl yh sx sy Sc C G Hw Hl Hm Hb Hy Pg H1 H. pose proof (history_sinv _ _ Hy) as I.
  destruct (raster_sent _ _ _ _ _ _ Sc C G) as (Hh & B). clear G.
  destruct (at_start _ _ Pg I H1) as (P1 & W1 & T1 & E1).
  pose proof (entry_kind _ cmd_raster_bit_image c Sc C eq_refl ltac:(cbn; lia)) as Kc. change (c_kind cmd_raster_bit_image) with KGraphics in Kc.
  pose proof B as B'. unfold bytes_ok in B. cbn [forallb] in B. unfold is_byte in B.
  assert (Sc2 : raster_stretch m = (sx, sy) /\ 1 <= sx <= 2 /\ 1 <= sy <= 2).
  { assert (Bm : is_byte m = true) by (unfold is_byte; lia).
    pose proof (per_byte (fun b => match raster_scale b with Some (u, v) => (fst (raster_stretch b) =? u) && (snd (raster_stretch b) =? v) && (1 <=? u) && (u <=? 2) && (1 <=? v) && (v <=? 2) | None => true end)
                  ltac:(vm_compute; reflexivity) m Bm) as Q. cbv beta in Q. rewrite Hm in Q. destruct (raster_stretch m) as [u v]. cbn [fst snd] in Q. split; [f_equal; lia | lia]. }
  destruct Sc2 as (St & Sx & Sy). unfold num2 in *.
  set (bw := xl + 256 * xh) in *. set (h := yl + 256 * yh) in *.
  assert (Eb : xl + xh * 256 = bw) by (unfold bw; lia). assert (Eh : yl + yh * 256 = h) by (unfold h; lia).
  assert (Rb : bw <= 65535) by (unfold bw; lia). assert (Rh : 0 <= h <= 65535) by (unfold h; lia).
  assert (Lb : line_bytes (bw * 8) = bw).
  { unfold line_bytes. replace (bw * 8 + 7) with (7 + bw * 8) by lia. rewrite Z.div_add by lia. reflexivity. }
  destruct (enough (bw * 8) h sx sy ltac:(lia) ltac:(lia) ltac:(lia) ltac:(lia)) as (A1 & A2); [lia | lia | lia | lia | lia|].
  destruct (C15_raster_pixels (bw * 8) h sx sy (mk_rgba 0 0 0 255) FlowBlock (c_data c) ltac:(lia) ltac:(lia) ltac:(lia) ltac:(lia)) as (img & Ei & R & Ew & Ehh & _ & _ & Ef & Eu & Px);
    [rewrite Lb; exact Hl | exact A1 | exact A2 | lia |].
  assert (Gg : get_graphics e c (rs_ctx s1) = Ok (Some (GImage img))).
  { unfold get_graphics. rewrite Hh. unfold raster_graphics. cbn [raster_told ra_width ra_height ra_scaling]. rewrite St, Eb, Eh.
    destruct (process_text_moved _ _ H1) as (M & _). rewrite (moved_colors _ _ M), (gk_colors _ (si_graphics _ I)).
    change (color_for_number default_colors 1) with (mk_rgba 0 0 0 255). rewrite Ei. reflexivity. }
  unfold process_command in H. rewrite Kc, H1 in H. cbn [bind] in H. rewrite Gg in H. cbn [bind process_gfx] in H.
  apply bind_ok in H. destruct H as (s2 & H2 & H).
  assert (Dv : get_device_command c (rs_ctx s2) = Ok []) by (unfold get_device_command; rewrite Hh; reflexivity).
  rewrite Dv in H. cbn [bind] in H. injection H as <-.
  destruct (process_gfx_moved (GImage img) s1 s2 H2 (proj2 (process_text_moved _ _ H1))) as (_ & _ & _ & Er). rewrite app_nil_r in Er.
  destruct R as (R1 & R2 & R3).
  destruct (block_image img s1 s2 P1 W1 Ef R1 H2) as (x & K & Gx & Gy). rewrite T1 in K.
  exists x, (set_i_y (get_y (rs_ctx s1)) (set_i_x (justified (t_justify (c_text (rs_ctx s))) 609 (i_w img)) img)).
  split; [exact K|]. cbn [i_w i_h i_x i_y i_pixels i_upside_down set_i_y set_i_x]. unfold rect. cbn [i_w i_h i_pixels set_i_y set_i_x].
  split; [split; [exact R1 | split; [exact R2 | exact R3]]|].
  split; [lia|]. split; [exact Ehh|]. split; [exact Eu|]. split; [reflexivity|]. split; [reflexivity|].
  split; [|split; [exact Gx | split; [exact Gy | congruence]]].
  intros X Y HX HY. destruct (Px X Y ltac:(lia) ltac:(lia)) as (Q1 & Q2 & Q3 & Q4).
  replace (8 * bw) with (bw * 8) by lia. rewrite <- Q4. unfold px in *. cbn [i_w i_pixels set_i_y set_i_x].
  destruct (at_ transparent (i_pixels img) (Y * i_w img + X)) as [r g b a]. cbn [c_r c_g c_b c_a] in *. congruence.
Qed.

(** What a raster command reads from its visible bytes. *)
Lemma raster_reads e c x m xl xh yl yh : sent c -> c_commands c = [29; 118; 48] -> get_command_bytes c = ([29; 118; 48], [m; xl; xh; yl; yh] ++ c_data c) ->
  c_kind c = KGraphics /\ bytes_ok [m; xl; xh; yl; yh] = true /\
  get_graphics e c x = (do g <- image_from_raster_single (8 * num2 xl xh) (num2 yl yh) (raster_stretch m) (color_for_number (g_render_colors (c_graphics x)) 1) FlowBlock (c_data c) true; Ok (Some g)) /\
  forall x', get_device_command c x' = Ok [].
Proof.
  intros Sc C G. destruct (raster_sent _ _ _ _ _ _ Sc C G) as (Hh & B).
  pose proof (entry_kind _ cmd_raster_bit_image c Sc C eq_refl ltac:(cbn; lia)) as Kc. change (c_kind cmd_raster_bit_image) with KGraphics in Kc.
  split; [exact Kc|]. split; [exact B|]. split; [|intros x'; unfold get_device_command; rewrite Hh; reflexivity].
  unfold get_graphics. rewrite Hh. unfold raster_graphics. cbn [raster_told ra_width ra_height ra_scaling]. unfold num2.
  replace ((xl + xh * 256) * 8) with (8 * (xl + 256 * xh)) by lia. replace (yl + yh * 256) with (yl + 256 * yh) by lia. reflexivity.
Qed.
(** In page mode the image is put where the pen is and the pen stays there. *)
Theorem C48_raster_page : forall e c s s1 s' m xl xh yl yh sx sy,
  sent c -> c_commands c = [29; 118; 48] -> get_command_bytes c = ([29; 118; 48], [m; xl; xh; yl; yh] ++ c_data c) ->
  0 < num2 xl xh -> vlen (c_data c) = num2 xl xh * num2 yl yh -> raster_scale m = Some (sx, sy) ->
  (8 * num2 xl xh * sx) * (num2 yl yh * sy) <= u32_max ->
  history e s -> p_enabled (c_page (rs_ctx s)) = true -> process_text s = Ok s1 -> process_command e c s = Ok s' ->
  exists i, rs_calls s' = rs_calls s1 ++ [(rs_ctx s1, EImage i)] /\ rect i /\ i_w i = 8 * num2 xl xh * sx /\ i_h i = num2 yl yh * sy /\
    i_x i = get_x (rs_ctx s1) /\ i_y i = get_y (rs_ctx s1) /\
    (forall X Y, 0 <= X < i_w i -> 0 <= Y < i_h i ->
       px i X Y = mk_rgba 0 0 0 (if raster_dot (c_data c) (8 * num2 xl xh) (X / sx) (Y / sy) then 255 else 0)) /\
    rs_ctx s' = rs_ctx s1 /\ rs_errors s' = rs_errors s.
Proof.
  intros e c s s1 s' m xl xh yl yh sx sy Sc C G Hw Hl Hm Hb Hy Pg H1 H. pose proof (history_sinv _ _ Hy) as I.
  destruct (raster_reads e c (rs_ctx s1) _ _ _ _ _ Sc C G) as (Kc & B & Gg & Dv). clear G.
  unfold bytes_ok in B. cbn [forallb] in B. unfold is_byte in B.
  assert (Sc2 : raster_stretch m = (sx, sy) /\ 1 <= sx <= 2 /\ 1 <= sy <= 2).
  { assert (Bm : is_byte m = true) by (unfold is_byte; lia).
    pose proof (per_byte (fun b => match raster_scale b with Some (u, v) => (fst (raster_stretch b) =? u) && (snd (raster_stretch b) =? v) && (1 <=? u) && (u <=? 2) && (1 <=? v) && (v <=? 2) | None => true end)
                  ltac:(vm_compute; reflexivity) m Bm) as Q. cbv beta in Q. rewrite Hm in Q. destruct (raster_stretch m) as [u v]. cbn [fst snd] in Q. split; [f_equal; lia | lia]. }
  destruct Sc2 as (St & Sx & Sy). unfold num2 in *.
  set (bw := xl + 256 * xh) in *. set (h := yl + 256 * yh) in *.
  assert (Rb : bw <= 65535) by (unfold bw; lia). assert (Rh : 0 <= h <= 65535) by (unfold h; lia).
  assert (Lb : line_bytes (8 * bw) = bw).
  { unfold line_bytes. replace (8 * bw + 7) with (7 + bw * 8) by lia. rewrite Z.div_add by lia. reflexivity. }
  destruct (enough (8 * bw) h sx sy ltac:(lia) ltac:(lia) ltac:(lia) ltac:(lia)) as (A1 & A2); [lia | lia | lia | lia | lia|].
  destruct (C15_raster_pixels (8 * bw) h sx sy (mk_rgba 0 0 0 255) FlowBlock (c_data c) ltac:(lia) ltac:(lia) ltac:(lia) ltac:(lia)) as (img & Ei & R & Ew & Ehh & _ & _ & Ef & Eu & Px);
    [rewrite Lb; exact Hl | exact A1 | exact A2 | lia |].
  destruct (process_text_quiet _ _ H1) as ((M & E1 & _) & S1). rewrite (moved_colors _ _ M), (gk_colors _ (si_graphics _ I)), St in Gg.
  change (color_for_number default_colors 1) with (mk_rgba 0 0 0 255) in Gg. rewrite Ei in Gg. cbn [bind] in Gg.
  unfold process_command in H. rewrite Kc, H1 in H. cbn [bind] in H. rewrite Gg in H. cbn [bind process_gfx] in H.
  apply bind_ok in H. destruct H as (s2 & H2 & H). rewrite Dv in H. cbn [bind] in H. injection H as <-.
  unfold process_image in H2. rewrite Ef in H2. rewrite (moved_enabled _ _ M), Pg in H2. cbn [bind] in H2. cbv zeta in H2.
  change (i_flow (set_i_y _ (set_i_x _ img))) with (i_flow img) in H2. rewrite Ef in H2. cbn [rs_ctx call] in H2. rewrite (moved_enabled _ _ M), Pg in H2. injection H2 as <-.
  exists (set_i_y (get_y (rs_ctx s1)) (set_i_x (get_x (rs_ctx s1)) img)).
  split; [reflexivity|]. cbn [i_w i_h i_x i_y i_pixels set_i_y set_i_x]. unfold rect. cbn [i_w i_h i_pixels set_i_y set_i_x].
  split; [exact R|]. split; [exact Ew|]. split; [exact Ehh|]. split; [reflexivity|]. split; [reflexivity|].
  split; [|split; [reflexivity | exact E1]].
  intros X Y HX HY. destruct (Px X Y ltac:(lia) ltac:(lia)) as (Q1 & Q2 & Q3 & Q4).
  rewrite <- Q4. unfold px in *. cbn [i_w i_pixels set_i_y set_i_x].
  destruct (at_ transparent (i_pixels img) (Y * i_w img + X)) as [r g b a]. cbn [c_r c_g c_b c_a] in *. congruence.
Qed.
(** Data cut short by the end of the stream: nothing is drawn, the error is reported, nothing moves. *)
Theorem C48_raster_cut_short : forall e c s s1 s' m xl xh yl yh,
  sent c -> c_commands c = [29; 118; 48] -> get_command_bytes c = ([29; 118; 48], [m; xl; xh; yl; yh] ++ c_data c) ->
  vlen (c_data c) <> num2 xl xh * num2 yl yh -> 8 * num2 xl xh * num2 yl yh <= u32_max ->
  process_text s = Ok s1 -> process_command e c s = Ok s' ->
  exists msg, rs_calls s' = rs_calls s1 /\ rs_ctx s' = rs_ctx s1 /\ rs_errors s' = rs_errors s ++ [GraphicsError msg].
Proof.
  intros e c s s1 s' m xl xh yl yh Sc C G Hl Hb H1 H.
  destruct (raster_reads e c (rs_ctx s1) _ _ _ _ _ Sc C G) as (Kc & B & Gg & Dv). clear G.
  unfold bytes_ok in B. cbn [forallb] in B. unfold is_byte in B. unfold num2 in *.
  set (bw := xl + 256 * xh) in *. set (h := yl + 256 * yh) in *.
  assert (Lb : line_bytes (8 * bw) = bw).
  { unfold line_bytes. replace (8 * bw + 7) with (7 + bw * 8) by lia. rewrite Z.div_add by lia. reflexivity. }
  destruct (raster_stretch m) as [sx sy].
  destruct (C15_wrong_length_is_error (8 * bw) h sx sy (color_for_number (g_render_colors (c_graphics (rs_ctx s1))) 1) FlowBlock (c_data c)) as (msg & Em);
    [unfold bw; lia | unfold h; lia | exact Hb | rewrite Lb; exact Hl|]. rewrite Em in Gg. cbn [bind] in Gg.
  unfold process_command in H. rewrite Kc, H1 in H. cbn [bind] in H. rewrite Gg in H. cbn [bind process_gfx] in H. rewrite Dv in H. cbn [bind] in H. injection H as <-.
  destruct (process_text_quiet _ _ H1) as ((_ & E1 & _) & _). exists msg. cbn [rs_calls rs_ctx rs_errors log_error]. rewrite E1. auto.
Qed.

(** ESC * m nL nH d1 ... dk in standard mode: the image comes next to what was printed before it if
    there is room and on the next line otherwise; columns of 8 or 24 dots, topmost dot in the most
    significant bit; afterwards the pen is at its right edge. *)
Theorem C48_bit_image : forall e c s s1 s' m nl nh,
  sent c -> c_commands c = [27; 42] -> get_command_bytes c = ([27; 42], [m; nl; nh] ++ c_data c) ->
  0 < num2 nl nh -> vlen (c_data c) = bit_image_rows m / 8 * num2 nl nh ->
  history e s -> p_enabled (c_page (rs_ctx s)) = false -> process_text s = Ok s1 -> process_command e c s = Ok s' ->
  let '(sx, sy) := bit_image_scale m in
  let room := get_x (rs_ctx s1) + num2 nl nh * sx <=? 609 in
  exists x i, rs_calls s' = rs_calls s1 ++ [(x, EImage i)] /\ rect i /\ i_w i = num2 nl nh * sx /\ i_h i = bit_image_rows m * sy /\
    i_x i = (if room then get_x (rs_ctx s1) else 0) /\
    i_y i = (if room then get_y (rs_ctx s1) else get_y (rs_ctx s1) + t_line_spacing (c_text (rs_ctx s))) /\
    (forall X Y, 0 <= X < i_w i -> 0 <= Y < i_h i ->
       px i X Y = mk_rgba 0 0 0 (if column_dot (c_data c) (bit_image_rows m) (X / sx) (Y / sy) then 255 else 0)) /\
    get_x (rs_ctx s') = i_x i + i_w i /\ get_y (rs_ctx s') = i_y i /\ rs_errors s' = rs_errors s.
Proof.
  intros e c s s1 s' m nl nh Sc C G Hw Hl Hy Pg H1 H. pose proof (history_sinv _ _ Hy) as I.
  destruct (bit_image_sent _ _ _ _ Sc C G) as (size & Hh & B). clear G.
  destruct (at_start _ _ Pg I H1) as (P1 & W1 & T1 & E1).
  pose proof (entry_kind _ cmd_bit_image c Sc C eq_refl ltac:(cbn; lia)) as Kc. change (c_kind cmd_bit_image) with KGraphics in Kc.
  unfold bytes_ok in B. cbn [forallb] in B. unfold is_byte in B.
  destruct (bit_image_scale m) as [sx sy] eqn:Es. cbv zeta.
  assert (Sb : 1 <= sx <= 2 /\ 1 <= sy <= 3) by (unfold bit_image_scale in Es; destruct ((m =? 0) || (m =? 32)); injection Es as <- <-; lia).
  assert (Rr : (bit_image_rows m = 8 \/ bit_image_rows m = 24) /\ line_bytes (bit_image_rows m) = bit_image_rows m / 8).
  { unfold bit_image_rows. destruct ((m =? 32) || (m =? 33)); split; auto. }
  destruct Rr as (Rr & Rl). unfold num2 in *. set (w := nl + 256 * nh) in *.
  assert (Rw : w <= 65535) by (unfold w; lia).
  destruct (C16_column_pixels w (bit_image_rows m) sx sy (mk_rgba 0 0 0 255) FlowInline (c_data c) ltac:(lia) ltac:(lia) ltac:(lia) ltac:(lia)) as (img & Ei & R & Ew & Ehh & Ef & Px);
    [rewrite Rl; exact Hl | unfold u32_max; nia | unfold u32_max; nia | |].
  { assert (w * sx <= 131070) by nia. assert (bit_image_rows m * sy <= 72) by nia. unfold u32_max. nia. }
  assert (Gg : get_graphics e c (rs_ctx s1) = Ok (Some (GImage img))).
  { unfold get_graphics. rewrite Hh. unfold bit_image_graphics. cbn [bit_image_told bi_col_encoded bi_width bi_height bi_stretch].
    destruct (process_text_moved _ _ H1) as (M & _). rewrite (moved_colors _ _ M), (gk_colors _ (si_graphics _ I)).
    change (rc_color_1 default_colors) with (mk_rgba 0 0 0 255). replace (nl + nh * 256) with w by (unfold w; lia).
    change (if tall m then 24 else 8) with (bit_image_rows m). change (if (m =? 0) || (m =? 32) then (2, 3) else (1, 1)) with (bit_image_scale m). rewrite Es, Ei. reflexivity. }
  unfold process_command in H. rewrite Kc, H1 in H. cbn [bind] in H. rewrite Gg in H. cbn [bind process_gfx] in H.
  apply bind_ok in H. destruct H as (s2 & H2 & H).
  assert (Dv : get_device_command c (rs_ctx s2) = Ok []) by (unfold get_device_command; rewrite Hh; reflexivity).
  rewrite Dv in H. cbn [bind] in H. injection H as <-.
  destruct (process_gfx_moved (GImage img) s1 s2 H2 (proj2 (process_text_moved _ _ H1))) as (_ & _ & _ & Er). rewrite app_nil_r in Er.
  assert (Hw' : 0 < i_w img) by (rewrite Ew; nia).
  destruct (inline_image img s1 s2 P1 W1 Ef Hw' H2) as (x & K & Gx & Gy). cbv zeta in K, Gx, Gy. rewrite T1 in K, Gy. rewrite Ew in K, Gx, Gy.
  set (room := get_x (rs_ctx s1) + w * sx <=? 609) in *.
  eexists x, _. split; [exact K|]. cbn [i_w i_h i_x i_y i_pixels set_i_y set_i_x]. unfold rect. cbn [i_w i_h i_pixels set_i_y set_i_x].
  split; [exact R|]. split; [exact Ew|]. split; [exact Ehh|]. split; [reflexivity|]. split; [reflexivity|].
  split; [|split; [rewrite Ew; exact Gx | split; [exact Gy | congruence]]].
  intros X Y HX HY. destruct (Px X Y ltac:(lia) ltac:(lia)) as (Q1 & Q2 & Q3 & Q4).
  rewrite <- Q4. unfold px in *. cbn [i_w i_pixels set_i_y set_i_x].
  destruct (at_ transparent (i_pixels img) (Y * i_w img + X)) as [r g b a]. cbn [c_r c_g c_b c_a] in *. congruence.
Qed.

(** ** Where the code differs from the printers *)
Definition sizes (s : rstate) : list (Z * Z) := flat_map (fun p => match snd p with EImage i => [(i_w i, i_h i)] | _ => [] end) (rs_calls s).
(** GS v 0 with m = 51 ("3", documented as double width and height like m = 3) is not magnified; m = 52
    is instead. *)
Theorem C48_quadruple_refuted : forall e, exists s3 s51 s52,
  render e [29; 118; 48; 3; 1; 0; 1; 0; 255] renderer_new = Ok s3 /\ sizes s3 = [(16, 2)] /\
  render e [29; 118; 48; 51; 1; 0; 1; 0; 255] renderer_new = Ok s51 /\ sizes s51 = [(8, 1)] /\
  render e [29; 118; 48; 52; 1; 0; 1; 0; 255] renderer_new = Ok s52 /\ sizes s52 = [(16, 2)].
Proof.
  intros e.
  assert (V : forall m r, (do s <- render e [29; 118; 48; m; 1; 0; 1; 0; 255] renderer_new; Ok (sizes s)) = Ok r ->
              exists s, render e [29; 118; 48; m; 1; 0; 1; 0; 255] renderer_new = Ok s /\ sizes s = r).
  { intros m r V. destruct (render e _ renderer_new) as [s|]; [|discriminate]. exists s. split; [reflexivity|]. cbn [bind] in V. congruence. }
  destruct (V 3 [(16, 2)] ltac:(vm_compute; reflexivity)) as (a & A1 & A2).
  destruct (V 51 [(8, 1)] ltac:(vm_compute; reflexivity)) as (b & B1 & B2).
  destruct (V 52 [(16, 2)] ltac:(vm_compute; reflexivity)) as (c & C1 & C2).
  exists a, b, c. auto 10.
Qed.
(** ESC * in 24-dot mode: the single density image (m = 32) should be as tall as the double density
    one (m = 33), and half as dense horizontally; it is three times as tall. *)
Theorem C48_single_density_refuted : forall e, exists s32 s33,
  render e [27; 42; 32; 1; 0; 255; 0; 255] renderer_new = Ok s32 /\ sizes s32 = [(2, 72)] /\
  render e [27; 42; 33; 1; 0; 255; 0; 255] renderer_new = Ok s33 /\ sizes s33 = [(1, 24)].
Proof.
  intros e.
  assert (V : forall m r, (do s <- render e [27; 42; m; 1; 0; 255; 0; 255] renderer_new; Ok (sizes s)) = Ok r ->
              exists s, render e [27; 42; m; 1; 0; 255; 0; 255] renderer_new = Ok s /\ sizes s = r).
  { intros m r V. destruct (render e _ renderer_new) as [s|]; [|discriminate]. exists s. split; [reflexivity|]. cbn [bind] in V. congruence. }
  destruct (V 32 [(2, 72)] ltac:(vm_compute; reflexivity)) as (a & A1 & A2).
  destruct (V 33 [(1, 24)] ltac:(vm_compute; reflexivity)) as (b & B1 & B2).
  exists a, b. auto 10.
Qed.

(** The hypotheses of the theorems above are met by what the parser reports for these bytes. *)
Example C48_demo : exists cmds c1 c2,
  parse_esc_pos [29; 118; 48; 1; 2; 0; 1; 0; 129; 7; 27; 42; 33; 1; 0; 1; 2; 3] = Ok cmds /\ In c1 cmds /\ In c2 cmds /\
  c_commands c1 = [29; 118; 48] /\ get_command_bytes c1 = ([29; 118; 48], [1; 2; 0; 1; 0] ++ c_data c1) /\ c_data c1 = [129; 7] /\ raster_scale 1 = Some (2, 1) /\
  c_commands c2 = [27; 42] /\ get_command_bytes c2 = ([27; 42], [33; 1; 0] ++ c_data c2) /\ c_data c2 = [1; 2; 3] /\ bit_image_rows 33 / 8 * num2 1 0 = 3.
Proof.
  do 3 eexists. split; [vm_compute; reflexivity|]. split; [right; left; reflexivity|]. split; [right; right; left; reflexivity|]. vm_compute. auto 20.
Qed.
