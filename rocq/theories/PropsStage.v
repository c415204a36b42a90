(** * PropsStage: C64, every dot of every sheet, page mode included. *)
From Verif Require Import Base Command CommandSet Parser Vec Float32 GTypes Graphics Decoder Context Text Handlers Renderer StateTheory AreaTheory CallsTheory RendererTheory Origin SpecPrinter SpecRender
  PropsOutput ThermalImage SpecCanvas CanvasTheory CanvasRect ImageRenderer SpecImage ImageTheory PropsImage SpecDesk DeskTheory PropsDesk SpecScene SceneTheory HueTheory GlyphTheory PixelTheory SpecPrintout PrintoutTheory PropsPrintout SpecStage StageTheory.
Local Open Scope Z_scope.
Local Open Scope list_scope.
Local Arguments at_ : simpl never.
Local Arguments vlen : simpl never.

(** C64.  Every sheet of every job: each dot is the dot of the stage, whole numbers only. *)
Theorem C64_sheet : forall fo e s im a x0 mid x1 b,
  fonts_fine fo -> history e s -> image_calls fo (rs_calls s) image_new = Ok im ->
  rs_calls s = a ++ (x0, EBeginRender) :: mid ++ (x1, EEndRender) :: b ->
  Forall (fun c => snd c <> EBeginRender /\ snd c <> EEndRender) mid ->
  exists earlier r later, im_out im = earlier ++ r :: later /\ length earlier = ev_ends a /\
    r_width r = 649 /\ a_y (g_render_area (c_graphics x1)) <= r_height r /\
    forall X Y, 0 <= X < 649 -> 0 <= Y < r_height r ->
      rgb_at r X Y = if (20 <=? X) && (X <? 629) then SpecImage.rgb_of (sg_sheet (stage_calls fo mid) (X - 20) Y) else (255, 255, 255).
Proof.
  intros fo e s im a x0 mid x1 b FF Hh E Ec O.
  assert (O' : Forall (fun c => no_limit (snd c)) mid).
  { refine (Forall_impl _ _ O). intros [z ev] (N1 & N2). cbn [snd] in *. destruct ev; cbn [no_limit]; try exact Logic.I; congruence. }
  destruct (C55_sheet fo e s im a x0 mid x1 b Hh E Ec O') as (ea & r & la & A1 & A2 & A3 & A4 & A5). cbv zeta in A4, A5.
  exists ea, r, la. split; [exact A1 | split; [exact A2 | split; [exact A3 | split; [lia|]]]]. intros X Y HX HY. rewrite (A5 X Y HX HY).
  pose proof (history_ready _ _ Hh) as R. rewrite Ec in R. apply Forall_app in R. destruct R as (_ & R). apply Forall_cons_iff in R. destruct R as (_ & R). apply Forall_app in R. destruct R as (R & _).
  pose proof (st_same _ _ (stage_run fo mid FF R _ _ staged_empty)) as S. fold (stage_calls fo mid) in S. rewrite S. reflexivity.
Qed.
(** The first image of a job. *)
Theorem C64_image : forall fo e bs s im calls x rest,
  fonts_fine fo -> bytes_ok bs = true -> render e bs renderer_new = Ok s -> render_images fo e bs = Ok im ->
  rs_calls s = calls ++ (x, EEndRender) :: rest -> Forall (fun c => snd c <> EEndRender) calls ->
  exists r later, im_out im = r :: later /\ r_width r = 649 /\ a_y (g_render_area (c_graphics x)) <= r_height r /\
    forall X Y, 0 <= X < 649 -> 0 <= Y < r_height r ->
      rgb_at r X Y = if (20 <=? X) && (X <? 629) then SpecImage.rgb_of (sg_sheet (stage_calls fo calls) (X - 20) Y) else (255, 255, 255).
Proof.
  intros fo e bs s im calls x rest FF B Es E Ec O.
  assert (N : ev_ends calls = 0%nat).
  { clear -O. induction calls as [|[z ev] r IH]; [reflexivity|]. apply Forall_cons_iff in O. destruct O as (O1 & O2). unfold ev_ends in *. cbn [filter snd] in *.
    destruct ev; try (cbn [ends_output]; exact (IH O2)). congruence. }
  destruct (C55_image fo e bs s im calls x rest B Es E Ec N) as (r & la & A1 & A2 & A3 & A4). cbv zeta in A3, A4.
  exists r, la. split; [exact A1 | split; [exact A2 | split; [lia|]]]. intros X Y HX HY. rewrite (A4 X Y HX HY).
  pose proof (history_ready _ _ (job_history _ _ _ B Es)) as R. rewrite Ec in R. apply Forall_app in R. destruct R as (R & _).
  pose proof (st_same _ _ (stage_run fo calls FF R _ _ staged_empty)) as S. fold (stage_calls fo calls) in S. rewrite S. reflexivity.
Qed.
(** The pictures of pages in an HTML receipt (C63) have the dots of the page of the stage. *)
Theorem C64_html_page : forall fo e bs s before x after,
  fonts_fine fo -> bytes_ok bs = true -> render e bs renderer_new = Ok s -> rs_calls s = before ++ (x, ERenderPage) :: after ->
  let i := page_picture x (dk_leaf (desk_calls fo 609 before empty_desk)) in
  let l := upright x (sg_leaf (stage_calls fo before)) in
  i_w i = lf_w l /\ i_h i = lf_h l /\ i_pixels i = dots_of l.
Proof.
  intros fo e bs s before x after FF B Es Ec i l.
  pose proof (history_ready _ _ (job_history _ _ _ B Es)) as R. rewrite Ec in R. apply Forall_app in R. destruct R as (R & _).
  pose proof (st_leaf _ _ (stage_run fo before FF R _ _ staged_empty)) as A. fold (stage_calls fo before) in A.
  pose proof (alike_turn (calculate_directional_rotation (p_direction (c_page x)) TopLeft2Right) _ _ A) as [W H P F].
  fold (upright x (sg_leaf (stage_calls fo before))) in W, H, P. fold l in W, H, P.
  unfold i, page_picture. cbv zeta. cbn [i_w i_h i_pixels]. fold (upright x (dk_leaf (desk_calls fo 609 before empty_desk))) in W, H, P.
  split; [exact W | split; [exact H|]]. unfold dots_of. rewrite W, H. apply map_ext. intros k. apply P.
Qed.

(** ** For instance: a letter on a page 16 x 2 (which cuts it off below its second row), printed with FF. *)
Definition top_dots : fonts := fun _ _ _ _ ch => if ch =? 65 then Some (mk_glyph 4 [255; 128; 0; 64; 10; 20; 30; 40] 2 0) else None.
Lemma top_fine : fonts_fine top_dots.
Proof.
  intros b i f sc ch. unfold top_dots. destruct (ch =? 65); [|exact Logic.I]. cbn [gl_width gl_x gl_y gl_alpha]. split; [lia | split; [lia | split; [lia|]]].
  repeat (constructor; [lia|]). constructor.
Qed.
Definition small_page : list Z := [27; 76] ++ print_area 0 0 16 2 ++ [65; 10; 12].
Fixpoint no_ends (l : list (context * event)) : bool := match l with [] => true | (_, EEndRender) :: _ => false | _ :: r => no_ends r end.
Lemma no_ends_ok l : no_ends l = true -> Forall (fun c => snd c <> EEndRender) l.
Proof. induction l as [|[x ev] l IH]; intros H; [constructor|]. constructor; [|apply IH]; cbn [snd no_ends] in *; destruct ev; try discriminate; try assumption. Qed.
Definition view_stage (fo : fonts) (bs : list Z) (dots : list (Z * Z)) : res (option (bool * Z * list (Z * Z * Z))) :=
  do s <- render no_encoders1 bs renderer_new;
  Ok (match split_end (rs_calls s) with
      | Some (calls, x, _) => Some (no_ends calls, a_y (g_render_area (c_graphics x)), map (fun d => SpecImage.rgb_of (sg_sheet (stage_calls fo calls) (fst d) (snd d))) dots)
      | None => None end).
Lemma stage_seen fo bs dots y cols im : fonts_fine fo -> bytes_ok bs = true -> view_stage fo bs dots = Ok (Some (true, y, cols)) -> render_images fo no_encoders1 bs = Ok im ->
  Forall (fun d => 0 <= fst d < 609 /\ 0 <= snd d < y) dots ->
  exists r later, im_out im = r :: later /\ map (fun d => rgb_at r (fst d + 20) (snd d)) dots = cols.
Proof.
  intros FF B V E F. unfold view_stage in V. apply CanvasRect.bind_inv in V. destruct V as (s & Es & V).
  destruct (split_end (rs_calls s)) as [[[calls x] b]|] eqn:U; [|discriminate].
  assert (V1 : no_ends calls = true /\ a_y (g_render_area (c_graphics x)) = y /\ map (fun d => SpecImage.rgb_of (sg_sheet (stage_calls fo calls) (fst d) (snd d))) dots = cols).
  { split; [|split]; congruence. }
  destruct V1 as (V1 & <- & <-). clear V.
  destruct (C64_image fo no_encoders1 bs s im calls x b FF B Es E (split_end_spec _ _ _ _ U) (no_ends_ok _ V1)) as (r & la & A1 & A2 & A3 & A4).
  exists r, la. split; [exact A1|]. apply map_ext_in. intros [X Y] Hd. destruct (proj1 (Forall_forall _ _) F _ Hd) as (HX & HY). cbn [fst snd] in *.
  rewrite A4 by lia. replace ((20 <=? X + 20) && (X + 20 <? 629)) with true by lia. replace (X + 20 - 20) with X by lia. reflexivity.
Qed.
Example C64_demo : exists im r later, render_images top_dots no_encoders1 small_page = Ok im /\ im_out im = r :: later /\
  map (fun d => rgb_at r (fst d + 20) (snd d)) [(1, 108); (2, 108); (3, 108); (4, 108); (5, 108); (2, 109); (5, 109)] =
    map (fun v => (v, v, v)) [255; 0; 127; 255; 191; 245; 215].
Proof.
  assert (V : view_stage top_dots small_page [(1, 108); (2, 108); (3, 108); (4, 108); (5, 108); (2, 109); (5, 109)] = Ok (Some (true, 110, map (fun v => (v, v, v)) [255; 0; 127; 255; 191; 245; 215])))
    by (vm_compute; reflexivity).
  assert (I : fine (render_images top_dots no_encoders1 small_page) = true) by (vm_compute; reflexivity).
  apply fine_inv in I. destruct I as (im & I).
  assert (B : bytes_ok small_page = true) by (vm_compute; reflexivity).
  destruct (stage_seen _ _ _ _ _ _ top_fine B V I) as (r & la & A1 & A2); [repeat (constructor; [cbn [fst snd]; lia|]); constructor|].
  exists im, r, la. exact (conj I (conj A1 A2)).
Qed.

Print Assumptions C64_sheet.
Print Assumptions C64_image.
Print Assumptions C64_html_page.
