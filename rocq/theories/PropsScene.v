(** * PropsScene: C60, the printed sheet dot for dot. *)
From Verif Require Import Base Command CommandSet Parser Vec Float32 GTypes Graphics Context Text Handlers Renderer ContextTheory RendererTheory Origin SpecPrinter StateTheory AreaTheory CallsTheory
  ThermalImage SpecCanvas ImageRenderer SpecImage ImageTheory PropsImage PropsOutput SpecDraw DrawTheory SpecSafe PropsSafe PropsDraw InkTheory HueTheory SpecScene GlyphTheory PixelTheory SceneTheory.
Local Open Scope Z_scope.
Local Open Scope list_scope.
Local Arguments at_ : simpl never.
Local Arguments vlen : simpl never.

Lemma blank_fair : fair blank_sheet.
Proof. intros X Y. unfold blank_sheet. split; [unfold bytes3; cbn; lia | reflexivity]. Qed.

(** *** C60: the dots.  What a job leaves on the paper is, dot for dot, the scene of SpecScene: whole numbers
    only, no rounding steps of the code, for every font library whose coverages are bytes. *)
Theorem C60_sheet : forall fo e s im a x0 mid x1 b,
  fonts_fine fo -> history e s -> image_calls fo (rs_calls s) image_new = Ok im ->
  rs_calls s = a ++ (x0, EBeginRender) :: mid ++ (x1, EEndRender) :: b ->
  Forall (fun c => on_sheet (snd c)) mid ->
  exists earlier r later, im_out im = earlier ++ r :: later /\ length earlier = ev_ends a /\
    r_width r = 649 /\
    forall X Y, 0 <= X < 649 -> 0 <= Y < r_height r ->
      rgb_at r X Y = if (20 <=? X) && (X <? 629) then rgb_of (scene fo 609 mid blank_sheet (X - 20) Y) else (255, 255, 255).
Proof.
  intros fo e s im a x0 mid x1 b FF Hh E Ec O.
  destruct (C40_sheet fo e s im a x0 mid x1 b Hh E Ec O) as (ea & r & la & A1 & A2 & A3 & _ & A5).
  exists ea, r, la. split; [exact A1 | split; [exact A2 | split; [exact A3|]]]. intros X Y HX HY. rewrite (A5 X Y HX HY).
  pose proof (history_ready _ _ Hh) as R. rewrite Ec in R. apply Forall_app in R. destruct R as (_ & R). apply Forall_cons_iff in R. destruct R as (_ & R). apply Forall_app in R. destruct R as (R & _).
  destruct (scene_like 609 fo mid FF R _ _ (same_refl blank_sheet) blank_fair) as (S & _). rewrite S. reflexivity.
Qed.
(** The first image of a job (up to its first cut). *)
Theorem C60_first_image : forall fo e bs s im calls x rest,
  fonts_fine fo -> bytes_ok bs = true -> render e bs renderer_new = Ok s -> render_images fo e bs = Ok im ->
  rs_calls s = calls ++ (x, EEndRender) :: rest ->
  Forall (fun c => snd c <> EEndRender /\ snd c <> ERenderPage) calls ->
  exists r later, im_out im = r :: later /\ r_width r = 649 /\ a_y (g_render_area (c_graphics x)) <= r_height r /\
    forall X Y, 0 <= X < 649 -> 0 <= Y < r_height r ->
      rgb_at r X Y = if (20 <=? X) && (X <? 629) then rgb_of (scene fo 609 calls blank_sheet (X - 20) Y) else (255, 255, 255).
Proof.
  intros fo e bs s im calls x rest FF B Es E Ec O.
  destruct (C40_first_image fo e bs s im calls x rest B Es E Ec O) as (r & la & A1 & A3 & A4 & A5).
  exists r, la. split; [exact A1 | split; [exact A3 | split; [lia|]]]. intros X Y HX HY. rewrite (A5 X Y HX HY).
  pose proof (history_ready _ _ (job_history _ _ _ B Es)) as R. rewrite Ec in R. apply Forall_app in R. destruct R as (R & _).
  destruct (scene_like 609 fo calls FF R _ _ (same_refl blank_sheet) blank_fair) as (S & _). rewrite S. reflexivity.
Qed.

(** Ink: what [multiply_foreground] leaves on opaque paper is the exact rounded product, for every ink the
    printer has (opaque, clear, or black of any strength). *)
Theorem C60_ink : forall below ink, 0 <= c_r below <= 255 -> 0 <= c_g below <= 255 -> 0 <= c_b below <= 255 ->
  0 <= c_r ink <= 255 -> 0 <= c_g ink <= 255 -> 0 <= c_b ink <= 255 ->
  c_a ink = 255 \/ c_a ink = 0 \/ (c_r ink = 0 /\ c_g ink = 0 /\ c_b ink = 0) ->
  multiply_foreground below ink = press below ink.
Proof. intros p q P1 P2 P3 Q1 Q2 Q3 A. apply press_printable; [exact (conj P1 (conj P2 P3)) | exact (conj (conj Q1 (conj Q2 Q3)) A)]. Qed.
(** No ink makes a dot lighter, and white paper takes the colour of the ink. *)
Theorem C60_never_lighter : forall below ink, 0 <= c_r below <= 255 -> 0 <= c_g below <= 255 -> 0 <= c_b below <= 255 ->
  0 <= c_r ink <= 255 -> 0 <= c_g ink <= 255 -> 0 <= c_b ink <= 255 ->
  c_r (press below ink) <= c_r below /\ c_g (press below ink) <= c_g below /\ c_b (press below ink) <= c_b below /\
  (c_r below = 255 -> c_a ink <> 0 -> c_r (press below ink) = c_r ink).
Proof.
  assert (L : forall p q, 0 <= p <= 255 -> 0 <= q <= 255 -> nearest_255 (p * q) <= p).
  { intros p q P Q. unfold nearest_255. apply Z.lt_succ_r, Z.div_lt_upper_bound; nia. }
  intros p q P1 P2 P3 Q1 Q2 Q3. unfold press. destruct (Z.eqb_spec (c_a q) 0) as [E|N]; cbn [c_r c_g c_b].
  - split; [lia | split; [lia | split; [lia | contradiction]]].
  - split; [apply L; assumption | split; [apply L; assumption | split; [apply L; assumption|]]]. intros -> _. unfold nearest_255. symmetry. apply (Z.div_unique _ _ _ 255); lia.
Qed.
(** Every picture and every rule a job draws has such ink. *)
Theorem C60_inks : forall e s x i q, history e s -> In (x, EImage i) (rs_calls s) -> In q (i_pixels i) ->
  0 <= c_r q <= 255 /\ 0 <= c_g q <= 255 /\ 0 <= c_b q <= 255 /\ (c_a q = 255 \/ c_a q = 0 \/ (c_r q = 0 /\ c_g q = 0 /\ c_b q = 0)).
Proof.
  intros e s x i q Hh Hi Hq. pose proof (proj1 (Forall_forall _ _) (history_hue _ _ Hh) _ Hi) as H. cbn [hue_call snd] in H.
  destruct (proj1 (Forall_forall _ _) H _ Hq) as ((A & B & C) & D). exact (conj A (conj B (conj C D))).
Qed.

(** ** A job: one underlined letter of double width, drawn with a font that has 8 dots of different darkness. *)
Definition eight_dots : fonts := fun _ _ _ _ ch => if ch =? 65 then Some (mk_glyph 4 [255; 128; 0; 64; 10; 20; 30; 40] 2 3) else None.
Definition letter_job : list Z := [27; 45; 1; 29; 33; 16; 65; 10].
Fixpoint upto_end (l : list (context * event)) : option (list (context * event) * context * list (context * event)) :=
  match l with
  | [] => None
  | (x, EEndRender) :: r => Some ([], x, r)
  | c :: r => match upto_end r with Some (a, x, b) => Some (c :: a, x, b) | None => None end
  end.
Lemma upto_end_ok l : forall a x b, upto_end l = Some (a, x, b) -> l = a ++ (x, EEndRender) :: b /\ Forall (fun c => snd c <> EEndRender) a.
Proof.
  induction l as [|[y ev] r IH]; intros a x b H; [discriminate|]. cbn [upto_end] in H.
  assert (G : forall o, match o with Some (a, x, b) => Some ((y, ev) :: a, x, b) | None => None end = Some (a, x, b) -> exists a', a = (y, ev) :: a' /\ o = Some (a', x, b)).
  { intros o E. destruct o as [[[a1 x1] b1]|]; [|discriminate]. injection E as <- <- <-. eexists. split; reflexivity. }
  assert (M : ev <> EEndRender -> upto_end ((y, ev) :: r) = match upto_end r with Some (a, x, b) => Some ((y, ev) :: a, x, b) | None => None end) by (intros N; destruct ev; try reflexivity; congruence).
  assert (D : ev = EEndRender \/ ev <> EEndRender) by (destruct ev; try (right; discriminate); left; reflexivity).
  destruct D as [-> | N]; [injection H as <- <- <-; split; [reflexivity | constructor]|].
  cbn [upto_end] in M. rewrite (M N) in H. destruct (G _ H) as (a' & -> & E). destruct (IH _ _ _ E) as (-> & F). split; [reflexivity|]. constructor; assumption.
Qed.
Definition plainb (c : context * event) : bool := match snd c with ERenderPage => false | _ => true end.
Definition letter_view (fo : fonts) (bs : list Z) (dots : list (Z * Z)) : option (Z * list (Z * Z * Z)) :=
  match render no_encoders1 bs renderer_new with
  | Ok s => match upto_end (rs_calls s) with
            | Some (calls, x, _) => if forallb plainb calls
                then Some (a_y (g_render_area (c_graphics x)), map (fun d => rgb_of (scene fo 609 calls blank_sheet (fst d) (snd d))) dots) else None
            | None => None end
  | _ => None end.
Lemma Some_pair {A B} (a c : A) (b d : B) : Some (a, b) = Some (c, d) -> a = c /\ b = d.
Proof. intros E. injection E as -> ->. split; reflexivity. Qed.
Lemma view_seen fo bs dots y cols im : fonts_fine fo -> bytes_ok bs = true -> letter_view fo bs dots = Some (y, cols) -> render_images fo no_encoders1 bs = Ok im ->
  Forall (fun d => 0 <= fst d < 609 /\ 0 <= snd d < y) dots ->
  exists r later, im_out im = r :: later /\ r_width r = 649 /\ map (fun d => rgb_at r (fst d + 20) (snd d)) dots = cols.
Proof.
  intros FF B V E F. unfold letter_view in V. destruct (render no_encoders1 bs renderer_new) as [s|] eqn:Es; [|discriminate].
  destruct (upto_end (rs_calls s)) as [[[calls x] b]|] eqn:U; [|discriminate]. destruct (forallb plainb calls) eqn:K; [|discriminate]. apply Some_pair in V. destruct V as (<- & <-).
  destruct (upto_end_ok _ _ _ _ U) as (Ec & N). rename K into K1. rewrite forallb_forall in K1.
  destruct (C60_first_image fo no_encoders1 bs s im calls x b FF B Es E Ec) as (r & la & A1 & A2 & A3 & A4).
  - apply Forall_forall. intros c Hc. split; [exact (proj1 (Forall_forall _ _) N _ Hc)|]. specialize (K1 c Hc). unfold plainb in K1. intros P. rewrite P in K1. discriminate.
  - exists r, la. split; [exact A1 | split; [exact A2|]]. apply map_ext_in. intros [X Y] Hd. destruct (proj1 (Forall_forall _ _) F _ Hd) as (HX & HY). cbn [fst snd] in *.
    rewrite A4 by lia. replace ((20 <=? X + 20) && (X + 20 <? 629)) with true by lia. replace (X + 20 - 20) with X by lia. reflexivity.
Qed.
Lemma eight_fine : fonts_fine eight_dots.
Proof.
  intros b i f sc ch. unfold eight_dots. destruct (ch =? 65); [|exact Logic.I]. cbn [gl_width gl_x gl_y gl_alpha]. split; [lia | split; [lia | split; [lia|]]].
  repeat (constructor; [lia|]). constructor.
Qed.
(** Column, row; the letter is printed at (0, 108). *)
Definition letter_dots : list (Z * Z) := [(1, 110); (2, 110); (3, 110); (4, 110); (5, 110); (6, 110); (2, 111); (0, 126); (23, 126); (24, 126); (0, 127)].
Definition grey (v : Z) : Z * Z * Z := (v, v, v).
Lemma letter_job_view : letter_view eight_dots letter_job letter_dots =
  Some (132, map grey [255; 245; 235; 225; 215; 255; 255; 0; 0; 255; 255]).
Proof. vm_compute. reflexivity. Qed.
Example C60_demo_job : match parse_esc_pos letter_job with
  | Ok cmds => forallb (gentleb false) cmds && (60 + paper_for_all cmds <=? longest_paper) | Panic _ => false end && bytes_ok letter_job = true.
Proof. vm_compute. reflexivity. Qed.
Example C60_demo : exists im r later, render_images eight_dots no_encoders1 letter_job = Ok im /\ im_out im = r :: later /\
  map (fun d => rgb_at r (fst d + 20) (snd d)) letter_dots = map grey [255; 245; 235; 225; 215; 255; 255; 0; 0; 255; 255].
Proof.
  pose proof C60_demo_job as D. apply andb_prop in D. destruct D as (D & B).
  destruct (parse_esc_pos letter_job) as [cmds|] eqn:P; [|discriminate]. apply andb_prop in D. destruct D as (G & N). apply Z.leb_le in N.
  destruct (C59_short_job eight_dots no_encoders1 false letter_job cmds C33_demo_encoders (fonts_fine_ok _ eight_fine) B P) as (im & E); [|exact N|].
  { apply Forall_forall. intros c I. apply gentleb_ok. exact (proj1 (forallb_forall _ _) G _ I). }
  destruct (view_seen _ _ _ _ _ _ eight_fine B letter_job_view E) as (r & la & A1 & A2 & A3).
  { unfold letter_dots. repeat (constructor; [cbn [fst snd]; lia|]). constructor. }
  exists im, r, la. exact (conj E (conj A1 A3)).
Qed.
