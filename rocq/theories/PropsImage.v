(** * PropsImage: C39-C41, the images a job gives. *)
From Verif Require Import Base Command CommandSet Parser SpecStream Vec Float32 GTypes Graphics Decoder Context Text Handlers Renderer
  ContextTheory RendererTheory Origin SpecPrinter StateTheory PropsParser SpecRender PropsOutput AreaTheory
  ThermalImage SpecCanvas CanvasTheory CanvasRect PropsCanvas ImageRenderer SpecImage CallsTheory ImageTheory PropsSafe.
Local Open Scope Z_scope.
Local Open Scope list_scope.
Local Arguments at_ : simpl never.
Local Arguments vlen : simpl never.

Definition white : rgba := mk_rgba 255 255 255 255.

(** ** The paper: a whole number of rows, 609 pixels wide (or 0: no sheet is in) *)
Record sheet_ok (c : canvas) : Prop := mk_sheet {
  sh_rect : rectangular c;
  sh_width : cv_width c = 0 \/ cv_width c = 609;
  sh_color : cv_paper_color c = white;
  sh_grow : cv_auto_grow c = true }.
Lemma sheet_keeps c c' : sheet_ok c -> rectangular c' -> cv_width c' = cv_width c -> cv_paper_color c' = cv_paper_color c ->
  cv_auto_grow c' = cv_auto_grow c -> sheet_ok c'.
Proof. intros [A B C G] R W P Q. constructor; [exact R | rewrite W; exact B | congruence | congruence]. Qed.
Lemma sheet_put x y w h px m c c' : sheet_ok c -> put_pixels x y w h px m c = Ok c' -> sheet_ok c'.
Proof. intros S E. destruct (put_pixels_rect _ _ _ _ _ _ _ _ (sh_rect _ S) E) as (R & W & G & P & _). exact (sheet_keeps _ _ S R W P G). Qed.
Lemma sheet_rect x y w h col m c c' : sheet_ok c -> draw_rect x y w h col m c = Ok c' -> sheet_ok c'.
Proof. intros S E. destruct (draw_rect_rect _ _ _ _ _ _ _ _ (sh_rect _ S) E) as (R & W & G & P & _). exact (sheet_keeps _ _ S R W P G). Qed.
Lemma sheet_flip x y w h c c' : sheet_ok c -> flip_pixels x y w h c = Ok c' -> sheet_ok c'.
Proof. intros S E. destruct (flip_pixels_rect _ _ _ _ _ _ (sh_rect _ S) E) as (R & W & G & P & _). exact (sheet_keeps _ _ S R W P G). Qed.

(** Whatever put_pixels, draw_rect and flip_pixels preserve, every drawing call preserves. *)
Section Drawing.
  Variable I : canvas -> Prop.
  Hypothesis Iput : forall x y w h px c c', 0 <= x -> I c -> put_pixels x y w h px true c = Ok c' -> I c'.
  Hypothesis Iblit : forall x y w h px c c', 0 <= x -> I c -> put_pixels x y w h px false c = Ok c' -> I c'.
  Hypothesis Iflip : forall x y w h c c', 0 <= x -> 0 <= w -> I c -> flip_pixels x y w h c = Ok c' -> I c'.
  Lemma keeps_rect x y w h col c c' : 0 <= x -> I c -> draw_rect x y w h col true c = Ok c' -> I c'.
  Proof. intros Hx S E. unfold draw_rect in E. apply bind_inv in E. destruct E as (n & _ & E). exact (Iput _ _ _ _ _ _ _ Hx S E). Qed.
  Lemma keeps_cells fo s top : forall chars x c x' c', 0 <= x -> I c -> fold_res (span_char fo s top) chars (x, c) = Ok (x', c') -> I c'.
  Proof.
    induction chars as [|ch r IH]; intros x c x' c' Hx S E; cbn [fold_res] in E; [injection E as _ <-; exact S|].
    apply bind_inv in E. destruct E as ([x1 c1] & E1 & E).
    assert (A : 0 <= x1 /\ I c1).
    { unfold span_char in E1. apply bind_inv in E1. destruct E1 as (bm & _ & E1). destruct bm as [[[px w] h]|].
      - destruct ((w =? 0) || (h =? 0)); [injection E1 as <- <-; auto|].
        apply bind_inv in E1. destruct E1 as (y & _ & E1). apply bind_inv in E1. destruct E1 as (c2 & Hp & E1).
        apply bind_inv in E1. destruct E1 as (x2 & Hx2 & E1). injection E1 as <- <-. destruct (add_u32v _ _ _ Hx2) as (_ & V). unfold u32v in V.
        split; [lia | exact (Iput _ _ _ _ _ _ _ Hx S Hp)].
      - apply bind_inv in E1. destruct E1 as (x2 & Hx2 & E1). injection E1 as <- <-. destruct (add_u32v _ _ _ Hx2) as (_ & V). unfold u32v in V.
        split; [lia | exact S]. }
    destruct A as (A1 & A2). exact (IH _ _ _ _ A1 A2 E).
  Qed.
  Lemma keeps_span fo off mh s c c' : span_wf s -> I c -> render_span fo off mh s c = Ok c' -> I c'.
  Proof.
    intros Ws S E. unfold render_span in E. destruct (s_dimensions s) as [d|] eqn:Ed; [|injection E as <-; exact S].
    pose proof (sw_dims _ Ws) as Wd. rewrite Ed in Wd. destruct Wd as (Dx & Dy & Dw & Vw & Dh).
    cbv zeta in E. apply bind_inv in E. destruct E as (x & Hx & E). destruct (add_u32v _ _ _ Hx) as (_ & Vx). unfold u32v in *.
    apply bind_inv in E. destruct E as (low & _ & E).
    apply bind_inv in E. destruct E as ([x1 c1] & E1 & E). apply bind_inv in E. destruct E as (c2 & E2 & E). apply bind_inv in E. destruct E as (c3 & E3 & E).
    assert (S1 : I c1) by exact (keeps_cells _ _ _ _ _ _ _ _ (proj1 Vx) S E1).
    assert (S2 : I c2).
    { destruct (0 <? s_underline s); [|injection E2 as <-; exact S1]. do 3 (apply bind_inv in E2; destruct E2 as (? & _ & E2)).
      exact (keeps_rect _ _ _ _ _ _ _ (proj1 Vx) S1 E2). }
    assert (S3 : I c3).
    { destruct (0 <? s_strikethrough s); [|injection E3 as <-; exact S2]. do 2 (apply bind_inv in E3; destruct E3 as (? & _ & E3)).
      exact (keeps_rect _ _ _ _ _ _ _ (proj1 Vx) S2 E3). }
    destruct (s_upside_down s); [|injection E as <-; exact S3]. apply bind_inv in E. destruct E as (y & _ & E).
    refine (Iflip _ _ _ _ _ _ (proj1 Vx) _ S3 E). lia.
  Qed.
  Lemma keeps_fold {A} (P : A -> Prop) (f : A -> canvas -> res canvas) l : (forall a c c', P a -> I c -> f a c = Ok c' -> I c') ->
    Forall P l -> forall c c', I c -> fold_res f l c = Ok c' -> I c'.
  Proof.
    intros K F. induction F as [|a l Pa F IH]; intros c c' S E; cbn [fold_res] in E; [injection E as <-; exact S|].
    apply bind_inv in E. destruct E as (c1 & E1 & E). exact (IH _ _ (K _ _ _ Pa S E1) E).
  Qed.
  (** the paper after any call that is neither the start nor the end of a sheet *)
  Lemma keeps_event fo x ev s s' : call_wf (x, ev) -> ev <> EBeginRender -> ev <> EEndRender -> I (im_paper s) -> image_event fo x ev s = Ok s' ->
    I (im_paper s') /\ im_out s' = im_out s.
  Proof.
    intros (C & Wev) NB NE S E. cbn [fst snd] in *.
    destruct ev as [dv| | |rt pw ph| | |rects|i|spans off mh j| |]; try congruence; cbn [image_event] in E; try (injection E as <-; split; [exact S | reflexivity]).
    - unfold on_page in E. apply bind_inv in E. destruct E as (c & _ & E). injection E as <-. split; [exact S | reflexivity].
    - unfold render_page in E. apply bind_inv in E. destruct E as (turned & _ & E).
      destruct (copy turned) as [[w h] px]. apply bind_inv in E. destruct E as (back & _ & E). unfold on_paper in E.
      apply bind_inv in E. destruct E as (c & Ec & E). injection E as <-. split; [|reflexivity].
      refine (Iblit _ _ _ _ _ _ _ _ S Ec). pose proof (ua_x _ (ui_render _ (ci_u _ C))) as A. unfold u32v in A. lia.
    - unfold on_canvas in E. destruct (p_enabled (c_page x)); unfold on_page, on_paper in E; apply bind_inv in E; destruct E as (c & Ec & E); injection E as <-;
        (split; [|reflexivity]); [exact S|]. refine (keeps_fold rect_wf _ _ _ Wev _ _ S Ec). intros r a b (R1 & _) Ia Eb. unfold u32v in R1.
      exact (keeps_rect _ _ _ _ _ _ _ (proj1 R1) Ia Eb).
    - unfold on_canvas in E. destruct (p_enabled (c_page x)); unfold on_page, on_paper in E; apply bind_inv in E; destruct E as (c & Ec & E); injection E as <-;
        (split; [|reflexivity]); [exact S|]. destruct Wev as ([I1 I2 I3] & I4 & I5). unfold u32v in *. unfold put_render_img in Ec.
      apply bind_inv in Ec. destruct Ec as (c1 & E1 & Ec). pose proof (Iput _ _ _ _ _ _ _ (proj1 I4) S E1) as S1.
      destruct (i_upside_down i); [|injection Ec as <-; exact S1]. refine (Iflip _ _ _ _ _ _ (proj1 I4) _ S1 Ec). lia.
    - unfold on_canvas in E. destruct (p_enabled (c_page x)); unfold on_page, on_paper in E; apply bind_inv in E; destruct E as (c & Ec & E); injection E as <-;
        (split; [|reflexivity]); [exact S|]. destruct Wev as (F & _). refine (keeps_fold span_wf _ _ _ F _ _ S Ec).
      intros sp a b Wsp Ia Eb. exact (keeps_span _ _ _ _ _ _ Wsp Ia Eb).
  Qed.
End Drawing.

(** ** C39: the size of the images *)
Lemma sheet_begin x s : cinv x -> sheet_ok (im_paper s) -> sheet_ok (im_paper (begin_render x s)) /\ cv_width (im_paper (begin_render x s)) = 609 /\
  cv_bytes (im_paper (begin_render x s)) = [] /\ im_out (begin_render x s) = im_out s.
Proof.
  intros C [_ _ _ G]. pose proof (gk_width _ (si_graphics _ (ci_s _ C))) as W. pose proof (gk_colors _ (si_graphics _ (ci_s _ C))) as K.
  unfold begin_render. cbn [im_paper im_out with_page with_paper set_width empty set_cv_bytes set_cv_width set_cv_paper_color cv_width cv_bytes cv_paper_color].
  rewrite K, W. split; [|split; [reflexivity | split; reflexivity]]. constructor; cbn [cv_width cv_paper_color].
  - split; [cbn; lia|]. exists 0. split; [lia|]. reflexivity.
  - right. reflexivity.
  - reflexivity.
  - exact G.
Qed.
Lemma paper_width x : cinv x -> a_w (g_paper_area (c_graphics x)) = 649.
Proof. intros C. rewrite (gk_paper _ (si_graphics _ (ci_s _ C))). vm_compute. reflexivity. Qed.
Lemma sheet_end x s s' : cinv x -> sheet_ok (im_paper s) -> end_render x s = Ok s' ->
  exists r c, im_out s' = im_out s ++ [r] /\ r_width r = 649 /\ 0 <= r_height r /\ vlen (r_bytes r) = 3 * (649 * r_height r) /\
    im_paper s' = set_width 0 c /\ cv_paper_color c = white /\ cv_auto_grow c = true /\ im_page s' = im_page s /\ im_reported s' = im_reported s /\
    (do c1 <- expand_to_width 649 (im_paper s); expand_to_height (a_y (g_render_area (c_graphics x))) c1) = Ok c /\
    r_height r = get_canvas_height c /\
    (forall X Y, 0 <= X < 649 -> 0 <= Y < r_height r -> rgb_at r X Y = rgb_of (at_ rgba_blank (cv_bytes c) (Y * 649 + X))).
Proof.
  intros C [R W P G] E. unfold end_render in E. rewrite (paper_width _ C) in E.
  destruct (expand_to_width_rect 649 _ R) as (c1 & E1 & R1 & W1 & H1 & (G1 & P1 & Er1)). rewrite E1 in E |- *. cbn [bind] in E |- *.
  apply bind_inv in E. destruct E as (c2 & E2 & E).
  pose proof (ua_y _ (ui_render _ (ci_u _ C))) as A. unfold u32v in A.
  destruct (expand_to_height_rect _ _ _ R1 (proj1 A) E2) as (R2 & W2 & (G2 & P2 & Er2) & L2).
  apply bind_inv in E. destruct E as ([[[w h] b] c3] & E3 & E). injection E as <-.
  destruct (C36_rgb_export _ _ _ _ _ R2 E3) as (Ew & Eh & L & Px & _).
  assert (Ew' : w = 649) by (rewrite Ew, W2, W1; lia). rewrite Ew' in *. clear Ew'.
  exists (mk_receipt 649 h b), c2. cbn [im_out im_paper im_page im_reported r_width r_height r_bytes].
  split; [reflexivity|]. split; [reflexivity|]. split; [rewrite Eh; exact (height_nonneg _ R2)|]. split; [exact L|].
  split; [unfold consume_rgb_u8 in E3; apply bind_inv in E3; destruct E3 as (? & _ & E3); injection E3 as _ _ _ <-; reflexivity|].
  split; [congruence|]. split; [congruence|]. split; [reflexivity|]. split; [reflexivity|]. split; [exact E2|]. split; [exact Eh|].
  intros X Y HX HY. destruct (Px X Y HX HY) as (Q1 & Q2 & Q3). unfold rgb_at, rgb_of. cbn [r_width r_bytes]. cbv zeta. congruence.
Qed.
Lemma sheet_off c : cv_paper_color c = white -> cv_auto_grow c = true -> sheet_ok (set_width 0 c).
Proof. intros P G. constructor; [|left; reflexivity | exact P | exact G]. split; [cbn; lia|]. exists 0. split; [lia|]. reflexivity. Qed.
Definition good_size (r : receipt_image) : Prop := r_width r = 649 /\ 0 <= r_height r /\ vlen (r_bytes r) = 3 * (649 * r_height r).
Lemma event_dec_ends ev : {ev = EEndRender} + {ev = EBeginRender} + {ev <> EEndRender /\ ev <> EBeginRender}.
Proof. destruct ev; try (right; split; discriminate); left; [right | left]; reflexivity. Qed.
Lemma sizes_run fo l : forall s s', Forall call_wf l -> sheet_ok (im_paper s) -> image_calls fo l s = Ok s' ->
  sheet_ok (im_paper s') /\ exists n, im_out s' = im_out s ++ n /\ length n = ev_ends l /\ Forall good_size n.
Proof.
  induction l as [|[x ev] l IH]; intros s s' F S E; cbn [image_calls fold_res] in E.
  - injection E as <-. split; [exact S|]. exists []. split; [now rewrite app_nil_r|]. split; [reflexivity | constructor].
  - inversion F as [|? ? F1 F2]; subst. apply bind_inv in E. destruct E as (s1 & E1 & E). cbn [fst snd] in E1.
    assert (A : sheet_ok (im_paper s1) /\ exists n, im_out s1 = im_out s ++ n /\ length n = ev_ends [(x, ev)] /\ Forall good_size n).
    { destruct (event_dec_ends ev) as [[->| ->]|(N1 & N2)].
      - cbn [image_event] in E1. destruct (sheet_end _ _ _ (proj1 F1) S E1) as (r & c & O & Q1 & Q2 & Q3 & Q4 & Q5 & Q9 & _).
        split; [rewrite Q4; exact (sheet_off _ Q5 Q9)|]. exists [r]. split; [exact O|]. split; [reflexivity|]. constructor; [|constructor]. exact (conj Q1 (conj Q2 Q3)).
      - cbn [image_event] in E1. injection E1 as <-. destruct (sheet_begin x s (proj1 F1) S) as (Q1 & _ & _ & Q2). split; [exact Q1|].
        exists []. split; [now rewrite app_nil_r|]. split; [reflexivity | constructor].
      - destruct (keeps_event sheet_ok (fun x y w h px c c' _ => sheet_put x y w h px true c c') (fun x y w h px c c' _ => sheet_put x y w h px false c c')
                    (fun x y w h c c' _ _ => sheet_flip x y w h c c') fo x ev s s1 F1 N2 N1 S E1) as (Q1 & Q2).
        split; [exact Q1|]. exists []. split; [now rewrite app_nil_r, Q2|]. split; [destruct ev; try reflexivity; congruence | constructor]. }
    destruct A as (S1 & n1 & O1 & L1 & G1). destruct (IH s1 s' F2 S1 E) as (S2 & n2 & O2 & L2 & G2).
    split; [exact S2|]. exists (n1 ++ n2). split; [rewrite O2, O1; now rewrite app_assoc|].
    split; [|apply Forall_app; auto]. change ((x, ev) :: l) with ([(x, ev)] ++ l). rewrite ev_ends_app, app_length. congruence.
Qed.
Lemma image_new_ok : sheet_ok (im_paper image_new).
Proof. constructor; [|left; reflexivity | reflexivity | reflexivity]. split; [cbn; lia|]. exists 0. split; [lia|]. reflexivity. Qed.
Lemma job_history e bs s : bytes_ok bs = true -> render e bs renderer_new = Ok s -> history e s.
Proof.
  intros B E. unfold render in E. apply bind_ok in E. destruct E as (cmds & P & E). exists cmds. split; [exact (parsed_sent _ _ B P) | exact E].
Qed.
Lemma job_calls e bs s : bytes_ok bs = true -> render e bs renderer_new = Ok s -> Forall call_wf (rs_calls s).
Proof. intros B E. exact (td_calls _ (history_tidy _ _ (job_history _ _ _ B E))). Qed.
Lemma new_calls_all s l : new_calls renderer_new s l -> map snd (rs_calls s) = l.
Proof. intros (n & E & <-). rewrite E. reflexivity. Qed.
Lemma ends_count l : ev_ends l = count ends_output (map snd l).
Proof. unfold ev_ends, count. induction l as [|x l IH]; [reflexivity|]. cbn [map filter]. destruct (ends_output (snd x)); cbn [length]; congruence. Qed.
Lemma begins_count l : ev_begins l = count begins_output (map snd l).
Proof. unfold ev_begins, count. induction l as [|x l IH]; [reflexivity|]. cbn [map filter]. destruct (begins_output (snd x)); cbn [length]; congruence. Qed.

(** A job gives one image more than it has form feeds outside page mode.  Every image is as wide as
    the paper (649 dots at 203 dpi, 80 mm and a bit) and has exactly three bytes for each pixel. *)
Theorem C39_images : forall fo e bs cmds im,
  bytes_ok bs = true -> parse_esc_pos bs = Ok cmds -> render_images fo e bs = Ok im ->
  length (im_out im) = S (sheets false cmds) /\
  Forall (fun r => r_width r = 649 /\ 0 <= r_height r /\ vlen (r_bytes r) = 3 * (649 * r_height r)) (im_out im).
Proof.
  intros fo e bs cmds im B P E. unfold render_images in E. apply bind_inv in E. destruct E as (s & Es & E).
  destruct (sizes_run fo _ _ _ (job_calls _ _ _ B Es) image_new_ok E) as (_ & n & O & L & G). cbn [image_new im_out app] in O. rewrite O.
  split; [|exact G]. rewrite L, ends_count.
  assert (R : run_commands e cmds renderer_new = Ok s) by (unfold render in Es; rewrite P in Es; exact Es).
  destruct (C31_outputs e bs cmds renderer_new s B P R) as (l & N & C & _). rewrite (new_calls_all _ _ N). rewrite C. reflexivity.
Qed.

(** ** C40: the first image shows the strokes of the calls *)
Definition blank_sheet : picture := fun _ _ => white.
Lemma fresh_strip c : cv_width c = 609 -> cv_bytes c = [] -> cv_auto_grow c = true -> cv_paper_color c = white -> on_strip c 609 0 blank_sheet.
Proof.
  intros W B G P. exists blank_sheet. split; [|reflexivity]. constructor; [|exact G | unfold u32_max; lia | intros; unfold blank_sheet; congruence].
  split; [lia|]. split; [lia|]. split; [exact W|]. split; [rewrite B; reflexivity|]. intros X Y _ HY. lia.
Qed.
Lemma strip_end x s s' H p : cinv x -> on_strip (im_paper s) 609 H p -> cv_paper_color (im_paper s) = white -> end_render x s = Ok s' ->
  exists r, im_out s' = im_out s ++ [r] /\ r_width r = 649 /\ r_height r = Z.max H (a_y (g_render_area (c_graphics x))) /\
    (forall X Y, 0 <= X < 649 -> 0 <= Y < r_height r ->
       rgb_at r X Y = if (20 <=? X) && (X <? 629) then rgb_of (p (X - 20) Y) else (255, 255, 255)) /\
    cv_width (im_paper s') = 0 /\ cv_bytes (im_paper s') = [] /\ cv_paper_color (im_paper s') = white.
Proof.
  intros C (q & [Sh G F Bl] & Eq) Pw E. pose proof (shows_rect _ _ _ _ Sh) as R. pose proof Sh as (_ & H0 & EW & _).
  destruct (sheet_end x s s' C (mk_sheet _ R (or_intror EW) Pw G) E) as (r & c & O & Q1 & Q2 & Q3 & Q4 & Q5 & _ & _ & _ & Q6 & Q7 & Q8).
  destruct (expand_to_width_shows _ 609 H q 649 Sh ltac:(lia)) as (c1 & E1 & S1 & (G1 & P1 & _)). rewrite E1 in Q6. cbn [bind] in Q6.
  pose proof (ua_y _ (ui_render _ (ci_u _ C))) as A. unfold u32v in A. set (ay := a_y _) in *. clearbody ay.
  assert (M : 649 * ay <= u32_max).
  { pose proof Q6 as Q6'. unfold expand_to_height in Q6'. apply bind_inv in Q6'. destruct Q6' as (len & Hlen & _).
    destruct (CanvasTheory.chk_inv _ _ _ _ Hlen) as (_ & Rr). destruct S1 as (_ & _ & EW1 & _). rewrite EW1 in Rr. lia. }
  destruct (expand_to_height_shows _ 649 H _ ay S1 (proj1 A) M) as (c2 & E2 & S2 & _). rewrite E2 in Q6. injection Q6 as <-.
  exists r. split; [exact O|]. split; [exact Q1|]. pose proof (shows_height _ _ _ _ S2) as Hh. rewrite Hh in Q7. split; [exact Q7|].
  split; [|rewrite Q4; split; [reflexivity | split; [reflexivity | exact Q5]]].
  intros X Y HX HY. rewrite (Q8 X Y HX HY). destruct S2 as (_ & _ & _ & _ & Px). rewrite Px by (try rewrite <- Q7; assumption).
  cbv zeta. change ((649 - 609) / 2) with 20. change (20 + 609) with 629. rewrite P1, Pw.
  destruct ((20 <=? X) && (X <? 629)) eqn:D.
  - destruct (Y <? H) eqn:DY; [rewrite Eq by lia; reflexivity|]. rewrite <- Eq by lia. rewrite Bl by lia. rewrite Pw. reflexivity.
  - destruct (Y <? H); reflexivity.
Qed.

Lemma image_calls_app fo a b s s' : image_calls fo (a ++ b) s = Ok s' -> exists s1, image_calls fo a s = Ok s1 /\ image_calls fo b s1 = Ok s'.
Proof. unfold image_calls. rewrite fold_res_app. intros E. apply bind_inv in E. destruct E as (s1 & E1 & E). eauto. Qed.
Lemma out_at (a b c : list receipt_image) r l : c = a ++ [r] -> b = c ++ l -> b = a ++ r :: l.
Proof. intros -> ->. rewrite <- app_assoc. reflexivity. Qed.

(** The picture of a sheet, for every history of jobs: between a begin_render call and the next
    end_render call (and no page printed in between), the image has the picture the calls
    draw in the middle of the paper, with a margin of 20 white pixels on both sides; it is as high as
    the lowest stroke, or reaches down to where the print position is. *)
Theorem C40_sheet : forall fo e s im a x0 mid x1 b,
  history e s -> image_calls fo (rs_calls s) image_new = Ok im ->
  rs_calls s = a ++ (x0, EBeginRender) :: mid ++ (x1, EEndRender) :: b ->
  Forall (fun c => on_sheet (snd c)) mid ->
  exists earlier r later, im_out im = earlier ++ r :: later /\ length earlier = ev_ends a /\
    r_width r = 649 /\
    r_height r = Z.max (bottoms 609 (flat_map (strokes fo) mid) 0) (a_y (g_render_area (c_graphics x1))) /\
    forall X Y, 0 <= X < 649 -> 0 <= Y < r_height r ->
      rgb_at r X Y = if (20 <=? X) && (X <? 629)
                     then rgb_of (drawing 609 (flat_map (strokes fo) mid) blank_sheet (X - 20) Y) else (255, 255, 255).
Proof.
  intros fo e s im a x0 mid x1 b Hh E Ec O. pose proof (td_calls _ (history_tidy _ _ Hh)) as F. rewrite Ec in E, F.
  apply Forall_app in F. destruct F as (Fa & F). apply Forall_cons_iff in F. destruct F as (F0 & F). apply Forall_app in F. destruct F as (Fm & F).
  apply Forall_cons_iff in F. destruct F as (F1 & Fb).
  apply image_calls_app in E. destruct E as (s1 & Ea & E). cbn [image_calls fold_res fst snd image_event] in E. cbn [bind] in E.
  fold (image_calls fo (mid ++ (x1, EEndRender) :: b)) in E.
  destruct (sizes_run fo a _ _ Fa image_new_ok Ea) as (S1 & na & Oa & La & _). cbn [image_new im_out app] in Oa.
  destruct (sheet_begin x0 s1 (proj1 F0) S1) as ([R0 W0 P0 G0] & W0' & B0 & O0).
  apply image_calls_app in E. destruct E as (s2 & Em & E).
  destruct (calls_drawn 609 fo mid _ _ Fm O Em) as (D & Om).
  destruct (D 0 blank_sheet (fresh_strip _ W0' B0 G0 P0)) as (Sp & (_ & Pc & _)).
  cbn [image_calls fold_res fst snd image_event] in E. apply bind_inv in E. destruct E as (s3 & Ee & E). fold (image_calls fo b) in E.
  destruct (strip_end x1 s2 s3 _ _ (proj1 F1) Sp ltac:(congruence) Ee) as (r & O3 & Q1 & Q2 & Q3 & Q4 & Q5 & Q6).
  destruct (sheet_end x1 s2 s3 (proj1 F1)) as (r' & c' & _ & _ & _ & _ & Q7 & Q8 & Q9 & _); [|exact Ee|].
  { destruct Sp as (q & [Sh G Fi Bl] & _). constructor; [exact (shows_rect _ _ _ _ Sh) | right; apply Sh | congruence | exact G]. }
  assert (S3 : sheet_ok (im_paper s3)) by (rewrite Q7; exact (sheet_off _ Q8 Q9)).
  destruct (sizes_run fo b _ _ Fb S3 E) as (_ & nb & Ob & _ & _).
  exists na, r, nb. split; [refine (out_at _ _ _ _ _ _ Ob); rewrite O3, Om, O0, Oa; reflexivity|].
  split; [exact La|]. split; [exact Q1|]. split; [exact Q2 | exact Q3].
Qed.

(** ** C41: after a form feed outside page mode *)
(** no sheet is in *)
Record off_ok (c : canvas) : Prop := mk_off { of_width : cv_width c = 0; of_bytes : cv_bytes c = []; of_color : cv_paper_color c = white; of_grow : cv_auto_grow c = true }.
Lemma off_put x y w h px m c c' : 0 <= x -> off_ok c -> put_pixels x y w h px m c = Ok c' -> off_ok c'.
Proof.
  intros Hx [A B C D] E. unfold put_pixels in E. apply bind_inv in E. destruct E as (ar & _ & E).
  destruct (ar <? vlen px); [injection E as <-; constructor; assumption|].
  rewrite A in E. replace (0 <=? x) with true in E by lia. cbn [orb] in E. injection E as <-. constructor; assumption.
Qed.
Lemma off_flip x y w h c c' : 0 <= x -> 0 <= w -> off_ok c -> flip_pixels x y w h c = Ok c' -> off_ok c'.
Proof.
  intros Hx Hw O E. unfold flip_pixels in E. apply bind_inv in E. destruct E as (xe & _ & E).
  destruct (cv_width c <? xe); [injection E as <-; exact O|].
  apply bind_inv in E. destruct E as (ye & _ & E). apply bind_inv in E. destruct E as (c1 & E1 & E).
  assert (O1 : off_ok c1).
  { destruct O as [A B C D]. unfold expand_to_height in E1. rewrite A in E1. apply bind_inv in E1. destruct E1 as (len & Hlen & E1).
    destruct (CanvasTheory.chk_inv _ _ _ _ Hlen) as (-> & _). pose proof (vlen_nonneg (cv_bytes c)).
    replace (0 * ye <=? vlen (cv_bytes c)) with true in E1 by lia. injection E1 as <-. constructor; assumption. }
  do 3 (apply bind_inv in E; destruct E as (? & _ & E)). exact (off_put _ _ _ _ _ _ _ _ Hx O1 E).
Qed.
Lemma off_run fo l : forall s s', Forall call_wf l -> Forall (fun c => snd c <> EBeginRender /\ snd c <> EEndRender) l ->
  off_ok (im_paper s) -> image_calls fo l s = Ok s' -> off_ok (im_paper s') /\ im_out s' = im_out s.
Proof.
  induction l as [|[x ev] l IH]; intros s s' F O S E; cbn [image_calls fold_res] in E.
  - injection E as <-. auto.
  - apply Forall_cons_iff in F. destruct F as (F1 & F2). apply Forall_cons_iff in O. destruct O as ((O1 & O1') & O2).
    apply bind_inv in E. destruct E as (s1 & E1 & E).
    destruct (keeps_event off_ok (fun x y w h px c c' => off_put x y w h px true c c') (fun x y w h px c c' => off_put x y w h px false c c')
                off_flip fo x ev s s1 F1 O1 O1' S E1) as (Q1 & Q2).
    destruct (IH s1 s' F2 O2 Q1 E) as (Q3 & Q4). split; [exact Q3 | congruence].
Qed.
Lemma off_sheet c : off_ok c -> sheet_ok c.
Proof. intros [A B C D]. constructor; [|auto | exact C | exact D]. split; [lia|]. exists 0. split; [lia|]. rewrite B, A. reflexivity. Qed.
Lemma off_end x s s' : cinv x -> off_ok (im_paper s) -> end_render x s = Ok s' ->
  off_ok (im_paper s') /\ exists r, im_out s' = im_out s ++ [r] /\ r_width r = 649 /\ r_height r = a_y (g_render_area (c_graphics x)) /\
    (forall X Y, 0 <= X < 649 -> 0 <= Y < r_height r -> rgb_at r X Y = (255, 255, 255)).
Proof.
  intros C O E. destruct (sheet_end x s s' C (off_sheet _ O) E) as (r & c & Oo & Q1 & Q2 & Q3 & Q4 & Q5 & Q9 & _ & _ & Q6 & Q7 & Q8).
  split; [rewrite Q4; constructor; [reflexivity | reflexivity | exact Q5 | exact Q9]|].
  exists r. split; [exact Oo|]. split; [exact Q1|]. destruct O as [A B Cc D].
  pose proof (ua_y _ (ui_render _ (ci_u _ C))) as Hy. unfold u32v in Hy. set (ay := a_y _) in *. clearbody ay.
  apply bind_inv in Q6. destruct Q6 as (c1 & E1 & Q6). unfold expand_to_width, get_canvas_height in E1. rewrite A, B in E1.
  cbn [Z.eqb] in E1. change (649 <? 0) with false in E1. cbv zeta iota in E1. change (0 * 649 <? vlen (A := rgba) []) with false in E1. cbv iota in E1.
  rewrite for_range_neg in E1 by lia. cbn [bind] in E1. injection E1 as <-.
  unfold expand_to_height in Q6. apply bind_inv in Q6. destruct Q6 as (len & Hlen & Q6).
  destruct (CanvasTheory.chk_inv _ _ _ _ Hlen) as (-> & Rr). cbn [cv_width cv_bytes cv_paper_color set_cv_width set_cv_bytes] in *.
  change (vlen (A := rgba) []) with 0 in Q6.
  assert (Hb : cv_bytes c = repeat white (Z.to_nat (649 * ay)) /\ cv_width c = 649).
  { destruct (649 * ay <=? 0) eqn:D0; injection Q6 as <-; cbn [cv_bytes cv_width set_cv_bytes set_cv_width app]; (split; [|reflexivity]).
    - replace (Z.to_nat (649 * ay)) with 0%nat by lia. reflexivity.
    - rewrite Z.sub_0_r, Cc. reflexivity. }
  destruct Hb as (Hb & Hw).
  assert (Hr : r_height r = ay).
  { rewrite Q7. unfold get_canvas_height. rewrite Hw, Hb, vlen_repeat. change (649 =? 0) with false. cbv iota. rewrite Z2Nat.id by lia.
    rewrite Z.mul_comm. apply Z.div_mul. lia. }
  split; [exact Hr|]. intros X Y HX HY. rewrite (Q8 X Y HX HY), Hb. rewrite Hr in HY. rewrite at_repeat by nia. reflexivity.
Qed.

(** What is printed between the end of a sheet and the next end of a sheet with no begin_render in
    between is lost: the image is white. *)
Theorem C41_no_sheet : forall fo e s im a x0 mid x1 b,
  history e s -> image_calls fo (rs_calls s) image_new = Ok im ->
  rs_calls s = a ++ (x0, EEndRender) :: mid ++ (x1, EEndRender) :: b ->
  Forall (fun c => snd c <> EBeginRender /\ snd c <> EEndRender) mid ->
  exists earlier r later, im_out im = earlier ++ r :: later /\ length earlier = S (ev_ends a) /\
    r_width r = 649 /\ r_height r = a_y (g_render_area (c_graphics x1)) /\
    forall X Y, 0 <= X < 649 -> 0 <= Y < r_height r -> rgb_at r X Y = (255, 255, 255).
Proof.
  intros fo e s im a x0 mid x1 b Hh E Ec O. pose proof (td_calls _ (history_tidy _ _ Hh)) as F. rewrite Ec in E, F.
  apply Forall_app in F. destruct F as (Fa & F). apply Forall_cons_iff in F. destruct F as (F0 & F). apply Forall_app in F. destruct F as (Fm & F).
  apply Forall_cons_iff in F. destruct F as (F1 & Fb).
  apply image_calls_app in E. destruct E as (s1 & Ea & E). cbn [image_calls fold_res fst snd image_event] in E. apply bind_inv in E. destruct E as (s2 & E0 & E).
  fold (image_calls fo (mid ++ (x1, EEndRender) :: b)) in E.
  destruct (sizes_run fo a _ _ Fa image_new_ok Ea) as (S1 & na & Oa & La & _). cbn [image_new im_out app] in Oa.
  destruct (sheet_end x0 s1 s2 (proj1 F0) S1 E0) as (r0 & c0 & O0 & _ & _ & _ & Q7 & Q8 & Q9 & _).
  assert (S2 : off_ok (im_paper s2)) by (rewrite Q7; constructor; [reflexivity | reflexivity | exact Q8 | exact Q9]).
  apply image_calls_app in E. destruct E as (s3 & Em & E).
  destruct (off_run fo mid _ _ Fm O S2 Em) as (S3 & Om).
  cbn [image_calls fold_res fst snd image_event] in E. apply bind_inv in E. destruct E as (s4 & Ee & E). fold (image_calls fo b) in E.
  destruct (off_end x1 s3 s4 (proj1 F1) S3 Ee) as (S4 & r & O4 & Q1 & Q2 & Q3).
  destruct (sizes_run fo b _ _ Fb (off_sheet _ S4) E) as (_ & nb & Ob & _ & _).
  exists (na ++ [r0]), r, nb. split; [refine (out_at _ _ _ _ _ _ Ob); rewrite O4, Om, O0, Oa; reflexivity|].
  split; [rewrite app_length, La; cbn [length]; lia|]. split; [exact Q1|]. split; [exact Q2 | exact Q3].
Qed.
Definition all_white (r : receipt_image) : Prop := forall X Y, 0 <= X < r_width r -> 0 <= Y < r_height r -> rgb_at r X Y = (255, 255, 255).
Lemma off_all fo l : forall s s', Forall call_wf l -> Forall (fun c => snd c <> EBeginRender) l ->
  off_ok (im_paper s) -> image_calls fo l s = Ok s' -> exists n, im_out s' = im_out s ++ n /\ Forall all_white n.
Proof.
  induction l as [|[x ev] l IH]; intros s s' F O S E; cbn [image_calls fold_res] in E.
  - injection E as <-. exists []. split; [now rewrite app_nil_r | constructor].
  - apply Forall_cons_iff in F. destruct F as (F1 & F2). apply Forall_cons_iff in O. destruct O as (O1 & O2).
    apply bind_inv in E. destruct E as (s1 & E1 & E). cbn [fst snd] in *.
    destruct (event_dec_ends ev) as [[->| ->]|(N1 & N2)]; [|congruence|].
    + destruct (off_end x s s1 (proj1 F1) S E1) as (S1 & r & Or & Q1 & Q2 & Q3). destruct (IH s1 s' F2 O2 S1 E) as (n & On & Wn).
      exists (r :: n). split; [exact (out_at _ _ _ _ _ Or On)|]. constructor; [|exact Wn]. unfold all_white. rewrite Q1. exact Q3.
    + destruct (keeps_event off_ok (fun x y w h px c c' => off_put x y w h px true c c') (fun x y w h px c c' => off_put x y w h px false c c')
                off_flip fo x ev s s1 F1 N2 N1 S E1) as (Q1 & Q2).
      destruct (IH s1 s' F2 O2 Q1 E) as (n & On & Wn). exists n. rewrite <- Q2. auto.
Qed.
Lemma first_end (l : list (context * event)) n : ev_ends l = S n -> exists a x b, l = a ++ (x, EEndRender) :: b /\ ev_ends a = 0%nat.
Proof.
  induction l as [|[x ev] l IH]; intros E; [discriminate|]. destruct (ends_output ev) eqn:D.
  - destruct ev; try discriminate. exists [], x, l. auto.
  - unfold ev_ends in E, IH. cbn [filter] in E. cbn [snd] in E. rewrite D in E. destruct (IH E) as (a & y & b & -> & A).
    exists ((x, ev) :: a), y, b. split; [reflexivity|]. unfold ev_ends in *. cbn [filter snd]. rewrite D. exact A.
Qed.
Lemma no_begins l : ev_begins l = 0%nat -> Forall (fun c : context * event => snd c <> EBeginRender) l.
Proof.
  unfold ev_begins. induction l as [|[x ev] l IH]; intros E; [constructor|]. cbn [filter snd] in E. destruct (begins_output ev) eqn:D; [discriminate|].
  constructor; [cbn; intros ->; discriminate | exact (IH E)].
Qed.
Lemma no_ends l : ev_ends l = 0%nat -> Forall (fun c : context * event => snd c <> EEndRender) l.
Proof.
  unfold ev_ends. induction l as [|[x ev] l IH]; intros E; [constructor|]. cbn [filter snd] in E. destruct (ends_output ev) eqn:D; [discriminate|].
  constructor; [cbn; intros ->; discriminate | exact (IH E)].
Qed.
(** The calls of a job: begin_render comes second and never again. *)
Lemma job_shape e bs s : bytes_ok bs = true -> render e bs renderer_new = Ok s ->
  exists x x' l n, rs_calls s = (x, EDevice BeginPrint) :: (x', EBeginRender) :: l /\ ev_begins l = 0%nat /\ ev_ends l = S n.
Proof.
  intros B Es. pose proof Es as Es'. unfold render in Es'. apply bind_inv in Es'. destruct Es' as (cmds & P & R).
  destruct (C31_outputs e bs cmds renderer_new s B P R) as (l & N & Ce & Cb).
  destruct (C31_framed e bs renderer_new s B eq_refl Es) as (_ & mid & N'). apply new_calls_all in N, N'.
  rewrite <- N, <- ends_count in Ce. rewrite <- N, <- begins_count in Cb.
  destruct (rs_calls s) as [|[x0 e0] [|[x1 e1] m]]; try discriminate. cbn [map snd app] in N'. injection N' as -> -> Hm.
  unfold ev_begins in Cb. cbn [filter snd begins_output length] in Cb. unfold ev_ends in Ce. cbn [filter snd ends_output] in Ce.
  exists x0, x1, m, (sheets false cmds). split; [reflexivity|]. split; [unfold ev_begins; congruence | exact Ce].
Qed.
(** One job: the first image shows what is drawn up to the first end of a sheet, and every further
    image (each form feed outside page mode ends one) is entirely white. *)
Theorem C41_only_the_first_image_shows_anything : forall fo e bs im,
  bytes_ok bs = true -> render_images fo e bs = Ok im ->
  exists r later, im_out im = r :: later /\ Forall all_white later.
Proof.
  intros fo e bs im B E. unfold render_images in E. apply bind_inv in E. destruct E as (s & Es & E).
  pose proof (job_calls _ _ _ B Es) as F. destruct (job_shape e bs s B Es) as (x & x' & l & n & Ec & Nb & Ne).
  destruct (first_end _ _ Ne) as (a & y & b & -> & Na). rewrite Ec in E, F.
  apply Forall_cons_iff in F. destruct F as (F0 & F). apply Forall_cons_iff in F. destruct F as (F1 & F). apply Forall_app in F. destruct F as (Fa & F).
  apply Forall_cons_iff in F. destruct F as (Fy & Fb). rewrite ev_begins_app in Nb.
  change ((x, EDevice BeginPrint) :: (x', EBeginRender) :: a ++ (y, EEndRender) :: b) with (((x, EDevice BeginPrint) :: (x', EBeginRender) :: a) ++ (y, EEndRender) :: b) in E.
  apply image_calls_app in E. destruct E as (s1 & Ea & E). cbn [image_calls fold_res fst snd image_event] in E. apply bind_inv in E. destruct E as (s2 & E0 & E).
  fold (image_calls fo b) in E.
  destruct (sizes_run fo _ _ _ (Forall_cons _ F0 (Forall_cons _ F1 Fa)) image_new_ok Ea) as (S1 & na & Oa & La & _). cbn [image_new im_out app] in Oa.
  destruct (sheet_end y s1 s2 (proj1 Fy) S1 E0) as (r0 & c0 & O0 & _ & _ & _ & Q7 & Q8 & Q9 & _).
  assert (S2 : off_ok (im_paper s2)) by (rewrite Q7; constructor; [reflexivity | reflexivity | exact Q8 | exact Q9]).
  assert (Nb' : ev_begins b = 0%nat) by (unfold ev_begins in Nb |- *; cbn [filter snd begins_output] in Nb; lia).
  destruct (off_all fo b s2 im Fb (no_begins _ Nb') S2 E) as (nb & Ob & Wb).
  assert (Ena : na = []).
  { destruct na; [reflexivity|]. exfalso. cbn [length] in La. unfold ev_ends in La, Na. cbn [filter snd ends_output] in La. congruence. }
  exists r0, nb. split; [|exact Wb]. rewrite Ob, O0, Oa, Ena. reflexivity.
Qed.
Theorem C40_first_image : forall fo e bs s im calls x rest,
  bytes_ok bs = true -> render e bs renderer_new = Ok s -> render_images fo e bs = Ok im ->
  rs_calls s = calls ++ (x, EEndRender) :: rest ->
  Forall (fun c => snd c <> EEndRender /\ snd c <> ERenderPage) calls ->
  let marks := flat_map (strokes fo) calls in
  exists r later, im_out im = r :: later /\ r_width r = 649 /\
    r_height r = Z.max (bottoms 609 marks 0) (a_y (g_render_area (c_graphics x))) /\
    forall X Y, 0 <= X < 649 -> 0 <= Y < r_height r ->
      rgb_at r X Y = if (20 <=? X) && (X <? 629) then rgb_of (drawing 609 marks blank_sheet (X - 20) Y) else (255, 255, 255).
Proof.
  intros fo e bs s im calls x rest B Es E Ec O marks. unfold render_images in E. rewrite Es in E. cbn [bind] in E.
  destruct (job_shape e bs s B Es) as (x0 & x1 & l & n & Ec' & Nb & Ne).
  destruct calls as [|[y0 e0] [|[y1 e1] mid]]; rewrite Ec in Ec'; cbn [app] in Ec'; [discriminate | injection Ec' as _ _ _ D; discriminate |].
  injection Ec' as -> -> -> -> El. apply Forall_cons_iff in O. destruct O as (_ & O). apply Forall_cons_iff in O. destruct O as (_ & O).
  assert (O' : Forall (fun c => on_sheet (snd c)) mid).
  { rewrite <- El, ev_begins_app in Nb. assert (Nm : ev_begins mid = 0%nat) by lia. apply no_begins in Nm. clear -O Nm. rewrite Forall_forall in *.
    intros c I. specialize (O c I). specialize (Nm c I). destruct c as [y ev]. cbn [snd] in *. destruct ev; cbn; tauto. }
  destruct (C40_sheet fo e s im [(x0, EDevice BeginPrint)] x1 mid x rest (job_history _ _ _ B Es) E Ec O') as (ea & r & la & A1 & A2 & A3 & A4 & A5).
  destruct ea; [|discriminate]. exists r, la. cbn [app] in A1.
  assert (Em : marks = flat_map (strokes fo) mid).
  { unfold marks. cbn [flat_map]. unfold strokes at 1 2. destruct (p_enabled _), (p_enabled _); reflexivity. }
  rewrite Em. auto.
Qed.

Print Assumptions C39_images.
Print Assumptions C40_sheet.
Print Assumptions C40_first_image.
Print Assumptions C41_no_sheet.
Print Assumptions C41_only_the_first_image_shows_anything.
