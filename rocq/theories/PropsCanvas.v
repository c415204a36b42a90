(** * PropsCanvas: the image renderer's canvas, C34-C37. *)
From Verif Require Import Base Vec Float32 GTypes Graphics GraphicsTheory2 ThermalImage SpecCanvas CanvasTheory CanvasRect.
Local Open Scope Z_scope.
Local Open Scope list_scope.
Local Arguments at_ : simpl never.
Local Arguments vlen : simpl never.

(** ** C34 Painting touches only its rectangle *)

(** The rectangle [x, x+w) x [y, y+h) cut at the right edge of a canvas [W] pixels wide. *)
Definition inside (x y w h W X Y : Z) : Prop := x <= X < x + w /\ X < W /\ y <= Y < y + h.
Definition outside (x y w h W X Y : Z) : Prop := ~ inside x y w h W X Y.

(** How a painted pixel combines with what is below it. *)
Definition mix (multiply : bool) (below painted : rgba) : rgba :=
  if multiply then multiply_foreground below painted else blend_foreground below painted.

Lemma inside_bool : forall x y w h W X Y, 0 <= x -> X < W ->
  (x <=? X) && (X <? x + Z.min w (W - x)) && (y <=? Y) && (Y <? y + h) = true <-> inside x y w h W X Y.
Proof. intros. unfold inside. rewrite !andb_true_iff, !Z.leb_le, !Z.ltb_lt. lia. Qed.

(** The sizes that fit in the u32 arithmetic of the code. *)
Definition fits (x y w h W H : Z) : Prop :=
  x + w <= u32_max /\ y + w <= u32_max /\ y + h <= u32_max /\ w * h <= u32_max /\ W * Z.max H (y + h) <= u32_max.

(** On the paper (which grows): the canvas keeps its width, becomes exactly as high as needed; the
    pixels of the clipped rectangle are mixed with the block, all others keep their colour, new
    rows have the paper colour. *)
Theorem C34_paper_painting : forall c W H p x y w h pixels multiply,
  shows c W H p -> cv_auto_grow c = true ->
  0 <= x < W -> 0 <= y -> 0 <= w -> 0 <= h -> vlen pixels = w * h -> fits x y w h W H ->
  exists c' q, put_pixels x y w h pixels multiply c = Ok c' /\ same_setup c c' /\
    shows c' W (Z.max H (y + h)) q /\
    (forall X Y, 0 <= X < W -> 0 <= Y < H -> inside x y w h W X Y ->
       q X Y = mix multiply (p X Y) (block pixels w (X - x) (Y - y))) /\
    (forall X Y, 0 <= X < W -> H <= Y < Z.max H (y + h) -> inside x y w h W X Y ->
       q X Y = mix multiply (cv_paper_color c) (block pixels w (X - x) (Y - y))) /\
    (forall X Y, 0 <= X < W -> 0 <= Y < H -> outside x y w h W X Y -> q X Y = p X Y) /\
    (forall X Y, 0 <= X < W -> H <= Y < Z.max H (y + h) -> outside x y w h W X Y -> q X Y = cv_paper_color c).
Proof.
  intros c W H p x y w h pixels multiply Hs Hag Hx Hy Hw Hh Lp (F1 & F2 & F3 & F4 & F5).
  destruct (put_pixels_shows c W H p x y w h pixels multiply Hs Hx Hy Hw Hh Lp ltac:(congruence) F1 (fun _ => F2) F3 F4 F5)
    as (c' & E & SS & S). rewrite Hag in S.
  eexists c', _. split; [exact E|]. split; [exact SS|]. split; [exact S|]. unfold block, grown, mix.
  split; [|split; [|split]]; intros X Y HX HY HI; cbn beta.
  - apply (inside_bool x y w h W X Y ltac:(lia) ltac:(lia)) in HI. rewrite HI.
    replace (Y <? H) with true by lia. destruct multiply; reflexivity.
  - apply (inside_bool x y w h W X Y ltac:(lia) ltac:(lia)) in HI. rewrite HI.
    replace (Y <? H) with false by lia. destruct multiply; reflexivity.
  - destruct ((x <=? X) && (X <? x + Z.min w (W - x)) && (y <=? Y) && (Y <? y + h)) eqn:B.
    + exfalso. apply HI. apply inside_bool; [lia|lia|exact B].
    + replace (Y <? H) with true by lia. reflexivity.
  - destruct ((x <=? X) && (X <? x + Z.min w (W - x)) && (y <=? Y) && (Y <? y + h)) eqn:B.
    + exfalso. apply HI. apply inside_bool; [lia|lia|exact B].
    + replace (Y <? H) with false by lia. reflexivity.
Qed.

(** Growing or not: nothing outside the clipped rectangle changes, the width is kept, the height
    never shrinks and never exceeds what the block needs. *)
Theorem C34_nothing_else_changes : forall c W H p x y w h pixels multiply,
  shows c W H p -> 0 <= x < W -> 0 <= y -> (cv_auto_grow c = false -> y < H) ->
  0 <= w -> 0 <= h -> vlen pixels = w * h -> fits x y w h W H ->
  exists (c' : canvas) (H' : Z) (q : picture), put_pixels x y w h pixels multiply c = Ok c' /\ same_setup c c'
    /\ (H <= H' <= Z.max H (y + h)) /\ shows c' W H' q
    /\ (forall X Y, 0 <= X < W -> 0 <= Y < H -> outside x y w h W X Y -> q X Y = p X Y)
    /\ (forall X Y, 0 <= X < W -> H <= Y < H' -> outside x y w h W X Y -> q X Y = cv_paper_color c).
Proof.
  intros c W H p x y w h pixels multiply Hs Hx Hy Hag Hw Hh Lp (F1 & F2 & F3 & F4 & F5).
  destruct (put_pixels_shows c W H p x y w h pixels multiply Hs Hx Hy Hw Hh Lp Hag F1 (fun _ => F2) F3 F4 F5)
    as (c' & E & SS & S).
  remember (if cv_auto_grow c then h else if (W <? x + w) || (H <? y + w) then Z.min h (H - y) else h) as fh eqn:Efh.
  assert (Hfh : fh <= h) by (subst fh; destruct (cv_auto_grow c), ((W <? x + w) || (H <? y + w)); lia).
  clear Efh. eexists c', _, _. split; [exact E|]. split; [exact SS|]. split; [|split; [exact S|]]; [lia|].
  unfold outside, inside. split; intros X Y HX HY HO; cbn beta; unfold grown;
    (destruct ((x <=? X) && (X <? x + Z.min w (W - x)) && (y <=? Y) && (Y <? y + fh)) eqn:B; [exfalso; apply HO; lia|]).
  - replace (Y <? H) with true by lia. reflexivity.
  - replace (Y <? H) with false by lia. reflexivity.
Qed.

(** ** C38 (first part): the page keeps its size.
    On the page (which must not grow) the same holds with the block cut at the bottom too - when
    the block reaches past the right edge, or its width reaches past the bottom edge, or it fits. *)
Lemma page_painting_cut : forall c W H p x y w h pixels multiply,
  shows c W H p -> cv_auto_grow c = false ->
  0 <= x < W -> 0 <= y < H -> 0 <= w -> 0 <= h -> vlen pixels = w * h -> fits x y w h W H ->
  (W < x + w \/ H < y + w \/ y + h <= H) ->
  exists c' q, put_pixels x y w h pixels multiply c = Ok c' /\ same_setup c c' /\
    shows c' W H q /\
    forall X Y, 0 <= X < W -> 0 <= Y < H ->
      (inside x y w h W X Y -> q X Y = mix multiply (p X Y) (block pixels w (X - x) (Y - y))) /\
      (outside x y w h W X Y -> q X Y = p X Y).
Proof.
  intros c W H p x y w h pixels multiply Hs Hag Hx Hy Hw Hh Lp (F1 & F2 & F3 & F4 & F5) Hcase.
  destruct (put_pixels_shows c W H p x y w h pixels multiply Hs Hx ltac:(lia) Hw Hh Lp ltac:(lia) F1 (fun _ => F2) F3 F4 F5)
    as (c' & E & SS & S). rewrite Hag in S.
  remember (if (W <? x + w) || (H <? y + w) then Z.min h (H - y) else h) as fh eqn:Efh.
  assert (Hfh : fh = Z.min h (H - y)) by (subst fh; destruct ((W <? x + w) || (H <? y + w)) eqn:B; lia).
  clear Efh. replace (Z.max H (y + fh)) with H in S by lia.
  eexists c', _. split; [exact E|]. split; [exact SS|]. split; [exact S|]. unfold block, grown, mix.
  intros X Y HX HY. cbn beta. replace (Y <? H) with true by lia.
  assert (EB : (x <=? X) && (X <? x + Z.min w (W - x)) && (y <=? Y) && (Y <? y + fh) =
               (x <=? X) && (X <? x + Z.min w (W - x)) && (y <=? Y) && (Y <? y + h)) by lia.
  rewrite EB. split; intros HI.
  - apply (inside_bool x y w h W X Y ltac:(lia) ltac:(lia)) in HI. rewrite HI. destruct multiply; reflexivity.
  - destruct ((x <=? X) && (X <? x + Z.min w (W - x)) && (y <=? Y) && (Y <? y + h)) eqn:B; [|reflexivity].
    exfalso. apply HI. apply inside_bool; [lia|lia|exact B].
Qed.

(** Without that condition the page grows although it must not: the test for the bottom edge adds
    the block's width instead of its height. *)
Theorem C38_page_does_not_grow_refuted : exists c W H p x y w h pixels c',
  shows c W H p /\ cv_auto_grow c = false /\ 0 <= x < W /\ 0 <= y < H /\
  vlen pixels = w * h /\ fits x y w h W H /\
  put_pixels x y w h pixels true c = Ok c' /\ get_canvas_height c' <> H.
Proof.
  exists (mk_canvas (repeat (mk_rgba 255 255 255 255) 20) 10 false (mk_rgba 255 255 255 255) []), 10, 2,
    (fun _ _ => mk_rgba 255 255 255 255), 3, 1, 1, 4, (repeat (mk_rgba 0 0 0 255) 4).
  eexists. split.
  { split; [lia|]. split; [lia|]. split; [reflexivity|]. split; [reflexivity|].
    intros X Y HX HY. cbn [cv_bytes]. apply at_repeat. pose proof (rowmajor_range 10 2 X Y HX HY). lia. }
  split; [reflexivity|]. split; [lia|]. split; [lia|]. split; [reflexivity|].
  split; [unfold fits, u32_max; lia|]. split; [vm_compute; reflexivity|]. vm_compute. discriminate.
Qed.

(** A block that lies entirely outside, or comes with more pixels than its size admits, leaves the
    canvas alone and is reported. *)
Theorem C34_refused_painting : forall c x y w h pixels multiply,
  0 <= w * h <= u32_max ->
  (w * h < vlen pixels \/ cv_width c <= x \/ (get_canvas_height c <= y /\ cv_auto_grow c = false)) ->
  exists c' e, put_pixels x y w h pixels multiply c = Ok c' /\
    cv_bytes c' = cv_bytes c /\ cv_width c' = cv_width c /\ cv_errors c' = cv_errors c ++ [e].
Proof.
  intros c x y w h pixels multiply Hwh Hcase. unfold put_pixels, mul_u32. rewrite chk_ok by exact Hwh. cbn [bind].
  destruct (Z.ltb_spec (w * h) (vlen pixels)).
  { eexists _, _. split; [reflexivity|]. repeat split. }
  replace ((cv_width c <=? x) || ((get_canvas_height c <=? y) && negb (cv_auto_grow c))) with true.
  { eexists _, _. split; [reflexivity|]. repeat split. }
  symmetry. destruct Hcase as [?|[?|[? ->]]]; [lia|lia|]. apply orb_true_iff. right. cbn. lia.
Qed.

(** Multiplying never lets a white or transparent pixel hide what is below, and black stays black. *)
Lemma multiply_white : forall s, 0 <= s <= 255 -> multiply_channel s 255 255 = s.
Proof.
  intros s Hs. assert (A : forallb (fun s => multiply_channel s 255 255 =? s) (zrange 256) = true) by (vm_compute; reflexivity).
  rewrite forallb_forall in A. apply Z.eqb_eq, A, in_zrange. lia.
Qed.
Lemma multiply_black : forall s, 0 <= s <= 255 -> multiply_channel s 0 255 = 0.
Proof.
  intros s Hs. assert (A : forallb (fun s => multiply_channel s 0 255 =? 0) (zrange 256) = true) by (vm_compute; reflexivity).
  rewrite forallb_forall in A. apply Z.eqb_eq, A, in_zrange. lia.
Qed.
Theorem C34_white_and_transparent_do_not_cover : forall below painted,
  channels_ok below ->
  (c_a painted = 0 \/ painted = mk_rgba 255 255 255 255) -> mix true below painted = below.
Proof.
  intros [r g b a] painted (Hr & Hg & Hb) [H| ->]; unfold mix, multiply_foreground.
  - rewrite H. reflexivity.
  - cbn [c_a c_r c_g c_b] in *. change (255 =? 0) with false. cbn iota. rewrite !multiply_white by assumption. reflexivity.
Qed.
Theorem C34_black_covers : forall below,
  channels_ok below -> mix true below (mk_rgba 0 0 0 255) = mk_rgba 0 0 0 (c_a below).
Proof.
  intros [r g b a] (Hr & Hg & Hb). unfold mix, multiply_foreground.
  cbn [c_a c_r c_g c_b] in *. change (255 =? 0) with false. cbn iota. rewrite !multiply_black by assumption. reflexivity.
Qed.

(** Upside-down printing: the rectangle is mirrored top to bottom and nothing else moves (on a
    canvas of opaque pixels, which is what the renderer's paper is). *)
Definition opaque_picture (W H : Z) (p : picture) : Prop :=
  forall X Y, 0 <= X < W -> 0 <= Y < H -> c_a (p X Y) = 255 /\ channels_ok (p X Y).
Theorem C34_upside_down_mirrors : forall c W H p x y w h,
  shows c W H p -> opaque_picture W H p ->
  0 <= x -> 0 <= y -> 0 < w -> 0 < h -> x + w <= W -> y + h <= H ->
  W <= u32_max -> y + w <= u32_max -> W * H <= u32_max ->
  exists c' q, flip_pixels x y w h c = Ok c' /\ same_setup c c' /\ shows c' W H q /\
    forall X Y, 0 <= X < W -> 0 <= Y < H ->
      (inside x y w h W X Y -> q X Y = p X (y + h - 1 - (Y - y))) /\ (outside x y w h W X Y -> q X Y = p X Y).
Proof.
  intros c W H p x y w h Hs Hop Hx Hy Hw Hh Hxw Hyh MW Myw MWH.
  assert (M1 : w * h <= W * H) by (apply Z.mul_le_mono_nonneg; lia).
  assert (M2 : H <= u32_max) by (pose proof (Z.mul_le_mono_nonneg_r 1 W H ltac:(lia) ltac:(lia)); lia).
  destruct (flip_pixels_shows c W H p x y w h Hs Hx Hy Hw Hh Hxw MW (fun _ => Myw) ltac:(lia) ltac:(lia)
              ltac:(replace (Z.max H (y + h)) with H by lia; exact MWH)) as (c' & E & SS & S).
  replace (Z.max H (y + h)) with H in S by lia.
  eexists c', _. split; [exact E|]. split; [exact SS|]. split; [exact S|]. intros X Y HX HY. cbn beta. unfold grown.
  replace (Y <? H) with true by lia. unfold outside, inside. split; intros HI.
  - replace ((x <=? X) && (X <? x + w) && (y <=? Y) && (Y <? y + h)) with true by lia.
    replace (y + (h - 1 - (Y - y)) <? H) with true by lia.
    replace (y + h - 1 - (Y - y)) with (y + (h - 1 - (Y - y))) by lia.
    destruct (Hop X (y + (h - 1 - (Y - y))) HX ltac:(lia)) as (A & B). apply blend_opaque; assumption.
  - destruct ((x <=? X) && (X <? x + w) && (y <=? Y) && (Y <? y + h)) eqn:B; [exfalso; apply HI; lia|reflexivity].
Qed.

(** ** C35 Rotations *)

(** Where the pixels go. *)
Theorem C35_rotation_moves_pixels : forall c W H p, 0 < H -> shows c W H p ->
  (exists c', rotate_90 c = Ok c' /\ same_setup c c' /\ shows c' H W (fun X Y => p Y (H - 1 - X))) /\
  (exists c', rotate_180 c = Ok c' /\ same_setup c c' /\ shows c' W H (fun X Y => p (W - 1 - X) (H - 1 - Y))) /\
  (exists c', rotate_270 c = Ok c' /\ same_setup c c' /\ shows c' H W (fun X Y => p (W - 1 - Y) X)).
Proof.
  intros c W H p HH Hs. split; [|split].
  - destruct (rotate_90_shows c W H p HH Hs) as (c' & E & S & SS). exists c'. split; [exact E|]. split; [exact SS|exact S].
  - destruct (rotate_180_shows c W H p Hs) as (c' & E & S & SS). exists c'. split; [exact E|]. split; [exact SS|exact S].
  - destruct (rotate_270_shows c W H p HH Hs) as (c' & E & S & SS). exists c'. split; [exact E|]. split; [exact SS|exact S].
Qed.

Lemma same_setup_trans : forall a b c, same_setup a b -> same_setup b c -> same_setup a c.
Proof. intros a b c (A1 & A2 & A3) (B1 & B2 & B3). split; [congruence|]. split; congruence. Qed.
Lemma shows_ext : forall c W H p q, (forall X Y, 0 <= X < W -> 0 <= Y < H -> p X Y = q X Y) -> shows c W H p -> shows c W H q.
Proof.
  intros c W H p q Hpq (A & B & C & D & E). split; [exact A|]. split; [exact B|]. split; [exact C|]. split; [exact D|].
  intros X Y HX HY. rewrite E by assumption. apply Hpq; assumption.
Qed.
Lemma same_canvas : forall c c' W H p, shows c W H p -> shows c' W H p -> same_setup c c' -> c = c'.
Proof.
  intros c c' W H p S S' SS. apply canvas_eq; [|destruct S as (_ & _ & -> & _), S' as (_ & _ & -> & _); reflexivity|exact SS].
  apply (shows_unique c c' W H p p S S'). reflexivity.
Qed.

(** A canvas with at least one pixel. *)
Definition non_empty (c : canvas) : Prop := exists W H p, 0 < H /\ shows c W H p.

Theorem C35_four_quarter_turns : forall c, non_empty c ->
  (do a <- rotate_90 c; do b <- rotate_90 a; do d <- rotate_90 b; rotate_90 d) = Ok c.
Proof.
  intros c (W & H & p & HH & S). pose proof S as (HW & _).
  destruct (rotate_90_shows c W H p HH S) as (c1 & E1 & S1 & SS1). rewrite E1. cbn [bind].
  destruct (rotate_90_shows c1 H W _ HW S1) as (c2 & E2 & S2 & SS2). rewrite E2. cbn [bind].
  destruct (rotate_90_shows c2 W H _ HH S2) as (c3 & E3 & S3 & SS3). rewrite E3. cbn [bind].
  destruct (rotate_90_shows c3 H W _ HW S3) as (c4 & E4 & S4 & SS4). rewrite E4. f_equal. symmetry.
  apply (same_canvas c c4 W H p S).
  - refine (shows_ext _ _ _ _ _ _ S4). intros X Y HX HY. unfold turn_90. f_equal; lia.
  - eapply same_setup_trans; [exact SS1|]. eapply same_setup_trans; [exact SS2|]. eapply same_setup_trans; eassumption.
Qed.
Theorem C35_half_turn_is_two_quarters : forall c, non_empty c ->
  (do a <- rotate_90 c; rotate_90 a) = rotate_180 c.
Proof.
  intros c (W & H & p & HH & S). pose proof S as (HW & _).
  destruct (rotate_90_shows c W H p HH S) as (c1 & E1 & S1 & SS1). rewrite E1. cbn [bind].
  destruct (rotate_90_shows c1 H W _ HW S1) as (c2 & E2 & S2 & SS2). rewrite E2.
  destruct (rotate_180_shows c W H p S) as (c3 & E3 & S3 & SS3). rewrite E3. f_equal.
  apply (same_canvas c2 c3 W H (turn_180 W H p)).
  - refine (shows_ext _ _ _ _ _ _ S2). intros X Y HX HY. unfold turn_90, turn_180. f_equal; lia.
  - exact S3.
  - destruct (same_setup_trans _ _ _ SS1 SS2) as (A1 & A2 & A3). destruct SS3 as (B1 & B2 & B3).
    split; [congruence|]. split; congruence.
Qed.
Theorem C35_three_quarters_undo_one : forall c, non_empty c ->
  (do a <- rotate_90 c; rotate_270 a) = Ok c /\ (do a <- rotate_270 c; rotate_90 a) = Ok c.
Proof.
  intros c (W & H & p & HH & S). pose proof S as (HW & _). split.
  - destruct (rotate_90_shows c W H p HH S) as (c1 & E1 & S1 & SS1). rewrite E1. cbn [bind].
    destruct (rotate_270_shows c1 H W _ HW S1) as (c2 & E2 & S2 & SS2). rewrite E2. f_equal. symmetry.
    apply (same_canvas c c2 W H p S).
    + refine (shows_ext _ _ _ _ _ _ S2). intros X Y HX HY. unfold turn_90, turn_270. f_equal; lia.
    + eapply same_setup_trans; eassumption.
  - destruct (rotate_270_shows c W H p HH S) as (c1 & E1 & S1 & SS1). rewrite E1. cbn [bind].
    destruct (rotate_90_shows c1 H W _ HW S1) as (c2 & E2 & S2 & SS2). rewrite E2. f_equal. symmetry.
    apply (same_canvas c c2 W H p S).
    + refine (shows_ext _ _ _ _ _ _ S2). intros X Y HX HY. unfold turn_90, turn_270. f_equal; lia.
    + eapply same_setup_trans; eassumption.
Qed.
(** An empty page loses its width when it is turned by a quarter: turning is then not undone. *)
Theorem C35_empty_page_forgets_its_width : forall W, 0 < W ->
  (do a <- rotate_90 (canvas_new W); do b <- rotate_90 a; do d <- rotate_90 b; rotate_90 d) = Ok (canvas_new 0).
Proof.
  intros W HW.
  assert (H0 : get_canvas_height (canvas_new W) = 0)
    by (unfold get_canvas_height; cbn [canvas_new cv_width cv_bytes]; destruct (Z.eqb_spec W 0); [reflexivity|apply Z.div_0_l; lia]).
  unfold rotate_90 at 1. rewrite H0, for_range_neg by lia. cbn [bind].
  cbn [cv_width canvas_new]. rewrite Z.mul_0_r. vm_compute. reflexivity.
Qed.

(** ** C36 The canvas stays rectangular *)

(** Everything the renderer does to a canvas; coordinates and sizes are unsigned. *)
Inductive canvas_op :=
| OpPut (x y w h : Z) (pixels : list rgba) (multiply : bool)
| OpRect (x y w h : Z) (color : rgba) (multiply : bool)
| OpFlip (x y w h : Z)
| OpImage (i : image)
| OpTurn90 | OpTurn180 | OpTurn270
| OpHeight (h : Z) | OpWidth (w : Z) | OpTop (h : Z)
| OpReset (w : Z) | OpEmpty.
Definition op_unsigned (o : canvas_op) : Prop :=
  match o with
  | OpPut x y w h _ _ | OpRect x y w h _ _ | OpFlip x y w h => 0 <= x /\ 0 <= y /\ 0 <= w /\ 0 <= h
  | OpImage i => 0 <= i_x i /\ 0 <= i_y i /\ 0 <= i_w i /\ 0 <= i_h i
  | OpHeight h | OpTop h => 0 <= h
  | OpWidth w | OpReset w => 0 <= w
  | _ => True
  end.
Definition run_op (o : canvas_op) (c : canvas) : res canvas :=
  match o with
  | OpPut x y w h px m => put_pixels x y w h px m c
  | OpRect x y w h col m => draw_rect x y w h col m c
  | OpFlip x y w h => flip_pixels x y w h c
  | OpImage i => put_render_img i c
  | OpTurn90 => rotate_90 c | OpTurn180 => rotate_180 c | OpTurn270 => rotate_270 c
  | OpHeight h => expand_to_height h c | OpWidth w => expand_to_width w c | OpTop h => add_top_margin h c
  | OpReset w => Ok (set_width w c) | OpEmpty => Ok (empty c)
  end.
Fixpoint run_ops (os : list canvas_op) (c : canvas) : res canvas :=
  match os with [] => Ok c | o :: os => do c <- run_op o c; run_ops os c end.

Lemma run_op_rect : forall o c c', op_unsigned o -> rectangular c -> run_op o c = Ok c' -> rectangular c'.
Proof.
  intros o c c' Ho Hr E. destruct o; cbn [run_op op_unsigned] in *.
  - eapply put_pixels_rect; [exact Hr|exact E].
  - eapply draw_rect_rect; [exact Hr|exact E].
  - eapply flip_pixels_rect; [exact Hr|exact E].
  - eapply put_render_img_rect; [exact Hr|exact E].
  - destruct (rotate_90_rect c Hr) as (c1 & E1 & R & _). rewrite E1 in E. injection E as <-. exact R.
  - destruct (rotate_180_rect c Hr) as (c1 & E1 & R & _). rewrite E1 in E. injection E as <-. exact R.
  - destruct (rotate_270_rect c Hr) as (c1 & E1 & R & _). rewrite E1 in E. injection E as <-. exact R.
  - eapply expand_to_height_rect; [exact Hr|exact Ho|exact E].
  - destruct (expand_to_width_rect w c Hr) as (c1 & E1 & R & _). rewrite E1 in E. injection E as <-. exact R.
  - eapply add_top_margin_rect; [exact Hr|exact Ho|exact E].
  - injection E as <-. split; [exact Ho|]. exists 0. split; [lia|]. cbn. rewrite Z.mul_0_r. reflexivity.
  - injection E as <-. destruct Hr as (HW & _). split; [exact HW|]. exists 0. split; [lia|]. cbn. rewrite Z.mul_0_r. reflexivity.
Qed.

(** Whatever is drawn, from a fresh canvas on: width times height is the number of pixels. *)
Theorem C36_pixels_fill_the_rectangle : forall w os c, 0 <= w -> Forall op_unsigned os ->
  run_ops os (canvas_new w) = Ok c ->
  0 <= cv_width c /\ 0 <= get_canvas_height c /\ vlen (cv_bytes c) = cv_width c * get_canvas_height c.
Proof.
  intros w os c Hw Hos E.
  assert (Hr : rectangular c).
  { assert (R0 : rectangular (canvas_new w)) by (split; [exact Hw|]; exists 0; split; [lia|]; cbn; rewrite Z.mul_0_r; reflexivity).
    revert E R0. generalize (canvas_new w) as c0. induction Hos as [|o os Ho _ IH]; intros c0 E R0; cbn [run_ops] in E.
    - injection E as <-. exact R0.
    - apply bind_inv in E. destruct E as (c1 & E1 & E). apply (IH c1 E). exact (run_op_rect _ _ _ Ho R0 E1). }
  split; [apply Hr|]. split; [exact (height_nonneg c Hr)|]. exact (rect_len c Hr).
Qed.

(** Export: three bytes per pixel, in order, and the canvas is empty afterwards. *)
Theorem C36_rgb_export : forall c w h rgb c', rectangular c -> consume_rgb_u8 c = Ok ((w, h, rgb), c') ->
  w = cv_width c /\ h = get_canvas_height c /\ vlen rgb = 3 * (w * h) /\
  (forall X Y, 0 <= X < w -> 0 <= Y < h ->
     let p := at_ rgba_blank (cv_bytes c) (Y * w + X) in let i := 3 * (Y * w + X) in
     at_ 0 rgb i = c_r p /\ at_ 0 rgb (i + 1) = c_g p /\ at_ 0 rgb (i + 2) = c_b p) /\
  cv_bytes c' = [] /\ cv_width c' = 0.
Proof.
  intros c w h rgb c' Hr E. unfold consume_rgb_u8 in E. apply bind_inv in E. destruct E as (u & _ & E).
  injection E as <- <- <- <-. split; [reflexivity|]. split; [reflexivity|].
  assert (L : forall l, vlen (flat_map (fun p => [c_r p; c_g p; c_b p]) l) = 3 * vlen l).
  { induction l as [|a l IH]; [reflexivity|]. cbn [flat_map app]. rewrite !vlen_cons, IH. lia. }
  assert (G : forall l k, 0 <= k < vlen l ->
     at_ 0 (flat_map (fun p => [c_r p; c_g p; c_b p]) l) (3 * k) = c_r (at_ rgba_blank l k) /\
     at_ 0 (flat_map (fun p => [c_r p; c_g p; c_b p]) l) (3 * k + 1) = c_g (at_ rgba_blank l k) /\
     at_ 0 (flat_map (fun p => [c_r p; c_g p; c_b p]) l) (3 * k + 2) = c_b (at_ rgba_blank l k)).
  { induction l as [|a l IH]; intros k Hk; [change (vlen (@nil rgba)) with 0 in Hk; lia|].
    rewrite vlen_cons in Hk. destruct (Z.eq_dec k 0) as [->|Hk0]; [repeat split|].
    specialize (IH (k - 1) ltac:(lia)). cbn [flat_map app]. unfold at_ in *.
    replace (Z.to_nat (3 * k)) with (S (S (S (Z.to_nat (3 * (k - 1)))))) by lia.
    replace (Z.to_nat (3 * k + 1)) with (S (S (S (Z.to_nat (3 * (k - 1) + 1))))) by lia.
    replace (Z.to_nat (3 * k + 2)) with (S (S (S (Z.to_nat (3 * (k - 1) + 2))))) by lia.
    replace (Z.to_nat k) with (S (Z.to_nat (k - 1))) by lia. exact IH. }
  split; [rewrite L, (rect_len c Hr); reflexivity|]. split; [|split; reflexivity].
  intros X Y HX HY p i. apply G. rewrite (rect_len c Hr). apply rowmajor_range; assumption.
Qed.

(** Rotating and widening never fail on a rectangular canvas. *)
Theorem C36_turning_and_widening_never_fail : forall c w, rectangular c ->
  (exists c', rotate_90 c = Ok c') /\ (exists c', rotate_180 c = Ok c') /\ (exists c', rotate_270 c = Ok c') /\
  (exists c', expand_to_width w c = Ok c').
Proof.
  intros c w Hr.
  destruct (rotate_90_rect c Hr) as (c1 & E1 & _), (rotate_180_rect c Hr) as (c2 & E2 & _),
    (rotate_270_rect c Hr) as (c3 & E3 & _), (expand_to_width_rect w c Hr) as (c4 & E4 & _).
  eauto 10.
Qed.

(** ** C37 Growing the canvas keeps the picture *)
Theorem C37_growing_height_keeps_the_picture : forall c W H p h, shows c W H p -> 0 <= h -> W * h <= u32_max ->
  exists c' q, expand_to_height h c = Ok c' /\ same_setup c c' /\ shows c' W (Z.max H h) q /\
    (forall X Y, 0 <= X < W -> 0 <= Y < H -> q X Y = p X Y) /\
    (forall X Y, 0 <= X < W -> H <= Y < h -> q X Y = cv_paper_color c).
Proof.
  intros c W H p h Hs Hh Hm. destruct (expand_to_height_shows c W H p h Hs Hh Hm) as (c' & E & S & SS).
  eexists c', _. split; [exact E|]. split; [exact SS|]. split; [exact S|]. cbn beta. split; intros X Y HX HY.
  - replace (Y <? H) with true by lia. reflexivity.
  - replace (Y <? H) with false by lia. reflexivity.
Qed.
(** Widening centres the picture: the left margin is half the added width, rounded down. *)
Theorem C37_growing_width_centres_the_picture : forall c W H p nw, shows c W H p -> W <= nw ->
  exists c' q, expand_to_width nw c = Ok c' /\ same_setup c c' /\ shows c' nw H q /\
    (forall X Y, 0 <= X < W -> 0 <= Y < H -> q ((nw - W) / 2 + X) Y = p X Y) /\
    (forall X Y, 0 <= X < nw -> 0 <= Y < H -> (X < (nw - W) / 2 \/ (nw - W) / 2 + W <= X) -> q X Y = cv_paper_color c).
Proof.
  intros c W H p nw Hs Hn. destruct (expand_to_width_shows c W H p nw Hs Hn) as (c' & E & S & SS).
  eexists c', _. split; [exact E|]. split; [exact SS|]. split; [exact S|]. cbn beta. cbv zeta.
  generalize ((nw - W) / 2) as l. intros l. split; intros X Y HX HY.
  - replace ((l <=? l + X) && (l + X <? l + W)) with true by lia. replace (l + X - l) with X by lia. reflexivity.
  - intros HO. replace ((l <=? X) && (X <? l + W)) with false by lia. reflexivity.
Qed.
Theorem C37_narrower_width_changes_nothing : forall c nw, nw < cv_width c -> expand_to_width nw c = Ok c.
Proof. intros c nw H. unfold expand_to_width. replace (nw <? cv_width c) with true by lia. reflexivity. Qed.
Theorem C37_top_margin_shifts_the_picture : forall c W H p h, shows c W H p -> 0 <= h -> W * h <= u32_max ->
  exists c' q, add_top_margin h c = Ok c' /\ same_setup c c' /\ shows c' W (h + H) q /\
    (forall X Y, 0 <= X < W -> 0 <= Y < H -> q X (h + Y) = p X Y) /\
    (forall X Y, 0 <= X < W -> 0 <= Y < h -> q X Y = cv_paper_color c).
Proof.
  intros c W H p h Hs Hh Hm. destruct (add_top_margin_shows c W H p h Hs Hh Hm) as (c' & E & S & SS).
  eexists c', _. split; [exact E|]. split; [exact SS|]. split; [exact S|]. cbn beta. split; intros X Y HX HY.
  - replace (h + Y <? h) with false by lia. f_equal; lia.
  - replace (Y <? h) with true by lia. reflexivity.
Qed.

(** ** The hypotheses are met *)
Definition ex_canvas : canvas :=
  mk_canvas (map (fun k => mk_rgba k 0 0 255) (zrange 6)) 3 true (mk_rgba 255 255 255 255) [].
Example ex_canvas_shows : shows ex_canvas 3 2 (fun X Y => mk_rgba (Y * 3 + X) 0 0 255).
Proof.
  split; [lia|]. split; [lia|]. split; [reflexivity|]. split; [reflexivity|].
  intros X Y HX HY. assert (HX' : X = 0 \/ X = 1 \/ X = 2) by lia. assert (HY' : Y = 0 \/ Y = 1) by lia.
  destruct HX' as [->|[->| ->]], HY' as [->| ->]; reflexivity.
Qed.
Example ex_canvas_non_empty : non_empty ex_canvas.
Proof. eexists 3, 2, _. split; [lia|exact ex_canvas_shows]. Qed.
Example ex_canvas_opaque : opaque_picture 3 2 (fun X Y => mk_rgba (Y * 3 + X) 0 0 255).
Proof. intros X Y HX HY. cbn. unfold channels_ok. cbn. lia. Qed.
Example ex_fits : fits 1 1 4 3 3 2.
Proof. unfold fits, u32_max. lia. Qed.
(** a block hanging over the right and the bottom edge *)
Example ex_put : exists c', put_pixels 1 1 4 3 (repeat (mk_rgba 0 0 0 255) 12) true ex_canvas = Ok c' /\
  get_canvas_height c' = 4 /\ cv_width c' = 3 /\ at_ rgba_blank (cv_bytes c') 3 = mk_rgba 3 0 0 255 /\
  at_ rgba_blank (cv_bytes c') 4 = mk_rgba 0 0 0 255.
Proof. eexists. split; [vm_compute; reflexivity|]. vm_compute. repeat split. Qed.
Example ex_page_case : exists c W H p, shows c W H p /\ cv_auto_grow c = false /\ (W < 1 + 4 \/ H < 1 + 4 \/ 1 + 3 <= H).
Proof.
  exists (set_cv_auto_grow false ex_canvas), 3, 2, (fun X Y => mk_rgba (Y * 3 + X) 0 0 255).
  split; [exact ex_canvas_shows|]. split; [reflexivity|lia].
Qed.
Example ex_ops : exists c, run_ops [OpRect 0 0 5 5 (mk_rgba 0 0 0 255) true; OpTurn90; OpPut 2 2 1 1 [mk_rgba 9 9 9 9] false; OpWidth 12] (canvas_new 4) = Ok c
  /\ cv_width c = 12 /\ get_canvas_height c = 4.
Proof. eexists. split; [vm_compute; reflexivity|]. vm_compute. repeat split. Qed.

Print Assumptions C34_paper_painting.
Print Assumptions page_painting_cut.
Print Assumptions C38_page_does_not_grow_refuted.
Print Assumptions C34_nothing_else_changes.
Print Assumptions C34_refused_painting.
Print Assumptions C34_white_and_transparent_do_not_cover.
Print Assumptions C34_black_covers.
Print Assumptions C34_upside_down_mirrors.
Print Assumptions C35_rotation_moves_pixels.
Print Assumptions C35_four_quarter_turns.
Print Assumptions C35_half_turn_is_two_quarters.
Print Assumptions C35_three_quarters_undo_one.
Print Assumptions C35_empty_page_forgets_its_width.
Print Assumptions C36_pixels_fill_the_rectangle.
Print Assumptions C36_rgb_export.
Print Assumptions C36_turning_and_widening_never_fail.
Print Assumptions C37_growing_height_keeps_the_picture.
Print Assumptions C37_growing_width_centres_the_picture.
Print Assumptions C37_narrower_width_changes_nothing.
Print Assumptions C37_top_margin_shifts_the_picture.
