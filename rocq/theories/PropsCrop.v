(** * PropsCrop: C38, painting on a page, exactly. *)
From Verif Require Import Base Vec Float32 GTypes Graphics GraphicsTheory2 ThermalImage SpecCanvas CanvasTheory CanvasRect PropsCanvas.
Local Open Scope Z_scope.
Local Open Scope list_scope.
Local Arguments at_ : simpl never.
Local Arguments vlen : simpl never.

(** The page notices that a block sticks out if it sticks out on the right, or if a square as wide as the block
    would stick out below. *)
Definition noticed (x y w W H : Z) : Prop := W < x + w \/ H < y + w.

(** Painting any block on a page.  The width stays, the block is cut off at the right edge.  If the page notices that
    it sticks out, or it does not stick out below, the page keeps its height and the block is cut off at the
    bottom; otherwise the page becomes longer, exactly enough to hold the block, and nothing is cut off
    there.  In both cases the pixels of the block that are on the page are mixed with what was there (paper
    colour, in new rows), and all others keep their colour (new rows: paper colour). *)
Theorem C38_page_painting : forall c W H p x y w h pixels multiply,
  shows c W H p -> cv_auto_grow c = false -> 0 <= x < W -> 0 <= y < H -> 0 <= w -> 0 <= h -> vlen pixels = w * h ->
  x + w <= u32_max -> y + w <= u32_max -> y + h <= u32_max -> w * h <= u32_max -> W * Z.max H (y + h) <= u32_max ->
  exists c' H' q, put_pixels x y w h pixels multiply c = Ok c' /\ same_setup c c' /\ shows c' W H' q /\
    (noticed x y w W H \/ y + h <= H -> H' = H) /\ (~ noticed x y w W H -> H < y + h -> H' = y + h) /\
    (forall X Y, 0 <= X < W -> 0 <= Y < H' ->
      let old := if Y <? H then p X Y else cv_paper_color c in
      (inside x y w h W X Y -> q X Y = mix multiply old (block pixels w (X - x) (Y - y))) /\
      (outside x y w h W X Y -> q X Y = old)).
Proof.
  intros c W H p x y w h pixels multiply Hs Hag Hx Hy Hw Hh Lp F1 F2 F3 F4 F5.
  destruct (put_pixels_shows c W H p x y w h pixels multiply Hs Hx ltac:(lia) Hw Hh Lp ltac:(lia) F1 (fun _ => F2) F3 F4 F5)
    as (c' & E & SS & S). rewrite Hag in S.
  remember (if (W <? x + w) || (H <? y + w) then Z.min h (H - y) else h) as fh eqn:Efh.
  assert (Hn : noticed x y w W H -> fh = Z.min h (H - y)).
  { unfold noticed. intros N. rewrite Efh. destruct ((W <? x + w) || (H <? y + w)) eqn:B; lia. }
  assert (Hu : ~ noticed x y w W H -> fh = h).
  { unfold noticed. intros N. rewrite Efh. destruct ((W <? x + w) || (H <? y + w)) eqn:B; lia. }
  assert (D : noticed x y w W H \/ ~ noticed x y w W H) by (unfold noticed; lia).
  assert (Hf : fh = h \/ fh = Z.min h (H - y)) by (rewrite Efh; destruct ((W <? x + w) || (H <? y + w)); auto).
  clear Efh. eexists c', _, _. split; [exact E|]. split; [exact SS|]. split; [exact S|].
  split; [intros [N|N]; [rewrite (Hn N) | idtac]; lia|]. split; [intros N G; rewrite (Hu N); lia|].
  unfold block, grown, mix. intros X Y HX HY. cbv zeta. cbn beta.
  assert (EB : (x <=? X) && (X <? x + Z.min w (W - x)) && (y <=? Y) && (Y <? y + fh) =
               (x <=? X) && (X <? x + Z.min w (W - x)) && (y <=? Y) && (Y <? y + h)) by lia.
  rewrite EB. split; intros HI.
  - apply (inside_bool x y w h W X Y ltac:(lia) ltac:(lia)) in HI. rewrite HI. destruct multiply; reflexivity.
  - destruct ((x <=? X) && (X <? x + Z.min w (W - x)) && (y <=? Y) && (Y <? y + h)) eqn:B; [|reflexivity].
    exfalso. apply HI. apply inside_bool; [lia|lia|exact B].
Qed.
(** A block of 3 x 2 at the corner 8, 1 of a page of 10 x 2 sticks out on the right and below, and is noticed; one of 1 x 4 at 3, 1 is not. *)
Example C38_demo : noticed 8 1 3 10 2 /\ ~ noticed 3 1 1 10 2 /\ 2 < 1 + 4.
Proof. unfold noticed. lia. Qed.
