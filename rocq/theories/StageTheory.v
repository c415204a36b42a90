(** * StageTheory: strokes on the page and the page of SpecStage are the same. *)
From Verif Require Import Base Vec Float32 GTypes Graphics Context Text Renderer ContextTheory RendererTheory Origin SpecPrinter StateTheory AreaTheory CallsTheory
  SpecRender ThermalImage SpecCanvas CanvasTheory CanvasRect ImageRenderer SpecImage ImageTheory SpecDraw DrawTheory PropsLines PropsCells InkTheory HueTheory SpecScene GlyphTheory PixelTheory GraphicsTheory
  SceneTheory SpecDesk DeskTheory SpecPrintout SpecStage.
Local Open Scope Z_scope.
Local Open Scope list_scope.
Local Arguments at_ : simpl never.
Local Arguments vlen : simpl never.

(** the same page, with nothing but opaque dots *)
Record alike (l m : leaf) : Prop := mk_alike { al_w : lf_w l = lf_w m; al_h : lf_h l = lf_h m; al_pic : same (lf_pic l) (lf_pic m); al_fair : fair (lf_pic m) }.
Lemma white_fair : opaque paper_white.
Proof. split; [unfold bytes3; cbn; lia | reflexivity]. Qed.
Lemma alike_blank : alike blank_leaf blank_leaf.
Proof. constructor; try reflexivity; intros X Y; [reflexivity | exact white_fair]. Qed.
Lemma alike_turn r l m : alike l m -> alike (turn_leaf r l) (turn_leaf r m).
Proof.
  intros [W H P F]. destruct r; cbn [turn_leaf]; cbv zeta; rewrite ?W, ?H.
  - constructor; assumption.
  - destruct (lf_h m =? 0); [exact alike_blank|]. constructor; cbn [lf_w lf_h lf_pic]; try reflexivity; intros X Y; [apply P | apply F].
  - constructor; cbn [lf_w lf_h lf_pic]; try reflexivity; intros X Y; [apply P | apply F].
  - destruct (lf_h m =? 0); [exact alike_blank|]. constructor; cbn [lf_w lf_h lf_pic]; try reflexivity; intros X Y; [apply P | apply F].
Qed.
Lemma alike_enlarge w h l m : alike l m -> alike (enlarge_leaf w h l) (enlarge_leaf w h m).
Proof.
  intros [W H P F]. unfold enlarge_leaf. rewrite W, H. constructor; cbn [lf_w lf_h lf_pic]; try reflexivity; intros X Y.
  - destruct (covers _ _ _ _ X Y); [apply P | reflexivity].
  - destruct (covers _ _ _ _ X Y); [apply F | exact white_fair].
Qed.
Lemma alike_lengthen h l m : alike l m -> alike (lengthen h l) (lengthen h m).
Proof.
  intros [W H P F]. unfold lengthen. rewrite W. destruct (lf_w m =? 0); [constructor; assumption|]. rewrite H.
  constructor; cbn [lf_w lf_h lf_pic]; try reflexivity; intros X Y; (destruct (Y <? lf_h m); [|exact white_fair || reflexivity]); [apply P | apply F].
Qed.

(** [l]: strokes; [g]: what they look like on a page *)
Definition leaf_like (l : list stroke) (g : leaf -> leaf) : Prop := forall p q, alike p q -> alike (draw_all l p) (g q).
Lemma leaf_like_id : leaf_like [] (fun p => p).
Proof. intros p q A. exact A. Qed.
Lemma leaf_like_app a b f g : leaf_like a f -> leaf_like b g -> leaf_like (a ++ b) (fun p => g (f p)).
Proof. intros A B p q L. unfold draw_all. rewrite fold_left_app. exact (B _ _ (A _ _ L)). Qed.
Lemma leaf_like_fold {A} (f : A -> list stroke) (g : A -> leaf -> leaf) l : Forall (fun a => leaf_like (f a) (g a)) l ->
  leaf_like (flat_map f l) (fun p => fold_left (fun p a => g a p) l p).
Proof.
  induction l as [|a l IH]; intros F; [apply leaf_like_id|]. apply Forall_cons_iff in F. destruct F as (F1 & F2).
  cbn [flat_map fold_left]. exact (leaf_like_app _ _ _ _ F1 (IH F2)).
Qed.
Lemma leaf_like_if (b : bool) l g : leaf_like l g -> leaf_like (if b then l else []) (fun p => if b then g p else p).
Proof. intros L. destruct b; [exact L | apply leaf_like_id]. Qed.
Lemma paint_leaf x y w h px ink :
  (forall i j, 0 <= i < w -> 0 <= j < h -> block px w i j = ink i j) ->
  (forall i j, 0 <= i < w -> 0 <= j < h -> printable (ink i j)) -> leaf_like [Paint x y w h px] (press_leaf x y w h ink).
Proof.
  intros E P p q A. cbn [draw_all fold_left draw_leaf]. unfold press_leaf. destruct A as [W H S F]. rewrite W, H.
  destruct ((x <? lf_w q) && (y <? lf_h q)); [|constructor; assumption].
  assert (R : rows_drawn p x y w h = rows_drawn q x y w h) by (unfold rows_drawn; rewrite W, H; reflexivity). rewrite R.
  set (n := rows_drawn q x y w h). assert (Hn : n <= h) by (unfold n, rows_drawn; destruct (_ || _); lia). clearbody n.
  destruct (alike_lengthen (y + n) p q (mk_alike _ _ W H S F)) as [W1 H1 S1 F1].
  constructor; cbn [lf_w lf_h lf_pic]; [exact W1 | exact H1 | |]; intros X Y; (destruct (covers x y w n X Y) eqn:C; [|apply S1 || apply F1]); unfold covers in C.
  - rewrite S1, E by lia. apply press_printable; [exact (proj1 (F1 X Y)) | apply P; lia].
  - apply press_stays; [apply F1 | apply P; lia].
Qed.
Lemma mirror_leaf x y w h : leaf_like [Mirror x y w h] (upside_down_leaf x y w h).
Proof.
  intros p q A. cbn [draw_all fold_left draw_leaf]. unfold upside_down_leaf. rewrite (al_w _ _ A). destruct (x + w <=? lf_w q); [|exact A].
  destruct (alike_lengthen (y + h) p q A) as [W1 H1 S1 F1]. constructor; cbn [lf_w lf_h lf_pic]; [exact W1 | exact H1 | |]; intros X Y; destruct (covers x y w h X Y); try apply S1; try apply F1.
  rewrite !S1. apply blend_with_opaque, F1.
Qed.
Lemma rule_leaf x y w h col : (0 < w -> opaque col) -> leaf_like [line_of x y w h col] (press_leaf x y w h (fun _ _ => col)).
Proof.
  intros O. unfold line_of. apply paint_leaf.
  - intros i j Hi Hj. apply block_repeat; assumption.
  - intros i j Hi Hj. apply opaque_printable, O. lia.
Qed.
Lemma picture_leaf x y w h px : Forall printable px -> leaf_like [Paint x y w h px] (press_leaf x y w h (block px w)).
Proof.
  intros P. apply paint_leaf; [reflexivity|]. intros i j Hi Hj. unfold block, at_.
  destruct (nth_in_or_default (Z.to_nat (j * w + i)) px rgba_blank) as [I | ->]; [|apply blank_printable].
  exact (proj1 (Forall_forall _ _) P _ I).
Qed.

(** ** Letters *)
Definition one_leaf (fo : fonts) (w : text_span) (ch x y : Z) (l : leaf) : leaf :=
  match fo (s_bold w) (s_italic w) (s_font w) (drawn_at w) ch with
  | Some g => press_leaf x y (s_character_width w) (s_character_height w) (dot w g) l
  | None => l
  end.
Lemma one_leaf_like fo w ch x y : fonts_fine fo -> span_wf w -> opaque (s_background_color w) -> bytes3 (s_text_color w) ->
  leaf_like (match render_char fo w ch with Ok (Some (px, a, b)) => [Paint x y a b px] | _ => [] end) (one_leaf fo w ch x y).
Proof.
  intros FF Wf OB BC. pose proof (char_dots fo w ch FF Wf OB BC) as D. unfold one_leaf.
  destruct (fo (s_bold w) (s_italic w) (s_font w) (drawn_at w) ch) as [g|] eqn:G.
  - destruct D as (px & -> & D). apply paint_leaf; [exact D|].
    intros i j Hi Hj. apply opaque_printable. unfold dot. apply fade_opaque; [exact OB | exact BC|]. exact (coverage_byte _ _ _ _ _ _ _ _ _ FF G).
  - rewrite D. exact leaf_like_id.
Qed.
Lemma zrange_next n : 0 <= n -> zrange (1 + n) = 0 :: map (fun k => k + 1) (zrange n).
Proof.
  intros N. unfold zrange. replace (Z.to_nat (1 + n)) with (S (Z.to_nat n)) by lia. cbn [seq map]. f_equal.
  rewrite <- seq_shift, !map_map. apply map_ext. intros a. lia.
Qed.
Fixpoint row_leaf (fo : fonts) (w : text_span) (chars : ustring) (x y : Z) (l : leaf) : leaf :=
  match chars with [] => l | ch :: r => row_leaf fo w r (x + s_character_width w) y (one_leaf fo w ch x y l) end.
Lemma row_leaf_like fo w y : fonts_fine fo -> span_wf w -> opaque (s_background_color w) -> bytes3 (s_text_color w) ->
  forall chars x, leaf_like (cells fo w x y chars) (row_leaf fo w chars x y).
Proof.
  intros FF Wf OB BC. induction chars as [|ch r IH]; intros x; cbn [cells row_leaf]; [exact leaf_like_id|].
  exact (leaf_like_app _ _ _ _ (one_leaf_like fo w ch x y FF Wf OB BC) (IH (x + s_character_width w))).
Qed.
Lemma fold_map {A B C} (f : C -> B -> C) (g : A -> B) l : forall c, fold_left f (map g l) c = fold_left (fun c a => f c (g a)) l c.
Proof. induction l as [|a l IH]; intros c; [reflexivity|]. cbn [map fold_left]. apply IH. Qed.
Lemma fold_ext_in {A C} (f g : C -> A -> C) l : (forall a c, In a l -> f c a = g c a) -> forall c, fold_left f l c = fold_left g l c.
Proof.
  induction l as [|a l IH]; intros E c; [reflexivity|]. cbn [fold_left]. rewrite (E a c (or_introl eq_refl)). apply IH. intros b d I. apply E. right. exact I.
Qed.
Lemma row_leaf_fold fo w y : forall chars x l,
  row_leaf fo w chars x y l = fold_left (fun l k => one_leaf fo w (at_ 0 chars k) (x + k * s_character_width w) y l) (zrange (vlen chars)) l.
Proof.
  induction chars as [|ch r IH]; intros x l; [reflexivity|]. cbn [row_leaf]. rewrite IH, (vlen_cons ch r), zrange_next by apply vlen_nonneg.
  cbn [fold_left]. rewrite fold_map. replace (x + 0 * s_character_width w) with x by lia. change (at_ 0 (ch :: r) 0) with ch.
  apply fold_ext_in. intros k c I. apply in_zrange in I. rewrite at_next by lia. f_equal. lia.
Qed.
Lemma letters_leaf fo w x y : fonts_fine fo -> span_wf w -> coloured w ->
  leaf_like (cells fo w x y (s_text w)) (fun l => fold_left (fun l k => letter_leaf fo w x y k l) (zrange (vlen (s_text w))) l).
Proof.
  intros FF Wf C p q A. change (fun l k => letter_leaf fo w x y k l) with (fun l k => one_leaf fo w (at_ 0 (s_text w) k) (x + k * s_character_width w) y l).
  rewrite <- row_leaf_fold. revert p q A. destruct (s_text w) as [|ch r] eqn:T; [exact leaf_like_id|].
  rewrite <- T. assert (N : s_text w <> []) by congruence. destruct (C N) as (C1 & C2). apply colours_opaque in C1, C2.
  exact (row_leaf_like fo w y FF Wf C2 (proj1 C1) (s_text w) x).
Qed.
Lemma word_leaf_like fo off mh w : fonts_fine fo -> span_wf w -> coloured w -> In mh sizes -> s_character_height w <= mh ->
  leaf_like (span_strokes fo off mh w) (word_leaf fo off mh w).
Proof.
  intros FF Wf C IH LE. unfold span_strokes, word_leaf. pose proof (sw_dims _ Wf) as D. destruct (s_dimensions w) as [d|]; [|apply leaf_like_id].
  destruct D as (_ & _ & DW & _ & DH). rewrite (lowered_exact _ _ IH Wf LE). rewrite (depth_exact _ _ (size_in _ Wf)), (middle_exact _ (size_in _ Wf)). cbv zeta.
  set (x := d_x d + off). set (y := d_y d + _). set (de := _ * base_line (s_font w) / 1000000). set (mi := _ * 2 / 5).
  assert (O : 0 < d_w d -> opaque (s_text_color w)).
  { intros P. apply colours_opaque. apply C. intros T. rewrite T in DW. change (vlen []) with 0 in DW. lia. }
  pose proof (leaf_like_if (s_upside_down w) _ _ (mirror_leaf x y (d_w d) (d_h d))) as L4.
  pose proof (leaf_like_if (0 <? s_strikethrough w) _ _ (rule_leaf x (y + mi) (d_w d) (s_strikethrough w) (s_text_color w) O)) as L3.
  pose proof (leaf_like_if (0 <? s_underline w) _ _ (rule_leaf x (y + 3 + de) (d_w d) 1 (s_text_color w) O)) as L2.
  exact (leaf_like_app _ _ _ _ (letters_leaf fo w x y FF Wf C) (leaf_like_app _ _ _ _ L2 (leaf_like_app _ _ _ _ L3 L4))).
Qed.
Lemma sketch_leaf_like fo call : fonts_fine fo -> ready call -> leaf_like (marks fo call) (sketch_leaf fo call).
Proof.
  destruct call as [x ev]. intros FF (R & T). unfold marks, sketch_leaf. cbn [fst snd] in *.
  destruct ev; try apply leaf_like_id.
  - assert (E : forall l, map (fun r => line_of (r_x r) (r_y r) (r_w r) (r_h r) (t_color (c_text x))) l = flat_map (fun r => [line_of (r_x r) (r_y r) (r_w r) (r_h r) (t_color (c_text x))]) l)
      by (induction l as [|r l IH]; [reflexivity | cbn [map flat_map app]; rewrite IH; reflexivity]).
    rewrite E. apply (leaf_like_fold _ (fun r => press_leaf (r_x r) (r_y r) (r_w r) (r_h r) (fun _ _ => t_color (c_text x)))). apply Forall_forall. intros r _. apply rule_leaf. intros _. exact (colours_opaque _ R).
  - exact (leaf_like_app [_] _ _ _ (picture_leaf (i_x i) (i_y i) (i_w i) (i_h i) _ R) (leaf_like_if (i_upside_down i) _ _ (mirror_leaf (i_x i) (i_y i) (i_w i) (i_h i)))).
  - destruct T as (IH & T). apply (leaf_like_fold _ (fun w => word_leaf fo x_offset max_height w)).
    apply Forall_forall. intros w Hw. destruct (proj1 (Forall_forall _ _) T _ Hw) as (A & B & C). apply word_leaf_like; assumption.
Qed.

(** ** The sheet and the page *)
Record staged (d : desk) (s : stage) : Prop := mk_staged { st_same : same (dk_pic d) (sg_sheet s); st_fair : fair (sg_sheet s); st_leaf : alike (dk_leaf d) (sg_leaf s) }.
Lemma sheet_call fo x ev d s : fonts_fine fo -> ready (x, ev) -> p_enabled (c_page x) = false -> same (dk_pic d) s -> fair s ->
  same (drawing 609 (marks fo (x, ev)) (dk_pic d)) (sketch fo 609 (x, ev) s) /\ fair (sketch fo 609 (x, ev) s).
Proof.
  intros FF R P S F. pose proof (sketch_like 609 fo (x, ev) FF R) as L. assert (E : strokes fo (x, ev) = marks fo (x, ev)).
  { unfold strokes, marks. cbn [fst snd]. rewrite P. reflexivity. }
  rewrite E in L. exact (L _ _ S F).
Qed.
Lemma stage_event fo x ev d s : fonts_fine fo -> ready (x, ev) -> staged d s -> staged (desk_call fo 609 (x, ev) d) (stage_call fo (x, ev) s).
Proof.
  intros FF R [S F A].
  assert (G : staged (if p_enabled (c_page x) then on_leaf (fun l => fold_left (fun l s => draw_leaf s l) (marks fo (x, ev)) l) d
       else mk_desk (drawing 609 (marks fo (x, ev)) (dk_pic d)) (bottoms 609 (marks fo (x, ev)) (dk_low d)) (dk_leaf d))
     (if p_enabled (c_page x) then mk_stage (sg_sheet s) (sketch_leaf fo (x, ev) (sg_leaf s)) else mk_stage (sketch fo 609 (x, ev) (sg_sheet s)) (sg_leaf s))).
  { destruct (p_enabled (c_page x)) eqn:P.
    - constructor; cbn [on_leaf dk_pic dk_leaf sg_sheet sg_leaf]; [exact S | exact F | exact (sketch_leaf_like fo (x, ev) FF R _ _ A)].
    - destruct (sheet_call fo x ev d _ FF R P S F) as (S1 & F1). constructor; cbn [dk_pic dk_leaf sg_sheet sg_leaf]; assumption. }
  destruct ev; try exact G.
  - constructor; cbn [desk_call stage_call fst snd on_leaf dk_pic dk_leaf sg_sheet sg_leaf]; [exact S | exact F | exact alike_blank].
  - constructor; cbn [desk_call stage_call fst snd on_leaf dk_pic dk_leaf sg_sheet sg_leaf]; [exact S | exact F | exact (alike_enlarge _ _ _ _ (alike_turn _ _ _ A))].
  - pose proof (alike_turn (calculate_directional_rotation (p_direction (c_page x)) TopLeft2Right) _ _ A) as Au. fold (upright x (dk_leaf d)) in Au. fold (upright x (sg_leaf s)) in Au.
    cbn [desk_call stage_call fst snd]. cbv zeta. constructor; cbn [on_leaf stamp dk_pic dk_leaf sg_sheet sg_leaf].
    + intros X Y. unfold paste. destruct Au as [W H Sp Fp]. rewrite W, H. destruct (covers _ _ _ _ X Y); [|apply S]. rewrite Sp. apply blend_with_opaque, Fp.
    + intros X Y. unfold paste. destruct (covers _ _ _ _ X Y); [apply (al_fair _ _ Au) | apply F].
    + exact (alike_turn _ _ _ Au).
Qed.
Lemma stage_run fo l : fonts_fine fo -> Forall ready l -> forall d s, staged d s -> staged (desk_calls fo 609 l d) (fold_left (fun s c => stage_call fo c s) l s).
Proof.
  intros FF. induction l as [|[x ev] l IH]; intros R d s S; [exact S|]. apply Forall_cons_iff in R. destruct R as (R1 & R2).
  cbn [desk_calls fold_left]. apply IH; [exact R2 | exact (stage_event fo x ev d s FF R1 S)].
Qed.
Lemma staged_empty : staged empty_desk (mk_stage (fun _ _ => paper_white) blank_leaf).
Proof. constructor; cbn [empty_desk dk_pic dk_leaf sg_sheet sg_leaf]; [apply same_refl | intros X Y; exact white_fair | exact alike_blank]. Qed.
