(** * DeskTheory: the image renderer's page canvas as a page with strokes on it. *)
From Verif Require Import Base Vec Float32 GTypes Graphics Context Text Handlers Renderer RendererTheory Origin SpecPrinter StateTheory AreaTheory
  ThermalImage SpecCanvas CanvasTheory CanvasRect ImageRenderer SpecImage CallsTheory ImageTheory SpecDesk.
Local Open Scope Z_scope.
Local Open Scope list_scope.
Local Arguments at_ : simpl never.
Local Arguments vlen : simpl never.

(** ** A canvas that is the page *)
Record leaf_ok (c : canvas) (l : leaf) : Prop := mk_leaf_ok {
  lk_grow : cv_auto_grow c = false;
  lk_color : cv_paper_color c = paper_white;
  lk_width : cv_width c = lf_w l;
  lk_w : 0 <= lf_w l;
  lk_h : 0 <= lf_h l;
  lk_len : vlen (cv_bytes c) = lf_w l * lf_h l;
  lk_void : lf_w l = 0 -> lf_h l = 0;
  lk_pic : forall X Y, 0 <= X < lf_w l -> 0 <= Y < lf_h l -> at_ rgba_blank (cv_bytes c) (Y * lf_w l + X) = lf_pic l X Y }.

Lemma leaf_shows c l : leaf_ok c l -> 0 < lf_w l -> shows c (lf_w l) (lf_h l) (lf_pic l).
Proof. intros [A B C D E F G P] W. exact (conj W (conj E (conj C (conj F P)))). Qed.
Lemma leaf_height c l : leaf_ok c l -> get_canvas_height c = lf_h l.
Proof.
  intros L. destruct (Z.eq_dec (lf_w l) 0) as [Z0|N].
  - unfold get_canvas_height. rewrite (lk_width _ _ L), Z0. cbn. symmetry. exact (lk_void _ _ L Z0).
  - pose proof (lk_w _ _ L). exact (shows_height _ _ _ _ (leaf_shows _ _ L ltac:(lia))).
Qed.
Lemma shows_leaf c w h p q : shows c w h p -> cv_auto_grow c = false -> cv_paper_color c = paper_white ->
  (forall X Y, 0 <= X < w -> 0 <= Y < h -> p X Y = q X Y) -> leaf_ok c (mk_leaf w h q).
Proof.
  intros (W & H & E & L & P) G C Q. constructor; cbn [lf_w lf_h lf_pic]; try assumption; try lia.
  intros X Y HX HY. rewrite P by assumption. apply Q; assumption.
Qed.
Lemma leaf_ext c w h p q : leaf_ok c (mk_leaf w h p) -> (forall X Y, 0 <= X < w -> 0 <= Y < h -> p X Y = q X Y) -> leaf_ok c (mk_leaf w h q).
Proof.
  intros [A B C D E F G P] Q. constructor; cbn [lf_w lf_h lf_pic] in *; try assumption.
  intros X Y HX HY. rewrite P by assumption. apply Q; assumption.
Qed.
Lemma void_leaf c q : cv_auto_grow c = false -> cv_paper_color c = paper_white -> cv_width c = 0 -> cv_bytes c = [] -> leaf_ok c (mk_leaf 0 0 q).
Proof.
  intros G C W B. constructor; cbn [lf_w lf_h lf_pic]; try assumption; try lia. rewrite B. reflexivity.
Qed.
Lemma leaf_same c c' l : leaf_ok c l -> cv_auto_grow c' = cv_auto_grow c -> cv_paper_color c' = cv_paper_color c -> cv_width c' = cv_width c ->
  cv_bytes c' = cv_bytes c -> leaf_ok c' l.
Proof. intros [A B C D E F G P] E1 E2 E3 E4. constructor; try congruence; try assumption. rewrite E4. exact P. Qed.
Lemma void_bytes c l : leaf_ok c l -> lf_w l = 0 \/ lf_h l = 0 -> cv_bytes c = [].
Proof. intros L Z0. apply vlen_zero. rewrite (lk_len _ _ L). destruct Z0 as [-> | ->]; lia. Qed.

(** ** Turning and enlarging *)
Lemma rotate_leaf r c c' l : leaf_ok c l -> rotate r c = Ok c' -> leaf_ok c' (turn_leaf r l).
Proof.
  intros L E. pose proof (leaf_height _ _ L) as EH. pose proof (lk_w _ _ L) as W0. pose proof (lk_h _ _ L) as H0.
  pose proof (lk_width _ _ L) as EW. pose proof (lk_grow _ _ L) as G. pose proof (lk_color _ _ L) as Pc.
  destruct (Z.eq_dec (lf_h l) 0) as [Z0|N].
  - pose proof (void_bytes _ _ L (or_intror Z0)) as EB.
    assert (A : forall f : Z -> list rgba -> res (list rgba), for_range 0 f (repeat rgba_blank (Z.to_nat (lf_w l * 0))) = Ok []).
    { intros f. rewrite for_range_neg by lia. rewrite Z.mul_0_r. reflexivity. }
    destruct r; cbn [rotate turn_leaf] in *; cbv zeta.
    + injection E as <-. exact L.
    + unfold rotate_90 in E. rewrite EH, EW, Z0, A in E. cbn [bind] in E. injection E as <-. rewrite Z0. cbn [Z.eqb]. apply void_leaf; assumption || reflexivity.
    + unfold rotate_180 in E. rewrite EH, EW, Z0, A in E. cbn [bind] in E. injection E as <-.
      constructor; cbn [lf_w lf_h lf_pic set_cv_bytes cv_auto_grow cv_paper_color cv_width cv_bytes]; try assumption; try lia.
      rewrite Z0, Z.mul_0_r. reflexivity.
    + unfold rotate_270 in E. rewrite EH, EW, Z0, A in E. cbn [bind] in E. injection E as <-. rewrite Z0. cbn [Z.eqb]. apply void_leaf; assumption || reflexivity.
  - assert (W1 : 0 < lf_w l) by (pose proof (lk_void _ _ L); lia). pose proof (leaf_shows _ _ L W1) as S.
    destruct r; cbn [rotate turn_leaf] in *; cbv zeta.
    + injection E as <-. exact L.
    + destruct (rotate_90_shows c (lf_w l) (lf_h l) (lf_pic l) ltac:(lia) S) as (c1 & E1 & S1 & (A1 & A2 & _)). rewrite E in E1. injection E1 as <-.
      replace (lf_h l =? 0) with false by lia. refine (shows_leaf _ _ _ _ _ S1 _ _ _); try congruence; reflexivity.
    + destruct (rotate_180_shows _ _ _ _ S) as (c1 & E1 & S1 & (A1 & A2 & _)). rewrite E in E1. injection E1 as <-.
      refine (shows_leaf _ _ _ _ _ S1 _ _ _); try congruence; reflexivity.
    + destruct (rotate_270_shows c (lf_w l) (lf_h l) (lf_pic l) ltac:(lia) S) as (c1 & E1 & S1 & (A1 & A2 & _)). rewrite E in E1. injection E1 as <-.
      replace (lf_h l =? 0) with false by lia. refine (shows_leaf _ _ _ _ _ S1 _ _ _); try congruence; reflexivity.
Qed.
Lemma lengthen_leaf h c c' l : leaf_ok c l -> 0 <= h -> expand_to_height h c = Ok c' -> leaf_ok c' (lengthen h l) /\ same_setup c c'.
Proof.
  intros L Hh E. pose proof E as E'. unfold expand_to_height in E'. apply bind_inv in E'. destruct E' as (len & Hl & E').
  destruct (CanvasTheory.chk_inv _ _ _ _ Hl) as (-> & R). rewrite (lk_width _ _ L) in R, E'. pose proof (lk_w _ _ L) as W0. unfold lengthen.
  destruct (lf_w l =? 0) eqn:Z0.
  - apply Z.eqb_eq in Z0. rewrite Z0 in E'. rewrite Z.mul_0_l in E'. replace (0 <=? vlen (cv_bytes c)) with true in E' by (pose proof (vlen_nonneg (cv_bytes c)); lia).
    injection E' as <-. split; [exact L | repeat split].
  - destruct (expand_to_height_shows _ _ _ _ h (leaf_shows _ _ L ltac:(lia)) Hh ltac:(lia)) as (c1 & E1 & S1 & SS). rewrite E in E1. injection E1 as <-.
    split; [|exact SS]. destruct SS as (A1 & A2 & _). refine (shows_leaf _ _ _ _ _ S1 _ _ _); [rewrite A1; exact (lk_grow _ _ L) | rewrite A2; exact (lk_color _ _ L)|].
    intros X Y _ _. rewrite (lk_color _ _ L). reflexivity.
Qed.
Lemma widen_leaf w c c' l : leaf_ok c l -> lf_w l < w -> expand_to_width w c = Ok c' ->
  leaf_ok c' (mk_leaf w (lf_h l) (fun X Y => if ((w - lf_w l) / 2 <=? X) && (X <? (w - lf_w l) / 2 + lf_w l) then lf_pic l (X - (w - lf_w l) / 2) Y else paper_white)).
Proof.
  intros L Hw E. destruct (Z.eq_dec (lf_w l) 0) as [Z0|N].
  - pose proof (lk_void _ _ L Z0) as H0. pose proof (void_bytes _ _ L (or_introl Z0)) as EB.
    unfold expand_to_width in E. rewrite (leaf_height _ _ L), (lk_width _ _ L), H0 in E. replace (w <? lf_w l) with false in E by lia. cbv zeta in E.
    rewrite EB in E. change (0 * w <? vlen (A := rgba) []) with false in E. cbv iota in E.
    rewrite for_range_neg in E by lia. cbn [bind] in E. injection E as <-.
    constructor; cbn [lf_w lf_h lf_pic set_cv_bytes set_cv_width cv_auto_grow cv_paper_color cv_width cv_bytes]; try lia; try apply L; try reflexivity.
    rewrite H0, Z.mul_0_r. reflexivity.
  - pose proof (lk_w _ _ L). destruct (expand_to_width_shows _ _ _ _ w (leaf_shows _ _ L ltac:(lia)) ltac:(lia)) as (c1 & E1 & S1 & (A1 & A2 & _)).
    rewrite E in E1. injection E1 as <-.
    refine (shows_leaf _ _ _ _ _ S1 _ _ _); [rewrite A1; exact (lk_grow _ _ L) | rewrite A2; exact (lk_color _ _ L)|].
    intros X Y _ _. cbv zeta. rewrite (lk_color _ _ L). reflexivity.
Qed.
Lemma area_leaf r w h c c' l : leaf_ok c l -> 0 <= w -> 0 <= h -> page_area_changed r w h c = Ok c' -> leaf_ok c' (enlarge_leaf w h (turn_leaf r l)).
Proof.
  intros L Hw Hh E. unfold page_area_changed in E. apply bind_inv in E. destruct E as (c1 & E1 & E). pose proof (rotate_leaf _ _ _ _ L E1) as L1.
  clear L E1. set (t := turn_leaf r l) in *. clearbody t. clear l. apply bind_inv in E. destruct E as (c2 & E2 & E).
  assert (L2 : leaf_ok c2 (mk_leaf (Z.max (lf_w t) w) (lf_h t) (fun X Y =>
    if ((Z.max (lf_w t) w - lf_w t) / 2 <=? X) && (X <? (Z.max (lf_w t) w - lf_w t) / 2 + lf_w t) then lf_pic t (X - (Z.max (lf_w t) w - lf_w t) / 2) Y else paper_white))).
  { rewrite (lk_width _ _ L1) in E2. destruct (lf_w t <? w) eqn:D.
    - apply Z.ltb_lt in D. rewrite Z.max_r by lia. exact (widen_leaf _ _ _ _ L1 D E2).
    - injection E2 as <-. rewrite Z.max_l by lia. rewrite Z.sub_diag. change (0 / 2) with 0. destruct t as [tw th tp]. cbn [lf_w lf_h lf_pic] in *.
      refine (leaf_ext _ _ _ _ _ L1 _). intros X Y HX HY. replace ((0 <=? X) && (X <? 0 + tw)) with true by lia. rewrite Z.sub_0_r. reflexivity. }
  unfold enlarge_leaf. cbv zeta. set (w' := Z.max (lf_w t) w) in *. set (left := (w' - lf_w t) / 2) in *.
  pose proof (leaf_height _ _ L2) as H2. cbn [lf_h] in H2. rewrite H2 in E.
  assert (V : w' = 0 -> lf_h t = 0) by (intros V; exact (lk_void _ _ L2 V)).
  pose proof (lk_h _ _ L1) as H0.
  destruct (lf_h t <? h) eqn:D.
  - destruct (lengthen_leaf h _ _ _ L2 Hh E) as (L3 & _). unfold lengthen in L3. cbn [lf_w lf_h lf_pic] in L3.
    destruct (w' =? 0) eqn:Z0.
    + apply Z.eqb_eq in Z0. rewrite V in L3 by exact Z0. rewrite Z0 in *. refine (leaf_ext _ _ _ _ _ L3 _). intros; lia.
    + refine (leaf_ext _ _ _ _ _ L3 _). intros X Y HX HY. unfold covers.
      replace (0 <=? Y) with true by lia. rewrite Z.add_0_l. destruct (Y <? lf_h t); destruct (_ && (X <? _)); reflexivity.
  - injection E as <-. apply Z.ltb_ge in D. rewrite Z.max_l by lia.
    replace (if w' =? 0 then 0 else lf_h t) with (lf_h t) by (destruct (w' =? 0) eqn:Z0; [apply Z.eqb_eq in Z0; exact (V Z0) | reflexivity]).
    refine (leaf_ext _ _ _ _ _ L2 _). intros X Y HX HY. unfold covers. replace (0 <=? Y) with true by lia. replace (Y <? 0 + lf_h t) with true by lia. rewrite !andb_true_r. reflexivity.
Qed.

(** ** Strokes on the page *)
Lemma put_leaf x y w h px c c' l : leaf_ok c l -> 0 <= x -> 0 <= y -> 0 <= w -> 0 <= h -> vlen px = w * h ->
  put_pixels x y w h px true c = Ok c' -> leaf_ok c' (draw_leaf (Paint x y w h px) l).
Proof.
  intros L Hx Hy Hw Hh Lp E. pose proof (leaf_height _ _ L) as EH. pose proof (lk_width _ _ L) as EW. pose proof (lk_grow _ _ L) as G.
  pose proof E as E'. unfold put_pixels in E'. apply bind_inv in E'. destruct E' as (ar & Har & E').
  destruct (CanvasTheory.chk_inv _ _ _ _ Har) as (-> & R1). replace (w * h <? vlen px) with false in E' by lia.
  rewrite EW, EH, G in E'. cbn [negb] in E'. rewrite andb_true_r in E'. cbn [draw_leaf].
  destruct ((x <? lf_w l) && (y <? lf_h l)) eqn:D.
  2:{ replace ((lf_w l <=? x) || (lf_h l <=? y)) with true in E' by lia. injection E' as <-.
      refine (leaf_same _ _ _ L _ _ _ _); reflexivity. }
  apply andb_prop in D. destruct D as (Dx & Dy). apply Z.ltb_lt in Dx, Dy.
  replace ((lf_w l <=? x) || (lf_h l <=? y)) with false in E' by lia.
  apply bind_inv in E'. destruct E' as (xe & Hxe & E'). destruct (CanvasTheory.chk_inv _ _ _ _ Hxe) as (-> & R2).
  apply bind_inv in E'. destruct E' as (nc & Hnc & E'). apply bind_inv in Hnc. destruct Hnc as (ye & Hye & Hnc).
  destruct (CanvasTheory.chk_inv _ _ _ _ Hye) as (-> & R3). injection Hnc as <-.
  apply bind_inv in E'. destruct E' as ([[fw fh] fp] & Hc & E').
  assert (Ef : fh = rows_drawn l x y w h).
  { unfold rows_drawn. destruct ((lf_w l <? x + w) || (lf_h l <? y + w)); [|injection Hc as _ <- _; reflexivity].
    cbv zeta in Hc. unfold crop_pixels in Hc. apply bind_inv in Hc. destruct Hc as (? & _ & Hc). apply bind_inv in Hc. destruct Hc as (? & _ & Hc).
    injection Hc as _ <- _. replace (lf_h l <=? y) with false by lia. destruct (lf_h l - y <? h) eqn:X; lia. }
  subst fh. apply bind_inv in E'. destruct E' as (yh & Hyh & E'). destruct (CanvasTheory.chk_inv _ _ _ _ Hyh) as (-> & R4).
  apply bind_inv in E'. destruct E' as (c1 & He & _). unfold expand_to_height in He. apply bind_inv in He. destruct He as (len & Hlen & _).
  destruct (CanvasTheory.chk_inv _ _ _ _ Hlen) as (-> & R5). rewrite EW in R5.
  pose proof (leaf_shows _ _ L ltac:(lia)) as S.
  pose proof (put_pixels_shows_gen c _ _ _ x y w h px true S ltac:(lia) Hy Hw Hh Lp ltac:(lia) ltac:(lia) ltac:(lia) ltac:(lia)) as Q.
  cbv zeta in Q. rewrite G in Q. fold (rows_drawn l x y w h) in Q. destruct (Q ltac:(lia) ltac:(lia)) as (c2 & E2 & SS & S2).
  rewrite E in E2. injection E2 as <-. destruct SS as (A1 & A2 & _). unfold lengthen. replace (lf_w l =? 0) with false by lia. cbn [lf_w lf_h lf_pic].
  refine (shows_leaf _ _ _ _ _ S2 _ _ _); [congruence | rewrite A2; exact (lk_color _ _ L)|].
  intros X Y HX HY. unfold covers, grown, block. rewrite (lk_color _ _ L).
  replace (X <? x + Z.min w (lf_w l - x)) with (X <? x + w) by lia. reflexivity.
Qed.
Lemma rows_len x y w h W (b sub : list rgba) : 0 <= w -> 0 <= h ->
  for_range h (fun i acc => do r <- mul_u32 (y + i) W; do start_idx <- add_u32 r x; do row <- vslice b start_idx (start_idx + w); Ok (acc ++ row)) [] = Ok sub ->
  vlen sub <= w * h.
Proof.
  intros Hw Hh H. unfold for_range in H.
  assert (B : forall l acc s, fold_res (fun i acc => do r <- mul_u32 (y + i) W; do start_idx <- add_u32 r x;
     do row <- vslice b start_idx (start_idx + w); Ok (acc ++ row)) l acc = Ok s -> vlen s <= vlen acc + w * vlen l).
  { clear -Hw. induction l as [|i l IH]; intros acc s H; cbn [fold_res] in H; [injection H as <-; change (vlen (A := Z) []) with 0; lia|].
    apply bind_inv in H. destruct H as (a1 & H1 & H). apply IH in H. apply bind_inv in H1. destruct H1 as (r & _ & H1). apply bind_inv in H1. destruct H1 as (si & _ & H1).
    apply bind_inv in H1. destruct H1 as (row & Hr & H1). injection H1 as <-. rewrite vlen_app in H. rewrite vlen_cons.
    unfold vslice in Hr. match type of Hr with (if ?t then _ else _) = _ => destruct t end; [discriminate|]. injection Hr as <-. replace (si + w - si) with w in H by lia.
    assert (vlen (firstn (Z.to_nat w) (skipn (Z.to_nat si) b)) <= w) by (unfold vlen; rewrite firstn_length; lia). lia. }
  apply B in H. rewrite vlen_zrange in H by lia. change (vlen (A := rgba) []) with 0 in H. lia.
Qed.
Lemma put_nothing x y w h m c c' l : leaf_ok c l -> 0 <= x -> 0 <= y -> 0 <= w -> 0 <= h -> w = 0 \/ h = 0 -> x + w <= lf_w l ->
  y + h <= lf_h l \/ lf_w l = 0 -> put_pixels x y w h [] m c = Ok c' -> leaf_ok c' l.
Proof.
  intros L Hx Hy Hw Hh Z0 Xw Yh E. unfold put_pixels in E. rewrite (leaf_height _ _ L), (lk_width _ _ L), (lk_grow _ _ L) in E.
  apply bind_inv in E. destruct E as (ar & Har & E). destruct (CanvasTheory.chk_inv _ _ _ _ Har) as (-> & _).
  change (vlen (A := rgba) []) with 0 in E. replace (w * h <? 0) with false in E by nia. cbn [negb] in E. rewrite andb_true_r in E.
  destruct ((lf_w l <=? x) || (lf_h l <=? y)) eqn:D; [injection E as <-; refine (leaf_same _ _ _ L _ _ _ _); reflexivity|].
  apply bind_inv in E. destruct E as (xe & Hxe & E). destruct (CanvasTheory.chk_inv _ _ _ _ Hxe) as (-> & _).
  apply bind_inv in E. destruct E as (nc & Hnc & E). apply bind_inv in Hnc. destruct Hnc as (ye & Hye & Hnc).
  destruct (CanvasTheory.chk_inv _ _ _ _ Hye) as (-> & _). injection Hnc as <-.
  apply bind_inv in E. destruct E as ([[fw fh] fp] & Hc & E).
  assert (F : fp = [] /\ fh <= h /\ 0 <= fh).
  { replace (lf_w l <? x + w) with false in Hc by lia. cbn [orb] in Hc. destruct (lf_h l <? y + w) eqn:D2.
    - assert (h = 0) by lia. subst h. cbv zeta in Hc. unfold crop_pixels in Hc. cbn [negb] in Hc. apply bind_inv in Hc. destruct Hc as (? & _ & Hc).
      replace (lf_h l <=? y) with false in Hc by lia. replace (lf_h l - y <? 0) with false in Hc by lia. rewrite for_range_neg in Hc by lia. cbn [bind] in Hc.
      injection Hc as _ <- <-. split; [reflexivity | lia].
    - injection Hc as _ <- <-. split; [reflexivity | lia]. }
  destruct F as (-> & F1 & F2). apply bind_inv in E. destruct E as (yh & Hyh & E). destruct (CanvasTheory.chk_inv _ _ _ _ Hyh) as (-> & _).
  apply bind_inv in E. destruct E as (c1 & He & E). cbn [fold_res bind] in E. injection E as <-.
  assert (c1 = c).
  { unfold expand_to_height in He. apply bind_inv in He. destruct He as (len & Hlen & He). destruct (CanvasTheory.chk_inv _ _ _ _ Hlen) as (-> & _).
    rewrite (lk_width _ _ L), (lk_len _ _ L) in He. pose proof (Z.mul_le_mono_nonneg_l (y + fh) (lf_h l) (lf_w l) ltac:(lia) ltac:(lia)).
    replace (lf_w l * (y + fh) <=? lf_w l * lf_h l) with true in He by lia. injection He as <-. reflexivity. }
  subst c1. refine (leaf_same _ _ _ L _ _ _ _); reflexivity.
Qed.
Lemma flip_leaf x y w h c c' l : leaf_ok c l -> 0 <= x -> 0 <= y -> 0 <= w -> 0 <= h ->
  flip_pixels x y w h c = Ok c' -> leaf_ok c' (draw_leaf (Mirror x y w h) l).
Proof.
  intros L Hx Hy Hw Hh E. pose proof (lk_width _ _ L) as EW. pose proof (lk_grow _ _ L) as G.
  cbn [draw_leaf]. pose proof E as E'. unfold flip_pixels in E'. apply bind_inv in E'. destruct E' as (xe & Hxe & E').
  destruct (CanvasTheory.chk_inv _ _ _ _ Hxe) as (-> & R1). rewrite EW in E'.
  destruct (lf_w l <? x + w) eqn:D.
  { injection E' as <-. replace (x + w <=? lf_w l) with false by lia. exact L. }
  replace (x + w <=? lf_w l) with true by lia. apply Z.ltb_ge in D.
  apply bind_inv in E'. destruct E' as (ye & Hye & E'). destruct (CanvasTheory.chk_inv _ _ _ _ Hye) as (-> & R2).
  apply bind_inv in E'. destruct E' as (c1 & He & E'). destruct (lengthen_leaf (y + h) c c1 l L ltac:(lia) He) as (L1 & SS1).
  apply bind_inv in E'. destruct E' as (ar & Har & E'). destruct (CanvasTheory.chk_inv _ _ _ _ Har) as (-> & R3).
  apply bind_inv in E'. destruct E' as (sub & Hsub & E'). apply bind_inv in E'. destruct E' as (fl & Hfl & E').
  destruct (Z.eq_dec w 0) as [Zw|Nw]; [|destruct (Z.eq_dec h 0) as [Zh|Nh]].
  3:{ assert (W1 : 0 < lf_w l) by lia. pose proof (leaf_shows _ _ L W1) as S.
      assert (R5 : lf_w l * (y + h) <= u32_max).
      { pose proof He as He'. unfold expand_to_height in He'. apply bind_inv in He'. destruct He' as (len & Hlen & _).
        destruct (CanvasTheory.chk_inv _ _ _ _ Hlen) as (_ & R). rewrite EW in R. lia. }
      assert (R6 : y + w <= u32_max).
      { unfold put_pixels in E'. apply bind_inv in E'. destruct E' as (a2 & Ha2 & E'). destruct (CanvasTheory.chk_inv _ _ _ _ Ha2) as (-> & _).
        assert (Lf : vlen fl = vlen sub).
        { refine (for_range_len _ _ _ _ _ Hfl). intros i m m' Hm. refine (for_range_len _ _ _ _ _ Hm). intros j n n' Hn. exact (swap_len _ _ _ _ Hn). }
        unfold lengthen in L1. replace (lf_w l =? 0) with false in L1 by lia.
        rewrite (leaf_height _ _ L1), (lk_width _ _ L1), (lk_grow _ _ L1) in E'. cbn [lf_w lf_h] in E'.
        destruct (w * h <? vlen fl) eqn:X.
        - pose proof (rows_len _ _ _ _ _ _ _ Hw Hh Hsub) as Ls. lia.
        - replace (lf_w l <=? x) with false in E' by lia. replace (Z.max (lf_h l) (y + h) <=? y) with false in E' by lia. cbn [orb andb negb] in E'.
          apply bind_inv in E'. destruct E' as (x2 & _ & E'). apply bind_inv in E'. destruct E' as (nc & Hnc & _).
          apply bind_inv in Hnc. destruct Hnc as (ye & Hye' & _). destruct (CanvasTheory.chk_inv _ _ _ _ Hye') as (_ & R). lia. }
      pose proof (Z.mul_le_mono_nonneg_l 1 (y + h) (lf_w l) ltac:(lia) ltac:(lia)).
      destruct (flip_pixels_shows_gen c _ _ _ x y w h S Hx Hy ltac:(lia) ltac:(lia) ltac:(lia) ltac:(lia) ltac:(lia) ltac:(lia) ltac:(lia) R5) as (c2 & E2 & SS & S2).
      rewrite E in E2. injection E2 as <-. destruct SS as (A1 & A2 & _). unfold lengthen. replace (lf_w l =? 0) with false by lia. cbn [lf_w lf_h lf_pic].
      refine (shows_leaf _ _ _ _ _ S2 _ _ _); [congruence | rewrite A2; exact (lk_color _ _ L)|].
      intros X Y HX HY. unfold covers, grown. rewrite (lk_color _ _ L). reflexivity. }
  all: assert (A : w = 0 \/ h = 0) by lia.
  all: assert (Esub : sub = []) by (apply vlen_zero; pose proof (rows_len _ _ _ _ _ _ _ Hw Hh Hsub); pose proof (vlen_nonneg sub); nia).
  all: assert (Efl : fl = []) by (apply vlen_zero; change 0 with (vlen (A := rgba) []); rewrite <- Esub; refine (for_range_len _ _ _ _ _ Hfl);
         intros i m m' Hm; refine (for_range_len _ _ _ _ _ Hm); intros j n n' Hn; exact (swap_len _ _ _ _ Hn)).
  all: subst fl; clear Hfl Hsub sub Esub.
  all: assert (Ew : lf_w (lengthen (y + h) l) = lf_w l) by (unfold lengthen; destruct (lf_w l =? 0); reflexivity).
  all: assert (L2 : leaf_ok c' (lengthen (y + h) l)) by
    (refine (put_nothing _ _ _ _ _ _ _ _ L1 Hx Hy Hw Hh A _ _ E'); [rewrite Ew; lia|]; unfold lengthen; destruct (lf_w l =? 0) eqn:Z0; cbn [lf_w lf_h]; lia).
  all: destruct (lengthen (y + h) l) as [tw th tp]; cbn [lf_w lf_h lf_pic] in *; refine (leaf_ext _ _ _ _ _ L2 _);
       intros X Y HX HY; unfold covers; replace ((x <=? X) && (X <? x + w) && (y <=? Y) && (Y <? y + h)) with false by lia; reflexivity.
Qed.

(** ** Whatever describes the single strokes describes every drawing call *)
Section Strokes.
  Variable D : list stroke -> canvas -> canvas -> Prop.
  Hypothesis Dnil : forall c, D [] c c.
  Hypothesis Dapp : forall l1 l2 a b c, D l1 a b -> D l2 b c -> D (l1 ++ l2) a c.
  Hypothesis Dput : forall x y w h px c c', 0 <= x -> 0 <= y -> 0 <= w -> 0 <= h -> vlen px = w * h -> put_pixels x y w h px true c = Ok c' -> D [Paint x y w h px] c c'.
  Hypothesis Dflip : forall x y w h c c', 0 <= x -> 0 <= y -> 0 <= w -> 0 <= h -> flip_pixels x y w h c = Ok c' -> D [Mirror x y w h] c c'.
  Lemma strokes_rect x y w h col c c' : 0 <= x -> 0 <= y -> 0 <= w -> 0 <= h -> draw_rect x y w h col true c = Ok c' -> D [line_of x y w h col] c c'.
  Proof.
    intros Hx Hy Hw Hh E. unfold draw_rect in E. apply bind_inv in E. destruct E as (n & Hn & E).
    destruct (CanvasTheory.chk_inv _ _ _ _ Hn) as (-> & R). unfold line_of. refine (Dput _ _ _ _ _ _ _ Hx Hy Hw Hh _ E). rewrite vlen_repeat. lia.
  Qed.
  Lemma strokes_fold {A} (f : A -> canvas -> res canvas) (g : A -> list stroke) l :
    (forall a c c', In a l -> f a c = Ok c' -> D (g a) c c') ->
    forall c c', fold_res f l c = Ok c' -> D (flat_map g l) c c'.
  Proof.
    induction l as [|a l IH]; intros F c c' E; cbn [fold_res flat_map] in *; [injection E as <-; apply Dnil|].
    apply bind_inv in E. destruct E as (c1 & E1 & E).
    exact (Dapp _ _ _ _ _ (F _ _ _ (or_introl eq_refl) E1) (IH (fun b x x' Hb => F b x x' (or_intror Hb)) _ _ E)).
  Qed.
  Lemma strokes_cells fo s top t : span_wf s -> (forall v, top = Ok v -> v = t /\ 0 <= v) ->
    forall chars x c x' c', 0 <= x -> fold_res (span_char fo s top) chars (x, c) = Ok (x', c') -> D (cells fo s x t chars) c c'.
  Proof.
    intros Ws Ht. assert (Cw : 0 < s_character_width s) by (destruct Ws as [(B & _) (m & M & E) _ _]; nia).
    induction chars as [|ch r IH]; intros x c x' c' Hx E; cbn [fold_res cells] in *.
    - injection E as _ <-. apply Dnil.
    - apply bind_inv in E. destruct E as ([x1 c1] & E1 & E). unfold span_char in E1. apply bind_inv in E1. destruct E1 as (bm & Hbm & E1).
      rewrite Hbm. destruct bm as [[[px w] h]|].
      + destruct (render_char_size _ _ _ _ _ _ Ws Hbm) as (Ew & Eh & P1 & P2 & L). replace ((w =? 0) || (h =? 0)) with false in E1 by lia.
        apply bind_inv in E1. destruct E1 as (y & Hy & E1). apply bind_inv in E1. destruct E1 as (c2 & Hp & E1).
        apply bind_inv in E1. destruct E1 as (x2 & Hx2 & E1). injection E1 as <- <-. destruct (add_u32v _ _ _ Hx2) as (-> & V).
        destruct (Ht _ Hy) as (-> & Hy0).
        refine (Dapp [Paint x t w h px] _ _ _ _ (Dput x t w h px c c2 Hx Hy0 ltac:(lia) ltac:(lia) L Hp) _).
        refine (IH _ _ _ _ _ E). lia.
      + apply bind_inv in E1. destruct E1 as (x2 & Hx2 & E1). injection E1 as <- <-. destruct (add_u32v _ _ _ Hx2) as (-> & V).
        cbn [app]. refine (IH _ _ _ _ _ E). lia.
  Qed.
  Lemma strokes_span fo off mh s c c' : span_wf s -> 0 <= off -> render_span fo off mh s c = Ok c' -> D (span_strokes fo off mh s) c c'.
  Proof.
    intros Ws Ho E. unfold render_span in E. unfold span_strokes. destruct (s_dimensions s) as [d|] eqn:Ed; [|injection E as <-; apply Dnil].
    pose proof (sw_dims _ Ws) as Wd. rewrite Ed in Wd. destruct Wd as (Dx & Dy & Dw & Vw & Dh).
    assert (Ch : 0 < s_character_height s) by (destruct Ws as [(_ & B) _ (m & M & Em) _]; nia).
    cbv zeta in E. apply bind_inv in E. destruct E as (x & Hx & E). destruct (add_u32v _ _ _ Hx) as (-> & Vx).
    apply bind_inv in E. destruct E as (low & Hlow & E). rewrite Hlow. cbv zeta.
    apply bind_inv in E. destruct E as ([x1 c1] & E1 & E). apply bind_inv in E. destruct E as (c2 & E2 & E). apply bind_inv in E. destruct E as (c3 & E3 & E).
    unfold u32v in *.
    assert (Ht : forall v, add_u32 (d_y d) low = Ok v -> v = d_y d + low /\ 0 <= v).
    { intros v Hv. destruct (add_u32v _ _ _ Hv) as (-> & V). unfold u32v in V. lia. }
    refine (Dapp _ _ _ _ _ (strokes_cells fo s _ _ Ws Ht _ (d_x d + off) c x1 c1 ltac:(lia) E1) _).
    refine (Dapp _ _ c1 c2 c' _ _).
    { destruct (0 <? s_underline s); [|injection E2 as <-; apply Dnil].
      apply bind_inv in E2. destruct E2 as (y & Hy & E2). apply bind_inv in E2. destruct E2 as (y1 & Hy1 & E2). apply bind_inv in E2. destruct E2 as (y2 & Hy2 & E2).
      destruct (Ht _ Hy) as (-> & _). destruct (add_u32v _ _ _ Hy1) as (-> & _). destruct (add_u32v _ _ _ Hy2) as (-> & V2). unfold u32v in V2.
      refine (strokes_rect _ _ _ _ _ _ _ _ _ _ _ E2); lia. }
    refine (Dapp _ _ c2 c3 c' _ _).
    { destruct (0 <? s_strikethrough s) eqn:Es; [|injection E3 as <-; apply Dnil].
      apply bind_inv in E3. destruct E3 as (y & Hy & E3). apply bind_inv in E3. destruct E3 as (y1 & Hy1 & E3).
      destruct (Ht _ Hy) as (-> & _). destruct (add_u32v _ _ _ Hy1) as (-> & V1). unfold u32v in V1.
      refine (strokes_rect _ _ _ _ _ _ _ _ _ _ _ E3); lia. }
    destruct (s_upside_down s); [|injection E as <-; apply Dnil].
    apply bind_inv in E. destruct E as (y & Hy & E). destruct (Ht _ Hy) as (-> & Hy0).
    refine (Dflip _ _ _ _ _ _ _ _ _ _ E); lia.
  Qed.
  (** the drawing of a call on a canvas *)
  Definition draws (fo : fonts) (x : context) (ev : event) : option (canvas -> res canvas) :=
    match ev with
    | EGraphics rects => Some (fold_res (put_rect (t_color (c_text x))) rects)
    | EImage i => Some (put_render_img i)
    | EText spans x_offset max_height _ => Some (fold_res (render_span fo x_offset max_height) spans)
    | _ => None
    end.
  Lemma strokes_call fo x ev f c c' : call_wf (x, ev) -> draws fo x ev = Some f -> f c = Ok c' -> D (marks fo (x, ev)) c c'.
  Proof.
    intros (C & Wev) Ef E. cbn [fst snd] in *. destruct ev as [dv| | |rt pw ph| | |rects|i|spans off mh j| |]; try discriminate; injection Ef as <-; unfold marks; cbn [fst snd].
    - assert (EM : map (fun r => line_of (r_x r) (r_y r) (r_w r) (r_h r) (t_color (c_text x))) rects
                   = flat_map (fun r => [line_of (r_x r) (r_y r) (r_w r) (r_h r) (t_color (c_text x))]) rects).
      { clear. induction rects as [|r l IH]; [reflexivity|]. cbn [map flat_map app]. rewrite IH. reflexivity. }
      rewrite EM. refine (strokes_fold _ _ _ _ _ _ E). intros r a b Hin Er.
      pose proof (proj1 (Forall_forall _ _) Wev _ Hin) as (R1 & R2 & R3 & R4). unfold u32v in *.
      refine (strokes_rect _ _ _ _ _ _ _ _ _ _ _ Er); lia.
    - destruct Wev as ([I1 I2 I3] & I4 & I5). unfold u32v in *. unfold put_render_img in E. apply bind_inv in E. destruct E as (c1 & E1 & E).
      refine (Dapp [Paint _ _ _ _ _] _ _ _ _ (Dput _ _ _ _ _ _ _ _ _ _ _ I3 E1) _); try lia.
      destruct (i_upside_down i); [|injection E as <-; apply Dnil]. refine (Dflip _ _ _ _ _ _ _ _ _ _ E); lia.
    - destruct Wev as (F & Vo & _). unfold u32v in Vo. refine (strokes_fold _ _ _ _ _ _ E). intros sp a b Hin Er.
      refine (strokes_span _ _ _ _ _ _ (proj1 (Forall_forall _ _) F _ Hin) _ Er). lia.
  Qed.
End Strokes.

Definition draw_all (l : list stroke) (p : leaf) : leaf := fold_left (fun l s => draw_leaf s l) l p.
Definition inked (l : list stroke) (c c' : canvas) : Prop := forall p, leaf_ok c p -> leaf_ok c' (draw_all l p).
Lemma inked_call fo x ev f c c' : call_wf (x, ev) -> draws fo x ev = Some f -> f c = Ok c' -> inked (marks fo (x, ev)) c c'.
Proof.
  apply (strokes_call inked).
  - intros a p L. exact L.
  - intros l1 l2 a b d H1 H2 p L. unfold draw_all. rewrite fold_left_app. exact (H2 _ (H1 _ L)).
  - intros x0 y w h px a b H1 H2 H3 H4 H5 E p L. exact (put_leaf _ _ _ _ _ _ _ _ L H1 H2 H3 H4 H5 E).
  - intros x0 y w h a b H1 H2 H3 H4 E p L. exact (flip_leaf _ _ _ _ _ _ _ L H1 H2 H3 H4 E).
Qed.
Lemma drawn_call W fo x ev f c c' : call_wf (x, ev) -> draws fo x ev = Some f -> f c = Ok c' -> drawn W (marks fo (x, ev)) c c'.
Proof.
  apply (strokes_call (drawn W)).
  - apply drawn_nil.
  - intros l1 l2 a b d. apply drawn_app.
  - intros x0 y w h px a b. apply drawn_put.
  - intros x0 y w h a b. apply drawn_flip.
Qed.

(** ** The page is printed *)
Lemma stamp_strip x y w h px c c' W H p : on_strip c W H p -> 0 <= x -> 0 <= y -> 0 <= w -> 0 <= h -> vlen px = w * h ->
  put_pixels x y w h px false c = Ok c' ->
  on_strip c' W (if x <? W then Z.max H (y + h) else H)
    (fun X Y => if covers x y w h X Y then blend_foreground (p X Y) (block px w (X - x) (Y - y)) else p X Y) /\ same_paper c c'.
Proof.
  intros (q & [S G F B] & Eq) Hx Hy Hw Hh L E. pose proof S as (W0 & H0 & EW & EL & ES). pose proof (shows_height _ _ _ _ S) as EH.
  destruct (x <? W) eqn:Ex.
  - apply Z.ltb_lt in Ex.
    assert (Fit : x + w <= u32_max /\ y + h <= u32_max /\ w * h <= u32_max /\ W * Z.max H (y + h) <= u32_max).
    { pose proof E as E'. unfold put_pixels in E'. apply bind_inv in E'. destruct E' as (ar & Har & E').
      destruct (CanvasTheory.chk_inv _ _ _ _ Har) as (-> & R1). replace (w * h <? vlen px) with false in E' by lia.
      rewrite EW in E'. replace (W <=? x) with false in E' by lia. rewrite G in E'. cbn [orb negb] in E'. rewrite andb_false_r in E'.
      apply bind_inv in E'. destruct E' as (xe & Hxe & E'). destruct (CanvasTheory.chk_inv _ _ _ _ Hxe) as (-> & R2).
      cbn [bind] in E'. apply bind_inv in E'. destruct E' as ([[fw fh] fp] & Hc & E').
      assert (fh = h).
      { destruct ((W <? x + w) || false); [|injection Hc as _ <- _; reflexivity].
        unfold crop_pixels in Hc. apply bind_inv in Hc. destruct Hc as (? & _ & Hc). apply bind_inv in Hc. destruct Hc as (? & _ & Hc).
        injection Hc as _ <- _. reflexivity. }
      subst fh. apply bind_inv in E'. destruct E' as (yh & Hyh & E'). destruct (CanvasTheory.chk_inv _ _ _ _ Hyh) as (-> & R3).
      apply bind_inv in E'. destruct E' as (c1 & He & E'). unfold expand_to_height in He. apply bind_inv in He. destruct He as (len & Hlen & He).
      destruct (CanvasTheory.chk_inv _ _ _ _ Hlen) as (-> & R4). rewrite EW in R4.
      split; [lia | split; [lia | split; [lia|]]].
      destruct (Z.max_spec H (y + h)) as [(_ & ->)|(_ & ->)]; [lia | exact F]. }
    destruct Fit as (F1 & F2 & F3 & F4).
    destruct (put_pixels_shows c W H q x y w h px false S ltac:(lia) Hy Hw Hh L ltac:(congruence) F1 ltac:(congruence) F2 F3 F4) as (c2 & E2 & SS & S2).
    rewrite E in E2. injection E2 as <-. split; [|exact (same_paper_setup _ _ SS)]. rewrite G in S2.
    pose proof SS as (SS1 & SS2 & SS3).
    match type of S2 with shows _ _ _ ?f => exists (fun X Y => if Y <? Z.max H (y + h) then f X Y else cv_paper_color c) end.
    split.
    + constructor; [|congruence | exact F4|].
      * destruct S2 as (A1 & A2 & A3 & A4 & A5). split; [exact A1 | split; [exact A2 | split; [exact A3 | split; [exact A4|]]]].
        intros X Y HX HY. rewrite A5 by assumption. replace (Y <? Z.max H (y + h)) with true by lia. reflexivity.
      * intros X Y HY. replace (Y <? Z.max H (y + h)) with false by lia. congruence.
    + intros X Y HX HY. cbn beta. unfold covers, block, grown.
      assert (EB : (X <? x + Z.min w (W - x)) = (X <? x + w)) by lia. rewrite EB. clear EB.
      destruct ((x <=? X) && (X <? x + w) && (y <=? Y) && (Y <? y + h)) eqn:C.
      * replace (Y <? Z.max H (y + h)) with true by lia.
        destruct (Y <? H) eqn:D; [rewrite Eq by assumption; reflexivity|].
        rewrite <- Eq by assumption. rewrite B by lia. reflexivity.
      * destruct (Y <? Z.max H (y + h)) eqn:D2.
        -- destruct (Y <? H) eqn:D; [apply Eq; assumption|]. rewrite <- Eq by assumption. rewrite B by lia. reflexivity.
        -- rewrite <- Eq by assumption. rewrite B by lia. reflexivity.
  - apply Z.ltb_ge in Ex. unfold put_pixels in E. apply bind_inv in E. destruct E as (ar & Har & E).
    destruct (CanvasTheory.chk_inv _ _ _ _ Har) as (-> & R1). replace (w * h <? vlen px) with false in E by lia.
    rewrite EW in E. replace (W <=? x) with true in E by lia. cbn [orb] in E. injection E as <-. split.
    + exists q. split; [constructor; [exact S | exact G | exact F | exact B]|].
      intros X Y HX HY. unfold covers. replace (x <=? X) with false by lia. cbn [andb]. apply Eq; assumption.
    + split; [reflexivity | split; [reflexivity | eexists; reflexivity]].
Qed.

(** ** The desk *)
Definition at_desk (W : Z) (s : istate) (d : desk) : Prop :=
  on_strip (im_paper s) W (dk_low d) (dk_pic d) /\ leaf_ok (im_page s) (dk_leaf d) /\ cv_paper_color (im_paper s) = paper_white.
Lemma strip_same c W H p q : on_strip c W H p -> (forall X Y, 0 <= X < W -> 0 <= Y -> p X Y = q X Y) -> on_strip c W H q.
Proof. intros (r & S & E) Q. exists r. split; [exact S|]. intros X Y HX HY. rewrite E by assumption. apply Q; assumption. Qed.
Definition no_limit (ev : event) : Prop := match ev with EBeginRender | EEndRender => False | _ => True end.
Lemma desk_event W fo x ev s s' d : call_wf (x, ev) -> no_limit ev -> image_event fo x ev s = Ok s' -> at_desk W s d ->
  at_desk W s' (desk_call fo W (x, ev) d) /\ im_out s' = im_out s.
Proof.
  intros Wc N E (Sp & Lf & Pw).
  assert (Dr : forall f, draws fo x ev = Some f -> on_canvas x f s = Ok s' ->
    desk_call fo W (x, ev) d = (if p_enabled (c_page x) then on_leaf (fun l => fold_left (fun l s => draw_leaf s l) (marks fo (x, ev)) l) d
      else mk_desk (drawing W (marks fo (x, ev)) (dk_pic d)) (bottoms W (marks fo (x, ev)) (dk_low d)) (dk_leaf d)) ->
    at_desk W s' (desk_call fo W (x, ev) d) /\ im_out s' = im_out s).
  { intros f Ef Es ->. unfold on_canvas in Es. destruct (p_enabled (c_page x)); [unfold on_page in Es | unfold on_paper in Es];
      apply bind_inv in Es; destruct Es as (c & Ec & Es); injection Es as <-; (split; [|reflexivity]).
    - split; [exact Sp|]. split; [exact (inked_call fo x ev f _ _ Wc Ef Ec _ Lf) | exact Pw].
    - destruct (drawn_call W fo x ev f _ _ Wc Ef Ec _ _ Sp) as (S2 & (_ & P2 & _)). split; [exact S2|]. split; [exact Lf|].
      cbn [with_paper im_paper]. congruence. }
  assert (Nop : forall s1, s1 = s' -> im_paper s1 = im_paper s -> im_page s1 = im_page s -> im_out s1 = im_out s ->
    desk_call fo W (x, ev) d = (if p_enabled (c_page x) then on_leaf (fun l => l) d else mk_desk (dk_pic d) (dk_low d) (dk_leaf d)) ->
    at_desk W s' (desk_call fo W (x, ev) d) /\ im_out s' = im_out s).
  { intros s1 <- E1 E2 E3 ->. split; [|exact E3]. unfold at_desk. rewrite E1, E2.
    destruct (p_enabled _); cbn [on_leaf dk_pic dk_low dk_leaf]; exact (conj Sp (conj Lf Pw)). }
  destruct ev as [dv| | |rt pw ph| | |rects|i|spans off mh j| |]; cbn [no_limit] in N; try contradiction; cbn [image_event] in E;
    try (refine (Dr _ eq_refl E eq_refl)).
  - injection E as E. refine (Nop _ E eq_refl eq_refl eq_refl eq_refl).
  - injection E as <-. split; [|reflexivity]. split; [exact Sp|]. split; [|exact Pw]. cbn [desk_call fst snd on_leaf dk_leaf with_page im_page].
    unfold blank_leaf. apply void_leaf; try reflexivity; apply Lf.
  - unfold on_page in E. apply bind_inv in E. destruct E as (c & Ec & E). injection E as <-. split; [|reflexivity]. split; [exact Sp|]. split; [|exact Pw].
    cbn [desk_call fst snd on_leaf dk_leaf with_page im_page]. destruct Wc as (_ & Wev). cbn [snd event_wf] in Wev. unfold u32v in Wev.
    refine (area_leaf _ _ _ _ _ _ Lf _ _ Ec); lia.
  - injection E as E. refine (Nop _ E eq_refl eq_refl eq_refl eq_refl).
  - unfold render_page in E. cbv zeta in E. apply bind_inv in E. destruct E as (t & Et & E). pose proof (rotate_leaf _ _ _ _ Lf Et) as Lt.
    fold (upright x (dk_leaf d)) in Lt. unfold copy in E. apply bind_inv in E. destruct E as (b & Eb & E). pose proof (rotate_leaf _ _ _ _ Lt Eb) as Lb.
    fold (put_back x (upright x (dk_leaf d))) in Lb. unfold on_paper in E. apply bind_inv in E. destruct E as (c & Ec & E). injection E as <-. split; [|reflexivity].
    cbn [with_page im_paper im_page] in Ec. pose proof (ci_u _ (proj1 Wc)) as U. cbn [fst] in U.
    pose proof (ua_x _ (ui_render _ U)) as Ax. pose proof (ua_y _ (ui_render _ U)) as Ay. unfold u32v in Ax, Ay.
    rewrite (leaf_height _ _ Lt), (lk_width _ _ Lt) in Ec.
    destruct (stamp_strip _ _ _ _ _ _ _ _ _ _ Sp (proj1 Ax) (proj1 Ay) (lk_w _ _ Lt) (lk_h _ _ Lt) (lk_len _ _ Lt) Ec) as (S2 & (_ & P2 & _)).
    cbn [desk_call fst snd]. split; [|split; [exact Lb | cbn [with_paper im_paper]; congruence]].
    cbn [on_leaf stamp dk_pic dk_low with_paper with_page im_paper]. refine (strip_same _ _ _ _ _ S2 _).
    intros X Y HX HY. destruct (covers _ _ _ _ X Y) eqn:Cv; [|reflexivity]. f_equal. unfold block. apply (lk_pic _ _ Lt); unfold covers in Cv; lia.
  - injection E as E. refine (Nop _ E eq_refl eq_refl eq_refl eq_refl).
Qed.
Lemma desk_run W fo l : forall s s' d, Forall call_wf l -> Forall (fun x => no_limit (snd x)) l -> image_calls fo l s = Ok s' -> at_desk W s d ->
  at_desk W s' (desk_calls fo W l d) /\ im_out s' = im_out s.
Proof.
  induction l as [|[x ev] l IH]; intros s s' d F N E A; cbn [image_calls fold_res] in E.
  - injection E as <-. split; [exact A | reflexivity].
  - apply Forall_cons_iff in F. destruct F as (F1 & F). apply Forall_cons_iff in N. destruct N as (N1 & N). apply bind_inv in E. destruct E as (s1 & E1 & E).
    destruct (desk_event W fo x ev s s1 d F1 N1 E1 A) as (A1 & O1). destruct (IH s1 s' _ F N E A1) as (A2 & O2). split; [exact A2 | congruence].
Qed.
