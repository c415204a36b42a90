(** * CanvasRect: every canvas operation that returns keeps the canvas rectangular. *)
From Verif Require Import Base Vec Float32 GTypes Graphics ThermalImage SpecCanvas CanvasTheory.
Local Open Scope Z_scope.
Local Arguments at_ : simpl never.
Local Arguments vlen : simpl never.

Lemma bind_inv {A B} (m : res A) (f : A -> res B) r : bind m f = Ok r -> exists a, m = Ok a /\ f a = Ok r.
Proof. destruct m as [a|e]; cbn [bind]; intros H; [exists a; split; [reflexivity|exact H]|discriminate]. Qed.

Lemma rect_shows : forall c, rectangular c -> 0 < cv_width c ->
  shows c (cv_width c) (get_canvas_height c) (fun X Y => at_ rgba_blank (cv_bytes c) (Y * cv_width c + X)).
Proof.
  intros c (H0 & H & HH & L) HW. rewrite (height_of c (cv_width c) H HW HH eq_refl L).
  split; [exact HW|]. split; [exact HH|]. split; [reflexivity|]. split; [exact L|]. reflexivity.
Qed.
Lemma shows_rect : forall c W H p, shows c W H p -> rectangular c.
Proof. intros c W H p (HW & HH & E & L & _). split; [lia|]. exists H. split; [exact HH|]. rewrite E. exact L. Qed.
Lemma rect_len : forall c, rectangular c -> vlen (cv_bytes c) = cv_width c * get_canvas_height c.
Proof.
  intros c (H0 & H & HH & L). unfold get_canvas_height. destruct (Z.eqb_spec (cv_width c) 0) as [E|E].
  - rewrite E in L. lia.
  - rewrite L. rewrite (Z.mul_comm (cv_width c) H), Z.div_mul by exact E. lia.
Qed.
Lemma rect_nil : forall c, rectangular c -> cv_width c = 0 -> cv_bytes c = [].
Proof.
  intros c (H0 & H & HH & L) E. rewrite E in L. destruct (cv_bytes c) as [|a l]; [reflexivity|].
  rewrite vlen_cons in L. pose proof (vlen_nonneg l). lia.
Qed.
Lemma height_nonneg : forall c, rectangular c -> 0 <= get_canvas_height c.
Proof.
  intros c (H0 & H & HH & L). unfold get_canvas_height. destruct (Z.eqb_spec (cv_width c) 0); [lia|].
  apply Z.div_pos; [apply vlen_nonneg|lia].
Qed.

Lemma for_range_neg {B} (n : Z) (f : Z -> B -> res B) b : n <= 0 -> for_range n f b = Ok b.
Proof. intros H. unfold for_range, zrange. destruct n; try reflexivity; lia. Qed.

(** rotate_90 and friends on a canvas without rows *)
Lemma rect_no_rows : forall c, rectangular c -> get_canvas_height c = 0 -> cv_bytes c = [].
Proof.
  intros c Hr H0. pose proof (rect_len c Hr) as L. rewrite H0, Z.mul_0_r in L.
  destruct (cv_bytes c) as [|a l]; [reflexivity|]. rewrite vlen_cons in L. pose proof (vlen_nonneg l). lia.
Qed.

Lemma rotate_90_rect : forall c, rectangular c -> exists c', rotate_90 c = Ok c' /\ rectangular c' /\
  cv_width c' = get_canvas_height c /\ same_setup c c'.
Proof.
  intros c Hr. pose proof (height_nonneg c Hr) as Hh.
  destruct (Z.eq_dec (get_canvas_height c) 0) as [E|E].
  - unfold rotate_90. rewrite !E, for_range_neg by lia. cbn [bind]. rewrite Z.mul_0_r. cbn [Z.to_nat repeat].
    eexists. split; [reflexivity|]. split; [|split; [reflexivity|repeat split]].
    split; [cbn; lia|]. exists 0. split; [lia|]. reflexivity.
  - destruct Hr as (HW0 & Hr'). destruct (Z.eq_dec (cv_width c) 0) as [E0|E0].
    + exfalso. apply E. unfold get_canvas_height. rewrite E0. reflexivity.
    + destruct (rotate_90_shows c (cv_width c) (get_canvas_height c) _ ltac:(lia) (rect_shows c (conj HW0 Hr') ltac:(lia))) as (c' & E1 & S1 & SS).
      exists c'. split; [exact E1|]. split; [exact (shows_rect _ _ _ _ S1)|]. split; [apply S1|exact SS].
Qed.
Lemma rotate_270_rect : forall c, rectangular c -> exists c', rotate_270 c = Ok c' /\ rectangular c' /\
  cv_width c' = get_canvas_height c /\ same_setup c c'.
Proof.
  intros c Hr. pose proof (height_nonneg c Hr) as Hh.
  destruct (Z.eq_dec (get_canvas_height c) 0) as [E|E].
  - unfold rotate_270. rewrite !E, for_range_neg by lia. cbn [bind]. rewrite Z.mul_0_r. cbn [Z.to_nat repeat].
    eexists. split; [reflexivity|]. split; [|split; [reflexivity|repeat split]].
    split; [cbn; lia|]. exists 0. split; [lia|]. reflexivity.
  - destruct Hr as (HW0 & Hr'). destruct (Z.eq_dec (cv_width c) 0) as [E0|E0].
    + exfalso. apply E. unfold get_canvas_height. rewrite E0. reflexivity.
    + destruct (rotate_270_shows c (cv_width c) (get_canvas_height c) _ ltac:(lia) (rect_shows c (conj HW0 Hr') ltac:(lia))) as (c' & E1 & S1 & SS).
      exists c'. split; [exact E1|]. split; [exact (shows_rect _ _ _ _ S1)|]. split; [apply S1|exact SS].
Qed.
Lemma rotate_180_rect : forall c, rectangular c -> exists c', rotate_180 c = Ok c' /\ rectangular c' /\
  cv_width c' = cv_width c /\ same_setup c c'.
Proof.
  intros c Hr. destruct (Z.eq_dec (cv_width c) 0) as [E0|E0].
  - pose proof (rect_nil c Hr E0) as Eb. unfold rotate_180, get_canvas_height. rewrite E0. cbn [Z.eqb].
    rewrite for_range_neg by lia. cbn [bind]. eexists. split; [reflexivity|]. split; [|split; [cbn; lia|repeat split]].
    split; [cbn; lia|]. exists 0. split; [lia|]. cbn. rewrite Z.mul_0_r. reflexivity.
  - destruct Hr as (HW0 & Hr').
    destruct (rotate_180_shows c (cv_width c) (get_canvas_height c) _ (rect_shows c (conj HW0 Hr') ltac:(lia))) as (c' & E1 & S1 & SS).
    exists c'. split; [exact E1|]. split; [exact (shows_rect _ _ _ _ S1)|]. split; [apply S1|exact SS].
Qed.

Lemma expand_to_height_rect : forall h c c', rectangular c -> 0 <= h -> expand_to_height h c = Ok c' ->
  rectangular c' /\ cv_width c' = cv_width c /\ same_setup c c' /\ vlen (cv_bytes c) <= vlen (cv_bytes c').
Proof.
  intros h c c' (HW & H & HH & L) Hh E. unfold expand_to_height in E.
  apply bind_inv in E. destruct E as (len & E1 & E). unfold mul_u32 in E1. apply chk_inv in E1. destruct E1 as (-> & _).
  destruct (Z.leb_spec (cv_width c * h) (vlen (cv_bytes c))); injection E as <-.
  - split; [split; [exact HW|exists H; split; assumption]|]. split; [reflexivity|]. split; [repeat split|lia].
  - split; [|split; [reflexivity|split; [repeat split|cbn; rewrite vlen_app; pose proof (vlen_nonneg (repeat (cv_paper_color c) (Z.to_nat (cv_width c * h - vlen (cv_bytes c))))); lia]]].
    split; [exact HW|]. exists h. split; [exact Hh|]. cbn [cv_bytes cv_width set_cv_bytes].
    rewrite vlen_app, vlen_repeat. lia.
Qed.
Lemma add_top_margin_rect : forall h c c', rectangular c -> 0 <= h -> add_top_margin h c = Ok c' ->
  rectangular c' /\ cv_width c' = cv_width c /\ same_setup c c'.
Proof.
  intros h c c' (HW & H & HH & L) Hh E. unfold add_top_margin in E.
  apply bind_inv in E. destruct E as (len & E1 & E). unfold mul_u32 in E1. apply chk_inv in E1. destruct E1 as (-> & Hb).
  injection E as <-. split; [|split; [reflexivity|repeat split]].
  split; [exact HW|]. exists (h + H). split; [lia|]. cbn [cv_bytes cv_width set_cv_bytes].
  rewrite vlen_app, vlen_repeat, L. lia.
Qed.
Lemma expand_to_width_rect : forall nw c, rectangular c -> exists c', expand_to_width nw c = Ok c' /\ rectangular c' /\
  cv_width c' = Z.max (cv_width c) nw /\ get_canvas_height c' = get_canvas_height c /\ same_setup c c'.
Proof.
  intros nw c Hr. destruct (Z_lt_ge_dec nw (cv_width c)) as [Hlt|Hge].
  - exists c. unfold expand_to_width. replace (nw <? cv_width c) with true by lia.
    split; [reflexivity|]. split; [exact Hr|]. split; [lia|]. split; [reflexivity|repeat split].
  - destruct (Z.eq_dec (cv_width c) 0) as [E0|E0].
    + pose proof (rect_nil c Hr E0) as Eb. unfold expand_to_width, get_canvas_height. rewrite E0, Eb. cbn [Z.eqb].
      replace (nw <? 0) with false by lia. cbn [Z.mul]. change (vlen (@nil rgba)) with 0. cbn [Z.ltb Z.compare].
      rewrite for_range_neg by lia. cbn [bind]. eexists. split; [reflexivity|]. cbn [cv_width cv_bytes set_cv_width set_cv_bytes].
      change (vlen (@nil rgba)) with 0.
      split; [split; [cbn; lia|]; exists 0; split; [lia|]; cbn; rewrite Z.mul_0_r; reflexivity|].
      split; [lia|]. split; [destruct (Z.eqb_spec nw 0); [reflexivity|apply Z.div_0_l; assumption]|repeat split].
    + destruct Hr as (HW0 & Hr').
      destruct (expand_to_width_shows c (cv_width c) (get_canvas_height c) _ nw (rect_shows c (conj HW0 Hr') ltac:(lia)) ltac:(lia)) as (c' & E1 & S1 & SS).
      exists c'. split; [exact E1|]. split; [exact (shows_rect _ _ _ _ S1)|].
      split; [destruct S1 as (_ & _ & -> & _); lia|]. split; [exact (shows_height _ _ _ _ S1)|exact SS].
Qed.

Lemma paint_fold_len : forall op W x fw fp cx cy b cx' cy' b',
  fold_res (paint_step op W x fw) fp (cx, cy, b) = Ok (cx', cy', b') -> vlen b' = vlen b.
Proof.
  induction fp as [|p fp IH]; intros cx cy b cx' cy' b' E; cbn [fold_res] in E.
  - injection E as _ _ <-. reflexivity.
  - apply bind_inv in E. destruct E as ([[x1 y1] b1] & E1 & E2). apply IH in E2. rewrite E2. clear E2 IH.
    unfold paint_step in E1.
    repeat (apply bind_inv in E1; let a := fresh "a" in let Ea := fresh "Ea" in destruct E1 as (a & Ea & E1)).
    assert (L : vlen a2 = vlen b).
    { apply (vget_inv rgba_blank) in Ea1. destruct Ea1 as (R & ->).
      destruct (vset_ok b a0 (op (at_ rgba_blank b a0) p) R) as (l & E & L & _). rewrite E in Ea2. injection Ea2 as <-. exact L. }
    destruct (cx =? a4); apply bind_inv in E1; destruct E1 as (z & _ & E1); injection E1 as _ _ <-; exact L.
Qed.

Lemma put_pixels_rect : forall x y w h px m c c', rectangular c -> put_pixels x y w h px m c = Ok c' ->
  rectangular c' /\ cv_width c' = cv_width c /\ cv_auto_grow c' = cv_auto_grow c /\
  cv_paper_color c' = cv_paper_color c /\ vlen (cv_bytes c) <= vlen (cv_bytes c').
Proof.
  intros x y w h px m c c' Hr E. unfold put_pixels in E.
  apply bind_inv in E. destruct E as (area & _ & E).
  destruct (area <? vlen px). { injection E as <-. split; [exact Hr|]. repeat split. cbn. lia. }
  destruct ((cv_width c <=? x) || ((get_canvas_height c <=? y) && negb (cv_auto_grow c))) eqn:B1.
  { injection E as <-. split; [exact Hr|]. repeat split. cbn. lia. }
  apply bind_inv in E. destruct E as (xe & _ & E). apply bind_inv in E. destruct E as (nch & _ & E).
  apply bind_inv in E. destruct E as ([[fw fh] fp] & Ec & E).
  apply bind_inv in E. destruct E as (yh & Ey & E). unfold add_u32 in Ey. apply chk_inv in Ey. destruct Ey as (-> & Ey).
  apply bind_inv in E. destruct E as (c1 & E1 & E).
  destruct (expand_to_height_rect (y + fh) _ _ Hr ltac:(lia) E1) as (R1 & W1 & (S1 & S2 & S3) & L1).
  apply bind_inv in E. destruct E as ([[cx cy] b] & Ef & E). injection E as <-.
  apply paint_fold_len in Ef. cbn [cv_bytes cv_width cv_auto_grow cv_paper_color set_cv_bytes].
  split; [|split; [exact W1|split; [exact S1|split; [exact S2|lia]]]].
  destruct R1 as (RW & H & RH & RL). split; [exact RW|]. exists H. split; [exact RH|]. cbn. lia.
Qed.
Lemma draw_rect_rect : forall x y w h col m c c', rectangular c -> draw_rect x y w h col m c = Ok c' ->
  rectangular c' /\ cv_width c' = cv_width c /\ cv_auto_grow c' = cv_auto_grow c /\
  cv_paper_color c' = cv_paper_color c /\ vlen (cv_bytes c) <= vlen (cv_bytes c').
Proof.
  intros x y w h col m c c' Hr E. unfold draw_rect in E. apply bind_inv in E. destruct E as (n & _ & E).
  exact (put_pixels_rect _ _ _ _ _ _ _ _ Hr E).
Qed.
Lemma flip_pixels_rect : forall x y w h c c', rectangular c -> flip_pixels x y w h c = Ok c' ->
  rectangular c' /\ cv_width c' = cv_width c /\ cv_auto_grow c' = cv_auto_grow c /\
  cv_paper_color c' = cv_paper_color c /\ vlen (cv_bytes c) <= vlen (cv_bytes c').
Proof.
  intros x y w h c c' Hr E. unfold flip_pixels in E. apply bind_inv in E. destruct E as (xe & _ & E).
  destruct (cv_width c <? xe). { injection E as <-. split; [exact Hr|]. repeat split. lia. }
  apply bind_inv in E. destruct E as (ye & Ey & E). unfold add_u32 in Ey. apply chk_inv in Ey. destruct Ey as (-> & Ey).
  apply bind_inv in E. destruct E as (c1 & E1 & E).
  destruct (expand_to_height_rect (y + h) _ _ Hr ltac:(lia) E1) as (R1 & W1 & (S1 & S2 & S3) & L1).
  apply bind_inv in E. destruct E as (u & _ & E). apply bind_inv in E. destruct E as (sub & _ & E).
  apply bind_inv in E. destruct E as (fl & _ & E).
  destruct (put_pixels_rect _ _ _ _ _ _ _ _ R1 E) as (R2 & W2 & A2 & P2 & L2).
  split; [exact R2|]. split; [congruence|]. split; [congruence|]. split; [congruence|lia].
Qed.
Lemma put_render_img_rect : forall i c c', rectangular c -> put_render_img i c = Ok c' ->
  rectangular c' /\ cv_width c' = cv_width c /\ cv_auto_grow c' = cv_auto_grow c /\
  cv_paper_color c' = cv_paper_color c /\ vlen (cv_bytes c) <= vlen (cv_bytes c').
Proof.
  intros i c c' Hr E. unfold put_render_img in E. apply bind_inv in E. destruct E as (c1 & E1 & E).
  destruct (put_pixels_rect _ _ _ _ _ _ _ _ Hr E1) as (R1 & W1 & A1 & P1 & L1).
  destruct (i_upside_down i).
  - destruct (flip_pixels_rect _ _ _ _ _ _ R1 E) as (R2 & W2 & A2 & P2 & L2).
    split; [exact R2|]. split; [congruence|]. split; [congruence|]. split; [congruence|lia].
  - injection E as <-. split; [exact R1|]. split; [exact W1|]. split; [exact A1|]. split; [exact P1|exact L1].
Qed.
