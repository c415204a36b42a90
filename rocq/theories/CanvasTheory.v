(** * CanvasTheory: lemmas about the canvas operations *)
From Verif Require Import Base Vec Float32 GTypes Graphics ThermalImage SpecCanvas.
Local Open Scope Z_scope.
Local Arguments at_ : simpl never.
Local Arguments vlen : simpl never.

Lemma height_of : forall c W H, 0 < W -> 0 <= H -> cv_width c = W -> vlen (cv_bytes c) = W * H ->
  get_canvas_height c = H.
Proof.
  intros c W H HW HH E L. unfold get_canvas_height. rewrite E, L.
  destruct (Z.eqb_spec W 0); [lia|]. rewrite Z.mul_comm. apply Z.div_mul. lia.
Qed.
Lemma shows_height : forall c W H p, shows c W H p -> get_canvas_height c = H.
Proof. intros c W H p (HW & HH & E & L & _). exact (height_of c W H HW HH E L). Qed.

Lemma shows_unique : forall c c' W H p q, shows c W H p -> shows c' W H q ->
  (forall X Y, 0 <= X < W -> 0 <= Y < H -> p X Y = q X Y) ->
  cv_bytes c = cv_bytes c' /\ cv_width c = cv_width c'.
Proof.
  intros c c' W H p q (HW & HH & E & L & P) (_ & _ & E' & L' & Q) Hpq.
  split; [|congruence].
  apply (at_ext rgba_blank); [congruence|]. intros k Hk. rewrite L in Hk.
  destruct (rowmajor_split_range W H k HW Hk) as [H1 H2].
  rewrite <- (rowmajor_split W k HW). rewrite P, Q by assumption. apply Hpq; assumption.
Qed.

Lemma canvas_eq : forall c c', cv_bytes c = cv_bytes c' -> cv_width c = cv_width c' -> same_setup c c' -> c = c'.
Proof.
  intros [b w a p e] [b' w' a' p' e'] H1 H2 (H3 & H4 & H5). cbn in *. congruence.
Qed.

(** ** Rotations: scatter loops with every target hit exactly once *)
Lemma rotate_loop : forall (c : canvas) W H (f : Z -> Z -> Z) (g : Z -> rgba),
  0 < W -> 0 <= H -> vlen (cv_bytes c) = W * H ->
  (forall x y, 0 <= x < W -> 0 <= y < H -> 0 <= f x y < W * H /\ at_ rgba_blank (cv_bytes c) (y * W + x) = g (f x y)) ->
  (forall k, 0 <= k < W * H -> exists x y, 0 <= x < W /\ 0 <= y < H /\ f x y = k) ->
  exists b, for_range H (fun y acc => for_range W (fun x acc =>
            do p <- vget (cv_bytes c) (y * W + x); vset acc (f x y) p) acc)
          (repeat rgba_blank (Z.to_nat (W * H))) = Ok b /\ vlen b = W * H /\
    forall k, 0 <= k < W * H -> at_ rgba_blank b k = g k.
Proof.
  intros c W H f g HW HH L F S.
  assert (HWH : 0 <= W * H) by (apply Z.mul_nonneg_nonneg; lia).
  assert (C : covers rgba_blank g (W * H)
     (fun k => exists y, 0 <= y < H /\ exists x, 0 <= x < W /\ k = f x y)
     (for_range H (fun y acc => for_range W (fun x acc =>
            do p <- vget (cv_bytes c) (y * W + x); vset acc (f x y) p) acc))).
  { apply covers_for; [exact HH|]. intros y Hy.
    apply (covers_for rgba_blank g (W * H) W (fun x k => k = f x y)); [lia|]. intros x Hx.
    destruct (F x y Hx Hy) as [F1 F2].
    eapply covers_ext; [|apply covers_vset; [exact F1|reflexivity]].
    intros acc Hacc. rewrite (vget_ok rgba_blank) by (rewrite L; apply rowmajor_range; assumption).
    cbn [bind]. rewrite F2. reflexivity. }
  destruct (C (repeat rgba_blank (Z.to_nat (W * H)))) as (b & E & Lb & _ & G & _).
  { rewrite vlen_repeat. lia. }
  exists b. split; [exact E|]. split; [exact Lb|]. intros k Hk. apply G; [exact Hk|].
  destruct (S k Hk) as (x & y & Hx & Hy & <-). exists y. split; [exact Hy|]. exists x. auto.
Qed.

Lemma rotate_90_shows : forall c W H p, 0 < H -> shows c W H p ->
  exists c', rotate_90 c = Ok c' /\ shows c' H W (turn_90 H p) /\ same_setup c c'.
Proof.
  intros c W H p HH Sh. pose proof (shows_height c W H p Sh) as Eh.
  destruct Sh as (HW & HH0 & E & L & P). unfold rotate_90. rewrite Eh, E.
  destruct (rotate_loop c W H (fun x y => x * H + (H - 1 - y))
     (fun k => turn_90 H p (k mod H) (k / H)) HW HH0 L) as (b & Eb & Lb & G).
  - intros x y Hx Hy. split.
    + rewrite (Z.mul_comm W H). apply rowmajor_range; lia.
    + rewrite P by assumption. unfold turn_90.
      rewrite rowmajor_mod, rowmajor_div by lia. f_equal. lia.
  - intros k Hk. rewrite (Z.mul_comm W H) in Hk. destruct (rowmajor_split_range H W k HH Hk) as [K1 K2].
    exists (k / H), (H - 1 - k mod H). split; [exact K2|]. split; [lia|].
    rewrite <- (rowmajor_split H k HH) at 3. lia.
  - cbv zeta. rewrite Eb. cbn [bind]. eexists. split; [reflexivity|]. split; [|repeat split].
    unfold shows. cbn. split; [exact HH|]. split; [lia|]. split; [reflexivity|].
    split; [lia|]. intros X Y HX HY. rewrite G by (rewrite (Z.mul_comm W H); apply rowmajor_range; assumption).
    rewrite rowmajor_mod, rowmajor_div by lia. reflexivity.
Qed.

Lemma rotate_180_shows : forall c W H p, shows c W H p ->
  exists c', rotate_180 c = Ok c' /\ shows c' W H (turn_180 W H p) /\ same_setup c c'.
Proof.
  intros c W H p Sh. pose proof (shows_height c W H p Sh) as Eh.
  destruct Sh as (HW & HH0 & E & L & P). unfold rotate_180. rewrite Eh, E.
  destruct (rotate_loop c W H (fun x y => (H - 1 - y) * W + (W - 1 - x))
     (fun k => turn_180 W H p (k mod W) (k / W)) HW HH0 L) as (b & Eb & Lb & G).
  - intros x y Hx Hy. split.
    + apply rowmajor_range; lia.
    + rewrite P by assumption. unfold turn_180.
      rewrite rowmajor_mod, rowmajor_div by lia. f_equal; lia.
  - intros k Hk. destruct (rowmajor_split_range W H k HW Hk) as [K1 K2].
    exists (W - 1 - k mod W), (H - 1 - k / W). split; [lia|]. split; [lia|].
    rewrite <- (rowmajor_split W k HW) at 3.
    replace (H - 1 - (H - 1 - k / W)) with (k / W) by lia.
    replace (W - 1 - (W - 1 - k mod W)) with (k mod W) by lia. reflexivity.
  - cbv zeta. rewrite Eb. cbn [bind]. eexists. split; [reflexivity|]. split; [|repeat split].
    unfold shows. cbn. split; [exact HW|]. split; [lia|]. split; [exact E|].
    split; [lia|]. intros X Y HX HY. rewrite G by (apply rowmajor_range; assumption).
    rewrite rowmajor_mod, rowmajor_div by lia. reflexivity.
Qed.

Lemma rotate_270_shows : forall c W H p, 0 < H -> shows c W H p ->
  exists c', rotate_270 c = Ok c' /\ shows c' H W (turn_270 W p) /\ same_setup c c'.
Proof.
  intros c W H p HH Sh. pose proof (shows_height c W H p Sh) as Eh.
  destruct Sh as (HW & HH0 & E & L & P). unfold rotate_270. rewrite Eh, E.
  destruct (rotate_loop c W H (fun x y => (W - 1 - x) * H + y)
     (fun k => turn_270 W p (k mod H) (k / H)) HW HH0 L) as (b & Eb & Lb & G).
  - intros x y Hx Hy. split.
    + rewrite (Z.mul_comm W H). apply rowmajor_range; lia.
    + rewrite P by assumption. unfold turn_270.
      rewrite rowmajor_mod, rowmajor_div by lia. f_equal; lia.
  - intros k Hk. rewrite (Z.mul_comm W H) in Hk. destruct (rowmajor_split_range H W k HH Hk) as [K1 K2].
    exists (W - 1 - k / H), (k mod H). split; [lia|]. split; [exact K1|].
    rewrite <- (rowmajor_split H k HH) at 3.
    replace (W - 1 - (W - 1 - k / H)) with (k / H) by lia. reflexivity.
  - cbv zeta. rewrite Eb. cbn [bind]. eexists. split; [reflexivity|]. split; [|repeat split].
    unfold shows. cbn. split; [exact HH|]. split; [lia|]. split; [reflexivity|].
    split; [lia|]. intros X Y HX HY. rewrite G by (rewrite (Z.mul_comm W H); apply rowmajor_range; assumption).
    rewrite rowmajor_mod, rowmajor_div by lia. reflexivity.
Qed.

(** ** Growing *)
Lemma chk_ok : forall lo hi x, lo <= x <= hi -> chk lo hi x = Ok x.
Proof. intros. unfold chk. replace ((lo <=? x) && (x <=? hi)) with true by lia. reflexivity. Qed.
Lemma chk_inv : forall lo hi x y, chk lo hi x = Ok y -> y = x /\ lo <= x <= hi.
Proof. intros lo hi x y H. unfold chk in H. destruct ((lo <=? x) && (x <=? hi)) eqn:E; [|discriminate]. injection H as <-. lia. Qed.

Lemma expand_to_height_shows : forall c W H p h, shows c W H p -> 0 <= h -> W * h <= u32_max ->
  exists c', expand_to_height h c = Ok c' /\
    shows c' W (Z.max H h) (fun X Y => if Y <? H then p X Y else cv_paper_color c) /\ same_setup c c'.
Proof.
  intros c W H p h (HW & HH & E & L & P) Hh Hb. unfold expand_to_height, mul_u32. rewrite E.
  assert (HWh : 0 <= W * h) by (apply Z.mul_nonneg_nonneg; lia).
  rewrite chk_ok by lia. cbn [bind]. rewrite L.
  destruct (Z.leb_spec (W * h) (W * H)) as [Hle|Hlt].
  - exists c. split; [reflexivity|]. split; [|repeat split].
    assert (h <= H) by (apply Z.mul_le_mono_pos_l with (p := W); assumption).
    rewrite Z.max_l by lia. split; [exact HW|]. split; [exact HH|]. split; [exact E|]. split; [exact L|].
    intros X Y HX HY. destruct (Z.ltb_spec Y H); [|lia]. apply P; assumption.
  - eexists. split; [reflexivity|]. split; [|repeat split].
    assert (H < h) by (apply Z.mul_lt_mono_pos_l with (p := W); assumption).
    rewrite Z.max_r by lia. unfold shows. cbn [cv_bytes cv_width set_cv_bytes].
    split; [exact HW|]. split; [lia|]. split; [exact E|]. split.
    + rewrite vlen_app, vlen_repeat, L. lia.
    + intros X Y HX HY. destruct (Z.ltb_spec Y H).
      * rewrite at_app_l by (rewrite L; apply rowmajor_range; lia). apply P; lia.
      * assert (R : W * H <= Y * W + X) by (rewrite (Z.mul_comm Y W); pose proof (Z.mul_le_mono_nonneg_l H Y W ltac:(lia) ltac:(lia)); lia).
        assert (R2 : Y * W + X < W * h) by (apply rowmajor_range; lia).
        rewrite at_app_r by lia. apply at_repeat. rewrite L. lia.
Qed.

Lemma add_top_margin_shows : forall c W H p h, shows c W H p -> 0 <= h -> W * h <= u32_max ->
  exists c', add_top_margin h c = Ok c' /\
    shows c' W (h + H) (fun X Y => if Y <? h then cv_paper_color c else p X (Y - h)) /\ same_setup c c'.
Proof.
  intros c W H p h (HW & HH & E & L & P) Hh Hb. unfold add_top_margin, mul_u32. rewrite E.
  assert (HWh : 0 <= W * h) by (apply Z.mul_nonneg_nonneg; lia).
  rewrite chk_ok by lia. cbn [bind]. eexists. split; [reflexivity|]. split; [|repeat split].
  unfold shows. cbn [cv_bytes cv_width set_cv_bytes].
  split; [exact HW|]. split; [lia|]. split; [exact E|]. split.
  - rewrite vlen_app, vlen_repeat, L. lia.
  - intros X Y HX HY. destruct (Z.ltb_spec Y h).
    + pose proof (rowmajor_range W h X Y HX ltac:(lia)).
      rewrite at_app_l by (rewrite vlen_repeat; lia). apply at_repeat. lia.
    + assert (Y * W + X - W * h = (Y - h) * W + X) by lia.
      assert (W * h <= Y * W + X) by (pose proof (Z.mul_nonneg_nonneg W (Y - h) ltac:(lia) ltac:(lia)); lia).
      rewrite at_app_r by (rewrite vlen_repeat; lia). rewrite vlen_repeat.
      replace (Y * W + X - Z.of_nat (Z.to_nat (W * h))) with ((Y - h) * W + X) by lia.
      apply P; lia.
Qed.

Lemma splice_app {A} : forall (a b xs : list A) i, i = vlen a -> splice_insert i xs (a ++ b) = Ok (a ++ xs ++ b).
Proof.
  intros a b xs i ->. unfold splice_insert. rewrite vlen_app.
  pose proof (vlen_nonneg a). pose proof (vlen_nonneg b).
  replace ((vlen a <? 0) || (vlen a + vlen b <? vlen a)) with false by lia.
  unfold vlen. rewrite Nat2Z.id. rewrite firstn_app, skipn_app, Nat.sub_diag, firstn_all, skipn_all. cbn.
  rewrite app_nil_r. reflexivity.
Qed.

Lemma at_firstn {A} : forall (d : A) l n i, 0 <= i < n -> at_ d (firstn (Z.to_nat n) l) i = at_ d l i.
Proof.
  intros d l n i Hi. unfold at_. revert i n Hi. induction l as [|x l IH]; intros i n Hi.
  - rewrite firstn_nil. reflexivity.
  - replace (Z.to_nat n) with (S (Z.to_nat (n - 1))) by lia. cbn [firstn].
    destruct (Z.eq_dec i 0) as [->|Hne]; [reflexivity|].
    replace (Z.to_nat i) with (S (Z.to_nat (i - 1))) by lia. cbn [nth]. apply IH. lia.
Qed.
Lemma at_skipn {A} : forall (d : A) l n i, 0 <= n -> 0 <= i -> at_ d (skipn (Z.to_nat n) l) i = at_ d l (n + i).
Proof.
  intros d l n i Hn Hi. unfold at_. replace (Z.to_nat (n + i)) with (Z.to_nat n + Z.to_nat i)%nat by lia.
  revert l. generalize (Z.to_nat n). clear. intros n. induction n as [|n IH]; intros l; [reflexivity|].
  destruct l as [|x l]; [cbn; destruct (Z.to_nat i); reflexivity|]. cbn [skipn Nat.add nth]. apply IH.
Qed.
Lemma vlen_skipn {A} : forall (l : list A) n, 0 <= n <= vlen l -> vlen (skipn (Z.to_nat n) l) = vlen l - n.
Proof. intros l n H. unfold vlen in *. rewrite skipn_length. lia. Qed.
Lemma vlen_firstn {A} : forall (l : list A) n, 0 <= n <= vlen l -> vlen (firstn (Z.to_nat n) l) = n.
Proof. intros l n H. unfold vlen in *. rewrite firstn_length. lia. Qed.
Lemma skipn_skipn' {A} : forall (l : list A) n m, 0 <= n -> 0 <= m ->
  skipn (Z.to_nat m) (skipn (Z.to_nat n) l) = skipn (Z.to_nat (n + m)) l.
Proof.
  intros l n m Hn Hm. replace (Z.to_nat (n + m)) with (Z.to_nat n + Z.to_nat m)%nat by lia.
  revert l. generalize (Z.to_nat n) (Z.to_nat m). clear. intros n m. induction n as [|n IH]; intros l; [reflexivity|].
  destruct l as [|x l]; [rewrite !skipn_nil; reflexivity|]. cbn [skipn Nat.add]. apply IH.
Qed.

Lemma expand_to_width_shows : forall c W H p nw, shows c W H p -> W <= nw ->
  exists c', expand_to_width nw c = Ok c' /\
    shows c' nw H (fun X Y => let l := (nw - W) / 2 in
                     if (l <=? X) && (X <? l + W) then p (X - l) Y else cv_paper_color c) /\ same_setup c c'.
Proof.
  intros c W H p nw Sh Hnw. pose proof (shows_height c W H p Sh) as Eh.
  destruct Sh as (HW & HH & E & L & P). unfold expand_to_width. rewrite Eh, E.
  destruct (Z.ltb_spec nw W); [lia|]. cbv zeta. rewrite L.
  remember ((nw - W) / 2) as l eqn:El.
  assert (Hl : 0 <= l /\ 2 * l <= nw - W) by (subst l; split; [apply Z.div_pos; lia|lia]). clear El.
  remember (nw - (l + W)) as r eqn:Er. assert (Hr : 0 <= r) by lia.
  pose proof (Z.mul_le_mono_nonneg_r W nw H HH Hnw) as Hm.
  destruct (Z.ltb_spec (H * nw) (W * H)) as [|_]; [lia|].
  destruct (for_range_rule (fun y st => exists pre, fst st = pre ++ skipn (Z.to_nat (y * W)) (cv_bytes c) /\
      vlen pre = y * nw /\ snd st = y * nw /\
      forall X Y, 0 <= X < nw -> 0 <= Y < y -> at_ rgba_blank pre (Y * nw + X) =
         if (l <=? X) && (X <? l + W) then p (X - l) Y else cv_paper_color c)
     H (fun _ st => let '(b, i) := st in
             do b <- splice_insert i (repeat (cv_paper_color c) (Z.to_nat l)) b;
             do b <- splice_insert (i + (l + W)) (repeat (cv_paper_color c) (Z.to_nat r)) b;
             Ok (b, i + (l + W) + r)) (cv_bytes c, 0)) as ((b & i) & Eb & Pb).
  - exact HH.
  - exists []. cbn [fst snd]. repeat split. intros; lia.
  - intros y [b i] Hy (pre & H1 & H2 & H3 & H4). cbn [fst snd] in H1, H3. subst b i.
    assert (HyW : 0 <= y * W) by (apply Z.mul_nonneg_nonneg; lia).
    assert (HyW2 : y * W + W <= W * H) by (pose proof (Z.mul_le_mono_nonneg_l (y + 1) H W ltac:(lia) ltac:(lia)); lia).
    assert (HyN : 0 <= y * nw) by (apply Z.mul_nonneg_nonneg; lia).
    rewrite splice_app by (symmetry; exact H2). cbn [bind].
    remember (skipn (Z.to_nat (y * W)) (cv_bytes c)) as suf eqn:Esuf.
    assert (Lsuf : vlen suf = W * H - y * W) by (subst suf; rewrite vlen_skipn by lia; lia).
    rewrite <- (firstn_skipn (Z.to_nat W) suf). rewrite !app_assoc. rewrite <- (app_assoc _ _ (skipn _ _)).
    replace (((pre ++ repeat (cv_paper_color c) (Z.to_nat l)) ++ (firstn (Z.to_nat W) suf ++ skipn (Z.to_nat W) suf)))
      with (((pre ++ repeat (cv_paper_color c) (Z.to_nat l)) ++ firstn (Z.to_nat W) suf) ++ skipn (Z.to_nat W) suf)
      by (rewrite app_assoc; reflexivity).
    assert (L3 : vlen ((pre ++ repeat (cv_paper_color c) (Z.to_nat l)) ++ firstn (Z.to_nat W) suf) = y * nw + (l + W)).
    { rewrite !vlen_app, vlen_repeat, vlen_firstn by lia. lia. }
    rewrite splice_app by (symmetry; exact L3). cbn [bind].
    eexists. split; [reflexivity|].
    exists (((pre ++ repeat (cv_paper_color c) (Z.to_nat l)) ++ firstn (Z.to_nat W) suf) ++ repeat (cv_paper_color c) (Z.to_nat r)).
    cbn [fst snd]. split.
    { rewrite <- (app_assoc _ (repeat (cv_paper_color c) (Z.to_nat r))). do 2 f_equal.
      subst suf. rewrite skipn_skipn' by lia. do 2 f_equal. lia. }
    split; [rewrite vlen_app, L3, vlen_repeat; lia|]. split; [lia|].
    intros X Y HX HY. destruct (Z.eq_dec Y y) as [->|Hne].
    + destruct (Z.leb_spec l X); cbn [andb].
      * destruct (Z.ltb_spec X (l + W)).
        -- rewrite at_app_l by (rewrite L3; lia). rewrite at_app_r by (rewrite vlen_app, vlen_repeat; lia).
           rewrite vlen_app, vlen_repeat, H2. rewrite at_firstn by lia. subst suf. rewrite at_skipn by lia.
           rewrite <- (P (X - l) y) by lia. f_equal. lia.
        -- rewrite at_app_r by (rewrite L3; lia). rewrite L3. apply at_repeat. lia.
      * rewrite at_app_l by (rewrite L3; lia). rewrite at_app_l by (rewrite vlen_app, vlen_repeat; lia).
        rewrite at_app_r by lia. rewrite H2. apply at_repeat. lia.
    + pose proof (rowmajor_range nw y X Y HX ltac:(lia)) as R.
      rewrite at_app_l by (rewrite L3; lia). rewrite at_app_l by (rewrite vlen_app, vlen_repeat; lia).
      rewrite at_app_l by lia. apply H4; lia.
  - rewrite Eb. cbn [bind]. destruct Pb as (pre & H1 & H2 & H3 & H4). cbn [fst snd] in *.
    rewrite (skipn_all2 (cv_bytes c)) in H1 by (pose proof L; unfold vlen in *; lia). rewrite app_nil_r in H1. subst b.
    eexists. split; [reflexivity|]. split; [|repeat split].
    unfold shows. cbn [cv_bytes cv_width set_cv_bytes set_cv_width].
    split; [lia|]. split; [exact HH|]. split; [reflexivity|]. split; [lia|]. intros X Y HX HY. apply H4; lia.
Qed.

(** ** Painting *)
Lemma fold_res_rule {A B} (d : A) (P : Z -> B -> Prop) (f : A -> B -> res B) : forall l b,
  P 0 b ->
  (forall i acc, 0 <= i < vlen l -> P i acc -> exists acc', f (at_ d l i) acc = Ok acc' /\ P (i + 1) acc') ->
  exists b', fold_res f l b = Ok b' /\ P (vlen l) b'.
Proof.
  intros l. revert P. induction l as [|a l IH]; intros P b H0 Hs.
  - exists b. split; [reflexivity|exact H0].
  - destruct (Hs 0 b) as (b1 & E1 & P1); [rewrite vlen_cons; pose proof (vlen_nonneg l); lia|exact H0|].
    change (at_ d (a :: l) 0) with a in E1.
    destruct (IH (fun i => P (i + 1)) b1 P1) as (b2 & E2 & P2).
    + intros i acc Hi Hp. destruct (Hs (i + 1) acc) as (b3 & E3 & P3); [rewrite vlen_cons; lia|exact Hp|].
      exists b3. split; [|exact P3]. rewrite <- E3. f_equal. unfold at_.
      replace (Z.to_nat (i + 1)) with (S (Z.to_nat i)) by lia. reflexivity.
    + exists b2. cbn [fold_res]. rewrite E1. cbn [bind]. split; [exact E2|]. rewrite vlen_cons.
      replace (1 + vlen l) with (vlen l + 1) by lia. exact P2.
Qed.

(** The painting loop on a buffer of W x H pixels: the block [x, x+fw) x [y, y+fh) is combined
    pixel by pixel, everything else is untouched. *)
Lemma paint_loop : forall op W H x y fw fh fp bytes,
  0 < W -> 0 <= H -> vlen bytes = W * H -> W * (y + fh) <= u32_max ->
  0 <= x -> 0 < fw -> x + fw <= W -> 0 <= y -> 0 <= fh -> y + fh <= H -> vlen fp = fw * fh ->
  exists cx cy bytes', fold_res (paint_step op W x fw) fp (x, y, bytes) = Ok (cx, cy, bytes') /\
    vlen bytes' = W * H /\
    forall X Y, 0 <= X < W -> 0 <= Y < H ->
      at_ rgba_blank bytes' (Y * W + X) =
      if (x <=? X) && (X <? x + fw) && (y <=? Y) && (Y <? y + fh)
      then op (at_ rgba_blank bytes (Y * W + X)) (at_ rgba_blank fp ((Y - y) * fw + (X - x)))
      else at_ rgba_blank bytes (Y * W + X).
Proof.
  intros op W H x y fw fh fp bytes HW HH L Hmax Hx Hfw Hxw Hy Hfh Hyh Lfp.
  assert (HWm : y + fh = 0 \/ W <= u32_max).
  { destruct (Z.eq_dec (y + fh) 0); [left; assumption|right]. pose proof (Z.mul_le_mono_nonneg_l 1 (y + fh) W ltac:(lia) ltac:(lia)). lia. }
  assert (HHm : y + fh <= u32_max).
  { pose proof (Z.mul_le_mono_nonneg_r 1 W (y + fh) ltac:(lia) ltac:(lia)). lia. }
  destruct (fold_res_rule rgba_blank (fun k st => let '(cx, cy, b) := st in
      x <= cx < x + fw /\ y <= cy /\ k = (cy - y) * fw + (cx - x) /\ vlen b = W * H /\
      forall X Y, 0 <= X < W -> 0 <= Y < H ->
      at_ rgba_blank b (Y * W + X) =
      if (x <=? X) && (X <? x + fw) && (y <=? Y) && ((Y - y) * fw + (X - x) <? k)
      then op (at_ rgba_blank bytes (Y * W + X)) (at_ rgba_blank fp ((Y - y) * fw + (X - x)))
      else at_ rgba_blank bytes (Y * W + X))
     (paint_step op W x fw) fp (x, y, bytes)) as ([[cx cy] b] & Eb & Pb).
  - split; [lia|]. split; [lia|]. split; [lia|]. split; [exact L|]. intros X Y HX HY.
    destruct ((x <=? X) && (X <? x + fw) && (y <=? Y) && ((Y - y) * fw + (X - x) <? 0)) eqn:B; [|reflexivity].
    exfalso. pose proof (Z.mul_nonneg_nonneg (Y - y) fw ltac:(lia) ltac:(lia)). lia.
  - intros k [[cx cy] b] Hk (H1 & H2 & H3 & H4 & H5). rewrite Lfp in Hk.
    assert (Hcy : cy - y < fh).
    { destruct (Z_lt_ge_dec (cy - y) fh) as [|G]; [assumption|].
      pose proof (Z.mul_le_mono_nonneg_r fh (cy - y) fw ltac:(lia) ltac:(lia)). lia. }
    assert (HX : 0 <= cx < W) by lia. assert (HY : 0 <= cy < H) by lia.
    pose proof (rowmajor_range W (y + fh) cx cy HX ltac:(lia)) as HR. pose proof (rowmajor_range W H cx cy HX HY) as HR'.
    assert (HcW : 0 <= cy * W) by (apply Z.mul_nonneg_nonneg; lia).
    unfold paint_step, mul_u32, add_u32, sub_u32, u32_max in *.
    rewrite chk_ok by lia. cbn [bind]. rewrite chk_ok by lia. cbn [bind].
    rewrite (vget_ok rgba_blank) by lia. cbn [bind].
    destruct (vset_ok b (cy * W + cx) (op (at_ rgba_blank b (cy * W + cx)) (at_ rgba_blank fp k))) as (b1 & E1 & L1 & G1); [lia|].
    rewrite E1. cbn [bind]. rewrite chk_ok by lia. cbn [bind]. rewrite chk_ok by lia. cbn [bind].
    assert (Same : forall X Y, 0 <= X < W -> 0 <= Y < H ->
      at_ rgba_blank b1 (Y * W + X) =
      if (x <=? X) && (X <? x + fw) && (y <=? Y) && ((Y - y) * fw + (X - x) <? k + 1)
      then op (at_ rgba_blank bytes (Y * W + X)) (at_ rgba_blank fp ((Y - y) * fw + (X - x)))
      else at_ rgba_blank bytes (Y * W + X)).
    { intros X Y HX' HY'. rewrite G1 by (pose proof (rowmajor_range W H X Y HX' HY'); lia).
      destruct (Z.eqb_spec (Y * W + X) (cy * W + cx)) as [Eq|Ne].
      - destruct (rowmajor_inj W Y X cy cx HX' HX Eq) as [-> ->]. rewrite <- H3.
        replace ((x <=? cx) && (cx <? x + fw) && (y <=? cy) && (k <? k + 1)) with true by lia.
        rewrite H5 by assumption. rewrite <- H3.
        replace ((x <=? cx) && (cx <? x + fw) && (y <=? cy) && (k <? k)) with false by lia. reflexivity.
      - rewrite H5 by assumption.
        assert (Hb : (x <=? X) && (X <? x + fw) && (y <=? Y) && ((Y - y) * fw + (X - x) <? k) =
                     (x <=? X) && (X <? x + fw) && (y <=? Y) && ((Y - y) * fw + (X - x) <? k + 1)).
        { destruct ((x <=? X) && (X <? x + fw) && (y <=? Y)) eqn:B; [|reflexivity]. cbn [andb].
          assert ((Y - y) * fw + (X - x) <> k).
          { intro Ek. rewrite H3 in Ek.
            destruct (rowmajor_inj fw (Y - y) (X - x) (cy - y) (cx - x) ltac:(lia) ltac:(lia) Ek) as [A1 A2].
            apply Ne. replace Y with cy by lia. replace X with cx by lia. reflexivity. }
          lia. }
        rewrite Hb. reflexivity. }
    destruct (Z.eqb_spec cx (x + fw - 1)) as [Ec|Ec].
    + rewrite chk_ok by lia. cbn [bind]. eexists. split; [reflexivity|]. cbv beta iota.
      split; [lia|]. split; [lia|]. split; [|split; [lia|exact Same]].
      rewrite H3, Ec. clear. lia.
    + rewrite chk_ok by lia. cbn [bind]. eexists. split; [reflexivity|]. cbv beta iota.
      split; [lia|]. split; [lia|]. split; [lia|]. split; [lia|exact Same].
  - destruct Pb as (H1 & H2 & H3 & H4 & H5). exists cx, cy, b. split; [exact Eb|]. split; [exact H4|].
    intros X Y HX HY. rewrite H5 by assumption. rewrite Lfp.
    destruct ((x <=? X) && (X <? x + fw) && (y <=? Y)) eqn:B; [|reflexivity]. cbn [andb].
    replace ((Y - y) * fw + (X - x) <? fw * fh) with (Y <? y + fh); [reflexivity|].
    destruct (Z.ltb_spec Y (y + fh)).
    + pose proof (rowmajor_range fw fh (X - x) (Y - y) ltac:(lia) ltac:(lia)). lia.
    + pose proof (Z.mul_le_mono_nonneg_l fh (Y - y) fw ltac:(lia) ltac:(lia)). lia.
Qed.

(** ** Cropping *)
Lemma crop_pixels_ok : forall pixels w h mw mh (ch : bool),
  0 <= w -> 0 <= h -> 0 <= mw -> 0 <= mh -> vlen pixels = w * h -> w * h <= u32_max ->
  let nw := Z.min w mw in let nh := if ch : bool then Z.min h mh else h in
  exists cr, crop_pixels pixels w h mw mh ch = Ok (nw, nh, cr) /\ vlen cr = nw * nh /\
    forall X Y, 0 <= X < nw -> 0 <= Y < nh -> at_ rgba_blank cr (Y * nw + X) = at_ rgba_blank pixels (Y * w + X).
Proof.
  intros pixels w h mw mh ch Hw Hh Hmw Hmh L Hmax nw nh. unfold crop_pixels.
  replace (if mw <? w then mw else w) with nw by (unfold nw; destruct (Z.ltb_spec mw w); lia).
  replace (if ch then if mh <? h then mh else h else h) with nh
    by (unfold nh; destruct ch; [destruct (Z.ltb_spec mh h); lia|reflexivity]).
  assert (Hnw : 0 <= nw <= w) by (unfold nw; lia).
  assert (Hnh : 0 <= nh <= h) by (unfold nh; destruct ch; lia).
  pose proof (Z.mul_le_mono_nonneg nw w nh h ltac:(lia) ltac:(lia) ltac:(lia) ltac:(lia)) as HM.
  pose proof (Z.mul_nonneg_nonneg nw nh ltac:(lia) ltac:(lia)) as HM0.
  clearbody nw nh. unfold mul_u32 at 1. rewrite chk_ok by lia. cbn [bind].
  destruct (for_range_rule (fun k acc => vlen acc = nw * k /\
      forall X Y, 0 <= X < nw -> 0 <= Y < k -> at_ rgba_blank acc (Y * nw + X) = at_ rgba_blank pixels (Y * w + X))
     nh (fun y acc =>
       do row_start <- mul_u32 y w;
       do row <- vslice pixels row_start (row_start + nw);
       Ok (acc ++ row)) (@nil rgba)) as (cr & E & P1 & P2).
  - lia.
  - split; [unfold vlen; cbn; lia|]. intros; lia.
  - intros k acc Hk (L1 & G1).
    pose proof (Z.mul_le_mono_nonneg (k + 1) h w w ltac:(lia) ltac:(lia) ltac:(lia) ltac:(lia)) as HK.
    pose proof (Z.mul_nonneg_nonneg k w ltac:(lia) ltac:(lia)) as HK0.
    unfold mul_u32. rewrite chk_ok by lia. cbn [bind].
    rewrite vslice_ok by lia. cbn [bind]. eexists. split; [reflexivity|].
    replace (k * w + nw - k * w) with nw by lia.
    assert (Lr : vlen (firstn (Z.to_nat nw) (skipn (Z.to_nat (k * w)) pixels)) = nw)
      by (apply vlen_firstn; rewrite vlen_skipn; lia).
    split; [rewrite vlen_app, Lr; lia|]. intros X Y HX HY.
    destruct (Z.eq_dec Y k) as [->|Ne].
    + rewrite at_app_r by lia. rewrite at_firstn by lia. rewrite at_skipn by lia. f_equal. lia.
    + pose proof (rowmajor_range nw k X Y HX ltac:(lia)). rewrite at_app_l by lia. apply G1; lia.
  - exists cr. rewrite E. cbn [bind]. split; [reflexivity|]. split; [lia|exact P2].
Qed.

(** ** put_pixels *)
Definition grown (c : canvas) (H : Z) (p : picture) : picture := fun X Y => if Y <? H then p X Y else cv_paper_color c.

Lemma put_pixels_shows_gen : forall c W H p x y w h pixels (multiply : bool),
  shows c W H p -> 0 <= x < W -> 0 <= y -> 0 <= w -> 0 <= h -> vlen pixels = w * h ->
  (cv_auto_grow c = false -> y < H) ->
  x + w <= u32_max -> (cv_auto_grow c = false -> y + w <= u32_max) -> w * h <= u32_max ->
  let fw := Z.min w (W - x) in
  let fh := if cv_auto_grow c then h
            else if (W <? x + w) || (H <? y + w) then Z.min h (H - y) else h in
  y + fh <= u32_max -> W * (y + fh) <= u32_max ->
  let op := if multiply then multiply_foreground else blend_foreground in
  exists c', put_pixels x y w h pixels multiply c = Ok c' /\ same_setup c c' /\
    shows c' W (Z.max H (y + fh)) (fun X Y =>
      if (x <=? X) && (X <? x + fw) && (y <=? Y) && (Y <? y + fh)
      then op (grown c H p X Y) (at_ rgba_blank pixels ((Y - y) * w + (X - x)))
      else grown c H p X Y).
Proof.
  intros c W H p x y w h pixels multiply Hs Hx Hy Hw Hh Lp Hag Mxw Myw Mwh fw fh Myh Mtot op.
  pose proof (shows_height _ _ _ _ Hs) as EH. destruct Hs as (HW & HH & EW & L & P).
  pose proof (Z.mul_nonneg_nonneg w h ltac:(lia) ltac:(lia)) as Hwh0.
  unfold put_pixels. unfold mul_u32 at 1. rewrite chk_ok by lia. cbn [bind].
  replace (w * h <? vlen pixels) with false by lia. rewrite EW, EH.
  replace (W <=? x) with false by lia. cbn [orb].
  replace ((H <=? y) && negb (cv_auto_grow c)) with false
    by (destruct (cv_auto_grow c); [rewrite andb_false_r; reflexivity|specialize (Hag eq_refl); replace (H <=? y) with false by lia; reflexivity]).
  unfold add_u32 at 1. rewrite chk_ok by lia. cbn [bind].
  assert (Ech : (if cv_auto_grow c then Ok false else do ye <- add_u32 y w; Ok (H <? ye))
          = Ok (negb (cv_auto_grow c) && (H <? y + w))).
  { destruct (cv_auto_grow c); [reflexivity|]. specialize (Myw eq_refl). unfold add_u32. rewrite chk_ok by lia. reflexivity. }
  rewrite Ech. cbn [bind].
  assert (Ecrop : exists fp, (if (W <? x + w) || (negb (cv_auto_grow c) && (H <? y + w))
      then crop_pixels pixels w h (W - x) (if H <=? y then 0 else H - y) (negb (cv_auto_grow c))
      else Ok (w, h, pixels)) = Ok (fw, fh, fp) /\ vlen fp = fw * fh /\
      forall X Y, 0 <= X < fw -> 0 <= Y < fh -> at_ rgba_blank fp (Y * fw + X) = at_ rgba_blank pixels (Y * w + X)).
  { destruct ((W <? x + w) || (negb (cv_auto_grow c) && (H <? y + w))) eqn:B.
    - destruct (crop_pixels_ok pixels w h (W - x) (if H <=? y then 0 else H - y) (negb (cv_auto_grow c))
        Hw Hh ltac:(lia) ltac:(destruct (Z.leb_spec H y); lia) Lp Mwh) as (cr & E1 & E2 & E3).
      fold fw in E1, E2, E3.
      assert (Efh : (if negb (cv_auto_grow c) then Z.min h (if H <=? y then 0 else H - y) else h) = fh).
      { unfold fh. destruct (cv_auto_grow c); [reflexivity|]. cbn [negb andb] in *. rewrite B.
        specialize (Hag eq_refl). replace (H <=? y) with false by lia. reflexivity. }
      rewrite Efh in E1, E2, E3. exists cr. split; [exact E1|]. split; [exact E2|exact E3].
    - apply orb_false_iff in B. destruct B as [B1 B2].
      assert (Ew : fw = w) by (unfold fw; lia).
      assert (Eh : fh = h).
      { unfold fh. destruct (cv_auto_grow c); [reflexivity|]. cbn [negb andb] in B2. rewrite B1, B2. reflexivity. }
      rewrite Ew, Eh. exists pixels. split; [reflexivity|]. split; [exact Lp|]. reflexivity. }
  destruct Ecrop as (fp & Ecr & Lfp & Gfp). rewrite Ecr. cbn [bind].
  assert (Hfw : 0 <= fw <= w /\ x + fw <= W) by (unfold fw; lia).
  assert (Hfh : 0 <= fh <= h).
  { unfold fh. destruct (cv_auto_grow c); [lia|]. specialize (Hag eq_refl). destruct ((W <? x + w) || (H <? y + w)); lia. }
  clearbody fw fh.
  unfold add_u32 at 1. rewrite chk_ok by lia. cbn [bind].
  assert (Hs : shows c W H p) by (split; [exact HW|split; [exact HH|split; [exact EW|split; [exact L|exact P]]]]).
  destruct (expand_to_height_shows c W H p (y + fh) Hs ltac:(lia) ltac:(lia)) as (c1 & E1 & S1 & SS1).
  rewrite E1. cbn [bind].
  pose proof S1 as (_ & _ & EW1 & L1 & P1). rewrite EW1.
  assert (EX : exists cx cy bytes', fold_res (paint_step op W x fw) fp (x, y, cv_bytes c1) = Ok (cx, cy, bytes') /\
    vlen bytes' = W * Z.max H (y + fh) /\
    forall X Y, 0 <= X < W -> 0 <= Y < Z.max H (y + fh) ->
      at_ rgba_blank bytes' (Y * W + X) =
      if (x <=? X) && (X <? x + fw) && (y <=? Y) && (Y <? y + fh)
      then op (at_ rgba_blank (cv_bytes c1) (Y * W + X)) (at_ rgba_blank fp ((Y - y) * fw + (X - x)))
      else at_ rgba_blank (cv_bytes c1) (Y * W + X)).
  { destruct (Z.eq_dec fw 0) as [F0|F0].
    - assert (fp = []) as -> by (destruct fp; [reflexivity|exfalso; rewrite vlen_cons in Lfp; pose proof (vlen_nonneg fp); rewrite F0 in Lfp; lia]).
      exists x, y, (cv_bytes c1). split; [reflexivity|]. split; [exact L1|]. intros X Y _ _.
      replace ((x <=? X) && (X <? x + fw) && (y <=? Y) && (Y <? y + fh)) with false by lia. reflexivity.
    - apply paint_loop; try assumption; try lia. }
  destruct EX as (cx & cy & b' & EF & LF & GF).
  fold op. rewrite EF. cbn [bind]. eexists. split; [reflexivity|]. split.
  - destruct SS1 as (A1 & A2 & A3). split; [exact A1|]. split; [exact A2|exact A3].
  - split; [exact HW|]. split; [lia|]. split; [exact EW1|]. split; [exact LF|].
    intros X Y HX HY. cbn [cv_bytes set_cv_bytes]. rewrite GF by assumption.
    assert (EG : at_ rgba_blank (cv_bytes c1) (Y * W + X) = grown c H p X Y).
    { rewrite P1 by assumption. reflexivity. }
    rewrite EG. destruct ((x <=? X) && (X <? x + fw) && (y <=? Y) && (Y <? y + fh)) eqn:B; [|reflexivity].
    rewrite Gfp by lia. reflexivity.
Qed.

Lemma put_pixels_shows : forall c W H p x y w h pixels (multiply : bool),
  shows c W H p -> 0 <= x < W -> 0 <= y -> 0 <= w -> 0 <= h -> vlen pixels = w * h ->
  (cv_auto_grow c = false -> y < H) ->
  x + w <= u32_max -> (cv_auto_grow c = false -> y + w <= u32_max) -> y + h <= u32_max -> w * h <= u32_max -> W * Z.max H (y + h) <= u32_max ->
  let fw := Z.min w (W - x) in
  let fh := if cv_auto_grow c then h
            else if (W <? x + w) || (H <? y + w) then Z.min h (H - y) else h in
  let op := if multiply then multiply_foreground else blend_foreground in
  exists c', put_pixels x y w h pixels multiply c = Ok c' /\ same_setup c c' /\
    shows c' W (Z.max H (y + fh)) (fun X Y =>
      if (x <=? X) && (X <? x + fw) && (y <=? Y) && (Y <? y + fh)
      then op (grown c H p X Y) (at_ rgba_blank pixels ((Y - y) * w + (X - x)))
      else grown c H p X Y).
Proof.
  intros c W H p x y w h pixels multiply Hs Hx Hy Hw Hh Lp Hag Mxw Myw Myh Mwh Mtot.
  assert (Hfh : (if cv_auto_grow c then h else if (W <? x + w) || (H <? y + w) then Z.min h (H - y) else h) <= h)
    by (destruct (cv_auto_grow c), ((W <? x + w) || (H <? y + w)); lia).
  pose proof Hs as (HW & _).
  pose proof (Z.mul_le_mono_nonneg_l (y + (if cv_auto_grow c then h else if (W <? x + w) || (H <? y + w) then Z.min h (H - y) else h)) (Z.max H (y + h)) W ltac:(lia) ltac:(lia)).
  apply put_pixels_shows_gen; try assumption; lia.
Qed.

(** ** Upside-down printing *)
Lemma swap_ok : forall (l : list rgba) i j, 0 <= i < vlen l -> 0 <= j < vlen l ->
  exists l', swap l i j = Ok l' /\ vlen l' = vlen l /\
    forall k, 0 <= k -> at_ rgba_blank l' k =
      if k =? j then at_ rgba_blank l i else if k =? i then at_ rgba_blank l j else at_ rgba_blank l k.
Proof.
  intros l i j Hi Hj. unfold swap. rewrite !(vget_ok rgba_blank) by assumption. cbn [bind].
  destruct (vset_ok l i (at_ rgba_blank l j) Hi) as (l1 & E1 & L1 & G1). rewrite E1. cbn [bind].
  destruct (vset_ok l1 j (at_ rgba_blank l i) ltac:(lia)) as (l2 & E2 & L2 & G2). rewrite E2.
  exists l2. split; [reflexivity|]. split; [lia|]. intros k Hk. rewrite G2 by exact Hk.
  destruct (k =? j); [reflexivity|]. apply G1. exact Hk.
Qed.

Lemma flip_loop : forall w h sub, 0 < w -> 0 <= h -> vlen sub = w * h ->
  exists r, for_range (h / 2) (fun i acc => for_range w (fun j acc =>
         swap acc (i * w + j) ((h - i - 1) * w + j)) acc) sub = Ok r /\ vlen r = w * h /\
    forall X Y, 0 <= X < w -> 0 <= Y < h -> at_ rgba_blank r (Y * w + X) = at_ rgba_blank sub ((h - 1 - Y) * w + X).
Proof.
  intros w h sub Hw Hh L.
  assert (Hd : 2 * (h / 2) <= h < 2 * (h / 2) + 2).
  { pose proof (Z.mod_pos_bound h 2 ltac:(lia)). pose proof (Z.div_mod h 2 ltac:(lia)). lia. }
  assert (Hd0 : 0 <= h / 2) by (apply Z.div_pos; lia).
  remember (h / 2) as m eqn:Em. clear Em.
  destruct (for_range_rule (fun i acc => vlen acc = w * h /\
      forall X Y, 0 <= X < w -> 0 <= Y < h -> at_ rgba_blank acc (Y * w + X) =
        at_ rgba_blank sub ((if (Y <? i) || (h - i <=? Y) then h - 1 - Y else Y) * w + X)) m
      (fun i acc => for_range w (fun j acc => swap acc (i * w + j) ((h - i - 1) * w + j)) acc) sub)
    as (r & E & Lr & Gr).
  - exact Hd0.
  - split; [exact L|]. intros X Y HX HY. replace ((Y <? 0) || (h - 0 <=? Y)) with false by lia. reflexivity.
  - intros i acc Hi (La & Ga).
    destruct (for_range_rule (fun j acc2 => vlen acc2 = w * h /\
        forall X Y, 0 <= X < w -> 0 <= Y < h -> at_ rgba_blank acc2 (Y * w + X) =
          at_ rgba_blank sub ((if (Y <? i) || (h - i <=? Y) || (X <? j) && ((Y =? i) || (Y =? h - i - 1)) then h - 1 - Y else Y) * w + X)) w
        (fun j acc => swap acc (i * w + j) ((h - i - 1) * w + j)) acc) as (r & E & Lr & Gr).
    + lia.
    + split; [exact La|]. intros X Y HX HY. rewrite Ga by assumption. replace (X <? 0) with false by lia.
      cbn [andb]. rewrite orb_false_r. reflexivity.
    + intros j acc2 Hj (L2 & G2).
      pose proof (rowmajor_range w h j i Hj ltac:(lia)) as R1.
      pose proof (rowmajor_range w h j (h - i - 1) Hj ltac:(lia)) as R2.
      destruct (swap_ok acc2 (i * w + j) ((h - i - 1) * w + j) ltac:(lia) ltac:(lia)) as (l' & E' & L' & G').
      exists l'. split; [exact E'|]. split; [lia|]. intros X Y HX HY.
      rewrite G' by (pose proof (rowmajor_range w h X Y HX HY); lia).
      destruct (Z.eqb_spec (Y * w + X) ((h - i - 1) * w + j)) as [Eq|N1].
      { destruct (rowmajor_inj w Y X (h - i - 1) j HX Hj Eq) as [-> ->].
        rewrite G2 by lia.
        replace ((i <? i) || (h - i <=? i) || (j <? j) && ((i =? i) || (i =? h - i - 1))) with false by lia.
        replace ((h - i - 1 <? i) || (h - i <=? h - i - 1) || (j <? j + 1) && ((h - i - 1 =? i) || (h - i - 1 =? h - i - 1))) with true by lia.
        f_equal. f_equal. f_equal. lia. }
      destruct (Z.eqb_spec (Y * w + X) (i * w + j)) as [Eq|N2].
      { destruct (rowmajor_inj w Y X i j HX Hj Eq) as [-> ->].
        rewrite G2 by lia.
        replace ((h - i - 1 <? i) || (h - i <=? h - i - 1) || (j <? j) && ((h - i - 1 =? i) || (h - i - 1 =? h - i - 1))) with false by lia.
        replace ((i <? i) || (h - i <=? i) || (j <? j + 1) && ((i =? i) || (i =? h - i - 1))) with true by lia.
        f_equal. f_equal. f_equal. lia. }
      rewrite G2 by assumption.
      assert (Hb : ((Y <? i) || (h - i <=? Y) || (X <? j) && ((Y =? i) || (Y =? h - i - 1))) =
                   ((Y <? i) || (h - i <=? Y) || (X <? j + 1) && ((Y =? i) || (Y =? h - i - 1)))).
      { destruct (Z.eqb_spec X j) as [->|]; [|lia].
        assert (Y <> i) by (intros ->; apply N2; reflexivity).
        assert (Y <> h - i - 1) by (intros ->; apply N1; reflexivity). lia. }
      rewrite Hb. reflexivity.
    + exists r. split; [exact E|]. split; [exact Lr|]. intros X Y HX HY. rewrite Gr by assumption.
      replace ((Y <? i) || (h - i <=? Y) || (X <? w) && ((Y =? i) || (Y =? h - i - 1)))
        with ((Y <? i + 1) || (h - (i + 1) <=? Y)) by lia. reflexivity.
  - exists r. split; [exact E|]. split; [exact Lr|]. intros X Y HX HY. rewrite Gr by assumption.
    f_equal. f_equal. f_equal. destruct ((Y <? m) || (h - m <=? Y)) eqn:B; lia.
Qed.

Lemma flip_pixels_shows_gen : forall c W H p x y w h,
  shows c W H p -> 0 <= x -> 0 <= y -> 0 < w -> 0 < h -> x + w <= W ->
  W <= u32_max -> (cv_auto_grow c = false -> y + w <= u32_max) -> y + h <= u32_max -> w * h <= u32_max -> W * (y + h) <= u32_max ->
  exists c', flip_pixels x y w h c = Ok c' /\ same_setup c c' /\
    shows c' W (Z.max H (y + h)) (fun X Y =>
      if (x <=? X) && (X <? x + w) && (y <=? Y) && (Y <? y + h)
      then blend_foreground (grown c H p X Y) (grown c H p X (y + (h - 1 - (Y - y))))
      else grown c H p X Y).
Proof.
  intros c W H p x y w h Hs Hx Hy Hw Hh Hxw MW Myw Myh Mwh Mtot.
  pose proof Hs as (HW & HH & EW & L & P).
  unfold flip_pixels. unfold add_u32 at 1. rewrite chk_ok by lia. cbn [bind]. rewrite EW.
  replace (W <? x + w) with false by lia. unfold add_u32 at 1. rewrite chk_ok by lia. cbn [bind].
  destruct (expand_to_height_shows c W H p (y + h) Hs ltac:(lia) ltac:(lia)) as (c1 & E1 & S1 & SS1).
  rewrite E1. cbn [bind]. unfold mul_u32 at 1.
  pose proof (Z.mul_nonneg_nonneg w h ltac:(lia) ltac:(lia)) as Hwh.
  rewrite chk_ok by lia. cbn [bind].
  pose proof S1 as (_ & _ & EW1 & L1 & P1). rewrite EW1.
  remember (Z.max H (y + h)) as H1 eqn:EH1.
  destruct (for_range_rule (fun k acc => vlen acc = w * k /\
      forall X Y, 0 <= X < w -> 0 <= Y < k -> at_ rgba_blank acc (Y * w + X) = grown c H p (x + X) (y + Y))
     h (fun i acc =>
         do r <- mul_u32 (y + i) W;
         do start_idx <- add_u32 r x;
         do row <- vslice (cv_bytes c1) start_idx (start_idx + w);
         Ok (acc ++ row)) (@nil rgba)) as (sub & E & Ls & Gs).
  - lia.
  - split; [unfold vlen; cbn; lia|]. intros; lia.
  - intros k acc Hk (La & Ga).
    assert (R0 : 0 <= (y + k) * W) by (apply Z.mul_nonneg_nonneg; lia).
    assert (R1 : (y + k + 1) * W <= (y + h) * W) by (apply Z.mul_le_mono_nonneg_r; lia). assert (R2 : (y + h) * W <= H1 * W) by (apply Z.mul_le_mono_nonneg_r; lia).
    unfold mul_u32. rewrite chk_ok by lia. cbn [bind]. unfold add_u32. rewrite chk_ok by lia. cbn [bind].
    rewrite vslice_ok by lia. cbn [bind]. eexists. split; [reflexivity|].
    replace ((y + k) * W + x + w - ((y + k) * W + x)) with w by lia.
    assert (Lr : vlen (firstn (Z.to_nat w) (skipn (Z.to_nat ((y + k) * W + x)) (cv_bytes c1))) = w)
      by (apply vlen_firstn; rewrite vlen_skipn; lia).
    split; [rewrite vlen_app, Lr; lia|]. intros X Y HX HY.
    destruct (Z.eq_dec Y k) as [->|Ne].
    + rewrite at_app_r by lia. rewrite at_firstn by lia. rewrite at_skipn by lia.
      transitivity (at_ rgba_blank (cv_bytes c1) ((y + k) * W + (x + X))); [f_equal; lia|].
      rewrite P1 by lia. reflexivity.
    + pose proof (rowmajor_range w k X Y HX ltac:(lia)). rewrite at_app_l by lia. apply Ga; lia.
  - rewrite E. cbn [bind].
    destruct (flip_loop w h sub Hw ltac:(lia) Ls) as (fl & Ef & Lf & Gf). rewrite Ef. cbn [bind].
    destruct (put_pixels_shows_gen c1 W H1 _ x y w h fl false S1 ltac:(lia) ltac:(lia) ltac:(lia) ltac:(lia) Lf
        ltac:(lia) ltac:(lia) ltac:(intros A; apply Myw; destruct SS1 as (A1 & _); congruence) ltac:(lia)) as (c2 & E2 & SS2 & S2).
    1,2: replace (if cv_auto_grow c1 then h else if (W <? x + w) || (H1 <? y + w) then Z.min h (H1 - y) else h) with h
           by (destruct (cv_auto_grow c1); [reflexivity|]; destruct ((W <? x + w) || (H1 <? y + w)); lia); lia.
    exists c2. split; [exact E2|].
    assert (Efh : (if cv_auto_grow c1 then h else if (W <? x + w) || (H1 <? y + w) then Z.min h (H1 - y) else h) = h).
    { destruct (cv_auto_grow c1); [reflexivity|]. destruct ((W <? x + w) || (H1 <? y + w)); lia. }
    rewrite Efh in S2. replace (Z.max H1 (y + h)) with H1 in S2 by lia. replace (Z.min w (W - x)) with w in S2 by lia.
    split.
    { destruct SS1 as (A1 & A2 & A3), SS2 as (B1 & B2 & B3).
      split; [congruence|]. split; congruence. }
    destruct S2 as (D1 & D2 & D3 & D4 & D5).
    split; [exact D1|]. split; [exact D2|]. split; [exact D3|]. split; [exact D4|].
    intros X Y HX HY. rewrite D5 by assumption. cbn beta.
    assert (Gid : forall X Y, 0 <= Y < H1 -> grown c1 H1 (grown c H p) X Y = grown c H p X Y).
    { intros X' Y' HY'. unfold grown at 1. replace (Y' <? H1) with true by lia. reflexivity. }
    change (fun X Y => if Y <? H then p X Y else cv_paper_color c) with (grown c H p) in *.
    rewrite Gid by assumption.
    destruct ((x <=? X) && (X <? x + w) && (y <=? Y) && (Y <? y + h)) eqn:B; [|reflexivity].
    f_equal. rewrite Gf by lia. rewrite Gs by lia. f_equal; lia.
Qed.
Lemma flip_pixels_shows : forall c W H p x y w h,
  shows c W H p -> 0 <= x -> 0 <= y -> 0 < w -> 0 < h -> x + w <= W ->
  W <= u32_max -> (cv_auto_grow c = false -> y + w <= u32_max) -> y + h <= u32_max -> w * h <= u32_max -> W * Z.max H (y + h) <= u32_max ->
  exists c', flip_pixels x y w h c = Ok c' /\ same_setup c c' /\
    shows c' W (Z.max H (y + h)) (fun X Y =>
      if (x <=? X) && (X <? x + w) && (y <=? Y) && (Y <? y + h)
      then blend_foreground (grown c H p X Y) (grown c H p X (y + (h - 1 - (Y - y))))
      else grown c H p X Y).
Proof.
  intros c W H p x y w h Hs Hx Hy Hw Hh Hxw MW Myw Myh Mwh Mtot. pose proof Hs as (HW & _).
  pose proof (Z.mul_le_mono_nonneg_l (y + h) (Z.max H (y + h)) W ltac:(lia) ltac:(lia)).
  apply flip_pixels_shows_gen; try assumption; lia.
Qed.
