(** * Vec: Rust vectors, checked indexing and counted loops, with proof rules. *)
From Verif Require Import Base.

(** [v.len()] as an integer *)
Definition vlen {A} (l : list A) : Z := Z.of_nat (length l).
(** [v\[i\]] *)
Definition vget {A} (l : list A) (i : Z) : res A :=
  if i <? 0 then Panic PIndex
  else match nth_error l (Z.to_nat i) with Some x => Ok x | None => Panic PIndex end.

Fixpoint set_nth {A} (l : list A) (i : nat) (v : A) : list A :=
  match l, i with
  | [], _ => []
  | _ :: r, O => v :: r
  | x :: r, S i => x :: set_nth r i v
  end.
(** [v\[i\] = x] *)
Definition vset {A} (l : list A) (i : Z) (v : A) : res (list A) :=
  if (i <? 0) || (vlen l <=? i) then Panic PIndex else Ok (set_nth l (Z.to_nat i) v).

(** [&v\[from..to\]] *)
Definition vslice {A} (l : list A) (from to : Z) : res (list A) :=
  if (from <? 0) || (to <? from) || (vlen l <? to) then Panic PIndex
  else Ok (firstn (Z.to_nat (to - from)) (skipn (Z.to_nat from) l)).
(** [&v\[from..\]] *)
Definition vslice_from {A} (l : list A) (from : Z) : res (list A) := vslice l from (vlen l).

(** [0..n] *)
Definition zrange (n : Z) : list Z := map Z.of_nat (seq 0 (Z.to_nat n)).

(** [for x in xs { acc = f(x, acc) }] with panics propagated *)
Fixpoint fold_res {A B} (f : A -> B -> res B) (l : list A) (b : B) : res B :=
  match l with
  | [] => Ok b
  | x :: r => do b' <- f x b; fold_res f r b'
  end.
Definition for_range {B} (n : Z) (f : Z -> B -> res B) (b : B) : res B := fold_res f (zrange n) b.

(** [for x in 0..n] building a list by pushes *)
Fixpoint map_res {A B} (f : A -> res B) (l : list A) : res (list B) :=
  match l with
  | [] => Ok []
  | x :: r => do y <- f x; do ys <- map_res f r; Ok (y :: ys)
  end.

(** Reading with a default, for specifications. *)
Definition at_ {A} (d : A) (l : list A) (i : Z) : A := nth (Z.to_nat i) l d.

(** ** Rules *)

Lemma vlen_nonneg {A} (l : list A) : 0 <= vlen l.
Proof. unfold vlen; lia. Qed.
Lemma vlen_app {A} (a b : list A) : vlen (a ++ b) = vlen a + vlen b.
Proof. unfold vlen. rewrite app_length. lia. Qed.
Lemma vlen_cons {A} (a : A) b : vlen (a :: b) = 1 + vlen b.
Proof. unfold vlen. cbn [length]. lia. Qed.
Lemma vlen_map {A B} (f : A -> B) l : vlen (map f l) = vlen l.
Proof. unfold vlen. rewrite map_length. reflexivity. Qed.
Lemma vlen_repeat {A} (x : A) n : vlen (repeat x n) = Z.of_nat n.
Proof. unfold vlen. rewrite repeat_length. reflexivity. Qed.

Lemma zrange_length n : length (zrange n) = Z.to_nat n.
Proof. unfold zrange. rewrite map_length, seq_length. reflexivity. Qed.
Lemma vlen_zrange n : 0 <= n -> vlen (zrange n) = n.
Proof. intros. unfold vlen. rewrite zrange_length. lia. Qed.
Lemma in_zrange n i : In i (zrange n) <-> 0 <= i < n.
Proof.
  unfold zrange. rewrite in_map_iff. split.
  - intros (k & <- & H). apply in_seq in H. lia.
  - intros H. exists (Z.to_nat i). split; [lia|]. apply in_seq. lia.
Qed.
Lemma nth_zrange n i d : 0 <= i < n -> nth (Z.to_nat i) (zrange n) d = i.
Proof.
  intros H. unfold zrange. rewrite nth_indep with (d' := Z.of_nat 0)
    by (rewrite map_length, seq_length; lia).
  rewrite map_nth, seq_nth by lia. lia.
Qed.
Lemma zrange_snoc n : 0 <= n -> zrange (n + 1) = zrange n ++ [n].
Proof.
  intros H. unfold zrange. replace (Z.to_nat (n + 1)) with (S (Z.to_nat n)) by lia.
  rewrite seq_S, map_app. cbn. rewrite Z2Nat.id by lia. reflexivity.
Qed.
Lemma zrange_cons n : 0 < n -> zrange n = 0 :: map (Z.add 1) (zrange (n - 1)).
Proof.
  intros H. unfold zrange. replace (Z.to_nat n) with (S (Z.to_nat (n - 1))) by lia.
  cbn [seq map]. f_equal. rewrite <- seq_shift, !map_map. apply map_ext. intros; lia.
Qed.

Lemma vget_ok {A} d (l : list A) i : 0 <= i < vlen l -> vget l i = Ok (at_ d l i).
Proof.
  unfold vlen, vget, at_. intros H. replace (i <? 0) with false by lia.
  rewrite (nth_error_nth' l d) by lia. reflexivity.
Qed.
Lemma vget_inv {A} d (l : list A) i x : vget l i = Ok x -> 0 <= i < vlen l /\ x = at_ d l i.
Proof.
  unfold vget, vlen, at_. destruct (i <? 0) eqn:E; [discriminate|].
  destruct (nth_error l (Z.to_nat i)) eqn:En; [|discriminate]. intros H; injection H as <-.
  assert (Z.to_nat i < length l)%nat by (apply nth_error_Some; congruence).
  split; [lia|]. symmetry. apply nth_error_nth, En.
Qed.
Lemma vget_panic {A} (l : list A) i : ~ 0 <= i < vlen l -> vget l i = Panic PIndex.
Proof.
  unfold vget, vlen. intros H. destruct (i <? 0) eqn:E; [reflexivity|].
  replace (nth_error l (Z.to_nat i)) with (@None A); [reflexivity|].
  symmetry. apply nth_error_None. lia.
Qed.

Lemma set_nth_length {A} (l : list A) i v : length (set_nth l i v) = length l.
Proof. revert i; induction l; intros [|i]; cbn; auto. Qed.
Lemma nth_set_nth_eq {A} (l : list A) i v d : (i < length l)%nat -> nth i (set_nth l i v) d = v.
Proof. revert i; induction l; intros [|i] H; cbn in *; try lia; auto. apply IHl. lia. Qed.
Lemma nth_set_nth_ne {A} (l : list A) i j v d : i <> j -> nth j (set_nth l i v) d = nth j l d.
Proof. revert i j; induction l; intros [|i] [|j] H; cbn; auto; try lia. Qed.

Lemma vset_ok {A} (l : list A) i v : 0 <= i < vlen l ->
  exists l', vset l i v = Ok l' /\ vlen l' = vlen l /\
    (forall d j, 0 <= j -> at_ d l' j = if j =? i then v else at_ d l j).
Proof.
  unfold vset, vlen, at_. intros H.
  replace ((i <? 0) || (Z.of_nat (length l) <=? i)) with false by lia.
  eexists. split; [reflexivity|]. split; [rewrite set_nth_length; reflexivity|].
  intros d j Hj. destruct (j =? i) eqn:E.
  - replace j with i by lia. apply nth_set_nth_eq. lia.
  - apply nth_set_nth_ne. lia.
Qed.
Lemma vset_panic {A} (l : list A) i v : ~ 0 <= i < vlen l -> vset l i v = Panic PIndex.
Proof. unfold vset. intros H. replace ((i <? 0) || (vlen l <=? i)) with true by lia. reflexivity. Qed.

Lemma vslice_ok {A} (l : list A) from to : 0 <= from <= to -> to <= vlen l ->
  vslice l from to = Ok (firstn (Z.to_nat (to - from)) (skipn (Z.to_nat from) l)).
Proof.
  intros H1 H2. unfold vslice.
  replace ((from <? 0) || (to <? from) || (vlen l <? to)) with false by lia. reflexivity.
Qed.

Lemma fold_res_app {A B} (f : A -> B -> res B) l1 l2 b :
  fold_res f (l1 ++ l2) b = do b' <- fold_res f l1 b; fold_res f l2 b'.
Proof.
  revert b; induction l1 as [|x l1 IH]; intros b; [reflexivity|].
  cbn [app fold_res]. destruct (f x b); cbn [bind]; [apply IH|reflexivity].
Qed.

(** Loop rule: an invariant indexed by the loop counter. *)
Lemma for_range_rule {B} (P : Z -> B -> Prop) n f b :
  0 <= n -> P 0 b ->
  (forall i acc, 0 <= i < n -> P i acc -> exists acc', f i acc = Ok acc' /\ P (i + 1) acc') ->
  exists b', for_range n f b = Ok b' /\ P n b'.
Proof.
  intros Hn H0 Hstep. unfold for_range.
  assert (Hk : forall k, (k <= Z.to_nat n)%nat ->
            exists b', fold_res f (zrange (Z.of_nat k)) b = Ok b' /\ P (Z.of_nat k) b').
  { induction k as [|k IH]; intros Hk; [exists b; split; [reflexivity|exact H0]|].
    destruct IH as (b1 & E1 & P1); [lia|].
    replace (Z.of_nat (S k)) with (Z.of_nat k + 1) by lia. rewrite zrange_snoc by lia.
    rewrite fold_res_app, E1. cbn [bind fold_res].
    destruct (Hstep (Z.of_nat k) b1) as (b2 & E2 & P2); [lia|exact P1|].
    rewrite E2. cbn [bind]. exists b2. auto. }
  specialize (Hk (Z.to_nat n) (le_n _)). rewrite Z2Nat.id in Hk by lia. exact Hk.
Qed.

Lemma map_res_ok {A B} (f : A -> res B) (g : A -> B) l :
  (forall x, In x l -> f x = Ok (g x)) -> map_res f l = Ok (map g l).
Proof.
  induction l as [|x l IH]; intros H; [reflexivity|]. cbn [map_res map].
  rewrite H by now left. cbn [bind]. rewrite IH by (intros; apply H; now right). reflexivity.
Qed.

(** Lists are determined by length and elements. *)
Lemma at_ext {A} d (l1 l2 : list A) :
  vlen l1 = vlen l2 -> (forall i, 0 <= i < vlen l1 -> at_ d l1 i = at_ d l2 i) -> l1 = l2.
Proof.
  unfold vlen, at_. intros Hl H. apply (nth_ext _ _ d d); [lia|].
  intros n Hn. specialize (H (Z.of_nat n) ltac:(lia)). rewrite Nat2Z.id in H. exact H.
Qed.

Lemma at_map {A B} (f : A -> B) da db l i : 0 <= i < vlen l -> at_ db (map f l) i = f (at_ da l i).
Proof.
  unfold vlen, at_. intros H. rewrite nth_indep with (d' := f da) by (rewrite map_length; lia).
  apply map_nth.
Qed.
Lemma at_app_l {A} (d : A) l1 l2 i : 0 <= i < vlen l1 -> at_ d (l1 ++ l2) i = at_ d l1 i.
Proof. unfold vlen, at_. intros. apply app_nth1. lia. Qed.
Lemma at_app_r {A} (d : A) l1 l2 i : vlen l1 <= i -> at_ d (l1 ++ l2) i = at_ d l2 (i - vlen l1).
Proof.
  unfold vlen, at_. intros. rewrite app_nth2 by lia. f_equal. lia.
Qed.
Lemma at_repeat {A} (d x : A) n i : 0 <= i < Z.of_nat n -> at_ d (repeat x n) i = x.
Proof. unfold at_. intros H. apply nth_repeat_lt || (rewrite nth_indep with (d' := x) by (rewrite repeat_length; lia); apply nth_repeat). Qed.

(** ** Scatter loops

    [covers d g n S m]: the buffer action [m], run on any buffer of length [n], succeeds, keeps
    the length, leaves the index set outside [S] untouched and makes the buffer equal to [g] on
    [S]; every index is either left alone or given its [g] value. *)
Definition covers {A} (d : A) (g : Z -> A) (n : Z) (S : Z -> Prop) (m : list A -> res (list A)) : Prop :=
  forall acc, vlen acc = n -> exists acc', m acc = Ok acc' /\ vlen acc' = n /\
    (forall k, 0 <= k < n -> at_ d acc' k = at_ d acc k \/ at_ d acc' k = g k) /\
    (forall k, 0 <= k < n -> S k -> at_ d acc' k = g k) /\
    (forall k, 0 <= k < n -> ~ S k -> at_ d acc' k = at_ d acc k).

Lemma covers_vset {A} (d : A) g n j v : 0 <= j < n -> v = g j ->
  covers d g n (fun k => k = j) (fun acc => vset acc j v).
Proof.
  intros Hj -> acc Hn. destruct (vset_ok acc j (g j)) as (l & E & L & H); [lia|].
  exists l. split; [exact E|]. split; [lia|].
  repeat split; intros k Hk; rewrite H by lia; destruct (Z.eqb_spec k j); subst; auto; tauto.
Qed.

Lemma covers_skip {A} (d : A) g n : covers d g n (fun _ => False) (fun acc => Ok acc).
Proof. intros acc H. exists acc. repeat split; auto. tauto. Qed.

Lemma covers_weaken {A} (d : A) g n (S S' : Z -> Prop) m :
  (forall k, 0 <= k < n -> (S k <-> S' k)) -> covers d g n S m -> covers d g n S' m.
Proof.
  intros H C acc Hn. destruct (C acc Hn) as (acc' & E & L & H1 & H2 & H3).
  exists acc'. repeat split; auto; intros k Hk Hs; [apply H2|apply H3]; auto; rewrite (H k Hk); auto.
Qed.

Lemma covers_ext {A} (d : A) g n S m m' :
  (forall acc, vlen acc = n -> m acc = m' acc) -> covers d g n S m -> covers d g n S m'.
Proof. intros H C acc Hn. rewrite <- H by exact Hn. apply C, Hn. Qed.

Lemma covers_for {A} (d : A) g n cnt (S : Z -> Z -> Prop) (f : Z -> list A -> res (list A)) :
  0 <= cnt -> (forall i, 0 <= i < cnt -> covers d g n (S i) (f i)) ->
  covers d g n (fun k => exists i, 0 <= i < cnt /\ S i k) (for_range cnt f).
Proof.
  intros Hc Hf acc Hn.
  destruct (for_range_rule (fun i b => vlen b = n /\
     (forall k, 0 <= k < n -> at_ d b k = at_ d acc k \/ at_ d b k = g k) /\
     (forall k, 0 <= k < n -> (exists j, 0 <= j < i /\ S j k) -> at_ d b k = g k) /\
     (forall k, 0 <= k < n -> ~ (exists j, 0 <= j < i /\ S j k) -> at_ d b k = at_ d acc k)) cnt f acc)
    as (b & E & L & H1 & H2 & H3).
  - exact Hc.
  - repeat split; auto. intros k _ (j & Hj & _). lia.
  - intros i b Hi (L & H1 & H2 & H3). destruct (Hf i Hi b L) as (b' & E & L' & G1 & G2 & G3).
    exists b'. split; [exact E|]. split; [exact L'|]. split; [|split].
    + intros k Hk. destruct (G1 k Hk) as [-> | ->]; auto.
    + intros k Hk (j & Hj & Hs). destruct (Z.eq_dec j i) as [-> |Hne]; [auto|].
      destruct (G1 k Hk) as [-> | ->]; [|reflexivity]. apply H2; [exact Hk|]. exists j. split; [lia|exact Hs].
    + intros k Hk Hs. rewrite G3, H3; auto.
      * intros (j & Hj & Hsj). apply Hs. exists j. split; [lia|exact Hsj].
      * intros Hsi. apply Hs. exists i. split; [lia|exact Hsi].
  - exists b. auto.
Qed.

(** If a loop returns, each of its iterations returned. *)
Lemma for_range_inv {B} n f (b r : B) : for_range n f b = Ok r ->
  forall i, 0 <= i < n -> exists acc acc', f i acc = Ok acc'.
Proof.
  unfold for_range. intros H i Hi. assert (Hin : In i (zrange n)) by (apply in_zrange; lia).
  revert b r H Hin. generalize (zrange n). induction l as [|x l IH]; intros b r H Hin; [destruct Hin|].
  cbn [fold_res] in H. destruct (f x b) as [b'|] eqn:E; [|discriminate]. cbn [bind] in H.
  destruct Hin as [-> |Hin]; [eauto|]. eapply IH; eauto.
Qed.

(** Row-major index arithmetic. *)
Lemma rowmajor_inj n a b c d :
  0 <= b < n -> 0 <= d < n -> a * n + b = c * n + d -> a = c /\ b = d.
Proof. intros. assert (a = c) by nia. subst. lia. Qed.
Lemma rowmajor_range w h x y : 0 <= x < w -> 0 <= y < h -> 0 <= y * w + x < w * h.
Proof. intros. nia. Qed.
Lemma rowmajor_div w x y : 0 <= x < w -> (y * w + x) / w = y.
Proof. intros. rewrite Z.add_comm, Z.div_add, Z.div_small by lia. lia. Qed.
Lemma rowmajor_mod w x y : 0 <= x < w -> (y * w + x) mod w = x.
Proof. intros. rewrite Z.add_comm, Z.mod_add, Z.mod_small by lia. lia. Qed.
Lemma rowmajor_split w k : 0 < w -> k / w * w + k mod w = k.
Proof. intros H. rewrite Z.mul_comm. symmetry. apply Z.div_mod. intros ->. discriminate H. Qed.
Lemma rowmajor_split_range w h k : 0 < w -> 0 <= k < w * h -> 0 <= k mod w < w /\ 0 <= k / w < h.
Proof.
  intros Hw [H1 H2]. split; [apply Z.mod_pos_bound; exact Hw|].
  split; [apply Z.div_pos; assumption|apply Z.div_lt_upper_bound; assumption].
Qed.
