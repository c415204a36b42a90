(** * PropsUpce: C28 (check digit), C29 (symbol), C30 (zero suppression) *)
From Verif Require Import Base Vec GTypes Upce SpecUpc.
Local Open Scope Z_scope.

Ltac fd := repeat (apply Forall_cons; [first [assumption | unfold digit in *; lia]|]); apply Forall_nil.

(** ** Check digit *)
Lemma checkdigit_11 : forall a1 a2 a3 a4 a5 a6 a7 a8 a9 a10 a11,
  Forall digit [a1; a2; a3; a4; a5; a6; a7; a8; a9; a10; a11] ->
  exists c, calculate_checkdigit [a1; a2; a3; a4; a5; a6; a7; a8; a9; a10; a11] = Ok c /\ digit c /\
    check_equation [a1; a2; a3; a4; a5; a6; a7; a8; a9; a10; a11; c].
Proof.
  intros a1 a2 a3 a4 a5 a6 a7 a8 a9 a10 a11 H.
  repeat (apply Forall_cons_iff in H; let h := fresh "D" in destruct H as [h H]; unfold digit in h).
  clear H.
  exists (let s := (a1 + a3 + a5 + a7 + a9 + a11) * 3 + (a2 + a4 + a6 + a8 + a10) in
          let n := 10 - s mod 10 in if n =? 10 then 0 else n).
  split.
  - unfold calculate_checkdigit, sum_digits, add_u8, chk, bind, u8_max.
    repeat match goal with |- context [(0 <=? ?x) && (?x <=? 255)] =>
      replace ((0 <=? x) && (x <=? 255)) with true by lia end.
    do 2 f_equal;
    repeat match goal with |- context [?x mod 10] => progress ring_simplify x end; reflexivity.
  - cbv zeta. unfold digit, check_equation.
    match goal with |- context [(?x * 3 + ?y) mod 10] => remember (x * 3 + y) as s eqn:Es end.
    assert (0 <= s mod 10 < 10) by (apply Z.mod_pos_bound; lia).
    destruct (10 - s mod 10 =? 10) eqn:E; split; try lia.
Qed.

Lemma len11 : forall (P : list Z -> Prop),
  (forall a1 a2 a3 a4 a5 a6 a7 a8 a9 a10 a11, P [a1; a2; a3; a4; a5; a6; a7; a8; a9; a10; a11]) ->
  forall l, length l = 11%nat -> P l.
Proof.
  intros P H l Hl.
  do 11 (destruct l as [|? l]; [discriminate Hl|]). destruct l; [apply H|discriminate Hl].
Qed.

(** Eleven digits have a check digit, it is a digit, and the check equation holds. *)
Theorem C28_check_digit : forall a, length a = 11%nat -> Forall digit a ->
  exists c, calculate_checkdigit a = Ok c /\ digit c /\ check_equation (a ++ [c]).
Proof.
  intros a Hl. revert a Hl. apply (len11 (fun a => Forall digit a -> exists c, calculate_checkdigit a = Ok c /\ digit c /\ check_equation (a ++ [c]))).
  intros. cbn [app]. apply checkdigit_11. assumption.
Qed.
(** ... and it is the only digit with that property. *)
Theorem C28_check_digit_unique : forall a c c', length a = 11%nat -> digit c -> digit c' ->
  check_equation (a ++ [c]) -> check_equation (a ++ [c']) -> c = c'.
Proof.
  intros a c c' Hl. revert a Hl c c'.
  apply (len11 (fun a => forall c c', digit c -> digit c' -> check_equation (a ++ [c]) -> check_equation (a ++ [c']) -> c = c')).
  intros. unfold check_equation, digit in *. cbn [app] in *. lia.
Qed.

(** ** Inversion of the constructor *)
Lemma digits_of_ascii : forall data, forallb is_ascii_digit data = true ->
  Forall digit (map (fun c => sat_sub c 48) data).
Proof.
  intros data H. rewrite forallb_forall in H. apply Forall_forall. intros x Hx.
  apply in_map_iff in Hx. destruct Hx as [c [<- Hc]]. specialize (H c Hc).
  unfold is_ascii_digit in H. unfold digit, sat_sub. lia.
Qed.

Definition well_formed_code (e : list Z) : Prop :=
  exists n d1 d2 d3 d4 d5 d6 c, e = [n; d1; d2; d3; d4; d5; d6; c] /\ (n = 0 \/ n = 1) /\
    digit d1 /\ digit d2 /\ digit d3 /\ digit d4 /\ digit d5 /\ digit d6 /\ digit c.

Lemma from_upc_a_wf : forall a e, Forall digit a -> from_upc_a a = UOk e -> well_formed_code e.
Proof.
  intros a e H E. unfold from_upc_a in E.
  do 13 (destruct a as [|? a]; try discriminate E).
  repeat (apply Forall_cons_iff in H; let h := fresh "D" in destruct H as [h H]).
  destruct (negb (z =? 1) && negb (z =? 0)) eqn:N; [discriminate|].
  assert (z = 0 \/ z = 1) by lia.
  assert (digit 3 /\ digit 4) as [] by (unfold digit; lia).
  repeat match type of E with (if ?b then _ else _) = _ => destruct b; try discriminate E end;
    injection E as <-; do 8 eexists; split; try reflexivity; repeat (split; [assumption|]); assumption.
Qed.

Lemma expand_digits : forall b0 b1 b2 b3 b4 b5 b6 a,
  Forall digit [b0; b1; b2; b3; b4; b5; b6] -> expand_upc_e b0 b1 b2 b3 b4 b5 b6 = Some a ->
  Forall digit a /\ length a = 11%nat /\ abbreviates [b0; b1; b2; b3; b4; b5; b6] a.
Proof.
  intros b0 b1 b2 b3 b4 b5 b6 a H E. unfold expand_upc_e in E.
  repeat (apply Forall_cons_iff in H; let h := fresh "D" in destruct H as [h H]).
  assert (digit 0) by (unfold digit; lia).
  destruct ((b6 =? 0) || (b6 =? 1) || (b6 =? 2)) eqn:E1.
  { injection E as <-. split; [fd|]. split; [reflexivity|]. apply ab_012. lia. }
  destruct (b6 =? 3) eqn:E2.
  { injection E as <-. split; [fd|]. split; [reflexivity|].
    replace b6 with 3 by lia. apply ab_3. }
  destruct (b6 =? 4) eqn:E3.
  { injection E as <-. split; [fd|]. split; [reflexivity|].
    replace b6 with 4 by lia. apply ab_4. }
  destruct ((5 <=? b6) && (b6 <=? 9)) eqn:E4; [|discriminate].
  injection E as <-. split; [fd|]. split; [reflexivity|]. apply ab_59. lia.
Qed.

Lemma expand_total : forall b0 b1 b2 b3 b4 b5 b6, digit b6 ->
  exists a, expand_upc_e b0 b1 b2 b3 b4 b5 b6 = Some a.
Proof.
  intros. unfold expand_upc_e, digit in *.
  destruct ((b6 =? 0) || (b6 =? 1) || (b6 =? 2)) eqn:E1; [eauto|].
  destruct (b6 =? 3) eqn:E2; [eauto|]. destruct (b6 =? 4) eqn:E3; [eauto|].
  replace ((5 <=? b6) && (b6 <=? 9)) with true by lia. eauto.
Qed.

Lemma abbreviates_fun : forall e a, abbreviates e a ->
  exists b0 b1 b2 b3 b4 b5 b6, e = [b0; b1; b2; b3; b4; b5; b6] /\ expand_upc_e b0 b1 b2 b3 b4 b5 b6 = Some a.
Proof.
  intros e a H. inversion H; subst; do 7 eexists; (split; [reflexivity|]); unfold expand_upc_e.
  - replace ((d6 =? 0) || (d6 =? 1) || (d6 =? 2)) with true by lia. reflexivity.
  - reflexivity.
  - reflexivity.
  - replace ((d6 =? 0) || (d6 =? 1) || (d6 =? 2)) with false by lia.
    replace (d6 =? 3) with false by lia. replace (d6 =? 4) with false by lia.
    replace ((5 <=? d6) && (d6 <=? 9)) with true by lia. reflexivity.
Qed.

(** ** Compression inverts expansion *)

(** If the number is the expansion of some UPC-E code, compression succeeds, keeps the check digit,
    and gives a code that abbreviates the same number. *)
Theorem C30_compress_expand : forall e a c, Forall digit e -> abbreviates e a ->
  nth 0 e 9 = 0 \/ nth 0 e 9 = 1 ->
  exists e', from_upc_a (a ++ [c]) = UOk (e' ++ [c]) /\ abbreviates e' a /\ Forall digit e'.
Proof.
  intros e a c De H N.
  assert (digit 3 /\ digit 4 /\ digit 0) as (? & ? & ?) by (unfold digit; lia).
  inversion H; subst; cbn [nth] in N; cbn [app];
    repeat (apply Forall_cons_iff in De; let h := fresh "D" in destruct De as [h De]); unfold from_upc_a;
    (replace (negb (n =? 1) && negb (n =? 0)) with false by lia).
  - (* last digit 0..2 *)
    match goal with |- context [if ?b then _ else if _ && _ then _ else _] => replace b with true by lia end.
    cbn. exists [n; d1; d2; d3; d4; d5; d6].
    split; [reflexivity|]. split; [exact H|]. fd.
  - (* 3 *)
    destruct (Z_le_gt_dec d3 2) as [L|L].
    + unfold digit in *.
      match goal with |- context [if ?b then _ else if _ && _ then _ else _] => replace b with true by lia end.
      cbn. exists [n; d1; d2; 0; d4; d5; d3].
      split; [reflexivity|]. split; [apply ab_012; lia|]. fd.
    + match goal with |- context [if ?b then _ else if _ && _ then _ else _] => replace b with false by lia end.
      cbn. exists [n; d1; d2; d3; d4; d5; 3].
      split; [reflexivity|]. split; [exact H|]. fd.
  - (* 4 *)
    destruct (Z.eqb_spec d4 0) as [->|L4].
    + destruct (Z_le_gt_dec d3 2) as [L|L].
      * unfold digit in *.
        match goal with |- context [if ?b then _ else if _ && _ then _ else _] => replace b with true by lia end.
        cbn. exists [n; d1; d2; 0; 0; d5; d3].
        split; [reflexivity|]. split; [apply ab_012; lia|]. fd.
      * match goal with |- context [if ?b then _ else if _ && _ then _ else _] => replace b with false by lia end.
        cbn. exists [n; d1; d2; d3; 0; d5; 3].
        split; [reflexivity|]. split; [apply ab_3|]. fd.
    + match goal with |- context [if ?b then _ else if ?b2 then _ else _] =>
        replace b with false by lia; replace b2 with false by lia end.
      cbn. exists [n; d1; d2; d3; d4; d5; 4].
      split; [reflexivity|]. split; [exact H|]. fd.
  - (* 5..9 *)
    destruct (Z.eqb_spec d5 0) as [->|L5].
    + destruct (Z.eqb_spec d4 0) as [->|L4].
      * destruct (Z_le_gt_dec d3 2) as [L|L].
        -- unfold digit in *.
           match goal with |- context [if ?b then _ else if _ && _ then _ else _] => replace b with true by lia end.
           cbn. exists [n; d1; d2; 0; 0; d6; d3].
           split; [reflexivity|]. split; [apply ab_012; lia|]. fd.
        -- match goal with |- context [if ?b then _ else if _ && _ then _ else _] => replace b with false by lia end.
           cbn. exists [n; d1; d2; d3; 0; d6; 3].
           split; [reflexivity|]. split; [apply ab_3|]. fd.
      * match goal with |- context [if ?b then _ else if ?b2 then _ else _] =>
          replace b with false by lia; replace b2 with false by lia end.
        cbn. exists [n; d1; d2; d3; d4; d6; 4].
        split; [reflexivity|]. split; [apply ab_4|]. fd.
    + match goal with |- context [if ?b then _ else if ?b2 then _ else _] =>
        replace b with false by lia; replace b2 with false by lia end.
      replace (d5 =? 0) with false by lia. cbn.
      replace ((d6 <? 5) || (9 <? d6)) with false by lia.
      exists [n; d1; d2; d3; d4; d5; d6].
      split; [reflexivity|]. split; [exact H|]. fd.
Qed.

(** The code a UPC-E input (number system + 6 digits, with or without check digit) produces:
    it abbreviates the same UPC-A number as the input, and it is the input itself exactly when the
    input is in canonical (shortest-rule-first) form. *)
Definition canonical (e : list Z) : Prop :=
  match e with
  | [_; _; _; d3; d4; d5; d6] =>
      d6 <= 2 \/ (d6 = 3 /\ d3 >= 3) \/ (d6 = 4 /\ d4 <> 0) \/ (d6 >= 5 /\ d5 <> 0)
  | _ => False
  end.

Lemma canonical_unique : forall e e' a, Forall digit e -> Forall digit e' ->
  canonical e -> canonical e' -> abbreviates e a -> abbreviates e' a -> e = e'.
Proof.
  intros e e' a D D' C C' H H'.
  inversion H; subst; inversion H'; subst; cbn in C, C';
    repeat (apply Forall_cons_iff in D; let h := fresh "D" in destruct D as [h D]);
    repeat (apply Forall_cons_iff in D'; let h := fresh "D" in destruct D' as [h D']);
    unfold digit in *; repeat (f_equal; try lia); exfalso; lia.
Qed.

Lemma compress_canonical : forall a c e, Forall digit a -> from_upc_a a = UOk (e ++ [c]) ->
  length e = 7%nat -> canonical e.
Proof.
  intros a c e D H L. unfold from_upc_a in H.
  do 13 (destruct a as [|? a]; try discriminate H).
  repeat (apply Forall_cons_iff in D; let h := fresh "D" in destruct D as [h D]). unfold digit in *.
  do 7 (destruct e as [|? e]; [discriminate L|]). destruct e; [|discriminate L]. cbn [app] in H.
  repeat match type of H with (if ?b then _ else _) = _ =>
    let E := fresh "E" in destruct b eqn:E; try discriminate H end;
  injection H as <- <- <- <- <- <- <- <-; cbn; lia.
Qed.

Lemma from_upc_e_7 : forall e, length e = 7%nat -> Forall digit e -> nth 0 e 9 = 0 \/ nth 0 e 9 = 1 ->
  exists a e' c, abbreviates e a /\ from_upc_e e = Ok (UOk (e' ++ [c])) /\ abbreviates e' a /\
    Forall digit e' /\ digit c /\ check_equation (a ++ [c]) /\ canonical e'.
Proof.
  intros e L D N.
  do 7 (destruct e as [|? e]; [discriminate L|]). destruct e; [|discriminate L].
  assert (D6 : digit z5).
  { rewrite Forall_forall in D. apply D. cbn. auto 10. }
  destruct (expand_total z z0 z1 z2 z3 z4 z5 D6) as [a Ea].
  destruct (expand_digits _ _ _ _ _ _ _ _ D Ea) as (Da & La & Ab).
  destruct (C28_check_digit a La Da) as (c & Ec & Dc & Q).
  destruct (C30_compress_expand _ _ c D Ab N) as (e' & F & Ab' & De').
  assert (L' : length e' = 7%nat) by (inversion Ab'; reflexivity).
  exists a, e', c. split; [exact Ab|]. split.
  - unfold from_upc_e. rewrite Ea, Ec. cbn [bind]. rewrite F. reflexivity.
  - repeat (split; [assumption|]). refine (compress_canonical (a ++ [c]) c e' _ F L').
    apply Forall_app. split; [exact Da|]. constructor; [exact Dc|constructor].
Qed.

Lemma from_upc_e_8 : forall e c, length e = 7%nat -> Forall digit e -> digit c -> nth 0 e 9 = 0 \/ nth 0 e 9 = 1 ->
  exists a e', abbreviates e a /\ from_upc_e (e ++ [c]) = Ok (UOk (e' ++ [c])) /\ abbreviates e' a /\
    Forall digit e' /\ canonical e'.
Proof.
  intros e c L D Dc N.
  do 7 (destruct e as [|? e]; [discriminate L|]). destruct e; [|discriminate L].
  assert (D6 : digit z5).
  { rewrite Forall_forall in D. apply D. cbn. auto 10. }
  destruct (expand_total z z0 z1 z2 z3 z4 z5 D6) as [a Ea].
  destruct (expand_digits _ _ _ _ _ _ _ _ D Ea) as (Da & La & Ab).
  destruct (C30_compress_expand _ _ c D Ab N) as (e' & F & Ab' & De').
  assert (L' : length e' = 7%nat) by (inversion Ab'; reflexivity).
  exists a, e'. split; [exact Ab|]. split.
  - unfold from_upc_e. cbn [app]. rewrite Ea. cbn [bind]. rewrite F. reflexivity.
  - repeat (split; [assumption|]). refine (compress_canonical (a ++ [c]) c e' _ F L').
    apply Forall_app. split; [exact Da|]. constructor; [exact Dc|constructor].
Qed.

(** the ASCII form of a digit string *)
Definition ascii_digits (l : list Z) : list Z := map (fun d => d + 48) l.
Lemma ascii_digits_ok : forall l, Forall digit l ->
  forallb is_ascii_digit (ascii_digits l) = true /\ map (fun c => sat_sub c 48) (ascii_digits l) = l /\
  length (ascii_digits l) = length l.
Proof.
  intros l D. induction l as [|d r IH]; [repeat split; reflexivity|].
  apply Forall_cons_iff in D. destruct D as [Dd Dr]. destruct (IH Dr) as (A & B & C).
  unfold digit in Dd. cbn. repeat split.
  - fold (ascii_digits r). rewrite A. unfold is_ascii_digit. lia.
  - fold (ascii_digits r). rewrite B. f_equal. unfold sat_sub. lia.
  - f_equal. exact C.
Qed.

(** A 6-digit input is the 7-digit input with number system 0. *)
Theorem C30_six_digits : forall d, length d = 6%nat -> Forall digit d ->
  upce_new (ascii_digits d) = upce_new (ascii_digits (0 :: d)).
Proof.
  intros d L D. assert (D0 : Forall digit (0 :: d)) by (constructor; [unfold digit; lia|exact D]).
  destruct (ascii_digits_ok d D) as (A & B & C). destruct (ascii_digits_ok (0 :: d) D0) as (A0 & B0 & C0).
  unfold upce_new. rewrite A, A0, C, C0, L, B, B0. cbn [length]. rewrite L. reflexivity.
Qed.

(** 7 digits: always accepted for number systems 0 and 1; the resulting code abbreviates the same
    UPC-A number, carries that number's check digit, and is the given code iff that is canonical. *)
Theorem C30_seven_digits : forall e, length e = 7%nat -> Forall digit e -> nth 0 e 9 = 0 \/ nth 0 e 9 = 1 ->
  exists a e' c, abbreviates e a /\ abbreviates e' a /\ digit c /\ check_equation (a ++ [c]) /\
    upce_new (ascii_digits e) = Ok (UOk (e' ++ [c])) /\ (e' = e <-> canonical e).
Proof.
  intros e L D N. destruct (from_upc_e_7 e L D N) as (a & e' & c & H1 & H2 & H3 & H4 & H5 & H6 & H7).
  destruct (ascii_digits_ok e D) as (A & B & C).
  exists a, e', c. repeat (split; [assumption|]). split.
  - unfold upce_new. rewrite A, C, L, B. exact H2.
  - split; [intros <-; exact H7|]. intro Ce. exact (canonical_unique e' e a H4 D H7 Ce H3 H1).
Qed.
(** 8 digits: as before, with the check digit that was given (see C28_given_check_digit_unverified). *)
Theorem C30_eight_digits : forall e c, length e = 7%nat -> Forall digit e -> digit c ->
  nth 0 e 9 = 0 \/ nth 0 e 9 = 1 ->
  exists a e', abbreviates e a /\ abbreviates e' a /\
    upce_new (ascii_digits (e ++ [c])) = Ok (UOk (e' ++ [c])) /\ (e' = e <-> canonical e).
Proof.
  intros e c L D Dc N. destruct (from_upc_e_8 e c L D Dc N) as (a & e' & H1 & H2 & H3 & H4 & H7).
  assert (D8 : Forall digit (e ++ [c])) by (apply Forall_app; split; [exact D|constructor; [exact Dc|constructor]]).
  destruct (ascii_digits_ok (e ++ [c]) D8) as (A & B & C).
  exists a, e'. repeat (split; [assumption|]). split.
  - unfold upce_new. rewrite A, C, B. rewrite app_length, L. exact H2.
  - split; [intros <-; exact H7|]. intro Ce. exact (canonical_unique e' e a H4 D H7 Ce H3 H1).
Qed.
(** 11 and 12 digits: every UPC-A number that has a UPC-E form is accepted and compressed to its
    canonical form. *)
Theorem C30_eleven_digits : forall e a, Forall digit e -> abbreviates e a -> nth 0 e 9 = 0 \/ nth 0 e 9 = 1 ->
  exists e' c, abbreviates e' a /\ canonical e' /\ digit c /\ check_equation (a ++ [c]) /\
    upce_new (ascii_digits a) = Ok (UOk (e' ++ [c])).
Proof.
  intros e a D Ab N.
  assert (exists b0 b1 b2 b3 b4 b5 b6, e = [b0; b1; b2; b3; b4; b5; b6] /\ expand_upc_e b0 b1 b2 b3 b4 b5 b6 = Some a)
    as (b0 & b1 & b2 & b3 & b4 & b5 & b6 & -> & Ea) by (apply abbreviates_fun; exact Ab).
  destruct (expand_digits _ _ _ _ _ _ _ _ D Ea) as (Da & La & _).
  destruct (C28_check_digit a La Da) as (c & Ec & Dc & Q).
  destruct (C30_compress_expand _ _ c D Ab N) as (e' & F & Ab' & De').
  assert (L' : length e' = 7%nat) by (inversion Ab'; reflexivity).
  destruct (ascii_digits_ok a Da) as (A & B & C).
  exists e', c. split; [exact Ab'|]. split.
  { refine (compress_canonical (a ++ [c]) c e' _ F L').
    apply Forall_app. split; [exact Da|]. constructor; [exact Dc|constructor]. }
  repeat (split; [assumption|]).
  unfold upce_new. rewrite A, C, La, B. cbn [negb]. cbv iota. rewrite Ec. cbn [bind]. rewrite F. reflexivity.
Qed.

(** What compression keeps for whatever it accepts: number system, manufacturer code, last product
    digit and check digit.  Product digits 1-4 may be lost (next theorem). *)
Theorem C30_accepted_keeps : forall a c r, length a = 11%nat -> Forall digit a ->
  from_upc_a (a ++ [c]) = UOk r ->
  exists e a', r = e ++ [c] /\ abbreviates e a' /\ firstn 6 a' = firstn 6 a /\ nth 10 a' 0 = nth 10 a 0.
Proof.
  intros a c r L. revert a L c r.
  apply (len11 (fun a => forall c r, Forall digit a -> from_upc_a (a ++ [c]) = UOk r ->
    exists e a', r = e ++ [c] /\ abbreviates e a' /\ firstn 6 a' = firstn 6 a /\ nth 10 a' 0 = nth 10 a 0)).
  intros a1 a2 a3 a4 a5 a6 a7 a8 a9 a10 a11 c r D H. cbn [app] in H. unfold from_upc_a in H.
  repeat (apply Forall_cons_iff in D; let h := fresh "D" in destruct D as [h D]). unfold digit in *.
  destruct (negb (a1 =? 1) && negb (a1 =? 0)) eqn:N; [discriminate|].
  match type of H with (if ?b then _ else _) = _ => destruct b eqn:E1 end.
  { destruct (negb (a7 =? 0) && negb (a8 =? 0)); [discriminate|]. injection H as <-.
    exists [a1; a2; a3; a9; a10; a11; a4]. eexists. split; [reflexivity|]. split; [apply ab_012; lia|].
    cbn. split; [|reflexivity]. repeat f_equal; lia. }
  match type of H with (if ?b then _ else _) = _ => destruct b eqn:E2 end.
  { destruct (negb (a7 =? 0) && negb (a8 =? 0)); [discriminate|]. injection H as <-.
    exists [a1; a2; a3; a4; a10; a11; 3]. eexists. split; [reflexivity|]. split; [apply ab_3|].
    cbn. split; [|reflexivity]. repeat f_equal; lia. }
  match type of H with (if ?b then _ else _) = _ => destruct b eqn:E3 end.
  { match type of H with (if ?b then _ else _) = _ => destruct b eqn:E4; [discriminate|] end. injection H as <-.
    exists [a1; a2; a3; a4; a5; a11; 4]. eexists. split; [reflexivity|]. split; [apply ab_4|].
    cbn. split; [|reflexivity]. repeat f_equal; lia. }
  cbn [negb] in H. cbv iota in H.
  match type of H with (if ?b then _ else _) = _ => destruct b eqn:E4; [discriminate|] end. injection H as <-.
  exists [a1; a2; a3; a4; a5; a6; a11]. eexists. split; [reflexivity|]. split; [apply ab_59; lia|].
  cbn. split; reflexivity.
Qed.

(** The guards in the source use && where || is meant: numbers with no UPC-E form are accepted and
    two different UPC-A numbers (with their own correct check digits) get the same symbol. *)
Theorem C30_distinct_numbers_same_symbol_refuted :
  let a1 := [0; 1; 2; 3; 4; 0; 0; 0; 0; 0; 5] in
  let a2 := [0; 1; 2; 3; 4; 0; 1; 7; 0; 0; 5] in
  upce_new (ascii_digits a1) = upce_new (ascii_digits a2) /\
  is_ok (upce_new (ascii_digits a2)) = true /\
  upce_new (ascii_digits a2) = Ok (UOk [0; 1; 2; 3; 4; 5; 4; 3]) /\
  (forall e, Forall digit e -> ~ abbreviates e a2).
Proof.
  cbv zeta. repeat split; try reflexivity.
  intros e _ H. inversion H.
Qed.

(** ** C28 on accepted inputs *)

(** A check digit given by the caller (8 or 12 digits) is not verified. *)
Theorem C28_given_check_digit_unverified_refuted :
  upce_new (ascii_digits [0; 4; 2; 5; 2; 6; 1; 4]) = Ok (UOk [0; 4; 2; 5; 2; 6; 1; 4]) /\
  upce_new (ascii_digits [0; 4; 2; 5; 2; 6; 1; 9]) = Ok (UOk [0; 4; 2; 5; 2; 6; 1; 9]) /\
  ~ check_equation [0; 4; 2; 1; 0; 0; 0; 0; 5; 2; 6; 9].
Proof. repeat split; try reflexivity. cbn. discriminate. Qed.

(** ** Totality: no input makes the constructor or the encoder panic *)
Lemma upce_new_result : forall data, exists r, upce_new data = Ok r /\
  forall e, r = UOk e -> well_formed_code e.
Proof.
  intro data. unfold upce_new.
  destruct (forallb is_ascii_digit data) eqn:A; cbn [negb]; cbv iota;
    [|eexists; split; [reflexivity|]; intros e E; discriminate].
  pose proof (digits_of_ascii data A) as D.
  assert (Lm : length (map (fun c => sat_sub c 48) data) = length data) by apply map_length.
  remember (map (fun c => sat_sub c 48) data) as ds eqn:Eds. clear Eds A.
  assert (D0 : digit 0) by (unfold digit; lia).
  assert (FE : forall l, Forall digit l -> exists r, from_upc_e l = Ok r /\ forall e, r = UOk e -> well_formed_code e).
  { intros l Dl. unfold from_upc_e.
    do 9 (try (destruct l as [|? l]; try (eexists; split; [reflexivity|]; intros ? X; discriminate X))).
    all: try (eexists; split; [reflexivity|]; intros ? X; discriminate X).
    - assert (D6 : digit z5) by (rewrite Forall_forall in Dl; apply Dl; cbn; auto 10).
      destruct (expand_total z z0 z1 z2 z3 z4 z5 D6) as [a Ea]. rewrite Ea.
      destruct (expand_digits _ _ _ _ _ _ _ _ Dl Ea) as (Da & La & _).
      destruct (C28_check_digit a La Da) as (c & Ec & Dc & _). rewrite Ec. cbn [bind].
      eexists; split; [reflexivity|]. intros e E. refine (from_upc_a_wf _ e _ E).
      apply Forall_app. split; [exact Da|constructor; [exact Dc|constructor]].
    - assert (D7 : Forall digit [z; z0; z1; z2; z3; z4; z5]).
      { rewrite Forall_forall in Dl. apply Forall_forall. intros x Hx. apply Dl. cbn in *. tauto. }
      assert (D6 : digit z5) by (rewrite Forall_forall in Dl; apply Dl; cbn; auto 10).
      assert (Dc : digit z6) by (rewrite Forall_forall in Dl; apply Dl; cbn; auto 10).
      destruct (expand_total z z0 z1 z2 z3 z4 z5 D6) as [a Ea]. rewrite Ea.
      destruct (expand_digits _ _ _ _ _ _ _ _ D7 Ea) as (Da & La & _).
      eexists; split; [reflexivity|]. intros e E. refine (from_upc_a_wf _ e _ E).
      apply Forall_app. split; [exact Da|constructor; [exact Dc|constructor]]. }
  assert (dflt : forall m, exists r, @Ok upce_result (UErr m) = Ok r /\ forall e, r = UOk e -> well_formed_code e).
  { intro m. eexists; split; [reflexivity|]. intros e E. discriminate. }
  remember (length data) as n eqn:En.
  do 13 (try (destruct n as [|n]; [first [apply dflt | apply FE; assumption | apply FE; constructor; assumption | idtac]|])).
  - destruct (C28_check_digit ds ltac:(lia) D) as (c & Ec & Dc & _). rewrite Ec. cbn [bind].
    eexists; split; [reflexivity|]. intros e E. refine (from_upc_a_wf _ e _ E).
    apply Forall_app. split; [exact D|constructor; [exact Dc|constructor]].
  - eexists; split; [reflexivity|]. intros e E. exact (from_upc_a_wf _ e D E).
  - apply dflt.
Qed.

(** ** C29: the symbol *)
Lemma digit_In : forall d, digit d -> In d [0; 1; 2; 3; 4; 5; 6; 7; 8; 9].
Proof. unfold digit. intros d H. cbn. lia. Qed.

Lemma char_encoding_ok : forall d (even : bool) n, digit d -> n = 0 \/ n = 1 ->
  char_encoding (if Bool.eqb even (n =? 0) then 1 else 0) d = Ok (digit_modules n d even) /\
  length (digit_modules n d even) = 7%nat /\ Forall (fun m => m = 0 \/ m = 1) (digit_modules n d even).
Proof.
  intros d even n Hd Hn. apply digit_In in Hd. cbn in Hd.
  repeat (destruct Hd as [<-|Hd]; [destruct even; destruct Hn as [->| ->]; cbn; (split; [reflexivity|split; [reflexivity|]]);
     repeat (apply Forall_cons; [auto|]); apply Forall_nil|]). destruct Hd.
Qed.

Lemma parity_ok : forall n d1 d2 d3 d4 d5 d6 c, n = 0 \/ n = 1 -> digit c ->
  get_parity_encoding [n; d1; d2; d3; d4; d5; d6; c] =
    Ok (map (fun even : bool => if Bool.eqb even (n =? 0) then 1 else 0) (even_positions c)) /\
  length (even_positions c) = 6%nat.
Proof.
  intros n d1 d2 d3 d4 d5 d6 c Hn Hc. apply digit_In in Hc. cbn in Hc.
  repeat (destruct Hc as [<-|Hc]; [destruct Hn as [->| ->]; cbn; split; reflexivity|]). destruct Hc.
Qed.

Lemma join_ok : forall n ds ps, n = 0 \/ n = 1 -> Forall digit ds ->
  join_encodings (combine ds (map (fun even : bool => if Bool.eqb even (n =? 0) then 1 else 0) ps)) =
  Ok (concat (map (fun p => digit_modules n (fst p) (snd p)) (combine ds ps))).
Proof.
  intros n ds ps Hn D. revert ps. induction ds as [|d r IH]; intros ps; [reflexivity|].
  destruct ps as [|p ps]; [reflexivity|].
  apply Forall_cons_iff in D. destruct D as [Dd Dr]. cbn [combine map join_encodings].
  rewrite (proj1 (char_encoding_ok d p n Dd Hn)). cbn [bind]. rewrite (IH Dr ps). reflexivity.
Qed.

Lemma encode_symbol : forall e, well_formed_code e -> upce_encode e = Ok (upce_symbol e).
Proof.
  intros e (n & d1 & d2 & d3 & d4 & d5 & d6 & c & -> & Hn & H1 & H2 & H3 & H4 & H5 & H6 & Hc).
  unfold upce_encode, upce_payload. cbn [length]. cbv [Nat.ltb Nat.leb].
  rewrite (proj1 (parity_ok n d1 d2 d3 d4 d5 d6 c Hn Hc)). cbn [bind firstn skipn].
  rewrite join_ok by first [exact Hn | fd]. cbn [bind]. reflexivity.
Qed.

(** For every input whatsoever: construction never panics; when it accepts, encoding does not
    panic and yields the standard symbol of the code, 51 modules of 0/1, from guard to guard. *)
Theorem C29_symbol : forall data, exists r, upce_new data = Ok r /\
  forall e, r = UOk e ->
    upce_encode e = Ok (upce_symbol e) /\
    length (upce_symbol e) = 51%nat /\
    Forall (fun m => m = 0 \/ m = 1) (upce_symbol e) /\
    firstn 3 (upce_symbol e) = [1; 0; 1] /\ skipn 45 (upce_symbol e) = [0; 1; 0; 1; 0; 1].
Proof.
  intro data. destruct (upce_new_result data) as (r & Hr & Hw). exists r. split; [exact Hr|].
  intros e He. specialize (Hw e He). split; [exact (encode_symbol e Hw)|].
  destruct Hw as (n & d1 & d2 & d3 & d4 & d5 & d6 & c & -> & Hn & H1 & H2 & H3 & H4 & H5 & H6 & Hc).
  pose proof (proj2 (parity_ok n d1 d2 d3 d4 d5 d6 c Hn Hc)) as Lp.
  unfold upce_symbol.
  remember (even_positions c) as ps eqn:Eps. clear Eps.
  do 6 (destruct ps as [|? ps]; [discriminate Lp|]). destruct ps; [|discriminate Lp].
  cbn [combine map concat fst snd]. rewrite app_nil_r.
  pose proof (char_encoding_ok d1 b n H1 Hn) as (_ & L1 & F1).
  pose proof (char_encoding_ok d2 b0 n H2 Hn) as (_ & L2 & F2).
  pose proof (char_encoding_ok d3 b1 n H3 Hn) as (_ & L3 & F3).
  pose proof (char_encoding_ok d4 b2 n H4 Hn) as (_ & L4 & F4).
  pose proof (char_encoding_ok d5 b3 n H5 Hn) as (_ & L5 & F5).
  pose proof (char_encoding_ok d6 b4 n H6 Hn) as (_ & L6 & F6).
  split; [rewrite !app_length, L1, L2, L3, L4, L5, L6; reflexivity|].
  split.
  { repeat (apply Forall_app; split); try assumption; repeat (apply Forall_cons; [auto|]); apply Forall_nil. }
  split; [reflexivity|].
  repeat rewrite app_assoc. rewrite skipn_app.
  match goal with |- skipn 45 ?x ++ _ = _ => assert (Lx : length x = 45%nat) by (rewrite !app_length, L1, L2, L3, L4, L5, L6; reflexivity) end.
  rewrite Lx. rewrite skipn_all2 by (rewrite Lx; apply Nat.le_refl). reflexivity.
Qed.

Definition pat (g : bool) (d : Z) := if g then G_pattern d else L_pattern d.
Lemma pat_inj : forall g g' d d', digit d -> digit d' -> pat g d = pat g' d' -> d = d' /\ g = g'.
Proof.
  intros g g' d d' Hd Hd' E. apply digit_In in Hd. apply digit_In in Hd'. cbn in Hd, Hd'.
  repeat (destruct Hd as [<-|Hd];
    [repeat (destruct Hd' as [<-|Hd']; [destruct g, g'; vm_compute in E; first [discriminate E | split; reflexivity]|]); destruct Hd'|]).
  destruct Hd.
Qed.
Lemma app_inj_len : forall (a b c d : list Z), length a = length b -> a ++ c = b ++ d -> a = b /\ c = d.
Proof.
  induction a as [|x a IH]; intros [|y b] c d L E; cbn in L; try discriminate; [split; [reflexivity|exact E]|].
  cbn in E. injection E as -> E. destruct (IH b c d ltac:(lia) E) as [-> ->]. split; reflexivity.
Qed.

Lemma payload_inj : forall n n' ds ds' ps ps', n = 0 \/ n = 1 -> n' = 0 \/ n' = 1 ->
  Forall digit ds -> Forall digit ds' -> length ds = length ps -> length ds' = length ps' -> length ds = length ds' ->
  concat (map (fun p => digit_modules n (fst p) (snd p)) (combine ds ps)) =
  concat (map (fun p => digit_modules n' (fst p) (snd p)) (combine ds' ps')) ->
  ds = ds' /\ map (fun p => Bool.eqb p (n =? 0)) ps = map (fun p => Bool.eqb p (n' =? 0)) ps'.
Proof.
  intros n n' ds ds' ps ps' Hn Hn'. revert ds' ps ps'.
  induction ds as [|d r IH]; intros [|d' r'] ps ps' D D' L L' LL E; try discriminate LL.
  { destruct ps; [|discriminate]. destruct ps'; [|discriminate]. split; reflexivity. }
  destruct ps as [|p ps]; [discriminate|]. destruct ps' as [|p' ps']; [discriminate|].
  apply Forall_cons_iff in D. destruct D as [Dd Dr]. apply Forall_cons_iff in D'. destruct D' as [Dd' Dr'].
  cbn [combine map concat fst snd] in E.
  apply app_inj_len in E.
  2:{ rewrite (proj1 (proj2 (char_encoding_ok d p n Dd Hn))), (proj1 (proj2 (char_encoding_ok d' p' n' Dd' Hn'))). reflexivity. }
  destruct E as [E1 E2].
  apply IH in E2; [|assumption|assumption|cbn in *; lia..]. destruct E2 as [-> E2].
  change (pat (Bool.eqb p (n =? 0)) d = pat (Bool.eqb p' (n' =? 0)) d') in E1.
  apply pat_inj in E1; [|assumption|assumption]. destruct E1 as [-> E1].
  split; [reflexivity|]. cbn. f_equal; assumption.
Qed.

Lemma parity_inj : forall n n' c c', n = 0 \/ n = 1 -> n' = 0 \/ n' = 1 -> digit c -> digit c' ->
  map (fun p => Bool.eqb p (n =? 0)) (even_positions c) = map (fun p => Bool.eqb p (n' =? 0)) (even_positions c') ->
  n = n' /\ c = c'.
Proof.
  intros n n' c c' Hn Hn' Hd Hd' E. apply digit_In in Hd. apply digit_In in Hd'. cbn in Hd, Hd'.
  repeat (destruct Hd as [<-|Hd];
    [repeat (destruct Hd' as [<-|Hd']; [destruct Hn as [->| ->], Hn' as [->| ->]; vm_compute in E; first [discriminate E | split; reflexivity]|]); destruct Hd'|]).
  destruct Hd.
Qed.

(** A scanner can recover the code: different accepted codes have different symbols. *)
Theorem C29_symbol_determines_code : forall data data' e e',
  upce_new data = Ok (UOk e) -> upce_new data' = Ok (UOk e') ->
  upce_encode e = upce_encode e' -> e = e'.
Proof.
  intros data data' e e' H H' E.
  destruct (upce_new_result data) as (r & Hr & Hw). rewrite H in Hr. injection Hr as <-.
  destruct (upce_new_result data') as (r' & Hr' & Hw'). rewrite H' in Hr'. injection Hr' as <-.
  specialize (Hw e eq_refl). specialize (Hw' e' eq_refl).
  rewrite (encode_symbol e Hw), (encode_symbol e' Hw') in E.
  assert (E2 : upce_symbol e = upce_symbol e') by (injection E; auto). clear E.
  destruct Hw as (n & d1 & d2 & d3 & d4 & d5 & d6 & c & -> & Hn & H1 & H2 & H3 & H4 & H5 & H6 & Hc).
  destruct Hw' as (n' & d1' & d2' & d3' & d4' & d5' & d6' & c' & -> & Hn' & H1' & H2' & H3' & H4' & H5' & H6' & Hc').
  unfold upce_symbol in E2.
  apply (f_equal (skipn 3)) in E2. cbn [app skipn] in E2.
  apply app_inv_tail in E2.
  pose proof (proj2 (parity_ok n d1 d2 d3 d4 d5 d6 c Hn Hc)) as P1.
  pose proof (proj2 (parity_ok n' d1 d2 d3 d4 d5 d6 c' Hn' Hc')) as P2.
  assert (Fd : Forall digit [d1; d2; d3; d4; d5; d6]) by fd.
  assert (Fd' : Forall digit [d1'; d2'; d3'; d4'; d5'; d6']) by fd.
  apply (payload_inj n n' _ _ _ _ Hn Hn' Fd Fd' (eq_sym P1) (eq_sym P2) eq_refl) in E2.
  destruct E2 as [E3 E4]. injection E3 as -> -> -> -> -> ->.
  destruct (parity_inj n n' c c' Hn Hn' Hc Hc' E4) as [-> ->]. reflexivity.
Qed.

(** ** Non-vacuity *)
Example C28_demo : calculate_checkdigit [0; 4; 2; 1; 0; 0; 0; 0; 5; 2; 6] = Ok 4.
Proof. reflexivity. Qed.
Example C30_demo : upce_new (ascii_digits [4; 2; 5; 2; 6; 1]) = Ok (UOk [0; 4; 2; 5; 2; 6; 1; 4]) /\
  canonical [0; 4; 2; 5; 2; 6; 1] /\ ~ canonical [0; 4; 2; 1; 2; 6; 3] /\
  upce_new (ascii_digits [0; 4; 2; 1; 2; 6; 3]) = Ok (UOk [0; 4; 2; 0; 2; 6; 1; 9]).
Proof. repeat split; try reflexivity; cbn; lia. Qed.

Print Assumptions C28_check_digit.
Print Assumptions C29_symbol.
Print Assumptions C29_symbol_determines_code.
Print Assumptions C30_seven_digits.
Print Assumptions C30_eleven_digits.
Print Assumptions C30_accepted_keeps.
