(** * ParserTheory: consequences of the decomposition theorem. *)
From Verif Require Import Base Command CommandSet Parser SpecStream ParserLemmas Automaton
  StreamProofs Decompose.
Local Open Scope string_scope.
Local Open Scope Z_scope.
Local Open Scope list_scope.

(** ** Totality *)

Lemma parse_cases bs :
  bytes_ok bs = true ->
  (exists l t cmds, stream_ok l /\ tail_ok t /\ bs = encode l ++ tail_wire t /\
     parse_esc_pos bs = Ok cmds /\ map observe cmds = parse_total l t) \/
  (exists l o hdr b rest, stream_ok l /\ bytes_ok hdr = true /\ bad_header o hdr /\
     bs = encode l ++ sub_prefix o ++ hdr ++ b :: rest /\ parse_esc_pos bs = Panic POverflow).
Proof.
  intros Hb. destruct (decompose bs Hb) as (l & Hl & [(t & Ht & E)|(o & hdr & b & rest & H1 & H2 & E)]).
  - left. destruct (parse_total_ok l t Hl Ht) as (cmds & Hp & Ho).
    exists l, t, cmds. rewrite E at 2. auto.
  - right. exists l, o, hdr, b, rest.
    split; [exact Hl|]. split; [exact H1|]. split; [exact H2|]. split; [exact E|].
    rewrite E. apply parse_bad_header; assumption.
Qed.

(** ** Which commands are reported *)

(** A command that can stand between Begin Print and End Print after the first item. *)
Definition inner (o : ocmd) : Prop :=
  o_name o <> "Begin Print" /\ o_name o <> "End Print" /\ o <> o_unknown [].

Definition inner_name (s : string) : bool :=
  negb (s =? "Begin Print")%string && negb (s =? "End Print")%string && negb (s =? "Unknown Command")%string.

Lemma inner_by_name o : inner_name (o_name o) = true -> inner o.
Proof.
  unfold inner_name. intros H. apply andb_prop in H. destruct H as [H H3].
  apply andb_prop in H. destruct H as [H1 H2].
  apply negb_true_iff, String.eqb_neq in H1. apply negb_true_iff, String.eqb_neq in H2.
  apply negb_true_iff, String.eqb_neq in H3.
  split; [exact H1|]. split; [exact H2|]. intros ->. apply H3. reflexivity.
Qed.

Lemma fixed_names : forallb (fun '(n, _, _, _) => inner_name n) fixed_table = true.
Proof. vm_compute. reflexivity. Qed.
Lemma code2d_names : forallb (fun p => inner_name (fst (snd p))) code2d_functions = true.
Proof. vm_compute. reflexivity. Qed.
Lemma graphics_names : forallb (fun p => inner_name (fst (snd p))) graphics_functions = true.
Proof. vm_compute. reflexivity. Qed.

Lemma assoc_in {A B} (eqb : A -> A -> bool) k (l : list (A * B)) v :
  assoc eqb k l = Some v -> exists a, In (a, v) l.
Proof.
  induction l as [|[a b] l IH]; cbn [assoc]; [discriminate|]. destruct (eqb k a).
  - intros H. injection H as ->. exists a. now left.
  - intros H. destruct (IH H) as [x Hx]. exists x. now right.
Qed.

Lemma lookup_names f m fn name k : fam_lookup f m fn = Some (name, k) -> inner_name name = true.
Proof.
  unfold fam_lookup, code2d_lookup, graphics_lookup. intros H. destruct f.
  - apply assoc_in in H. destruct H as [a H].
    pose proof (proj1 (forallb_forall _ _) code2d_names _ H) as E. exact E.
  - apply assoc_in in H. destruct H as [a H].
    pose proof (proj1 (forallb_forall _ _) graphics_names _ H) as E. exact E.
  - apply assoc_in in H. destruct H as [a H].
    pose proof (proj1 (forallb_forall _ _) graphics_names _ H) as E. exact E.
Qed.

Lemma unknown_inner bs : bs <> [] -> inner (o_unknown bs).
Proof.
  intros H. split; [discriminate|]. split; [discriminate|].
  unfold o_unknown, simple. intros E. injection E as E. congruence.
Qed.

Ltac inner_one := constructor; [apply inner_by_name; reflexivity|constructor].

Lemma fixed_inner name k p n : in_fixed name k p n -> inner_name name = true.
Proof. intros H. exact (proj1 (forallb_forall _ _) fixed_names _ H). Qed.

Lemma expect_inner i : item_ok i -> Forall inner (expect i).
Proof.
  destruct i; cbn [item_ok expect]; intros H; try inner_one.
  - constructor; [apply inner_by_name, (fixed_inner _ _ _ _ H)|constructor].
  - destruct H as [Hu _]. constructor; [|constructor]. apply unknown_inner.
    destruct u; [discriminate|discriminate].
  - destruct (fam_lookup f m fn) as [[name k]|] eqn:E; [|constructor].
    constructor; [apply inner_by_name, (lookup_names _ _ _ _ _ E)|constructor].
Qed.

Lemma expect_eof_inner i : item_ok i -> Forall inner (expect_eof i).
Proof.
  intros H. destruct i; cbn [expect_eof]; try (apply expect_inner, H); try inner_one.
  - destruct payload as [|x d]; [constructor|].
    destruct (fam_lookup f m fn) as [[name k]|] eqn:E; [|constructor].
    constructor; [apply inner_by_name, (lookup_names _ _ _ _ _ E)|constructor].
  - destruct payload; inner_one.
Qed.

Lemma tail_inner t : tail_ok t -> Forall inner (tail_expect t).
Proof.
  destruct t; cbn [tail_ok tail_expect]; intros H; try inner_one; try constructor.
  - destruct H as (n & H & _). apply inner_by_name, (fixed_inner _ _ _ _ H).
  - constructor.
  - destruct (fam_lookup f m fn) as [[name k]|] eqn:E; [|constructor].
    constructor; [apply inner_by_name, (lookup_names _ _ _ _ _ E)|constructor].
Qed.

Lemma flat_expect_inner l : Forall item_ok l -> Forall inner (flat_map expect l).
Proof.
  induction 1 as [|i l Hi Hl IH]; cbn [flat_map]; [constructor|].
  apply Forall_app. split; [apply expect_inner, Hi|exact IH].
Qed.

Lemma expect_all_inner l : Forall item_ok l -> Forall inner (expect_all l).
Proof.
  induction 1 as [|i l Hi Hl IH]; [constructor|]. destruct l as [|j l].
  - cbn [expect_all]. apply expect_eof_inner, Hi.
  - change (expect_all (i :: j :: l)) with (expect i ++ expect_all (j :: l)).
    apply Forall_app. split; [apply expect_inner, Hi|exact IH].
Qed.

(** Everything reported for the items and the tail, without frame and leading Unknown. *)
Definition body (l : list item) (t : tail) : list ocmd :=
  match t with TNone => expect_all l | _ => flat_map expect l ++ tail_expect t end.

Lemma parse_total_body l t : parse_total l t = [o_begin] ++ lead l ++ body l t ++ [o_end].
Proof. reflexivity. Qed.

Lemma body_inner l t : stream_ok l -> tail_ok t -> Forall inner (body l t).
Proof.
  intros [Hl _] Ht.
  assert (Hg : Forall inner (flat_map expect l ++ tail_expect t))
    by (apply Forall_app; split; [apply flat_expect_inner, Hl|apply tail_inner, Ht]).
  destruct t; try exact Hg. apply expect_all_inner, Hl.
Qed.

(** ** Composition at item boundaries *)

Lemma last_cons_default {A} (j : A) l i : last (j :: l) i = last l j.
Proof.
  revert j i. induction l as [|k l IH]; intros j i; [reflexivity|].
  change (last (j :: k :: l) i) with (last (k :: l) i). rewrite !IH. reflexivity.
Qed.

Lemma separated_app l1 l2 :
  separated l1 = true -> separated l2 = true ->
  (match l1 with [] => true | i :: r => negb (open_ended (last r i) && leads_text l2) end) = true ->
  separated (l1 ++ l2) = true.
Proof.
  intros H1 H2. revert H1. induction l1 as [|i l1 IH]; intros H1 H3; [exact H2|].
  destruct l1 as [|j l1].
  - cbn [app last] in *. destruct l2 as [|k l2]; [reflexivity|]. cbn [separated leads_text] in *.
    rewrite H3. exact H2.
  - cbn [app separated] in *. apply andb_prop in H1. destruct H1 as [H0 H1]. rewrite H0.
    cbn [andb]. apply IH; [exact H1|].
    rewrite last_cons_default in H3. exact H3.
Qed.

Lemma encode_app l1 l2 : encode (l1 ++ l2) = encode l1 ++ encode l2.
Proof. unfold encode. apply flat_map_app. Qed.

Lemma expect_all_app l1 l2 :
  l2 <> [] -> expect_all (l1 ++ l2) = flat_map expect l1 ++ expect_all l2.
Proof.
  intros H. induction l1 as [|i l1 IH]; [reflexivity|].
  cbn [app flat_map]. rewrite <- app_assoc, <- IH.
  destruct (l1 ++ l2) as [|j r] eqn:E; [destruct l1; [cbn in E; congruence|discriminate]|reflexivity].
Qed.

Lemma lead_app l1 l2 : l1 <> [] -> lead (l1 ++ l2) = lead l1.
Proof. destruct l1; [congruence|reflexivity]. Qed.

(** The commands of a job without its frame: [o_begin], the empty Unknown that a job starting
    with text gets, and (kept) everything else. *)
Definition ocmd_is_empty_unknown (o : ocmd) : bool :=
  (o_name o =? "Unknown Command")%string && match o_data o with [] => true | _ => false end.
Definition job_body (cmds : list ocmd) : list ocmd :=
  match cmds with
  | _ :: x :: r => if ocmd_is_empty_unknown x then r else x :: r
  | _ => tl cmds
  end.

Lemma inner_not_empty_unknown o :
  inner o ->
  (o_name o = "Unknown Command" -> o = o_unknown (o_data o)) -> ocmd_is_empty_unknown o = false.
Proof.
  intros (H1 & H2 & H3) Hu. unfold ocmd_is_empty_unknown.
  destruct (String.eqb_spec (o_name o) "Unknown Command") as [E|E]; [|reflexivity].
  cbn [andb]. destruct (o_data o) as [|x d] eqn:Ed; [|reflexivity].
  exfalso. apply H3. exact (Hu E).
Qed.

(** Commands named Unknown are unknown commands. *)
Definition true_unknown (o : ocmd) : Prop :=
  o_name o = "Unknown Command" -> o = o_unknown (o_data o).

Lemma true_unknown_by_name o : inner_name (o_name o) = true -> true_unknown o.
Proof.
  intros H E. rewrite E in H. discriminate.
Qed.

Ltac tu_one := constructor; [apply true_unknown_by_name; reflexivity|constructor].

Lemma expect_tu i : item_ok i -> Forall true_unknown (expect i).
Proof.
  destruct i; cbn [item_ok expect]; intros H; try tu_one.
  - constructor; [apply true_unknown_by_name, (fixed_inner _ _ _ _ H)|constructor].
  - constructor; [|constructor]. intros _. reflexivity.
  - destruct (fam_lookup f m fn) as [[name k]|] eqn:E; [|constructor].
    constructor; [apply true_unknown_by_name, (lookup_names _ _ _ _ _ E)|constructor].
Qed.
Lemma expect_eof_tu i : item_ok i -> Forall true_unknown (expect_eof i).
Proof.
  intros H. destruct i; cbn [expect_eof]; try (apply expect_tu, H); try tu_one.
  - destruct payload as [|x d]; [constructor|].
    destruct (fam_lookup f m fn) as [[name k]|] eqn:E; [|constructor].
    constructor; [apply true_unknown_by_name, (lookup_names _ _ _ _ _ E)|constructor].
  - destruct payload; tu_one.
Qed.
Lemma tail_tu t : tail_ok t -> Forall true_unknown (tail_expect t).
Proof.
  destruct t; cbn [tail_ok tail_expect]; intros H; try tu_one; try constructor.
  - destruct H as (n & H & _). apply true_unknown_by_name, (fixed_inner _ _ _ _ H).
  - constructor.
  - destruct (fam_lookup f m fn) as [[name k]|] eqn:E; [|constructor].
    constructor; [apply true_unknown_by_name, (lookup_names _ _ _ _ _ E)|constructor].
Qed.
Lemma body_tu l t : stream_ok l -> tail_ok t -> Forall true_unknown (body l t).
Proof.
  intros [Hl _] Ht.
  assert (Hf : Forall true_unknown (flat_map expect l)).
  { clear -Hl. induction Hl as [|i l Hi Hl IH]; cbn [flat_map]; [constructor|].
    apply Forall_app. split; [apply expect_tu, Hi|exact IH]. }
  assert (Ha : Forall true_unknown (expect_all l)).
  { clear -Hl. induction Hl as [|i l Hi Hl IH]; [constructor|]. destruct l as [|j l].
    - apply expect_eof_tu, Hi.
    - change (expect_all (i :: j :: l)) with (expect i ++ expect_all (j :: l)).
      apply Forall_app. split; [apply expect_tu, Hi|exact IH]. }
  destruct t; try (apply Forall_app; split; [exact Hf|apply tail_tu, Ht]). exact Ha.
Qed.

Lemma job_body_total l t :
  stream_ok l -> tail_ok t -> job_body (parse_total l t) = body l t ++ [o_end].
Proof.
  intros Hl Ht. rewrite parse_total_body.
  pose proof (body_inner l t Hl Ht) as Hi. pose proof (body_tu l t Hl Ht) as Hu.
  assert (Hno : job_body ([o_begin] ++ body l t ++ [o_end]) = body l t ++ [o_end]).
  { destruct (body l t) as [|x r]; [reflexivity|]. cbn [app job_body].
    inversion Hi as [|x0 r0 Hx Hr]; subst. inversion Hu as [|x0 r0 Hxu Hru]; subst.
    rewrite (inner_not_empty_unknown x Hx Hxu). reflexivity. }
  destruct l as [|i l]; [exact Hno|]. cbn [lead]. destruct (open_ended i); [|exact Hno].
  cbn [app job_body ocmd_is_empty_unknown o_name o_unknown simple o_data]. reflexivity.
Qed.

Definition last_open (l : list item) : bool :=
  match l with [] => false | i :: r => open_ended (last r i) end.

Lemma stream_app l1 l2 :
  stream_ok l1 -> stream_ok l2 -> last_open l1 && leads_text l2 = false -> stream_ok (l1 ++ l2).
Proof.
  intros [H1 S1] [H2 S2] Hs. split; [apply Forall_app; split; assumption|].
  apply separated_app; try assumption. destruct l1 as [|i r]; [reflexivity|].
  cbn [last_open] in Hs. rewrite Hs. reflexivity.
Qed.

Lemma body_app l1 l2 t :
  encode l2 ++ tail_wire t <> [] -> body (l1 ++ l2) t = flat_map expect l1 ++ body l2 t.
Proof.
  intros Hne.
  assert (Hg : flat_map expect (l1 ++ l2) ++ tail_expect t =
               flat_map expect l1 ++ flat_map expect l2 ++ tail_expect t)
    by (rewrite flat_map_app, <- app_assoc; reflexivity).
  destruct t; try exact Hg. cbn [body]. apply expect_all_app. intros ->. apply Hne. reflexivity.
Qed.

(** After complete items, the rest of the stream is parsed as a job of its own. *)
Lemma afresh l1 rest :
  stream_ok l1 -> l1 <> [] -> bytes_ok rest = true -> rest <> [] ->
  last_open l1 = false \/ starts_text rest = false ->
  match parse_esc_pos rest with
  | Ok c2 => exists c, parse_esc_pos (encode l1 ++ rest) = Ok c /\
               map observe c = [o_begin] ++ lead l1 ++ flat_map expect l1 ++ job_body (map observe c2)
  | Panic p => parse_esc_pos (encode l1 ++ rest) = Panic p
  end.
Proof.
  intros Hl1 Hne1 Hb Hne Hsep.
  destruct (decompose_n (length rest) rest (le_n _) Hb) as (l2 & Hl2 & Hlead & Hcase).
  assert (Hs : last_open l1 && leads_text l2 = false).
  { destruct Hsep as [->|Hst]; [reflexivity|]. destruct (leads_text l2); [|apply andb_false_r].
    specialize (Hlead eq_refl). congruence. }
  pose proof (stream_app l1 l2 Hl1 Hl2 Hs) as Hl.
  destruct Hcase as [(t & Ht & E)|(o & hdr & b & r & H1 & H2 & E)].
  - destruct (parse_total_ok l2 t Hl2 Ht) as (c2 & Hp2 & Ho2).
    rewrite <- E in Hp2. rewrite Hp2.
    destruct (parse_total_ok (l1 ++ l2) t Hl Ht) as (c & Hp & Ho).
    rewrite encode_app, <- app_assoc, <- E in Hp. exists c. split; [exact Hp|].
    rewrite Ho, Ho2, (job_body_total l2 t Hl2 Ht), parse_total_body, (lead_app _ _ Hne1), body_app
      by (rewrite <- E; exact Hne).
    rewrite <- !app_assoc. reflexivity.
  - pose proof (parse_bad_header l2 o hdr b r Hl2 H1 H2) as Hp2. rewrite <- E in Hp2. rewrite Hp2.
    pose proof (parse_bad_header (l1 ++ l2) o hdr b r Hl H1 H2) as Hp.
    rewrite encode_app, <- app_assoc, <- E in Hp. exact Hp.
Qed.
