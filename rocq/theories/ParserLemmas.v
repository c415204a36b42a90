(** * ParserLemmas: facts about the parser automaton used by all parser theorems. *)
From Verif Require Import Base Command CommandSet Parser SpecStream.

(** ** Boundary states *)

(** A state between two bytes with no prefix match in progress. *)
Definition bd (cur : option command) (d : bool) (cap : list command) (m : list command) : pstate :=
  {| p_depth := 0; p_matches := m; p_current := cur; p_default := d; p_buffer := [];
     p_captured := cap |}.

Lemma parse_all_app cs bs1 bs2 st :
  parse_all cs st (bs1 ++ bs2) = (do st' <- parse_all cs st bs1; parse_all cs st' bs2).
Proof.
  revert st; induction bs1 as [|b bs1 IH]; intros st; cbn [parse_all app bind]; [reflexivity|].
  destruct (parse_byte cs st b) as [st1|p]; cbn [bind]; [apply IH|reflexivity].
Qed.

(** ** Captured commands are only ever appended to *)

Definition add_cap (pre : list command) (st : pstate) : pstate :=
  {| p_depth := p_depth st; p_matches := p_matches st; p_current := p_current st;
     p_default := p_default st; p_buffer := p_buffer st; p_captured := pre ++ p_captured st |}.

Definition map_res {A B} (f : A -> B) (r : res A) : res B :=
  match r with Ok a => Ok (f a) | Panic p => Panic p end.

Lemma parse_match_cap cs pre st b :
  parse_match cs (add_cap pre st) b = map_res (add_cap pre) (parse_match cs st b).
Proof.
  unfold parse_match, add_cap; cbn [p_depth p_matches p_current p_default p_buffer p_captured].
  destruct (matching _ _ b) as [|c [|c2 l]].
  - destruct (mem_byte _ _).
    + cbn [map_res p_captured]. rewrite app_assoc. reflexivity.
    + destruct (p_default st).
      * destruct (p_current st) as [c|].
        -- destruct (cmd_push c b); cbn [bind map_res]; reflexivity.
        -- reflexivity.
      * destruct (cmd_push _ b); cbn [bind map_res p_captured]; [rewrite app_assoc|]; reflexivity.
  - destruct (negb _); cbn [map_res p_captured]; [reflexivity|rewrite app_assoc; reflexivity].
  - reflexivity.
Qed.

Lemma parse_byte_cap cs pre st b :
  parse_byte cs (add_cap pre st) b = map_res (add_cap pre) (parse_byte cs st b).
Proof.
  unfold parse_byte; cbn [add_cap p_depth p_default p_current].
  destruct ((p_depth st =? 0)%nat && negb (p_default st)).
  - destruct (p_current st) as [c|] eqn:Ec.
    + destruct (cmd_push c b) as [[[|] c']|p]; cbn [bind map_res]; try reflexivity.
      change {| p_depth := p_depth st; p_matches := p_matches (add_cap pre st);
                p_current := Some c'; p_default := p_default st;
                p_buffer := p_buffer (add_cap pre st);
                p_captured := p_captured (add_cap pre st) |}
        with (add_cap pre {| p_depth := p_depth st; p_matches := p_matches st;
                p_current := Some c'; p_default := p_default st;
                p_buffer := p_buffer st; p_captured := p_captured st |}).
      apply parse_match_cap.
    + apply parse_match_cap.
  - apply parse_match_cap.
Qed.

Lemma parse_all_cap cs pre bs : forall st,
  parse_all cs (add_cap pre st) bs = map_res (add_cap pre) (parse_all cs st bs).
Proof.
  induction bs as [|b bs IH]; intros st; cbn [parse_all]; [reflexivity|].
  rewrite parse_byte_cap. destruct (parse_byte cs st b); cbn [bind map_res]; [apply IH|reflexivity].
Qed.

(** ** Recognising a command prefix *)

Fixpoint scan (subset : list command) (depth : nat) (bs : list Z) : option command :=
  match bs with
  | [] => None
  | b :: r =>
      match matching subset depth b with
      | [] => None
      | [c] => if ((length (c_commands c) - 1) =? depth)%nat
               then match r with [] => Some c | _ => None end
               else scan [c] (S depth) r
      | ms => scan ms (S depth) r
      end
  end.

Lemma scan_run cs bs : forall st k,
  p_depth st <> 0%nat ->
  scan (p_matches st) (p_depth st) bs = Some k ->
  parse_all cs st bs =
    Ok (bd (Some k) false (p_captured st ++ emitted_opt (p_current st)) [k]).
Proof.
  induction bs as [|b bs IH]; intros st k Hd Hs; cbn [scan] in Hs; [discriminate|].
  cbn [parse_all]. unfold parse_byte.
  destruct (p_depth st) as [|d] eqn:Ed; [congruence|].
  cbn [Nat.eqb andb]. unfold parse_match. rewrite Ed. cbn [Nat.eqb].
  destruct (matching (p_matches st) (S d) b) as [|c [|c2 l]] eqn:Em; [discriminate| |].
  - destruct ((length (c_commands c) - 1 =? S d)%nat) eqn:El; cbn [negb bind].
    + destruct bs; [|discriminate]. injection Hs as <-. reflexivity.
    + match goal with |- parse_all _ ?s _ = _ => specialize (IH s k) end.
      cbn [p_depth p_matches p_captured p_current] in IH. apply IH; [discriminate|exact Hs].
  - cbn [bind].
    match goal with |- parse_all _ ?s _ = _ => specialize (IH s k) end.
    cbn [p_depth p_matches p_captured p_current] in IH. apply IH; [discriminate|exact Hs].
Qed.

(** The current command of a boundary state lets go of byte [b], becoming [cur']. *)
Definition lets_go (cur : option command) (d : bool) (b : Z) (cur' : option command) : Prop :=
  if d then cur' = cur
  else match cur with
       | None => cur' = None
       | Some c => exists c', cmd_push c b = Ok (false, c') /\ cur' = Some c'
       end.

Lemma parse_byte_lets_go cs cur d cap m b cur' :
  lets_go cur d b cur' ->
  parse_byte cs (bd cur d cap m) b = parse_match cs (bd cur' d cap m) b.
Proof.
  unfold lets_go, parse_byte, bd; cbn [p_depth p_default p_current Nat.eqb].
  destruct d; cbn [negb andb].
  - intros ->. reflexivity.
  - destruct cur as [c|].
    + intros (c' & Hp & ->). rewrite Hp. cbn [bind]. reflexivity.
    + intros ->. reflexivity.
Qed.

Lemma scan_boundary cs bs cur d cap m k cur' :
  scan (cs_commands cs) 0 bs = Some k ->
  lets_go cur d (hd 0 bs) cur' ->
  parse_all cs (bd cur d cap m) bs = Ok (bd (Some k) false (cap ++ emitted_opt cur') [k]).
Proof.
  destruct bs as [|b bs]; cbn [scan hd]; [discriminate|]. intros Hs Hl.
  cbn [parse_all]. rewrite (parse_byte_lets_go _ _ _ _ _ _ _ Hl).
  unfold parse_match; cbn [bd p_depth Nat.eqb p_buffer app].
  destruct (matching (cs_commands cs) 0 b) as [|c [|c2 l]] eqn:Em; [discriminate| |].
  - destruct ((length (c_commands c) - 1 =? 0)%nat) eqn:El; cbn [negb bind p_captured p_current].
    + destruct bs; [|discriminate]. injection Hs as <-. reflexivity.
    + rewrite (scan_run _ _ _ k); [reflexivity|discriminate|exact Hs].
  - cbn [bind]. rewrite (scan_run _ _ _ k); [reflexivity|discriminate|exact Hs].
Qed.

(** ** Feeding argument bytes to the current command *)

Fixpoint feed (c : command) (bs : list Z) : option command :=
  match bs with
  | [] => Some c
  | b :: r => match cmd_push c b with Ok (true, c') => feed c' r | _ => None end
  end.

Lemma feed_app c bs1 bs2 :
  feed c (bs1 ++ bs2) = match feed c bs1 with Some c' => feed c' bs2 | None => None end.
Proof.
  revert c; induction bs1 as [|b bs1 IH]; intros c; cbn [feed app]; [reflexivity|].
  destruct (cmd_push c b) as [[[|] c']|]; auto.
Qed.

Lemma feed_run cs bs : forall c c' cap m,
  feed c bs = Some c' ->
  parse_all cs (bd (Some c) false cap m) bs = Ok (bd (Some c') false cap m).
Proof.
  induction bs as [|b bs IH]; intros c c' cap m Hf; cbn [feed] in Hf.
  - injection Hf as ->. reflexivity.
  - cbn [parse_all]. unfold parse_byte; cbn [bd p_depth p_default p_current Nat.eqb negb andb].
    destruct (cmd_push c b) as [[[|] c1]|] eqn:Ep; try discriminate.
    cbn [bind p_matches p_buffer p_captured]. apply (IH c1 c' cap m Hf).
Qed.

(** ** Fixed-arity commands *)

Lemma push_fixed c n b :
  fixed_arity (c_dkind c) = Some n ->
  cmd_push c b = if (n <=? length (c_data c))%nat then Ok (false, c)
                 else Ok (true, with_data c (c_data c ++ [b])).
Proof.
  unfold cmd_push. destruct (c_dkind c); cbn [fixed_arity]; intros H; try discriminate;
    injection H as <-; reflexivity.
Qed.

Lemma feed_fixed n bs : forall c,
  fixed_arity (c_dkind c) = Some n ->
  (length (c_data c) + length bs <= n)%nat ->
  feed c bs = Some (with_data c (c_data c ++ bs)).
Proof.
  induction bs as [|b bs IH]; intros c Ha Hl; cbn [feed].
  - rewrite app_nil_r. destruct c; reflexivity.
  - rewrite (push_fixed _ _ _ Ha).
    cbn [length] in Hl.
    destruct (Nat.leb_spec n (length (c_data c))); [lia|].
    rewrite IH; [|exact Ha|cbn [with_data c_data]; rewrite app_length; cbn [length]; lia].
    cbn [with_data c_data c_name c_commands c_kind c_dkind c_handler].
    rewrite <- app_assoc. reflexivity.
Qed.

(** ** Default (text) and unknown commands *)

Definition first_byte (c : command) : option Z := nth_error (c_commands c) 0.

Lemma matching_first subset b :
  ~ In (Some b) (map first_byte subset) -> matching subset 0 b = [].
Proof.
  unfold matching, first_byte. induction subset as [|c l IH]; intros H; [reflexivity|].
  cbn [filter]. destruct (nth_error (c_commands c) 0) as [x|] eqn:E.
  - destruct (Z.eqb_spec x b) as [->|Hne].
    + exfalso. apply H. cbn [map In]. left. exact E.
    + apply IH. intros Hi. apply H. cbn [map In]. now right.
  - apply IH. intros Hi. apply H. cbn [map In]. now right.
Qed.

Lemma esc_pos_first_bytes :
  forallb (fun o => match o with
                    | Some x => mem_byte x [9; 10; 12; 13; 24; 27; 29]
                    | None => false end) (map first_byte esc_pos_commands) = true.
Proof. vm_compute. reflexivity. Qed.

Lemma text_not_starting b :
  text_byte b = true -> matching esc_pos_commands 0 b = [] /\ mem_byte b [16; 27; 28; 29] = false.
Proof.
  unfold text_byte, mem_byte. cbn [existsb]. intros H. split; [|lia].
  apply matching_first. intros Hi.
  pose proof (proj1 (forallb_forall _ _) esc_pos_first_bytes _ Hi) as Hb.
  cbn beta iota in Hb. unfold mem_byte in Hb. cbn [existsb] in Hb. lia.
Qed.
