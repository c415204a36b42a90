(** * Automaton: the parser as a two-mode automaton (prefix recognition / argument feeding). *)
From Verif Require Import Base Command CommandSet Parser SpecStream ParserLemmas.

(** Commands whose prefix starts with [q]. *)
Definition cands (q : list Z) : list command :=
  filter (fun c => is_prefix q (c_commands c)) esc_pos_commands.

Fixpoint list_eqb (a b : list Z) : bool :=
  match a, b with
  | [], [] => true
  | x :: a', y :: b' => (x =? y) && list_eqb a' b'
  | _, _ => false
  end.
Lemma list_eqb_eq a : forall b, list_eqb a b = true <-> a = b.
Proof.
  induction a as [|x a IH]; destruct b as [|y b]; cbn [list_eqb]; split; intros H;
    try reflexivity; try discriminate.
  - apply andb_prop in H. destruct H as [H1 H2]. apply Z.eqb_eq in H1. apply IH in H2. congruence.
  - injection H as -> ->. rewrite Z.eqb_refl. cbn [andb]. apply IH. reflexivity.
Qed.

(** The command whose prefix is exactly [q]. *)
Definition exact_cmd (q : list Z) : option command :=
  find (fun c => list_eqb (c_commands c) q) esc_pos_commands.

Lemma is_prefix_spec p : forall l, is_prefix p l = true <-> exists r, l = p ++ r.
Proof.
  induction p as [|a p IH]; intros l; cbn [is_prefix].
  - split; [intros _; exists l; reflexivity|reflexivity].
  - destruct l as [|b l].
    + split; [discriminate|intros [r H]; discriminate].
    + split.
      * intros H. apply andb_prop in H. destruct H as [H1 H2]. apply Z.eqb_eq in H1.
        apply IH in H2. destruct H2 as [r ->]. exists r. subst. reflexivity.
      * intros [r H]. injection H as -> ->. rewrite Z.eqb_refl. cbn [andb]. apply IH. now exists r.
Qed.

Lemma is_prefix_snoc p b : forall l,
  is_prefix (p ++ [b]) l =
  is_prefix p l && match nth_error l (length p) with Some x => x =? b | None => false end.
Proof.
  induction p as [|a p IH]; intros l; cbn [app is_prefix length].
  - destruct l as [|x l]; cbn [nth_error]; [reflexivity|]. cbn [is_prefix andb].
    rewrite andb_true_r. apply Z.eqb_sym.
  - destruct l as [|x l]; cbn [nth_error]; [reflexivity|]. rewrite IH. rewrite andb_assoc. reflexivity.
Qed.

Lemma filter_filter {A} (f g : A -> bool) l :
  filter f (filter g l) = filter (fun x => g x && f x) l.
Proof.
  induction l as [|a l IH]; cbn [filter]; [reflexivity|].
  destruct (g a); cbn [filter andb]; [destruct (f a)|]; rewrite IH; reflexivity.
Qed.

Lemma filter_ext' {A} (f g : A -> bool) l : (forall x, f x = g x) -> filter f l = filter g l.
Proof. intros H. induction l as [|a l IH]; cbn [filter]; [reflexivity|]. rewrite H, IH. reflexivity. Qed.

Lemma matching_cands p b : matching (cands p) (length p) b = cands (p ++ [b]).
Proof.
  unfold matching, cands. rewrite filter_filter. apply filter_ext'. intros c.
  rewrite is_prefix_snoc. reflexivity.
Qed.

(** All non-empty prefixes of command prefixes. *)
Fixpoint inits (l : list Z) : list (list Z) :=
  match l with [] => [[]] | a :: r => [] :: map (cons a) (inits r) end.
Lemma inits_in p r : In p (inits (p ++ r)).
Proof.
  induction p as [|a p IH]; cbn [app inits].
  - destruct r; now left.
  - right. apply in_map. exact IH.
Qed.
Definition partials : list (list Z) :=
  filter (fun q => match q with [] => false | _ => true end)
         (flat_map (fun c => inits (c_commands c)) esc_pos_commands).

Lemma cands_partial q : q <> [] -> cands q <> [] -> In q partials.
Proof.
  intros Hq Hc. destruct (cands q) as [|c l] eqn:E; [congruence|].
  assert (Hin : In c (cands q)) by (rewrite E; now left).
  unfold cands in Hin. apply filter_In in Hin. destruct Hin as [Hin Hp].
  apply is_prefix_spec in Hp. destruct Hp as [r Hr].
  unfold partials. apply filter_In. split; [|destruct q; congruence].
  apply in_flat_map. exists c. split; [exact Hin|]. rewrite Hr. apply inits_in.
Qed.

Definition partial_ok (q : list Z) : bool :=
  match exact_cmd q, cands q with
  | Some _, [_] => true
  | Some _, _ => false
  | None, [] => false
  | None, [c] => negb (length (c_commands c) =? length q)%nat
  | None, _ => true
  end.

Lemma partials_ok : forallb partial_ok partials = true.
Proof. vm_compute. reflexivity. Qed.

Lemma partial_ok_of q : q <> [] -> cands q <> [] -> partial_ok q = true.
Proof.
  intros Hq Hc. exact (proj1 (forallb_forall _ _) partials_ok q (cands_partial q Hq Hc)).
Qed.

Lemma exact_cands q c : exact_cmd q = Some c -> q <> [] -> cands q = [c] /\ c_commands c = q.
Proof.
  intros H Hq. pose proof H as H0. apply find_some in H0. destruct H0 as [Hin He].
  apply list_eqb_eq in He.
  assert (Hc : In c (cands q)).
  { unfold cands. apply filter_In. split; [exact Hin|]. apply is_prefix_spec. exists [].
    rewrite app_nil_r. exact He. }
  assert (Hne : cands q <> []) by (intros E; rewrite E in Hc; destruct Hc).
  pose proof (partial_ok_of q Hq Hne) as Hp. unfold partial_ok in Hp. rewrite H in Hp.
  destruct (cands q) as [|c' [|c2 l]]; try discriminate.
  destruct Hc as [->|[]]. split; [reflexivity|exact He].
Qed.

(** A state in the middle of recognising the bytes [p] ([p = []]: at a boundary). *)
Definition mid (p : list Z) (cur : option command) (d : bool) (cap m : list command) : pstate :=
  {| p_depth := length p; p_matches := m; p_current := cur; p_default := d; p_buffer := p;
     p_captured := cap |}.

Lemma mid_nil cur d cap m : mid [] cur d cap m = bd cur d cap m.
Proof. reflexivity. Qed.

Lemma cands_nil : cands [] = esc_pos_commands.
Proof. vm_compute. reflexivity. Qed.

(** What becomes of the captured list when the current command gives way to text or to an
    unknown sequence. *)
Definition give_way (cur : option command) : list command :=
  match cur with Some c => emitted c | None => emitted cmd_unknown end.

Definition special (b : Z) : bool := mem_byte b [16; 27; 28; 29].

Definition text_of (bs : list Z) : command := with_data cmd_text bs.
Definition unknown_of (bs : list Z) : command := with_data cmd_unknown bs.

(** One step of prefix recognition. *)
Lemma parse_match_mid p cur d cap m b :
  p = [] \/ m = cands p ->
  parse_match esc_pos (mid p cur d cap m) b =
    match exact_cmd (p ++ [b]) with
    | Some k => Ok (mid [] (Some k) false (cap ++ emitted_opt cur) [k])
    | None =>
        match cands (p ++ [b]) with
        | _ :: _ => Ok (mid (p ++ [b]) cur d cap (cands (p ++ [b])))
        | [] =>
            if special (hd 0 (p ++ [b])) then
              Ok (mid [] (Some (unknown_of (p ++ [b]))) true (cap ++ give_way cur) [])
            else if d then
              do cur' <- (match cur with
                          | Some c => do r <- cmd_push c b; Ok (Some (snd r))
                          | None => Ok None
                          end);
              Ok (mid [] cur' true cap [])
            else Ok (mid [] (Some (text_of [b])) true (cap ++ give_way cur) [])
        end
    end.
Proof.
  intros Hm. unfold parse_match, mid.
  cbn [p_depth p_matches p_current p_default p_buffer p_captured].
  assert (Hsub : matching (if (length p =? 0)%nat then cs_commands esc_pos else m) (length p) b
                 = cands (p ++ [b])).
  { rewrite <- matching_cands. f_equal. destruct p as [|a p].
    - cbn [length Nat.eqb]. rewrite cands_nil. reflexivity.
    - destruct Hm as [H|H]; [discriminate|]. exact H. }
  rewrite Hsub. clear Hsub.
  assert (Hlen : S (length p) = length (p ++ [b])) by (rewrite app_length; cbn; lia).
  destruct (exact_cmd (p ++ [b])) as [k|] eqn:Ex.
  - destruct (exact_cands _ _ Ex ltac:(destruct p; discriminate)) as [Hc Hk].
    rewrite Hc, Hk. replace (length (p ++ [b]) - 1)%nat with (length p) by lia.
    rewrite Nat.eqb_refl. cbn [negb length]. reflexivity.
  - destruct (cands (p ++ [b])) as [|c l] eqn:Ec.
    + cbn [cs_unknown esc_pos c_commands cmd_unknown mk_cmd cs_default].
      change [DLE; ESC; FS; GS] with [16; 27; 28; 29]. fold (special (hd 0 (p ++ [b]))).
      destruct (special (hd 0 (p ++ [b]))); [reflexivity|].
      destruct d; reflexivity.
    + assert (Hne : (p ++ [b]) <> []) by (destruct p; discriminate).
      pose proof (partial_ok_of (p ++ [b]) Hne ltac:(rewrite Ec; discriminate)) as Hp.
      unfold partial_ok in Hp. rewrite Ex, Ec in Hp.
      destruct l as [|c2 l].
      * destruct (Nat.eqb_spec (length (c_commands c) - 1) (length p)) as [H|H].
        -- exfalso. apply negb_true_iff, Nat.eqb_neq in Hp.
           assert (Hin : In c (cands (p ++ [b]))) by (rewrite Ec; now left).
           unfold cands in Hin. apply filter_In in Hin. destruct Hin as [_ Hin].
           apply is_prefix_spec in Hin. destruct Hin as [r Hr]. 
           assert (length (c_commands c) = length (p ++ [b]) + length r)%nat
             by (rewrite Hr; apply app_length). lia.
        -- cbn [negb]. rewrite Hlen. reflexivity.
      * rewrite Hlen. reflexivity.
Qed.

(** ** Running through an unrecognised sequence *)

Lemma parse_byte_mid p cur d cap m b :
  p <> [] -> parse_byte esc_pos (mid p cur d cap m) b = parse_match esc_pos (mid p cur d cap m) b.
Proof. intros H. destruct p as [|a p]; [congruence|]. reflexivity. Qed.

Lemma existsb_ext_in {A} (f : A -> bool) l1 l2 :
  incl l1 l2 -> incl l2 l1 -> existsb f l1 = existsb f l2.
Proof.
  intros H1 H2. apply eq_true_iff_eq. rewrite !existsb_exists. split; intros (x & Hx & E); eauto.
Qed.

Lemma prefixes_incl1 : incl all_prefixes (map c_commands esc_pos_commands).
Proof.
  assert (H : forallb (fun p => existsb (list_eqb p) (map c_commands esc_pos_commands)) all_prefixes = true)
    by (vm_compute; reflexivity).
  intros p Hp. pose proof (proj1 (forallb_forall _ _) H p Hp) as E. cbn beta in E.
  apply existsb_exists in E. destruct E as (q & Hq & E). apply list_eqb_eq in E. congruence.
Qed.
Lemma prefixes_incl2 : incl (map c_commands esc_pos_commands) all_prefixes.
Proof.
  assert (H : forallb (fun p => existsb (list_eqb p) all_prefixes) (map c_commands esc_pos_commands) = true)
    by (vm_compute; reflexivity).
  intros p Hp. pose proof (proj1 (forallb_forall _ _) H p Hp) as E. cbn beta in E.
  apply existsb_exists in E. destruct E as (q & Hq & E). apply list_eqb_eq in E. congruence.
Qed.

Lemma existsb_map {A B} (f : B -> bool) (g : A -> B) l : existsb f (map g l) = existsb (fun x => f (g x)) l.
Proof. induction l as [|a l IH]; cbn [map existsb]; [reflexivity|]. rewrite IH. reflexivity. Qed.

Lemma existsb_prefixes f : existsb f all_prefixes = existsb (fun c => f (c_commands c)) esc_pos_commands.
Proof.
  rewrite (existsb_ext_in f _ _ prefixes_incl1 prefixes_incl2). apply existsb_map.
Qed.

Lemma cands_none q : cands q = [] <-> existsb (is_prefix q) all_prefixes = false.
Proof.
  rewrite existsb_prefixes. unfold cands.
  generalize esc_pos_commands. induction l as [|c l IH]; cbn [filter existsb]; [tauto|].
  destruct (is_prefix q (c_commands c)); cbn [orb].
  - split; discriminate.
  - exact IH.
Qed.

Lemma exact_none q : existsb (fun p => is_prefix p q) all_prefixes = false -> exact_cmd q = None.
Proof.
  rewrite existsb_prefixes. unfold exact_cmd.
  generalize esc_pos_commands. induction l as [|c l IH]; cbn [find existsb]; [reflexivity|].
  intros H. apply orb_false_iff in H. destruct H as [H1 H2].
  destruct (list_eqb (c_commands c) q) eqn:E; [|apply IH, H2].
  apply list_eqb_eq in E. subst q.
  assert (Hp : is_prefix (c_commands c) (c_commands c) = true)
    by (apply is_prefix_spec; exists []; rewrite app_nil_r; reflexivity).
  congruence.
Qed.

Lemma exact_none_cands q : cands q = [] -> exact_cmd q = None.
Proof.
  intros H. destruct (exact_cmd q) as [k|] eqn:E; [|reflexivity].
  destruct q as [|a q].
  - rewrite cands_nil in H. vm_compute in H. discriminate.
  - destruct (exact_cands _ _ E ltac:(discriminate)) as [Hc _]. congruence.
Qed.

(** [q] is a proper beginning of some command prefix. *)
Definition begun (q : list Z) : Prop := cands q <> [] /\ exact_cmd q = None.

Lemma begun_shorter q r : q <> [] -> begun (q ++ r) -> begun q.
Proof.
  intros Hq [Hc He]. split.
  - intros E. apply Hc. apply cands_none. apply cands_none in E.
    destruct (existsb (is_prefix (q ++ r)) all_prefixes) eqn:Ex; [|reflexivity].
    apply existsb_exists in Ex. destruct Ex as (p & Hp & Ex). apply is_prefix_spec in Ex.
    destruct Ex as [t ->].
    assert (Ht : existsb (is_prefix q) all_prefixes = true).
    { apply existsb_exists. exists ((q ++ r) ++ t). split; [exact Hp|]. apply is_prefix_spec.
      exists (r ++ t). rewrite app_assoc. reflexivity. }
    congruence.
  - destruct (exact_cmd q) as [k|] eqn:E; [|reflexivity].
    destruct (exact_cands _ _ E Hq) as [Hk Hkc].
    destruct r as [|x r]; [rewrite app_nil_r in He; congruence|].
    exfalso. apply Hc. unfold cands in *.
    destruct (filter (fun c => is_prefix (q ++ x :: r) (c_commands c)) esc_pos_commands) as [|c l] eqn:Ef;
      [reflexivity|].
    assert (Hin : In c (c :: l)) by now left. rewrite <- Ef in Hin. apply filter_In in Hin.
    destruct Hin as [Hin Hp]. apply is_prefix_spec in Hp. destruct Hp as [t Ht].
    assert (Hin2 : In c [k]).
    { rewrite <- Hk. apply filter_In. split; [exact Hin|]. apply is_prefix_spec.
      exists (x :: r ++ t). rewrite Ht, <- app_assoc. reflexivity. }
    destruct Hin2 as [<-|[]].
    assert (Hlen : length (c_commands k) = length ((q ++ x :: r) ++ t)) by congruence.
    rewrite Hkc, !app_length in Hlen. cbn [length] in Hlen. lia.
Qed.

(** From a boundary, a begun prefix is just remembered. *)
Lemma run_begun q cur d cap m cur' :
  begun q -> q <> [] -> lets_go cur d (hd 0 q) cur' ->
  parse_all esc_pos (bd cur d cap m) q = Ok (mid q cur' d cap (cands q)).
Proof.
  intros Hb Hq Hl.
  assert (Hgen : forall r p, p <> [] -> begun (p ++ r) ->
            parse_all esc_pos (mid p cur' d cap (cands p)) r =
              Ok (mid (p ++ r) cur' d cap (cands (p ++ r)))).
  { induction r as [|b r IH]; intros p Hp Hbr.
    - rewrite app_nil_r. reflexivity.
    - cbn [parse_all]. rewrite parse_byte_mid by exact Hp.
      rewrite parse_match_mid by (right; reflexivity).
      replace (p ++ b :: r) with ((p ++ [b]) ++ r) in * by (rewrite <- app_assoc; reflexivity).
      assert (Hb' : begun (p ++ [b])) by (apply (begun_shorter _ r); [destruct p; discriminate|exact Hbr]).
      destruct Hb' as [Hc He]. rewrite He. destruct (cands (p ++ [b])) eqn:Ec; [congruence|].
      cbn [bind]. rewrite <- Ec. apply IH; [destruct p; discriminate|exact Hbr]. }
  destruct q as [|b q]; [congruence|]. cbn [hd] in Hl.
  cbn [parse_all]. rewrite (parse_byte_lets_go _ _ _ _ _ _ _ Hl).
  rewrite <- mid_nil, parse_match_mid by (left; reflexivity). cbn [app].
  assert (Hb' : begun [b]) by (apply (begun_shorter [b] q); [discriminate|exact Hb]).
  destruct Hb' as [Hc He]. rewrite He. destruct (cands [b]) eqn:Ec; [congruence|].
  cbn [bind]. rewrite <- Ec. apply (Hgen q [b]); [discriminate|exact Hb].
Qed.

Lemma unrecognised_inv u :
  unrecognised u = true ->
  exists q b, u = q ++ [b] /\ special (hd 0 u) = true /\ cands u = [] /\ (q = [] \/ begun q).
Proof.
  unfold unrecognised. intros H. apply andb_prop in H. destruct H as [H H3].
  apply andb_prop in H. destruct H as [H1 H2].
  destruct u as [|x u]; [discriminate|].
  destruct (@exists_last _ (x :: u) ltac:(discriminate)) as (q & b & E).
  exists q, b. split; [exact E|]. split; [exact H1|]. split.
  { apply cands_none. apply negb_true_iff. exact H2. }
  rewrite E, removelast_last in H3. destruct q as [|y q]; [now left|]. right.
  apply andb_prop in H3. destruct H3 as [H3 H4]. split.
  - intros Hn. apply cands_none in Hn. congruence.
  - apply exact_none. apply negb_true_iff. exact H4.
Qed.

Lemma run_unknown u cur d cap m cur' :
  unrecognised u = true -> lets_go cur d (hd 0 u) cur' ->
  parse_all esc_pos (bd cur d cap m) u =
    Ok (bd (Some (unknown_of u)) true (cap ++ give_way cur') []).
Proof.
  intros Hu Hl. destruct (unrecognised_inv u Hu) as (q & b & E & Hs & Hc & Hq).
  destruct q as [|x q].
  - cbn [app] in E. subst u. cbn [parse_all hd] in *.
    rewrite (parse_byte_lets_go _ _ _ _ _ _ _ Hl).
    rewrite <- mid_nil, parse_match_mid by (left; reflexivity). cbn [app hd].
    rewrite (exact_none_cands _ Hc), Hc, Hs. reflexivity.
  - destruct Hq as [?|Hq]; [discriminate|].
    rewrite E in Hl |- *. cbn [app hd] in Hl.
    rewrite parse_all_app, (run_begun (x :: q) cur d cap m cur' Hq ltac:(discriminate) Hl).
    cbn [bind parse_all]. rewrite parse_byte_mid by discriminate.
    rewrite parse_match_mid by (right; reflexivity).
    rewrite E in Hc, Hs. rewrite (exact_none_cands _ Hc), Hc, Hs. reflexivity.
Qed.

(** ** Plain bytes *)

Lemma text_byte_facts b :
  text_byte b = true -> exact_cmd [b] = None /\ cands [b] = [] /\ special b = false.
Proof.
  intros H. destruct (text_not_starting b H) as [H1 H2].
  assert (Hc : cands [b] = []).
  { change [b] with ([] ++ [b]). rewrite <- matching_cands. rewrite cands_nil. exact H1. }
  split; [apply exact_none_cands, Hc|]. split; [exact Hc|exact H2].
Qed.

Lemma push_open c b :
  c_dkind c = DText \/ c_dkind c = DUnknown -> cmd_push c b = Ok (true, with_data c (c_data c ++ [b])).
Proof. intros [H|H]; unfold cmd_push; rewrite H; reflexivity. Qed.

Lemma can_facts x :
  x <> 64 -> exact_cmd [24; x] = None /\ cands [24; x] = [].
Proof.
  intros H.
  assert (Hc : cands [24; x] = []).
  { change [24; x] with ([24] ++ [x]). rewrite <- matching_cands.
    assert (E : cands [24] = [cmd_cancel]) by (vm_compute; reflexivity). rewrite E.
    unfold matching. cbn [filter length nth_error c_commands cmd_cancel mk_cmd].
    destruct (Z.eqb_spec 64 x); [congruence|reflexivity]. }
  split; [apply exact_none_cands, Hc|exact Hc].
Qed.

Lemma can_begun : exact_cmd [24] = None /\ cands [24] = [cmd_cancel].
Proof. split; vm_compute; reflexivity. Qed.

Lemma run_plain us : forall c cap m,
  c_dkind c = DText \/ c_dkind c = DUnknown -> forallb unit_ok us = true ->
  exists m', parse_all esc_pos (bd (Some c) true cap m) (flat_map unit_wire us) =
    Ok (bd (Some (with_data c (c_data c ++ shown us))) true cap m').
Proof.
  unfold shown.
  induction us as [|u us IH]; intros c cap m Hk Ht.
  - exists m. cbn [flat_map]. rewrite app_nil_r. destruct c; reflexivity.
  - cbn [forallb] in Ht. apply andb_prop in Ht. destruct Ht as [Hb Ht].
    cbn [flat_map]. rewrite parse_all_app.
    assert (Hstep : exists x, unit_show u = [x] /\
              parse_all esc_pos (bd (Some c) true cap m) (unit_wire u) =
              Ok (bd (Some (with_data c (c_data c ++ [x]))) true cap [])).
    { destruct u as [b|x]; cbn [unit_wire unit_show unit_ok] in *.
      - exists b. split; [reflexivity|].
        destruct (text_byte_facts b Hb) as (He & Hc & Hs).
        cbn [parse_all].
        rewrite (parse_byte_lets_go _ (Some c) true cap m b (Some c) (eq_refl : lets_go (Some c) true b (Some c))).
        rewrite <- mid_nil, parse_match_mid by (left; reflexivity). cbn [app hd].
        rewrite He, Hc, Hs. rewrite (push_open _ _ Hk). reflexivity.
      - exists x. split; [reflexivity|].
        apply negb_true_iff, Z.eqb_neq in Hb.
        destruct (can_facts x Hb) as [He Hc]. destruct can_begun as [He1 Hc1].
        cbn [parse_all].
        rewrite (parse_byte_lets_go _ (Some c) true cap m 24 (Some c) (eq_refl : lets_go (Some c) true 24 (Some c))).
        rewrite <- mid_nil, parse_match_mid by (left; reflexivity). cbn [app].
        rewrite He1, Hc1. cbn [bind]. rewrite <- Hc1.
        rewrite parse_byte_mid by discriminate.
        rewrite parse_match_mid by (right; reflexivity). cbn [app hd].
        rewrite He, Hc. change (special 24) with false. cbn iota.
        rewrite (push_open _ _ Hk). reflexivity. }
    destruct Hstep as (x & Hx & Hr). rewrite Hr. cbn [bind].
    destruct (IH (with_data c (c_data c ++ [x])) cap [] Hk Ht) as [m' Hm'].
    exists m'. rewrite Hm', Hx. cbn [with_data c_data c_name c_commands c_kind c_dkind c_handler].
    rewrite <- app_assoc. reflexivity.
Qed.

Lemma run_text us cur cap m cur' :
  us <> [] -> forallb unit_ok us = true -> lets_go cur false (hd 0 (flat_map unit_wire us)) cur' ->
  exists m', parse_all esc_pos (bd cur false cap m) (flat_map unit_wire us) =
    Ok (bd (Some (text_of (shown us))) true (cap ++ give_way cur') m').
Proof.
  intros Hne Ht Hl. destruct us as [|u us]; [congruence|].
  cbn [forallb] in Ht. apply andb_prop in Ht. destruct Ht as [Hb Ht].
  cbn [flat_map] in *. rewrite parse_all_app.
  assert (Hstep : exists x, unit_show u = [x] /\
            parse_all esc_pos (bd cur false cap m) (unit_wire u) =
            Ok (bd (Some (text_of [x])) true (cap ++ give_way cur') [])).
  { destruct u as [b|x]; cbn [unit_wire unit_show unit_ok app hd] in *.
    - exists b. split; [reflexivity|].
      destruct (text_byte_facts b Hb) as (He & Hc & Hs).
      cbn [parse_all]. rewrite (parse_byte_lets_go _ _ _ _ _ _ _ Hl).
      rewrite <- mid_nil, parse_match_mid by (left; reflexivity). cbn [app hd].
      rewrite He, Hc, Hs. reflexivity.
    - exists x. split; [reflexivity|].
      apply negb_true_iff, Z.eqb_neq in Hb.
      destruct (can_facts x Hb) as [He Hc]. destruct can_begun as [He1 Hc1].
      cbn [parse_all]. rewrite (parse_byte_lets_go _ _ _ _ _ _ _ Hl).
      rewrite <- mid_nil, parse_match_mid by (left; reflexivity). cbn [app].
      rewrite He1, Hc1. cbn [bind]. rewrite <- Hc1.
      rewrite parse_byte_mid by discriminate.
      rewrite parse_match_mid by (right; reflexivity). cbn [app hd].
      rewrite He, Hc. change (special 24) with false. reflexivity. }
  destruct Hstep as (x & Hx & Hr). rewrite Hr. cbn [bind].
  destruct (run_plain us (text_of [x]) (cap ++ give_way cur') [] (or_introl eq_refl) Ht) as [m' Hm'].
  exists m'. rewrite Hm'. unfold shown. cbn [flat_map]. rewrite Hx. reflexivity.
Qed.
