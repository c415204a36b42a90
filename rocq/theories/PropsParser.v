(** * PropsParser: theorems C01-C12 about [Parser::parse_bytes].

    Vocabulary (SpecStream.v): [item]s are what a driver sends, [wire]/[encode] their bytes,
    [expect] the command reported for an item that is followed by something, [expect_eof] for
    the last one; [observe] is the public view of a returned command (name, kind, prefix, data,
    get_command_bytes). *)
From Verif Require Import Base Command CommandSet Parser SpecStream ParserLemmas Automaton
  StreamProofs Decompose ParserTheory.
Local Open Scope string_scope.
Local Open Scope Z_scope.
Local Open Scope list_scope.

(** ** C01 *)

(** A well-formed stream parses to exactly the commands its items encode. *)
Theorem C01_stream_parses_exactly : forall l,
  stream_ok l ->
  exists cmds, parse_esc_pos (encode l) = Ok cmds /\ map observe cmds = parse_spec l.
Proof. exact parse_stream. Qed.

(** Every byte string whatsoever is a sequence of items followed by a truncated end, and is
    parsed accordingly - or it contains, at an item boundary, a sub-command header announcing
    fewer than two bytes followed by at least one byte, and the parser panics. *)
Theorem C01_every_byte_string : forall bs,
  bytes_ok bs = true ->
  (exists l t cmds, stream_ok l /\ tail_ok t /\ bs = encode l ++ tail_wire t /\
     parse_esc_pos bs = Ok cmds /\ map observe cmds = parse_total l t) \/
  (exists l o hdr b rest, stream_ok l /\ bytes_ok hdr = true /\ bad_header o hdr /\
     bs = encode l ++ sub_prefix o ++ hdr ++ b :: rest /\ parse_esc_pos bs = Panic POverflow).
Proof. exact parse_cases. Qed.

(** The reading is unambiguous as far as the application can tell: two decompositions of the
    same bytes give the same report. *)
Theorem C01_reading_unique : forall l1 t1 l2 t2,
  stream_ok l1 -> tail_ok t1 -> stream_ok l2 -> tail_ok t2 ->
  encode l1 ++ tail_wire t1 = encode l2 ++ tail_wire t2 -> parse_total l1 t1 = parse_total l2 t2.
Proof.
  intros l1 t1 l2 t2 H1 T1 H2 T2 E.
  destruct (parse_total_ok l1 t1 H1 T1) as (c1 & P1 & O1).
  destruct (parse_total_ok l2 t2 H2 T2) as (c2 & P2 & O2).
  rewrite E in P1. rewrite P1 in P2. injection P2 as <-. congruence.
Qed.

(** A non-trivial stream meeting the hypotheses: initialise, text, an unrecognised sequence,
    a QR store sub-command with a payload that looks like commands, a barcode, an image. *)
Definition demo_stream : list item :=
  [IFixed "Initialize" KContextControl [27; 64] [];
   IText [TB 72; TB 105];
   IFixed "Enable Emphasis" KTextStyle [27; 69] [27];
   IUnknown [27; 1] [TB 65];
   ISub Code2d 49 80 [48; 27; 64; 10];
   IBarcodeNul 2 [49; 50];
   IBitImage 33 1 0 [29; 27; 0];
   IRaster 0 1 0 2 0 [255; 27];
   ICutFeed 66 3;
   IFixed "Line Feed" KText [10] []].

Example C01_demo : stream_ok demo_stream /\
  encode demo_stream =
    [27; 64; 72; 105; 27; 69; 27; 27; 1; 65; 29; 40; 107; 6; 0; 49; 80; 48; 27; 64; 10;
     29; 107; 2; 49; 50; 0; 27; 42; 33; 1; 0; 29; 27; 0; 29; 118; 48; 0; 1; 0; 2; 0; 255; 27;
     29; 86; 66; 3; 10].
Proof.
  split; [|reflexivity]. split; [|reflexivity].
  unfold demo_stream. repeat apply Forall_cons; try apply Forall_nil.
  all: cbn; try solve [repeat split; try lia; try reflexivity; try discriminate; tauto].
Qed.

(** ** C02 *)

Theorem C02_framed : forall bs cmds,
  bytes_ok bs = true -> parse_esc_pos bs = Ok cmds ->
  exists mid, map observe cmds = [o_begin] ++ mid ++ [o_end] /\
    forall o, In o mid -> o_name o <> "Begin Print" /\ o_name o <> "End Print".
Proof.
  intros bs cmds Hb Hp. destruct (parse_cases bs Hb) as
    [(l & t & cmds' & Hl & Ht & _ & Hp' & Ho)|(l & o & hdr & b & r & _ & _ & _ & _ & Hp')];
    [|congruence].
  rewrite Hp in Hp'. injection Hp' as <-. rewrite parse_total_body in Ho.
  exists (lead l ++ body l t). split; [rewrite Ho, <- !app_assoc; reflexivity|].
  intros o Hin. apply in_app_or in Hin. destruct Hin as [Hin|Hin].
  - destruct l as [|i l]; [destruct Hin|]. cbn [lead] in Hin.
    destruct (open_ended i); [|destruct Hin]. destruct Hin as [<-|[]]. split; discriminate.
  - pose proof (proj1 (Forall_forall _ _) (body_inner l t Hl Ht) o Hin) as (H1 & H2 & _).
    split; assumption.
Qed.

Example C02_demo : exists cmds, parse_esc_pos [27; 64; 65; 10; 27] = Ok cmds /\ length cmds = 5%nat.
Proof. eexists. split; [vm_compute; reflexivity|reflexivity]. Qed.

(** ** C03 *)

(** Feeding jobs one after the other to one parser. *)
Fixpoint run_jobs (st : pstate) (jobs : list (list Z)) : res (list (list command)) :=
  match jobs with
  | [] => Ok []
  | j :: r => do out <- parse_bytes esc_pos st j;
              do outs <- run_jobs (snd out) r;
              Ok (fst out :: outs)
  end.

(** Feeding each job to a fresh parser. *)
Fixpoint fresh_jobs (jobs : list (list Z)) : res (list (list command)) :=
  match jobs with
  | [] => Ok []
  | j :: r => do out <- parse_esc_pos j; do outs <- fresh_jobs r; Ok (out :: outs)
  end.

Theorem C03_parser_reuse : forall jobs, run_jobs parser_new jobs = fresh_jobs jobs.
Proof.
  induction jobs as [|j r IH]; [reflexivity|]. cbn [run_jobs fresh_jobs].
  unfold parse_esc_pos. destruct (parse_bytes esc_pos parser_new j) as [[c st]|p] eqn:E;
    [|reflexivity].
  cbn [bind fst snd].
  assert (Hst : st = parser_new).
  { unfold parse_bytes in E. destruct (parse_all _ _ j); cbn [bind] in E; [|discriminate].
    injection E as _ <-. reflexivity. }
  rewrite Hst, IH. reflexivity.
Qed.

Example C03_demo : exists rs,
  run_jobs parser_new [[29; 107; 2; 49]; [27]; [65; 10]] = Ok rs /\ length rs = 3%nat.
Proof. eexists. split; [vm_compute; reflexivity|reflexivity]. Qed.

(** ** C04 *)

Theorem C04_panic_iff : forall bs,
  bytes_ok bs = true ->
  (is_ok (parse_esc_pos bs) = false <->
   exists l o hdr b rest, stream_ok l /\ bad_header o hdr /\
     bs = encode l ++ sub_prefix o ++ hdr ++ b :: rest).
Proof.
  intros bs Hb. split.
  - intros Hp. destruct (parse_cases bs Hb) as
      [(l & t & cmds & _ & _ & _ & Hok & _)|(l & o & hdr & b & r & H1 & H2 & H3 & H4 & _)].
    + rewrite Hok in Hp. discriminate.
    + exists l, o, hdr, b, r. auto.
  - intros (l & o & hdr & b & r & H1 & H2 & E).
    assert (Hh : bytes_ok hdr = true).
    { rewrite E in Hb. apply bytes_app in Hb. destruct Hb as [_ Hb].
      apply bytes_app in Hb. destruct Hb as [_ Hb]. apply bytes_app in Hb. tauto. }
    rewrite E, (parse_bad_header l o hdr b r H1 Hh H2). reflexivity.
Qed.

(** [x] occurs in [bs]. *)
Definition occurs (x bs : list Z) : Prop := exists a b, bs = a ++ x ++ b.

Theorem C04_no_sub_no_panic : forall bs,
  bytes_ok bs = true ->
  ~ occurs [29; 40; 107] bs -> ~ occurs [29; 40; 76] bs -> ~ occurs [29; 40; 72] bs ->
  ~ occurs [29; 56; 76] bs ->
  exists cmds, parse_esc_pos bs = Ok cmds.
Proof.
  intros bs Hb H1 H2 H3 H4. destruct (parse_esc_pos bs) as [c|p] eqn:E; [eauto|].
  exfalso. assert (Hp : is_ok (parse_esc_pos bs) = false) by (rewrite E; reflexivity).
  apply (C04_panic_iff bs Hb) in Hp. destruct Hp as (l & o & hdr & b & r & _ & _ & ->).
  destruct o as [[| |]|]; cbn [sub_prefix fam_prefix] in *;
    [apply H1|apply H2|apply H4|apply H3]; exists (encode l), (hdr ++ b :: r); reflexivity.
Qed.

(** The panicking input is short: GS ( L with length 1, then any byte. *)
Example C04_demo : parse_esc_pos [27; 64; 29; 40; 76; 1; 0; 48; 69; 10] = Panic POverflow.
Proof. vm_compute. reflexivity. Qed.
Example C04_demo_hyp : exists l o hdr b rest, stream_ok l /\ bad_header o hdr /\
  [27; 64; 29; 40; 76; 1; 0; 48; 69; 10] = encode l ++ sub_prefix o ++ hdr ++ b :: rest.
Proof.
  exists [IFixed "Initialize" KContextControl [27; 64] []], (Some Graphics), [1; 0; 48; 69], 10, [].
  split; [|split; [split; [reflexivity|cbn; lia]|reflexivity]].
  split; [|reflexivity]. constructor; [|constructor]. cbn. do 5 right. left. reflexivity.
Qed.

(** ** C05 *)

(** A text run after a complete command is delivered verbatim, as one command. *)
Theorem C05_text_verbatim : forall l bs rest cmds,
  stream_ok l -> l <> [] -> last_open l = false ->
  bs <> [] -> forallb text_byte bs = true ->
  bytes_ok rest = true -> starts_text rest = false ->
  parse_esc_pos (encode l ++ bs ++ rest) = Ok cmds ->
  exists after, map observe cmds = [o_begin] ++ lead l ++ flat_map expect l ++ [o_text bs] ++ after.
Proof.
  intros l bs rest cmds Hl Hne Hop Hbs Ht Hb Hst Hp.
  assert (Hshow : forall s, flat_map unit_wire (map TB s) = s /\ shown (map TB s) = s).
  { unfold shown. induction s as [|x s [IH1 IH2]]; [split; reflexivity|].
    cbn [map flat_map unit_wire unit_show app]. rewrite IH1, IH2. split; reflexivity. }
  destruct (Hshow bs) as [Hw Hs].
  assert (Hit : stream_ok [IText (map TB bs)]).
  { split; [|reflexivity]. constructor; [|constructor]. cbn [item_ok]. split.
    - destruct bs; [congruence|discriminate].
    - rewrite forallb_forall in *. intros u Hu. apply in_map_iff in Hu.
      destruct Hu as (x & <- & Hx). apply Ht, Hx. }
  assert (Hl2 : stream_ok (l ++ [IText (map TB bs)]))
    by (apply stream_app; try assumption; rewrite Hop; reflexivity).
  assert (Henc : encode (l ++ [IText (map TB bs)]) = encode l ++ bs)
    by (rewrite encode_app; cbn [encode flat_map wire]; rewrite Hw, app_nil_r; reflexivity).
  assert (Hexp : flat_map expect (l ++ [IText (map TB bs)]) = flat_map expect l ++ [o_text bs])
    by (rewrite flat_map_app; cbn [flat_map expect app]; rewrite Hs; reflexivity).
  destruct rest as [|r0 rest].
  - rewrite app_nil_r, <- Henc in Hp.
    destruct (parse_stream _ Hl2) as (c' & Hp' & Ho). rewrite Hp in Hp'. injection Hp' as <-.
    exists [o_end]. rewrite Ho. unfold parse_spec. rewrite lead_app by exact Hne.
    rewrite expect_all_app by discriminate. cbn [expect_all expect_eof expect]. rewrite Hs.
    rewrite <- !app_assoc. reflexivity.
  - pose proof (afresh (l ++ [IText (map TB bs)]) (r0 :: rest) Hl2 ltac:(destruct l; discriminate)
                  Hb ltac:(discriminate) (or_intror Hst)) as Ha.
    rewrite Henc, <- app_assoc in Ha.
    destruct (parse_esc_pos (r0 :: rest)) as [c2|p]; [|congruence].
    destruct Ha as (c & Hc & Ho). rewrite Hp in Hc. injection Hc as <-.
    exists (job_body (map observe c2)). rewrite Ho, lead_app, Hexp by exact Hne.
    rewrite <- !app_assoc. reflexivity.
Qed.

Example C05_demo : exists cmds,
  parse_esc_pos ([27; 64] ++ [72; 101; 0; 200; 64] ++ [27; 69; 1]) = Ok cmds.
Proof. eexists. vm_compute. reflexivity. Qed.

(** At the very start of a stream the same run is preceded by one spurious empty Unknown. *)
Theorem C05_leading_text_spurious_unknown : forall us,
  us <> [] -> forallb unit_ok us = true ->
  exists cmds, parse_esc_pos (flat_map unit_wire us) = Ok cmds /\
    map observe cmds = [o_begin; o_unknown []; o_text (shown us); o_end].
Proof.
  intros us Hne Hok.
  assert (H : stream_ok [IText us]) by (split; [constructor; [split; assumption|constructor]|reflexivity]).
  destruct (parse_stream _ H) as (c & Hp & Ho). cbn [encode flat_map wire] in Hp.
  rewrite app_nil_r in Hp. eauto.
Qed.

(** ** C06, C07: arguments and payloads are never re-scanned *)

(** The general form: after a complete item (any kind except text runs, which have no end of
    their own), whatever its argument or payload bytes, the following bytes are parsed exactly
    as a job of their own would be. *)
Theorem C07_next_byte_starts_afresh : forall l i rest,
  stream_ok (l ++ [i]) -> open_ended i = false ->
  bytes_ok rest = true -> rest <> [] ->
  match parse_esc_pos rest with
  | Ok c2 => exists c, parse_esc_pos (encode l ++ wire i ++ rest) = Ok c /\
      map observe c = [o_begin] ++ lead (l ++ [i]) ++ flat_map expect l ++ expect i
                      ++ job_body (map observe c2)
  | Panic p => parse_esc_pos (encode l ++ wire i ++ rest) = Panic p
  end.
Proof.
  intros l i rest Hl Hi Hb Hne.
  pose proof (afresh (l ++ [i]) rest Hl ltac:(destruct l; discriminate) Hb Hne) as H.
  assert (Hlo : last_open (l ++ [i]) = false).
  { clear -Hi. destruct l as [|a l]; [exact Hi|]. cbn [app last_open].
    replace (last (l ++ [i]) a) with i; [exact Hi|].
    symmetry. revert a. induction l as [|b l IH]; intros a; [reflexivity|].
    cbn [app]. rewrite last_cons_default. apply IH. }
  specialize (H (or_introl Hlo)).
  rewrite encode_app, flat_map_app in H. cbn [encode flat_map] in H. rewrite !app_nil_r in H.
  rewrite <- !app_assoc in H.
  destruct (parse_esc_pos rest) as [c2|p]; [|exact H].
  destruct H as (c & Hc & Ho). exists c. split; [exact Hc|].
  rewrite Ho, <- !app_assoc. reflexivity.
Qed.

Theorem C06_fixed_arguments : forall l name k p args rest c2,
  stream_ok l -> in_fixed name k p (length args) ->
  bytes_ok rest = true -> rest <> [] -> parse_esc_pos rest = Ok c2 ->
  exists c, parse_esc_pos (encode l ++ p ++ args ++ rest) = Ok c /\
    map observe c = [o_begin] ++ lead (l ++ [IFixed name k p args]) ++ flat_map expect l
                    ++ [simple name k p args] ++ job_body (map observe c2).
Proof.
  intros l name k p args rest c2 Hl Hin Hb Hne Hp.
  assert (Hl' : stream_ok (l ++ [IFixed name k p args])).
  { apply stream_app; [exact Hl|split; [constructor; [exact Hin|constructor]|reflexivity]|].
    apply andb_false_r. }
  pose proof (C07_next_byte_starts_afresh l (IFixed name k p args) rest Hl' eq_refl Hb Hne) as H.
  rewrite Hp in H. cbn [wire] in H. rewrite <- app_assoc in H. exact H.
Qed.

Example C06_demo : in_fixed "Set Print Area" KContextControl [27; 87]
                     (length [27; 64; 29; 107; 10; 9; 24; 64]) /\
  exists c2, parse_esc_pos [27; 64] = Ok c2.
Proof. split; [cbn; do 41 right; left; reflexivity|eexists; vm_compute; reflexivity]. Qed.

(** Explicit-size barcode, column image, raster image, sub-commands: payload verbatim. *)
Theorem C07_payload_verbatim : forall l i payload,
  stream_ok (l ++ [i]) ->
  (exists m, i = IBarcodeLen m payload) \/ (exists m nl nh, i = IBitImage m nl nh payload) \/
  (exists m xl xh yl yh, i = IRaster m xl xh yl yh payload) \/
  (exists f m fn, i = ISub f m fn payload /\ fam_lookup f m fn <> None) ->
  forall rest c2, bytes_ok rest = true -> rest <> [] -> parse_esc_pos rest = Ok c2 ->
  exists c o, parse_esc_pos (encode l ++ wire i ++ rest) = Ok c /\ o_data o = payload /\
    map observe c = [o_begin] ++ lead (l ++ [i]) ++ flat_map expect l ++ [o]
                    ++ job_body (map observe c2).
Proof.
  intros l i payload Hl Hi rest c2 Hb Hne Hp.
  assert (Ho : open_ended i = false)
    by (destruct Hi as [(m & ->)|[(m & nl & nh & ->)|[(m & a & b & c & d & ->)|(f & m & fn & -> & _)]]]; reflexivity).
  pose proof (C07_next_byte_starts_afresh l i rest Hl Ho Hb Hne) as H. rewrite Hp in H.
  destruct H as (c & Hc & Hobs).
  assert (Hx : exists o, expect i = [o] /\ o_data o = payload).
  { destruct Hi as [(m & ->)|[(m & nl & nh & ->)|[(m & a & b & c0 & d & ->)|(f & m & fn & -> & Hf)]]];
      cbn [expect]; try (eexists; split; reflexivity).
    destruct (fam_lookup f m fn) as [[name k]|]; [|congruence]. eexists; split; reflexivity. }
  destruct Hx as (o & Hx & Hd). rewrite Hx in Hobs. exists c, o. auto.
Qed.

Example C07_demo : stream_ok ([] ++ [ISub LargeGraphics 48 112 [48; 1; 1; 49; 8; 0; 1; 0; 27]]) /\
  fam_lookup LargeGraphics 48 112 <> None.
Proof. split; [split; [repeat constructor; cbn; lia|reflexivity]|discriminate]. Qed.

(** ** C08 *)

Definition prefix_of (p q : list Z) : Prop := exists r, q = p ++ r.

(** No command's prefix is the beginning of another command's prefix. *)
Theorem C08_table_prefix_free : forall i j ci cj,
  nth_error esc_pos_commands i = Some ci -> nth_error esc_pos_commands j = Some cj ->
  prefix_of (c_commands ci) (c_commands cj) -> i = j.
Proof.
  assert (Hall : forallb (fun i => forallb (fun j =>
            match nth_error esc_pos_commands i, nth_error esc_pos_commands j with
            | Some ci, Some cj => negb (is_prefix (c_commands ci) (c_commands cj)) || (i =? j)%nat
            | _, _ => true
            end) (seq 0 55)) (seq 0 55) = true) by (vm_compute; reflexivity).
  assert (Hlen : length esc_pos_commands = 55%nat) by (vm_compute; reflexivity).
  intros i j ci cj Hi Hj Hp.
  assert (Hi' : (i < 55)%nat) by (rewrite <- Hlen; apply nth_error_Some; congruence).
  assert (Hj' : (j < 55)%nat) by (rewrite <- Hlen; apply nth_error_Some; congruence).
  pose proof (proj1 (forallb_forall _ _) Hall i (proj2 (in_seq 55 0 i) ltac:(lia))) as H1.
  cbn beta in H1.
  pose proof (proj1 (forallb_forall _ _) H1 j (proj2 (in_seq 55 0 j) ltac:(lia))) as H2.
  cbn beta in H2. rewrite Hi, Hj in H2.
  assert (Hp' : is_prefix (c_commands ci) (c_commands cj) = true) by (apply is_prefix_spec, Hp).
  rewrite Hp' in H2. cbn [negb orb] in H2. apply Nat.eqb_eq, H2.
Qed.

(** Hence no recognition is stolen: the bytes of each prefix, after any complete items, are
    reported as that very command (sub-command families report nothing until their payload
    comes, see C12). *)
Theorem C08_each_prefix_recognised : forall l c,
  stream_ok l -> In c esc_pos_commands -> c_kind c <> KSubcommand ->
  exists cmds, parse_esc_pos (encode l ++ c_commands c) = Ok cmds /\
    map observe cmds = [o_begin] ++ lead l ++ flat_map expect l
                       ++ [simple (c_name c) (c_kind c) (c_commands c) []] ++ [o_end].
Proof.
  intros l c Hl Hin Hk.
  assert (Hsc : forallb (fun k => match scan esc_pos_commands 0 (c_commands k) with
                                  | Some k' => list_eqb (c_commands k') (c_commands k)
                                  | None => false end) esc_pos_commands = true)
    by (vm_compute; reflexivity).
  pose proof (proj1 (forallb_forall _ _) Hsc c Hin) as Hs. cbn beta in Hs.
  destruct (scan esc_pos_commands 0 (c_commands c)) as [k|] eqn:Es; [|discriminate].
  assert (Hkin : forall bs s d k', incl s esc_pos_commands -> scan s d bs = Some k' -> In k' esc_pos_commands).
  { clear. induction bs as [|b bs IH]; intros s d k' Hi H; [discriminate|]. cbn [scan] in H.
    assert (Hm : incl (matching s d b) esc_pos_commands).
    { intros x Hx. unfold matching in Hx. apply filter_In in Hx. apply Hi. tauto. }
    destruct (matching s d b) as [|x [|y ms]]; [discriminate| |].
    - destruct ((length (c_commands x) - 1 =? d)%nat).
      + destruct bs; [|discriminate]. injection H as <-. apply Hm. now left.
      + apply (IH [x] (S d)); [exact Hm|exact H].
    - apply (IH _ (S d) k' Hm H). }
  pose proof (Hkin _ _ _ _ (incl_refl _) Es) as Hkin'.
  apply list_eqb_eq in Hs.
  assert (E : k = c).
  { apply In_nth_error in Hkin'. destruct Hkin' as [i Hi].
    apply In_nth_error in Hin. destruct Hin as [j Hj].
    assert (i = j) by (apply (C08_table_prefix_free i j k c Hi Hj); exists []; rewrite app_nil_r; congruence).
    subst j. congruence. }
  subst k.
  destruct (run_stream l Hl) as (st & Hr & Hcase).
  assert (Hrdy : exists o cap, ready o cap st /\ map observe cap ++ o = [o_begin] ++ lead l ++ flat_map expect l).
  { destruct Hcase as [[-> ->]|(cap & z & Hb & E1 & _)].
    - exists [], [cmd_begin_print]. split; [|reflexivity]. exists None, false, []. split; [reflexivity|].
      intros x. exists None. split; reflexivity.
    - eexists. eexists. split; [exact (between_ready _ _ _ _ _ Hb)|exact E1]. }
  destruct Hrdy as (o & cap & (cur & d & m & -> & Hrdy) & Eo).
  destruct (Hrdy (hd 0 (c_commands c))) as (cur' & Hlg & Ho).
  assert (Hrun : parse_all esc_pos (bd None false [cmd_begin_print] []) (encode l ++ c_commands c) =
                 Ok (bd (Some c) false (cap ++ emitted_opt cur') [c])).
  { rewrite parse_all_app, Hr. cbn [bind]. apply (scan_boundary esc_pos _ _ _ _ _ _ _ Es Hlg). }
  rewrite (parse_esc_pos_run _ _ Hrun). eexists. split; [reflexivity|].
  cbn [bd p_captured p_current emitted_opt]. rewrite (emitted_not_sub c Hk).
  rewrite !map_app, Ho, Eo. cbn [map].
  assert (Hobs : forallb (fun k => match c_data k, get_command_bytes k with
                                   | [], (a, []) => list_eqb a (c_commands k)
                                   | _, _ => false end) esc_pos_commands = true)
    by (vm_compute; reflexivity).
  pose proof (proj1 (forallb_forall _ _) Hobs c Hin) as Hc. cbn beta in Hc.
  destruct (c_data c) eqn:Ed; [|discriminate].
  destruct (get_command_bytes c) as [a [|? ?]] eqn:Eg; [|discriminate].
  apply list_eqb_eq in Hc. subst a.
  unfold observe at 1. rewrite Ed, Eg. rewrite <- !app_assoc. reflexivity.
Qed.

Example C08_demo : In cmd_barcode esc_pos_commands /\ c_kind cmd_barcode <> KSubcommand.
Proof. split; [left; reflexivity|discriminate]. Qed.

(** ** C09 *)

(** The bytes a reported command stands for. *)
Definition rebuilt (o : ocmd) : list Z :=
  match o_kind o with KUnknown => o_data o | _ => fst (o_bytes o) ++ snd (o_bytes o) end.

Inductive subseq : list Z -> list Z -> Prop :=
| SSnil l : subseq [] l
| SStake a l1 l2 : subseq l1 l2 -> subseq (a :: l1) (a :: l2)
| SSskip a l1 l2 : subseq l1 l2 -> subseq l1 (a :: l2).

Lemma subseq_refl l : subseq l l.
Proof. induction l; constructor; assumption. Qed.
Lemma subseq_app a b c d : subseq a b -> subseq c d -> subseq (a ++ c) (b ++ d).
Proof.
  intros H H2. induction H as [l|x l1 l2 H IH|x l1 l2 H IH]; cbn [app].
  - induction l as [|y l IHl]; cbn [app]; [exact H2|]. apply SSskip, IHl.
  - apply SStake, IH.
  - apply SSskip, IH.
Qed.
Lemma subseq_right a b : subseq a (b ++ a).
Proof. apply (subseq_app [] b a a); [constructor|apply subseq_refl]. Qed.
Lemma subseq_left a b : subseq a (a ++ b).
Proof. rewrite <- (app_nil_r a) at 1. apply subseq_app; [apply subseq_refl|constructor]. Qed.

Lemma units_subseq us : subseq (shown us) (flat_map unit_wire us).
Proof.
  unfold shown. induction us as [|[b|x] us IH]; cbn [flat_map unit_show unit_wire app].
  - constructor.
  - apply SStake, IH.
  - apply SSskip, SStake, IH.
Qed.

(** Kinds in the tables are never KUnknown, so [rebuilt] is prefix ++ data there. *)
Definition not_unknown (k : ckind) : bool := match k with KUnknown => false | _ => true end.
Lemma fixed_kinds : forallb (fun '(_, k, _, _) => not_unknown k) fixed_table = true.
Proof. vm_compute. reflexivity. Qed.
Lemma code2d_kinds : forallb (fun p => not_unknown (snd (snd p))) code2d_functions = true.
Proof. vm_compute. reflexivity. Qed.
Lemma graphics_kinds : forallb (fun p => not_unknown (snd (snd p))) graphics_functions = true.
Proof. vm_compute. reflexivity. Qed.
Lemma lookup_kind f m fn name k : fam_lookup f m fn = Some (name, k) -> not_unknown k = true.
Proof.
  unfold fam_lookup, code2d_lookup, graphics_lookup. intros H. destruct f.
  - apply assoc_in in H. destruct H as [a H]. exact (proj1 (forallb_forall _ _) code2d_kinds _ H).
  - apply assoc_in in H. destruct H as [a H]. exact (proj1 (forallb_forall _ _) graphics_kinds _ H).
  - apply assoc_in in H. destruct H as [a H]. exact (proj1 (forallb_forall _ _) graphics_kinds _ H).
Qed.
Lemma fixed_kind name k p n : in_fixed name k p n -> not_unknown k = true.
Proof. intros H. exact (proj1 (forallb_forall _ _) fixed_kinds _ H). Qed.

Lemma rebuilt_simple name k p d : not_unknown k = true -> rebuilt (simple name k p d) = p ++ d.
Proof. destruct k; try discriminate; reflexivity. Qed.

(** An item none of whose bytes the parser drops. *)
Definition lossless_item (i : item) : bool :=
  match i with
  | IText us | IUnknown _ us => forallb (fun u => match u with TB _ => true | TC _ => false end) us
  | ISub f m fn _ => match fam_lookup f m fn with Some _ => true | None => false end
  | IRequest _ _ _ => false
  | _ => true
  end.

Lemma units_lossless us :
  forallb (fun u => match u with TB _ => true | TC _ => false end) us = true ->
  shown us = flat_map unit_wire us.
Proof.
  unfold shown. induction us as [|[b|x] us IH]; cbn [forallb flat_map unit_show unit_wire app];
    intros H; [reflexivity| |discriminate]. rewrite IH by exact H. reflexivity.
Qed.

Lemma expect_rebuilt i : item_ok i -> lossless_item i = true ->
  flat_map rebuilt (expect i) = wire i.
Proof.
  destruct i; cbn [item_ok lossless_item expect flat_map wire]; intros Hok Hl;
    try (rewrite app_nil_r; reflexivity); try discriminate.
  - rewrite app_nil_r. apply rebuilt_simple, (fixed_kind _ _ _ _ Hok).
  - rewrite app_nil_r. cbn. apply units_lossless, Hl.
  - rewrite app_nil_r. cbn. rewrite (units_lossless _ Hl). reflexivity.
  - destruct (fam_lookup f m fn) as [[name k]|] eqn:E; [|discriminate]. cbn [flat_map].
    rewrite app_nil_r, rebuilt_simple by exact (lookup_kind _ _ _ _ _ E).
    rewrite <- app_assoc. reflexivity.
Qed.

Lemma expect_subseq i : item_ok i -> subseq (flat_map rebuilt (expect i)) (wire i).
Proof.
  intros Hok. destruct (lossless_item i) eqn:E; [rewrite expect_rebuilt by assumption; apply subseq_refl|].
  destruct i; cbn [lossless_item] in E; try discriminate; cbn [expect flat_map wire item_ok] in *.
  - rewrite app_nil_r. apply units_subseq.
  - rewrite app_nil_r. cbn. apply subseq_app; [apply subseq_refl|apply units_subseq].
  - destruct (fam_lookup f m fn); [discriminate|]. constructor.
  - rewrite app_nil_r. apply subseq_app; [apply subseq_refl|]. apply subseq_right.
Qed.

Lemma expect_eof_subseq i : item_ok i -> subseq (flat_map rebuilt (expect_eof i)) (wire i ++ [0]).
Proof.
  intros Hok.
  assert (Hg : subseq (flat_map rebuilt (expect i)) (wire i ++ [0])).
  { rewrite <- (app_nil_r (flat_map rebuilt (expect i))). apply subseq_app; [apply expect_subseq, Hok|constructor]. }
  destruct i; try exact Hg; cbn [expect_eof].
  - cbn [flat_map]. rewrite app_nil_r. cbn [wire].
    replace (([29; 107; m] ++ payload ++ [0]) ++ [0]) with ([29; 107; m] ++ payload ++ [0; 0])
      by (rewrite <- !app_assoc; reflexivity).
    apply subseq_refl.
  - destruct payload as [|x d]; [constructor|].
    destruct (fam_lookup f m fn) as [[name k]|] eqn:E; [|constructor]. cbn [flat_map].
    rewrite app_nil_r, rebuilt_simple by exact (lookup_kind _ _ _ _ _ E).
    cbn [wire]. rewrite app_nil_r. rewrite (app_assoc (fam_prefix f)). rewrite <- (app_assoc _ (x :: d)).
    apply subseq_left.
  - destruct payload; [|exact Hg]. cbn [flat_map]. rewrite app_nil_r. cbn [wire].
    rewrite app_nil_r. apply subseq_left.
Qed.

Lemma tail_subseq t : tail_ok t -> subseq (flat_map rebuilt (tail_expect t)) (tail_wire t ++ [0]).
Proof.
  destruct t; cbn [tail_ok tail_expect tail_wire flat_map]; intros H;
    rewrite ?app_nil_r; try (apply subseq_left); try (apply SSnil).
  - destruct H as (n & H & _). rewrite rebuilt_simple by exact (fixed_kind _ _ _ _ H). apply subseq_left.
  - cbn [rebuilt o_kind o_bytes fst snd]. rewrite <- app_assoc. apply subseq_refl.
  - destruct (fam_lookup f m fn) as [[name k]|] eqn:E; [|constructor]. cbn [flat_map].
    rewrite app_nil_r, rebuilt_simple by exact (lookup_kind _ _ _ _ _ E). rewrite app_nil_r.
    replace ((fam_prefix f ++ fam_len f n ++ [m; fn] ++ d) ++ [0])
      with ((fam_prefix f ++ fam_len f n ++ [m; fn]) ++ d ++ [0]) by (rewrite <- !app_assoc; reflexivity).
    apply subseq_left.
  - cbn [rebuilt simple o_kind o_bytes fst snd]. rewrite <- !app_assoc.
    apply subseq_app; [apply subseq_refl|].
    apply (subseq_app [] (fam_len Code2d n) d _); [constructor|].
    apply (subseq_app [] [m; fn] d _); [constructor|]. apply subseq_left.
Qed.

Lemma flat_rebuilt_subseq l :
  Forall item_ok l -> subseq (flat_map rebuilt (flat_map expect l)) (encode l).
Proof.
  induction 1 as [|i l Hi Hl IH]; [constructor|]. cbn [flat_map encode]. rewrite flat_map_app.
  apply subseq_app; [apply expect_subseq, Hi|exact IH].
Qed.

Lemma all_rebuilt_subseq l :
  Forall item_ok l -> subseq (flat_map rebuilt (expect_all l)) (encode l ++ [0]).
Proof.
  induction 1 as [|i l Hi Hl IH]; [constructor|]. destruct l as [|j l].
  - cbn [expect_all encode flat_map]. rewrite app_nil_r. apply expect_eof_subseq, Hi.
  - change (expect_all (i :: j :: l)) with (expect i ++ expect_all (j :: l)).
    rewrite flat_map_app. change (encode (i :: j :: l)) with (wire i ++ encode (j :: l)).
    rewrite <- app_assoc. apply subseq_app; [apply expect_subseq, Hi|exact IH].
Qed.

Lemma lead_rebuilt l : flat_map rebuilt (lead l) = [].
Proof. destruct l as [|i l]; [reflexivity|]. cbn [lead]. destruct (open_ended i); reflexivity. Qed.

(** Nothing is invented or reordered: the bytes of the reported commands are a subsequence of
    the input, up to one NUL after the end (a NUL-terminated barcode at the end of the input is
    reported with a terminator of its own). *)
Theorem C09_nothing_invented : forall bs cmds,
  bytes_ok bs = true -> parse_esc_pos bs = Ok cmds ->
  subseq (flat_map rebuilt (map observe cmds)) (bs ++ [0]).
Proof.
  intros bs cmds Hb Hp. destruct (parse_cases bs Hb) as
    [(l & t & cmds' & [Hl Hs] & Ht & E & Hp' & Ho)|(l & o & hdr & b & r & _ & _ & _ & _ & Hp')];
    [|congruence].
  rewrite Hp in Hp'. injection Hp' as <-. rewrite Ho, parse_total_body, !flat_map_app, lead_rebuilt, E.
  change (flat_map rebuilt [o_begin]) with (@nil Z). change (flat_map rebuilt [o_end]) with (@nil Z).
  rewrite app_nil_r. cbn [app]. rewrite <- app_assoc.
  assert (Hg : subseq (flat_map rebuilt (flat_map expect l ++ tail_expect t)) (encode l ++ tail_wire t ++ [0])).
  { rewrite flat_map_app. apply subseq_app; [apply flat_rebuilt_subseq, Hl|apply tail_subseq, Ht]. }
  destruct t; try exact Hg. cbn [body tail_wire app]. apply all_rebuilt_subseq, Hl.
Qed.

(** The exception is real. *)
Theorem C09_nul_barcode_at_end_invents_nul : exists bs cmds,
  parse_esc_pos bs = Ok cmds /\ flat_map rebuilt (map observe cmds) = bs ++ [0].
Proof. exists [29; 107; 2; 49; 0]. eexists. split; [vm_compute; reflexivity|reflexivity]. Qed.

(** Nothing is lost when the input has no stray CAN, no sub-command, no barcode and does not
    stop inside a command prefix. *)
Theorem C09_nothing_lost : forall bs cmds,
  bytes_ok bs = true -> parse_esc_pos bs = Ok cmds ->
  ~ In 24 bs -> ~ occurs [29; 107] bs ->
  ~ occurs [29; 40; 107] bs -> ~ occurs [29; 40; 76] bs -> ~ occurs [29; 40; 72] bs ->
  ~ occurs [29; 56; 76] bs ->
  (forall a q, bs = a ++ q -> q <> [] -> existsb (is_prefix q) all_prefixes = true ->
               existsb (fun p => is_prefix p q) all_prefixes = true) ->
  flat_map rebuilt (map observe cmds) = bs.
Proof.
  intros bs cmds Hb Hp Hcan Hbar Hs1 Hs2 Hs3 Hs4 Hpre. destruct (parse_cases bs Hb) as
    [(l & t & cmds' & [Hl Hsep] & Ht & E & Hp' & Ho)|(l & o & hdr & b & r & _ & _ & _ & _ & Hp')];
    [|congruence].
  rewrite Hp in Hp'. injection Hp' as <-. rewrite Ho, parse_total_body, !flat_map_app, lead_rebuilt.
  change (flat_map rebuilt [o_begin]) with (@nil Z). change (flat_map rebuilt [o_end]) with (@nil Z).
  rewrite app_nil_r. cbn [app].
  assert (Hocc : forall i x, In i l -> occurs x (wire i) -> occurs x bs).
  { intros i x Hi (a & b & Hx). apply in_split in Hi. destruct Hi as (l1 & l2 & ->).
    exists (encode l1 ++ a), (b ++ encode l2 ++ tail_wire t). rewrite E, encode_app.
    cbn [encode flat_map]. change (flat_map wire l2) with (encode l2). rewrite Hx, <- !app_assoc. reflexivity. }
  assert (Hin : forall i x, In i l -> In x (wire i) -> In x bs).
  { intros i x Hi Hx. rewrite E. apply in_or_app. left. unfold encode. apply in_flat_map. eauto. }
  assert (Hunit : forall us, (forall x, In x (flat_map unit_wire us) -> In x bs) ->
            forallb (fun u => match u with TB _ => true | TC _ => false end) us = true).
  { intros us Hu. apply forallb_forall. intros [b|x] Hiu; [reflexivity|]. exfalso. apply Hcan, Hu.
    apply in_flat_map. exists (TC x). split; [exact Hiu|now left]. }
  assert (Hloss : forall i, In i l -> lossless_item i = true /\ expect_eof i = expect i).
  { intros i Hi. pose proof (Hocc i) as Ho1. pose proof (Hin i) as Hi1.
    destruct i; cbn [lossless_item expect_eof]; try (split; reflexivity).
    - split; [|reflexivity]. apply Hunit. intros x Hx. apply (Hi1 x Hi). exact Hx.
    - split; [|reflexivity]. apply Hunit. intros x Hx. apply (Hi1 x Hi). cbn [wire]. apply in_or_app. now right.
    - exfalso. apply Hbar, (Ho1 _ Hi). exists [], (m :: payload ++ [0]). reflexivity.
    - exfalso. destruct f.
      + apply Hs1, (Ho1 _ Hi). exists [], (header Code2d m fn payload ++ payload). reflexivity.
      + apply Hs2, (Ho1 _ Hi). exists [], (header Graphics m fn payload ++ payload). reflexivity.
      + apply Hs4, (Ho1 _ Hi). exists [], (header LargeGraphics m fn payload ++ payload). reflexivity.
    - exfalso. apply Hs3, (Ho1 _ Hi). exists [], (header Code2d m fn payload ++ payload). reflexivity. }
  assert (Hflat : flat_map rebuilt (flat_map expect l) = encode l).
  { assert (Hl' : forall i, In i l -> item_ok i) by (apply Forall_forall, Hl).
    clear -Hloss Hl'. induction l as [|i l IH]; [reflexivity|]. cbn [flat_map encode].
    rewrite flat_map_app, IH; [|intros j Hj; apply Hloss; now right|intros j Hj; apply Hl'; now right].
    rewrite expect_rebuilt; [reflexivity|apply Hl'; now left|apply Hloss; now left]. }
  assert (Hall : expect_all l = flat_map expect l).
  { clear -Hloss. induction l as [|i l IH]; [reflexivity|]. destruct l as [|j l].
    - cbn [expect_all flat_map]. rewrite app_nil_r. apply Hloss. now left.
    - change (expect_all (i :: j :: l)) with (expect i ++ expect_all (j :: l)).
      rewrite IH; [reflexivity|]. intros k Hk. apply Hloss. now right. }
  assert (Hto : forall x, occurs x (tail_wire t) -> occurs x bs).
  { intros x (a & b & Hx). exists (encode l ++ a), b. rewrite E, Hx, <- !app_assoc. reflexivity. }
  assert (Ht' : flat_map rebuilt (tail_expect t) = tail_wire t).
  { destruct t; cbn [tail_expect flat_map tail_wire] in *; rewrite ?app_nil_r; try reflexivity.
    - exfalso. destruct Ht as (Hq & H1 & H2). specialize (Hpre (encode l) q E Hq H1). congruence.
    - destruct Ht as (n & H & _). apply rebuilt_simple, (fixed_kind _ _ _ _ H).
    - exfalso. apply Hbar, Hto. exists [], (m :: d). reflexivity.
    - exfalso. destruct f.
      + apply Hs1, Hto. exists [], args. reflexivity.
      + apply Hs2, Hto. exists [], args. reflexivity.
      + apply Hs4, Hto. exists [], args. reflexivity.
    - exfalso. destruct f.
      + apply Hs1, Hto. exists [], (fam_len Code2d n ++ [m; fn] ++ d). reflexivity.
      + apply Hs2, Hto. exists [], (fam_len Graphics n ++ [m; fn] ++ d). reflexivity.
      + apply Hs4, Hto. exists [], (fam_len LargeGraphics n ++ [m; fn] ++ d). reflexivity.
    - exfalso. apply Hs3, Hto. exists [], (fam_len Code2d n ++ [m; fn] ++ d). reflexivity. }
  rewrite E.
  assert (Hg : flat_map rebuilt (flat_map expect l ++ tail_expect t) = encode l ++ tail_wire t)
    by (rewrite flat_map_app, Hflat, Ht'; reflexivity).
  destruct t; try exact Hg. cbn [body tail_wire]. rewrite Hall, Hflat, app_nil_r. reflexivity.
Qed.

(** Item-level version, allowing barcodes and known sub-commands followed by something. *)
Theorem C09_items_lossless : forall l cmds,
  stream_ok l -> Forall (fun i => lossless_item i = true) l ->
  (forall l' z, l = l' ++ [z] -> expect_eof z = expect z) ->
  parse_esc_pos (encode l) = Ok cmds -> flat_map rebuilt (map observe cmds) = encode l.
Proof.
  intros l cmds Hl Hloss Hlast Hp. destruct (parse_stream l Hl) as (c & Hc & Ho).
  rewrite Hp in Hc. injection Hc as <-. rewrite Ho. unfold parse_spec.
  rewrite !flat_map_app, lead_rebuilt. change (flat_map rebuilt [o_begin]) with (@nil Z).
  change (flat_map rebuilt [o_end]) with (@nil Z). rewrite app_nil_r. cbn [app].
  destruct Hl as [Hl _].
  assert (Hflat : forall l, Forall item_ok l -> Forall (fun i => lossless_item i = true) l ->
            flat_map rebuilt (flat_map expect l) = encode l).
  { clear. induction l as [|i l IH]; intros H1 H2; [reflexivity|].
    inversion H1; inversion H2; subst. cbn [flat_map encode]. rewrite flat_map_app, IH by assumption.
    rewrite expect_rebuilt by assumption. reflexivity. }
  destruct l as [|i l]; [reflexivity|].
  destruct (@exists_last _ (i :: l) ltac:(discriminate)) as (l' & z & E).
  rewrite E in *. rewrite expect_all_app by discriminate. cbn [expect_all].
  rewrite (Hlast l' z eq_refl).
  rewrite <- (Hflat (l' ++ [z]) Hl Hloss). rewrite !flat_map_app. cbn [flat_map].
  rewrite app_nil_r. reflexivity.
Qed.

Example C09_demo : Forall (fun i => lossless_item i = true) demo_stream /\
  (forall l' z, demo_stream = l' ++ [z] -> expect_eof z = expect z).
Proof.
  split; [repeat constructor|]. intros l' z H.
  change demo_stream with (removelast demo_stream ++ [IFixed "Line Feed" KText [10] []]) in H.
  apply app_inj_tail in H. destruct H as [_ <-]. reflexivity.
Qed.

(** What is lost: a stray CAN, a truncated prefix, a final sub-command. *)
Theorem C09_losses_are_real :
  (exists c, parse_esc_pos [27; 64; 24; 65] = Ok c /\ flat_map rebuilt (map observe c) = [27; 64; 65]) /\
  (exists c, parse_esc_pos [27; 64; 29; 40] = Ok c /\ flat_map rebuilt (map observe c) = [27; 64]) /\
  (exists c, parse_esc_pos [29; 40; 107; 3; 0; 49; 81; 48] = Ok c /\
             flat_map rebuilt (map observe c) = [29; 40; 107; 3; 0; 49; 81]).
Proof. repeat split; eexists; (split; [vm_compute; reflexivity|reflexivity]). Qed.

(** ** C10 *)

Theorem C10_unknown_reported : forall l u bs rest cmds,
  stream_ok l -> l <> [] -> unrecognised u = true -> forallb text_byte bs = true ->
  bytes_ok rest = true -> starts_text rest = false ->
  parse_esc_pos (encode l ++ u ++ bs ++ rest) = Ok cmds ->
  exists after, map observe cmds =
    [o_begin] ++ lead l ++ flat_map expect l ++ [o_unknown (u ++ bs)] ++ after.
Proof.
  intros l u bs rest cmds Hl Hne Hu Ht Hb Hst Hp.
  assert (Hshow : forall s, flat_map unit_wire (map TB s) = s /\ shown (map TB s) = s).
  { unfold shown. induction s as [|x s [IH1 IH2]]; [split; reflexivity|].
    cbn [map flat_map unit_wire unit_show app]. rewrite IH1, IH2. split; reflexivity. }
  destruct (Hshow bs) as [Hw Hs].
  set (it := IUnknown u (map TB bs)).
  assert (Hit : stream_ok [it]).
  { split; [|reflexivity]. constructor; [|constructor]. cbn [item_ok it]. split; [exact Hu|].
    rewrite forallb_forall in *. intros x Hx. apply in_map_iff in Hx.
    destruct Hx as (y & <- & Hy). apply Ht, Hy. }
  assert (Hl2 : stream_ok (l ++ [it]))
    by (apply stream_app; try assumption; apply andb_false_r).
  assert (Henc : encode (l ++ [it]) = encode l ++ u ++ bs)
    by (rewrite encode_app; cbn [encode flat_map wire it]; rewrite Hw, app_nil_r; reflexivity).
  assert (Hexp : flat_map expect (l ++ [it]) = flat_map expect l ++ [o_unknown (u ++ bs)])
    by (rewrite flat_map_app; cbn [flat_map expect it app]; rewrite Hs; reflexivity).
  destruct rest as [|r0 rest].
  - rewrite app_nil_r, <- Henc in Hp.
    destruct (parse_stream _ Hl2) as (c' & Hp' & Ho). rewrite Hp in Hp'. injection Hp' as <-.
    exists [o_end]. rewrite Ho. unfold parse_spec. rewrite lead_app by exact Hne.
    rewrite expect_all_app by discriminate. cbn [expect_all expect_eof expect it]. rewrite Hs.
    rewrite <- !app_assoc. reflexivity.
  - pose proof (afresh (l ++ [it]) (r0 :: rest) Hl2 ltac:(destruct l; discriminate)
                  Hb ltac:(discriminate) (or_intror Hst)) as Ha.
    rewrite Henc, <- !app_assoc in Ha.
    destruct (parse_esc_pos (r0 :: rest)) as [c2|p]; [|congruence].
    destruct Ha as (c & Hc & Ho). rewrite Hp in Hc. injection Hc as <-.
    exists (job_body (map observe c2)). rewrite Ho, lead_app, Hexp by exact Hne.
    rewrite <- !app_assoc. reflexivity.
Qed.

Example C10_demo : unrecognised [27; 99; 9] = true /\ unrecognised [28; 46] = false /\
  unrecognised [28] = true /\ unrecognised [29; 40; 65] = true /\ unrecognised [16] = true.
Proof. repeat split. Qed.

(** ** C11 *)

Theorem C11_compositional : forall l s2,
  stream_ok l -> l <> [] -> bytes_ok s2 = true ->
  (exists p r, In p all_prefixes /\ s2 = p ++ r) ->
  match parse_esc_pos s2 with
  | Panic p => parse_esc_pos (encode l ++ s2) = Panic p
  | Ok c2 =>
      exists c1 c body1 body2,
        (* the first job, closed by a line feed so that its last command is complete *)
        parse_esc_pos (encode l ++ [10]) = Ok c1 /\
        map observe c1 = [o_begin] ++ body1 ++ [simple "Line Feed" KText [10] []; o_end] /\
        (* the second job on its own *)
        map observe c2 = [o_begin] ++ body2 /\
        (* the concatenation *)
        parse_esc_pos (encode l ++ s2) = Ok c /\
        map observe c = [o_begin] ++ body1 ++ body2
  end.
Proof.
  intros l s2 Hl Hne Hb (p & r & Hp & E).
  assert (Hpn : p <> []).
  { intros ->. assert (H : forallb (fun p : list Z => match p with [] => false | _ => true end) all_prefixes = true)
      by (vm_compute; reflexivity).
    pose proof (proj1 (forallb_forall _ _) H _ Hp). discriminate. }
  assert (Hst : starts_text s2 = false).
  { subst s2.
    assert (H : forallb (fun p => match p with
                  | [] => false
                  | [24; x] => x =? 64
                  | b :: _ => negb (text_byte b) && negb (b =? 24) end) all_prefixes = true)
      by (vm_compute; reflexivity).
    pose proof (proj1 (forallb_forall _ _) H _ Hp) as Hx. cbn beta in Hx. clear -Hx Hpn.
    destruct p as [|b p]; [congruence|]. cbn [app starts_text].
    destruct (Z.eq_dec b 24) as [->|Hb].
    - destruct p as [|x p]; [discriminate|]. destruct p as [|y p]; [|discriminate].
      cbn [app]. rewrite Hx. reflexivity.
    - assert (Ht : negb (text_byte b) && negb (b =? 24) = true).
      { destruct b as [|b|b]; try exact Hx. repeat (destruct b; try exact Hx). exfalso; apply Hb; reflexivity. }
      apply andb_prop in Ht. destruct Ht as [Ht _]. apply negb_true_iff in Ht. rewrite Ht. cbn [orb].
      destruct (p ++ r); [reflexivity|]. apply Z.eqb_neq in Hb. rewrite Hb. reflexivity. }
  assert (Hs2 : s2 <> []) by (subst s2; destruct p; [congruence|discriminate]).
  pose proof (afresh l s2 Hl Hne Hb Hs2 (or_intror Hst)) as Ha.
  destruct (parse_esc_pos s2) as [c2|q] eqn:E2; [|exact Ha].
  destruct Ha as (c & Hc & Ho).
  pose proof (afresh l [10] Hl Hne eq_refl ltac:(discriminate) (or_intror eq_refl)) as H1.
  destruct (parse_esc_pos [10]) as [clf|q] eqn:Elf; [|vm_compute in Elf; discriminate].
  destruct H1 as (c1 & Hc1 & Ho1).
  assert (Hlf : job_body (map observe clf) = [simple "Line Feed" KText [10] []; o_end])
    by (vm_compute in Elf; injection Elf as <-; reflexivity).
  (* the second job starts with a command, so it has no leading Unknown *)
  destruct (decompose_n (length s2) s2 (le_n _) Hb) as (l2 & Hl2 & Hlead & Hcase).
  destruct Hcase as [(t & Ht & Eq)|(o & hdr & b & r' & G1 & G2 & Eq)].
  2:{ rewrite Eq, (parse_bad_header l2 o hdr b r' Hl2 G1 G2) in E2. discriminate. }
  destruct (parse_total_ok l2 t Hl2 Ht) as (c2' & Hp2 & Ho2). rewrite <- Eq, E2 in Hp2.
  injection Hp2 as <-.
  assert (Hlead2 : lead l2 = []).
  { destruct l2 as [|i l2]; [reflexivity|]. cbn [lead]. destruct (open_ended i) eqn:Oi; [|reflexivity].
    exfalso. destruct i as [ |us|u us| | | | | | | | | | | ]; try discriminate Oi.
    - specialize (Hlead eq_refl). congruence.
    - destruct Hl2 as [Hok _]. inversion Hok as [|x y Hx Hy]; subst x y.
      destruct Hx as [Hu _]. destruct (unrecognised_inv u Hu) as (q & b & Eu & Hsp & Hcd & Hq).
      cbn [encode flat_map wire] in Eq. rewrite <- !app_assoc in Eq.
      (* u and p are both prefixes of s2 *)
      assert (Hcmp : exists z, p = u ++ z \/ u = p ++ z).
      { assert (Hs : s2 = u ++ (flat_map unit_wire us ++ flat_map wire l2 ++ tail_wire t))
          by (rewrite Eq; reflexivity).
        rewrite E in Hs. clear -Hs. revert u Hs. induction p as [|a p IH]; intros u Hs.
        - exists u. now right.
        - destruct u as [|c u]; [exists (a :: p); now left|].
          cbn [app] in Hs. injection Hs as -> Hs. destruct (IH u Hs) as (z & [->| ->]);
            exists z; [now left|now right]. }
      destruct Hcmp as (z & [Hz|Hz]).
      + (* u begins p: then some command starts with u *)
        apply cands_none in Hcd.
        assert (existsb (is_prefix u) all_prefixes = true).
        { apply existsb_exists. exists p. split; [exact Hp|]. apply is_prefix_spec. eauto. }
        congruence.
      + destruct z as [|z0 z].
        * rewrite app_nil_r in Hz. subst p. apply cands_none in Hcd.
          assert (existsb (is_prefix u) all_prefixes = true).
          { apply existsb_exists. exists u. split; [exact Hp|]. apply is_prefix_spec. exists []. rewrite app_nil_r. reflexivity. }
          congruence.
        * (* p is a proper beginning of u, so p begins q, but q is begun *)
          destruct (@exists_last _ (z0 :: z) ltac:(discriminate)) as (z' & b' & Ez).
          rewrite Ez, app_assoc in Hz. rewrite Eu in Hz. apply app_inj_tail in Hz.
          destruct Hz as [Hz _]. 
          assert (Hqn : q <> []) by (rewrite Hz; destruct p; [congruence|discriminate]).
          destruct Hq as [Hq|Hq]; [contradiction|].
          pose proof (begun_no_prefix q Hq Hqn) as Hno.
          assert (existsb (fun p => is_prefix p q) all_prefixes = true).
          { apply existsb_exists. exists p. split; [exact Hp|]. apply is_prefix_spec. eauto. }
          congruence. }
  assert (Hjb : map observe c2 = [o_begin] ++ job_body (map observe c2)).
  { rewrite Ho2 at 2. rewrite (job_body_total l2 t Hl2 Ht), Ho2, parse_total_body, Hlead2. reflexivity. }
  exists c1, c, (lead l ++ flat_map expect l), (job_body (map observe c2)).
  split; [exact Hc1|]. split; [rewrite Ho1, Hlf, <- !app_assoc; reflexivity|].
  split; [exact Hjb|]. split; [exact Hc|]. rewrite Ho, <- !app_assoc. reflexivity.
Qed.

Example C11_demo : exists p r, In p all_prefixes /\ [27; 69; 1; 65] = p ++ r.
Proof. exists [27; 69], [1; 65]. split; [do 21 right; left; reflexivity|reflexivity]. Qed.

(** ** C12 *)

Theorem C12_subcommand_recovered : forall l f m fn payload name k rest c2,
  stream_ok l -> zlen payload + 2 <= fam_max f -> fam_lookup f m fn = Some (name, k) ->
  bytes_ok rest = true -> rest <> [] -> parse_esc_pos rest = Ok c2 ->
  exists c, parse_esc_pos (encode l ++ fam_prefix f ++ fam_len f (zlen payload + 2) ++ [m; fn]
                           ++ payload ++ rest) = Ok c /\
    map observe c = [o_begin] ++ lead (l ++ [ISub f m fn payload]) ++ flat_map expect l
      ++ [simple name k (fam_prefix f ++ fam_len f (zlen payload + 2) ++ [m; fn]) payload]
      ++ job_body (map observe c2).
Proof.
  intros l f m fn payload name k rest c2 Hl Hz Hf Hb Hne Hp.
  assert (Hl' : stream_ok (l ++ [ISub f m fn payload])).
  { apply stream_app; [exact Hl|split; [constructor; [exact Hz|constructor]|reflexivity]|].
    apply andb_false_r. }
  pose proof (C07_next_byte_starts_afresh l (ISub f m fn payload) rest Hl' eq_refl Hb Hne) as H.
  rewrite Hp in H. cbn [wire expect] in H. rewrite Hf in H. unfold header in H.
  rewrite <- !app_assoc in H. exact H.
Qed.

(** The last sub-command of a stream is reported without its payload; one with an empty payload
    is not reported at all. *)
Theorem C12_last_subcommand_loses_payload : forall l f m fn payload name k,
  stream_ok l -> zlen payload + 2 <= fam_max f -> fam_lookup f m fn = Some (name, k) ->
  exists c, parse_esc_pos (encode l ++ wire (ISub f m fn payload)) = Ok c /\
    map observe c = [o_begin] ++ lead (l ++ [ISub f m fn payload]) ++ flat_map expect l ++
      match payload with
      | [] => []
      | _ => [simple name k (fam_prefix f ++ fam_len f (zlen payload + 2) ++ [m; fn]) []]
      end ++ [o_end].
Proof.
  intros l f m fn payload name k Hl Hz Hf.
  assert (Hl' : stream_ok (l ++ [ISub f m fn payload])).
  { apply stream_app; [exact Hl|split; [constructor; [exact Hz|constructor]|reflexivity]|].
    apply andb_false_r. }
  destruct (parse_stream _ Hl') as (c & Hc & Ho). rewrite encode_app in Hc.
  cbn [encode flat_map] in Hc. rewrite app_nil_r in Hc. exists c. split; [exact Hc|].
  rewrite Ho. unfold parse_spec. rewrite expect_all_app by discriminate.
  cbn [expect_all expect_eof]. rewrite Hf. unfold header. destruct payload; rewrite <- !app_assoc; reflexivity.
Qed.

Example C12_demo : fam_lookup Code2d 49 80 = Some ("QR Store the Code2D data", KContext).
Proof. reflexivity. Qed.

(** The tables the parser really uses agree with the documented function tables for every key. *)
Theorem C12_function_tables : forall m fn,
  entry (detect_kind_use_m code2d_table m fn) = code2d_lookup m fn /\
  entry (detect_kind graphics_table fn) = graphics_lookup fn.
Proof. intros m fn. split; [apply code2d_tables|apply graphics_tables]. Qed.
