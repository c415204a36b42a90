(** * Decompose: every byte string is a sequence of items followed by a truncated end,
    unless it contains a sub-command header announcing fewer than two bytes. *)
From Verif Require Import Base Command CommandSet Parser SpecStream ParserLemmas Automaton StreamProofs.

(** ** What a non-empty byte string starts with *)

Lemma exact_all_prefixes q k : exact_cmd q = Some k -> In q all_prefixes.
Proof.
  intros H. apply find_some in H. destruct H as [Hin He]. apply list_eqb_eq in He.
  apply prefixes_incl2. rewrite <- He. apply in_map, Hin.
Qed.

Lemma special_or_text b :
  cands [b] = [] -> special b = false -> text_byte b = true.
Proof.
  intros Hc Hs. unfold text_byte. destruct (existsb (Z.eqb b) [9; 10; 12; 13; 16; 24; 27; 28; 29]) eqn:E;
    [|reflexivity]. exfalso.
  apply existsb_exists in E. destruct E as (x & Hx & E). apply Z.eqb_eq in E. subst x.
  unfold special, mem_byte in Hs. cbn [existsb] in Hs.
  cbn [In] in Hx.
  destruct Hx as [<-|[<-|[<-|[<-|[<-|[<-|[<-|[<-|[<-|[]]]]]]]]]];
    first [discriminate Hs | vm_compute in Hc; discriminate Hc].
Qed.

Definition starters : list Z := [9; 10; 12; 13; 24; 27; 29].
Lemma cands_starter b : cands [b] <> [] -> In b starters.
Proof.
  intros H. destruct (in_dec Z.eq_dec b starters) as [Hi|Hn]; [exact Hi|]. exfalso. apply H.
  change [b] with ([] ++ [b]). rewrite <- matching_cands, cands_nil. apply matching_first.
  intros Hin. pose proof (proj1 (forallb_forall _ _) esc_pos_first_bytes _ Hin) as Hb.
  cbn beta iota in Hb. apply Hn. unfold mem_byte in Hb. apply existsb_exists in Hb.
  destruct Hb as (x & Hx & E). apply Z.eqb_eq in E. subst x. exact Hx.
Qed.

Lemma begun_not_special q b :
  begun q -> q <> [] -> special (hd 0 q) = false -> cands (q ++ [b]) = [] -> q = [24] /\ b <> 64.
Proof.
  intros Hb Hq Hs Hc. destruct q as [|x q]; [congruence|]. cbn [hd] in Hs.
  pose proof (begun_shorter [x] q ltac:(discriminate) Hb) as [Hx He].
  pose proof (cands_starter x Hx) as Hst. cbn [In starters] in Hst.
  assert (E : x = 24).
  { destruct Hst as [<-|[<-|[<-|[<-|[<-|[<-|[<-|[]]]]]]]];
      first [reflexivity | vm_compute in He; discriminate He | discriminate Hs]. }
  subst x.
  destruct q as [|y q].
  - split; [reflexivity|]. intros ->. vm_compute in Hc. discriminate Hc.
  - exfalso. pose proof (begun_shorter [24; y] q ltac:(discriminate) Hb) as [Hy Hey].
    destruct (Z.eq_dec y 64) as [->|Hn].
    + vm_compute in Hey. discriminate Hey.
    + destruct (can_facts y Hn) as [_ H]. contradiction.
Qed.

Lemma begun_no_prefix q : begun q -> q <> [] -> existsb (fun p => is_prefix p q) all_prefixes = false.
Proof.
  intros [Hc He] Hq. destruct (existsb _ all_prefixes) eqn:E; [|reflexivity]. exfalso.
  apply existsb_exists in E. destruct E as (p & Hp & E). apply is_prefix_spec in E.
  destruct E as [r ->].
  assert (Hpc : In p (map c_commands esc_pos_commands)) by (apply prefixes_incl1, Hp).
  apply in_map_iff in Hpc. destruct Hpc as (c & Hcp & Hin).
  assert (Hpn : p <> []).
  { intros ->. clear -Hp.
    assert (H : forallb (fun p : list Z => match p with [] => false | _ => true end) all_prefixes = true)
      by (vm_compute; reflexivity).
    pose proof (proj1 (forallb_forall _ _) H _ Hp). discriminate. }
  assert (Hb : begun p) by (apply (begun_shorter p r Hpn); split; assumption).
  destruct Hb as [_ Hb]. unfold exact_cmd in Hb.
  pose proof (find_none _ _ Hb c Hin) as Hf. cbn beta in Hf. rewrite Hcp in Hf.
  assert (list_eqb p p = true) by (apply list_eqb_eq; reflexivity). congruence.
Qed.

Inductive start_of (bs : list Z) : Prop :=
| St_cmd p rest : In p all_prefixes -> bs = p ++ rest -> start_of bs
| St_unknown u rest : unrecognised u = true -> bs = u ++ rest -> start_of bs
| St_unit u rest : unit_ok u = true -> bs = unit_wire u ++ rest -> start_of bs
| St_prefix : tail_ok (TPrefix bs) -> start_of bs.

Lemma unrecognised_intro q b :
  (q = [] \/ begun q) -> special (hd 0 (q ++ [b])) = true -> cands (q ++ [b]) = [] ->
  unrecognised (q ++ [b]) = true.
Proof.
  intros Hq Hs Hc. unfold unrecognised. apply cands_none in Hc.
  rewrite Hc. rewrite removelast_last. cbn [negb].
  assert (Hh : match q ++ [b] with [] => false | x :: _ => existsb (Z.eqb x) [16; 27; 28; 29] end = true).
  { destruct (q ++ [b]); [destruct q; discriminate|exact Hs]. }
  rewrite Hh. cbn [andb].
  destruct Hq as [->|Hq]; [reflexivity|]. destruct q as [|x q]; [reflexivity|].
  rewrite (begun_no_prefix _ Hq) by discriminate. rewrite andb_true_r.
  destruct Hq as [Hq _]. destruct (existsb (is_prefix (x :: q)) all_prefixes) eqn:E; [reflexivity|].
  apply cands_none in E. contradiction.
Qed.

Lemma classify_from r : forall q, (q = [] \/ begun q) -> q ++ r <> [] -> start_of (q ++ r).
Proof.
  induction r as [|b r IH]; intros q Hq Hne.
  - rewrite app_nil_r in *. destruct Hq as [->|Hq]; [congruence|].
    apply St_prefix. cbn [tail_ok]. split; [exact Hne|]. split.
    + destruct (existsb (is_prefix q) all_prefixes) eqn:E; [reflexivity|].
      apply cands_none in E. destruct Hq as [Hq _]. contradiction.
    + apply begun_no_prefix; assumption.
  - replace (q ++ b :: r) with ((q ++ [b]) ++ r) by (rewrite <- app_assoc; reflexivity).
    destruct (exact_cmd (q ++ [b])) as [k|] eqn:Ex.
    + eapply St_cmd; [apply (exact_all_prefixes _ _ Ex)|reflexivity].
    + destruct (cands (q ++ [b])) as [|c l] eqn:Ec.
      * destruct (special (hd 0 (q ++ [b]))) eqn:Es.
        -- eapply St_unknown; [|reflexivity]. apply unrecognised_intro; assumption.
        -- destruct Hq as [->|Hq].
           ++ cbn [app hd] in *. eapply (St_unit _ (TB b)); [|reflexivity].
              cbn [unit_ok]. apply special_or_text; assumption.
           ++ destruct q as [|x q].
              { cbn [app hd] in *. eapply (St_unit _ (TB b)); [|reflexivity].
                cbn [unit_ok]. apply special_or_text; assumption. }
              destruct (begun_not_special (x :: q) b Hq) as [E Hb];
                [discriminate|exact Es|exact Ec|].
              rewrite E. eapply (St_unit _ (TC b)); [|reflexivity].
              cbn [unit_ok]. apply negb_true_iff, Z.eqb_neq, Hb.
      * apply IH; [|destruct q; discriminate]. right. split; [rewrite Ec; discriminate|exact Ex].
Qed.

Lemma classify bs : bs <> [] -> start_of bs.
Proof. intros H. apply (classify_from bs []); [now left|exact H]. Qed.

(** ** Maximal runs of plain text *)

Definition starts_text (bs : list Z) : bool :=
  match bs with
  | [] => false
  | b :: r => text_byte b || match r with x :: _ => (b =? 24) && negb (x =? 64) | [] => false end
  end.

Lemma take_units n : forall bs, (length bs <= n)%nat ->
  exists us rest, bs = flat_map unit_wire us ++ rest /\ forallb unit_ok us = true /\
                  starts_text rest = false.
Proof.
  induction n as [|n IH]; intros bs Hl.
  - destruct bs; [|cbn in Hl; lia]. exists [], []. repeat split.
  - destruct (starts_text bs) eqn:E; [|exists [], bs; repeat split; assumption].
    destruct bs as [|b r]; [discriminate|]. cbn [starts_text] in E.
    destruct (text_byte b) eqn:Eb.
    + cbn [length] in Hl. destruct (IH r ltac:(lia)) as (us & rest & -> & Hu & Hr).
      exists (TB b :: us), rest. cbn [flat_map unit_wire app forallb unit_ok]. rewrite Eb. auto.
    + cbn [orb] in E. destruct r as [|x r]; [discriminate|]. apply andb_prop in E.
      destruct E as [E1 E2]. apply Z.eqb_eq in E1. subst b. cbn [length] in Hl.
      destruct (IH r ltac:(lia)) as (us & rest & -> & Hu & Hr).
      exists (TC x :: us), rest. cbn [flat_map unit_wire app forallb unit_ok]. rewrite E2. auto.
Qed.

Lemma unit_starts_text u rest : unit_ok u = true -> starts_text (unit_wire u ++ rest) = true.
Proof.
  destruct u as [b|x]; cbn [unit_ok unit_wire app starts_text]; intros H.
  - rewrite H. reflexivity.
  - rewrite H. apply orb_true_r.
Qed.

(** ** Peeling one item off the front *)

Inductive peeled (bs : list Z) : Prop :=
| Pe_item i rest : item_ok i -> bs = wire i ++ rest ->
    (is_text i = true -> starts_text bs = true) ->
    (open_ended i = true -> starts_text rest = false) -> peeled bs
| Pe_tail t : tail_ok t -> bs = tail_wire t -> peeled bs
| Pe_bad o hdr b rest : bytes_ok hdr = true -> bad_header o hdr ->
    bs = sub_prefix o ++ hdr ++ b :: rest -> peeled bs.

(** Take exactly [n] elements, or learn that there are fewer. *)
Lemma split_at {A} (n : nat) (l : list A) :
  (exists d r, l = d ++ r /\ length d = n) \/ (length l < n)%nat.
Proof.
  destruct (le_lt_dec n (length l)) as [H|H]; [left|right; exact H].
  exists (firstn n l), (skipn n l). split; [symmetry; apply firstn_skipn|].
  apply firstn_length_le, H.
Qed.

Lemma split_zero (l : list Z) :
  (exists d r, l = d ++ 0 :: r /\ ~ In 0 d) \/ ~ In 0 l.
Proof.
  induction l as [|a l IH]; [right; intros []|].
  destruct (Z.eq_dec a 0) as [->|Hn].
  - left. exists [], l. split; [reflexivity|intros []].
  - destruct IH as [(d & r & -> & Hd)|Hn2].
    + left. exists (a :: d), r. split; [reflexivity|]. intros [?|?]; [congruence|contradiction].
    + right. intros [?|?]; [congruence|contradiction].
Qed.

Lemma bytes_cons b l : bytes_ok (b :: l) = true -> 0 <= b <= 255 /\ bytes_ok l = true.
Proof. unfold bytes_ok. cbn [forallb]. unfold is_byte. intros H. apply andb_prop in H. split; [lia|tauto]. Qed.

Lemma bytes_app a b : bytes_ok (a ++ b) = true -> bytes_ok a = true /\ bytes_ok b = true.
Proof. unfold bytes_ok. rewrite forallb_app. intros H. apply andb_prop in H. exact H. Qed.

Ltac item_done := first [discriminate | intros; discriminate].

Lemma peel_fixed p rest :
  In p (map (fun '(_, _, p, _) => p) fixed_table) -> peeled (p ++ rest).
Proof.
  intros H. apply in_map_iff in H. destruct H as ([[[name k] p'] n] & E & Hin). subst p'.
  destruct (split_at n rest) as [(d & r & -> & Hd)|Hlt].
  - eapply (Pe_item _ (IFixed name k p d) r).
    + cbn [item_ok]. unfold in_fixed. rewrite Hd. exact Hin.
    + cbn [wire]. rewrite app_assoc. reflexivity.
    + discriminate.
    + discriminate.
  - eapply (Pe_tail _ (TFixed name k p rest)); [|reflexivity].
    cbn [tail_ok]. exists n. split; assumption.
Qed.

Lemma peel_barcode rest : bytes_ok rest = true -> peeled ([29; 107] ++ rest).
Proof.
  intros Hb. destruct rest as [|m r].
  - apply (Pe_tail _ TBarcodeKind); [exact I|reflexivity].
  - apply bytes_cons in Hb. destruct Hb as [Hm Hb].
    destruct (Z.leb_spec m 6) as [H6|H6].
    + destruct (split_zero r) as [(d & r' & -> & Hd)|Hd].
      * apply (Pe_item _ (IBarcodeNul m d) r'); try discriminate.
        -- cbn [item_ok]. split; [lia|exact Hd].
        -- cbn [wire app]. rewrite <- app_assoc. reflexivity.
      * apply (Pe_tail _ (TBarcodeNul m r)); [|reflexivity]. cbn [tail_ok]. split; [lia|exact Hd].
    + destruct (Z.leb_spec 65 m) as [H65|H65], (Z.leb_spec m 79) as [H79|H79];
        try (apply (Pe_item _ (IBarcodeBad m) r); try discriminate; [cbn [item_ok]; lia|reflexivity]).
      destruct r as [|n r].
      * apply (Pe_tail _ (TBarcodeSize m)); [cbn [tail_ok]; lia|reflexivity].
      * apply bytes_cons in Hb. destruct Hb as [Hn Hb].
        destruct (split_at (Z.to_nat n) r) as [(d & r' & -> & Hd)|Hlt].
        -- assert (Hz : zlen d = n) by (unfold zlen; lia).
           apply (Pe_item _ (IBarcodeLen m d) r'); try discriminate.
           ++ cbn [item_ok]. lia.
           ++ cbn [wire app]. rewrite Hz. reflexivity.
        -- apply (Pe_tail _ (TBarcodeLen m n r)); [|reflexivity]. cbn [tail_ok]. unfold zlen. lia.
Qed.

Lemma peel_bit_image rest : bytes_ok rest = true -> peeled ([27; 42] ++ rest).
Proof.
  intros Hb.
  destruct rest as [|m [|nl [|nh r]]];
    try (match goal with |- peeled (_ ++ ?a) => apply (Pe_tail _ (TBitImageHdr a)) end;
         [cbn [tail_ok length]; lia|reflexivity]).
  apply bytes_cons in Hb. destruct Hb as [Hm Hb].
  apply bytes_cons in Hb. destruct Hb as [Hnl Hb].
  apply bytes_cons in Hb. destruct Hb as [Hnh Hb].
  set (n := (nl + 256 * nh) * (if (m =? 32) || (m =? 33) then 3 else 1)).
  assert (Hn : 0 <= n) by (unfold n; destruct ((m =? 32) || (m =? 33)); lia).
  destruct (split_at (Z.to_nat n) r) as [(d & r' & -> & Hd)|Hlt].
  - apply (Pe_item _ (IBitImage m nl nh d) r'); try discriminate; [|reflexivity].
    cbn [item_ok]. fold n. unfold zlen. lia.
  - apply (Pe_tail _ (TBitImage m nl nh r)); [|reflexivity]. cbn [tail_ok]. fold n. unfold zlen. lia.
Qed.

Lemma peel_raster rest : bytes_ok rest = true -> peeled ([29; 118; 48] ++ rest).
Proof.
  intros Hb.
  destruct rest as [|m [|xl [|xh [|yl [|yh r]]]]];
    try (match goal with |- peeled (_ ++ ?a) => apply (Pe_tail _ (TRasterHdr a)) end;
         [cbn [tail_ok length]; lia|reflexivity]).
  do 5 (apply bytes_cons in Hb; let H := fresh "Hx" in destruct Hb as [H Hb]).
  set (n := (xl + 256 * xh) * (yl + 256 * yh)).
  assert (Hn : 0 <= n) by (unfold n; apply Z.mul_nonneg_nonneg; lia).
  destruct (split_at (Z.to_nat n) r) as [(d & r' & -> & Hd)|Hlt].
  - apply (Pe_item _ (IRaster m xl xh yl yh d) r'); try discriminate; [|reflexivity].
    cbn [item_ok]. fold n. unfold zlen. lia.
  - apply (Pe_tail _ (TRaster m xl xh yl yh r)); [|reflexivity]. cbn [tail_ok]. fold n. unfold zlen. lia.
Qed.

Lemma peel_cut rest : peeled ([29; 86] ++ rest).
Proof.
  destruct rest as [|m r].
  - apply (Pe_tail _ (TCut [])); [now left|reflexivity].
  - destruct (in_dec Z.eq_dec m [0; 1; 48; 49]) as [Hi|Hn].
    + apply (Pe_item _ (ICut m) r); try discriminate; [exact Hi|reflexivity].
    + destruct r as [|n r].
      * apply (Pe_tail _ (TCut [m])); [|reflexivity]. right. exists m. split; [reflexivity|exact Hn].
      * apply (Pe_item _ (ICutFeed m n) r); try discriminate; [exact Hn|reflexivity].
Qed.

Lemma peel_char_effects rest : bytes_ok rest = true -> peeled ([29; 40; 78] ++ rest).
Proof.
  intros Hb.
  destruct rest as [|pl [|ph r]];
    try (match goal with |- peeled (_ ++ ?a) => apply (Pe_tail _ (TCharEffectsHdr a)) end;
         [cbn [tail_ok length]; lia|reflexivity]).
  do 2 (apply bytes_cons in Hb; let H := fresh "Hx" in destruct Hb as [H Hb]).
  destruct (split_at (Z.to_nat (Z.max 1 (pl + 256 * ph))) r) as [(d & r' & -> & Hd)|Hlt].
  - apply (Pe_item _ (ICharEffects pl ph d) r'); try discriminate; [|reflexivity].
    cbn [item_ok]. unfold zlen. split; [destruct d; [cbn in Hd; lia|discriminate]|lia].
  - apply (Pe_tail _ (TCharEffects pl ph r)); [|reflexivity]. cbn [tail_ok]. unfold zlen. lia.
Qed.

Lemma hdr_shape f hdr :
  bytes_ok hdr = true -> length hdr = hdr_len f ->
  exists m fn, hdr = fam_len f (hdr_value f hdr) ++ [m; fn] /\ hdr_value f hdr <= fam_max f.
Proof.
  intros Hb Hl. destruct f; cbn [hdr_len] in Hl;
    repeat (destruct hdr as [|? hdr]; [discriminate Hl|]); destruct hdr; try discriminate Hl;
    repeat (apply bytes_cons in Hb; let H := fresh "Hx" in destruct Hb as [H Hb]);
    cbn [hdr_value nth fam_len app fam_max];
    eexists; eexists; (split; [|lia]);
    repeat (apply f_equal2; [lia|]); reflexivity.
Qed.

Lemma peel_sub o rest :
  bytes_ok rest = true -> peeled (sub_prefix o ++ rest).
Proof.
  intros Hb. set (f := sub_family o).
  destruct (le_lt_dec (length rest) (hdr_len f)) as [Hs|Hs].
  - destruct o as [g|].
    + apply (Pe_tail _ (TSubHdr g rest)); [exact Hs|reflexivity].
    + apply (Pe_tail _ (TRequestHdr rest)); [exact Hs|reflexivity].
  - destruct (split_at (hdr_len f) rest) as [(hdr & r & -> & Hl)|Hlt]; [|lia].
    rewrite app_length in Hs. destruct r as [|b r]; [cbn [length] in Hs; lia|].
    apply bytes_app in Hb. destruct Hb as [Hbh Hbr].
    destruct (Z.ltb_spec (hdr_value f hdr) 2) as [H2|H2].
    + apply (Pe_bad _ o hdr b r); [exact Hbh|split; [exact Hl|exact H2]|reflexivity].
    + destruct (hdr_shape f hdr Hbh Hl) as (m & fn & Hh & Hmax).
      set (n := hdr_value f hdr) in *.
      destruct (split_at (Z.to_nat (n - 2)) (b :: r)) as [(d & r' & Hr & Hd)|Hlt].
      * assert (Hz : zlen d + 2 = n) by (unfold zlen; lia).
        destruct o as [g|].
        -- apply (Pe_item _ (ISub g m fn d) r'); try discriminate.
           ++ cbn [item_ok]. change g with f. lia.
           ++ cbn [sub_prefix wire]. unfold header. rewrite Hz. change g with f.
              rewrite Hh, Hr, <- !app_assoc. reflexivity.
        -- apply (Pe_item _ (IRequest m fn d) r'); try discriminate.
           ++ cbn [item_ok]. change 65535 with (fam_max f). lia.
           ++ cbn [sub_prefix wire]. unfold header. rewrite Hz. change Code2d with f.
              rewrite Hh, Hr, <- !app_assoc. reflexivity.
      * destruct o as [g|].
        -- apply (Pe_tail _ (TSub g n m fn (b :: r))).
           ++ cbn [tail_ok]. change g with f. unfold zlen. split; [discriminate|]. lia.
           ++ cbn [sub_prefix tail_wire]. change g with f. rewrite Hh at 1.
              rewrite <- !app_assoc. reflexivity.
        -- apply (Pe_tail _ (TRequest n m fn (b :: r))).
           ++ cbn [tail_ok]. change 65535 with (fam_max f). unfold zlen. split; [discriminate|]. lia.
           ++ cbn [sub_prefix tail_wire]. change Code2d with f. rewrite Hh at 1.
              rewrite <- !app_assoc. reflexivity.
Qed.

Lemma peel bs : bytes_ok bs = true -> bs <> [] -> peeled bs.
Proof.
  intros Hb Hne. destruct (classify bs Hne) as [p rest Hp E|u rest Hu E|u rest Hu E|Ht].
  - subst bs. apply bytes_app in Hb. destruct Hb as [_ Hb].
    unfold all_prefixes in Hp. apply in_app_or in Hp. destruct Hp as [Hp|Hp].
    + apply peel_fixed, Hp.
    + cbn [variable_prefixes In] in Hp.
      destruct Hp as [<-|[<-|[<-|[<-|[<-|[<-|[<-|[<-|[<-|[<-|[]]]]]]]]]]].
      * apply peel_barcode, Hb.
      * apply peel_bit_image, Hb.
      * apply peel_raster, Hb.
      * apply peel_cut.
      * apply peel_char_effects, Hb.
      * apply (Pe_item _ IPrintPage rest); try discriminate; [exact I|reflexivity].
      * apply (peel_sub (Some Code2d)), Hb.
      * apply (peel_sub (Some Graphics)), Hb.
      * apply (peel_sub (Some LargeGraphics)), Hb.
      * apply (peel_sub None), Hb.
  - destruct (take_units (length rest) rest (le_n _)) as (us & rest' & E' & Hus & Hst).
    apply (Pe_item _ (IUnknown u us) rest').
    + split; assumption.
    + cbn [wire]. rewrite E, E', app_assoc. reflexivity.
    + discriminate.
    + intros _. exact Hst.
  - destruct (take_units (length bs) bs (le_n _)) as (us & rest' & E' & Hus & Hst).
    assert (Hs : starts_text bs = true) by (rewrite E; apply unit_starts_text, Hu).
    apply (Pe_item _ (IText us) rest').
    + split; [|exact Hus]. intros ->. cbn [flat_map app] in E'. congruence.
    + exact E'.
    + intros _. exact Hs.
    + intros _. exact Hst.
  - apply (Pe_tail _ (TPrefix bs)); [exact Ht|reflexivity].
Qed.

Definition leads_text (l : list item) : bool := match l with i :: _ => is_text i | [] => false end.

Lemma decompose_n n : forall bs, (length bs <= n)%nat -> bytes_ok bs = true ->
  exists l, stream_ok l /\ (leads_text l = true -> starts_text bs = true) /\
    ((exists t, tail_ok t /\ bs = encode l ++ tail_wire t) \/
     (exists o hdr b rest, bytes_ok hdr = true /\ bad_header o hdr /\
        bs = encode l ++ sub_prefix o ++ hdr ++ b :: rest)).
Proof.
  induction n as [|n IH]; intros bs Hl Hb.
  - destruct bs; [|cbn in Hl; lia]. exists []. split; [split; [constructor|reflexivity]|].
    split; [discriminate|]. left. exists TNone. split; [exact I|reflexivity].
  - assert (Hd : bs = [] \/ bs <> []) by (destruct bs; [now left|right; discriminate]).
    destruct Hd as [->|Hne].
    { exists []. split; [split; [constructor|reflexivity]|].
      split; [discriminate|]. left. exists TNone. split; [exact I|reflexivity]. }
    destruct (peel bs Hb Hne) as [i rest Hi E Ht Ho|t Ht E|o hdr b rest Hh Hbad E].
    + assert (Hw : (length (wire i) > 0)%nat).
      { pose proof (wire_nonempty i Hi). destruct (wire i); [congruence|cbn; lia]. }
      assert (Hlr : (length rest <= n)%nat)
        by (rewrite E, app_length in Hl; lia).
      assert (Hbr : bytes_ok rest = true) by (rewrite E in Hb; apply bytes_app in Hb; tauto).
      destruct (IH rest Hlr Hbr) as (l & [Hok Hsep] & Hlead & Hcase).
      exists (i :: l). split; [split|].
      * constructor; assumption.
      * cbn [separated]. destruct l as [|j l]; [reflexivity|]. rewrite Hsep, andb_true_r.
        destruct (open_ended i) eqn:Oi; [|reflexivity]. cbn [andb].
        destruct (is_text j) eqn:Tj; [|reflexivity]. exfalso.
        cbn [leads_text] in Hlead. specialize (Hlead Tj). specialize (Ho eq_refl). congruence.
      * split; [exact Ht|].
        destruct Hcase as [(t & Htk & Er)|(o & hdr & b & r & H1 & H2 & Er)].
        -- left. exists t. split; [exact Htk|]. rewrite E, Er. cbn [encode flat_map].
           rewrite <- app_assoc. reflexivity.
        -- right. exists o, hdr, b, r. split; [exact H1|]. split; [exact H2|]. rewrite E, Er.
           cbn [encode flat_map]. rewrite <- app_assoc. reflexivity.
    + exists []. split; [split; [constructor|reflexivity]|]. split; [discriminate|].
      left. exists t. split; [exact Ht|exact E].
    + exists []. split; [split; [constructor|reflexivity]|]. split; [discriminate|].
      right. exists o, hdr, b, rest. split; [exact Hh|]. split; [exact Hbad|exact E].
Qed.

(** Every byte string has a meaning. *)
Lemma decompose bs :
  bytes_ok bs = true ->
  exists l, stream_ok l /\
    ((exists t, tail_ok t /\ bs = encode l ++ tail_wire t) \/
     (exists o hdr b rest, bytes_ok hdr = true /\ bad_header o hdr /\
        bs = encode l ++ sub_prefix o ++ hdr ++ b :: rest)).
Proof.
  intros H. destruct (decompose_n (length bs) bs (le_n _) H) as (l & Hl & _ & Hc). eauto.
Qed.
