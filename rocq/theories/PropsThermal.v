(** * PropsThermal: the readable .thermal format (C13, C14). *)
From Verif Require Import Base Command CommandSet Parser SpecStream ParserTheory PropsParser Vec GTypes SpecText Origin
  Handlers Text Utf8 PropsDecoder ThermalFile SpecThermal ThermalTheory.
Local Open Scope Z_scope.
Local Open Scope list_scope.

(** ** C13 *)

(** Every source of the format is read as the bytes its tokens stand for, in order; comments and
    blank lines give nothing; lines may end with LF or CR LF and the last one may be open. *)
Theorem C13_parse_str : forall l last,
  lines_ok l -> line_ok last -> parse_str (spell l last) = meant l last.
Proof. exact parse_str_spelled. Qed.

(** Without any condition on the text: lines are independent, so one malformed line never affects
    another. *)
Theorem C13_lines_independent : forall a b, parse_str (a ++ 10 :: b) = parse_str (a ++ [10]) ++ parse_str b.
Proof.
  intros a b. remember (length a) as n eqn:Hn. revert a Hn. induction n as [n IH] using lt_wf_ind. intros a Hn.
  destruct (in_dec Z.eq_dec 10 a) as [Hi|Hi].
  - (* cut at the first line feed *)
    assert (Hs : exists u v, a = u ++ 10 :: v /\ ~ In 10 u).
    { clear -Hi. induction a as [|c a IH]; [destruct Hi|]. destruct (Z.eq_dec c 10) as [->|Hc].
      - exists [], a. split; [reflexivity|intros []].
      - destruct Hi as [Hi|Hi]; [congruence|]. destruct (IH Hi) as (u & v & -> & Hu).
        exists (c :: u), v. split; [reflexivity|]. intros [H|H]; [congruence|now apply Hu]. }
    destruct Hs as (u & v & -> & Hu). rewrite <- !app_assoc. cbn [app].
    rewrite (parse_str_line u (v ++ 10 :: b) Hu), (parse_str_line u (v ++ [10]) Hu), <- app_assoc. f_equal.
    apply (IH (length v)); [|reflexivity]. subst n. rewrite app_length. cbn. lia.
  - rewrite (parse_str_line a b Hi), (parse_str_line a [] Hi). cbn. now rewrite app_nil_r.
Qed.

(** Whatever the text, only bytes come out. *)
Lemma encode_bytes c : is_scalar c = true -> bytes_ok (utf8_encode1 c) = true.
Proof.
  intros H. assert (Hu : utf8_encode [c] = utf8_encode1 c) by (cbn; apply app_nil_r).
  unfold is_scalar in H. unfold utf8_encode1, bytes_ok, is_byte.
  destruct (c <? 128) eqn:E1; [cbn; lia|]. destruct (c <? 2048) eqn:E2; [|destruct (c <? 65536) eqn:E3].
  - cbn [forallb]. assert (0 <= c / 64 < 32) by (split; [apply Z.div_pos|apply Z.div_lt_upper_bound]; lia).
    pose proof (Z.mod_pos_bound c 64 ltac:(lia)). lia.
  - cbn [forallb]. assert (0 <= c / 4096 < 16) by (split; [apply Z.div_pos|apply Z.div_lt_upper_bound]; lia).
    pose proof (Z.mod_pos_bound c 64 ltac:(lia)). pose proof (Z.mod_pos_bound (c / 64) 64 ltac:(lia)). lia.
  - cbn [forallb]. assert (0 <= c / 262144 < 8) by (split; [apply Z.div_pos|apply Z.div_lt_upper_bound]; lia).
    pose proof (Z.mod_pos_bound c 64 ltac:(lia)). pose proof (Z.mod_pos_bound (c / 64) 64 ltac:(lia)).
    pose proof (Z.mod_pos_bound (c / 4096) 64 ltac:(lia)). lia.
Qed.

Lemma encode_all_bytes t : forallb is_scalar t = true -> bytes_ok (utf8_encode t) = true.
Proof.
  induction t as [|c t IH]; [reflexivity|]. cbn [forallb]. intros H. apply andb_true_iff in H. destruct H as [Hc Ht].
  change (utf8_encode (c :: t)) with (utf8_encode1 c ++ utf8_encode t). unfold bytes_ok. rewrite forallb_app.
  pose proof (encode_bytes c Hc) as H1. pose proof (IH Ht) as H2. unfold bytes_ok in *. now rewrite H1, H2.
Qed.
Lemma digits_byte radix l : 1 <= radix -> forall acc b, 0 <= acc <= 255 -> parse_digits radix acc l = Some b -> is_byte b = true.
Proof.
  intros Hr. induction l as [|c l IH]; intros acc b Ha H; cbn [parse_digits] in H.
  - injection H as <-. unfold is_byte. lia.
  - destruct (digit_value radix c) as [d|] eqn:E; [|discriminate].
    destruct (_ <=? 255) eqn:L; [|discriminate]. apply (IH (acc * radix + d) b); [|exact H].
    assert (0 <= d).
    { unfold digit_value in E. cbv zeta in E. destruct (_ <? radix); [|discriminate]. injection E as <-.
      destruct ((48 <=? c) && _) eqn:E1; [lia|]. destruct ((97 <=? c) && _) eqn:E2; [lia|].
      destruct ((65 <=? c) && _) eqn:E3; lia. }
    nia.
Qed.
Lemma parse_u8_byte radix l b : 1 <= radix -> parse_u8 radix l = Some b -> is_byte b = true.
Proof.
  intros Hr H. destruct l as [|c l]; [discriminate|].
  assert (Hd : parse_u8 radix (c :: l) = None \/ parse_u8 radix (c :: l) = parse_digits radix 0 l \/
               parse_u8 radix (c :: l) = parse_digits radix 0 (c :: l)).
  { unfold parse_u8.
    repeat (match goal with |- context [match ?z with _ => _ end] => destruct z; auto end). }
  destruct Hd as [Hd|[Hd|Hd]]; rewrite Hd in H; [discriminate| |];
    exact (digits_byte radix _ Hr 0 b ltac:(lia) H).
Qed.
Lemma replace2_all (P : Z -> bool) a b o l : forallb P o = true -> forallb P l = true -> forallb P (replace2 a b o l) = true.
Proof.
  intros Ho. remember (length l) as n eqn:Hn. revert l Hn. induction n as [n IH] using lt_wf_ind. intros l Hn Hl.
  destruct l as [|x [|y l]]; [reflexivity|exact Hl|]. cbn [replace2]. cbn [forallb] in Hl.
  apply andb_true_iff in Hl. destruct Hl as [Hx Hl]. apply andb_true_iff in Hl. destruct Hl as [Hy Hl].
  cbn [length] in Hn. destruct ((x =? a) && (y =? b)).
  - rewrite forallb_app, Ho. apply (IH (length l)); [lia|reflexivity|exact Hl].
  - change (forallb P (x :: replace2 a b o (y :: l)) = true). cbn [forallb]. rewrite Hx. cbn [andb].
    apply (IH (length (y :: l))); [cbn; lia|reflexivity|]. cbn. now rewrite Hy.
Qed.
Lemma token_all_bytes t : forallb is_scalar t = true -> bytes_ok (token_bytes t) = true.
Proof.
  intros H. unfold token_bytes. destruct (const_of t) as [b|] eqn:E.
  - unfold const_of in E. destruct (find _ const_table) as [[k v]|] eqn:F; [|discriminate]. injection E as <-.
    apply find_some in F. destruct F as [F _].
    assert (Ht : forallb (fun x => is_byte (snd x)) const_table = true) by (vm_compute; reflexivity).
    pose proof (proj1 (forallb_forall _ _) Ht _ F) as Hv. cbn [snd] in Hv. unfold bytes_ok. cbn [forallb]. now rewrite Hv.
  - destruct (starts_with HEX_PREFIX t).
    + destruct (parse_u8 16 (skipn 2 t)) as [b|] eqn:P; [|reflexivity]. unfold bytes_ok. cbn [forallb].
      rewrite (parse_u8_byte 16 _ b ltac:(lia) P). reflexivity.
    + destruct (starts_with [34] t).
      * unfold as_bytes. apply encode_all_bytes.
        assert (Hr : forallb is_scalar (replace2 92 34 [34] (replace2 92 92 [92] t)) = true)
          by (apply replace2_all; [reflexivity|]; apply replace2_all; [reflexivity|exact H]).
        destruct (replace2 92 34 [34] (replace2 92 92 [92] t)) as [|x r]; [reflexivity|].
        cbn [skipn]. cbn [forallb] in Hr. apply andb_true_iff in Hr. tauto.
      * destruct (parse_u8 10 t) as [b|] eqn:P; [|apply encode_all_bytes; exact H].
        unfold bytes_ok. cbn [forallb]. rewrite (parse_u8_byte 10 _ b ltac:(lia) P). reflexivity.
Qed.
Lemma tokens_all (P : Z -> bool) l : P 34 = true -> forall cur g esc, forallb P cur = true -> forallb P l = true ->
  Forall (fun t => forallb P t = true) (tokens_from cur g esc l).
Proof.
  intros Hq. induction l as [|c l IH]; intros cur g esc Hc Hl.
  - cbn [tokens_from]. destruct cur; constructor; [exact Hc|constructor].
  - cbn [forallb] in Hl. apply andb_true_iff in Hl. destruct Hl as [Hp Hl].
    assert (Hx : forallb P (cur ++ [c]) = true) by (rewrite forallb_app, Hc; cbn; now rewrite Hp).
    assert (H34 : forallb P [34] = true) by (cbn; now rewrite Hq).
    cbn [tokens_from].
    repeat match goal with
    | |- context [if ?b then _ else _] => destruct b
    | |- Forall _ (_ :: _) => constructor; [assumption|]
    | |- Forall _ (tokens_from _ _ _ _) => solve [apply IH; (assumption || reflexivity)]
    | |- Forall _ (match ?k with [] => _ | _ => _ end) => destruct k
    end.
Qed.
Lemma lines_all (P : Z -> bool) l : forall cur, forallb P cur = true -> forallb P l = true ->
  Forall (fun t => forallb P t = true) (lines_from cur l).
Proof.
  induction l as [|c l IH]; intros cur Hc Hl.
  - cbn [lines_from]. destruct cur; constructor; [exact Hc|constructor].
  - cbn [forallb] in Hl. apply andb_true_iff in Hl. destruct Hl as [Hp Hl]. cbn [lines_from]. destruct (c =? 10).
    + constructor; [|apply IH; [reflexivity|exact Hl]].
      destruct (strip_cr_cases cur) as [E|(u & Eu & E)]; rewrite E; [exact Hc|]. rewrite Eu, forallb_app in Hc.
      apply andb_true_iff in Hc. tauto.
    + apply IH; [|exact Hl]. rewrite forallb_app, Hc. cbn. now rewrite Hp.
Qed.
Lemma flat_bytes {A} (f : A -> list Z) l : Forall (fun x => bytes_ok (f x) = true) l -> bytes_ok (flat_map f l) = true.
Proof.
  induction 1 as [|x l Hx Hl IH]; [reflexivity|]. cbn [flat_map]. unfold bytes_ok in *. rewrite forallb_app. now rewrite Hx, IH.
Qed.
Theorem C13_only_bytes : forall text, forallb is_scalar text = true -> bytes_ok (parse_str text) = true.
Proof.
  intros text H. unfold parse_str. apply flat_bytes. unfold lines.
  eapply Forall_impl; [|exact (lines_all is_scalar text [] eq_refl H)]. intros line Hl. cbn beta in Hl.
  unfold line_bytes. destruct (line_skipped line); [reflexivity|]. apply flat_bytes. unfold parse_tokens.
  eapply Forall_impl; [|exact (tokens_all is_scalar line eq_refl [] false false eq_refl Hl)].
  intros t Ht. apply token_all_bytes, Ht.
Qed.

(** A source that uses everything. *)
Definition demo_source : list (line * bool) :=
  [(LComment (chars " Initialize"), false);
   (LTokens [Tok (TName "ESC" 27); Gap 32; Tok (TQuoted [64]); Tok (TDec [48; 55] 7); Gap 9], true);
   (LBlank [32; 160], false);
   (LTokens [Tok (TQuoted [92; 34; 8364]); Tok (TQuoted []); Tok (THex [102; 70] 255); Gap 32;
             Tok (TWord (chars "plain"))], false)].
Example C13_demo : lines_ok demo_source /\ line_ok (LTokens [Tok (TName "LF" 10)]) /\
  meant demo_source (LTokens [Tok (TName "LF" 10)]) =
    [27; 64; 7; 92; 34; 226; 130; 172; 255; 112; 108; 97; 105; 110; 10].
Proof.
  assert (Hw : token_ok (TWord (chars "plain"))).
  { split; [|split].
    - intros c H. cbn in H. repeat (destruct H as [H|H]; [subst c; split; [reflexivity|discriminate]|]). destruct H.
    - intros s b H. cbn in H. repeat (destruct H as [H|H]; [injection H as <- <-; discriminate|]). destruct H.
    - exists 112. eexists. split; [reflexivity|]. split; [reflexivity|]. split; discriminate. }
  split; [|split; [cbn; tauto|vm_compute; reflexivity]].
  repeat apply Forall_cons; [| | | |apply Forall_nil]; cbn [fst line_ok pieces_ok]; repeat split; try exact I;
    try (cbn; tauto); try exact Hw; try (cbn; intuition lia); try (now left); try (now right); try discriminate;
    try (cbn; lia).
  - cbn in H. destruct H as [H|[H|[]]]; subst c; reflexivity.
  - cbn in H. destruct H as [H|[H|[]]]; subst c; discriminate.
  - exact (proj1 (proj1 Hw c H)).
  - exact (proj2 (proj1 Hw c H)).
  - exact (proj1 (proj2 Hw)).
  - exact (proj2 (proj2 Hw)).
Qed.

(** What the reader does outside the format: an unquoted token directly before a quote is lost, a
    malformed hexadecimal number is dropped, and a number above 255 is printed as text. *)
Theorem C13_token_before_quote_lost : parse_str (chars "ESC""@""") = [64].
Proof. vm_compute. reflexivity. Qed.
Theorem C13_bad_hex_dropped : parse_str (chars "0x1FF 0xZZ 65") = [65].
Proof. vm_compute. reflexivity. Qed.
Theorem C13_big_number_is_text : parse_str (chars "256") = [50; 53; 54].
Proof. vm_compute. reflexivity. Qed.

(** ** C14 *)

(** Text the writer can quote: well-formed UTF-8 without line feed, quote or backslash. *)
Definition plain_text (bs : list Z) : Prop :=
  exists t, forallb is_scalar t = true /\ utf8_encode t = bs /\ ~ In 10 t /\ ~ In 34 t /\ ~ In 92 t.
(** What the writer can write: a line feed or quotable text, an unknown command with at least one
    byte, and any other command whatever its bytes. *)
Definition writable (o : ocmd) : Prop :=
  match o_kind o with
  | KText => o_bytes o = ([10], []) \/ (fst (o_bytes o) = [] /\ plain_text (snd (o_bytes o)))
  | KUnknown => o_data o <> [] /\ bytes_ok (o_data o) = true /\ snd (o_bytes o) = o_data o
  | _ => bytes_ok (fst (o_bytes o) ++ snd (o_bytes o)) = true /\ ~ In 10 (chars (o_name o))
  end.

Definition all_bytes : list Z := map Z.of_nat (seq 0 256).
Lemma byte_in b : is_byte b = true -> In b all_bytes.
Proof.
  intros H. unfold is_byte in H. unfold all_bytes. apply in_map_iff. exists (Z.to_nat b). split; [lia|].
  apply in_seq. lia.
Qed.
Lemma per_byte (P : Z -> bool) : forallb P all_bytes = true -> forall b, is_byte b = true -> P b = true.
Proof. intros H b Hb. exact (proj1 (forallb_forall _ _) H b (byte_in b Hb)). Qed.
Definition is_some (o : option Z) (b : Z) : bool := match o with Some x => x =? b | None => false end.
Lemma is_some_eq o b : is_some o b = true -> o = Some b.
Proof. destruct o; cbn; [|discriminate]. intros H. apply Z.eqb_eq in H. congruence. Qed.

Lemma hex2_numeral b : is_byte b = true -> numeral 16 hex_digit_value (hex2 b) 0 = Some b.
Proof.
  intros H. apply is_some_eq. revert b H. apply per_byte. vm_compute. reflexivity.
Qed.
Lemma dec_numeral b : is_byte b = true -> dec b <> [] /\ numeral 10 dec_digit (dec b) 0 = Some b.
Proof.
  intros H. split.
  - unfold dec. destruct (b <? 10); [discriminate|]. destruct (b <? 100); discriminate.
  - apply is_some_eq. revert b H. apply per_byte. vm_compute. reflexivity.
Qed.
Lemma hex_token b : is_byte b = true -> token_ok (THex (hex2 b) b).
Proof. intros H. cbn. split; [discriminate|]. split; [now apply hex2_numeral|]. unfold is_byte in H. lia. Qed.
Lemma dec_token b : is_byte b = true -> token_ok (TDec (dec b) b).
Proof. intros H. cbn. destruct (dec_numeral b H). repeat split; [assumption..|]. unfold is_byte in H. lia. Qed.

Definition const_token (b : Z) : token :=
  match b with
  | 27 => TName "ESC" 27 | 29 => TName "GS" 29 | 28 => TName "FS" 28 | 12 => TName "FF" 12 | 0 => TName "NUL" 0
  | 13 => TName "CR" 13 | 16 => TName "DLE" 16 | 24 => TName "CAN" 24
  | _ => THex (hex2 b) b
  end.
Fixpoint leqb (a b : list Z) : bool :=
  match a, b with [], [] => true | x :: a, y :: b => (x =? y) && leqb a b | _, _ => false end.
Lemma leqb_eq a b : leqb a b = true -> a = b.
Proof.
  revert b. induction a as [|x a IH]; intros [|y b]; cbn; intros H; try discriminate; [reflexivity|].
  apply andb_true_iff in H. destruct H as [Hx H]. apply Z.eqb_eq in Hx. f_equal; auto.
Qed.
Lemma const_token_ok b : is_byte b = true ->
  token_ok (const_token b) /\ spell_token (const_token b) = try_const b /\ token_meant (const_token b) = [b].
Proof.
  intros H. split; [|split].
  - destruct (const_token b) eqn:E; pose proof (hex_token b H) as Hh;
      unfold const_token in E;
      repeat (match type of E with context [match ?z with _ => _ end] => destruct z; try (injection E as <- <-; first [exact Hh|cbn; tauto]) end);
      try discriminate.
  - apply leqb_eq. revert b H. apply per_byte. vm_compute. reflexivity.
  - apply leqb_eq. revert b H. apply per_byte. vm_compute. reflexivity.
Qed.
Definition string_token (b : Z) : token :=
  if (b <? 128) && ((b <? 32) || (b =? 127)) then TDec (dec b) b
  else if b <? 128 then TQuoted [b] else TDec (dec b) b.
Lemma string_token_ok b : is_byte b = true ->
  token_ok (string_token b) /\ spell_token (string_token b) = try_string b /\ token_meant (string_token b) = [b].
Proof.
  intros H. split; [|split].
  - unfold string_token. destruct (_ && _) eqn:E; [now apply dec_token|]. destruct (b <? 128) eqn:E2; [|now apply dec_token].
    cbn. unfold is_byte in H. intros [Hb|[]]. subst b. discriminate.
  - apply leqb_eq. revert b H. apply per_byte. vm_compute. reflexivity.
  - apply leqb_eq. revert b H. apply per_byte. vm_compute. reflexivity.
Qed.

Definition after (f : Z -> token) (l : list Z) : list piece := flat_map (fun b => [Tok (f b); Gap 32]) l.
Definition before (f : Z -> token) (l : list Z) : list piece := flat_map (fun b => [Gap 32; Tok (f b)]) l.
Definition faithful (f : Z -> token) (g : Z -> list Z) : Prop :=
  forall b, is_byte b = true -> token_ok (f b) /\ spell_token (f b) = g b /\ token_meant (f b) = [b].

Lemma after_facts f g l rest : faithful f g -> bytes_ok l = true -> pieces_ok rest ->
  pieces_ok (after f l ++ rest) /\
  flat_map spell_piece (after f l) = flat_map (fun b => g b ++ [32]) l /\
  flat_map piece_meant (after f l) = l.
Proof.
  intros Hf Hl Hr. induction l as [|b l IH]; [split; [exact Hr|split; reflexivity]|].
  cbn [bytes_ok forallb] in Hl. apply andb_true_iff in Hl. destruct Hl as [Hb Hl].
  destruct (IH Hl) as (H1 & H2 & H3). destruct (Hf b Hb) as (T1 & T2 & T3). unfold after in *.
  cbn [flat_map app spell_piece piece_meant pieces_ok]. rewrite T2, H2, T3, H3. cbn [app].
  split; [|split; [now rewrite <- app_assoc|reflexivity]].
  split; [exact T1|]. split; [now right|]. split; [reflexivity|exact H1].
Qed.
Lemma before_facts f g l : faithful f g -> bytes_ok l = true ->
  pieces_ok (before f l) /\
  flat_map spell_piece (before f l) = flat_map (fun b => [32] ++ g b) l /\
  flat_map piece_meant (before f l) = l.
Proof.
  intros Hf Hl. induction l as [|b l IH]; [repeat split; reflexivity|].
  cbn [bytes_ok forallb] in Hl. apply andb_true_iff in Hl. destruct Hl as [Hb Hl].
  destruct (IH Hl) as (H1 & H2 & H3). destruct (Hf b Hb) as (T1 & T2 & T3). unfold before in *.
  cbn [flat_map app spell_piece piece_meant pieces_ok]. rewrite T2, H2, T3, H3. cbn [app].
  split; [|split; reflexivity].
  split; [reflexivity|]. split; [exact T1|]. split; [right; destruct l; exact I|exact H1].
Qed.
Lemma faithful_const : faithful const_token try_const.
Proof. intros b H. now apply const_token_ok. Qed.
Lemma faithful_string : faithful string_token try_string.
Proof. intros b H. now apply string_token_ok. Qed.
Lemma faithful_dec : faithful (fun b => TDec (dec b) b) dec.
Proof. intros b H. split; [now apply dec_token|]. split; reflexivity. Qed.
Lemma faithful_hex : faithful (fun b => THex (hex2 b) b) (fun b => str "0x" ++ hex2 b).
Proof. intros b H. split; [now apply hex_token|]. split; reflexivity. Qed.

(** the pieces of a written command prefix *)
Definition prefix_pieces (l : list Z) : list piece :=
  match l with [] => [] | b :: r => Tok (const_token b) :: Gap 32 :: after string_token r end.
Lemma prefix_facts l rest : bytes_ok l = true -> pieces_ok rest ->
  pieces_ok (prefix_pieces l ++ rest) /\ flat_map spell_piece (prefix_pieces l) = explain_command l /\
  flat_map piece_meant (prefix_pieces l) = l.
Proof.
  intros Hl Hr. destruct l as [|b l]; [split; [exact Hr|split; reflexivity]|].
  cbn [bytes_ok forallb] in Hl. apply andb_true_iff in Hl. destruct Hl as [Hb Hl].
  destruct (after_facts string_token try_string l rest faithful_string Hl Hr) as (H1 & H2 & H3).
  destruct (const_token_ok b Hb) as (T1 & T2 & T3).
  cbn [prefix_pieces explain_command app flat_map spell_piece piece_meant pieces_ok].
  rewrite T2, T3, H2, H3. split; [|split; reflexivity].
  split; [exact T1|]. split; [now right|]. split; [reflexivity|exact H1].
Qed.

(** trimming one written chunk only removes the blank in front *)
Lemma trim_plain x y l : is_whitespace x = false -> is_whitespace y = false ->
  trim (32 :: x :: l ++ [y]) = x :: l ++ [y].
Proof.
  intros Hx Hy. unfold trim. cbn [trim_start]. change (is_whitespace 32) with true. cbv iota. rewrite Hx.
  replace (rev (x :: l ++ [y])) with (y :: rev (x :: l)) by (cbn [rev]; rewrite rev_app_distr; reflexivity).
  cbn [trim_start]. rewrite Hy. cbn [rev]. rewrite rev_app_distr, rev_involutive. reflexivity.
Qed.
Lemma hex_visible d : 0 <= d < 16 -> is_whitespace (hex_digit d) = false.
Proof. intros H. unfold hex_digit, is_whitespace. destruct (d <? 10) eqn:E; lia. Qed.
Lemma trim_chunk b l : is_byte b = true -> bytes_ok l = true ->
  trim (flat_map (fun b => [32] ++ str "0x" ++ hex2 b) (b :: l)) =
  (str "0x" ++ hex2 b) ++ flat_map (fun b => [32] ++ str "0x" ++ hex2 b) l.
Proof.
  intros Hb Hl. cbn [flat_map].
  assert (Hend : exists m y, hex2 b ++ flat_map (fun b => [32] ++ str "0x" ++ hex2 b) l = m ++ [y] /\ is_whitespace y = false).
  { assert (Hd : forall c, is_byte c = true -> is_whitespace (hex_digit (c mod 16)) = false)
      by (intros c _; apply hex_visible, Z.mod_pos_bound; lia).
    destruct (rev l) as [|z r] eqn:Er.
    - assert (l = []) by (rewrite <- (rev_involutive l), Er; reflexivity). subst l.
      exists [hex_digit (b / 16)], (hex_digit (b mod 16)). split; [reflexivity|now apply Hd].
    - assert (El : l = rev r ++ [z]) by (rewrite <- (rev_involutive l), Er; reflexivity). subst l.
      unfold bytes_ok in Hl. rewrite forallb_app in Hl. apply andb_true_iff in Hl. destruct Hl as [_ Hz].
      cbn [forallb] in Hz. rewrite andb_true_r in Hz.
      exists (hex2 b ++ flat_map (fun b => [32] ++ str "0x" ++ hex2 b) (rev r) ++ [32] ++ str "0x" ++ [hex_digit (z / 16)]),
        (hex_digit (z mod 16)). split; [|now apply Hd].
      rewrite flat_map_app, <- !app_assoc. cbn [flat_map hex2 app]. reflexivity. }
  destruct Hend as (m & y & Em & Hy).
  change ([32] ++ str "0x" ++ hex2 b) with (32 :: 48 :: 120 :: hex2 b).
  replace ((32 :: 48 :: 120 :: hex2 b) ++ flat_map (fun b0 => [32] ++ str "0x" ++ hex2 b0) l)
    with (32 :: 48 :: (120 :: m) ++ [y]) by (cbn [app]; rewrite <- Em; reflexivity).
  rewrite trim_plain by (reflexivity || exact Hy).
  rewrite <- app_assoc, Em. reflexivity.
Qed.

Definition chunk_pieces (l : list Z) : list piece :=
  match l with
  | [] => []
  | b :: r => Tok (THex (hex2 b) b) :: before (fun b => THex (hex2 b) b) r
  end.
Lemma chunk_facts l : bytes_ok l = true ->
  pieces_ok (chunk_pieces l) /\
  flat_map spell_piece (chunk_pieces l) = trim (flat_map (fun b => [32] ++ str "0x" ++ hex2 b) l) /\
  flat_map piece_meant (chunk_pieces l) = l.
Proof.
  intros Hl. destruct l as [|b l]; [repeat split; reflexivity|].
  cbn [bytes_ok forallb] in Hl. apply andb_true_iff in Hl. destruct Hl as [Hb Hl].
  destruct (before_facts _ _ l faithful_hex Hl) as (H1 & H2 & H3). rewrite trim_chunk by assumption.
  cbn [chunk_pieces flat_map spell_piece piece_meant pieces_ok token_meant app]. rewrite H2, H3.
  split; [|split; reflexivity]. split; [now apply hex_token|]. split; [|exact H1]. right.
  destruct l; exact I.
Qed.
Lemma chunks_facts fuel l : (length l <= fuel)%nat -> bytes_ok l = true ->
  Forall (fun c => bytes_ok c = true) (chunks_of fuel 32 l) /\ concat (chunks_of fuel 32 l) = l.
Proof.
  revert l. induction fuel as [|f IH]; intros l Hn Hl.
  - destruct l; [split; [constructor|reflexivity]|cbn in Hn; lia].
  - destruct l as [|b l]; [split; [constructor|reflexivity]|].
    change (chunks_of (S f) 32 (b :: l)) with (firstn 32 (b :: l) :: chunks_of f 32 (skipn 32 (b :: l))).
    assert (Hs : bytes_ok (firstn 32 (b :: l)) = true /\ bytes_ok (skipn 32 (b :: l)) = true).
    { unfold bytes_ok in *. rewrite <- (firstn_skipn 32 (b :: l)), forallb_app in Hl. now apply andb_true_iff in Hl. }
    destruct (IH (skipn 32 (b :: l))) as [F C]; [|tauto|].
    + rewrite skipn_length. cbn [length] in *. lia.
    + split; [constructor; tauto|]. cbn [concat]. rewrite C. apply firstn_skipn.
Qed.

(** the lines of a written command *)
Definition data_lines (commands data : list Z) : list (line * bool) :=
  if vlen data <? 10 then
    [(LTokens (prefix_pieces commands ++ before (fun b => TDec (dec b) b) data), false); (LBlank [], false)]
  else
    (LTokens (prefix_pieces commands), false) ::
    map (fun c => (LTokens (chunk_pieces c), false)) (chunks_of (length data) 32 data) ++
    [(LBlank [], false); (LBlank [], false)].
Lemma spell_lines_app a b : spell_lines (a ++ b) = spell_lines a ++ spell_lines b.
Proof. unfold spell_lines. apply flat_map_app. Qed.
Lemma lines_meant_app a b : lines_meant (a ++ b) = lines_meant a ++ lines_meant b.
Proof. unfold lines_meant. apply flat_map_app. Qed.

Lemma data_lines_facts commands data : bytes_ok commands = true -> bytes_ok data = true ->
  lines_ok (data_lines commands data) /\
  spell_lines (data_lines commands data) = explain_command commands ++ data_text data ++ [10; 10] /\
  lines_meant (data_lines commands data) = commands ++ data.
Proof.
  intros Hc Hd. unfold data_lines, data_text.
  assert (Hb : line_ok (LBlank [])) by (intros c []).
  destruct (vlen data <? 10).
  - destruct (before_facts _ _ data faithful_dec Hd) as (B1 & B2 & B3).
    destruct (prefix_facts commands _ Hc B1) as (P1 & P2 & P3).
    split; [|split].
    + constructor; [exact P1|]. constructor; [exact Hb|constructor].
    + unfold spell_lines. cbn [flat_map fst snd spell_line terminator app]. rewrite flat_map_app, P2, B2.
      rewrite <- !app_assoc. reflexivity.
    + unfold lines_meant. cbn [flat_map fst line_meant app]. rewrite flat_map_app, P3, B3, app_nil_r. reflexivity.
  - destruct (prefix_facts commands [] Hc I) as (P1 & P2 & P3). rewrite app_nil_r in P1.
    destruct (chunks_facts (length data) data (Nat.le_refl _) Hd) as [F C].
    assert (Hch : forall cs, Forall (fun c => bytes_ok c = true) cs ->
      lines_ok (map (fun c => (LTokens (chunk_pieces c), false)) cs) /\
      spell_lines (map (fun c => (LTokens (chunk_pieces c), false)) cs) =
        flat_map (fun chunk => trim (flat_map (fun b => [32] ++ str "0x" ++ hex2 b) chunk) ++ [10]) cs /\
      lines_meant (map (fun c => (LTokens (chunk_pieces c), false)) cs) = concat cs).
    { induction 1 as [|c cs Hx Hcs (I1 & I2 & I3)]; [split; [constructor|split; reflexivity]|].
      destruct (chunk_facts c Hx) as (X1 & X2 & X3). unfold spell_lines, lines_meant in *.
      cbn [map flat_map fst snd spell_line line_meant terminator concat]. rewrite X2, X3, I2, I3.
      split; [constructor; assumption|split; reflexivity]. }
    destruct (Hch _ F) as (C1 & C2 & C3). clear Hch. set (cs := chunks_of (length data) 32 data) in *. clearbody cs.
    split; [|split].
    + constructor; [exact P1|]. apply Forall_app. split; [exact C1|].
      constructor; [exact Hb|]. constructor; [exact Hb|constructor].
    + rewrite app_comm_cons, spell_lines_app. change (spell_lines [(LBlank [], false); (LBlank [], false)]) with [10; 10].
      match goal with |- spell_lines (?h :: ?t) ++ _ = _ => change (h :: t) with ([h] ++ t); rewrite (spell_lines_app [h] t) end.
      rewrite C2. unfold spell_lines. cbn [flat_map fst snd spell_line terminator app]. rewrite P2, <- !app_assoc.
      cbn [app]. reflexivity.
    + rewrite app_comm_cons, lines_meant_app. change (lines_meant [(LBlank [], false); (LBlank [], false)]) with (@nil Z).
      match goal with |- lines_meant (?h :: ?t) ++ _ = _ => change (h :: t) with ([h] ++ t); rewrite (lines_meant_app [h] t) end.
      rewrite C3, C, app_nil_r. unfold lines_meant. cbn [flat_map fst line_meant]. rewrite P3, app_nil_r. reflexivity.
Qed.

Lemma escape_plain t : ~ In 34 t -> ~ In 92 t -> escape t = t.
Proof.
  intros H1 H2. induction t as [|c t IH]; [reflexivity|]. unfold escape in *. cbn [flat_map].
  rewrite IH by (intro; solve [apply H1; now right|apply H2; now right]). unfold escape1.
  destruct (Z.eqb_spec c 92) as [->|Ha]; [exfalso; apply H2; now left|].
  destruct (Z.eqb_spec c 34) as [->|Hb]; [exfalso; apply H1; now left|]. reflexivity.
Qed.
Lemma lossy_of_encoded t : forallb is_scalar t = true -> from_utf8_lossy (utf8_encode t) = t.
Proof.
  induction t as [|c t IH]; [reflexivity|]. cbn [forallb]. intros H. apply andb_true_iff in H. destruct H as [Hc Ht].
  change (utf8_encode (c :: t)) with (utf8_encode1 c ++ utf8_encode t). rewrite lossy_step by exact Hc. now rewrite IH.
Qed.

Definition unknown_pieces (data : list Z) : list piece :=
  match data with
  | a :: b :: r => Tok (const_token a) :: Gap 32 :: Tok (string_token b) :: Gap 32 :: after const_token r
  | [a] => [Tok (const_token a)]
  | [] => []
  end.
Lemma unknown_facts data : data <> [] -> bytes_ok data = true ->
  pieces_ok (unknown_pieces data) /\ flat_map spell_piece (unknown_pieces data) = explain_unknown data /\
  flat_map piece_meant (unknown_pieces data) = data.
Proof.
  intros Hn Hd. destruct data as [|a [|b r]]; [congruence| |]; cbn [bytes_ok forallb] in Hd.
  - rewrite andb_true_r in Hd. destruct (const_token_ok a Hd) as (T1 & T2 & T3).
    cbn [unknown_pieces explain_unknown flat_map spell_piece piece_meant pieces_ok]. rewrite T2, T3, app_nil_r.
    split; [|split; reflexivity]. split; [exact T1|]. split; [now right|exact I].
  - apply andb_true_iff in Hd. destruct Hd as [Ha Hd]. apply andb_true_iff in Hd. destruct Hd as [Hb Hd].
    destruct (const_token_ok a Ha) as (T1 & T2 & T3). destruct (string_token_ok b Hb) as (S1 & S2 & S3).
    destruct (after_facts _ _ r [] faithful_const Hd I) as (A1 & A2 & A3). rewrite app_nil_r in A1.
    cbn [unknown_pieces explain_unknown flat_map spell_piece piece_meant pieces_ok].
    rewrite T2, T3, S2, S3, A2, A3. split; [|split; reflexivity].
    split; [exact T1|]. split; [now right|]. split; [reflexivity|]. split; [exact S1|]. split; [now right|].
    split; [reflexivity|exact A1].
Qed.

Lemma command_lines c : writable (observe c) ->
  exists l, lines_ok l /\ cmd_to_thermal c = spell_lines l /\ lines_meant l = rebuilt (observe c).
Proof.
  intros H. unfold writable, observe, rebuilt in *. cbn [o_kind o_bytes o_data o_name] in *.
  unfold cmd_to_thermal. destruct (get_command_bytes c) as [commands data] eqn:Eg. cbn [fst snd] in *.
  assert (Hplain : bytes_ok (commands ++ data) = true /\ ~ In 10 (chars (c_name c)) ->
    exists l, lines_ok l /\
      str "'// " ++ str (c_name c) ++ [10] ++ explain_command commands ++ data_text data ++ [10; 10] = spell_lines l /\
      lines_meant l = commands ++ data).
  { intros [Hb Hn]. unfold bytes_ok in Hb. rewrite forallb_app in Hb. apply andb_true_iff in Hb. destruct Hb as [Hc Hd].
    destruct (data_lines_facts commands data Hc Hd) as (L1 & L2 & L3).
    exists ((LComment (32 :: chars (c_name c)), false) :: data_lines commands data). split; [|split].
    - constructor; [|exact L1]. cbn [fst line_ok]. intros [Hi|Hi]; [discriminate|now apply Hn].
    - match goal with |- _ = spell_lines (?h :: ?t) => change (h :: t) with ([h] ++ t); rewrite (spell_lines_app [h] t) end.
      rewrite L2. unfold spell_lines. cbn [flat_map fst snd spell_line terminator]. rewrite (chars_str (c_name c)).
      cbn [str chars app]. rewrite app_nil_r, <- app_assoc. reflexivity.
    - exact L3. }
  destruct (c_kind c); try (exact (Hplain H)).
  - destruct H as [E|[E (t & Hs & He & H10 & H34 & H92)]].
    + injection E as -> ->. exists [(LTokens [Tok (TName "LF" 10); Gap 32], false)]. split; [|split; reflexivity].
      constructor; [|constructor]. cbn. tauto.
    + subst commands data. rewrite lossy_of_encoded by exact Hs.
      exists [(LTokens [Tok (TQuoted t)], false)]. split; [|split].
      * constructor; [|constructor]. cbn. tauto.
      * unfold spell_lines. cbn [flat_map fst snd spell_line spell_piece spell_token terminator].
        rewrite escape_plain by assumption. rewrite <- !app_assoc. reflexivity.
      * unfold lines_meant. cbn [flat_map fst line_meant piece_meant token_meant]. now rewrite !app_nil_r.
  - destruct H as (Hn & Hb & E). subst data. destruct (unknown_facts _ Hn Hb) as (U1 & U2 & U3).
    exists [(LComment (chars " Unknown command "), false); (LTokens (Gap 32 :: unknown_pieces (c_data c)), false); (LBlank [], false)].
    split; [|split].
    + constructor; [cbn; intuition discriminate|]. constructor; [cbn [fst line_ok pieces_ok]; split; [reflexivity|exact U1]|].
      constructor; [intros x []|constructor].
    + unfold spell_lines. cbn [flat_map fst snd spell_line terminator spell_piece]. rewrite U2.
      cbn [str chars app]. rewrite <- !app_assoc. reflexivity.
    + unfold lines_meant. cbn [flat_map fst line_meant piece_meant app]. rewrite U3, !app_nil_r. reflexivity.
Qed.

(** Reading back what was written gives the bytes the commands stand for. *)
Theorem C14_round_trip : forall cmds,
  Forall (fun c => writable (observe c)) cmds ->
  parse_str (cmds_to_thermal cmds) = flat_map rebuilt (map observe cmds).
Proof.
  intros cmds H.
  assert (Hl : exists l, lines_ok l /\ cmds_to_thermal cmds = spell_lines l /\
                         lines_meant l = flat_map rebuilt (map observe cmds)).
  { induction H as [|c cmds Hc _ (l & L1 & L2 & L3)]; [exists []; split; [constructor|split; reflexivity]|].
    destruct (command_lines c Hc) as (k & K1 & K2 & K3). exists (k ++ l). split; [|split].
    - apply Forall_app. now split.
    - unfold cmds_to_thermal in *. cbn [flat_map]. rewrite spell_lines_app, K2, L2. reflexivity.
    - cbn [map flat_map]. rewrite lines_meant_app, K3, L3. reflexivity. }
  destruct Hl as (l & L1 & L2 & <-). rewrite L2.
  pose proof (C13_parse_str l (LBlank []) L1 ltac:(intros c [])) as E. unfold spell, meant in E.
  cbn [spell_line line_meant] in E. rewrite !app_nil_r in E. exact E.
Qed.

(** *** Streams *)
Definition good_name (s : string) : bool := forallb (fun c => negb (c =? 10)) (chars s).
Lemma good_name_no_lf s : good_name s = true -> ~ In 10 (chars s).
Proof. intros H Hi. pose proof (proj1 (forallb_forall _ _) H 10 Hi). discriminate. Qed.
Lemma table_names : forallb (fun c => good_name (c_name c)) all_commands = true /\
  forallb (fun c => good_name (sc_name c)) (code2d_table ++ graphics_table) = true.
Proof. split; vm_compute; reflexivity. Qed.
Lemma sent_name c : sent c -> ~ In 10 (chars (c_name c)).
Proof.
  intros S. destruct (sent_reported _ S) as [(t & Ht & _ & I)|(sc & Hs & I)]; apply good_name_no_lf.
  - rewrite (in_name _ _ I). exact (proj1 (forallb_forall _ _) (proj1 table_names) _ Ht).
  - rewrite (si_name _ _ I). exact (proj1 (forallb_forall _ _) (proj2 table_names) _ Hs).
Qed.
(** the text and unknown commands have the plain handler *)
Definition plain_kind (c : command) : bool :=
  match c_kind c with KText | KUnknown => match c_handler c with HPlain _ => true | _ => false end | _ => true end.
Lemma plain_kinds : forallb plain_kind all_commands = true /\
  forallb (fun c => match sc_kind c with KText | KUnknown => false | _ => true end) (code2d_table ++ graphics_table) = true.
Proof. split; vm_compute; reflexivity. Qed.
Lemma sent_plain c : sent c -> c_kind c = KText \/ c_kind c = KUnknown -> get_command_bytes c = (c_commands c, c_data c).
Proof.
  intros S K. destruct (sent_reported _ S) as [(t & Ht & _ & I)|(sc & Hs & I)].
  - pose proof (proj1 (forallb_forall _ _) (proj1 plain_kinds) _ Ht) as E. unfold plain_kind in E.
    rewrite <- (in_kind _ _ I) in E. pose proof (in_handler _ _ I) as L.
    assert (Hh : exists id, c_handler t = HPlain id).
    { destruct K as [K|K]; rewrite K in E; destruct (c_handler t); try discriminate; eauto. }
    destruct Hh as [id Hh]. rewrite Hh in L. unfold get_command_bytes.
    destruct (c_handler c); cbn in L; try contradiction. reflexivity.
  - pose proof (proj1 (forallb_forall _ _) (proj2 plain_kinds) _ Hs) as E. cbn beta in E.
    rewrite <- (si_kind _ _ I) in E. destruct K as [K|K]; rewrite K in E; discriminate.
Qed.
Lemma subseq_in a b x : subseq a b -> In x a -> In x b.
Proof.
  induction 1 as [l|y l1 l2 H IH|y l1 l2 H IH]; intros Hi; [destruct Hi| |right; now apply IH].
  destruct Hi as [->|Hi]; [now left|right; now apply IH].
Qed.

(** A parsed stream whose text runs are quotable and which reports no empty Unknown command. *)
Definition text_writable (c : command) : Prop :=
  (c_kind c = KText -> (c_commands c = [10] /\ c_data c = []) \/ (c_commands c = [] /\ plain_text (c_data c))) /\
  (c_kind c = KUnknown -> c_data c <> []).

Theorem C14_stream_round_trip : forall bs cmds,
  bytes_ok bs = true -> parse_esc_pos bs = Ok cmds -> Forall text_writable cmds ->
  parse_str (cmds_to_thermal cmds) = flat_map rebuilt (map observe cmds).
Proof.
  intros bs cmds Hb Hp Hw. apply C14_round_trip. rewrite Forall_forall in *. intros c Hc.
  specialize (Hw c Hc). destruct Hw as [Wt Wu].
  assert (S : sent c) by (exists bs, cmds; auto).
  assert (Hre : forall x, In x (rebuilt (observe c)) -> is_byte x = true).
  { intros x Hx. assert (Hi : In x (bs ++ [0])).
    { apply (subseq_in _ _ _ (C09_nothing_invented bs cmds Hb Hp)). apply in_flat_map. exists (observe c).
      split; [now apply in_map|exact Hx]. }
    apply in_app_or in Hi. destruct Hi as [Hi|[<-|[]]]; [|reflexivity].
    exact (proj1 (forallb_forall _ _) Hb x Hi). }
  unfold writable, rebuilt, observe in *. cbn [o_kind o_bytes o_data o_name fst snd] in *.
  destruct (c_kind c) eqn:K; try (split; [apply forallb_forall; exact Hre|now apply sent_name]).
  - rewrite (sent_plain c S (or_introl K)). cbn [fst snd]. destruct (Wt eq_refl) as [[-> ->]|H]; [now left|now right].
  - rewrite (sent_plain c S (or_intror K)). cbn [fst snd]. split; [now apply Wu|]. split; [|reflexivity].
    now apply sent_bytes.
Qed.

(** Bytes to .thermal and back: nothing changes, when moreover the parser drops nothing
    ([C09_nothing_lost] gives conditions on the bytes alone). *)
Theorem C14_bytes_round_trip : forall bs cmds,
  bytes_ok bs = true -> parse_esc_pos bs = Ok cmds -> Forall text_writable cmds ->
  ~ In 24 bs -> ~ occurs [29; 107] bs ->
  ~ occurs [29; 40; 107] bs -> ~ occurs [29; 40; 76] bs -> ~ occurs [29; 40; 72] bs ->
  ~ occurs [29; 56; 76] bs ->
  (forall a q, bs = a ++ q -> q <> [] -> existsb (is_prefix q) all_prefixes = true ->
               existsb (fun p => is_prefix p q) all_prefixes = true) ->
  parse_str (cmds_to_thermal cmds) = bs.
Proof.
  intros bs cmds Hb Hp Hw H1 H2 H3 H4 H5 H6 H7. rewrite (C14_stream_round_trip bs cmds Hb Hp Hw).
  now apply C09_nothing_lost.
Qed.

(** ESC @ (initialise), text, LF, a raster image and GS V 0: the guard holds and the text is what one expects. *)
Definition demo_bytes : list Z :=
  [27; 64; 72; 195; 169; 10; 29; 118; 48; 0; 1; 0; 8; 0; 1; 2; 3; 4; 5; 6; 7; 8; 29; 86; 0].
Example C14_demo : exists cmds, parse_esc_pos demo_bytes = Ok cmds /\ Forall text_writable cmds /\
  parse_str (cmds_to_thermal cmds) = demo_bytes.
Proof.
  eexists. split; [vm_compute; reflexivity|]. split; [|vm_compute; reflexivity].
  repeat apply Forall_cons; try apply Forall_nil; split; try discriminate; intros _.
  - right. split; [reflexivity|]. exists [72; 233]. repeat split; try reflexivity; cbn; intuition discriminate.
  - left. split; reflexivity.
Qed.

(** Outside the guard the writer loses bytes: *)
(** a carriage return or a tab is written as an empty text; *)
Theorem C14_carriage_return_lost : exists bs cmds,
  parse_esc_pos bs = Ok cmds /\ flat_map rebuilt (map observe cmds) = bs /\ parse_str (cmds_to_thermal cmds) <> bs.
Proof. exists [27; 64; 13]. eexists. split; [vm_compute; reflexivity|]. split; [reflexivity|vm_compute; discriminate]. Qed.
(** quotes in text are not escaped; *)
Theorem C14_quote_lost : exists bs cmds,
  parse_esc_pos bs = Ok cmds /\ flat_map rebuilt (map observe cmds) = bs /\ parse_str (cmds_to_thermal cmds) <> bs.
Proof. exists [27; 64; 65; 34; 66]. eexists. split; [vm_compute; reflexivity|]. split; [reflexivity|vm_compute; discriminate]. Qed.
(** neither are backslashes; *)
Theorem C14_backslash_lost : exists bs cmds,
  parse_esc_pos bs = Ok cmds /\ flat_map rebuilt (map observe cmds) = bs /\ parse_str (cmds_to_thermal cmds) <> bs.
Proof. exists [27; 64; 92; 92]. eexists. split; [vm_compute; reflexivity|]. split; [reflexivity|vm_compute; discriminate]. Qed.
(** text that is not UTF-8 is replaced; *)
Theorem C14_latin1_replaced : exists bs cmds,
  parse_esc_pos bs = Ok cmds /\ flat_map rebuilt (map observe cmds) = bs /\
  parse_str (cmds_to_thermal cmds) = [27; 64; 239; 191; 189].
Proof. exists [27; 64; 233]. eexists. split; [vm_compute; reflexivity|]. split; [reflexivity|vm_compute; reflexivity]. Qed.
(** and the empty Unknown command before leading text is written as a comment that does not start
    its line, so it is read back as text: printing it adds bytes that were never there. *)
Theorem C14_leading_text_gains_bytes : exists cmds,
  parse_esc_pos [65] = Ok cmds /\
  parse_str (cmds_to_thermal cmds) = str "'//Nobytesprovided" ++ [65].
Proof. eexists. split; [vm_compute; reflexivity|vm_compute; reflexivity]. Qed.
