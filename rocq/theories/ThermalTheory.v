(** * ThermalTheory: reading a .thermal source. *)
From Verif Require Import Base Command Vec GTypes SpecText Handlers Text Utf8 ThermalFile SpecThermal.
Local Open Scope Z_scope.
Local Open Scope list_scope.

Lemma chars_str s : chars s = str s.
Proof. induction s as [|a r IH]; [reflexivity|]. cbn. now rewrite IH. Qed.

Lemma str_eqb_refl a : str_eqb a a = true.
Proof. induction a as [|x a IH]; [reflexivity|]. cbn. now rewrite Z.eqb_refl. Qed.
Lemma str_eqb_eq a b : str_eqb a b = true <-> a = b.
Proof.
  revert b. induction a as [|x a IH]; intros [|y b]; cbn; split; intro H; try congruence; try reflexivity.
  - apply andb_true_iff in H. destruct H as [Hx H]. apply Z.eqb_eq in Hx. apply IH in H. congruence.
  - injection H as -> ->. now rewrite Z.eqb_refl, str_eqb_refl.
Qed.

(** ** Tokens *)
(** a character of a word: not white space, not a quote *)
Definition word_char (c : Z) : bool := negb (is_ascii_whitespace c) && negb (c =? 34).

Lemma tokens_word w cur esc r :
  forallb word_char w = true -> tokens_from cur false esc (w ++ r) = tokens_from (cur ++ w) false esc r.
Proof.
  revert cur. induction w as [|c w IH]; intros cur H; cbn [app]; [now rewrite app_nil_r|].
  cbn [forallb] in H. apply andb_true_iff in H. destruct H as [Hc Hw].
  unfold word_char in Hc. apply andb_true_iff in Hc. destruct Hc as [Ha Hq].
  apply negb_true_iff in Ha, Hq. cbn [tokens_from]. rewrite Hq, Ha.
  rewrite IH by exact Hw. now rewrite <- app_assoc.
Qed.

Lemma tokens_gap c esc r : is_ascii_whitespace c = true ->
  tokens_from [] false esc (c :: r) = tokens_from [] false esc r.
Proof.
  intros H. cbn [tokens_from]. rewrite H. destruct (c =? 34) eqn:E; [|reflexivity].
  apply Z.eqb_eq in E. subst c. discriminate.
Qed.
Lemma tokens_word_gap w c esc r : w <> [] -> is_ascii_whitespace c = true ->
  tokens_from w false esc (c :: r) = w :: tokens_from [] false esc r.
Proof.
  intros Hw H. cbn [tokens_from]. rewrite H. destruct (c =? 34) eqn:E.
  - apply Z.eqb_eq in E. subst c. discriminate.
  - now destruct w.
Qed.

Lemma tokens_escaped t cur r :
  tokens_from cur true false (escape t ++ 34 :: r) = (cur ++ escape t) :: tokens_from [] false false r.
Proof.
  revert cur. induction t as [|c t IH]; intros cur.
  - cbn. now rewrite app_nil_r.
  - unfold escape. cbn [flat_map]. unfold escape1 at 1. destruct ((c =? 92) || (c =? 34)) eqn:E.
    + rewrite <- app_assoc. cbn [app]. cbn [tokens_from]. change (92 =? 92) with true.
      change (92 =? 34) with false. cbn [andb].
      assert (Hs : tokens_from (cur ++ [92]) true true (c :: flat_map escape1 t ++ 34 :: r) =
                   tokens_from ((cur ++ [92]) ++ [c]) true false (flat_map escape1 t ++ 34 :: r)).
      { cbn [tokens_from]. apply orb_true_iff in E. destruct E as [E|E]; rewrite E; cbn [andb]; [reflexivity|].
        rewrite andb_true_r. destruct (c =? 92); reflexivity. }
      cbn [tokens_from] in Hs. rewrite Hs. unfold escape in IH. rewrite IH.
      rewrite <- !app_assoc. unfold escape1 at 2. rewrite E. reflexivity.
    + apply orb_false_iff in E. destruct E as [E1 E2]. cbn [app tokens_from].
      rewrite E1, E2. cbn [andb]. unfold escape in IH. rewrite IH.
      rewrite <- !app_assoc. unfold escape1 at 2. rewrite E1, E2. reflexivity.
Qed.

(** ** Undoing the escapes *)
Definition half1 (c : Z) : list Z := if c =? 34 then [92; 34] else [c].
Lemma replace2_cons a b o x l : x <> a -> replace2 a b o (x :: l) = x :: replace2 a b o l.
Proof.
  intros H. destruct l as [|y l]; [reflexivity|]. cbn [replace2].
  apply Z.eqb_neq in H. now rewrite H.
Qed.
Lemma replace2_hit a b o l : replace2 a b o (a :: b :: l) = o ++ replace2 a b o l.
Proof. cbn [replace2]. now rewrite !Z.eqb_refl. Qed.
Lemma replace2_miss a b o x y l : y <> b -> replace2 a b o (x :: y :: l) = x :: replace2 a b o (y :: l).
Proof. intros H. cbn [replace2]. apply Z.eqb_neq in H. now rewrite H, andb_false_r. Qed.

Lemma first_pass t : replace2 92 92 [92] (escape t) = flat_map half1 t.
Proof.
  induction t as [|c t IH]; [reflexivity|]. unfold escape in *. cbn [flat_map]. unfold escape1 at 1, half1 at 1.
  destruct (c =? 92) eqn:E1.
  - apply Z.eqb_eq in E1. subst c. cbn [orb app]. change (92 =? 34) with false. cbv iota.
    rewrite replace2_hit, IH. reflexivity.
  - destruct (c =? 34) eqn:E2; cbn [orb app].
    + apply Z.eqb_eq in E2. subst c. rewrite replace2_miss by discriminate.
      rewrite replace2_cons by discriminate. now rewrite IH.
    + rewrite replace2_cons by (apply Z.eqb_neq; exact E1). now rewrite IH.
Qed.
Lemma half1_head c t : exists y r, flat_map half1 (c :: t) = y :: r /\ y <> 34.
Proof.
  cbn [flat_map]. unfold half1 at 1. destruct (c =? 34) eqn:E; cbn [app].
  - exists 92. eexists. split; [reflexivity|discriminate].
  - exists c. eexists. split; [reflexivity|]. apply Z.eqb_neq. exact E.
Qed.
Lemma second_pass t : replace2 92 34 [34] (flat_map half1 t) = t.
Proof.
  induction t as [|c t IH]; [reflexivity|]. cbn [flat_map]. unfold half1 at 1. destruct (c =? 34) eqn:E; cbn [app].
  - apply Z.eqb_eq in E. subst c. rewrite replace2_hit, IH. reflexivity.
  - destruct (Z.eq_dec c 92) as [->|Hc].
    + destruct t as [|d t]; [reflexivity|]. destruct (half1_head d t) as (y & r & Hy & Hn). rewrite Hy in *.
      rewrite replace2_miss by exact Hn. now rewrite IH.
    + rewrite replace2_cons by exact Hc. now rewrite IH.
Qed.

Lemma quoted_bytes t : token_bytes (34 :: escape t) = utf8_encode t.
Proof.
  unfold token_bytes.
  assert (Hc : const_of (34 :: escape t) = None) by reflexivity. rewrite Hc.
  change (starts_with HEX_PREFIX (34 :: escape t)) with false.
  change (starts_with [34] (34 :: escape t)) with true. cbv iota.
  rewrite replace2_cons by discriminate. rewrite first_pass.
  rewrite replace2_cons by discriminate. rewrite second_pass. reflexivity.
Qed.

(** ** Numbers *)
Lemma digit10 c : digit_value 10 c = dec_digit c.
Proof.
  unfold digit_value, dec_digit. destruct ((48 <=? c) && (c <=? 57)) eqn:E.
  - cbv zeta. destruct (c - 48 <? 10) eqn:F; [reflexivity|]. exfalso. lia.
  - cbv zeta. destruct ((97 <=? c) && (c <=? 122)) eqn:E2; [destruct (_ <? 10) eqn:F; [exfalso; lia|reflexivity]|].
    destruct ((65 <=? c) && (c <=? 90)) eqn:E3; [destruct (_ <? 10) eqn:F; [exfalso; lia|reflexivity]|]. reflexivity.
Qed.
Lemma digit16 c : digit_value 16 c = hex_digit_value c.
Proof.
  unfold digit_value, hex_digit_value. cbv zeta.
  destruct ((48 <=? c) && (c <=? 57)) eqn:E.
  - destruct (c - 48 <? 16) eqn:F; [reflexivity|exfalso; lia].
  - destruct ((97 <=? c) && (c <=? 122)) eqn:E2.
    + destruct ((65 <=? c) && (c <=? 70)) eqn:E3; [exfalso; lia|].
      destruct ((97 <=? c) && (c <=? 102)) eqn:E4; destruct (_ <? 16) eqn:F; try (exfalso; lia); try reflexivity.
      f_equal. lia.
    + destruct ((97 <=? c) && (c <=? 102)) eqn:E4; [exfalso; lia|].
      destruct ((65 <=? c) && (c <=? 90)) eqn:E3.
      * destruct ((65 <=? c) && (c <=? 70)) eqn:E5; destruct (_ <? 16) eqn:F; try (exfalso; lia); try reflexivity.
        f_equal. lia.
      * destruct ((65 <=? c) && (c <=? 70)) eqn:E5; [exfalso; lia|]. reflexivity.
Qed.
Lemma digit_range (f : Z -> option Z) :
  (f = dec_digit \/ f = hex_digit_value) -> forall c d, f c = Some d -> 0 <= d.
Proof.
  intros [-> | ->] c d H.
  - unfold dec_digit in H. destruct (_ && _) eqn:E; [|discriminate]. injection H as <-. lia.
  - unfold hex_digit_value in H. destruct ((48 <=? c) && _) eqn:E; [injection H as <-; lia|].
    destruct ((65 <=? c) && _) eqn:E2; [injection H as <-; lia|].
    destruct ((97 <=? c) && _) eqn:E3; [injection H as <-; lia|discriminate].
Qed.
Lemma numeral_ge base f l : 1 <= base -> (f = dec_digit \/ f = hex_digit_value) ->
  forall acc b, 0 <= acc -> numeral base f l acc = Some b -> acc <= b.
Proof.
  intros Hb Hf. induction l as [|c l IH]; intros acc b Ha H; cbn [numeral] in H.
  - injection H as <-. lia.
  - destruct (f c) as [d|] eqn:E; [|discriminate]. pose proof (digit_range f Hf c d E).
    assert (acc <= acc * base) by nia. specialize (IH (acc * base + d) b ltac:(lia) H). lia.
Qed.
Lemma digits_numeral base f l : 1 <= base -> (f = dec_digit \/ f = hex_digit_value) ->
  (forall c, digit_value base c = f c) ->
  forall acc b, 0 <= acc -> numeral base f l acc = Some b -> b <= 255 -> parse_digits base acc l = Some b.
Proof.
  intros Hb Hf Hd. induction l as [|c l IH]; intros acc b Ha H Hle; cbn [numeral parse_digits] in *; [exact H|].
  rewrite Hd. destruct (f c) as [d|] eqn:E; [|discriminate]. pose proof (digit_range f Hf c d E).
  assert (0 <= acc * base) by nia.
  pose proof (numeral_ge base f l Hb Hf (acc * base + d) b ltac:(lia) H).
  destruct (acc * base + d <=? 255) eqn:L; [|exfalso; lia]. apply IH; [lia|exact H|exact Hle].
Qed.

Lemma parse_u8_cases radix l : l <> [] -> hd 0 l <> 43 -> hd 0 l <> 45 -> parse_u8 radix l = parse_digits radix 0 l.
Proof.
  intros H1 H2 H3. destruct l as [|c l]; [congruence|]. cbn [hd] in H2, H3. unfold parse_u8.
  repeat (match goal with |- context [match ?z with _ => _ end] => destruct z; try reflexivity; try congruence end).
Qed.
Lemma numeral_head base f c l acc b : numeral base f (c :: l) acc = Some b -> exists d, f c = Some d.
Proof. cbn. destruct (f c) as [d|]; [eauto|discriminate]. Qed.

Definition first_digit (c : Z) : bool := (48 <=? c) && (c <=? 57).
Lemma const_first c r : const_of (c :: r) <> None -> 65 <= c <= 90.
Proof.
  intros H. unfold const_of in H. destruct (find _ const_table) as [[k b]|] eqn:E; [|congruence].
  apply find_some in E. destruct E as [Hin He]. cbn [fst] in He. apply str_eqb_eq in He. subst k.
  cbn in Hin. repeat (destruct Hin as [Hin|Hin]; [injection Hin as <- _; lia|]). destruct Hin.
Qed.
Lemma const_none c r : ~ (65 <= c <= 90) -> const_of (c :: r) = None.
Proof.
  intros H. destruct (const_of (c :: r)) eqn:E; [|reflexivity]. exfalso. apply H.
  apply (const_first c r). congruence.
Qed.

Lemma dec_bytes ds b : ds <> [] -> numeral 10 dec_digit ds 0 = Some b -> b <= 255 -> token_bytes ds = [b].
Proof.
  intros Hn H Hb. destruct ds as [|c ds]; [congruence|].
  destruct (numeral_head _ _ _ _ _ _ H) as [d Hd].
  assert (Hr : 48 <= c <= 57) by (unfold dec_digit in Hd; destruct (_ && _) eqn:E; [lia|discriminate]).
  assert (Hp : parse_u8 10 (c :: ds) = Some b).
  { rewrite parse_u8_cases; [|discriminate|cbn; lia|cbn; lia].
    apply (digits_numeral 10 dec_digit); [lia|now left|exact digit10|lia|exact H|exact Hb]. }
  unfold token_bytes. rewrite const_none by lia.
  destruct (starts_with HEX_PREFIX (c :: ds)) eqn:E.
  - exfalso. cbn in E. apply andb_true_iff in E. destruct E as [E0 E].
    destruct ds as [|x ds]; [discriminate|]. apply andb_true_iff in E. destruct E as [E _]. apply Z.eqb_eq in E. subst x.
    cbn [numeral] in H. rewrite Hd in H. cbv in H. discriminate.
  - cbn [starts_with]. destruct (34 =? c) eqn:E2; [exfalso; lia|]. cbn [andb]. now rewrite Hp.
Qed.

Lemma hex_bytes ds b : ds <> [] -> numeral 16 hex_digit_value ds 0 = Some b -> b <= 255 ->
  token_bytes (chars "0x" ++ ds) = [b].
Proof.
  intros Hn H Hb. unfold token_bytes. cbn [chars app]. rewrite const_none by (cbn; lia).
  change (starts_with HEX_PREFIX _) with true. cbv iota. cbn [skipn].
  destruct ds as [|c ds]; [congruence|].
  destruct (numeral_head _ _ _ _ _ _ H) as [d Hd].
  assert (Hr : 48 <= c <= 102).
  { unfold hex_digit_value in Hd. destruct ((48 <=? c) && _) eqn:E1; [lia|].
    destruct ((65 <=? c) && _) eqn:E2; [lia|]. destruct ((97 <=? c) && _) eqn:E3; [lia|discriminate]. }
  rewrite parse_u8_cases; [|discriminate|cbn; lia|cbn; lia].
  rewrite (digits_numeral 16 hex_digit_value (c :: ds) ltac:(lia) ltac:(now right) digit16 0 b ltac:(lia) H Hb).
  reflexivity.
Qed.

Lemma name_bytes s b : In (s, b) names -> token_bytes (chars s) = [b].
Proof. intros H. cbn in H. repeat (destruct H as [H|H]; [injection H as <- <-; reflexivity|]). destruct H. Qed.

Lemma in_names s b : In (str s, b) const_table -> exists n, In (n, b) names /\ chars n = str s.
Proof.
  intros H. cbn in H.
  repeat (destruct H as [H|H];
    [injection H as He <-;
     match goal with |- exists n, In (n, ?v) _ /\ _ =>
       match eval cbv in (find (fun x => snd x =? v) names) with
       | Some (?n, _) => exists n; split; [cbn; tauto|]; rewrite <- He; reflexivity end end|]).
  destruct H.
Qed.

Lemma word_bytes w : token_ok (TWord w) -> token_bytes w = utf8_encode w.
Proof.
  intros (Hc & Hnames & c & r & -> & Hd & H43 & H39). unfold token_bytes.
  assert (Hco : const_of (c :: r) = None).
  { unfold const_of. destruct (find _ const_table) as [[k b]|] eqn:E; [|reflexivity]. exfalso.
    apply find_some in E. destruct E as [Hin He]. cbn [fst] in He. apply str_eqb_eq in He. subst k.
    cbn in Hin.
    repeat (destruct Hin as [Hin|Hin];
      [injection Hin as <- <- <-;
       match goal with Hn : forall s b, In (s, b) names -> _ |- _ =>
         match goal with
         | _ => eapply (Hn "NUL"%string 0); [cbn; tauto|reflexivity]
         | _ => eapply (Hn "ESC"%string 27); [cbn; tauto|reflexivity]
         | _ => eapply (Hn "HT"%string 9); [cbn; tauto|reflexivity]
         | _ => eapply (Hn "LF"%string 10); [cbn; tauto|reflexivity]
         | _ => eapply (Hn "FF"%string 12); [cbn; tauto|reflexivity]
         | _ => eapply (Hn "CR"%string 13); [cbn; tauto|reflexivity]
         | _ => eapply (Hn "GS"%string 29); [cbn; tauto|reflexivity]
         | _ => eapply (Hn "FS"%string 28); [cbn; tauto|reflexivity]
         | _ => eapply (Hn "DLE"%string 16); [cbn; tauto|reflexivity]
         | _ => eapply (Hn "CAN"%string 24); [cbn; tauto|reflexivity]
         end end|]).
    destruct Hin. }
  rewrite Hco.
  assert (Hnd : ~ (48 <= c <= 57)).
  { intro. unfold dec_digit in Hd. destruct (_ && _) eqn:E; [discriminate|lia]. }
  destruct (starts_with HEX_PREFIX (c :: r)) eqn:E.
  { exfalso. cbn in E. apply andb_true_iff in E. destruct E as [E _]. apply Z.eqb_eq in E. subst c. apply Hnd. lia. }
  cbn [starts_with]. destruct (34 =? c) eqn:E2.
  { exfalso. apply Z.eqb_eq in E2. subst c. destruct (Hc 34 (or_introl eq_refl)) as [_ H]. congruence. }
  cbn [andb].
  assert (Hp : parse_u8 10 (c :: r) = None).
  { destruct (Z.eq_dec c 45) as [->|H45].
    - unfold parse_u8. destruct r; [reflexivity|]. cbn [parse_digits]. reflexivity.
    - rewrite parse_u8_cases; [|discriminate|exact H43|exact H45]. cbn [parse_digits]. rewrite digit10, Hd. reflexivity. }
  rewrite Hp. reflexivity.
Qed.

(** ** A line of tokens *)
Lemma ascii_space_is_space c : is_ascii_whitespace c = true -> is_whitespace c = true.
Proof. unfold is_ascii_whitespace, is_whitespace. intros H. lia. Qed.

Lemma dec_word_char c d : dec_digit c = Some d -> word_char c = true.
Proof. unfold dec_digit, word_char, is_ascii_whitespace. destruct (_ && _) eqn:E; [|discriminate]. intros _. lia. Qed.
Lemma hex_word_char c d : hex_digit_value c = Some d -> word_char c = true.
Proof.
  unfold hex_digit_value, word_char, is_ascii_whitespace.
  destruct ((48 <=? c) && _) eqn:E; [intros _; lia|].
  destruct ((65 <=? c) && _) eqn:E2; [intros _; lia|].
  destruct ((97 <=? c) && _) eqn:E3; [intros _; lia|discriminate].
Qed.
Lemma numeral_all base f l (P : Z -> bool) : (forall c d, f c = Some d -> P c = true) ->
  forall acc b, numeral base f l acc = Some b -> forallb P l = true.
Proof.
  intros Hf. induction l as [|c l IH]; intros acc b H; [reflexivity|]. cbn [numeral] in H.
  destruct (f c) as [d|] eqn:E; [|discriminate]. cbn [forallb]. rewrite (Hf c d E). cbn. eapply IH. exact H.
Qed.

Lemma unquoted_word t : token_ok t -> quoted t = false ->
  forallb word_char (spell_token t) = true /\ spell_token t <> [].
Proof.
  destruct t as [s b|ds b|ds b|t|w]; cbn [token_ok quoted spell_token]; intros H Hq; try discriminate.
  - cbn in H. repeat (destruct H as [H|H]; [injection H as <- _; split; [reflexivity|discriminate]|]). destruct H.
  - destruct H as (Hn & H & _). split; [|discriminate]. cbn [chars app forallb].
    rewrite (numeral_all 16 _ ds word_char hex_word_char 0 b H). reflexivity.
  - destruct H as (Hn & H & _). split; [|exact Hn]. exact (numeral_all 10 _ ds word_char dec_word_char 0 b H).
  - destruct H as (Hc & _ & c & r & -> & _). split; [|discriminate]. apply forallb_forall. intros x Hx.
    destruct (Hc x Hx) as [Hw Hq']. unfold word_char. apply Z.eqb_neq in Hq'. rewrite Hq'.
    destruct (is_ascii_whitespace x) eqn:E; [|reflexivity]. apply ascii_space_is_space in E. congruence.
Qed.
Lemma unquoted_bytes t : token_ok t -> quoted t = false -> token_bytes (spell_token t) = token_meant t.
Proof.
  destruct t as [s b|ds b|ds b|t|w]; cbn [token_ok quoted spell_token token_meant]; intros H Hq; try discriminate.
  - now apply name_bytes.
  - destruct H as (? & ? & ?). now apply hex_bytes.
  - destruct H as (? & ? & ?). now apply dec_bytes.
  - now apply word_bytes.
Qed.

Lemma gap_ascii c : gap_char c = true -> is_ascii_whitespace c = true.
Proof. unfold gap_char, is_ascii_whitespace. lia. Qed.

Lemma pieces_bytes l esc : pieces_ok l ->
  flat_map token_bytes (tokens_from [] false esc (flat_map spell_piece l)) = flat_map piece_meant l.
Proof.
  revert esc. induction l as [|[c|t] l IH]; intros esc H.
  - reflexivity.
  - cbn [pieces_ok] in H. destruct H as [Hc H]. cbn [flat_map spell_piece piece_meant app].
    rewrite tokens_gap by (apply gap_ascii; exact Hc). now apply IH.
  - cbn [pieces_ok] in H. destruct H as (Ht & Hadj & H). cbn [flat_map spell_piece piece_meant].
    destruct (quoted t) eqn:Eq.
    + destruct t; try discriminate. cbn [spell_token token_meant]. cbn [app].
      rewrite <- app_assoc. cbn [app tokens_from]. change (34 =? 34) with true. cbv iota.
      rewrite tokens_escaped. cbn [flat_map app]. rewrite quoted_bytes. f_equal. now apply IH.
    + destruct (unquoted_word t Ht Eq) as [Hw Hn].
      rewrite tokens_word by exact Hw. cbn [app].
      destruct Hadj as [Hadj|Hadj]; [discriminate|].
      destruct l as [|[c|t2] l].
      * cbn [flat_map tokens_from]. destruct (spell_token t) as [|x y] eqn:Es; [congruence|].
        cbn [flat_map]. rewrite <- Es, (unquoted_bytes t Ht Eq). reflexivity.
      * cbn [pieces_ok] in H. destruct H as [Hc H]. cbn [flat_map spell_piece piece_meant app].
        rewrite tokens_word_gap; [|exact Hn|apply gap_ascii; exact Hc].
        cbn [flat_map]. rewrite (unquoted_bytes t Ht Eq). f_equal.
        specialize (IH esc). cbn [pieces_ok flat_map spell_piece piece_meant app] in IH.
        rewrite tokens_gap in IH by (apply gap_ascii; exact Hc). apply IH. now split.
      * destruct Hadj.
Qed.

(** ** Lines *)
Lemma trim_start_blank l : forallb is_whitespace l = true -> trim_start l = [].
Proof. induction l as [|c l IH]; [reflexivity|]. cbn. intros H. apply andb_true_iff in H. destruct H as [-> H]. now apply IH. Qed.
Lemma trim_blank l : forallb is_whitespace l = true -> trim l = [].
Proof. intros H. unfold trim. now rewrite (trim_start_blank l H). Qed.
Lemma trim_start_split l : exists w, l = w ++ trim_start l /\ forallb is_whitespace w = true.
Proof.
  induction l as [|c l (w & Hw & Hb)]; [exists []; split; reflexivity|]. cbn. destruct (is_whitespace c) eqn:E.
  - exists (c :: w). split; [cbn; now f_equal|]. cbn. now rewrite E.
  - exists []. split; reflexivity.
Qed.
Lemma trim_start_nil l : trim_start l = [] -> forallb is_whitespace l = true.
Proof. intros H. destruct (trim_start_split l) as (w & E & Hb). rewrite H, app_nil_r in E. now subst. Qed.
Lemma trim_nil l : trim l = [] -> forallb is_whitespace l = true.
Proof.
  intros H. unfold trim in H. apply (f_equal (@rev Z)) in H. rewrite rev_involutive in H. cbn in H.
  apply trim_start_nil in H. destruct (trim_start_split l) as (w & E & Hb). rewrite E, forallb_app, Hb.
  apply forallb_forall. intros x Hx. apply (proj1 (forallb_forall _ _) H). now apply -> in_rev.
Qed.

Lemma spell_token_visible t : token_ok t -> exists c, In c (spell_token t) /\ is_whitespace c = false.
Proof.
  intros H. destruct t as [s b|ds b|ds b|t|w]; cbn [token_ok spell_token] in *.
  - cbn in H.
    repeat (destruct H as [H|H]; [injection H as <- _; eexists; split; [left; reflexivity|reflexivity]|]). destruct H.
  - exists 48. split; [left; reflexivity|reflexivity].
  - destruct H as (Hn & H & _). destruct ds as [|c ds]; [congruence|].
    destruct (numeral_head _ _ _ _ _ _ H) as [d Hd]. exists c. split; [now left|].
    unfold dec_digit in Hd. destruct (_ && _) eqn:E; [|discriminate]. unfold is_whitespace. lia.
  - exists 34. split; [now left|reflexivity].
  - destruct H as (Hc & _ & c & r & -> & _). exists c. split; [now left|]. now apply (Hc c (or_introl eq_refl)).
Qed.
Lemma pieces_blank l : pieces_ok l -> forallb is_whitespace (flat_map spell_piece l) = true ->
  flat_map piece_meant l = [].
Proof.
  induction l as [|[c|t] l IH]; intros H Hb; [reflexivity| |]; cbn [pieces_ok flat_map spell_piece piece_meant] in *.
  - cbn [app forallb] in Hb. apply andb_true_iff in Hb. apply IH; tauto.
  - exfalso. destruct H as (Ht & _). destruct (spell_token_visible t Ht) as (c & Hi & Hc).
    rewrite forallb_app in Hb. apply andb_true_iff in Hb. destruct Hb as [Hb _].
    rewrite (proj1 (forallb_forall _ _) Hb c Hi) in Hc. discriminate.
Qed.
(** a line of tokens does not look like a comment *)
Lemma pieces_not_comment l : pieces_ok l -> starts_with COMMENT_PREFIX (flat_map spell_piece l) = false.
Proof.
  intros H. destruct (starts_with _ _) eqn:E; [|reflexivity]. exfalso.
  destruct (flat_map spell_piece l) as [|c r] eqn:El; [discriminate|].
  cbn in E. apply andb_true_iff in E. destruct E as [E _]. apply Z.eqb_eq in E. subst c.
  destruct l as [|[c|t] l]; cbn [flat_map spell_piece app pieces_ok] in *; [discriminate| |].
  - injection El as -> _. destruct H as [H _]. discriminate.
  - destruct H as (Ht & _). destruct t as [s b|ds b|ds b|t|w]; cbn [token_ok spell_token] in *.
    + cbn in Ht. repeat (destruct Ht as [Ht|Ht]; [injection Ht as <- _; discriminate|]). destruct Ht.
    + discriminate.
    + destruct Ht as (Hn & H & _). destruct ds as [|c ds]; [congruence|].
      destruct (numeral_head _ _ _ _ _ _ H) as [d Hd]. injection El as -> _. discriminate.
    + discriminate.
    + destruct Ht as (_ & _ & c & r' & -> & _ & _ & H39). injection El as -> _. congruence.
Qed.

Lemma line_bytes_spelled l extra : line_ok l -> extra = [] \/ extra = [13] ->
  line_bytes (spell_line l ++ extra) = line_meant l.
Proof.
  intros H He. assert (Hx : forallb is_whitespace extra = true) by (destruct He as [-> | ->]; reflexivity).
  destruct l as [t|t|l]; cbn [line_ok spell_line line_meant] in *; unfold line_bytes, line_skipped.
  - reflexivity.
  - rewrite trim_blank; [now rewrite orb_true_r|]. rewrite forallb_app, Hx, andb_true_r.
    apply forallb_forall. intros c Hc. now apply H.
  - assert (Hp : pieces_ok (l ++ map Gap extra)).
    { assert (He' : pieces_ok (map Gap extra)) by (destruct He as [-> | ->]; cbn; auto).
      clear -H He' He. induction l as [|[c|t] l IH]; [exact He'| |]; cbn [app pieces_ok] in *.
      - split; [tauto|apply IH; tauto].
      - destruct H as (H1 & H2 & H3). split; [exact H1|]. split; [|now apply IH].
        destruct H2 as [H2|H2]; [now left|]. right. destruct l as [|[?|?] l]; cbn; try exact I; try exact H2.
        destruct He as [-> | ->]; exact I. }
    assert (Es : flat_map spell_piece l ++ extra = flat_map spell_piece (l ++ map Gap extra)).
    { rewrite flat_map_app. f_equal. destruct He as [-> | ->]; reflexivity. }
    assert (Em : flat_map piece_meant (l ++ map Gap extra) = flat_map piece_meant l).
    { rewrite flat_map_app. destruct He as [-> | ->]; cbn; now rewrite app_nil_r. }
    rewrite Es, <- Em. rewrite pieces_not_comment by exact Hp. cbn [orb].
    destruct (trim (flat_map spell_piece (l ++ map Gap extra))) eqn:Et.
    + symmetry. apply pieces_blank; [exact Hp|]. now apply trim_nil.
    + now apply pieces_bytes.
Qed.

(** ** Splitting into lines *)
Lemma lines_from_line cur t r : ~ In 10 t -> lines_from cur (t ++ 10 :: r) = strip_cr (cur ++ t) :: lines_from [] r.
Proof.
  revert cur. induction t as [|c t IH]; intros cur H; cbn [app lines_from].
  - now rewrite app_nil_r.
  - destruct (c =? 10) eqn:E; [exfalso; apply H; left; apply Z.eqb_eq in E; congruence|].
    rewrite IH by (intro; apply H; now right). now rewrite <- app_assoc.
Qed.
Lemma lines_from_last cur t : ~ In 10 t -> lines_from cur t = match cur ++ t with [] => [] | _ => [cur ++ t] end.
Proof.
  revert cur. induction t as [|c t IH]; intros cur H; cbn [lines_from].
  - now rewrite app_nil_r.
  - destruct (c =? 10) eqn:E; [exfalso; apply H; left; apply Z.eqb_eq in E; congruence|].
    rewrite IH by (intro; apply H; now right). now rewrite <- app_assoc.
Qed.
Lemma strip_cr_last t c : strip_cr (t ++ [c]) = if c =? 13 then t else t ++ [c].
Proof.
  unfold strip_cr. rewrite rev_app_distr. cbn [rev app].
  destruct (c =? 13) eqn:E.
  - apply Z.eqb_eq in E. subst c. apply rev_involutive.
  - apply Z.eqb_neq in E. 
    repeat (match goal with |- context [match ?z with _ => _ end] => destruct z; try reflexivity; try congruence end).
Qed.
Lemma strip_cr_cases t : strip_cr t = t \/ exists u, t = u ++ [13] /\ strip_cr t = u.
Proof.
  destruct (rev t) as [|c r] eqn:E.
  - left. unfold strip_cr. now rewrite E.
  - assert (Ht : t = rev r ++ [c]) by (rewrite <- (rev_involutive t), E; reflexivity).
    subst t. rewrite strip_cr_last. destruct (c =? 13) eqn:Ec; [|now left].
    right. apply Z.eqb_eq in Ec. subst c. eauto.
Qed.

(** each line is read on its own *)
Lemma parse_str_line t r : ~ In 10 t -> parse_str (t ++ 10 :: r) = line_bytes (strip_cr t) ++ parse_str r.
Proof. intros H. unfold parse_str, lines. rewrite lines_from_line by exact H. reflexivity. Qed.
Lemma parse_str_last t : ~ In 10 t -> parse_str t = line_bytes t.
Proof.
  intros H. unfold parse_str, lines. rewrite lines_from_last by exact H. cbn [app].
  destruct t; [reflexivity|]. cbn [flat_map]. now rewrite app_nil_r.
Qed.
Lemma in_escape t : In 10 (escape t) -> In 10 t.
Proof.
  unfold escape. rewrite in_flat_map. intros (c & Hc & H). unfold escape1 in H. destruct (_ || _) eqn:E.
  - cbn in H. destruct H as [H|[H|[]]]; [discriminate|]. now subst.
  - cbn in H. destruct H as [H|[]]. now subst.
Qed.
Lemma spell_line_no_lf l : line_ok l -> ~ In 10 (spell_line l).
Proof.
  destruct l as [t|t|l]; cbn [line_ok spell_line]; intros H Hi.
  - cbn in Hi. destruct Hi as [Hi|[Hi|[Hi|Hi]]]; try discriminate. now apply H.
  - destruct (H 10 Hi) as [_ Hn]. congruence.
  - apply in_flat_map in Hi. destruct Hi as (p & Hp & Hi).
    assert (Ht : match p with Gap c => gap_char c = true | Tok t => token_ok t end).
    { clear Hi. induction l as [|q l IH]; [destruct Hp|]. destruct Hp as [->|Hp].
      - destruct p; cbn in H; tauto.
      - apply IH; [|exact Hp]. destruct q; cbn in H; tauto. }
    destruct p as [c|t]; cbn [spell_piece] in Hi.
    + destruct Hi as [Hi|[]]. subst c. discriminate.
    + destruct (quoted t) eqn:Eq.
      * destruct t; try discriminate. cbn [spell_token token_ok] in *.
        apply in_app_or in Hi. destruct Hi as [[Hi|[]]|Hi]; [discriminate|].
        apply in_app_or in Hi. destruct Hi as [Hi|[Hi|[]]]; [|discriminate].
        apply Ht, in_escape, Hi.
      * destruct (unquoted_word t Ht Eq) as [Hw _].
        pose proof (proj1 (forallb_forall _ _) Hw 10 Hi). discriminate.
Qed.

Lemma pieces_ok_app a b : pieces_ok (a ++ b) -> pieces_ok a.
Proof.
  induction a as [|[c|t] a IH]; intros H; [exact I| |]; cbn [app pieces_ok] in *.
  - split; [tauto|apply IH; tauto].
  - destruct H as (H1 & H2 & H3). split; [exact H1|]. split; [|now apply IH].
    destruct H2 as [H2|H2]; [now left|]. right. destruct a as [|[?|?] a]; cbn in *; try exact I. exact H2.
Qed.
Lemma pieces_in p l : pieces_ok l -> In p l -> match p with Gap c => gap_char c = true | Tok t => token_ok t end.
Proof.
  induction l as [|q l IH]; intros H Hp; [destruct Hp|]. destruct Hp as [->|Hp].
  - destruct p; cbn in H; tauto.
  - apply IH; [|exact Hp]. destruct q; cbn in H; tauto.
Qed.
Lemma last_app_inj {A} (a b : list A) x y : a ++ [x] = b ++ [y] -> a = b /\ x = y.
Proof. intros H. apply app_inj_tail in H. exact H. Qed.
Lemma pieces_end_cr ps u : pieces_ok ps -> flat_map spell_piece ps = u ++ [13] ->
  exists ps', ps = ps' ++ [Gap 13] /\ u = flat_map spell_piece ps' /\ pieces_ok ps'.
Proof.
  intros H E. destruct (rev ps) as [|p r] eqn:Er.
  - assert (Hps : ps = []) by (rewrite <- (rev_involutive ps), Er; reflexivity). subst ps. destruct u; discriminate.
  - assert (Hps : ps = rev r ++ [p]) by (rewrite <- (rev_involutive ps), Er; reflexivity). clear Er.
    set (q := rev r) in *. clearbody q. subst ps. assert (Hin : In p (q ++ [p])) by (apply in_or_app; right; now left). pose proof (pieces_in p _ H Hin) as Hp.
    rewrite flat_map_app in E. cbn [flat_map] in E. rewrite app_nil_r in E. destruct p as [c|t]; cbn [spell_piece] in E.
    + apply last_app_inj in E. destruct E as [<- ->]. exists q. split; [reflexivity|]. split; [reflexivity|].
      exact (pieces_ok_app _ _ H).
    + exfalso. destruct (quoted t) eqn:Eq.
      * destruct t; try discriminate. cbn [spell_token] in E. rewrite !app_assoc in E. apply last_app_inj in E.
        destruct E as [_ E]. discriminate.
      * destruct (unquoted_word t Hp Eq) as [Hw Hn]. destruct (rev (spell_token t)) as [|c s] eqn:Es.
        { apply Hn. rewrite <- (rev_involutive (spell_token t)), Es. reflexivity. }
        assert (Ht : spell_token t = rev s ++ [c]) by (rewrite <- (rev_involutive (spell_token t)), Es; reflexivity).
        rewrite Ht, app_assoc in E. apply last_app_inj in E. destruct E as [_ ->].
        assert (Hi : In 13 (spell_token t)) by (rewrite Ht; apply in_or_app; right; now left).
        pose proof (proj1 (forallb_forall _ _) Hw 13 Hi). discriminate.
Qed.

Lemma parse_str_spelled l last : lines_ok l -> line_ok last -> parse_str (spell l last) = meant l last.
Proof.
  intros Hl Hlast. unfold spell, meant. induction Hl as [|[x crlf] l Hx Hl IH].
  - cbn [spell_lines lines_meant flat_map app]. rewrite parse_str_last by (apply spell_line_no_lf; exact Hlast).
    rewrite <- (app_nil_r (spell_line last)). apply line_bytes_spelled; [exact Hlast|now left].
  - unfold spell_lines, lines_meant in *. cbn [flat_map fst snd] in *.
    rewrite <- !app_assoc. pose proof (spell_line_no_lf x Hx) as Hn.
    destruct crlf; cbn [terminator].
    + replace (spell_line x ++ [13; 10] ++ flat_map (fun x0 => spell_line (fst x0) ++ terminator (snd x0)) l ++ spell_line last)
        with ((spell_line x ++ [13]) ++ 10 :: (flat_map (fun x0 => spell_line (fst x0) ++ terminator (snd x0)) l ++ spell_line last))
        by (rewrite <- app_assoc; reflexivity).
      rewrite parse_str_line.
      2:{ intro Hi. apply in_app_or in Hi. destruct Hi as [Hi|[Hi|[]]]; [now apply Hn|discriminate]. }
      rewrite strip_cr_last. change (13 =? 13) with true. cbv iota.
      rewrite IH. f_equal. rewrite <- (app_nil_r (spell_line x)). apply line_bytes_spelled; [exact Hx|now left].
    + cbn [app]. rewrite parse_str_line by exact Hn. rewrite IH. f_equal.
      destruct (strip_cr_cases (spell_line x)) as [->|(u & Eu & ->)].
      * rewrite <- (app_nil_r (spell_line x)). apply line_bytes_spelled; [exact Hx|now left].
      * (* the line itself ends with a carriage return: a blank the reader may drop *)
        destruct x as [t|t|ps]; cbn [spell_line line_meant line_ok] in *.
        { unfold line_bytes, line_skipped.
          assert (Hu : starts_with COMMENT_PREFIX u = true).
          { destruct u as [|a [|b [|c u]]]; cbn [app chars] in Eu; try discriminate.
            injection Eu as <- <- <- _. reflexivity. }
          now rewrite Hu. }
        { unfold line_bytes, line_skipped. rewrite trim_blank; [now rewrite orb_true_r|].
          apply forallb_forall. intros c Hc. apply Hx. rewrite Eu. apply in_or_app. now left. }
        { destruct (pieces_end_cr ps u Hx Eu) as (ps' & -> & -> & Hp).
          rewrite flat_map_app. cbn [flat_map piece_meant app]. rewrite !app_nil_r.
          rewrite <- (app_nil_r (flat_map spell_piece ps')).
          apply (line_bytes_spelled (LTokens ps') []); [exact Hp|now left]. }
Qed.
