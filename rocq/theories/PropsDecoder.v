(** * PropsDecoder: C26 (code pages) and C27 (national sets), and UTF-8 text. *)
From Verif Require Import Base Vec GTypes Utf8 DecoderTables Decoder SpecText.
Local Open Scope Z_scope.

Definition bytes256 : list Z := map Z.of_nat (seq 0 256).

Lemma in_bytes256 : forall b, is_byte b = true -> In b bytes256.
Proof.
  intros b H. unfold is_byte in H. unfold bytes256.
  apply in_map_iff. exists (Z.to_nat b). split; [lia|]. apply in_seq. lia.
Qed.

(** ** Which code tables and languages exist *)
Definition known_tables : list Z := [0; 1; 2; 3; 4; 5; 11; 12; 13].
Definition known_languages : list Z :=
  map Z.of_nat (seq 0 18) ++ [66; 67; 68; 69; 70; 71; 72; 73; 74; 75; 82].
Definition or_zero (known : list Z) (n : Z) : Z := if mem_byte n known then n else 0.

Lemma table_norm : forall ct, get_codepage_table ct = get_codepage_table (or_zero known_tables ct).
Proof.
  intro ct. unfold or_zero. destruct (mem_byte ct known_tables) eqn:E; [reflexivity|].
  unfold get_codepage_table at 1.
  destruct ct as [|p|p]; [reflexivity| |reflexivity].
  do 5 (try (destruct p as [p|p|]; try reflexivity; try discriminate E)).
Qed.
Lemma lang_norm : forall n, get_language_replacements n = get_language_replacements (or_zero known_languages n).
Proof.
  intro n. unfold or_zero. destruct (mem_byte n known_languages) eqn:E; [reflexivity|].
  unfold get_language_replacements at 1.
  destruct n as [|p|p]; [reflexivity| |reflexivity].
  do 8 (try (destruct p as [p|p|]; try reflexivity; try discriminate E)).
Qed.

Lemma or_zero_in : forall known n, In 0 known -> In (or_zero known n) known.
Proof.
  intros known n H0. unfold or_zero. destruct (mem_byte n known) eqn:E; [|exact H0].
  unfold mem_byte in E. apply existsb_exists in E. destruct E as [x [Hx Hn]].
  apply Z.eqb_eq in Hn. subst. exact Hx.
Qed.

(** Unknown code tables behave as table 0 (PC437), unknown national sets as 0 (USA). *)
Theorem C26_unknown_selection_falls_back : forall ct lang,
  get_codepage ct lang = get_codepage (or_zero known_tables ct) (or_zero known_languages lang).
Proof. intros. unfold get_codepage. rewrite (table_norm ct), (lang_norm lang). reflexivity. Qed.

(** Finite reflection: a property of tables checked on the known selections holds for all. *)
Definition check_all (P : Z -> Z -> codepage -> bool) : bool :=
  forallb (fun ct => forallb (fun lang => P ct lang (get_codepage ct lang)) known_languages) known_tables.
Lemma check_all_spec : forall P, check_all P = true -> forall ct lang,
  P (or_zero known_tables ct) (or_zero known_languages lang) (get_codepage ct lang) = true.
Proof.
  intros P H ct lang. rewrite C26_unknown_selection_falls_back.
  unfold check_all in H. rewrite forallb_forall in H.
  specialize (H _ (or_zero_in known_tables ct (or_introl eq_refl))). cbv beta in H.
  rewrite forallb_forall in H. apply H. apply or_zero_in. vm_compute. left. reflexivity.
Qed.

Lemma cp_not_utf8 : forall ct lang, cp_utf8 (get_codepage ct lang) = false.
Proof. reflexivity. Qed.

(** ** C26 *)

(** Decoding works byte by byte: no state, no look-ahead. *)
Theorem C26_bytewise : forall ct lang a b,
  decode_utf8 (get_codepage ct lang) (a ++ b) =
  decode_utf8 (get_codepage ct lang) a ++ decode_utf8 (get_codepage ct lang) b.
Proof. intros. unfold decode_utf8. rewrite cp_not_utf8. apply flat_map_app. Qed.

(** The bytes that have no character in the pages 851, 853 and 857 as this crate defines them. *)
Definition unassigned (ct : Z) : list Z :=
  match ct with
  | 11 => [145]
  | 12 => [170; 208; 209; 221; 241; 251]
  | 13 => [231; 242]
  | _ => []
  end.
Lemma unassigned_norm : forall ct, unassigned (or_zero known_tables ct) = unassigned ct.
Proof.
  intro ct. unfold or_zero. destruct (mem_byte ct known_tables) eqn:E; [reflexivity|].
  unfold unassigned at 2.
  destruct ct as [|p|p]; [reflexivity| |reflexivity].
  do 5 (try (destruct p as [p|p|]; try reflexivity; try discriminate E)).
Qed.

Lemma one_char_check : check_all (fun ct lang cp =>
  forallb (fun b => Nat.eqb (length (at_ [] (cp_table cp) b)) (if mem_byte b (unassigned ct) then 0 else 1)) bytes256)
  = true.
Proof. vm_compute. reflexivity. Qed.

Lemma decode_one : forall ct lang b, is_byte b = true ->
  length (decode_utf8 (get_codepage ct lang) [b]) = (if mem_byte b (unassigned ct) then 0%nat else 1%nat).
Proof.
  intros ct lang b H.
  pose proof (check_all_spec _ one_char_check ct lang) as Hc. cbv beta in Hc.
  rewrite forallb_forall in Hc. specialize (Hc b (in_bytes256 b H)).
  apply Nat.eqb_eq in Hc. rewrite unassigned_norm in Hc.
  unfold decode_utf8. rewrite cp_not_utf8. cbn [flat_map]. rewrite app_nil_r. exact Hc.
Qed.

(** Every byte gives exactly one character, except the listed unassigned bytes, which give none. *)
Theorem C26_one_char_per_byte : forall ct lang bytes, bytes_ok bytes = true ->
  length (decode_utf8 (get_codepage ct lang) bytes) =
  length (filter (fun b => negb (mem_byte b (unassigned ct))) bytes).
Proof.
  intros ct lang bytes. induction bytes as [|b r IH]; intros H; [reflexivity|].
  cbn in H. apply andb_true_iff in H. destruct H as [Hb Hr].
  change (b :: r) with ([b] ++ r) at 1. rewrite C26_bytewise, app_length, IH by exact Hr.
  rewrite decode_one by exact Hb. cbn [filter].
  destruct (mem_byte b (unassigned ct)); reflexivity.
Qed.

(** Pages 437, Katakana, 850, 860, 863, 865 (and any unknown table): length is preserved exactly. *)
Theorem C26_length_preserved : forall ct lang bytes, bytes_ok bytes = true ->
  ct <> 11 -> ct <> 12 -> ct <> 13 ->
  length (decode_utf8 (get_codepage ct lang) bytes) = length bytes.
Proof.
  intros ct lang bytes H n1 n2 n3. rewrite C26_one_char_per_byte by exact H. f_equal.
  assert (U : unassigned ct = []).
  { rewrite <- unassigned_norm. unfold or_zero. destruct (mem_byte ct known_tables) eqn:E; [|reflexivity].
    unfold mem_byte in E. apply existsb_exists in E. destruct E as [x [Hx Hn]].
    apply Z.eqb_eq in Hn. subst x. cbn in Hx.
    repeat (destruct Hx as [Hx|Hx]; [subst ct; first [reflexivity | exfalso; lia]|]). contradiction. }
  rewrite U. clear. induction bytes; cbn; [reflexivity|f_equal; exact IHbytes].
Qed.

Lemma flat_map_single : forall (f : Z -> list Z) l, (forall b, In b l -> f b = [b]) -> flat_map f l = l.
Proof.
  intros f l. induction l as [|b r IH]; intros H; [reflexivity|]. cbn.
  rewrite (H b (or_introl eq_refl)). cbn. f_equal. apply IH. intros. apply H. right. assumption.
Qed.

Lemma ascii_check : forallb (fun ct =>
    forallb (fun b => match at_ [] (cp_table (get_codepage ct 0)) b with [c] => c =? b | _ => false end)
      (firstn 128 bytes256)) known_tables = true.
Proof. vm_compute. reflexivity. Qed.

(** ASCII text is itself in every code page (with the USA set selected). *)
Theorem C26_ascii : forall ct bytes, Forall (fun b => 0 <= b < 128) bytes ->
  decode_utf8 (get_codepage ct 0) bytes = bytes.
Proof.
  intros ct bytes H. unfold decode_utf8. rewrite cp_not_utf8.
  apply flat_map_single. intros b Hb.
  rewrite Forall_forall in H. specialize (H b Hb).
  rewrite C26_unknown_selection_falls_back.
  pose proof ascii_check as Hc. rewrite forallb_forall in Hc.
  specialize (Hc _ (or_zero_in known_tables ct (or_introl eq_refl))). cbv beta in Hc.
  rewrite forallb_forall in Hc. specialize (Hc b).
  change (or_zero known_languages 0) with 0.
  destruct (at_ [] (cp_table (get_codepage (or_zero known_tables ct) 0)) b) as [|c [|]];
    (assert (Hin : In b (firstn 128 bytes256));
     [ change (firstn 128 bytes256) with (map Z.of_nat (seq 0 128)); apply in_map_iff; exists (Z.to_nat b);
       split; [lia|apply in_seq; lia] | specialize (Hc Hin)]); try discriminate.
  f_equal. lia.
Qed.

(** Agreement with the published page, up to an explicit list of wrong bytes. *)
Definition agrees (ct : Z) (page : list Z) (wrong : list Z) : Prop :=
  forall b, is_byte b = true ->
    (decode_utf8 (get_codepage ct 0) [b] = [std_char page b] <-> ~ In b wrong).
Definition agreesb (ct : Z) (page : list Z) (wrong : list Z) : bool :=
  forallb (fun b => Bool.eqb (match decode_utf8 (get_codepage ct 0) [b] with [c] => c =? std_char page b | _ => false end)
                             (negb (mem_byte b wrong))) bytes256.
Lemma mem_byte_In : forall b l, mem_byte b l = true <-> In b l.
Proof.
  intros. unfold mem_byte. rewrite existsb_exists. split.
  - intros [x [Hx He]]. apply Z.eqb_eq in He. subst. exact Hx.
  - intro H. exists b. split; [exact H|apply Z.eqb_refl].
Qed.
Lemma agreesb_ok : forall ct page wrong, agreesb ct page wrong = true -> agrees ct page wrong.
Proof.
  intros ct page wrong H b Hb. unfold agreesb in H. rewrite forallb_forall in H.
  specialize (H b (in_bytes256 b Hb)). apply Bool.eqb_prop in H.
  rewrite <- mem_byte_In.
  destruct (mem_byte b wrong); cbn in H;
    destruct (decode_utf8 (get_codepage ct 0) [b]) as [|c [|]] eqn:E; try discriminate.
  - split; intro X; [discriminate|exfalso; apply X; reflexivity].
  - split; intro X; [injection X as X; lia|exfalso; apply X; reflexivity].
  - split; intro X; [discriminate|exfalso; apply X; reflexivity].
  - split; intro X; [discriminate|f_equal; lia].
Qed.

Theorem C26_pages_437_860_863_exact :
  agrees 0 std_cp437 [] /\ agrees 3 std_cp860 [] /\ agrees 4 std_cp863 [].
Proof. split; [|split]; apply agreesb_ok; vm_compute; reflexivity. Qed.

(** PC850 is wrong at 0xBD (should be the cent sign), 0xBE (yen) and 0xF0 (soft hyphen). *)
Theorem C26_page_850_refuted : agrees 2 std_cp850 [189; 190; 240].
Proof. apply agreesb_ok. vm_compute. reflexivity. Qed.
(** PC865 is wrong at eight bytes. *)
Theorem C26_page_865_refuted : agrees 5 std_cp865 [158; 169; 181; 182; 183; 184; 189; 190].
Proof. apply agreesb_ok. vm_compute. reflexivity. Qed.
(** PC857: 0xD5 is the euro sign here; 0xE7 and 0xF2 are unassigned in both. *)
Theorem C26_page_857_but_three : agrees 13 std_cp857 [213; 231; 242].
Proof. apply agreesb_ok. vm_compute. reflexivity. Qed.

(** Katakana: bytes 0xA1..0xDF are the JIS X 0201 half-width katakana. *)
Theorem C26_katakana : forall b lang, 161 <= b <= 223 ->
  decode_utf8 (get_codepage 1 lang) [b] = [65377 + (b - 161)].
Proof.
  assert (C : forallb (fun lang => forallb (fun b =>
     match decode_utf8 (get_codepage 1 lang) [b] with [c] => c =? 65377 + (b - 161) | _ => false end)
     (map Z.of_nat (seq 161 63))) known_languages = true) by (vm_compute; reflexivity).
  intros b lang Hb. rewrite C26_unknown_selection_falls_back.
  change (or_zero known_tables 1) with 1.
  rewrite forallb_forall in C.
  assert (H0 : In 0 known_languages) by (vm_compute; left; reflexivity).
  specialize (C _ (or_zero_in known_languages lang H0)). cbv beta in C.
  rewrite forallb_forall in C. specialize (C b).
  assert (Hin : In b (map Z.of_nat (seq 161 63))).
  { apply in_map_iff. exists (Z.to_nat b). split; [lia|apply in_seq; lia]. }
  specialize (C Hin).
  destruct (decode_utf8 (get_codepage 1 (or_zero known_languages lang)) [b]) as [|c [|]]; try discriminate.
  f_equal. lia.
Qed.

(** ** C27: national sets *)

(** A set changes only bytes of the ASCII half, and only the positions ESC R is documented to
    change (# $ @ [ \ ] ^ ` { | } ~), '*' for Arabia, or the digits for the Indian sets. *)
Definition national_positions (lang : Z) : list Z :=
  if 66 <=? lang then map Z.of_nat (seq 48 10)
  else if lang =? 17 then [42]
  else [35; 36; 64; 91; 92; 93; 94; 96; 123; 124; 125; 126].

Definition eq_ustring (a b : ustring) : bool := if list_eq_dec Z.eq_dec a b then true else false.
Lemma eq_ustring_ok : forall a b, eq_ustring a b = true -> a = b.
Proof. intros a b. unfold eq_ustring. destruct (list_eq_dec Z.eq_dec a b); [auto|discriminate]. Qed.

Lemma national_check : check_all (fun ct lang cp =>
  forallb (fun b => mem_byte b (if lang =? 0 then [] else national_positions lang)
                    || eq_ustring (at_ [] (cp_table cp) b) (at_ [] (cp_table (get_codepage ct 0)) b)) bytes256) = true.
Proof. vm_compute. reflexivity. Qed.

Theorem C27_only_listed_positions_change : forall ct lang b, is_byte b = true ->
  ~ In b (national_positions lang) ->
  decode_utf8 (get_codepage ct lang) [b] = decode_utf8 (get_codepage ct 0) [b].
Proof.
  intros ct lang b Hb Hn.
  unfold decode_utf8. rewrite !cp_not_utf8. cbn [flat_map]. f_equal.
  pose proof (check_all_spec _ national_check ct lang) as Hc. cbv beta in Hc.
  rewrite forallb_forall in Hc. specialize (Hc b (in_bytes256 b Hb)).
  apply orb_true_iff in Hc. destruct Hc as [Hc|Hc].
  - exfalso. destruct (Z.eqb_spec (or_zero known_languages lang) 0) as [E|E]; [discriminate|].
    assert (or_zero known_languages lang = lang).
    { unfold or_zero in *. destruct (mem_byte lang known_languages); [reflexivity|congruence]. }
    apply Hn. apply mem_byte_In. congruence.
  - apply eq_ustring_ok in Hc. rewrite Hc.
    rewrite (C26_unknown_selection_falls_back ct 0). reflexivity.
Qed.

(** In particular bytes above 0x7F never depend on the national set. *)
Theorem C27_high_half_untouched : forall ct lang bytes, Forall (fun b => 128 <= b <= 255) bytes ->
  decode_utf8 (get_codepage ct lang) bytes = decode_utf8 (get_codepage ct 0) bytes.
Proof.
  intros ct lang bytes. induction bytes as [|b r IH]; intros H; [reflexivity|].
  apply Forall_cons_iff in H. destruct H as [Hb Hr].
  change (b :: r) with ([b] ++ r). rewrite !C26_bytewise, IH by exact Hr. f_equal.
  apply C27_only_listed_positions_change; [unfold is_byte; lia|].
  intro Hin. apply mem_byte_In in Hin. unfold national_positions in Hin.
  destruct (66 <=? lang); [|destruct (lang =? 17)];
    apply mem_byte_In in Hin; cbn in Hin;
    repeat (destruct Hin as [Hin|Hin]; [lia|]); exact Hin.
Qed.

(** The Indian sets map the ASCII digits onto the digits of the script, in order. *)
Definition digit_zero (lang : Z) : option Z :=
  match lang with
  | 66 => Some 2406 (* U+0966 Devanagari *) | 67 => Some 2534 (* U+09E6 Bengali *)
  | 68 => Some 3046 (* U+0BE6 Tamil *)      | 69 => Some 3174 (* U+0C66 Telugu *)
  | 70 => Some 2534 (* Assamese *)          | 71 => Some 2918 (* U+0B66 Oriya *)
  | 72 => Some 3302 (* U+0CE6 Kannada *)    | 73 => Some 3430 (* U+0D66 Malayalam *)
  | 74 => Some 2790 (* U+0AE6 Gujarati *)   | 75 => Some 2662 (* U+0A66 Gurmukhi *)
  | 82 => Some 2406 (* Marathi *)           | _ => None
  end.
Lemma digits_check : check_all (fun ct lang cp =>
  match digit_zero lang with
  | None => true
  | Some z => forallb (fun d => eq_ustring (at_ [] (cp_table cp) (48 + d)) [z + d]) (map Z.of_nat (seq 0 10))
  end) = true.
Proof. vm_compute. reflexivity. Qed.
Theorem C27_indian_digits : forall ct lang z d, digit_zero lang = Some z -> 0 <= d <= 9 ->
  decode_utf8 (get_codepage ct lang) [48 + d] = [z + d].
Proof.
  intros ct lang z d Hz Hd.
  pose proof (check_all_spec _ digits_check ct lang) as Hc. cbv beta in Hc.
  assert (Hl : or_zero known_languages lang = lang).
  { unfold or_zero. destruct (mem_byte lang known_languages) eqn:E; [reflexivity|].
    exfalso. unfold digit_zero in Hz.
    destruct lang as [|p|p]; try discriminate.
    do 8 (try (destruct p as [p|p|]; try discriminate Hz; try discriminate E)). }
  rewrite Hl, Hz in Hc. rewrite forallb_forall in Hc.
  specialize (Hc d). assert (Hin : In d (map Z.of_nat (seq 0 10))).
  { apply in_map_iff. exists (Z.to_nat d). split; [lia|apply in_seq; lia]. }
  specialize (Hc Hin). apply eq_ustring_ok in Hc.
  unfold decode_utf8. rewrite cp_not_utf8. cbn [flat_map]. rewrite app_nil_r. exact Hc.
Qed.

(** Which (set, byte) pairs of sets 0..10 differ from the documented national set: USA, UK and
    Denmark II are exact; Germany, France, Italy, Spain ... are not. *)
Definition wrong_nationals : list (Z * Z) :=
  [(1, 91); (1, 92); (1, 93); (1, 94); (1, 96); (1, 123); (1, 124); (1, 125); (1, 126);
   (2, 96); (2, 123); (2, 124); (2, 125); (2, 126);
   (4, 64); (4, 96); (5, 36);
   (6, 64); (6, 91); (6, 92); (6, 93); (6, 94); (6, 96); (6, 123); (6, 124);
   (7, 35); (7, 64); (7, 92); (7, 93); (7, 123); (7, 124); (7, 125); (7, 126);
   (8, 124); (9, 36); (9, 64); (9, 96)].
Definition wrong_at (lang b : Z) : bool := existsb (fun p => (fst p =? lang) && (snd p =? b)) wrong_nationals.
Lemma nationals_check : check_all (fun ct lang cp =>
  (10 <? lang) ||
  forallb (fun b => Bool.eqb (eq_ustring (at_ [] (cp_table cp) b) [std_national_char lang b]) (negb (wrong_at lang b)))
    (map Z.of_nat (seq 0 128))) = true.
Proof. vm_compute. reflexivity. Qed.
Theorem C27_national_sets_refuted : forall ct lang b, 0 <= lang <= 10 -> 0 <= b < 128 ->
  (decode_utf8 (get_codepage ct lang) [b] = [std_national_char lang b] <-> ~ In (lang, b) wrong_nationals).
Proof.
  intros ct lang b Hl Hb.
  pose proof (check_all_spec _ nationals_check ct lang) as Hc. cbv beta in Hc.
  assert (Hk : or_zero known_languages lang = lang).
  { unfold or_zero. replace (mem_byte lang known_languages) with true; [reflexivity|].
    symmetry. apply mem_byte_In. unfold known_languages. apply in_or_app. left.
    apply in_map_iff. exists (Z.to_nat lang). split; [lia|apply in_seq; lia]. }
  rewrite Hk in Hc. destruct (10 <? lang) eqn:E; [lia|]. cbn [orb] in Hc.
  rewrite forallb_forall in Hc. specialize (Hc b).
  assert (Hin : In b (map Z.of_nat (seq 0 128))).
  { apply in_map_iff. exists (Z.to_nat b). split; [lia|apply in_seq; lia]. }
  specialize (Hc Hin). apply Bool.eqb_prop in Hc.
  assert (W : In (lang, b) wrong_nationals <-> wrong_at lang b = true).
  { unfold wrong_at. rewrite existsb_exists. split.
    - intro H. exists (lang, b). cbn. rewrite !Z.eqb_refl. auto.
    - intros [[x y] [H1 H2]]. cbn in H2. replace lang with x by lia. replace b with y by lia. exact H1. }
  rewrite W.
  unfold decode_utf8. rewrite cp_not_utf8. cbn [flat_map]. rewrite app_nil_r.
  unfold eq_ustring in Hc.
  destruct (list_eq_dec Z.eq_dec (at_ [] (cp_table (get_codepage ct lang)) b) [std_national_char lang b]) as [e|e];
    destruct (wrong_at lang b); cbn in Hc; try discriminate.
  - rewrite e. split; [intros _ X; discriminate|reflexivity].
  - split; [intro X; contradiction|intro X; exfalso; apply X; reflexivity].
Qed.

(** ** UTF-8 text (code table 255) *)

Ltac utf8_tests :=
  unfold is_scalar, lead2, lead3, lead4, second3, second4, is_cont, ucp2, ucp3, ucp4 in *.

Lemma bytes2 : forall c, 128 <= c < 2048 ->
  (192 + c / 64 <? 128) = false /\ lead2 (192 + c / 64) = true /\ is_cont (128 + c mod 64) = true /\
  ucp2 (192 + c / 64) (128 + c mod 64) = c.
Proof. intros c H. utf8_tests. repeat split; lia. Qed.
Lemma bytes3 : forall c, 2048 <= c < 65536 -> is_scalar c = true ->
  (224 + c / 4096 <? 128) = false /\ lead2 (224 + c / 4096) = false /\ lead3 (224 + c / 4096) = true /\
  second3 (224 + c / 4096) (128 + (c / 64) mod 64) = true /\ is_cont (128 + c mod 64) = true /\
  ucp3 (224 + c / 4096) (128 + (c / 64) mod 64) (128 + c mod 64) = c.
Proof.
  intros c H Hs. utf8_tests.
  repeat split; repeat match goal with |- context [if ?b then _ else _] => destruct b eqn:? end; lia.
Qed.
Lemma bytes4 : forall c, 65536 <= c -> is_scalar c = true ->
  (240 + c / 262144 <? 128) = false /\ lead2 (240 + c / 262144) = false /\ lead3 (240 + c / 262144) = false /\
  lead4 (240 + c / 262144) = true /\
  second4 (240 + c / 262144) (128 + (c / 4096) mod 64) = true /\ is_cont (128 + (c / 64) mod 64) = true /\
  is_cont (128 + c mod 64) = true /\
  ucp4 (240 + c / 262144) (128 + (c / 4096) mod 64) (128 + (c / 64) mod 64) (128 + c mod 64) = c.
Proof.
  intros c H Hs. utf8_tests.
  repeat split; repeat match goal with |- context [if ?b then _ else _] => destruct b eqn:? end; lia.
Qed.

Lemma lossy_step : forall c r, is_scalar c = true ->
  from_utf8_lossy (utf8_encode1 c ++ r) = c :: from_utf8_lossy r.
Proof.
  intros c r H. unfold utf8_encode1.
  destruct (c <? 128) eqn:E1; [cbn [app from_utf8_lossy]; rewrite E1; reflexivity|].
  destruct (c <? 2048) eqn:E2; [|destruct (c <? 65536) eqn:E3]; cbn [app from_utf8_lossy].
  - rewrite (proj1 (bytes2 c ltac:(lia))), (proj1 (proj2 (bytes2 c ltac:(lia)))),
      (proj1 (proj2 (proj2 (bytes2 c ltac:(lia))))), (proj2 (proj2 (proj2 (bytes2 c ltac:(lia))))).
    reflexivity.
  - destruct (bytes3 c ltac:(lia) H) as (A & B & C & D & E & F). rewrite A, B, C, D, E, F.
    reflexivity.
  - destruct (bytes4 c ltac:(lia) H) as (A & B & C & D & E & F & G & I). rewrite A, B, C, D, E, F, G, I.
    reflexivity.
Qed.

(** Text sent as UTF-8 is decoded to exactly the characters that were encoded. *)
Theorem C26_utf8_roundtrip : forall cp s, cp_utf8 cp = true -> forallb is_scalar s = true ->
  decode_utf8 cp (utf8_encode s) = s.
Proof.
  intros cp s Hu. unfold decode_utf8. rewrite Hu.
  induction s as [|c r IH]; intros H; [reflexivity|].
  cbn in H. apply andb_true_iff in H. destruct H as [Hc Hr].
  change (utf8_encode (c :: r)) with (utf8_encode1 c ++ utf8_encode r).
  rewrite lossy_step by exact Hc. f_equal. exact (IH Hr).
Qed.

Lemma strict_step : forall c r, is_scalar c = true ->
  from_utf8 (utf8_encode1 c ++ r) = match from_utf8 r with Some s => Some (c :: s) | None => None end.
Proof.
  intros c r H. unfold utf8_encode1.
  destruct (c <? 128) eqn:E1; [cbn [app from_utf8]; rewrite E1; reflexivity|].
  destruct (c <? 2048) eqn:E2; [|destruct (c <? 65536) eqn:E3]; cbn [app from_utf8].
  - rewrite (proj1 (bytes2 c ltac:(lia))), (proj1 (proj2 (bytes2 c ltac:(lia)))),
      (proj1 (proj2 (proj2 (bytes2 c ltac:(lia))))), (proj2 (proj2 (proj2 (bytes2 c ltac:(lia))))).
    cbn [andb]. reflexivity.
  - destruct (bytes3 c ltac:(lia) H) as (A & B & C & D & E & F). rewrite A, B, C, D, E, F.
    cbn [andb]. reflexivity.
  - destruct (bytes4 c ltac:(lia) H) as (A & B & C & D & E & F & G & I). rewrite A, B, C, D, E, F, G, I.
    cbn [andb]. reflexivity.
Qed.

Lemma encode2 : forall b c, lead2 b = true -> is_cont c = true ->
  is_scalar (ucp2 b c) = true /\ utf8_encode1 (ucp2 b c) = [b; c].
Proof.
  intros b c Hb Hc. utf8_tests. split; [lia|]. unfold utf8_encode1.
  replace ((b - 192) * 64 + (c - 128) <? 128) with false by lia.
  replace ((b - 192) * 64 + (c - 128) <? 2048) with true by lia.
  f_equal; [lia|f_equal; lia].
Qed.
Lemma encode3 : forall b c d, lead3 b = true -> second3 b c = true -> is_cont d = true ->
  is_scalar (ucp3 b c d) = true /\ utf8_encode1 (ucp3 b c d) = [b; c; d].
Proof.
  intros b c d Hb Hc Hd. utf8_tests.
  assert (Hc' : 128 <= c <= 191 /\ (b = 224 -> 160 <= c) /\ (b = 237 -> c <= 159)).
  { destruct (b =? 224) eqn:?; [|destruct (b =? 237) eqn:?]; lia. }
  clear Hc. rename Hc' into Hc. split; [lia|]. unfold utf8_encode1.
  replace ((b - 224) * 4096 + (c - 128) * 64 + (d - 128) <? 128) with false by lia.
  replace ((b - 224) * 4096 + (c - 128) * 64 + (d - 128) <? 2048) with false by lia.
  replace ((b - 224) * 4096 + (c - 128) * 64 + (d - 128) <? 65536) with true by lia.
  assert (0 <= c - 128 < 64) by lia.
  clear Hc. f_equal; [lia|f_equal; [lia|f_equal; lia]].
Qed.
Lemma encode4 : forall b c d e, lead4 b = true -> second4 b c = true -> is_cont d = true -> is_cont e = true ->
  is_scalar (ucp4 b c d e) = true /\ utf8_encode1 (ucp4 b c d e) = [b; c; d; e].
Proof.
  intros b c d e Hb Hc Hd He. utf8_tests.
  assert (Hc' : 128 <= c <= 191 /\ (b = 240 -> 144 <= c) /\ (b = 244 -> c <= 143)).
  { destruct (b =? 240) eqn:?; [|destruct (b =? 244) eqn:?]; lia. }
  clear Hc. rename Hc' into Hc. split; [lia|]. unfold utf8_encode1.
  replace ((b - 240) * 262144 + (c - 128) * 4096 + (d - 128) * 64 + (e - 128) <? 128) with false by lia.
  replace ((b - 240) * 262144 + (c - 128) * 4096 + (d - 128) * 64 + (e - 128) <? 2048) with false by lia.
  replace ((b - 240) * 262144 + (c - 128) * 4096 + (d - 128) * 64 + (e - 128) <? 65536) with false by lia.
  assert (0 <= c - 128 < 64) by lia.
  clear Hc. f_equal; [lia|f_equal; [lia|f_equal; [lia|f_equal; lia]]].
Qed.

Lemma strict_sound : forall n l s, (length l <= n)%nat -> bytes_ok l = true -> from_utf8 l = Some s ->
  forallb is_scalar s = true /\ utf8_encode s = l.
Proof.
  induction n as [|n IH]; intros l s Hn Hl H.
  - destruct l; [|cbn in Hn; lia]. cbn in H. injection H as <-. split; reflexivity.
  - destruct l as [|b r1]; [cbn in H; injection H as <-; split; reflexivity|].
    cbn in Hl. apply andb_true_iff in Hl. destruct Hl as [Hb Hr]. cbn in Hn.
    cbn [from_utf8] in H.
    destruct (b <? 128) eqn:E0.
    { destruct (from_utf8 r1) as [t|] eqn:Er; [|discriminate]. injection H as <-.
      destruct (IH r1 t ltac:(lia) Hr Er) as [A B]. split.
      - cbn. rewrite A. unfold is_scalar, is_byte in *. lia.
      - cbn. unfold utf8_encode1. rewrite E0. cbn. f_equal. exact B. }
    destruct (lead2 b) eqn:E2.
    { destruct r1 as [|c r2]; [discriminate|]. destruct (is_cont c) eqn:Ec; [|discriminate].
      destruct (from_utf8 r2) as [t|] eqn:Er; [|discriminate]. injection H as <-.
      cbn in Hr. apply andb_true_iff in Hr. destruct Hr as [_ Hr]. cbn in Hn.
      destruct (IH r2 t ltac:(lia) Hr Er) as [A B].
      destruct (encode2 b c E2 Ec) as [P Q]. split.
      - cbn [forallb]. rewrite A, P. reflexivity.
      - change (utf8_encode (ucp2 b c :: t)) with (utf8_encode1 (ucp2 b c) ++ utf8_encode t).
        rewrite Q, B. reflexivity. }
    destruct (lead3 b) eqn:E3.
    { destruct r1 as [|c [|d r3]]; try discriminate.
      destruct (second3 b c) eqn:Ec; [|discriminate]. destruct (is_cont d) eqn:Ed; [|discriminate].
      cbn [andb] in H.
      destruct (from_utf8 r3) as [t|] eqn:Er; [|discriminate]. injection H as <-.
      cbn in Hr. apply andb_true_iff in Hr. destruct Hr as [_ Hr]. apply andb_true_iff in Hr. destruct Hr as [_ Hr].
      cbn in Hn.
      destruct (IH r3 t ltac:(lia) Hr Er) as [A B].
      destruct (encode3 b c d E3 Ec Ed) as [P Q]. split.
      - cbn [forallb]. rewrite A, P. reflexivity.
      - change (utf8_encode (ucp3 b c d :: t)) with (utf8_encode1 (ucp3 b c d) ++ utf8_encode t).
        rewrite Q, B. reflexivity. }
    destruct (lead4 b) eqn:E4; [|discriminate].
    { destruct r1 as [|c [|d [|e r4]]]; try discriminate.
      destruct (second4 b c) eqn:Ec; [|discriminate]. destruct (is_cont d) eqn:Ed; [|discriminate].
      destruct (is_cont e) eqn:Ee; [|discriminate].
      cbn [andb] in H.
      destruct (from_utf8 r4) as [t|] eqn:Er; [|discriminate]. injection H as <-.
      cbn in Hr. apply andb_true_iff in Hr. destruct Hr as [_ Hr]. apply andb_true_iff in Hr. destruct Hr as [_ Hr].
      apply andb_true_iff in Hr. destruct Hr as [_ Hr]. cbn in Hn.
      destruct (IH r4 t ltac:(lia) Hr Er) as [A B].
      destruct (encode4 b c d e E4 Ec Ed Ee) as [P Q]. split.
      - cbn [forallb]. rewrite A, P. reflexivity.
      - change (utf8_encode (ucp4 b c d e :: t)) with (utf8_encode1 (ucp4 b c d e) ++ utf8_encode t).
        rewrite Q, B. reflexivity. }
Qed.

(** The strict decoder accepts exactly the encodings of scalar-value strings. *)
Theorem C26_utf8_strict_iff : forall l s, bytes_ok l = true ->
  (from_utf8 l = Some s <-> forallb is_scalar s = true /\ utf8_encode s = l).
Proof.
  intros l s Hl. split.
  - intro H. exact (strict_sound (length l) l s (Nat.le_refl _) Hl H).
  - intros [Hs <-]. clear Hl. induction s as [|c r IH]; [reflexivity|].
    cbn in Hs. apply andb_true_iff in Hs. destruct Hs as [Hc Hr].
    change (utf8_encode (c :: r)) with (utf8_encode1 c ++ utf8_encode r).
    rewrite strict_step by exact Hc. rewrite (IH Hr). reflexivity.
Qed.

Lemma lossy_total_aux : forall n l, (length l <= n)%nat -> bytes_ok l = true ->
  forallb is_scalar (from_utf8_lossy l) = true /\ (length (from_utf8_lossy l) <= length l)%nat.
Proof.
  induction n as [|n IH]; intros l Hn Hl.
  - destruct l; [|cbn in Hn; lia]. split; [reflexivity|cbn; lia].
  - destruct l as [|b r1]; [split; [reflexivity|cbn; lia]|].
    cbn in Hl. apply andb_true_iff in Hl. destruct Hl as [Hb Hr]. cbn in Hn.
    assert (R : forall x r, is_scalar x = true -> (length r <= length r1)%nat -> bytes_ok r = true ->
       forallb is_scalar (x :: from_utf8_lossy r) = true /\ (length (x :: from_utf8_lossy r) <= S (length r1))%nat).
    { intros x r Hx Hlen Hok. destruct (IH r ltac:(lia) Hok) as [A B]. split.
      - cbn [forallb]. rewrite Hx, A. reflexivity.
      - cbn [length]. lia. }
    change (length (b :: r1)) with (S (length r1)).
    cbn [from_utf8_lossy].
    destruct (b <? 128) eqn:E0.
    { apply R; [unfold is_scalar, is_byte in *; lia|lia|exact Hr]. }
    destruct (lead2 b) eqn:E2.
    { destruct r1 as [|c r2]; [split; [reflexivity|cbn; lia]|].
      destruct (is_cont c) eqn:Ec.
      - apply R; [apply (encode2 b c E2 Ec)|cbn; lia|].
        cbn in Hr. apply andb_true_iff in Hr. apply Hr.
      - apply R; [reflexivity|lia|exact Hr]. }
    destruct (lead3 b) eqn:E3.
    { destruct r1 as [|c r2]; [split; [reflexivity|cbn; lia]|].
      destruct (second3 b c) eqn:Ec; [|apply R; [reflexivity|lia|exact Hr]].
      assert (Hr2 : bytes_ok r2 = true) by (cbn in Hr; apply andb_true_iff in Hr; apply Hr).
      destruct r2 as [|d r3]; [split; [reflexivity|cbn; lia]|].
      destruct (is_cont d) eqn:Ed; [|apply R; [reflexivity|cbn; lia|exact Hr2]].
      apply R; [apply (encode3 b c d E3 Ec Ed)|cbn; lia|].
      cbn in Hr2. apply andb_true_iff in Hr2. apply Hr2. }
    destruct (lead4 b) eqn:E4; [|apply R; [reflexivity|lia|exact Hr]].
    { destruct r1 as [|c r2]; [split; [reflexivity|cbn; lia]|].
      destruct (second4 b c) eqn:Ec; [|apply R; [reflexivity|lia|exact Hr]].
      assert (Hr2 : bytes_ok r2 = true) by (cbn in Hr; apply andb_true_iff in Hr; apply Hr).
      destruct r2 as [|d r3]; [split; [reflexivity|cbn; lia]|].
      destruct (is_cont d) eqn:Ed; [|apply R; [reflexivity|cbn; lia|exact Hr2]].
      assert (Hr3 : bytes_ok r3 = true) by (cbn in Hr2; apply andb_true_iff in Hr2; apply Hr2).
      destruct r3 as [|e r4]; [split; [reflexivity|cbn; lia]|].
      destruct (is_cont e) eqn:Ee; [|apply R; [reflexivity|cbn; lia|exact Hr3]].
      apply R; [apply (encode4 b c d e E4 Ec Ed Ee)|cbn; lia|].
      cbn in Hr3. apply andb_true_iff in Hr3. apply Hr3. }
Qed.

(** Whatever the bytes, the decoded text is a valid Unicode string, no longer than the input. *)
Theorem C26_utf8_total : forall cp l, cp_utf8 cp = true -> bytes_ok l = true ->
  forallb is_scalar (decode_utf8 cp l) = true /\ (length (decode_utf8 cp l) <= length l)%nat.
Proof. intros cp l Hu Hl. unfold decode_utf8. rewrite Hu. exact (lossy_total_aux (length l) l (Nat.le_refl _) Hl). Qed.

(** ** Non-vacuity: one concrete case per family *)
Example C26_demo : decode_utf8 (get_codepage 0 0) [72; 105; 32; 130; 225] = [72; 105; 32; 233; 223].
Proof. reflexivity. Qed.
Example C26_utf8_demo :
  let cp := {| cp_table := []; cp_name := ""%string; cp_language := ""%string; cp_utf8 := true |} in
  decode_utf8 cp [226; 130; 172; 240; 159; 152; 128; 255; 65] = [8364; 128512; 65533; 65].
Proof. reflexivity. Qed.
Example C27_demo : decode_utf8 (get_codepage 0 3) [35; 53] = [163; 53] /\ decode_utf8 (get_codepage 2 66) [53; 48] = [2411; 2406].
Proof. split; reflexivity. Qed.
(** the German set prints '{' as o-umlaut where ESC R documents a-umlaut *)
Example C27_german_brace : decode_utf8 (get_codepage 0 2) [123] = [246] /\ std_national_char 2 123 = 228.
Proof. split; reflexivity. Qed.

Print Assumptions C26_one_char_per_byte.
Print Assumptions C26_utf8_strict_iff.
Print Assumptions C26_utf8_total.
Print Assumptions C27_national_sets_refuted.
