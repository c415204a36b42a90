(** * PropsText: C25 - breaking text *)
From Verif Require Import Base Vec Float32 GTypes Decoder Context Text.
Local Open Scope Z_scope.

(** Everything about a span except its text and its position. *)
Definition same_style (a b : text_span) : Prop :=
  s_font a = s_font b /\ s_character_width a = s_character_width b /\ s_character_height a = s_character_height b /\
  s_base_character_width a = s_base_character_width b /\ s_base_character_height a = s_base_character_height b /\
  s_bold a = s_bold b /\ s_italic a = s_italic b /\ s_underline a = s_underline b /\
  s_strikethrough a = s_strikethrough b /\ s_stretch_width a = s_stretch_width b /\
  s_stretch_height a = s_stretch_height b /\ s_inverted a = s_inverted b /\ s_upside_down a = s_upside_down b /\
  s_justify a = s_justify b /\ s_background_color a = s_background_color b /\ s_text_color a = s_text_color b.

Lemma clone_style : forall t s, same_style (clone_with t s) s /\ s_text (clone_with t s) = t /\ s_dimensions (clone_with t s) = None.
Proof. intros t s. unfold same_style, clone_with. cbn. repeat split; reflexivity. Qed.

Lemma map_clone_text : forall s l, map s_text (map (fun t => clone_with t s) l) = l.
Proof. intros s l. rewrite map_map. induction l as [|t r IH]; cbn; [reflexivity|]. f_equal. exact IH. Qed.

(** ** Words *)
Lemma words_concat : forall l cur, concat (words_loop cur l) = cur ++ l.
Proof.
  induction l as [|c r IH]; intros cur; cbn [words_loop].
  - destruct cur; cbn; [reflexivity|rewrite app_nil_r; reflexivity].
  - destruct (is_whitespace c).
    + cbn [concat]. rewrite IH, <- app_assoc. reflexivity.
    + rewrite IH, <- app_assoc. reflexivity.
Qed.

(** No character is lost, duplicated, reordered or restyled. *)
Theorem C25_words_lossless : forall s,
  concat (map s_text (break_into_words s)) = s_text s /\
  Forall (fun w => same_style w s /\ s_dimensions w = None) (break_into_words s).
Proof.
  intro s. unfold break_into_words. split.
  - rewrite map_clone_text. apply words_concat.
  - apply Forall_forall. intros w Hw. apply in_map_iff in Hw. destruct Hw as [t [<- _]].
    split; apply clone_style.
Qed.

(** A finished word is some non-blank characters followed by exactly one blank; only the last
    word of a text may lack the blank. *)
Definition blank_free (t : ustring) : Prop := Forall (fun c => is_whitespace c = false) t.
Definition closed_word (t : ustring) : Prop := exists u c, t = u ++ [c] /\ blank_free u /\ is_whitespace c = true.
Inductive word_list : list ustring -> Prop :=
| wl_nil : word_list []
| wl_last : forall t, t <> [] -> blank_free t -> word_list [t]
| wl_cons : forall t r, closed_word t -> word_list r -> word_list (t :: r).

Lemma words_shape : forall l cur, blank_free cur -> word_list (words_loop cur l).
Proof.
  induction l as [|c r IH]; intros cur Hc; cbn [words_loop].
  - destruct cur; [constructor|]. apply wl_last; [discriminate|exact Hc].
  - destruct (is_whitespace c) eqn:E.
    + apply wl_cons; [exists cur, c; auto|]. apply IH. constructor.
    + apply IH. apply Forall_app. split; [exact Hc|]. constructor; [exact E|constructor].
Qed.
Theorem C25_words_shape : forall s, word_list (map s_text (break_into_words s)).
Proof. intro s. unfold break_into_words. rewrite map_clone_text. apply words_shape. constructor. Qed.

(** ... and there is only one way to cut a text like that. *)
Theorem C25_words_unique : forall l l', word_list l -> word_list l' -> concat l = concat l' -> l = l'.
Proof.
  assert (bf_end : forall u u' c c' (x y : ustring), blank_free u -> blank_free u' ->
    is_whitespace c = true -> is_whitespace c' = true ->
    u ++ c :: x = u' ++ c' :: y -> u = u' /\ c = c' /\ x = y).
  { induction u as [|a u IH]; intros [|a' u'] c c' x y Hu Hu' Hc Hc' E; cbn in E.
    - injection E as -> ->. auto.
    - injection E as <- _. apply Forall_cons_iff in Hu'. destruct Hu' as [Hu' _]. congruence.
    - injection E as -> _. apply Forall_cons_iff in Hu. destruct Hu as [Hu _]. congruence.
    - injection E as -> E. apply Forall_cons_iff in Hu. apply Forall_cons_iff in Hu'.
      destruct (IH u' c c' x y (proj2 Hu) (proj2 Hu') Hc Hc' E) as (-> & -> & ->). auto. }
  assert (bf_mix : forall t u c (x : ustring), blank_free t -> is_whitespace c = true -> t = u ++ c :: x -> False).
  { intros t u c x Ht Hc ->. apply Forall_app in Ht. destruct Ht as [_ Ht]. apply Forall_cons_iff in Ht.
    destruct Ht as [Ht _]. congruence. }
  intros l l' H. revert l'. induction H as [|t Ht Hb|t r (u & c & -> & Hu & Hc) Hr IH]; intros l' H' E.
  - inversion H' as [|t' Ht' Hb'|t' r' (u' & c' & -> & Hu' & Hc') Hr']; subst.
    + reflexivity.
    + cbn in E. rewrite app_nil_r in E. congruence.
    + cbn in E. destruct u'; discriminate E.
  - inversion H' as [|t' Ht' Hb'|t' r' (u' & c' & -> & Hu' & Hc') Hr']; subst.
    + cbn in E. rewrite app_nil_r in E. congruence.
    + cbn in E. rewrite !app_nil_r in E. congruence.
    + exfalso. cbn in E. rewrite app_nil_r, <- app_assoc in E. cbn in E. exact (bf_mix t u' c' _ Hb Hc' E).
  - inversion H' as [|t' Ht' Hb'|t' r' (u' & c' & -> & Hu' & Hc') Hr']; subst.
    + cbn in E. destruct u; discriminate E.
    + exfalso. cbn in E. rewrite app_nil_r, <- app_assoc in E. cbn in E. exact (bf_mix t' u c _ Hb' Hc (eq_sym E)).
    + cbn in E. rewrite <- !app_assoc in E. cbn in E.
      destruct (bf_end _ _ _ _ _ _ Hu Hu' Hc Hc' E) as (-> & -> & E2).
      f_equal. apply IH; assumption.
Qed.

(** ** Fixed-length pieces *)
Lemma chunks_concat : forall fuel n l, (0 < n)%nat -> (length l <= fuel)%nat -> concat (chunks fuel n l) = l.
Proof.
  induction fuel as [|f IH]; intros n l Hn Hl.
  - destruct l; [reflexivity|cbn in Hl; lia].
  - destruct l as [|c r]; [reflexivity|]. cbn [chunks]. cbn [concat].
    rewrite IH; [apply firstn_skipn|exact Hn|]. rewrite skipn_length. cbn [length] in *. lia.
Qed.

(** pieces of exactly [n] characters, the last one possibly shorter but not empty *)
Inductive pieces (n : nat) : list ustring -> Prop :=
| pc_nil : pieces n []
| pc_last : forall t, t <> [] -> (length t <= n)%nat -> pieces n [t]
| pc_cons : forall t r, length t = n -> pieces n r -> pieces n (t :: r).

Lemma chunks_shape : forall fuel n l, (0 < n)%nat -> (length l <= fuel)%nat -> pieces n (chunks fuel n l).
Proof.
  induction fuel as [|f IH]; intros n l Hn Hl.
  - destruct l; constructor.
  - destruct l as [|c r]; [constructor|]. cbn [chunks].
    destruct (le_lt_dec (length (c :: r)) n) as [L|L].
    + rewrite skipn_all2 by exact L. rewrite firstn_all2 by exact L.
      replace (chunks f n []) with (@nil ustring) by (destruct f; reflexivity).
      apply pc_last; [discriminate|exact L].
    + apply pc_cons; [rewrite firstn_length; lia|]. apply IH; [exact Hn|]. rewrite skipn_length. cbn [length] in *. lia.
Qed.

(** break_apart panics exactly for a zero line length. *)
Theorem C25_break_apart_panic_iff : forall s f n, 0 <= n ->
  (is_ok (break_apart s f n) = false <-> n = 0).
Proof.
  intros s f n Hn. unfold break_apart. destruct (Z.eqb_spec n 0) as [->|H]; cbn; split; intro X; try reflexivity; try discriminate; contradiction.
Qed.

(** Otherwise: no character lost, style kept, the first piece takes [f] characters (or all of a
    shorter text; nothing when [f] = 0), the others [n]. *)
Theorem C25_break_apart : forall s f n, 0 <= f -> 0 < n ->
  exists first rest, break_apart s f n = Ok (first :: rest) /\
    concat (map s_text (first :: rest)) = s_text s /\
    Forall (fun w => same_style w s /\ s_dimensions w = None) (first :: rest) /\
    character_count first = Z.min f (character_count s) /\
    pieces (Z.to_nat n) (map s_text rest).
Proof.
  intros s f n Hf Hn. unfold break_apart. destruct (Z.eqb_spec n 0) as [->|H]; [lia|].
  cbv zeta. cbn [map]. eexists. eexists. split; [reflexivity|].
  remember ((0 <? f) && (0 <? vlen (s_text s))) as b eqn:Eb.
  assert (HT : (if b then firstn (Z.to_nat f) (s_text s) else []) ++ skipn (Z.to_nat (if b then f else 0)) (s_text s) = s_text s).
  { destruct b; [apply firstn_skipn|reflexivity]. }
  split; [|split; [|split]].
  - rewrite map_clone_text. cbn [concat]. rewrite chunks_concat by lia. cbn [clone_with s_text set_s_text]. exact HT.
  - constructor; [split; apply clone_style|]. apply Forall_forall. intros w Hw. apply in_map_iff in Hw.
    destruct Hw as [t [<- _]]. split; apply clone_style.
  - unfold character_count, vlen in *. cbn [clone_with s_text set_s_text]. destruct b.
    + rewrite firstn_length. lia.
    + cbn. lia.
  - rewrite map_clone_text. apply chunks_shape; lia.
Qed.

(** ** Non-vacuity *)
Definition demo_span : text_span := span_new [72; 105; 32; 10; 97; 98; 99] (context_new).
Example C25_demo : map s_text (break_into_words demo_span) = [[72; 105; 32]; [10]; [97; 98; 99]] /\
  match break_apart demo_span 2 3 with Ok l => map s_text l | Panic _ => [] end = [[72; 105]; [32; 10; 97]; [98; 99]].
Proof. split; reflexivity. Qed.

Print Assumptions C25_words_lossless.
Print Assumptions C25_words_unique.
Print Assumptions C25_break_apart.
