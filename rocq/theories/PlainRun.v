(** * PlainRun: a job of plain lines, from the bytes to the calls. *)
From Verif Require Import Base Command CommandSet Parser Vec Float32 GTypes Graphics Utf8 Decoder Context Text Upce Handlers Renderer
  SpecStream StreamProofs ContextTheory RendererTheory Origin SpecPrinter StateTheory PropsText SpecRender
  PropsOutput LayoutTheory AreaTheory PlaceTheory PropsContext PropsLayout PropsPlace SafeTheory PenTheory CallsTheory SpecLines PropsLines SpecScene SpecPlain PlainTheory.
Local Open Scope Z_scope.
Local Open Scope list_scope.
Local Arguments at_ : simpl never.
Local Arguments vlen : simpl never.

(** ** Parsing *)
Definition lf_item : item := IFixed "Line Feed" KText [10] [].
Definition line_items (l : list Z) : list item := match l with [] => [lf_item] | _ => [IText (map TB l); lf_item] end.
Definition text_items (lines : list (list Z)) : list item := flat_map line_items lines.
Definition o_lf : ocmd := simple "Line Feed" KText [10] [].
Definition line_seen (l : list Z) : list ocmd := match l with [] => [o_lf] | _ => [o_text l; o_lf] end.

Lemma units_wire s : flat_map unit_wire (map TB s) = s /\ SpecStream.shown (map TB s) = s.
Proof. unfold SpecStream.shown. induction s as [|x s (IH1 & IH2)]; [split; reflexivity|]. cbn [map flat_map unit_wire unit_show app]. rewrite IH1, IH2. split; reflexivity. Qed.
Lemma text_wire lines : encode (text_items lines) = typed lines.
Proof.
  unfold encode, text_items, typed. induction lines as [|l r IH]; [reflexivity|]. cbn [flat_map]. rewrite flat_map_app, IH. f_equal.
  destruct l as [|c l]; [reflexivity|]. cbn [line_items flat_map]. cbn [wire]. rewrite (proj1 (units_wire (c :: l))). reflexivity.
Qed.
Lemma printable_text l : Forall printable l -> forallb unit_ok (map TB l) = true.
Proof.
  intros F. rewrite forallb_forall. intros u Hu. apply in_map_iff in Hu. destruct Hu as (b & <- & Hb). cbn [unit_ok]. unfold text_byte.
  pose proof (proj1 (Forall_forall _ _) F _ Hb) as P. unfold printable in P.
  destruct (existsb (Z.eqb b) [9; 10; 12; 13; 16; 24; 27; 28; 29]) eqn:E; [|reflexivity]. exfalso. apply existsb_exists in E. destruct E as (v & Hv & E). apply Z.eqb_eq in E. subst v. cbn in Hv. lia.
Qed.
Lemma text_items_ok lines : Forall (Forall printable) lines -> Forall item_ok (text_items lines).
Proof.
  intros F. unfold text_items. apply Forall_forall. intros i Hi. apply in_flat_map in Hi. destruct Hi as (l & Hl & Hi). pose proof (proj1 (Forall_forall _ _) F _ Hl) as P.
  assert (LF : item_ok lf_item) by (cbn; unfold in_fixed; vm_compute; tauto).
  destruct l as [|c l]; cbn [line_items In] in Hi; [destruct Hi as [<-|[]]; exact LF|].
  destruct Hi as [<-|[<-|[]]]; [|exact LF]. split; [discriminate | exact (printable_text _ P)].
Qed.
Lemma separated_fixed a r : open_ended a = false -> separated (a :: r) = separated r.
Proof. intros H. cbn [separated]. destruct r; [reflexivity|]. rewrite H. reflexivity. Qed.
Lemma separated_two a b r : separated (a :: b :: r) = negb (open_ended a && is_text b) && separated (b :: r).
Proof. reflexivity. Qed.
Lemma text_items_sep lines : separated (text_items lines) = true.
Proof.
  induction lines as [|l r IH]; [reflexivity|]. unfold text_items. cbn [flat_map]. fold (text_items r). destruct l as [|c l]; cbn [line_items app].
  - rewrite separated_fixed by reflexivity. exact IH.
  - rewrite separated_two, separated_fixed by reflexivity. rewrite IH. reflexivity.
Qed.
Lemma expect_items lines : expect_all (text_items lines) = flat_map line_seen lines.
Proof.
  assert (G : forall i r, expect_eof i = expect i -> expect_all (i :: r) = expect i ++ expect_all r).
  { intros i r E. destruct r; [cbn [expect_all]; rewrite app_nil_r; exact E | reflexivity]. }
  induction lines as [|l r IH]; [reflexivity|]. unfold text_items. cbn [flat_map]. fold (text_items r). rewrite <- IH. destruct l as [|c l]; cbn [line_items line_seen app].
  - rewrite G by reflexivity. reflexivity.
  - rewrite G by reflexivity. rewrite G by reflexivity. cbn [expect app]. rewrite (proj2 (units_wire (c :: l))). reflexivity.
Qed.

(** ** Running *)
Section Run.
Variable e : encoders.
Lemma text_step c s l : sent c -> observe c = o_text l -> process_command e c s = Ok (collect_text (span_new (decode_utf8 (t_decoder (c_text (rs_ctx s))) l) (rs_ctx s)) s).
Proof.
  intros Sc O. pose proof (f_equal o_kind O) as K. pose proof (f_equal o_prefix O) as P. pose proof (f_equal o_data O) as D. cbn in K, P, D.
  destruct (text_entry c Sc K) as [(A & B)|[(A & B)|[(A & B)|(A & B)]]]; try congruence.
  unfold process_command. rewrite K. unfold get_text. rewrite B. cbn [plain_text]. rewrite D. reflexivity.
Qed.
Lemma lf_step c s : sent c -> observe c = o_lf -> process_command e c s = Ok (collect_text (span_new [10] (rs_ctx s)) s).
Proof.
  intros Sc O. pose proof (f_equal o_kind O) as K. pose proof (f_equal o_prefix O) as P. cbn in K, P.
  destruct (text_entry c Sc K) as [(A & B)|[(A & B)|[(A & B)|(A & B)]]]; try congruence.
  unfold process_command. rewrite K. unfold get_text. rewrite B. reflexivity.
Qed.
Definition line_spans (x : context) (l : list Z) : list text_span := match l with [] => [span_new [10] x] | _ => [span_new l x; span_new [10] x] end.
Lemma typed_run lines : forall cmds s, Forall sent cmds -> map observe cmds = flat_map line_seen lines ->
  Forall (fun l => decode_utf8 (t_decoder (c_text (rs_ctx s))) l = l) lines ->
  run_commands e cmds s = Ok (with_spans (rs_spans s ++ flat_map (line_spans (rs_ctx s)) lines) s).
Proof.
  induction lines as [|l r IH]; intros cmds s Sc O F; cbn [flat_map] in *.
  - apply map_eq_nil in O. subst cmds. unfold run_commands. cbn [fold_res]. rewrite app_nil_r. destruct s; reflexivity.
  - apply Forall_cons_iff in F. destruct F as (F & Fs). unfold run_commands in *. destruct l as [|a l]; cbn [line_seen app line_spans] in *.
    + destruct cmds as [|c cmds]; [discriminate|]. cbn [map] in O. apply Forall_cons_iff in Sc. destruct Sc as (S1 & Sc).
      pose proof (f_equal (hd o_lf) O) as O1'. cbn [hd] in O1'. apply (f_equal (@tl ocmd)) in O. cbn [tl] in O. cbn [fold_res]. rewrite (lf_step _ _ S1 O1'). cbn [bind]. rewrite (IH cmds (collect_text (span_new [10] (rs_ctx s)) s) Sc O Fs).
      unfold collect_text. cbn [rs_spans rs_ctx with_spans]. rewrite <- app_assoc. reflexivity.
    + destruct cmds as [|c [|c' cmds]]; [discriminate | discriminate|]. cbn [map] in O. apply Forall_cons_iff in Sc. destruct Sc as (S1 & Sc). apply Forall_cons_iff in Sc. destruct Sc as (S2 & Sc).
      pose proof (f_equal (hd o_lf) O) as O1'. pose proof (f_equal (fun z => hd o_lf (tl z)) O) as O2'. cbn [hd tl] in O1', O2'. apply (f_equal (fun z => tl (tl z))) in O. cbn [tl] in O. cbn [fold_res]. rewrite (text_step _ _ _ S1 O1'). cbn [bind fold_res]. rewrite F. rewrite (lf_step _ _ S2 O2'). cbn [bind].
      rewrite (IH cmds (collect_text (span_new [10] (rs_ctx (collect_text (span_new (a :: l) (rs_ctx s)) s))) (collect_text (span_new (a :: l) (rs_ctx s)) s)) Sc O Fs).
      unfold collect_text. cbn [rs_spans rs_ctx with_spans]. rewrite <- !app_assoc. reflexivity.
Qed.
End Run.

(** ** Words *)
Definition words (l : list Z) : list (list Z) := words_loop [] l.
Lemma words_text l : concat (words l) = l.
Proof. exact (words_concat l []). Qed.
Lemma words_some l : l <> [] -> words l <> [].
Proof. intros N E. apply N. rewrite <- (words_text l), E. reflexivity. Qed.
Definition sp_of (x : context) : text_span := span_new [] x.
Lemma spans_words x lines : flat_map break_into_words (flat_map (line_spans x) lines) =
  flat_map (fun l => map (styled (sp_of x)) (words l) ++ [styled (sp_of x) [10]]) lines.
Proof.
  induction lines as [|l r IH]; [reflexivity|]. cbn [flat_map]. rewrite flat_map_app, IH. f_equal.
  assert (LF : break_into_words (span_new [10] x) = [styled (sp_of x) [10]]) by reflexivity.
  destruct l as [|a l]; cbn [line_spans flat_map]; rewrite LF; [reflexivity|]. cbn [app]. f_equal.
Qed.
Lemma text_lines x lines : lines_of_text (wordy (sp_of x) words lines) [] (flat_map break_into_words (flat_map (line_spans x) lines)).
Proof.
  rewrite spans_words. induction lines as [|l r IH]; cbn [flat_map wordy map]; [constructor|]. rewrite <- app_assoc. cbn [app]. constructor; [reflexivity | exact IH].
Qed.
Lemma words_chars l t : In t (words l) -> forall c, In c t -> In c l.
Proof. intros Ht c Hc. rewrite <- (words_text l). apply in_concat. eauto. Qed.
Lemma plain_words sp l : Forall printable l -> Forall (plain_word sp) (words l) /\ Forall (fun t => ~ lf (styled sp t)) (words l).
Proof.
  intros F. split; apply Forall_forall; intros t Ht.
  - unfold plain_word, is_tab. change (s_text (styled sp t)) with t. destruct t as [|c [|]]; try reflexivity.
    pose proof (proj1 (Forall_forall _ _) F _ (words_chars _ _ Ht c (or_introl eq_refl))) as P. unfold printable in P. lia.
  - unfold lf. change (s_text (styled sp t)) with t. intros ->.
    pose proof (proj1 (Forall_forall _ _) F _ (words_chars _ _ Ht 10 (or_introl eq_refl))) as P. unfold printable in P. lia.
Qed.
Lemma styled_fits sp tabs ts : 0 <= s_character_width sp -> Forall (plain_word sp) ts -> Forall (fun t => ~ lf (styled sp t)) ts -> forall x,
  x + vlen (concat ts) * s_character_width sp <= 609 -> row_fits 609 tabs x (map (styled sp) ts).
Proof.
  intros W. induction ts as [|t ts IH]; intros P N x L; cbn [map row_fits]; [exact Logic.I|].
  apply Forall_cons_iff in P. apply Forall_cons_iff in N. destruct P as (P & Ps), N as (N & Ns). split; [exact N|]. unfold plain_word in P. rewrite P.
  change (word_dots (styled sp t)) with (vlen t * s_character_width sp). cbn [concat] in L. rewrite vlen_app in L. pose proof (vlen_nonneg (concat ts)).
  split; [nia|]. apply IH; [exact Ps | exact Ns | nia].
Qed.
Lemma lines_fit sp tabs lines : 0 <= s_character_width sp -> Forall (fun l => Forall printable l /\ Z.of_nat (length l) * s_character_width sp <= 609) lines ->
  rows_fit 609 tabs 0 (wordy sp words lines).
Proof.
  intros W. induction lines as [|l r IH]; intros F; cbn [wordy map rows_fit]; [exact Logic.I|]. apply Forall_cons_iff in F. destruct F as ((P & L) & F). split; [|exact (IH F)].
  destruct (plain_words sp l P) as (A & B). apply styled_fits; [exact W | exact A | exact B|]. rewrite words_text. unfold vlen. lia.
Qed.
