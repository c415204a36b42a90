(** * Origin: every command the parser returns is an instance of a table entry.

    This ties the renderer theorems to bytes: a command [sent] to the renderer comes out of
    [parse_esc_pos] on some byte string. *)
From Verif Require Import Base Command CommandSet Parser Vec ContextTheory RendererTheory.
Local Open Scope Z_scope.
Local Open Scope list_scope.

(** A command that some byte string makes the parser report. *)
Definition sent (c : command) : Prop :=
  exists bs cmds, bytes_ok bs = true /\ parse_esc_pos bs = Ok cmds /\ In c cmds.

Definition u16b (n : Z) : Prop := 0 <= n <= 65535.
Definition sub_like (tbl : list subcmd) (sc : subcmd) : Prop :=
  (4 <= length (sc_commands sc))%nat /\ bytes_ok (sc_data sc) = true /\
  exists t, In t tbl /\ sc_name sc = sc_name t /\ sc_kind sc = sc_kind t /\ sc_id sc = sc_id t.
Definition handler_like (h0 h : handler) : Prop :=
  match h0, h with
  | HPlain a, HPlain b => b = a
  | HFeedCut, HFeedCut => True
  | HCharEffects _, HCharEffects _ => True
  | HBarcode _, HBarcode _ => True
  | HBitImage _, HBitImage s =>
      u16b (bi_width s) /\ 0 <= bi_height s <= 24 /\ (bi_stretch s = (1, 1) \/ bi_stretch s = (2, 3))
  | HRaster _, HRaster s => 0 <= ra_width s <= 524280 /\ u16b (ra_height s)
  | HSub s0, HSub s =>
      ss_commands s = ss_commands s0 /\
      match ss_subcommand s with Some sc => sub_like (ss_commands s0) sc | None => True end
  | _, _ => False
  end.
Record instance (t c : command) : Prop := mk_instance {
  in_name : c_name c = c_name t;
  in_commands : c_commands c = c_commands t;
  in_kind : c_kind c = c_kind t;
  in_dkind : c_dkind c = c_dkind t;
  in_handler : handler_like (c_handler t) (c_handler c);
  in_data : bytes_ok (c_data c) = true }.

Definition frame_commands : list command := [cmd_text; cmd_unknown; cmd_begin_print; cmd_end_print].
Definition all_commands : list command := esc_pos_commands ++ frame_commands.

(** a reported sub-command *)
Record sub_instance (sc : subcmd) (c : command) : Prop := mk_sub_instance {
  si_name : c_name c = sc_name sc;
  si_kind : c_kind c = sc_kind sc;
  si_handler : c_handler c = HSubPlain (sc_id sc);
  si_data : bytes_ok (c_data c) = true;
  si_long : (7 <= length (c_commands c))%nat }.

Definition reported (c : command) : Prop :=
  (exists t, In t all_commands /\ c_kind t <> KSubcommand /\ instance t c) \/
  (exists sc, In sc (code2d_table ++ graphics_table) /\ sub_instance sc c).

(** ** pushing keeps the instance *)
Lemma bytes_snoc l b : bytes_ok l = true -> is_byte b = true -> bytes_ok (l ++ [b]) = true.
Proof. unfold bytes_ok. intros H1 H2. rewrite forallb_app, H1. cbn. now rewrite H2. Qed.
Lemma bytes_removelast l : bytes_ok l = true -> bytes_ok (removelast l) = true.
Proof.
  induction l as [|x l IH]; [auto|]. cbn [removelast]. destruct l as [|y l]; [auto|].
  intros H. cbn [bytes_ok forallb] in H |- *. apply andb_prop in H. destruct H as [H1 H2].
  unfold bytes_ok in IH. rewrite H1. cbn [andb]. apply IH. exact H2.
Qed.
Lemma bytes_get l i : bytes_ok l = true -> 0 <= get_or 0 l i <= 255.
Proof.
  intros H. unfold get_or. destruct (Nat.lt_ge_cases i (length l)) as [L|L].
  - pose proof (proj1 (forallb_forall _ _) H _ (nth_In l 0 L)) as E. unfold is_byte in E. lia.
  - rewrite nth_overflow by exact L. lia.
Qed.

Lemma in_app_tables sc : In sc (code2d_table ++ graphics_table) <-> In sc code2d_table \/ In sc graphics_table.
Proof. apply in_app_iff. Qed.

Lemma parse_meta_like s meta s' :
  (4 <= length meta)%nat -> parse_meta s meta = Ok s' ->
  (match ss_subcommand s with Some sc => sub_like (ss_commands s) sc | None => True end) ->
  (forall t, In t (ss_commands s) -> bytes_ok (sc_data t) = true) ->
  ss_commands s' = ss_commands s /\
  match ss_subcommand s' with Some sc => sub_like (ss_commands s) sc | None => True end.
Proof.
  intros L H Hs Ht. unfold parse_meta in H. inv_bind H. destruct a as [[cap m] id]. injection H as <-.
  cbn [ss_commands ss_subcommand]. split; [reflexivity|].
  destruct (if ss_use_m s then detect_kind_use_m (ss_commands s) m id else detect_kind (ss_commands s) id)
    as [c|] eqn:F.
  - assert (Hc : In c (ss_commands s)).
    { destruct (ss_use_m s).
      - unfold detect_kind_use_m in F. revert F.
        generalize (ss_commands s) as l. intros l.
        assert (G : forall acc, fold_left (fun (acc : option subcmd) (c : subcmd) =>
                   match sc_commands c with
                   | [] => acc
                   | b :: rest => if negb (b =? m) then acc else if mem_byte id rest then Some c else acc
                   end) l acc = Some c -> acc = Some c \/ In c l).
        { induction l as [|x l IH]; cbn [fold_left]; intros acc E; [auto|].
          apply IH in E. destruct E as [E|E]; [|right; right; exact E].
          destruct (sc_commands x) as [|b rest]; [auto|]. destruct (negb (b =? m)); [auto|].
          destruct (mem_byte id rest); [right; left; congruence | auto]. }
        intros E. destruct (G _ E) as [E'|E']; [discriminate | exact E'].
      - unfold detect_kind in F. apply find_some in F. tauto. }
    split; [exact L|]. split; [cbn; apply Ht; exact Hc|]. exists c. cbn. auto.
  - destruct (ss_subcommand s) as [c|]; [|exact I]. destruct Hs as (_ & B & X).
    split; [exact L | split; [exact B | exact X]].
Qed.

Definition tables_plain (h : handler) : Prop :=
  match h with HSub s => forall t, In t (ss_commands s) -> bytes_ok (sc_data t) = true | _ => True end.

Lemma sub_take_like s0 s data byte a s' d :
  sub_take s data byte = (a, s', d) ->
  ss_commands s = ss_commands s0 ->
  match ss_subcommand s with Some sc => sub_like (ss_commands s0) sc | None => True end ->
  bytes_ok data = true -> is_byte byte = true ->
  (ss_commands s' = ss_commands s0 /\
   match ss_subcommand s' with Some sc => sub_like (ss_commands s0) sc | None => True end) /\
  bytes_ok d = true.
Proof.
  unfold sub_take. intros H C S D B.
  destruct (Z.of_nat (length data) <? ss_capacity s).
  - injection H as _ <- <-. split; [auto | apply bytes_snoc; assumption].
  - destruct (ss_subcommand s) as [c|] eqn:E.
    + injection H as _ <- <-. cbn. destruct S as (L & B' & X). split; [|exact B'].
      split; [exact C|]. split; [exact L | split; [exact D | exact X]].
    + injection H as _ <- <-. rewrite E. auto.
Qed.

Lemma handler_push_like h0 h data byte a h' d :
  handler_like h0 h -> tables_plain h0 -> bytes_ok data = true -> is_byte byte = true ->
  handler_push h data byte = Ok (a, h', d) ->
  handler_like h0 h' /\ bytes_ok d = true.
Proof.
  intros L T D B H. unfold handler_push in H.
  destruct h0, h; cbn [handler_like] in L; try contradiction.
  - injection H as _ <- <-. auto.
  - destruct (feed_cut_push data byte) as [x y] eqn:E. injection H as _ <- <-. split; [exact I|].
    unfold feed_cut_push in E. destruct data as [|m [|? ?]].
    + injection E as _ <-. cbn. now rewrite B.
    + destruct ((m =? 0) || (m =? 48) || (m =? 1) || (m =? 49)); injection E as _ <-; [exact D | apply (bytes_snoc [m]); assumption].
    + injection E as _ <-. exact D.
  - destruct (char_effects_push capacity0 data byte) as [[x y] z] eqn:E. injection H as _ <- <-. split; [exact I|].
    unfold char_effects_push in E.
    destruct (length data <? 2)%nat; [injection E as _ _ <-; apply bytes_snoc; assumption|].
    destruct (length data =? 2)%nat; [injection E as _ _ <-; apply bytes_snoc; assumption|].
    destruct (Z.of_nat (length data) <? capacity0); injection E as _ _ <-; [apply bytes_snoc; assumption | exact D].
  - destruct (barcode_push s0 data byte) as [[x y] z] eqn:E. injection H as _ <- <-. split; [exact I|].
    unfold barcode_push in E. destruct (negb (bc_accept s0)); [injection E as _ _ <-; exact D|].
    destruct (bc_encoding s0).
    + destruct (last data 1 =? NUL); injection E as _ _ <-; [apply bytes_removelast; exact D | apply bytes_snoc; assumption].
    + destruct (negb (bc_has_capacity s0)); [injection E as _ _ <-; exact D|].
      destruct (Z.of_nat (length data) <? bc_capacity s0); injection E as _ _ <-; [apply bytes_snoc; assumption | exact D].
    + injection E as _ _ <-; exact D.
  - destruct (bit_image_push s0 data byte) as [[x y] z] eqn:E. injection H as _ <- <-.
    unfold bit_image_push in E. destruct L as (L1 & L2 & L3). destruct (bi_accept s0).
    + destruct (bi_capacity s0 <=? bi_size s0); injection E as _ <- <-; cbn;
        (split; [auto|]); [exact D | apply bytes_snoc; assumption].
    + destruct (length data <? 2)%nat; [injection E as _ <- <-; split; [cbn; auto | apply bytes_snoc; assumption]|].
      injection E as _ <- <-. split; [|reflexivity]. cbn [handler_like bi_width bi_height bi_stretch].
      pose proof (bytes_get data 1 D). unfold is_byte in B.
      split; [unfold u16b; lia|].
      split; [destruct ((get_or 0 data 0 =? 32) || (get_or 0 data 0 =? 33)); lia|].
      destruct ((get_or 0 data 0 =? 0) || (get_or 0 data 0 =? 32)); [right; reflexivity | exact L3].
  - destruct (raster_push s0 data byte) as [[x y] z] eqn:E. injection H as _ <- <-.
    unfold raster_push in E. destruct (negb (ra_accept s0)).
    + destruct (length data <? 4)%nat; [injection E as _ <- <-; split; [exact L | apply bytes_snoc; assumption]|].
      injection E as _ <- <-. split; [|reflexivity]. cbn [handler_like ra_width ra_height].
      pose proof (bytes_get data 1 D). pose proof (bytes_get data 2 D). pose proof (bytes_get data 3 D).
      unfold is_byte in B. unfold u16b. lia.
    + destruct (ra_capacity s0 <=? Z.of_nat (length data)); injection E as _ <- <-; (split; [exact L|]);
        [exact D | apply bytes_snoc; assumption].
  - inv_bind H. destruct a0 as [[x y] z]. injection H as _ <- <-. unfold sub_push in Ha.
    destruct L as (L1 & L2).
    destruct (negb (ss_accept s0)).
    + destruct (length data <? (if ss_is_large s0 then 6 else 4))%nat eqn:E.
      * injection Ha as _ <- <-. split; [split; assumption | apply bytes_snoc; assumption].
      * inv_bind Ha. apply Nat.ltb_ge in E.
        assert (Len : (4 <= length (firstn (if ss_is_large s0 then 6 else 4)%nat data))%nat).
        { rewrite firstn_length. destruct (ss_is_large s0); lia. }
        destruct (parse_meta_like _ _ _ Len Ha0) as (P1 & P2).
        { rewrite L1. exact L2. }
        { rewrite L1. exact T. }
        injection Ha as Ha. rewrite L1 in P2.
        exact (sub_take_like s a0 [] byte x y z Ha (eq_trans P1 L1) P2 eq_refl B).
    + injection Ha as Ha. exact (sub_take_like s s0 data byte x y z Ha L1 L2 D B).
Qed.

Lemma cmd_push_instance t c byte a c' :
  instance t c -> tables_plain (c_handler t) -> is_byte byte = true ->
  cmd_push c byte = Ok (a, c') -> instance t c'.
Proof.
  intros [N C K DK H D] T B E. unfold cmd_push in E.
  assert (PushData : instance t (with_data c (c_data c ++ [byte]))).
  { constructor; cbn; auto using bytes_snoc. }
  destruct (c_dkind c) eqn:DK';
    try (injection E as _ <-; exact PushData);
    try (cbn [fixed_arity] in E;
         match type of E with (if ?b then _ else _) = _ => destruct b end; injection E as _ <-;
         [constructor; auto; congruence | exact PushData]).
  - inv_bind E. destruct a0 as [[x h] d]. injection E as _ <-.
    destruct (handler_push_like _ _ _ _ _ _ _ H T D B Ha) as (H' & D').
    constructor; cbn; auto; congruence.
  - inv_bind E. destruct a0 as [[x h] d]. injection E as _ <-.
    destruct (handler_push_like _ _ _ _ _ _ _ H T D B Ha) as (H' & D').
    constructor; cbn; auto; congruence.
Qed.

(** ** the table entries themselves *)
Definition fresh_ok (t : command) : bool :=
  match c_data t with [] => true | _ => false end &&
  match c_handler t with
  | HBitImage s => (bi_width s =? 0) && (bi_height s =? 0) && (fst (bi_stretch s) =? 1) && (snd (bi_stretch s) =? 1)
  | HRaster s => (ra_width s =? 0) && (ra_height s =? 0)
  | HSub s => match ss_subcommand s with None => true | Some _ => false end &&
              forallb (fun sc => match sc_data sc with [] => true | _ => false end) (ss_commands s)
  | HSubPlain _ => false
  | _ => true
  end.
Lemma all_fresh : forallb fresh_ok all_commands = true.
Proof. vm_compute. reflexivity. Qed.

Lemma fresh_instance t : In t all_commands -> instance t t /\ tables_plain (c_handler t).
Proof.
  intros H. pose proof (proj1 (forallb_forall _ _) all_fresh _ H) as F. unfold fresh_ok in F.
  apply andb_prop in F. destruct F as [D F].
  assert (D' : bytes_ok (c_data t) = true) by (destruct (c_data t); [reflexivity | discriminate]).
  split.
  - constructor; auto. destruct (c_handler t) as [id| |cap|s|s|s|s|id]; cbn; auto.
    + destruct (bi_stretch s) as [a b] eqn:S. cbn [fst snd] in F.
      repeat (apply andb_prop in F; destruct F as [F ?]).
      apply Z.eqb_eq in F. rewrite F. unfold u16b. split; [lia|]. split; [lia|]. left. f_equal; lia.
    + apply andb_prop in F. destruct F as [F1 F2]. unfold u16b. lia.
    + apply andb_prop in F. destruct F as [F1 F2]. destruct (ss_subcommand s); [discriminate | auto].
    + discriminate F.
  - destruct (c_handler t) as [id| |cap|s|s|s|s|id]; cbn; auto. intros x Hx.
    apply andb_prop in F. destruct F as [F1 F2].
    pose proof (proj1 (forallb_forall _ _) F2 _ Hx) as G. cbv beta in G. destruct (sc_data x); [reflexivity | discriminate G].
Qed.

Definition carried (c : command) : Prop := exists t, In t all_commands /\ instance t c.

Lemma carried_push c byte a c' : carried c -> is_byte byte = true -> cmd_push c byte = Ok (a, c') -> carried c'.
Proof.
  intros (t & Ht & I) B E. exists t. split; [exact Ht|].
  eapply cmd_push_instance; eauto. apply fresh_instance. exact Ht.
Qed.
Lemma carried_fresh t : In t all_commands -> carried t.
Proof. intros H. exists t. split; [exact H | apply fresh_instance; exact H]. Qed.

(** what the sub-command families' tables are *)
Lemma sub_table_of t s :
  In t all_commands -> c_kind t = KSubcommand -> c_handler t = HSub s ->
  (forall x, In x (ss_commands s) -> In x (code2d_table ++ graphics_table)) /\ length (c_commands t) = 3%nat.
Proof.
  intros H K E.
  assert (G : Forall (fun t => c_kind t = KSubcommand ->
            (c_handler t = HSub (sub_init false true code2d_table) \/ c_handler t = HSub (sub_init false false graphics_table)
             \/ c_handler t = HSub (sub_init true false graphics_table)) /\ length (c_commands t) = 3%nat) all_commands).
  { unfold all_commands, esc_pos_commands, frame_commands. cbn [app].
    repeat (apply Forall_cons; [intros X; first [discriminate X | split; [cbn; auto | reflexivity]]|]).
    apply Forall_nil. }
  pose proof (proj1 (Forall_forall _ _) G _ H K) as ([X|[X|X]] & L); rewrite E in X; injection X as ->;
    (split; [|exact L]); intros x Hx; apply in_app_tables; cbn in Hx; auto.
Qed.

Lemma emitted_reported c x : carried c -> In x (emitted c) -> reported x.
Proof.
  intros (t & Ht & I) H. unfold emitted in H.
  destruct (c_kind c) eqn:K; try (destruct H as [<-|[]]; left; exists t; split; [exact Ht|]; split; [rewrite <- (in_kind _ _ I); congruence | exact I]).
  destruct (get_subcommand (c_handler c)) as [sc|] eqn:S; [|destruct H].
  destruct H as [<-|[]]. right.
  pose proof (in_handler _ _ I) as HL. destruct (c_handler c) as [| | | | | |s|] eqn:HC; try discriminate S.
  destruct (c_handler t) as [| | | | | |s0|] eqn:HT; try contradiction. cbn in HL, S.
  destruct HL as (L1 & L2). rewrite S in L2. destruct L2 as (Len & B & (x & Hx & E1 & E2 & E3)).
  destruct (sub_table_of t s0 Ht) as (Tbl & L3).
  { rewrite <- (in_kind _ _ I). exact K. } { exact HT. }
  exists x. split; [apply Tbl; exact Hx|].
  constructor; cbn; auto; try congruence.
  rewrite app_length, (in_commands _ _ I), L3. lia.
Qed.

Record pinv (st : pstate) : Prop := mk_pinv {
  pi_current : forall c, p_current st = Some c -> carried c;
  pi_matches : forall c, In c (p_matches st) -> In c esc_pos_commands;
  pi_buffer : bytes_ok (p_buffer st) = true;
  pi_captured : forall c, In c (p_captured st) -> reported c }.

Lemma emitted_opt_reported o c : (forall x, o = Some x -> carried x) -> In c (emitted_opt o) -> reported c.
Proof. destruct o as [x|]; cbn; intros H Hin; [eapply emitted_reported; eauto | destruct Hin]. Qed.

Lemma in_all_left c : In c esc_pos_commands -> In c all_commands.
Proof. intros H. apply in_or_app. left. exact H. Qed.
Lemma in_all_right c : In c frame_commands -> In c all_commands.
Proof. intros H. apply in_or_app. right. exact H. Qed.
Lemma unknown_carried : carried cmd_unknown.
Proof. apply carried_fresh, in_all_right. right; left; reflexivity. Qed.
Lemma text_carried : carried cmd_text.
Proof. apply carried_fresh, in_all_right. left; reflexivity. Qed.

Lemma current_or_unknown o c :
  (forall x, o = Some x -> carried x) ->
  In c (match o with Some y => emitted y | None => emitted cmd_unknown end) -> reported c.
Proof.
  destruct o as [x|]; intros H Hin; [eapply emitted_reported; eauto|].
  eapply emitted_reported; [exact unknown_carried | exact Hin].
Qed.

Lemma parse_match_inv st b st' : pinv st -> is_byte b = true -> parse_match esc_pos st b = Ok st' -> pinv st'.
Proof.
  intros [I1 I2 I3 I4] B H. unfold parse_match in H.
  set (subset := if (p_depth st =? 0)%nat then cs_commands esc_pos else p_matches st) in H.
  assert (Sub : forall c, In c (matching subset (p_depth st) b) -> In c esc_pos_commands).
  { intros c Hc. apply filter_In in Hc. destruct Hc as (Hc & _). unfold subset in Hc.
    destruct (p_depth st =? 0)%nat; [exact Hc | apply I2; exact Hc]. }
  pose proof (bytes_snoc _ _ I3 B) as Buf.
  destruct (matching subset (p_depth st) b) as [|c [|c2 r]].
  - destruct (mem_byte (hd 0 (p_buffer st ++ [b])) (c_commands (cs_unknown esc_pos))).
    + injection H as <-. apply mk_pinv; cbn [p_current p_matches p_buffer p_captured].
      * intros c E. injection E as <-. destruct unknown_carried as (t & Ht & [N C K DK HH D]).
        exists t. split; [exact Ht|]. constructor; cbn; assumption.
      * intros c Hc. destruct Hc.
      * reflexivity.
      * intros c Hc. apply in_app_or in Hc. destruct Hc as [Hc|Hc]; [apply I4; exact Hc|].
        exact (current_or_unknown _ _ I1 Hc).
    + destruct (p_default st).
      * inv_bind H. injection H as <-. apply mk_pinv; cbn [p_current p_matches p_buffer p_captured].
        -- intros c E. subst a. destruct (p_current st) as [x|] eqn:EC; [|discriminate Ha].
           inv_bind Ha. injection Ha as <-. destruct a as [acc c']. cbn.
           exact (carried_push _ _ _ _ (I1 _ eq_refl) B Ha0).
        -- intros c Hc. destruct Hc.
        -- reflexivity.
        -- exact I4.
      * inv_bind H. injection H as <-. apply mk_pinv; cbn [p_current p_matches p_buffer p_captured].
        -- intros c E. injection E as <-. destruct a as [acc c']. cbn.
           exact (carried_push _ _ _ _ text_carried B Ha).
        -- intros c Hc. destruct Hc.
        -- reflexivity.
        -- intros c Hc. apply in_app_or in Hc. destruct Hc as [Hc|Hc]; [apply I4; exact Hc|].
           exact (current_or_unknown _ _ I1 Hc).
  - destruct (negb (length (c_commands c) - 1 =? p_depth st)%nat); injection H as <-;
      apply mk_pinv; cbn [p_current p_matches p_buffer p_captured]; try assumption.
    + intros x E. injection E as <-. apply carried_fresh, in_all_left, Sub. left; reflexivity.
    + reflexivity.
    + intros x Hc. apply in_app_or in Hc. destruct Hc as [Hc|Hc]; [apply I4; exact Hc|].
      exact (emitted_opt_reported _ _ I1 Hc).
  - injection H as <-. apply mk_pinv; cbn [p_current p_matches p_buffer p_captured]; assumption.
Qed.

Lemma parse_byte_inv st b st' : pinv st -> is_byte b = true -> parse_byte esc_pos st b = Ok st' -> pinv st'.
Proof.
  intros I B H. unfold parse_byte in H.
  destruct ((p_depth st =? 0)%nat && negb (p_default st)); [|exact (parse_match_inv _ _ _ I B H)].
  destruct (p_current st) as [c|] eqn:EC; [|exact (parse_match_inv _ _ _ I B H)].
  inv_bind H. destruct a as [acc c'].
  assert (I' : pinv {| p_depth := p_depth st; p_matches := p_matches st; p_current := Some c';
                      p_default := p_default st; p_buffer := p_buffer st; p_captured := p_captured st |}).
  { destruct I as [I1 I2 I3 I4]. constructor; cbn [p_current p_matches p_buffer p_captured]; auto.
    intros x E. injection E as <-. exact (carried_push _ _ _ _ (I1 _ EC) B Ha). }
  destruct acc; [injection H as <-; exact I' | exact (parse_match_inv _ _ _ I' B H)].
Qed.

Lemma parse_all_inv bs st st' : pinv st -> bytes_ok bs = true -> parse_all esc_pos st bs = Ok st' -> pinv st'.
Proof.
  revert st. induction bs as [|b bs IH]; intros st I B H; cbn [parse_all] in H.
  - injection H as <-. exact I.
  - inv_bind H. cbn [bytes_ok forallb] in B. apply andb_prop in B. destruct B as [B1 B2].
    exact (IH a (parse_byte_inv _ _ _ I B1 Ha) B2 H).
Qed.

Lemma begin_reported : reported cmd_begin_print.
Proof.
  left. exists cmd_begin_print. assert (H : In cmd_begin_print all_commands) by (apply in_all_right; cbn; auto).
  split; [exact H | split; [discriminate | apply fresh_instance; exact H]].
Qed.
Lemma end_reported : reported cmd_end_print.
Proof.
  left. exists cmd_end_print. assert (H : In cmd_end_print all_commands) by (apply in_all_right; cbn; auto 10).
  split; [exact H | split; [discriminate | apply fresh_instance; exact H]].
Qed.

Theorem sent_reported c : sent c -> reported c.
Proof.
  intros (bs & cmds & B & H & Hin). unfold parse_esc_pos, parse_bytes in H.
  inv_bind H. inv_bind Ha. injection Ha as <-. injection H as <-. cbn [fst] in Hin.
  assert (I : pinv a0).
  { refine (parse_all_inv _ _ _ _ B Ha0). constructor; cbn; try discriminate; try contradiction; auto.
    intros x [<-|[]]. exact begin_reported. }
  apply in_app_or in Hin. destruct Hin as [Hin|Hin]; [exact (pi_captured _ I _ Hin)|].
  apply in_app_or in Hin. destruct Hin as [Hin|Hin]; [exact (emitted_opt_reported _ _ (pi_current _ I) Hin)|].
  destruct Hin as [<-|[]]. exact end_reported.
Qed.

Lemma sent_bytes c : sent c -> bytes_ok (c_data c) = true.
Proof. intros H. destruct (sent_reported _ H) as [(t & _ & _ & I)|(sc & _ & I)]; [exact (in_data _ _ I) | exact (si_data _ _ I)]. Qed.
Lemma sent_arg c i d : sent c -> 0 <= d <= 255 -> 0 <= get_or d (c_data c) i <= 255.
Proof.
  intros H Hd. pose proof (sent_bytes _ H) as B. unfold get_or.
  destruct (Nat.lt_ge_cases i (length (c_data c))) as [L|L].
  - pose proof (proj1 (forallb_forall _ _) B _ (nth_In _ d L)) as E. unfold is_byte in E. lia.
  - rewrite nth_overflow by exact L. exact Hd.
Qed.

(** A command recognised by its prefix bytes is an instance of the one table entry having them. *)
Lemma sent_by_prefix c p :
  sent c -> c_commands c = p -> (1 <= length p <= 3)%nat ->
  exists t, In t esc_pos_commands /\ c_commands t = p /\ instance t c.
Proof.
  intros H P L. destruct (sent_reported _ H) as [(t & Ht & _ & I)|(sc & _ & I)].
  - apply in_app_or in Ht. destruct Ht as [Ht|Ht].
    + exists t. split; [exact Ht|]. split; [rewrite <- (in_commands _ _ I); exact P | exact I].
    + exfalso. pose proof (in_commands _ _ I) as E. rewrite P in E. rewrite E in L.
      destruct Ht as [<-|[<-|[<-|[<-|[]]]]]; cbn in L; lia.
  - exfalso. pose proof (si_long _ _ I). rewrite P in H0. lia.
Qed.

Definition list_eqb (a b : list Z) : bool := if list_eq_dec Z.eq_dec a b then true else false.
(** table lookup by prefix *)
Definition entry (p : list Z) : option command := find (fun t => list_eqb (c_commands t) p) esc_pos_commands.
Fixpoint distinctb (l : list (list Z)) : bool :=
  match l with [] => true | x :: r => negb (existsb (list_eqb x) r) && distinctb r end.
Lemma distinctb_nodup l : distinctb l = true -> NoDup l.
Proof.
  induction l as [|x r IH]; cbn [distinctb]; intros H; constructor.
  - intros Hin. apply andb_prop in H. destruct H as [H _].
    rewrite (proj2 (existsb_exists _ _)) in H; [discriminate|]. exists x. split; [exact Hin|].
    unfold list_eqb. destruct (list_eq_dec Z.eq_dec x x); congruence.
  - apply IH. apply andb_prop in H. tauto.
Qed.
Lemma prefixes_distinct : NoDup (map c_commands esc_pos_commands).
Proof. apply distinctb_nodup. vm_compute. reflexivity. Qed.
Lemma nodup_map_inj {A B} (f : A -> B) l a b : NoDup (map f l) -> In a l -> In b l -> f a = f b -> a = b.
Proof.
  induction l as [|x l IH]; [intros _ []|]. cbn [map]. intros N Ha Hb E. inversion N as [|? ? N1 N2]; subst.
  destruct Ha as [<-|Ha], Hb as [<-|Hb]; auto.
  - exfalso. apply N1. rewrite E. apply in_map. exact Hb.
  - exfalso. apply N1. rewrite <- E. apply in_map. exact Ha.
Qed.
Lemma sent_entry c p t : sent c -> c_commands c = p -> (1 <= length p <= 3)%nat -> entry p = Some t -> instance t c.
Proof.
  intros H P L E. destruct (sent_by_prefix _ _ H P L) as (t' & Ht' & P' & I).
  apply find_some in E. destruct E as (Ht & E). unfold list_eqb in E.
  destruct (list_eq_dec Z.eq_dec (c_commands t) p) as [Ep|]; [|discriminate].
  assert (t = t') as ->; [|exact I].
  apply (nodup_map_inj c_commands esc_pos_commands); auto; [apply prefixes_distinct | congruence].
Qed.

