(** * Told: what a reported command says about its bytes determines its handler.

    A command the parser reports carries private handler state.  Here that state is shown to be a
    function of what the application can see: the command bytes, the data and
    [get_command_bytes]. *)
From Verif Require Import Base Command CommandSet Parser Vec ContextTheory RendererTheory Origin.
Local Open Scope Z_scope.
Local Open Scope list_scope.

(** ** Invariants of the command being read *)
Record keeps (P : command -> Prop) : Prop := mk_keeps {
  kp_push : forall c byte a c', P c -> is_byte byte = true -> cmd_push c byte = Ok (a, c') -> P c';
  kp_fresh : forall t, In t all_commands -> P t;
  kp_unknown : forall d, bytes_ok d = true -> P (with_data cmd_unknown d) }.
Definition from (P : command -> Prop) (x : command) : Prop := exists k, P k /\ In x (emitted k).
Record kinv (P : command -> Prop) (st : pstate) : Prop := mk_kinv {
  ki_current : forall c, p_current st = Some c -> P c;
  ki_matches : forall c, In c (p_matches st) -> In c esc_pos_commands;
  ki_buffer : bytes_ok (p_buffer st) = true;
  ki_captured : forall c, In c (p_captured st) -> from P c }.
Lemma unknown_in : In cmd_unknown all_commands.
Proof. apply in_all_right. right; left; reflexivity. Qed.
Lemma text_in : In cmd_text all_commands.
Proof. apply in_all_right. left; reflexivity. Qed.
Lemma opt_from (P : command -> Prop) o c : (forall x, o = Some x -> P x) -> In c (emitted_opt o) -> from P c.
Proof. destruct o as [x|]; cbn; intros H Hin; [exists x; auto | destruct Hin]. Qed.
Lemma opt_from2 P o c : keeps P -> (forall x, o = Some x -> P x) ->
  In c (match o with Some y => emitted y | None => emitted cmd_unknown end) -> from P c.
Proof. destruct o as [x|]; intros K H Hin; [exists x; auto|]. exists cmd_unknown. split; [apply (kp_fresh _ K), unknown_in | exact Hin]. Qed.
Lemma match_keeps P st b st' : keeps P -> kinv P st -> is_byte b = true -> parse_match esc_pos st b = Ok st' -> kinv P st'.
Proof.
  intros K [I1 I2 I3 I4] B H. unfold parse_match in H.
  set (subset := if (p_depth st =? 0)%nat then cs_commands esc_pos else p_matches st) in H.
  assert (Sub : forall c, In c (matching subset (p_depth st) b) -> In c esc_pos_commands).
  { intros c Hc. apply filter_In in Hc. destruct Hc as (Hc & _). unfold subset in Hc.
    destruct (p_depth st =? 0)%nat; [exact Hc | apply I2; exact Hc]. }
  pose proof (bytes_snoc _ _ I3 B) as Buf.
  destruct (matching subset (p_depth st) b) as [|c [|c2 r]].
  - destruct (mem_byte (hd 0 (p_buffer st ++ [b])) (c_commands (cs_unknown esc_pos))).
    + injection H as <-. apply mk_kinv; cbn [p_current p_matches p_buffer p_captured].
      * intros c E. injection E as <-. apply (kp_unknown _ K). exact Buf.
      * intros c Hc. destruct Hc.
      * reflexivity.
      * intros c Hc. apply in_app_or in Hc. destruct Hc as [Hc|Hc]; [apply I4; exact Hc|].
        exact (opt_from2 _ _ _ K I1 Hc).
    + destruct (p_default st).
      * inv_bind H. injection H as <-. apply mk_kinv; cbn [p_current p_matches p_buffer p_captured].
        -- intros c E. subst a. destruct (p_current st) as [x|] eqn:EC; [|discriminate Ha].
           inv_bind Ha. injection Ha as <-. destruct a as [acc c']. cbn.
           exact (kp_push _ K _ _ _ _ (I1 _ eq_refl) B Ha0).
        -- intros c Hc. destruct Hc.
        -- reflexivity.
        -- exact I4.
      * inv_bind H. injection H as <-. apply mk_kinv; cbn [p_current p_matches p_buffer p_captured].
        -- intros c E. injection E as <-. destruct a as [acc c']. cbn.
           exact (kp_push _ K _ _ _ _ (kp_fresh _ K _ text_in) B Ha).
        -- intros c Hc. destruct Hc.
        -- reflexivity.
        -- intros c Hc. apply in_app_or in Hc. destruct Hc as [Hc|Hc]; [apply I4; exact Hc|].
           exact (opt_from2 _ _ _ K I1 Hc).
  - destruct (negb (length (c_commands c) - 1 =? p_depth st)%nat); injection H as <-;
      apply mk_kinv; cbn [p_current p_matches p_buffer p_captured]; try assumption.
    + intros x E. injection E as <-. apply (kp_fresh _ K), in_all_left, Sub. left; reflexivity.
    + reflexivity.
    + intros x Hc. apply in_app_or in Hc. destruct Hc as [Hc|Hc]; [apply I4; exact Hc|].
      exact (opt_from _ _ _ I1 Hc).
  - injection H as <-. apply mk_kinv; cbn [p_current p_matches p_buffer p_captured]; assumption.
Qed.
Lemma byte_keeps P st b st' : keeps P -> kinv P st -> is_byte b = true -> parse_byte esc_pos st b = Ok st' -> kinv P st'.
Proof.
  intros K I B H. unfold parse_byte in H.
  destruct ((p_depth st =? 0)%nat && negb (p_default st)); [|exact (match_keeps _ _ _ _ K I B H)].
  destruct (p_current st) as [c|] eqn:EC; [|exact (match_keeps _ _ _ _ K I B H)].
  inv_bind H. destruct a as [acc c'].
  assert (I' : kinv P {| p_depth := p_depth st; p_matches := p_matches st; p_current := Some c';
                      p_default := p_default st; p_buffer := p_buffer st; p_captured := p_captured st |}).
  { destruct I as [I1 I2 I3 I4]. constructor; cbn [p_current p_matches p_buffer p_captured]; auto.
    intros x E. injection E as <-. exact (kp_push _ K _ _ _ _ (I1 _ EC) B Ha). }
  destruct acc; [injection H as <-; exact I' | exact (match_keeps _ _ _ _ K I' B H)].
Qed.
Lemma all_keeps P bs : forall st st', keeps P -> kinv P st -> bytes_ok bs = true -> parse_all esc_pos st bs = Ok st' -> kinv P st'.
Proof.
  induction bs as [|b bs IH]; intros st st' K I B H; cbn [parse_all] in H.
  - injection H as <-. exact I.
  - inv_bind H. cbn [bytes_ok forallb] in B. apply andb_prop in B. destruct B as [B1 B2].
    exact (IH a st' K (byte_keeps _ _ _ _ K I B1 Ha) B2 H).
Qed.
(** Every reported command was produced by a command satisfying the invariant. *)
Lemma sent_from P c : keeps P -> sent c -> from P c.
Proof.
  intros K (bs & cmds & B & H & Hin). unfold parse_esc_pos, parse_bytes in H.
  inv_bind H. inv_bind Ha. injection Ha as <-. injection H as <-. cbn [fst] in Hin.
  assert (I : kinv P a0).
  { refine (all_keeps _ _ _ _ K _ B Ha0). constructor; cbn; try discriminate; try contradiction; auto.
    intros x [<-|[]]. exists cmd_begin_print. split; [apply (kp_fresh _ K), in_all_right; cbn; auto 10 | left; reflexivity]. }
  apply in_app_or in Hin. destruct Hin as [Hin|Hin]; [exact (ki_captured _ _ I _ Hin)|].
  apply in_app_or in Hin. destruct Hin as [Hin|Hin]; [exact (opt_from _ _ _ (ki_current _ _ I) Hin)|].
  destruct Hin as [<-|[]]. exists cmd_end_print. split; [apply (kp_fresh _ K), in_all_right; cbn; auto 10 | left; reflexivity].
Qed.

(** ** What each handler remembers *)
Definition raster_told (m xl xh yl yh : Z) : raster_st :=
  {| ra_width := (xl + xh * 256) * 8; ra_height := yl + yh * 256; ra_capacity := (xl + xh * 256) * (yl + yh * 256);
     ra_scaling := m; ra_accept := true; ra_params := [m; xl; xh; yl; yh] |}.
Definition tall (m : Z) : bool := (m =? 32) || (m =? 33).
Definition bit_image_told (m nl nh size : Z) : bit_image_st :=
  {| bi_width := nl + nh * 256; bi_height := if tall m then 24 else 8;
     bi_capacity := (nl + nh * 256) * (if tall m then 24 else 8) / 8; bi_col_encoded := true; bi_size := size; bi_accept := true;
     bi_stretch := if (m =? 0) || (m =? 32) then (2, 3) else (1, 1); bi_params := [m; nl; nh] |}.
Definition barcode_told (m : Z) (n : option Z) : barcode_st :=
  {| bc_kind := barcode_kind m; bc_kind_id := m; bc_encoding := barcode_encoding m; bc_capacity := match n with Some n => n | None => 0 end;
     bc_has_capacity := match n with Some _ => true | None => false end; bc_accept := true;
     bc_raw_params := m :: match n with Some n => [n] | None => [] end |}.
Definition sub_key (meta : list Z) : Z * Z := (get_or 0 meta (length meta - 2)%nat, get_or 0 meta (length meta - 1)%nat).
Definition sub_found (s : sub_st) (meta : list Z) : option subcmd :=
  let '(m, id) := sub_key meta in
  if ss_use_m s then detect_kind_use_m (ss_commands s) m id else detect_kind (ss_commands s) id.
Definition told (c : command) : Prop :=
  bytes_ok (c_data c) = true /\
  match c_handler c with HRaster _ | HBitImage _ | HBarcode _ | HSub _ => c_dkind c = DCustom | _ => True end /\
  match c_handler c with
  | HRaster s => s = raster_init /\ (length (c_data c) <= 4)%nat \/ exists m xl xh yl yh, s = raster_told m xl xh yl yh /\ bytes_ok [m; xl; xh; yl; yh] = true
  | HBitImage s => s = bit_image_init /\ (length (c_data c) <= 2)%nat \/ exists m nl nh size, s = bit_image_told m nl nh size /\ bytes_ok [m; nl; nh] = true
  | HBarcode s => s = barcode_init /\ c_data c = [] \/ exists m n, s = barcode_told m n /\ is_byte m = true
  | HSub s => match ss_subcommand s with
              | None => True
              | Some sc => ss_accept s = true /\ (length (sc_commands sc) = if ss_is_large s then 6 else 4)%nat /\
                           exists t, sub_found s (sc_commands sc) = Some t /\ sc_name sc = sc_name t /\ sc_kind sc = sc_kind t /\ sc_id sc = sc_id t
              end /\ forallb (fun t => bytes_ok (sc_data t)) (ss_commands s) = true /\
              match ss_subcommand s with None => True | Some sc => bytes_ok (sc_data sc) = true end /\
              ss_use_m s = list_eqb (c_commands c) [29; 40; 107]
  | _ => True
  end.

Lemma get_byte l i : bytes_ok l = true -> is_byte (get_or 0 l i) = true.
Proof. intros H. pose proof (bytes_get l i H). unfold is_byte. lia. Qed.
Lemma sub_take_told s data byte a s' d :
  sub_take s data byte = (a, s', d) -> ss_accept s = true -> bytes_ok data = true -> is_byte byte = true ->
  (match ss_subcommand s with
              | None => True
              | Some sc => ss_accept s = true /\ (length (sc_commands sc) = if ss_is_large s then 6 else 4)%nat /\
                           exists t, sub_found s (sc_commands sc) = Some t /\ sc_name sc = sc_name t /\ sc_kind sc = sc_kind t /\ sc_id sc = sc_id t
              end) -> match ss_subcommand s with None => True | Some sc => bytes_ok (sc_data sc) = true end ->
  (match ss_subcommand s' with
              | None => True
              | Some sc => ss_accept s' = true /\ (length (sc_commands sc) = if ss_is_large s' then 6 else 4)%nat /\
                           exists t, sub_found s' (sc_commands sc) = Some t /\ sc_name sc = sc_name t /\ sc_kind sc = sc_kind t /\ sc_id sc = sc_id t
              end) /\ match ss_subcommand s' with None => True | Some sc => bytes_ok (sc_data sc) = true end /\
  bytes_ok d = true /\ ss_commands s' = ss_commands s /\ ss_use_m s' = ss_use_m s.
Proof.
  unfold sub_take. intros H A D B S1 S2.
  destruct (Z.of_nat (length data) <? ss_capacity s).
  - injection H as _ <- <-. split; [exact S1|]. split; [exact S2|]. split; [apply bytes_snoc; assumption | split; reflexivity].
  - destruct (ss_subcommand s) as [c|] eqn:E.
    + injection H as _ <- <-. cbn [ss_subcommand ss_accept ss_is_large sc_commands sc_name sc_kind sc_id sc_data ss_commands].
      split; [exact S1|]. split; [exact D|]. split; [exact S2 | split; reflexivity].
    + injection H as _ <- <-. rewrite E. auto.
Qed.
Lemma told_push c byte a c' : told c -> is_byte byte = true -> cmd_push c byte = Ok (a, c') -> told c'.
Proof.
  intros (D & DC & T) B E. unfold cmd_push in E.
  assert (Same : forall d, bytes_ok d = true -> (match c_handler c with HRaster _ | HBitImage _ | HBarcode _ | HSub _ => False | _ => True end) -> told (with_data c d)).
  { intros d Hd N. split; [exact Hd|]. cbn [with_data c_handler c_data c_dkind]. destruct (c_handler c); try contradiction; auto. }
  assert (Fx : c_dkind c <> DCustom -> match c_handler c with HRaster _ | HBitImage _ | HBarcode _ | HSub _ => False | _ => True end).
  { destruct (c_handler c); auto. }
  assert (Id : told c) by (split; [exact D | split; [exact DC | exact T]]).
  destruct (c_dkind c) eqn:DK;
    try (injection E as _ <-; apply Same; [apply bytes_snoc; assumption | apply Fx; discriminate]);
    try (cbn [fixed_arity] in E;
         match type of E with (if ?b then _ else _) = _ => destruct b end; injection E as _ <-;
         [exact Id | apply Same; [apply bytes_snoc; assumption | apply Fx; discriminate]]).
  2:{ (* DSubcommand: no handler accepts *)
    apply bind_ok in E. destruct E as ([[x h] d] & E1 & E). injection E as _ <-. specialize (Fx ltac:(discriminate)).
    destruct (c_handler c) as [id| |cap|s|s|s|s|id] eqn:HC; try contradiction; cbn [handler_push] in E1.
    - injection E1 as _ <- <-. split; [exact D|]. cbn. auto.
    - destruct (feed_cut_push (c_data c) byte) as [x' y'] eqn:F. injection E1 as _ <- <-. split; [|cbn; auto]. cbn [with_handler with_data c_data].
      unfold feed_cut_push in F. destruct (c_data c) as [|m [|? ?]].
      + injection F as _ <-. cbn. now rewrite B.
      + destruct ((m =? 0) || (m =? 48) || (m =? 1) || (m =? 49)); injection F as _ <-; [exact D | apply (bytes_snoc [m]); assumption].
      + injection F as _ <-. exact D.
    - destruct (char_effects_push cap (c_data c) byte) as [[x' y'] z'] eqn:F. injection E1 as _ <- <-. split; [|cbn; auto]. cbn [with_handler with_data c_data].
      unfold char_effects_push in F.
      destruct (length (c_data c) <? 2)%nat; [injection F as _ _ <-; apply bytes_snoc; assumption|].
      destruct (length (c_data c) =? 2)%nat; [injection F as _ _ <-; apply bytes_snoc; assumption|].
      destruct (Z.of_nat (length (c_data c)) <? cap); injection F as _ _ <-; [apply bytes_snoc; assumption | exact D].
    - injection E1 as _ <- <-. split; [exact D|]. cbn. auto. }
  apply bind_ok in E. destruct E as ([[x h] d] & E1 & E). injection E as _ <-.
  destruct (c_handler c) as [id| |cap|s|s|s|s|id] eqn:HC; cbn [handler_push] in E1.
  - injection E1 as _ <- <-. split; [exact D|]. cbn. auto.
  - destruct (feed_cut_push (c_data c) byte) as [x' y'] eqn:F. injection E1 as _ <- <-. split; [|cbn; auto]. cbn [with_handler with_data c_data].
    unfold feed_cut_push in F. destruct (c_data c) as [|m [|? ?]].
    + injection F as _ <-. cbn. now rewrite B.
    + destruct ((m =? 0) || (m =? 48) || (m =? 1) || (m =? 49)); injection F as _ <-; [exact D | apply (bytes_snoc [m]); assumption].
    + injection F as _ <-. exact D.
  - destruct (char_effects_push cap (c_data c) byte) as [[x' y'] z'] eqn:F. injection E1 as _ <- <-. split; [|cbn; auto]. cbn [with_handler with_data c_data].
    unfold char_effects_push in F.
    destruct (length (c_data c) <? 2)%nat; [injection F as _ _ <-; apply bytes_snoc; assumption|].
    destruct (length (c_data c) =? 2)%nat; [injection F as _ _ <-; apply bytes_snoc; assumption|].
    destruct (Z.of_nat (length (c_data c)) <? cap); injection F as _ _ <-; [apply bytes_snoc; assumption | exact D].
  - (* barcode *)
    destruct (barcode_push s (c_data c) byte) as [[x' y'] z'] eqn:F. injection E1 as _ <- <-. unfold told. cbn [with_handler with_data c_data c_handler c_dkind].
    unfold barcode_push in F. destruct T as [(-> & Z0)|(m & n & -> & Hm)].
    + cbn [barcode_init bc_accept negb] in F. injection F as _ <- <-. split; [exact D|]. split; [exact DK|].
      right. exists byte, None. split; [reflexivity | exact B].
    + cbn [barcode_told bc_accept negb bc_encoding] in F. destruct (barcode_encoding m) eqn:En.
      * destruct (last (c_data c) 1 =? NUL); injection F as _ <- <-; (split; [first [apply bytes_removelast; exact D | apply bytes_snoc; assumption]|]);
          (split; [exact DK|]); right; exists m, n; (split; [unfold barcode_told; rewrite En; reflexivity | exact Hm]).
      * destruct n as [n|]; cbn [barcode_told bc_has_capacity bc_capacity negb] in F.
        -- match type of F with (if ?b then _ else _) = _ => destruct b end; injection F as _ <- <-; (split; [first [exact D | apply bytes_snoc; assumption]|]);
           (split; [exact DK|]); right; exists m, (Some n); (split; [unfold barcode_told; rewrite En; reflexivity | exact Hm]).
        -- injection F as _ <- <-. split; [exact D|]. split; [exact DK|]. right. exists m, (Some byte). split; [unfold barcode_told; rewrite En; reflexivity | exact Hm].
      * injection F as _ <- <-. split; [exact D|]. split; [exact DK|]. right. exists m, n. split; [unfold barcode_told; rewrite En; reflexivity | exact Hm].
  - (* bit image *)
    destruct (bit_image_push s (c_data c) byte) as [[x' y'] z'] eqn:F. injection E1 as _ <- <-. unfold told. cbn [with_handler with_data c_data c_handler c_dkind].
    unfold bit_image_push in F. destruct T as [(-> & L)|(m & nl & nh & size & -> & Hm)].
    + cbn [bit_image_init bi_accept] in F. destruct (length (c_data c) <? 2)%nat eqn:Lt.
      * injection F as _ <- <-. split; [apply bytes_snoc; assumption|]. split; [exact DK|]. left. split; [reflexivity|]. apply Nat.ltb_lt in Lt. rewrite app_length. cbn [length]. lia.
      * injection F as _ <- <-. split; [reflexivity|]. split; [exact DK|]. right. exists (get_or 0 (c_data c) 0), (get_or 0 (c_data c) 1), byte, 0.
        split; [unfold bit_image_told, tall; cbn [bi_col_encoded bi_size bi_stretch bit_image_init]; destruct ((get_or 0 (c_data c) 0 =? 32) || (get_or 0 (c_data c) 0 =? 33)); reflexivity|].
        unfold bytes_ok. cbn [forallb]. rewrite !get_byte, B by exact D. reflexivity.
    + cbn [bit_image_told bi_accept bi_capacity bi_size] in F.
      destruct (_ <=? size); injection F as _ <- <-; (split; [first [exact D | apply bytes_snoc; assumption]|]); (split; [exact DK|]); right;
        [exists m, nl, nh, size | exists m, nl, nh, (size + 1)]; (split; [reflexivity | exact Hm]).
  - (* raster *)
    destruct (raster_push s (c_data c) byte) as [[x' y'] z'] eqn:F. injection E1 as _ <- <-. unfold told. cbn [with_handler with_data c_data c_handler c_dkind].
    unfold raster_push in F. destruct T as [(-> & L)|(m & xl & xh & yl & yh & -> & Hm)].
    + cbn [raster_init ra_accept negb] in F. destruct (length (c_data c) <? 4)%nat eqn:Lt.
      * injection F as _ <- <-. split; [apply bytes_snoc; assumption|]. split; [exact DK|]. left. split; [reflexivity|]. apply Nat.ltb_lt in Lt. rewrite app_length. cbn [length]. lia.
      * injection F as _ <- <-. split; [reflexivity|]. split; [exact DK|]. right.
        exists (get_or 0 (c_data c) 0), (get_or 0 (c_data c) 1), (get_or 0 (c_data c) 2), (get_or 0 (c_data c) 3), byte. split; [reflexivity|].
        unfold bytes_ok. cbn [forallb]. rewrite !get_byte, B by exact D. reflexivity.
    + cbn [raster_told ra_accept negb ra_capacity] in F.
      destruct (_ <=? Z.of_nat (length (c_data c))); injection F as _ <- <-; (split; [first [exact D | apply bytes_snoc; assumption]|]); (split; [exact DK|]); right;
        exists m, xl, xh, yl, yh; (split; [reflexivity | exact Hm]).
  - (* sub-commands *)
    apply bind_ok in E1. destruct E1 as ([[x' y'] z'] & F & E1). injection E1 as _ <- <-. unfold told. cbn [with_handler with_data c_data c_handler c_dkind].
    destruct T as (T1 & T2 & T3 & T4). unfold sub_push in F. destruct (ss_accept s) eqn:Ac; cbn [negb] in F.
    + injection F as F. destruct (sub_take_told _ _ _ _ _ _ F Ac D B) as (U1 & U2 & U3 & U4 & U5).
      { rewrite Ac. exact T1. } { exact T3. }
      split; [exact U3|]. split; [exact DK|]. split; [exact U1|]. rewrite U4. split; [exact T2 | split; [exact U2 | exact (eq_trans U5 T4)]].
    + assert (N : ss_subcommand s = None) by (destruct (ss_subcommand s); [destruct T1 as (T1 & _); discriminate | reflexivity]).
      set (k := (if ss_is_large s then 6 else 4)%nat) in *.
      destruct (length (c_data c) <? k)%nat eqn:Lt.
      * injection F as _ <- <-. split; [apply bytes_snoc; assumption|]. split; [exact DK|]. rewrite N. auto.
      * apply bind_ok in F. destruct F as (s1 & P & F). injection F as F. apply Nat.ltb_ge in Lt.
        assert (Lk : length (firstn k (c_data c)) = k) by (rewrite firstn_length; lia).
        unfold parse_meta in P. rewrite Lk in P.
        assert (Q : exists cap, s1 = {| ss_commands := ss_commands s;
                      ss_subcommand := match sub_found s (firstn k (c_data c)) with Some c0 => Some {| sc_name := sc_name c0; sc_commands := firstn k (c_data c); sc_data := sc_data c0; sc_kind := sc_kind c0; sc_id := sc_id c0 |} | None => None end;
                      ss_is_large := ss_is_large s; ss_m := fst (sub_key (firstn k (c_data c))); ss_id := snd (sub_key (firstn k (c_data c))); ss_capacity := cap; ss_accept := true; ss_use_m := ss_use_m s |}).
        { unfold sub_found, sub_key. rewrite Lk. rewrite N in P. unfold k in P |- *. destruct (ss_is_large s); cbn [Nat.eqb Nat.sub fst snd] in P |- *;
            match type of P with context [if ?b then Panic POverflow else _] => destruct b end; try discriminate P; injection P as <-;
            eexists; (destruct (if ss_use_m s then _ else _); reflexivity). }
        destruct Q as (cap & ->).
        refine ((fun X => _) (sub_take_told _ _ _ _ _ _ F eq_refl eq_refl B _ _)).
        { destruct X as (U1 & U2 & U3 & U4 & U5). split; [exact U3|]. split; [exact DK|]. split; [exact U1|]. rewrite U4. split; [exact T2 | split; [exact U2 | exact (eq_trans U5 T4)]]. }
        { cbn [ss_subcommand ss_accept ss_is_large]. destruct (sub_found s (firstn k (c_data c))) as [t|] eqn:Fd; [|exact I]. cbn [sc_commands sc_name sc_kind sc_id].
          split; [reflexivity|]. split; [exact Lk|]. exists t. split; [exact Fd|]. auto. }
        { cbn [ss_subcommand]. destruct (sub_found s (firstn k (c_data c))) as [t|] eqn:Fd; [|exact I]. cbn [sc_data].
          assert (It : In t (ss_commands s)).
          { unfold sub_found in Fd. destruct (sub_key (firstn k (c_data c))) as [m id]. destruct (ss_use_m s).
            - unfold detect_kind_use_m in Fd. revert Fd. generalize (ss_commands s) as l. intros l.
              assert (G : forall acc, fold_left (fun (acc : option subcmd) (c : subcmd) =>
                   match sc_commands c with
                   | [] => acc
                   | b :: rest => if negb (b =? m) then acc else if mem_byte id rest then Some c else acc
                   end) l acc = Some t -> acc = Some t \/ In t l).
              { induction l as [|x0 l IH]; cbn [fold_left]; intros acc E; [auto|].
                apply IH in E. destruct E as [E|E]; [|right; right; exact E].
                destruct (sc_commands x0) as [|b rest]; [auto|]. destruct (negb (b =? m)); [auto|].
                destruct (mem_byte id rest); [right; left; congruence | auto]. }
              intros E. destruct (G _ E) as [E'|E']; [discriminate | exact E'].
            - unfold detect_kind in Fd. apply find_some in Fd. tauto. }
          exact (proj1 (forallb_forall _ _) T2 _ It). }
  - injection E1 as _ <- <-. split; [exact D|]. cbn. auto.
Qed.
Definition told_fresh (t : command) : bool :=
  match c_data t with [] => true | _ => false end &&
  match c_handler t with
  | HSub s => match ss_subcommand s with None => true | Some _ => false end && forallb (fun t => bytes_ok (sc_data t)) (ss_commands s) && Bool.eqb (ss_use_m s) (list_eqb (c_commands t) [29; 40; 107]) &&
              match c_dkind t with DCustom => true | _ => false end
  | HBarcode _ | HBitImage _ | HRaster _ => match c_dkind t with DCustom => true | _ => false end
  | _ => true
  end.
Lemma all_told_fresh : forallb told_fresh all_commands = true.
Proof. vm_compute. reflexivity. Qed.
Lemma handlers_fresh : Forall (fun t => match c_handler t with HBarcode s => s = barcode_init | HBitImage s => s = bit_image_init | HRaster s => s = raster_init | _ => True end) all_commands.
Proof. unfold all_commands, esc_pos_commands, frame_commands. cbn [app]. repeat (apply Forall_cons; [cbn; auto|]). apply Forall_nil. Qed.
Lemma told_start t : In t all_commands -> told t.
Proof.
  intros H. pose proof (proj1 (forallb_forall _ _) all_told_fresh _ H) as F. pose proof (proj1 (Forall_forall _ _) handlers_fresh _ H) as G. cbv beta in G.
  unfold told_fresh in F. apply andb_prop in F. destruct F as (D & F).
  unfold told. destruct (c_data t); [|discriminate]. split; [reflexivity|].
  destruct (c_handler t) as [id| |cap|s|s|s|s|id]; auto.
  - subst s. destruct (c_dkind t); try discriminate. auto.
  - subst s. destruct (c_dkind t); try discriminate. split; [reflexivity|]. left. cbn. split; [reflexivity | lia].
  - subst s. destruct (c_dkind t); try discriminate. split; [reflexivity|]. left. cbn. split; [reflexivity | lia].
  - apply andb_prop in F. destruct F as (F & F3). apply andb_prop in F. destruct F as (F & F4). apply andb_prop in F. destruct F as (F1 & F2). apply Bool.eqb_prop in F4. destruct (c_dkind t); try discriminate. destruct (ss_subcommand s); [discriminate|]. auto.
Qed.
Lemma told_keeps : keeps (fun c => carried c /\ told c).
Proof.
  constructor.
  - intros c byte a c' (H1 & H2) B E. split; [exact (carried_push _ _ _ _ H1 B E) | exact (told_push _ _ _ _ H2 B E)].
  - intros t H. split; [apply carried_fresh; exact H | apply told_start; exact H].
  - intros d Hd. split.
    + destruct unknown_carried as (t & Ht & [N C K DK HH D]). exists t. split; [exact Ht|]. constructor; cbn; assumption.
    + split; [exact Hd|]. cbn. auto.
Qed.
Lemma sent_told c : sent c -> exists k, carried k /\ told k /\ In c (emitted k).
Proof. intros H. destruct (sent_from _ _ told_keeps H) as (k & (A & B) & C). eauto. Qed.

(** ** Reading the handler off the visible bytes *)
Lemma sent_plainly c : sent c -> (length (c_commands c) <= 3)%nat -> carried c /\ told c /\ c_kind c <> KSubcommand.
Proof.
  intros S L. destruct (sent_told _ S) as (k & (t & Ht & I) & T & E). unfold emitted in E.
  destruct (c_kind k) eqn:K; try (destruct E as [<-|[]]; split; [exists t; auto|]; split; [exact T | congruence]).
  exfalso. destruct (get_subcommand (c_handler k)) as [sc|] eqn:G; [|destruct E]. destruct E as [<-|[]].
  cbn [c_commands] in L. rewrite app_length in L.
  pose proof (in_handler _ _ I) as HL. destruct (c_handler k) as [| | | | | |s|] eqn:HC; try discriminate G.
  destruct (c_handler t) as [| | | | | |s0|] eqn:HT; try contradiction.
  destruct (sub_table_of t s0 Ht ltac:(rewrite <- (in_kind _ _ I); exact K) HT) as (_ & L3).
  rewrite (in_commands _ _ I), L3 in L. destruct T as (_ & _ & T). rewrite HC in T. cbn [get_subcommand] in G. rewrite G in T.
  destruct T as ((_ & Len & _) & _). destruct (ss_is_large s); lia.
Qed.
Lemma entry_instance p t0 : entry p = Some t0 -> (1 <= length p <= 3)%nat ->
  forall c, sent c -> c_commands c = p -> instance t0 c /\ told c.
Proof.
  intros En L c S C. destruct (sent_plainly c S) as (_ & T & _); [rewrite C; lia|]. split; [|exact T].
  destruct (sent_by_prefix c p S C L) as (t & Ht & Ct & I).
  unfold entry in En. apply find_some in En. destruct En as (Ht0 & Ct0). unfold list_eqb in Ct0. destruct (list_eq_dec Z.eq_dec (c_commands t0) p) as [Ct1|]; [|discriminate].
  assert (t = t0).
  { apply In_nth_error in Ht. destruct Ht as (i & Ht). apply In_nth_error in Ht0. destruct Ht0 as (j & Ht0).
    assert (X : forallb (fun i => forallb (fun j => match nth_error esc_pos_commands i, nth_error esc_pos_commands j with
            | Some ci, Some cj => negb (list_eqb (c_commands ci) (c_commands cj)) || (i =? j)%nat | _, _ => true end) (seq 0 55)) (seq 0 55) = true) by (vm_compute; reflexivity).
    assert (Hlen : length esc_pos_commands = 55%nat) by reflexivity.
    assert (Hi : (i < 55)%nat) by (rewrite <- Hlen; apply nth_error_Some; congruence).
    assert (Hj : (j < 55)%nat) by (rewrite <- Hlen; apply nth_error_Some; congruence).
    pose proof (proj1 (forallb_forall _ _) X i ltac:(apply in_seq; lia)) as Y. cbv beta in Y.
    pose proof (proj1 (forallb_forall _ _) Y j ltac:(apply in_seq; lia)) as Z0. cbv beta in Z0. rewrite Ht, Ht0 in Z0.
    unfold list_eqb in Z0. destruct (list_eq_dec Z.eq_dec (c_commands t) (c_commands t0)) as [|N]; [|congruence]. cbn [negb orb] in Z0. apply Nat.eqb_eq in Z0. subst j. congruence. }
  subst t0. exact I.
Qed.
Lemma entry_kind p t0 c : sent c -> c_commands c = p -> entry p = Some t0 -> (1 <= length p <= 3)%nat -> c_kind c = c_kind t0.
Proof. intros S C E L. exact (in_kind _ _ (proj1 (entry_instance p t0 E L c S C))). Qed.
Lemma entry_handler p h : (match entry p with Some t => c_handler t = h | None => False end) -> (1 <= length p <= 3)%nat ->
  forall c, sent c -> c_commands c = p -> handler_like h (c_handler c) /\ told c.
Proof.
  intros E L c S C. destruct (entry p) as [t0|] eqn:En; [|contradiction].
  destruct (entry_instance p t0 En L c S C) as (I & T). split; [rewrite <- E; exact (in_handler _ _ I) | exact T].
Qed.

(** GS v 0: the five parameter bytes are visible. *)
Lemma raster_sent c m xl xh yl yh : sent c -> c_commands c = [29; 118; 48] ->
  get_command_bytes c = ([29; 118; 48], [m; xl; xh; yl; yh] ++ c_data c) ->
  c_handler c = HRaster (raster_told m xl xh yl yh) /\ bytes_ok [m; xl; xh; yl; yh] = true.
Proof.
  intros S C G. destruct (entry_handler [29; 118; 48] (HRaster raster_init) eq_refl ltac:(cbn; lia) c S C) as (H & (_ & _ & T)).
  unfold get_command_bytes in G. destruct (c_handler c) as [| | | | |s| |]; try contradiction.
  destruct T as [(-> & L)|(m' & xl' & xh' & yl' & yh' & -> & B)].
  - exfalso. cbn [raster_init ra_params app] in G. injection G as _ G. apply (f_equal (@length Z)) in G. cbn [length] in G. lia.
  - cbn [raster_told ra_params app] in G. injection G as _ -> -> -> -> ->. auto.
Qed.
(** ESC *: three parameter bytes. *)
Lemma bit_image_sent c m nl nh : sent c -> c_commands c = [27; 42] ->
  get_command_bytes c = ([27; 42], [m; nl; nh] ++ c_data c) ->
  exists size, c_handler c = HBitImage (bit_image_told m nl nh size) /\ bytes_ok [m; nl; nh] = true.
Proof.
  intros S C G. destruct (entry_handler [27; 42] (HBitImage bit_image_init) eq_refl ltac:(cbn; lia) c S C) as (H & (_ & _ & T)).
  unfold get_command_bytes in G. destruct (c_handler c) as [| | | |s| | |]; try contradiction.
  destruct T as [(-> & L)|(m' & xl' & xh' & size & -> & B)].
  - exfalso. cbn [bit_image_init bi_params app] in G. injection G as _ G. apply (f_equal (@length Z)) in G. cbn [length] in G. lia.
  - cbn [bit_image_told bi_params app] in G. injection G as _ -> -> ->. eauto.
Qed.
(** GS k: the system byte and, for systems announced with a length, the length byte. *)
Lemma barcode_sent c m r d : sent c -> c_commands c = [29; 107] -> get_command_bytes c = ([29; 107; m] ++ r, d) ->
  exists n, c_handler c = HBarcode (barcode_told m n) /\ is_byte m = true.
Proof.
  intros S C G. destruct (entry_handler [29; 107] (HBarcode barcode_init) eq_refl ltac:(cbn; lia) c S C) as (H & (_ & _ & T)).
  unfold get_command_bytes in G. destruct (c_handler c) as [| | |s| | | |]; try contradiction. rewrite C in G.
  destruct T as [(-> & L)|(m' & n & -> & B)].
  - exfalso. cbn [barcode_init bc_raw_params app] in G. discriminate.
  - cbn [barcode_told bc_raw_params app] in G. injection G as -> _ _. eauto.
Qed.

(** The sub-commands: the function bytes are the last two of the command bytes. *)
Definition sub_lookup (p : list Z) (m fn : Z) : option subcmd :=
  match entry p with
  | Some t => match c_handler t with
              | HSub s => if ss_use_m s then detect_kind_use_m (ss_commands s) m fn else detect_kind (ss_commands s) fn
              | _ => None
              end
  | None => None
  end.
Lemma sub_sent c p l m fn : sent c -> c_commands c = p ++ l ++ [m; fn] -> In p [[29; 40; 107]; [29; 40; 76]; [29; 56; 76]] -> (2 <= length l)%nat ->
  exists t, sub_lookup p m fn = Some t /\ c_name c = sc_name t /\ c_kind c = sc_kind t /\ c_handler c = HSubPlain (sc_id t) /\ bytes_ok (c_data c) = true.
Proof.
  intros S C Pp Ll. destruct (sent_told _ S) as (k & (t & Ht & I) & T & E). unfold emitted in E.
  assert (Lc : (7 <= length (c_commands c))%nat).
  { rewrite C, !app_length. cbn [length]. destruct Pp as [<-|[<-|[<-|[]]]]; cbn [length]; lia. }
  destruct (c_kind k) eqn:K; try (exfalso; destruct E as [<-|[]]; rewrite (in_commands _ _ I) in Lc;
    assert (Lt : forallb (fun t => (length (c_commands t) <=? 4)%nat) all_commands = true) by (vm_compute; reflexivity);
    pose proof (proj1 (forallb_forall _ _) Lt _ Ht) as X; cbv beta in X; apply Nat.leb_le in X; lia).
  destruct (get_subcommand (c_handler k)) as [sc|] eqn:G; [|destruct E]. destruct E as [<-|[]]. cbn [c_commands c_name c_kind c_handler c_data] in *.
  pose proof (in_handler _ _ I) as HL. destruct (c_handler k) as [| | | | | |s|] eqn:HC; try discriminate G. cbn [get_subcommand] in G.
  destruct (c_handler t) as [| | | | | |s0|] eqn:HT; try contradiction.
  destruct (sub_table_of t s0 Ht ltac:(rewrite <- (in_kind _ _ I); exact K) HT) as (_ & L3).
  destruct T as (_ & _ & T). rewrite HC in T. rewrite G in T. destruct T as ((_ & Len & (x & Fx & X1 & X2 & X3)) & _ & Bd & Um).
  assert (Lp : length p = 3%nat) by (destruct Pp as [<-|[<-|[<-|[]]]]; reflexivity).
  assert (Ep : c_commands k = p /\ sc_commands sc = l ++ [m; fn]).
  { rewrite (in_commands _ _ I) in C. rewrite (in_commands _ _ I).
    assert (Q : forall a b a' b' : list Z, length a = length a' -> a ++ b = a' ++ b' -> a = a' /\ b = b').
    { clear. induction a as [|x a IH]; intros b [|x' a'] b' L E; try discriminate; [auto|]. cbn in L, E. injection E as -> E. destruct (IH b a' b' ltac:(lia) E) as (-> & ->). auto. }
    apply Q; [congruence | exact C]. }
  destruct Ep as (Ep & Es).
  assert (Hk : sub_key (sc_commands sc) = (m, fn)).
  { rewrite Es. unfold sub_key, get_or. rewrite app_length. cbn [length]. f_equal; rewrite app_nth2 by lia.
    - replace (length l + 2 - 2 - length l)%nat with 0%nat by lia. reflexivity.
    - replace (length l + 2 - 1 - length l)%nat with 1%nat by lia. reflexivity. }
  unfold sub_found in Fx. rewrite Hk in Fx.
  assert (G3 : Forall (fun t => c_kind t = KSubcommand -> entry (c_commands t) = Some t /\ match c_handler t with HSub s => ss_use_m s = list_eqb (c_commands t) [29; 40; 107] | _ => False end) all_commands).
  { unfold all_commands, esc_pos_commands, frame_commands. cbn [app].
    repeat (apply Forall_cons; [intros X; first [discriminate X | split; reflexivity]|]). apply Forall_nil. }
  destruct (proj1 (Forall_forall _ _) G3 _ Ht ltac:(rewrite <- (in_kind _ _ I); exact K)) as (G4 & G5).
  rewrite HT in G5. rewrite <- (in_commands _ _ I), Ep in G4, G5. destruct HL as (HL & _).
  exists x. split; [unfold sub_lookup; rewrite G4, HT, G5, <- HL, <- Ep, <- Um; exact Fx|].
  split; [exact X1|]. split; [exact X2|]. split; [f_equal; exact X3 | exact Bd].
Qed.
