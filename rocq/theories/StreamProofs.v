(** * StreamProofs: well-formed streams parse to exactly the commands they encode. *)
From Verif Require Import Base Command CommandSet Parser SpecStream ParserLemmas Automaton.
Local Open Scope string_scope.
Local Open Scope Z_scope.
Local Open Scope list_scope.

(** ** Little-endian fields *)

Lemma lor_shift_add (hi lo k : Z) :
  0 <= k -> 0 <= lo < 2 ^ k -> Z.lor (Z.shiftl hi k) lo = hi * 2 ^ k + lo.
Proof.
  intros Hk Hlo.
  assert (Hz : Z.land (Z.shiftl hi k) lo = 0).
  { apply Z.bits_inj'; intros n Hn. rewrite Z.land_spec, Z.bits_0.
    rewrite Z.shiftl_spec by lia.
    destruct (Z.ltb_spec n k) as [H|H].
    - rewrite Z.testbit_neg_r by lia. reflexivity.
    - destruct (Z.eq_dec lo 0) as [->|Hne]; [rewrite Z.bits_0; apply andb_false_r|].
      rewrite (Z.bits_above_log2 lo n); [apply andb_false_r|lia|].
      apply Z.log2_lt_pow2; [lia|].
      apply Z.lt_le_trans with (2 ^ k); [lia|]. apply Z.pow_le_mono_r; lia. }
  rewrite <- (Z.lxor_lor _ _ Hz), <- (Z.add_nocarry_lxor _ _ Hz), Z.shiftl_mul_pow2 by lia.
  reflexivity.
Qed.

Lemma parse_u16_le lo hi rest :
  0 <= lo < 256 -> parse_u16 (lo :: hi :: rest) 0 = lo + hi * 256.
Proof.
  intros H. unfold parse_u16. cbn [get_or nth Nat.add].
  unfold get_or; cbn [nth]. rewrite (lor_shift_add hi lo 8) by (lia). lia.
Qed.

Lemma parse_u32_le b0 b1 b2 b3 rest :
  0 <= b0 < 256 -> 0 <= b1 < 256 -> 0 <= b2 < 256 ->
  parse_u32 (b0 :: b1 :: b2 :: b3 :: rest) 0 =
    b0 + b1 * 256 + b2 * 65536 + b3 * 16777216.
Proof.
  intros H0 H1 H2. unfold parse_u32, get_or. cbn [nth Nat.add].
  rewrite (Z.shiftl_mul_pow2 b2), (Z.shiftl_mul_pow2 b1) by lia.
  rewrite (lor_shift_add b3 (b2 * 2 ^ 16) 24) by lia.
  replace (b3 * 2 ^ 24 + b2 * 2 ^ 16) with (Z.shiftl (b3 * 2 ^ 8 + b2) 16)
    by (rewrite Z.shiftl_mul_pow2 by lia; lia).
  rewrite (lor_shift_add _ (b1 * 2 ^ 8) 16) by lia.
  replace ((b3 * 2 ^ 8 + b2) * 2 ^ 16 + b1 * 2 ^ 8)
    with (Z.shiftl (b3 * 2 ^ 16 + b2 * 2 ^ 8 + b1) 8)
    by (rewrite Z.shiftl_mul_pow2 by lia; lia).
  rewrite (lor_shift_add _ b0 8) by lia. lia.
Qed.

(** ** Feeding each kind of variable-length command *)

Definition cmd_h (k : command) (h : handler) (d : list Z) : command :=
  with_handler (with_data k d) h.

Lemma push_custom k h d b :
  c_dkind k = DCustom ->
  cmd_push (cmd_h k h d) b =
    (do r <- handler_push h d b; let '(a, h', d') := r in Ok (a, cmd_h k h' d')).
Proof.
  intros H. unfold cmd_push, cmd_h. cbn [with_handler with_data c_dkind c_handler c_data].
  rewrite H. reflexivity.
Qed.

Lemma cmd_h_id k : cmd_h k (c_handler k) (c_data k) = k.
Proof. destruct k; reflexivity. Qed.

Lemma last_app_single (l : list Z) x d : last (l ++ [x]) d = x.
Proof. induction l as [|a l IH]; [reflexivity|]. cbn [app]. destruct l; [reflexivity|exact IH]. Qed.

Lemma last_not_in (l : list Z) d : ~ In d l -> l <> [] -> last l 1 <> d.
Proof.
  induction l as [|a l IH]; intros Hn Hl; [congruence|].
  destruct l as [|b l].
  - cbn. intros E. apply Hn. now left.
  - change (last (a :: b :: l) 1) with (last (b :: l) 1). apply IH; [|discriminate].
    intros E. apply Hn. now right.
Qed.

Lemma last_nonzero (l : list Z) : ~ In 0 l -> (last l 1 =? 0) = false.
Proof.
  intros H. destruct l as [|a l]; [reflexivity|].
  pose proof (last_not_in (a :: l) 0 H ltac:(discriminate)). lia.
Qed.

Lemma feed_barcode_nul k s bs : forall d,
  c_dkind k = DCustom ->
  bc_accept s = true -> bc_encoding s = NulTerminated -> ~ In 0 (d ++ bs) ->
  feed (cmd_h k (HBarcode s) d) bs = Some (cmd_h k (HBarcode s) (d ++ bs)).
Proof.
  induction bs as [|b bs IH]; intros d Hk Ha He Hn; cbn [feed].
  - rewrite app_nil_r. reflexivity.
  - rewrite push_custom by exact Hk. cbn [handler_push]. unfold barcode_push.
    rewrite Ha, He. cbn [negb]. unfold NUL. rewrite last_nonzero.
    + cbn [bind]. rewrite IH; [rewrite <- app_assoc; reflexivity|assumption..|].
      rewrite <- app_assoc. exact Hn.
    + intros Hi. apply Hn. apply in_or_app. now left.
Qed.

Lemma feed_barcode_len k s bs : forall d,
  c_dkind k = DCustom ->
  bc_accept s = true -> bc_encoding s = ExplicitSize -> bc_has_capacity s = true ->
  zlen d + zlen bs <= bc_capacity s ->
  feed (cmd_h k (HBarcode s) d) bs = Some (cmd_h k (HBarcode s) (d ++ bs)).
Proof.
  unfold zlen.
  induction bs as [|b bs IH]; intros d Hk Ha He Hc Hn; cbn [feed].
  - rewrite app_nil_r. reflexivity.
  - rewrite push_custom by exact Hk. cbn [handler_push]. unfold barcode_push.
    rewrite Ha, He, Hc. cbn [negb]. cbn [length] in Hn.
    destruct (Z.ltb_spec (Z.of_nat (length d)) (bc_capacity s)); [|lia].
    cbn [bind]. rewrite IH; [rewrite <- app_assoc; reflexivity|assumption..|].
    rewrite app_length; cbn [length]. lia.
Qed.

Definition bi_sized (s : bit_image_st) (n : Z) : bit_image_st :=
  {| bi_width := bi_width s; bi_height := bi_height s; bi_capacity := bi_capacity s;
     bi_col_encoded := bi_col_encoded s; bi_size := n; bi_accept := bi_accept s;
     bi_stretch := bi_stretch s; bi_params := bi_params s |}.

Lemma feed_bit_image k s bs : forall d,
  c_dkind k = DCustom -> bi_accept s = true ->
  zlen d + zlen bs <= bi_capacity s ->
  feed (cmd_h k (HBitImage (bi_sized s (zlen d))) d) bs
    = Some (cmd_h k (HBitImage (bi_sized s (zlen (d ++ bs)))) (d ++ bs)).
Proof.
  unfold zlen.
  induction bs as [|b bs IH]; intros d Hk Ha Hn; cbn [feed].
  - rewrite app_nil_r. reflexivity.
  - rewrite push_custom by exact Hk. cbn [handler_push]. unfold bit_image_push.
    cbn [bi_sized bi_accept bi_capacity bi_size]. rewrite Ha. cbn [length] in Hn.
    destruct (Z.leb_spec (bi_capacity s) (Z.of_nat (length d))); [lia|].
    cbn [bind].
    specialize (IH (d ++ [b]) Hk Ha). rewrite app_length in IH. cbn [length] in IH.
    replace (Z.of_nat (length d + 1)) with (Z.of_nat (length d) + 1) in IH by lia.
    unfold bi_sized in *; cbn [bi_width bi_height bi_capacity bi_col_encoded bi_size bi_accept bi_stretch bi_params] in *.
    rewrite Ha in IH. rewrite IH by lia.
    rewrite <- app_assoc. cbn [app]. rewrite Ha. reflexivity.
Qed.

Lemma bit_image_full s d b :
  bi_accept s = true -> bi_capacity s = zlen d ->
  bit_image_push (bi_sized s (zlen d)) d b = (false, bi_sized s (zlen d), d).
Proof.
  intros Ha Hc. unfold bit_image_push.
  change (bi_accept (bi_sized s (zlen d))) with (bi_accept s).
  change (bi_capacity (bi_sized s (zlen d))) with (bi_capacity s).
  change (bi_size (bi_sized s (zlen d))) with (zlen d).
  rewrite Ha, Hc, Z.leb_refl. reflexivity.
Qed.

Lemma raster_full s d b :
  ra_accept s = true -> ra_capacity s = zlen d -> raster_push s d b = (false, s, d).
Proof.
  intros Ha Hc. unfold raster_push. rewrite Ha, Hc. unfold zlen. rewrite Z.leb_refl. reflexivity.
Qed.

Lemma feed_raster k s bs : forall d,
  c_dkind k = DCustom -> ra_accept s = true ->
  zlen d + zlen bs <= ra_capacity s ->
  feed (cmd_h k (HRaster s) d) bs = Some (cmd_h k (HRaster s) (d ++ bs)).
Proof.
  unfold zlen.
  induction bs as [|b bs IH]; intros d Hk Ha Hn; cbn [feed].
  - rewrite app_nil_r. reflexivity.
  - rewrite push_custom by exact Hk. cbn [handler_push]. unfold raster_push.
    rewrite Ha. cbn [negb]. cbn [length] in Hn.
    destruct (Z.leb_spec (ra_capacity s) (Z.of_nat (length d))); [lia|].
    cbn [bind]. rewrite IH; [rewrite <- app_assoc; reflexivity|assumption..|].
    rewrite app_length; cbn [length]. lia.
Qed.

Lemma feed_char_effects k cap bs : forall d,
  c_dkind k = DCustom -> (3 <= length d)%nat ->
  zlen d + zlen bs <= cap ->
  feed (cmd_h k (HCharEffects cap) d) bs = Some (cmd_h k (HCharEffects cap) (d ++ bs)).
Proof.
  unfold zlen.
  induction bs as [|b bs IH]; intros d Hk Hd Hn; cbn [feed].
  - rewrite app_nil_r. reflexivity.
  - rewrite push_custom by exact Hk. cbn [handler_push]. unfold char_effects_push.
    cbn [length] in Hn.
    destruct (Nat.ltb_spec (length d) 2); [lia|].
    destruct (Nat.eqb_spec (length d) 2); [lia|].
    destruct (Z.ltb_spec (Z.of_nat (length d)) cap); [|lia].
    cbn [bind]. rewrite IH; [rewrite <- app_assoc; reflexivity|assumption|..].
    + rewrite app_length; cbn [length]. lia.
    + rewrite app_length; cbn [length]. lia.
Qed.

Lemma feed_sub k s bs : forall d,
  c_dkind k = DCustom -> ss_accept s = true ->
  zlen d + zlen bs <= ss_capacity s ->
  feed (cmd_h k (HSub s) d) bs = Some (cmd_h k (HSub s) (d ++ bs)).
Proof.
  unfold zlen.
  induction bs as [|b bs IH]; intros d Hk Ha Hn; cbn [feed].
  - rewrite app_nil_r. reflexivity.
  - rewrite push_custom by exact Hk. cbn [handler_push]. unfold sub_push, sub_take.
    rewrite Ha. cbn [negb]. cbn [length] in Hn.
    destruct (Z.ltb_spec (Z.of_nat (length d)) (ss_capacity s)); [|lia].
    cbn [bind]. rewrite IH; [rewrite <- app_assoc; reflexivity|assumption..|].
    rewrite app_length; cbn [length]. lia.
Qed.

(** ** One item at a time *)

(** What processing item [i] leaves behind, [cap] being what had been captured before. *)
Definition after (i : item) (cap : list command) (st : pstate) : Prop :=
  if open_ended i then
    exists c m, st = bd (Some c) true cap m /\ (c_dkind c = DText \/ c_dkind c = DUnknown) /\
                map observe (emitted c) = expect i
  else
    exists c c' m, st = bd (Some c) false cap m /\
                (forall b, cmd_push c b = Ok (false, c')) /\
                map observe (emitted c') = expect i /\ map observe (emitted c) = expect_eof i.

Definition closes (i : item) : Prop :=
  exists p args k c c',
    wire i = p ++ args /\ p <> [] /\ scan esc_pos_commands 0 p = Some k /\
    feed k args = Some c /\ (forall b, cmd_push c b = Ok (false, c')) /\
    map observe (emitted c') = expect i /\ map observe (emitted c) = expect_eof i.

Definition plain_handler (h : handler) : bool := match h with HPlain _ => true | _ => false end.

Lemma fixed_table_sound :
  Forall (fun '(name, kd, p, n) =>
            exists k, scan esc_pos_commands 0 p = Some k /\ p <> [] /\ c_name k = name /\
                      c_kind k = kd /\ c_commands k = p /\ c_data k = [] /\
                      fixed_arity (c_dkind k) = Some n /\ plain_handler (c_handler k) = true /\
                      kd <> KSubcommand)
         fixed_table.
Proof.
  unfold fixed_table.
  repeat (apply Forall_cons;
          [ eexists; split; [vm_compute; reflexivity|];
            repeat split; try discriminate; reflexivity |]).
  constructor.
Qed.

Lemma observe_plain k d :
  plain_handler (c_handler k) = true ->
  observe (with_data k d) = simple (c_name k) (c_kind k) (c_commands k) d.
Proof.
  intros H. unfold observe, get_command_bytes, with_data, simple; cbn.
  destruct (c_handler k); try discriminate; reflexivity.
Qed.

Lemma emitted_not_sub c : c_kind c <> KSubcommand -> emitted c = [c].
Proof. unfold emitted. destruct (c_kind c); congruence. Qed.

Lemma closes_fixed name k p args : item_ok (IFixed name k p args) -> closes (IFixed name k p args).
Proof.
  cbn [item_ok]. unfold in_fixed. intros Hin.
  pose proof (proj1 (Forall_forall _ _) fixed_table_sound _ Hin) as Hk. cbn beta iota in Hk.
  destruct Hk as (c & Hscan & Hp & Hname & Hkind & Hcmds & Hdata & Har & Hpl & Hns).
  exists p, args, c, (with_data c args), (with_data c args).
  assert (Hobs : map observe (emitted (with_data c args)) = [simple name k p args]).
  { rewrite emitted_not_sub by (cbn [with_data c_kind]; congruence). cbn [map].
    rewrite observe_plain by exact Hpl. congruence. }
  split; [reflexivity|]. split; [exact Hp|]. split; [exact Hscan|]. split.
  { rewrite (feed_fixed (length args)); [rewrite Hdata; reflexivity|exact Har|].
    rewrite Hdata; cbn [length]; lia. }
  split.
  { intros b. rewrite (push_fixed _ (length args)) by exact Har.
    cbn [with_data c_data]. rewrite Nat.leb_refl. reflexivity. }
  split; exact Hobs.
Qed.

Ltac closes_start p a k :=
  exists p, a, k; do 2 eexists;
  split; [reflexivity|]; split; [discriminate|]; split; [vm_compute; reflexivity|].

Lemma closes_barcode_nul m d : item_ok (IBarcodeNul m d) -> closes (IBarcodeNul m d).
Proof.
  cbn [item_ok]. intros [Hm Hd].
  closes_start [29; 107] (m :: d ++ [0]) cmd_barcode.
  set (s := {| bc_kind := barcode_kind m; bc_kind_id := m; bc_encoding := NulTerminated;
               bc_capacity := 0; bc_has_capacity := false; bc_accept := true;
               bc_raw_params := [m] |}).
  assert (He : barcode_encoding m = NulTerminated)
    by (unfold barcode_encoding; destruct (Z.leb_spec m 6); [reflexivity|lia]).
  split.
  { cbn [feed]. rewrite <- (cmd_h_id cmd_barcode). rewrite push_custom by reflexivity.
    cbn [c_handler c_data cmd_barcode mk_cmd handler_push]. unfold barcode_push.
    cbn [barcode_init bc_accept negb bind bc_raw_params bc_capacity bc_has_capacity app].
    rewrite He. fold s. change (cmd_h _ (HBarcode s) []) with (cmd_h cmd_barcode (HBarcode s) []).
    rewrite feed_app, feed_barcode_nul; [|reflexivity|reflexivity|reflexivity|exact Hd].
    cbn [app feed]. rewrite push_custom by reflexivity. cbn [handler_push]. unfold barcode_push.
    cbn [s bc_accept bc_encoding negb]. unfold NUL. rewrite last_nonzero by exact Hd.
    cbn [bind]. reflexivity. }
  split.
  { intros b. rewrite push_custom by reflexivity. cbn [handler_push]. unfold barcode_push.
    cbn [s bc_accept bc_encoding negb]. unfold NUL. rewrite last_app_single. cbn [Z.eqb bind].
    rewrite removelast_last. reflexivity. }
  split; [reflexivity|].
  cbn. unfold observe. cbn. rewrite <- app_assoc. reflexivity.
Qed.

Lemma closes_barcode_len m d : item_ok (IBarcodeLen m d) -> closes (IBarcodeLen m d).
Proof.
  cbn [item_ok]. intros [Hm Hd].
  closes_start [29; 107] (m :: zlen d :: d) cmd_barcode.
  set (s := {| bc_kind := barcode_kind m; bc_kind_id := m; bc_encoding := ExplicitSize;
               bc_capacity := zlen d; bc_has_capacity := true; bc_accept := true;
               bc_raw_params := [m; zlen d] |}).
  assert (He : barcode_encoding m = ExplicitSize)
    by (unfold barcode_encoding; destruct (Z.leb_spec m 6), (Z.leb_spec 65 m), (Z.leb_spec m 79);
        try lia; reflexivity).
  split.
  { cbn [feed]. rewrite <- (cmd_h_id cmd_barcode). rewrite push_custom by reflexivity.
    cbn [c_handler c_data cmd_barcode mk_cmd handler_push]. unfold barcode_push.
    cbn [barcode_init bc_accept negb bind bc_raw_params bc_capacity bc_has_capacity app].
    rewrite He. rewrite push_custom by reflexivity. cbn [handler_push]. unfold barcode_push.
    cbn [bc_accept bc_encoding bc_has_capacity negb bind bc_kind bc_kind_id bc_raw_params app].
    fold s. change (cmd_h _ (HBarcode s) []) with (cmd_h cmd_barcode (HBarcode s) []).
    rewrite feed_barcode_len; [reflexivity|reflexivity..|]. cbn [s bc_capacity].
    unfold zlen; cbn [length]; lia. }
  split.
  { intros b. rewrite push_custom by reflexivity. cbn [handler_push]. unfold barcode_push.
    cbn [s bc_accept bc_encoding negb bc_has_capacity app bc_capacity].
    unfold zlen. rewrite Z.ltb_irrefl. cbn [bind]. reflexivity. }
  split; reflexivity.
Qed.

Lemma closes_barcode_bad m : item_ok (IBarcodeBad m) -> closes (IBarcodeBad m).
Proof.
  cbn [item_ok]. intros Hm.
  closes_start [29; 107] [m] cmd_barcode.
  assert (He : barcode_encoding m = EncUnknown)
    by (unfold barcode_encoding; destruct (Z.leb_spec m 6), (Z.leb_spec 65 m), (Z.leb_spec m 79);
        try lia; reflexivity).
  split.
  { cbn [feed]. rewrite <- (cmd_h_id cmd_barcode). rewrite push_custom by reflexivity.
    cbn [c_handler c_data cmd_barcode mk_cmd handler_push]. unfold barcode_push.
    cbn [barcode_init bc_accept negb bind bc_raw_params bc_capacity bc_has_capacity app].
    rewrite He. reflexivity. }
  split.
  { intros b. rewrite push_custom by reflexivity. cbn [handler_push]. unfold barcode_push.
    cbn [bc_accept bc_encoding negb bind]. reflexivity. }
  split; reflexivity.
Qed.

Lemma closes_bit_image m nl nh d : item_ok (IBitImage m nl nh d) -> closes (IBitImage m nl nh d).
Proof.
  cbn [item_ok]. intros Hd.
  closes_start [27; 42] (m :: nl :: nh :: d) cmd_bit_image.
  set (s := {| bi_width := nl + nh * 256; bi_height := if (m =? 32) || (m =? 33) then 24 else 8;
               bi_capacity := (nl + nh * 256) * (if (m =? 32) || (m =? 33) then 24 else 8) / 8;
               bi_col_encoded := true; bi_size := 0; bi_accept := true;
               bi_stretch := if (m =? 0) || (m =? 32) then (2, 3) else (1, 1);
               bi_params := [m; nl; nh] |}).
  assert (Hcap : bi_capacity s = zlen d).
  { cbn [s bi_capacity]. destruct ((m =? 32) || (m =? 33)); lia. }
  split.
  { cbn [feed]. rewrite <- (cmd_h_id cmd_bit_image). rewrite push_custom by reflexivity.
    cbn [c_handler c_data cmd_bit_image mk_cmd handler_push]. unfold bit_image_push at 1.
    cbn [bit_image_init bi_accept length Nat.ltb Nat.leb bind app].
    rewrite push_custom by reflexivity. cbn [handler_push]. unfold bit_image_push at 1.
    cbn [bit_image_init bi_accept length Nat.ltb Nat.leb bind app].
    rewrite push_custom by reflexivity. cbn [handler_push]. unfold bit_image_push at 1.
    cbn [bit_image_init bi_accept length Nat.ltb Nat.leb bind app get_or nth bi_size bi_stretch bi_col_encoded].
    unfold get_or. cbn [nth].
    match goal with |- feed (cmd_h ?k (HBitImage ?x) _) _ = _ =>
      replace x with (bi_sized s (zlen [])) by
        (unfold bi_sized; cbn [s bi_width bi_height bi_capacity bi_col_encoded bi_accept bi_stretch bi_params];
         destruct ((m =? 32) || (m =? 33)); reflexivity)
    end.
    match goal with |- feed (cmd_h ?k _ _) _ = _ => change k with cmd_bit_image end.
    rewrite feed_bit_image; [reflexivity|reflexivity|reflexivity|].
    rewrite Hcap. unfold zlen; cbn [length]; lia. }
  split.
  { intros b. rewrite push_custom by reflexivity. cbn [handler_push].
    rewrite bit_image_full by (reflexivity || exact Hcap). cbn [bind]. reflexivity. }
  split; reflexivity.
Qed.

Lemma closes_raster m xl xh yl yh d :
  item_ok (IRaster m xl xh yl yh d) -> closes (IRaster m xl xh yl yh d).
Proof.
  cbn [item_ok]. intros Hd.
  closes_start [29; 118; 48] (m :: xl :: xh :: yl :: yh :: d) cmd_raster_bit_image.
  set (s := {| ra_width := (xl + xh * 256) * 8; ra_height := yl + yh * 256;
               ra_capacity := (xl + xh * 256) * (yl + yh * 256); ra_scaling := m;
               ra_accept := true; ra_params := [m; xl; xh; yl; yh] |}).
  assert (Hcap : ra_capacity s = zlen d) by (cbn [s ra_capacity]; rewrite Hd; f_equal; lia).
  split.
  { cbn [feed]. rewrite <- (cmd_h_id cmd_raster_bit_image).
    do 5 (rewrite push_custom by reflexivity;
          cbn [c_handler c_data cmd_raster_bit_image mk_cmd handler_push];
          unfold raster_push at 1;
          cbn [raster_init ra_accept negb length Nat.ltb Nat.leb bind app]).
    unfold get_or. cbn [nth]. fold s.
    match goal with |- feed (cmd_h ?k _ _) _ = _ => change k with cmd_raster_bit_image end.
    rewrite feed_raster; [reflexivity|reflexivity|reflexivity|].
    rewrite Hcap. unfold zlen; cbn [length]; lia. }
  split.
  { intros b. rewrite push_custom by reflexivity. cbn [handler_push].
    rewrite raster_full by (reflexivity || exact Hcap). cbn [bind]. reflexivity. }
  split; reflexivity.
Qed.

Lemma in4 m a b c d : In m [a; b; c; d] -> ((m =? a) || (m =? c) || (m =? b) || (m =? d)) = true.
Proof. cbn. lia. Qed.
Lemma notin4 m a b c d : ~ In m [a; b; c; d] -> ((m =? a) || (m =? c) || (m =? b) || (m =? d)) = false.
Proof. cbn. intros H. lia. Qed.

Lemma closes_cut m : item_ok (ICut m) -> closes (ICut m).
Proof.
  cbn [item_ok]. intros Hm.
  closes_start [29; 86] [m] cmd_feed_and_cut.
  split.
  { cbn [feed]. rewrite <- (cmd_h_id cmd_feed_and_cut).
    rewrite push_custom by reflexivity. cbn [c_handler c_data cmd_feed_and_cut mk_cmd handler_push feed_cut_push bind].
    reflexivity. }
  split.
  { intros b. rewrite push_custom by reflexivity. cbn [handler_push feed_cut_push].
    rewrite (in4 _ _ _ _ _ Hm). cbn [bind]. reflexivity. }
  split; reflexivity.
Qed.

Lemma closes_cut_feed m n : item_ok (ICutFeed m n) -> closes (ICutFeed m n).
Proof.
  cbn [item_ok]. intros Hm.
  closes_start [29; 86] [m; n] cmd_feed_and_cut.
  split.
  { cbn [feed]. rewrite <- (cmd_h_id cmd_feed_and_cut).
    rewrite push_custom by reflexivity. cbn [c_handler c_data cmd_feed_and_cut mk_cmd handler_push feed_cut_push bind].
    rewrite push_custom by reflexivity. cbn [handler_push feed_cut_push].
    rewrite (notin4 _ _ _ _ _ Hm). cbn [bind app]. reflexivity. }
  split.
  { intros b. rewrite push_custom by reflexivity. cbn [handler_push feed_cut_push bind]. reflexivity. }
  split; reflexivity.
Qed.

Lemma closes_char_effects pl ph d :
  item_ok (ICharEffects pl ph d) -> closes (ICharEffects pl ph d).
Proof.
  cbn [item_ok]. intros [Hne Hd]. destruct d as [|x d]; [congruence|].
  closes_start [29; 40; 78] (pl :: ph :: x :: d) cmd_set_character_effects.
  split.
  { cbn [feed]. rewrite <- (cmd_h_id cmd_set_character_effects).
    do 3 (rewrite push_custom by reflexivity;
          cbn [c_handler c_data cmd_set_character_effects mk_cmd handler_push];
          unfold char_effects_push at 1;
          cbn [length Nat.ltb Nat.leb Nat.eqb bind app]).
    unfold get_or. cbn [nth].
    match goal with |- feed (cmd_h ?k _ _) _ = _ => change k with cmd_set_character_effects end.
    destruct (Z.leb_spec 1 (pl + 256 * ph)) as [H1|H1].
    - rewrite feed_char_effects; [reflexivity|reflexivity|cbn [length]; lia|].
      unfold zlen in *; cbn [length] in *. lia.
    - assert (d = []) by (destruct d; [reflexivity|unfold zlen in Hd; cbn [length] in Hd; lia]).
      subst d. reflexivity. }
  split.
  { intros b. rewrite push_custom by reflexivity. cbn [handler_push]. unfold char_effects_push.
    cbn [length Nat.ltb Nat.leb Nat.eqb app].
    destruct (Z.ltb_spec (Z.of_nat (S (S (S (length d))))) (pl + ph * 256 + 2)) as [H|H].
    - unfold zlen in Hd; cbn [length] in Hd. lia.
    - cbn [bind]. reflexivity. }
  split; reflexivity.
Qed.

Lemma closes_print_page : closes IPrintPage.
Proof.
  closes_start [27; 12] (@nil Z) cmd_page_mode_print_data.
  split; [reflexivity|]. split; [intros b; reflexivity|]. split; reflexivity.
Qed.

(** ** Sub-commands *)

Definition meta_len (s : sub_st) : nat := if ss_is_large s then 6%nat else 4%nat.

Lemma feed_header k s bs : forall d,
  c_dkind k = DCustom -> ss_accept s = false -> (length d + length bs <= meta_len s)%nat ->
  feed (cmd_h k (HSub s) d) bs = Some (cmd_h k (HSub s) (d ++ bs)).
Proof.
  induction bs as [|b bs IH]; intros d Hk Ha Hn; cbn [feed].
  - rewrite app_nil_r. reflexivity.
  - rewrite push_custom by exact Hk. cbn [handler_push]. unfold sub_push. rewrite Ha.
    cbn [negb]. fold (meta_len s). cbn [length] in Hn.
    destruct (Nat.ltb_spec (length d) (meta_len s)); [|lia].
    cbn [bind]. rewrite IH; [rewrite <- app_assoc; reflexivity|assumption..|].
    rewrite app_length; cbn [length]. lia.
Qed.

(** What [sub_take] leaves when the payload [d] is complete. *)
Definition filled (s : sub_st) (d : list Z) : sub_st :=
  match ss_subcommand s with
  | Some c =>
      {| ss_commands := ss_commands s;
         ss_subcommand := Some {| sc_name := sc_name c; sc_commands := sc_commands c;
                                  sc_data := d; sc_kind := sc_kind c; sc_id := sc_id c |};
         ss_is_large := ss_is_large s; ss_m := ss_m s; ss_id := ss_id s;
         ss_capacity := ss_capacity s; ss_accept := ss_accept s; ss_use_m := ss_use_m s |}
  | None => s
  end.
Definition left_data (s : sub_st) (d : list Z) : list Z :=
  match ss_subcommand s with Some c => sc_data c | None => d end.

Lemma sub_take_full s d b :
  ss_capacity s = zlen d -> sub_take s d b = (false, filled s d, left_data s d).
Proof.
  intros Hc. unfold sub_take, filled, left_data. rewrite Hc. unfold zlen.
  rewrite Z.ltb_irrefl. destruct (ss_subcommand s); reflexivity.
Qed.

Lemma sub_take_more s d b :
  zlen d < ss_capacity s -> sub_take s d b = (true, s, d ++ [b]).
Proof.
  intros Hc. unfold sub_take. unfold zlen in Hc.
  destruct (Z.ltb_spec (Z.of_nat (length d)) (ss_capacity s)); [reflexivity|lia].
Qed.

Lemma firstn_all_len {A} (l : list A) n : length l = n -> firstn n l = l.
Proof. intros <-. apply firstn_all. Qed.

Lemma sub_run k s hdr d s' :
  c_dkind k = DCustom -> ss_accept s = false -> length hdr = meta_len s ->
  parse_meta s hdr = Ok s' -> ss_accept s' = true -> ss_capacity s' = zlen d ->
  feed (cmd_h k (HSub s) []) (hdr ++ d) =
    Some (match d with [] => cmd_h k (HSub s) hdr | _ => cmd_h k (HSub s') d end) /\
  forall b, cmd_push (match d with [] => cmd_h k (HSub s) hdr | _ => cmd_h k (HSub s') d end) b
            = Ok (false, cmd_h k (HSub (filled s' d)) (left_data s' d)).
Proof.
  intros Hk Ha Hl Hm Ha' Hc.
  assert (Hpush : forall b, handler_push (HSub s) hdr b =
            let '(a, s2, d2) := sub_take s' [] b in Ok (a, HSub s2, d2)).
  { intros b. cbn [handler_push]. unfold sub_push. rewrite Ha. cbn [negb].
    fold (meta_len s). rewrite Hl, Nat.ltb_irrefl. rewrite (firstn_all_len hdr _ Hl).
    rewrite Hm. cbn [bind]. reflexivity. }
  split.
  - rewrite feed_app, feed_header by (try assumption; cbn [length]; lia).
    cbn [app]. destruct d as [|x d]; [reflexivity|].
    cbn [feed]. rewrite push_custom by exact Hk. rewrite Hpush.
    rewrite sub_take_more by (rewrite Hc; unfold zlen; cbn [length]; lia).
    cbn [bind app]. rewrite feed_sub; [reflexivity|assumption..|].
    rewrite Hc; unfold zlen; cbn [length]; lia.
  - intros b. destruct d as [|x d].
    + rewrite push_custom by exact Hk. rewrite Hpush.
      rewrite sub_take_full by exact Hc. reflexivity.
    + rewrite push_custom by exact Hk. cbn [handler_push]. unfold sub_push. rewrite Ha'.
      cbn [negb]. rewrite sub_take_full by exact Hc. reflexivity.
Qed.

(** ** The sub-command tables agree with the documented function tables *)

Definition entry (o : option subcmd) : option (string * ckind) :=
  option_map (fun c => (sc_name c, sc_kind c)) o.

Lemma detect_kind_none tbl fn :
  forallb (fun c => negb (mem_byte fn (sc_commands c))) tbl = true -> detect_kind tbl fn = None.
Proof.
  unfold detect_kind. induction tbl as [|c l IH]; cbn [forallb find]; [reflexivity|].
  intros H. apply andb_prop in H. destruct H as [H1 H2].
  destruct (mem_byte fn (sc_commands c)); [discriminate|]. apply IH, H2.
Qed.

Lemma detect_use_m_none tbl m fn :
  forallb (fun c => match sc_commands c with
                    | [] => true
                    | b :: rest => negb ((b =? m) && mem_byte fn rest) end) tbl = true ->
  detect_kind_use_m tbl m fn = None.
Proof.
  unfold detect_kind_use_m.
  generalize (@None subcmd). induction tbl as [|c l IH]; cbn [forallb fold_left]; [reflexivity|].
  intros a H. apply andb_prop in H. destruct H as [H1 H2].
  rewrite IH by exact H2. destruct (sc_commands c) as [|b rest]; [reflexivity|].
  destruct (b =? m); cbn [negb andb] in *; [|reflexivity].
  destruct (mem_byte fn rest); [discriminate|reflexivity].
Qed.

Definition upto (n : nat) : list Z := map Z.of_nat (seq 0 n).
Lemma in_upto n x : 0 <= x < Z.of_nat n -> In x (upto n).
Proof.
  intros H. unfold upto. apply in_map_iff. exists (Z.to_nat x). split; [lia|].
  apply in_seq. lia.
Qed.

Definition oeq (a b : option (string * ckind)) : {a = b} + {a <> b}.
Proof. repeat decide equality. Defined.

Lemma mem_byte_false x l : ~ In x l -> mem_byte x l = false.
Proof.
  intros H. unfold mem_byte. destruct (existsb (Z.eqb x) l) eqn:E; [|reflexivity].
  apply existsb_exists in E. destruct E as (y & Hy & E). apply Z.eqb_eq in E. subst. contradiction.
Qed.

Lemma graphics_bound :
  forallb (fun c => forallb (fun b => (0 <=? b) && (b <? 128)) (sc_commands c)) graphics_table = true.
Proof. vm_compute. reflexivity. Qed.
Lemma code2d_bound :
  forallb (fun c => forallb (fun b => (0 <=? b) && (b <? 128)) (sc_commands c)) code2d_table = true.
Proof. vm_compute. reflexivity. Qed.

Lemma assoc_none {A B} (eqb : A -> A -> bool) (k : A) (l : list (A * B)) :
  forallb (fun p => negb (eqb k (fst p))) l = true -> assoc eqb k l = None.
Proof.
  induction l as [|[a b] l IH]; cbn [forallb assoc fst]; [reflexivity|].
  intros H. apply andb_prop in H. destruct H as [H1 H2].
  destruct (eqb k a); [discriminate|]. apply IH, H2.
Qed.

Lemma graphics_tables fn : entry (detect_kind graphics_table fn) = graphics_lookup fn.
Proof.
  destruct (Z.leb_spec 0 fn) as [H0|H0], (Z.ltb_spec fn 128) as [H1|H1].
  - assert (Hall : forallb (fun x => if oeq (entry (detect_kind graphics_table x)) (graphics_lookup x)
                                    then true else false) (upto 128) = true)
      by (vm_compute; reflexivity).
    pose proof (proj1 (forallb_forall _ _) Hall fn (in_upto 128 fn ltac:(lia))) as H.
    cbn beta in H. destruct (oeq _ _); [assumption|discriminate].
  - rewrite detect_kind_none.
    + symmetry. apply assoc_none. apply forallb_forall. intros [a b] Hin.
      assert (Hb : forallb (fun p : Z * (string * ckind) => (0 <=? fst p) && (fst p <? 128)) graphics_functions = true)
        by (vm_compute; reflexivity).
      pose proof (proj1 (forallb_forall _ _) Hb _ Hin) as H. cbn [fst] in *. lia.
    + apply forallb_forall. intros c Hc.
      pose proof (proj1 (forallb_forall _ _) graphics_bound _ Hc) as H. cbn beta in H.
      rewrite mem_byte_false; [reflexivity|]. intros Hi.
      pose proof (proj1 (forallb_forall _ _) H _ Hi). cbn beta in *. lia.
  - rewrite detect_kind_none.
    + symmetry. apply assoc_none. apply forallb_forall. intros [a b] Hin.
      assert (Hb : forallb (fun p : Z * (string * ckind) => (0 <=? fst p) && (fst p <? 128)) graphics_functions = true)
        by (vm_compute; reflexivity).
      pose proof (proj1 (forallb_forall _ _) Hb _ Hin) as H. cbn [fst] in *. lia.
    + apply forallb_forall. intros c Hc.
      pose proof (proj1 (forallb_forall _ _) graphics_bound _ Hc) as H. cbn beta in H.
      rewrite mem_byte_false; [reflexivity|]. intros Hi.
      pose proof (proj1 (forallb_forall _ _) H _ Hi). cbn beta in *. lia.
  - lia.
Qed.

Lemma code2d_tables m fn : entry (detect_kind_use_m code2d_table m fn) = code2d_lookup m fn.
Proof.
  destruct (Bool.bool_dec ((0 <=? m) && (m <? 128) && ((0 <=? fn) && (fn <? 128))) true) as [Hr|Hr].
  - assert (Hall : forallb (fun x => forallb (fun y =>
        if oeq (entry (detect_kind_use_m code2d_table x y)) (code2d_lookup x y)
        then true else false) (upto 128)) (upto 128) = true) by (vm_compute; reflexivity).
    pose proof (proj1 (forallb_forall _ _) Hall m (in_upto 128 m ltac:(lia))) as H. cbn beta in H.
    pose proof (proj1 (forallb_forall _ _) H fn (in_upto 128 fn ltac:(lia))) as H'. cbn beta in H'.
    destruct (oeq _ _); [assumption|discriminate].
  - rewrite detect_use_m_none.
    + symmetry. apply assoc_none. apply forallb_forall. intros [[a1 a2] b] Hin.
      assert (Hb : forallb (fun p : (Z * Z) * (string * ckind) =>
                (0 <=? fst (fst p)) && (fst (fst p) <? 128) &&
                ((0 <=? snd (fst p)) && (snd (fst p) <? 128))) code2d_functions = true)
        by (vm_compute; reflexivity).
      pose proof (proj1 (forallb_forall _ _) Hb _ Hin) as H. cbn [fst snd] in *. lia.
    + apply forallb_forall. intros c Hc.
      pose proof (proj1 (forallb_forall _ _) code2d_bound _ Hc) as H. cbn beta in H.
      destruct (sc_commands c) as [|b rest]; [reflexivity|].
      cbn [forallb] in H. apply andb_prop in H. destruct H as [Hb Hrest].
      destruct (Z.eqb_spec b m) as [->|]; [|reflexivity]. cbn [andb].
      rewrite mem_byte_false; [reflexivity|]. intros Hi.
      pose proof (proj1 (forallb_forall _ _) Hrest _ Hi). cbn beta in *. lia.
Qed.

(** ** Sub-command items close *)

Lemma sub_observe k s' d name kd pre :
  c_kind k = KSubcommand -> c_commands k = pre -> ss_subcommand s' <> None ->
  (forall c, ss_subcommand s' = Some c -> sc_name c = name /\ sc_kind c = kd) ->
  forall hdr, (forall c, ss_subcommand s' = Some c -> sc_commands c = hdr) ->
  map observe (emitted (cmd_h k (HSub (filled s' d)) (left_data s' d))) =
    [simple name kd (pre ++ hdr) d].
Proof.
  intros Hk Hc Hs Hn hdr Hh. unfold emitted.
  cbn [cmd_h with_handler with_data c_kind c_handler c_commands]. rewrite Hk.
  cbn [get_subcommand]. unfold filled.
  destruct (ss_subcommand s') as [c|]; [|congruence].
  destruct (Hn c eq_refl) as [E1 E2]. specialize (Hh c eq_refl).
  cbn [ss_subcommand map]. unfold observe, simple, get_command_bytes.
  cbn [sc_name sc_commands sc_data sc_kind c_name c_kind c_commands c_data c_handler].
  rewrite Hc, E1, E2, Hh. reflexivity.
Qed.

Lemma entry_some o name kd : entry o = Some (name, kd) ->
  exists c, o = Some c /\ sc_name c = name /\ sc_kind c = kd.
Proof. destruct o as [c|]; [|discriminate]. cbn. intros H. injection H as <- <-. eauto. Qed.
Lemma entry_none o : entry o = None -> o = None.
Proof. destruct o; [discriminate|reflexivity]. Qed.

Lemma fam_len_read f n rest :
  2 <= n <= fam_max f ->
  match f with
  | LargeGraphics => parse_u32 (fam_len f n ++ rest) 0 = n
  | _ => parse_u16 (fam_len f n ++ rest) 0 = n
  end.
Proof.
  intros H. destruct f; cbn [fam_len fam_max app] in *.
  - rewrite parse_u16_le by lia. lia.
  - rewrite parse_u16_le by lia. lia.
  - rewrite parse_u32_le by lia. lia.
Qed.

Definition fam_sub (f : family) : sub_st :=
  match f with
  | Code2d => sub_init false true code2d_table
  | Graphics => sub_init false false graphics_table
  | LargeGraphics => sub_init true false graphics_table
  end.
Definition fam_cmd (f : family) : command :=
  match f with Code2d => cmd_code_2d | Graphics => cmd_graphics | LargeGraphics => cmd_large_graphics end.

Definition fam_found (f : family) (m fn : Z) : option subcmd :=
  match f with
  | Code2d => detect_kind_use_m code2d_table m fn
  | _ => detect_kind graphics_table fn
  end.

Lemma fam_found_lookup f m fn : entry (fam_found f m fn) = fam_lookup f m fn.
Proof. unfold fam_found, fam_lookup. destruct f; [apply code2d_tables|apply graphics_tables..]. Qed.

Definition fam_parsed (f : family) (m fn : Z) (d : list Z) : sub_st :=
  {| ss_commands := ss_commands (fam_sub f);
     ss_subcommand :=
       match fam_found f m fn with
       | Some c => Some {| sc_name := sc_name c; sc_commands := header f m fn d;
                           sc_data := sc_data c; sc_kind := sc_kind c; sc_id := sc_id c |}
       | None => None
       end;
     ss_is_large := ss_is_large (fam_sub f); ss_m := m; ss_id := fn; ss_capacity := zlen d;
     ss_accept := true; ss_use_m := ss_use_m (fam_sub f) |}.

Lemma fam_parse_meta f m fn d :
  zlen d + 2 <= fam_max f ->
  parse_meta (fam_sub f) (header f m fn d) = Ok (fam_parsed f m fn d).
Proof.
  intros Hd.
  assert (Hn : 2 <= zlen d + 2 <= fam_max f) by (unfold zlen in *; lia).
  pose proof (fam_len_read f (zlen d + 2) [m; fn] Hn) as Hr.
  unfold parse_meta, header in *.
  destruct f; cbn [fam_len app length Nat.eqb] in *; rewrite Hr;
    (destruct (Z.ltb_spec (zlen d + 2) 2); [lia|]);
    cbn [bind get_or nth fam_sub sub_init ss_use_m ss_commands ss_subcommand ss_is_large];
    unfold fam_parsed, header;
    cbn [fam_sub sub_init ss_use_m ss_commands ss_subcommand ss_is_large fam_found fam_len app];
    replace (zlen d + 2 - 2) with (zlen d) by lia;
    unfold get_or; cbn [nth].
  - destruct (detect_kind_use_m code2d_table m fn); reflexivity.
  - destruct (detect_kind graphics_table fn); reflexivity.
  - destruct (detect_kind graphics_table fn); reflexivity.
Qed.

Lemma fam_scan f : scan esc_pos_commands 0 (fam_prefix f) = Some (fam_cmd f).
Proof. destruct f; vm_compute; reflexivity. Qed.

Lemma detect_use_m_in m fn c l : forall acc,
  fold_left
    (fun acc c0 => match sc_commands c0 with
                   | [] => acc
                   | b :: rest => if negb (b =? m) then acc
                                  else if mem_byte fn rest then Some c0 else acc
                   end) l acc = Some c -> acc = Some c \/ In c l.
Proof.
  induction l as [|a l IH]; cbn [fold_left]; intros acc H; [now left|].
  destruct (IH _ H) as [H1|H1]; [|right; now right].
  destruct (sc_commands a) as [|b rest]; [now left|].
  destruct (negb (b =? m)); [now left|].
  destruct (mem_byte fn rest); [|now left].
  injection H1 as ->. right. now left.
Qed.

Lemma detect_use_m_table tbl m fn c : detect_kind_use_m tbl m fn = Some c -> In c tbl.
Proof.
  unfold detect_kind_use_m. intros H.
  destruct (detect_use_m_in _ _ _ _ _ H) as [?|?]; [discriminate|assumption].
Qed.
Lemma detect_table tbl fn c : detect_kind tbl fn = Some c -> In c tbl.
Proof. unfold detect_kind. intros H. apply find_some in H. tauto. Qed.

Lemma tables_data :
  forallb (fun c => match sc_data c with [] => true | _ => false end)
          (code2d_table ++ graphics_table) = true.
Proof. vm_compute. reflexivity. Qed.

Lemma fam_found_data f m fn c : fam_found f m fn = Some c -> sc_data c = [].
Proof.
  intros Ef.
  assert (Hin : In c (code2d_table ++ graphics_table)).
  { apply in_or_app. unfold fam_found in Ef. destruct f.
    - left. exact (detect_use_m_table _ _ _ _ Ef).
    - right. exact (detect_table _ _ _ Ef).
    - right. exact (detect_table _ _ _ Ef). }
  pose proof (proj1 (forallb_forall _ _) tables_data _ Hin) as H. cbn beta in H.
  destruct (sc_data c); [reflexivity|discriminate].
Qed.

Lemma fam_cmd_h f : fam_cmd f = cmd_h (fam_cmd f) (HSub (fam_sub f)) [].
Proof. destruct f; reflexivity. Qed.

Lemma emitted_sub_none k h d :
  c_kind k = KSubcommand -> ss_subcommand h = None -> emitted (cmd_h k (HSub h) d) = [].
Proof.
  intros Hk Hh. unfold emitted. cbn [cmd_h with_handler with_data c_kind c_handler].
  rewrite Hk. cbn [get_subcommand]. rewrite Hh. reflexivity.
Qed.

Lemma fam_sub_none f : ss_subcommand (fam_sub f) = None.
Proof. destruct f; reflexivity. Qed.

Lemma closes_sub f m fn d : item_ok (ISub f m fn d) -> closes (ISub f m fn d).
Proof.
  cbn [item_ok]. intros Hd.
  pose proof (fam_parse_meta f m fn d Hd) as Hm.
  assert (Hlen : length (header f m fn d) = meta_len (fam_sub f)) by (destruct f; reflexivity).
  assert (Hk : c_dkind (fam_cmd f) = DCustom) by (destruct f; reflexivity).
  assert (Hacc : ss_accept (fam_sub f) = false) by (destruct f; reflexivity).
  destruct (sub_run (fam_cmd f) (fam_sub f) (header f m fn d) d _ Hk Hacc Hlen Hm eq_refl eq_refl)
    as [Hfeed Hpush].
  exists (fam_prefix f), (header f m fn d ++ d), (fam_cmd f).
  eexists. eexists.
  split; [reflexivity|]. split; [destruct f; discriminate|]. split; [apply fam_scan|].
  split.
  { rewrite fam_cmd_h at 1. exact Hfeed. }
  split; [exact Hpush|].
  assert (Hkind : c_kind (fam_cmd f) = KSubcommand) by (destruct f; reflexivity).
  assert (Hpre : c_commands (fam_cmd f) = fam_prefix f) by (destruct f; reflexivity).
  cbn [expect expect_eof].
  rewrite <- fam_found_lookup.
  destruct (fam_found f m fn) as [c|] eqn:Ef; cbn [entry option_map].
  - split.
    + apply sub_observe; try assumption.
      * unfold fam_parsed. cbn [ss_subcommand]. rewrite Ef. discriminate.
      * unfold fam_parsed. cbn [ss_subcommand]. rewrite Ef. intros c0 H. injection H as <-. split; reflexivity.
      * unfold fam_parsed. cbn [ss_subcommand]. rewrite Ef. intros c0 H. injection H as <-. reflexivity.
    + destruct d as [|x d].
      * rewrite (emitted_sub_none _ _ _ Hkind (fam_sub_none f)). reflexivity.
      * unfold emitted. cbn [cmd_h with_handler with_data c_kind c_handler c_commands]. rewrite Hkind, Hpre.
        cbn [get_subcommand fam_parsed ss_subcommand]. rewrite Ef. cbn [map].
        unfold observe, simple, get_command_bytes.
        cbn [sc_name sc_commands sc_data sc_kind c_name c_kind c_commands c_data c_handler].
        rewrite (fam_found_data f m fn c Ef). reflexivity.
  - assert (Hp : ss_subcommand (fam_parsed f m fn d) = None)
      by (unfold fam_parsed; cbn [ss_subcommand]; rewrite Ef; reflexivity).
    split.
    + rewrite emitted_sub_none; [reflexivity|exact Hkind|]. unfold filled. rewrite Hp. exact Hp.
    + destruct d as [|x d]; (rewrite emitted_sub_none; [reflexivity|exact Hkind|]);
        [apply fam_sub_none|exact Hp].
Qed.

Lemma closes_request m fn d : item_ok (IRequest m fn d) -> closes (IRequest m fn d).
Proof.
  cbn [item_ok]. intros Hd.
  set (k := cmd_request_response_transmission).
  set (s := sub_init false false []).
  set (s' := {| ss_commands := []; ss_subcommand := None; ss_is_large := false; ss_m := m;
                ss_id := fn; ss_capacity := zlen d; ss_accept := true; ss_use_m := false |}).
  assert (Hm : parse_meta s (header Code2d m fn d) = Ok s').
  { assert (Hn : 2 <= zlen d + 2 <= fam_max Code2d) by (cbn [fam_max]; unfold zlen in *; lia).
    pose proof (fam_len_read Code2d (zlen d + 2) [m; fn] Hn) as Hr. cbn iota in Hr.
    unfold parse_meta, header in *. cbn [fam_len app length Nat.eqb] in *. rewrite Hr.
    destruct (Z.ltb_spec (zlen d + 2) 2); [lia|].
    unfold get_or. cbn [bind nth]. unfold s'.
    replace (zlen d + 2 - 2) with (zlen d) by lia. reflexivity. }
  destruct (sub_run k s (header Code2d m fn d) d s' eq_refl eq_refl eq_refl Hm eq_refl eq_refl)
    as [Hfeed Hpush].
  exists [29; 40; 72], (header Code2d m fn d ++ d), k. eexists. eexists.
  split; [reflexivity|]. split; [discriminate|]. split; [vm_compute; reflexivity|].
  split; [exact Hfeed|]. split; [exact Hpush|].
  split; [reflexivity|]. destruct d; reflexivity.
Qed.

(** ** Whole streams *)

(** Parser state between items: [o] is what the current command shows when a byte that does
    not continue it arrives, [e] what it shows at the end of the stream. *)
Inductive between (cap : list command) : bool -> list ocmd -> list ocmd -> pstate -> Prop :=
| Bt_closed c c' m : (forall b, cmd_push c b = Ok (false, c')) ->
    between cap false (map observe (emitted c')) (map observe (emitted c)) (bd (Some c) false cap m)
| Bt_open c m : (c_dkind c = DText \/ c_dkind c = DUnknown) ->
    between cap true (map observe (emitted c)) (map observe (emitted c)) (bd (Some c) true cap m).

Lemma item_closes i : item_ok i -> open_ended i = false -> closes i.
Proof.
  destruct i; intros Hok Ho; try discriminate Ho;
    [apply closes_fixed|apply closes_barcode_nul|apply closes_barcode_len|apply closes_barcode_bad
    |apply closes_bit_image|apply closes_raster|apply closes_cut|apply closes_cut_feed
    |apply closes_char_effects|apply closes_print_page|apply closes_sub|apply closes_request];
    exact Hok.
Qed.

Lemma wire_closed i : open_ended i = false -> closes i -> 
  forall cur d cap m cur', lets_go cur d (hd 0 (wire i)) cur' ->
  exists st, parse_all esc_pos (bd cur d cap m) (wire i) = Ok st /\
             between (cap ++ emitted_opt cur') false (expect i) (expect_eof i) st.
Proof.
  intros Ho (p & args & k & c & c' & Hw & Hp & Hs & Hf & Hpush & E1 & E2) cur d cap m cur' Hl.
  rewrite Hw in *. rewrite parse_all_app.
  assert (Hhd : hd 0 (p ++ args) = hd 0 p) by (destruct p; [congruence|reflexivity]).
  rewrite Hhd in Hl.
  rewrite (scan_boundary esc_pos p cur d cap m k cur' Hs Hl). cbn [bind].
  rewrite (feed_run _ _ _ _ _ _ Hf). eexists. split; [reflexivity|].
  rewrite <- E1, <- E2. constructor. exact Hpush.
Qed.

Lemma wire_open i : open_ended i = true -> item_ok i ->
  forall cur d cap m cur', (d = true -> is_text i = false) -> lets_go cur d (hd 0 (wire i)) cur' ->
  exists st, parse_all esc_pos (bd cur d cap m) (wire i) = Ok st /\
             between (cap ++ give_way cur') true (expect i) (expect_eof i) st.
Proof.
  intros Ho Hok cur d cap m cur' Hd Hl.
  destruct i as [ |us|u us| | | | | | | | | | | ]; try discriminate Ho;
    cbn [item_ok wire is_text expect expect_eof] in *.
  - destruct Hok as [Hne Ht]. destruct d; [specialize (Hd eq_refl); discriminate|].
    destruct (run_text us cur cap m cur' Hne Ht Hl) as [m' Hr]. rewrite Hr.
    eexists. split; [reflexivity|]. apply (Bt_open _ (text_of (shown us))). now left.
  - destruct Hok as [Hu Ht]. rewrite parse_all_app.
    assert (Hne : u <> []) by (destruct u; discriminate).
    assert (Hhd : hd 0 (u ++ flat_map unit_wire us) = hd 0 u) by (destruct u; [congruence|reflexivity]).
    rewrite Hhd in Hl. rewrite (run_unknown u cur d cap m cur' Hu Hl). cbn [bind].
    destruct (run_plain us (unknown_of u) (cap ++ give_way cur') [] (or_intror eq_refl) Ht) as [m' Hr].
    rewrite Hr. eexists. split; [reflexivity|].
    apply (Bt_open _ (unknown_of (u ++ shown us))). now right.
Qed.

Lemma wire_nonempty i : item_ok i -> wire i <> [].
Proof.
  destruct i; cbn [item_ok wire]; intros H; try discriminate.
  - pose proof (proj1 (Forall_forall _ _) fixed_table_sound _ H) as Hk. cbn beta iota in Hk.
    destruct Hk as (c & _ & Hp & _). destruct prefix; [congruence|discriminate].
  - destruct H as [H _]. destruct us as [|[b|x] us]; [congruence|discriminate..].
  - destruct H as [H _]. destruct u; discriminate.
  - destruct f; discriminate.
Qed.

(** One item from a between-items state. *)
Lemma run_item i j cap st :
  item_ok j -> negb (open_ended i && is_text j) = true ->
  between cap (open_ended i) (expect i) (expect_eof i) st ->
  exists st1, parse_all esc_pos st (wire j) = Ok st1 /\
    exists cap1, map observe cap1 = map observe cap ++ expect i /\
      between cap1 (open_ended j) (expect j) (expect_eof j) st1.
Proof.
  intros Hj Hs1 Hst.
  destruct (open_ended j) eqn:Oj.
  - inversion Hst as [c c' m Hp E0 E1 E2 E3|c m Hk E0 E1 E2 E3].
    + destruct (wire_open j Oj Hj (Some c) false cap m (Some c')) as (st1 & Hr & Hb).
      * discriminate.
      * exists c'. split; [apply Hp|reflexivity].
      * exists st1. split; [exact Hr|]. eexists. split; [|exact Hb].
        cbn [give_way]. rewrite map_app. reflexivity.
    + destruct (wire_open j Oj Hj (Some c) true cap m (Some c)) as (st1 & Hr & Hb).
      * intros _. rewrite <- E0 in Hs1. cbn [andb] in Hs1. apply negb_true_iff. exact Hs1.
      * reflexivity.
      * exists st1. split; [exact Hr|]. eexists. split; [|exact Hb].
        cbn [give_way]. rewrite map_app. reflexivity.
  - pose proof (item_closes j Hj Oj) as Hc.
    inversion Hst as [c c' m Hp E0 E1 E2 E3|c m Hk E0 E1 E2 E3].
    + destruct (wire_closed j Oj Hc (Some c) false cap m (Some c')) as (st1 & Hr & Hb).
      * exists c'. split; [apply Hp|reflexivity].
      * exists st1. split; [exact Hr|]. eexists. split; [|exact Hb].
        cbn [emitted_opt]. rewrite map_app. reflexivity.
    + destruct (wire_closed j Oj Hc (Some c) true cap m (Some c)) as (st1 & Hr & Hb).
      * reflexivity.
      * exists st1. split; [exact Hr|]. eexists. split; [|exact Hb].
        cbn [emitted_opt]. rewrite map_app. reflexivity.
Qed.

Lemma run_items l : forall i cap st,
  Forall item_ok (i :: l) -> separated (i :: l) = true ->
  between cap (open_ended i) (expect i) (expect_eof i) st ->
  exists st' cap' z, parse_all esc_pos st (encode l) = Ok st' /\
    between cap' (open_ended z) (expect z) (expect_eof z) st' /\
    map observe cap' ++ expect z = map observe cap ++ flat_map expect (i :: l) /\
    map observe cap' ++ expect_eof z = map observe cap ++ expect_all (i :: l).
Proof.
  induction l as [|j l IH]; intros i cap st Hok Hsep Hst.
  - exists st, cap, i. split; [reflexivity|]. split; [exact Hst|].
    cbn [flat_map expect_all]. rewrite app_nil_r. split; reflexivity.
  - inversion Hok as [|i0 l0 Hi Hl]; subst i0 l0. inversion Hl as [|j0 l0 Hj Hl']; subst j0 l0.
    cbn [encode flat_map]. rewrite parse_all_app.
    cbn [separated] in Hsep. apply andb_prop in Hsep. destruct Hsep as [Hs1 Hsep'].
    destruct (run_item i j cap st Hj Hs1 Hst) as (st1 & Hr & cap1 & Hcap & Hb).
    rewrite Hr. cbn [bind].
    destruct (IH j cap1 st1 Hl Hsep' Hb) as (st' & cap' & z & Hrun & Hbt & E1 & E2).
    exists st', cap', z. split; [exact Hrun|]. split; [exact Hbt|].
    rewrite E1, E2, Hcap. cbn [flat_map]. rewrite <- !app_assoc. split; reflexivity.
Qed.

(** The whole item list from a fresh parser: either nothing was there, or the parser is
    between items. *)
Lemma run_stream l :
  stream_ok l ->
  exists st, parse_all esc_pos (bd None false [cmd_begin_print] []) (encode l) = Ok st /\
    ((l = [] /\ st = bd None false [cmd_begin_print] []) \/
     exists cap z, between cap (open_ended z) (expect z) (expect_eof z) st /\
       map observe cap ++ expect z = [o_begin] ++ lead l ++ flat_map expect l /\
       map observe cap ++ expect_eof z = [o_begin] ++ lead l ++ expect_all l).
Proof.
  intros [Hok Hsep]. destruct l as [|i l].
  - eexists. split; [reflexivity|]. left. split; reflexivity.
  - inversion Hok as [|i0 l0 Hi Hl]; subst i0 l0.
    cbn [encode flat_map]. rewrite parse_all_app.
    assert (Hstep : exists st1, parse_all esc_pos (bd None false [cmd_begin_print] []) (wire i) = Ok st1 /\
              exists cap1, map observe cap1 = [o_begin] ++ lead (i :: l) /\
              between cap1 (open_ended i) (expect i) (expect_eof i) st1).
    { cbn [lead]. destruct (open_ended i) eqn:Oi.
      - destruct (wire_open i Oi Hi None false [cmd_begin_print] [] None) as (st1 & Hr & Hb).
        + discriminate.
        + reflexivity.
        + exists st1. split; [exact Hr|]. eexists. split; [|exact Hb]. reflexivity.
      - destruct (wire_closed i Oi (item_closes i Hi Oi) None false [cmd_begin_print] [] None)
          as (st1 & Hr & Hb).
        + reflexivity.
        + exists st1. split; [exact Hr|]. eexists. split; [|exact Hb]. reflexivity. }
    destruct Hstep as (st1 & Hr & cap1 & Hcap & Hb). rewrite Hr. cbn [bind].
    destruct (run_items l i cap1 st1 Hok Hsep Hb) as (st' & cap' & z & Hrun & Hbt & E1 & E2).
    exists st'. split; [exact Hrun|]. right. exists cap', z. split; [exact Hbt|].
    rewrite E1, E2, Hcap, <- !app_assoc. split; reflexivity.
Qed.

(** ** Truncated ends *)

(** A tail other than a bare piece of a prefix: its command is recognised and fed. *)
Definition stops (t : tail) : Prop :=
  exists p args k c,
    tail_wire t = p ++ args /\ p <> [] /\ scan esc_pos_commands 0 p = Some k /\
    feed k args = Some c /\ map observe (emitted c) = tail_expect t.

Ltac stops_start p a k :=
  exists p, a, k; eexists;
  split; [reflexivity|]; split; [discriminate|]; split; [vm_compute; reflexivity|].

Lemma stops_fixed name k p args : tail_ok (TFixed name k p args) -> stops (TFixed name k p args).
Proof.
  cbn [tail_ok]. unfold in_fixed. intros (n & Hin & Hlt).
  pose proof (proj1 (Forall_forall _ _) fixed_table_sound _ Hin) as Hk. cbn beta iota in Hk.
  destruct Hk as (c & Hscan & Hp & Hname & Hkind & Hcmds & Hdata & Har & Hpl & Hns).
  exists p, args, c, (with_data c args).
  split; [reflexivity|]. split; [exact Hp|]. split; [exact Hscan|]. split.
  { rewrite (feed_fixed n); [rewrite Hdata; reflexivity|exact Har|].
    rewrite Hdata; cbn [length]; lia. }
  rewrite emitted_not_sub by (cbn [with_data c_kind]; congruence). cbn [map tail_expect].
  rewrite observe_plain by exact Hpl. congruence.
Qed.

Definition bc_after (m : Z) (e : encoding) : barcode_st :=
  {| bc_kind := barcode_kind m; bc_kind_id := m; bc_encoding := e;
     bc_capacity := 0; bc_has_capacity := false; bc_accept := true; bc_raw_params := [m] |}.

Lemma feed_barcode_kind m rest :
  feed cmd_barcode (m :: rest) =
  feed (cmd_h cmd_barcode (HBarcode (bc_after m (barcode_encoding m))) []) rest.
Proof. reflexivity. Qed.

Lemma stops_barcode_nul m d : tail_ok (TBarcodeNul m d) -> stops (TBarcodeNul m d).
Proof.
  cbn [tail_ok]. intros [Hm Hd]. stops_start [29; 107] (m :: d) cmd_barcode.
  assert (He : barcode_encoding m = NulTerminated)
    by (unfold barcode_encoding; destruct (Z.leb_spec m 6); [reflexivity|lia]).
  split.
  { rewrite feed_barcode_kind, He, feed_barcode_nul; [reflexivity|reflexivity..|exact Hd]. }
  reflexivity.
Qed.

Lemma enc_explicit m : 65 <= m <= 79 -> barcode_encoding m = ExplicitSize.
Proof.
  intros H. unfold barcode_encoding.
  destruct (Z.leb_spec m 6), (Z.leb_spec 65 m), (Z.leb_spec m 79); try lia; reflexivity.
Qed.

Lemma stops_barcode_size m : tail_ok (TBarcodeSize m) -> stops (TBarcodeSize m).
Proof.
  cbn [tail_ok]. intros Hm. stops_start [29; 107] [m] cmd_barcode.
  split; [rewrite feed_barcode_kind, (enc_explicit m Hm); reflexivity|]. reflexivity.
Qed.

Lemma stops_barcode_len m n d : tail_ok (TBarcodeLen m n d) -> stops (TBarcodeLen m n d).
Proof.
  cbn [tail_ok]. intros [Hm Hd]. stops_start [29; 107] (m :: n :: d) cmd_barcode.
  split.
  { rewrite feed_barcode_kind, (enc_explicit m Hm). cbn [feed].
    rewrite push_custom by reflexivity.
    cbn [handler_push]. unfold barcode_push, bc_after.
    cbn [bc_accept bc_encoding bc_has_capacity negb bind bc_kind bc_kind_id bc_raw_params app].
    rewrite feed_barcode_len; [reflexivity|reflexivity..|]. cbn [bc_capacity].
    unfold zlen in *; cbn [length]; lia. }
  reflexivity.
Qed.

Lemma stops_bit_image_hdr a : tail_ok (TBitImageHdr a) -> stops (TBitImageHdr a).
Proof.
  cbn [tail_ok]. intros H.
  destruct a as [|x [|y [|z a]]]; cbn [length] in H; try lia;
    match goal with |- stops (TBitImageHdr ?a) => stops_start [27; 42] a cmd_bit_image end;
    (split; [cbn; reflexivity|reflexivity]).
Qed.

Lemma feed_bit_image_hdr m nl nh rest :
  exists s, bi_accept s = true /\
    bi_capacity s = (nl + 256 * nh) * (if (m =? 32) || (m =? 33) then 3 else 1) /\
    bi_params s = [m; nl; nh] /\
    feed cmd_bit_image (m :: nl :: nh :: rest) =
    feed (cmd_h cmd_bit_image (HBitImage (bi_sized s (zlen []))) []) rest.
Proof.
  eexists (snd (fst (bit_image_push bit_image_init [m; nl] nh))).
  split; [reflexivity|]. split.
  { cbn [bit_image_push bit_image_init bi_accept length Nat.ltb Nat.leb fst snd bi_capacity get_or nth].
    unfold get_or; cbn [nth]. destruct ((m =? 32) || (m =? 33)); lia. }
  split; reflexivity.
Qed.

Lemma stops_bit_image m nl nh d : tail_ok (TBitImage m nl nh d) -> stops (TBitImage m nl nh d).
Proof.
  cbn [tail_ok]. intros H.
  destruct (feed_bit_image_hdr m nl nh d) as (s & Ha & Hc & Hp & Hf).
  stops_start [27; 42] (m :: nl :: nh :: d) cmd_bit_image.
  split.
  { rewrite Hf, feed_bit_image; [reflexivity|reflexivity|exact Ha|].
    rewrite Hc. unfold zlen in *; cbn [length]; lia. }
  unfold emitted; cbn. unfold observe; cbn. rewrite Hp. reflexivity.
Qed.

Lemma stops_raster_hdr a : tail_ok (TRasterHdr a) -> stops (TRasterHdr a).
Proof.
  cbn [tail_ok]. intros H.
  destruct a as [|x [|y [|z [|t [|w a]]]]]; cbn [length] in H; try lia;
    match goal with |- stops (TRasterHdr ?a) => stops_start [29; 118; 48] a cmd_raster_bit_image end;
    (split; [cbn; reflexivity|reflexivity]).
Qed.

Lemma stops_raster m xl xh yl yh d :
  tail_ok (TRaster m xl xh yl yh d) -> stops (TRaster m xl xh yl yh d).
Proof.
  cbn [tail_ok]. intros H.
  stops_start [29; 118; 48] (m :: xl :: xh :: yl :: yh :: d) cmd_raster_bit_image.
  set (s := {| ra_width := (xl + xh * 256) * 8; ra_height := yl + yh * 256;
               ra_capacity := (xl + xh * 256) * (yl + yh * 256); ra_scaling := m;
               ra_accept := true; ra_params := [m; xl; xh; yl; yh] |}).
  assert (Hcap : zlen d < ra_capacity s) by (cbn [s ra_capacity]; nia).
  split.
  { change (feed cmd_raster_bit_image (m :: xl :: xh :: yl :: yh :: d))
      with (feed (cmd_h cmd_raster_bit_image (HRaster s) []) d).
    rewrite feed_raster; [reflexivity|reflexivity|reflexivity|].
    unfold zlen in *; cbn [length]; lia. }
  reflexivity.
Qed.

Lemma stops_cut a : tail_ok (TCut a) -> stops (TCut a).
Proof.
  cbn [tail_ok]. intros [->|(m & -> & H)].
  - stops_start [29; 86] (@nil Z) cmd_feed_and_cut. split; reflexivity.
  - stops_start [29; 86] [m] cmd_feed_and_cut. split; reflexivity.
Qed.

Lemma stops_char_effects_hdr a : tail_ok (TCharEffectsHdr a) -> stops (TCharEffectsHdr a).
Proof.
  cbn [tail_ok]. intros H.
  destruct a as [|x [|y a]]; cbn [length] in H; try lia;
    match goal with |- stops (TCharEffectsHdr ?a) => stops_start [29; 40; 78] a cmd_set_character_effects end;
    split; reflexivity.
Qed.

Lemma stops_char_effects pl ph d : tail_ok (TCharEffects pl ph d) -> stops (TCharEffects pl ph d).
Proof.
  cbn [tail_ok]. intros H.
  destruct d as [|x d].
  - stops_start [29; 40; 78] [pl; ph] cmd_set_character_effects. split; reflexivity.
  - stops_start [29; 40; 78] (pl :: ph :: x :: d) cmd_set_character_effects. split.
    { change (feed cmd_set_character_effects (pl :: ph :: x :: d))
        with (feed (cmd_h cmd_set_character_effects (HCharEffects (pl + ph * 256 + 2)) [pl; ph; x]) d).
      rewrite feed_char_effects; [reflexivity|reflexivity|cbn [length]; lia|].
      unfold zlen in *; cbn [length] in *. lia. }
    reflexivity.
Qed.

Lemma meta_hdr f : meta_len (fam_sub f) = hdr_len f.
Proof. destruct f; reflexivity. Qed.

Lemma stops_sub_hdr f a : tail_ok (TSubHdr f a) -> stops (TSubHdr f a).
Proof.
  cbn [tail_ok]. intros H. exists (fam_prefix f), a, (fam_cmd f). eexists.
  split; [reflexivity|]. split; [destruct f; discriminate|]. split; [apply fam_scan|].
  split.
  { rewrite fam_cmd_h, feed_header; [reflexivity|destruct f; reflexivity|destruct f; reflexivity|].
    rewrite meta_hdr. cbn [length]. lia. }
  cbn [tail_expect app]. rewrite emitted_sub_none; [reflexivity|destruct f; reflexivity|apply fam_sub_none].
Qed.

Definition sub_parsed (s : sub_st) (found : option subcmd) (hdr : list Z) (m fn cap : Z) : sub_st :=
  {| ss_commands := ss_commands s;
     ss_subcommand :=
       match found with
       | Some c => Some {| sc_name := sc_name c; sc_commands := hdr;
                           sc_data := sc_data c; sc_kind := sc_kind c; sc_id := sc_id c |}
       | None => None
       end;
     ss_is_large := ss_is_large s; ss_m := m; ss_id := fn; ss_capacity := cap;
     ss_accept := true; ss_use_m := ss_use_m s |}.

Lemma fam_meta f n m fn :
  2 <= n <= fam_max f ->
  parse_meta (fam_sub f) (fam_len f n ++ [m; fn]) =
    Ok (sub_parsed (fam_sub f) (fam_found f m fn) (fam_len f n ++ [m; fn]) m fn (n - 2)).
Proof.
  intros Hn. pose proof (fam_len_read f n [m; fn] Hn) as Hr.
  unfold parse_meta. unfold fam_found.
  destruct f; cbn [fam_len app length Nat.eqb] in *; rewrite Hr;
    (destruct (Z.ltb_spec n 2); [lia|]);
    cbn [bind get_or nth fam_sub sub_init ss_use_m ss_commands ss_subcommand ss_is_large];
    unfold get_or, sub_parsed; cbn [nth sub_init ss_use_m ss_commands ss_subcommand ss_is_large].
  - destruct (detect_kind_use_m code2d_table m fn); reflexivity.
  - destruct (detect_kind graphics_table fn); reflexivity.
  - destruct (detect_kind graphics_table fn); reflexivity.
Qed.

(** Header and at least one payload byte. *)
Lemma feed_sub_part k s s' hdr x d :
  c_dkind k = DCustom -> ss_accept s = false -> length hdr = meta_len s ->
  parse_meta s hdr = Ok s' -> ss_accept s' = true -> zlen (x :: d) <= ss_capacity s' ->
  feed (cmd_h k (HSub s) []) (hdr ++ x :: d) = Some (cmd_h k (HSub s') (x :: d)).
Proof.
  intros Hk Ha Hl Hm Ha' Hc.
  rewrite feed_app, feed_header by (try assumption; cbn [length]; lia). cbn [app feed].
  rewrite push_custom by exact Hk. cbn [handler_push]. unfold sub_push. rewrite Ha. cbn [negb].
  fold (meta_len s). rewrite Hl, Nat.ltb_irrefl, (firstn_all_len hdr _ Hl), Hm. cbn [bind].
  rewrite sub_take_more by (unfold zlen in *; cbn [length] in *; lia). cbn [bind app].
  rewrite feed_sub; [reflexivity|assumption..|]. unfold zlen in *; cbn [length] in *; lia.
Qed.

Lemma stops_sub f n m fn d : tail_ok (TSub f n m fn d) -> stops (TSub f n m fn d).
Proof.
  cbn [tail_ok]. intros (Hne & Hn1 & Hn2). destruct d as [|x d]; [congruence|].
  assert (Hn : 2 <= n <= fam_max f) by (unfold zlen in *; cbn [length] in *; lia).
  exists (fam_prefix f), ((fam_len f n ++ [m; fn]) ++ x :: d), (fam_cmd f). eexists.
  split; [cbn [tail_wire]; rewrite <- app_assoc; reflexivity|].
  split; [destruct f; discriminate|]. split; [apply fam_scan|].
  split.
  { rewrite fam_cmd_h. apply feed_sub_part;
      [destruct f; reflexivity|destruct f; reflexivity|destruct f; reflexivity
      |apply fam_meta, Hn|reflexivity|].
    cbn [sub_parsed ss_capacity]. lia. }
  cbn [tail_expect]. rewrite <- fam_found_lookup.
  assert (Hkind : c_kind (fam_cmd f) = KSubcommand) by (destruct f; reflexivity).
  assert (Hpre : c_commands (fam_cmd f) = fam_prefix f) by (destruct f; reflexivity).
  destruct (fam_found f m fn) as [c|] eqn:Ef; cbn [entry option_map].
  - unfold emitted. cbn [cmd_h with_handler with_data c_kind c_handler c_commands]. rewrite Hkind, Hpre.
    cbn [get_subcommand sub_parsed ss_subcommand]. cbn [map].
    unfold observe, simple, get_command_bytes.
    cbn [sc_name sc_commands sc_data sc_kind c_name c_kind c_commands c_data c_handler].
    rewrite (fam_found_data f m fn c Ef). reflexivity.
  - rewrite emitted_sub_none; [reflexivity|exact Hkind|reflexivity].
Qed.

Definition req := cmd_request_response_transmission.
Definition req_sub : sub_st := sub_init false false [].

Lemma req_scan : scan esc_pos_commands 0 [29; 40; 72] = Some req.
Proof. vm_compute. reflexivity. Qed.

Lemma stops_request_hdr a : tail_ok (TRequestHdr a) -> stops (TRequestHdr a).
Proof.
  cbn [tail_ok]. intros H. exists [29; 40; 72], a, req. eexists.
  split; [reflexivity|]. split; [discriminate|]. split; [apply req_scan|].
  split.
  { change req with (cmd_h req (HSub req_sub) []).
    rewrite feed_header; [reflexivity|reflexivity|reflexivity|]. cbn [meta_len req_sub sub_init ss_is_large length]. lia. }
  reflexivity.
Qed.

Lemma req_meta n m fn :
  2 <= n <= 65535 ->
  parse_meta req_sub (fam_len Code2d n ++ [m; fn]) =
    Ok (sub_parsed req_sub None (fam_len Code2d n ++ [m; fn]) m fn (n - 2)).
Proof.
  intros Hn. pose proof (fam_len_read Code2d n [m; fn] Hn) as Hr. cbn iota in Hr.
  unfold parse_meta. cbn [fam_len app length Nat.eqb] in *. rewrite Hr.
  destruct (Z.ltb_spec n 2); [lia|]. reflexivity.
Qed.

Lemma stops_request n m fn d : tail_ok (TRequest n m fn d) -> stops (TRequest n m fn d).
Proof.
  cbn [tail_ok]. intros (Hne & Hn1 & Hn2). destruct d as [|x d]; [congruence|].
  assert (Hn : 2 <= n <= 65535) by (unfold zlen in *; cbn [length] in *; lia).
  exists [29; 40; 72], ((fam_len Code2d n ++ [m; fn]) ++ x :: d), req. eexists.
  split; [cbn [tail_wire]; rewrite <- app_assoc; reflexivity|].
  split; [discriminate|]. split; [apply req_scan|].
  split.
  { change req with (cmd_h req (HSub req_sub) []). apply feed_sub_part;
      [reflexivity..|apply req_meta, Hn|reflexivity|].
    cbn [sub_parsed ss_capacity]. lia. }
  reflexivity.
Qed.

Lemma tail_stops t : tail_ok t ->
  match t with TNone | TPrefix _ => True | _ => stops t end.
Proof.
  destruct t; intros H; [exact I|exact I|..];
    [apply stops_fixed, H| |apply stops_barcode_nul, H|apply stops_barcode_size, H
    |apply stops_barcode_len, H|apply stops_bit_image_hdr, H|apply stops_bit_image, H
    |apply stops_raster_hdr, H|apply stops_raster, H|apply stops_cut, H
    |apply stops_char_effects_hdr, H|apply stops_char_effects, H|apply stops_sub_hdr, H
    |apply stops_sub, H|apply stops_request_hdr, H|apply stops_request, H].
  stops_start [29; 107] (@nil Z) cmd_barcode. split; reflexivity.
Qed.

(** A parser state that accepts the start of anything, and what it shows then ([o]). *)
Definition ready (o : list ocmd) (cap : list command) (st : pstate) : Prop :=
  exists cur d m, st = bd cur d cap m /\
    forall b, exists cur', lets_go cur d b cur' /\ map observe (emitted_opt cur') = o.

Lemma between_ready cap b o e st : between cap b o e st -> ready o cap st.
Proof.
  intros [c c' m Hp|c m Hk].
  - exists (Some c), false, m. split; [reflexivity|]. intros x. exists (Some c').
    split; [exists c'; split; [apply Hp|reflexivity]|reflexivity].
  - exists (Some c), true, m. split; [reflexivity|]. intros x. exists (Some c).
    split; reflexivity.
Qed.

Lemma run_tail t o cap st :
  tail_ok t -> t <> TNone -> ready o cap st ->
  exists st', parse_all esc_pos st (tail_wire t) = Ok st' /\
    map observe (p_captured st' ++ emitted_opt (p_current st')) =
      map observe cap ++ o ++ tail_expect t.
Proof.
  intros Hok Hne (cur & d & m & -> & Hrdy).
  pose proof (tail_stops t Hok) as Hs.
  assert (Hcase : (exists q, t = TPrefix q) \/ stops t)
    by (destruct t; try (right; exact Hs); [congruence|left; eexists; reflexivity]).
  destruct Hcase as [(q & ->)|(p & args & k & c & Hw & Hp & Hsc & Hf & Ho)].
  - cbn [tail_ok tail_wire tail_expect] in *. destruct Hok as (Hq & H1 & H2).
    destruct (Hrdy (hd 0 q)) as (cur' & Hl & Ho).
    assert (Hb : begun q).
    { split; [|apply exact_none, H2]. intros E. apply cands_none in E. congruence. }
    rewrite (run_begun q cur d cap m cur' Hb Hq Hl). eexists. split; [reflexivity|].
    cbn [mid p_captured p_current]. rewrite map_app, app_nil_r, Ho. reflexivity.
  - rewrite Hw, parse_all_app.
    destruct (Hrdy (hd 0 p)) as (cur' & Hl & Ho').
    rewrite (scan_boundary esc_pos p cur d cap m k cur' Hsc Hl). cbn [bind].
    rewrite (feed_run _ _ _ _ _ _ Hf). eexists. split; [reflexivity|].
    cbn [bd p_captured p_current emitted_opt]. rewrite !map_app, Ho', Ho, <- app_assoc. reflexivity.
Qed.

Lemma parse_esc_pos_run bs st :
  parse_all esc_pos (bd None false [cmd_begin_print] []) bs = Ok st ->
  parse_esc_pos bs = Ok (p_captured st ++ emitted_opt (p_current st) ++ [cmd_end_print]).
Proof.
  intros H. unfold parse_esc_pos, parse_bytes.
  cbn [parser_new p_depth p_matches p_current p_default p_buffer p_captured app].
  change (emitted (cs_begin esc_pos)) with [cmd_begin_print].
  fold (bd None false [cmd_begin_print] []). rewrite H. reflexivity.
Qed.

Lemma parse_total_ok l t :
  stream_ok l -> tail_ok t ->
  exists cmds, parse_esc_pos (encode l ++ tail_wire t) = Ok cmds /\
               map observe cmds = parse_total l t.
Proof.
  intros Hl Ht. destruct (run_stream l Hl) as (st & Hr & Hcase).
  assert (Hgoal : exists st', parse_all esc_pos (bd None false [cmd_begin_print] []) (encode l ++ tail_wire t) = Ok st' /\
            map observe (p_captured st' ++ emitted_opt (p_current st')) =
            [o_begin] ++ lead l ++
            match t with TNone => expect_all l | _ => flat_map expect l ++ tail_expect t end).
  { rewrite parse_all_app, Hr. cbn [bind].
    assert (Hd : t = TNone \/ t <> TNone) by (destruct t; (now left) || (right; discriminate)).
    destruct Hd as [->|Hne].
    - cbn [tail_wire parse_all]. exists st. split; [reflexivity|].
      destruct Hcase as [[-> ->]|(cap & z & Hb & E1 & E2)]; [reflexivity|].
      rewrite <- E2. destruct Hb; cbn [bd p_captured p_current emitted_opt];
        rewrite map_app; reflexivity.
    - assert (Hm : match t with TNone => expect_all l | _ => flat_map expect l ++ tail_expect t end
                   = flat_map expect l ++ tail_expect t) by (destruct t; congruence || reflexivity).
      rewrite Hm. destruct Hcase as [[-> ->]|(cap & z & Hb & E1 & E2)].
      + destruct (run_tail t [] [cmd_begin_print] (bd None false [cmd_begin_print] []) Ht Hne)
          as (st' & Hrun & Ho).
        { exists None, false, []. split; [reflexivity|]. intros b. exists None. split; reflexivity. }
        exists st'. split; [exact Hrun|]. rewrite Ho. reflexivity.
      + destruct (run_tail t _ cap st Ht Hne (between_ready _ _ _ _ _ Hb)) as (st' & Hrun & Ho).
        exists st'. split; [exact Hrun|]. rewrite Ho. rewrite app_assoc, E1, <- !app_assoc. reflexivity. }
  destruct Hgoal as (st' & Hrun & Ho). rewrite (parse_esc_pos_run _ _ Hrun).
  eexists. split; [reflexivity|]. rewrite app_assoc, map_app, Ho. unfold parse_total.
  rewrite <- !app_assoc. reflexivity.
Qed.

Lemma parse_stream l :
  stream_ok l -> exists cmds, parse_esc_pos (encode l) = Ok cmds /\ map observe cmds = parse_spec l.
Proof.
  intros H. destruct (parse_total_ok l TNone H I) as (cmds & Hp & Ho).
  cbn [tail_wire] in Hp. rewrite app_nil_r in Hp. exists cmds. split; [exact Hp|exact Ho].
Qed.

(** ** The only way to panic *)

Definition opt_cmd (o : option family) : command := match o with Some f => fam_cmd f | None => req end.
Definition opt_sub (o : option family) : sub_st := match o with Some f => fam_sub f | None => req_sub end.

Lemma bad_meta o hdr :
  bytes_ok hdr = true -> bad_header o hdr -> parse_meta (opt_sub o) hdr = Panic POverflow.
Proof.
  intros Hb [Hl Hv].
  destruct o as [f|]; [destruct f|];
    cbn [sub_family hdr_len opt_sub] in *;
    repeat (destruct hdr as [|? hdr]; [discriminate Hl|]); destruct hdr; try discriminate Hl;
    unfold bytes_ok in Hb; cbn [forallb] in Hb; unfold is_byte in Hb;
    cbn [hdr_value nth] in Hv; unfold parse_meta; cbn [length Nat.eqb].
  - rewrite parse_u16_le by lia.
    match goal with |- context [?a <? 2] => destruct (Z.ltb_spec a 2); [reflexivity|lia] end.
  - rewrite parse_u16_le by lia.
    match goal with |- context [?a <? 2] => destruct (Z.ltb_spec a 2); [reflexivity|lia] end.
  - rewrite parse_u32_le by lia.
    match goal with |- context [?a <? 2] => destruct (Z.ltb_spec a 2); [reflexivity|lia] end.
  - rewrite parse_u16_le by lia.
    match goal with |- context [?a <? 2] => destruct (Z.ltb_spec a 2); [reflexivity|lia] end.
Qed.

Lemma parse_bad_header l o hdr b rest :
  stream_ok l -> bytes_ok hdr = true -> bad_header o hdr ->
  parse_esc_pos (encode l ++ sub_prefix o ++ hdr ++ b :: rest) = Panic POverflow.
Proof.
  intros Hl Hbytes Hbad. destruct (run_stream l Hl) as (st & Hr & Hcase).
  assert (Hrdy : exists o cap, ready o cap st).
  { destruct Hcase as [[-> ->]|(cap & z & Hb & _)].
    - exists [], [cmd_begin_print]. exists None, false, []. split; [reflexivity|].
      intros x. exists None. split; reflexivity.
    - eexists. eexists. exact (between_ready _ _ _ _ _ Hb). }
  destruct Hrdy as (ob & cap & cur & d & m & -> & Hrdy).
  assert (Hall : parse_all esc_pos (bd None false [cmd_begin_print] [])
                   (encode l ++ sub_prefix o ++ hdr ++ b :: rest) = Panic POverflow).
  { rewrite parse_all_app, Hr. cbn [bind].
    rewrite parse_all_app.
    assert (Hsc : scan esc_pos_commands 0 (sub_prefix o) = Some (opt_cmd o))
      by (destruct o as [f|]; [apply fam_scan|apply req_scan]).
    destruct (Hrdy (hd 0 (sub_prefix o))) as (cur' & Hlg & _).
    rewrite (scan_boundary esc_pos _ cur d cap m _ cur' Hsc Hlg). cbn [bind].
    assert (Hf : feed (opt_cmd o) hdr = Some (cmd_h (opt_cmd o) (HSub (opt_sub o)) hdr)).
    { replace (opt_cmd o) with (cmd_h (opt_cmd o) (HSub (opt_sub o)) []) at 1
        by (destruct o as [f|]; [symmetry; apply fam_cmd_h|reflexivity]).
      rewrite feed_header; [reflexivity|destruct o as [[| |]|]; reflexivity
                           |destruct o as [[| |]|]; reflexivity|].
      destruct Hbad as [Hlen _]. rewrite Hlen.
      destruct o as [[| |]|]; cbn; lia. }
    rewrite parse_all_app, (feed_run _ _ _ _ _ _ Hf). cbn [bind parse_all].
    unfold parse_byte. cbn [bd p_depth p_default Nat.eqb negb andb p_current].
    rewrite push_custom by (destruct o as [[| |]|]; reflexivity).
    cbn [handler_push]. unfold sub_push.
    assert (Hacc : ss_accept (opt_sub o) = false) by (destruct o as [[| |]|]; reflexivity).
    rewrite Hacc. cbn [negb]. fold (meta_len (opt_sub o)).
    assert (Hlen : length hdr = meta_len (opt_sub o))
      by (destruct Hbad as [Hlen _]; rewrite Hlen; destruct o as [[| |]|]; reflexivity).
    rewrite Hlen, Nat.ltb_irrefl, (firstn_all_len hdr _ Hlen), (bad_meta o hdr Hbytes Hbad).
    reflexivity. }
  unfold parse_esc_pos, parse_bytes.
  cbn [parser_new p_depth p_matches p_current p_default p_buffer p_captured app].
  change (emitted (cs_begin esc_pos)) with [cmd_begin_print].
  fold (bd None false [cmd_begin_print] []). rewrite Hall. reflexivity.
Qed.
