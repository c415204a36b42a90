(** * SafeTheory2: symbols and images on a strip of paper with room (used by PropsSafe). *)
From Verif Require Import Base Command CommandSet Parser Vec Float32 GTypes Graphics GraphicsTheory Decoder Context Text
  Handlers Renderer ContextTheory RendererTheory Origin SpecPrinter StateTheory PropsText SpecRender LayoutTheory AreaTheory SafeTheory.
Local Open Scope Z_scope.
Local Open Scope list_scope.

Lemma fold_good {A B} (f : A -> B -> res B) (I : Z -> B -> Prop) :
  forall l n b, (forall a m b, n <= m < n + vlen l -> I m b -> okp (f a b) (I (m + 1))) -> I n b -> okp (fold_res f l b) (I (n + vlen l)).
Proof.
  induction l as [|a l IH]; intros n b H Hb; cbn [fold_res].
  - cbn [okp]. change (vlen (@nil A)) with 0. replace (n + 0) with n by lia. exact Hb.
  - assert (V : vlen (a :: l) = 1 + vlen l) by (unfold vlen; cbn [length]; lia). pose proof (vlen_nonneg l).
    apply okp_bind. eapply okp_weaken; [exact (H a n b ltac:(lia) Hb)|]. intros b' Hb'. cbn beta.
    replace (n + vlen (a :: l)) with ((n + 1) + vlen l) by lia.
    apply IH; [|exact Hb']. intros a' m b'' Hm. apply H. lia.
Qed.

(** the state after printing: nothing collected, the pen moved down by at most [d] *)
Definition pen_to (s s' : rstate) (d : Z) : Prop :=
  rs_spans s' = [] /\ exists x y, rs_ctx s' = at_xy x y (rs_ctx s) /\ 0 <= x <= xb /\ 60 <= y <= get_y (rs_ctx s) + d.
Lemma pen_trans s s1 s2 d e : standard (rs_ctx s) -> pen_to s s1 d -> pen_to s1 s2 e -> pen_to s s2 (d + e).
Proof.
  intros S (_ & x & y & E & X & Y) (A & x' & y' & E' & X' & Y'). split; [exact A|]. exists x', y'.
  rewrite E in *. rewrite at_at in E'. rewrite at_y in Y' by exact S. split; [exact E' | split; [exact X' | lia]].
Qed.
Lemma pen_std s s' d : pen_to s s' d -> standard (rs_ctx s) -> standard (rs_ctx s').
Proof. intros (_ & x & y & -> & _) S. apply at_std. exact S. Qed.
Lemma pen_sinv s s' d : pen_to s s' d -> sinv (rs_ctx s) -> sinv (rs_ctx s').
Proof. intros (_ & x & y & -> & _) S. refine (sinv_moved _ _ _ S). apply at_moved. Qed.

Section Draw.
Variables (right : bool) (s : rstate).
Hypothesis std : standard (rs_ctx s).
Hypothesis inv : sinv (rs_ctx s).
Hypothesis empty : rs_spans s = [].
Hypothesis px : 0 <= get_x (rs_ctx s) <= xb.
Hypothesis py : 60 <= get_y (rs_ctx s).

(** a dot matrix symbol *)
Record code_ok (q : code2d_g) : Prop := mk_code_ok {
  co_w : 1 <= q_width q <= 177;
  co_n : vlen (q_points q) = q_width q * q_width q;
  co_pw : 0 <= q_point_width q <= 255;
  co_ph : 0 <= q_point_height q <= 255 }.

Lemma code2d_good q : code_ok q -> get_y (rs_ctx s) + 45135 <= top ->
  okp (process_code_2d q s) (fun s' => pen_to s s' 45135).
Proof.
  intros [W N PW PH] B. set (c := rs_ctx s) in *. set (y0 := get_y c) in *.
  unfold process_code_2d. fold c. unfold mul_u32. rewrite chk_ok by (unfold u32_max; nia). cbn [bind].
  set (o := calculate_justification (q_width q * q_point_width q) c).
  assert (OB : 0 <= o <= 609 /\ (q_point_width q <= 609 - o)).
  { assert (T0 : 0 <= q_width q * q_point_width q) by nia.
    assert (T1 : q_point_width q <= q_width q * q_point_width q) by nia.
    set (t := q_width q * q_point_width q) in *. clearbody t. unfold o, calculate_justification. cbv zeta. rewrite (std_width _ std inv).
    destruct (Z.ltb_spec 609 t); [lia|]. destruct (t_justify (c_text c)); [lia| |lia].
    destruct (Z.ltb_spec 0 (609 - t)); lia. }
  clearbody o. destruct OB as (O1 & O2).
  rewrite (at_self c std). rewrite at_set_x by exact std. cbn [bind].
  fold y0.
  assert (F : okp (fold_res (code2d_point q o) (q_points q) (at_xy o y0 c, 1, []))
    (fun st => exists x i r, fst st = (at_xy x (y0 + q_point_height q * r) c, i) /\ 0 <= x <= 609 + 255 * vlen (q_points q) /\
        0 <= r /\ 1 <= i <= vlen (q_points q) + 1 /\ ((i = 1 /\ r = 0) \/ (2 <= i /\ r * q_width q <= i - 2)))).
  { apply (fold_good (code2d_point q o) (fun n st => exists x i r, fst st = (at_xy x (y0 + q_point_height q * r) c, i) /\ 0 <= x <= 609 + 255 * n /\
        0 <= r /\ 1 <= i <= n + 1 /\ ((i = 1 /\ r = 0) \/ (2 <= i /\ r * q_width q <= i - 2))) (q_points q) 0).
    2:{ exists o, 1, 0. cbn [fst]. replace (y0 + q_point_height q * 0) with y0 by lia. split; [reflexivity|]. lia. }
    intros p n st Hn (x & i & r & E & X & R & I & K). destruct st as [[c1 i1] rects]. cbn [fst] in E. injection E as -> ->.
    assert (RB : r <= q_width q) by (rewrite N in Hn; clear - K I Hn W R; destruct K as [[_ ->]|[K1 K2]]; nia).
    unfold code2d_point.
    (* the optional step to the next row *)
    apply okp_bind.
    apply (okp_weaken _ (fun c2 => exists x2 r2, c2 = at_xy x2 (y0 + q_point_height q * r2) c /\ 0 <= x2 <= 609 + 255 * n /\ 0 <= r2 /\
       ((c2 = at_xy x (y0 + q_point_height q * r) c /\ r2 = r /\ ~ (i <> 1 /\ i mod q_width q = 1)) \/ (x2 = o /\ 2 <= i /\ r2 = r + 1 /\ r2 * q_width q <= i - 1)))).
    { destruct (Z.eqb_spec i 1) as [E1|E1]; cbn [negb].
      - cbn [okp]. exists x, r. split; [reflexivity|]. split; [lia|]. split; [lia|]. left. split; [reflexivity|]. split; [reflexivity|]. intros (Z & _). exact (Z E1).
      - destruct (Z.eqb_spec (q_width q) 0) as [Z|_]; [lia|]. destruct (Z.eqb_spec (i mod q_width q) 1) as [M|M].
        + assert (K' : (r + 1) * q_width q <= i - 1).
          { pose proof (Z.div_mod i (q_width q) ltac:(lia)) as D. rewrite M in D. set (k := i / q_width q) in *. clearbody k.
            destruct K as [[K _]|[K1 K2]]; [contradiction|]. clear - D K2 W K1.
            assert (r < k) by nia. nia. }
          assert (r + 1 <= q_width q) by (clear - K' Hn N I W; rewrite N in Hn; nia).
          rewrite at_set_x by exact std. cbn [bind]. rewrite at_offset_y; [|exact std | unfold top in *; clear - W PH H R B py; subst y0 c; nia].
          cbn [okp]. exists o, (r + 1). replace (y0 + q_point_height q * r + q_point_height q) with (y0 + q_point_height q * (r + 1)) by lia.
          split; [reflexivity|]. split; [lia|]. split; [lia|]. right. split; [reflexivity|]. lia.
        + cbn [okp]. exists x, r. split; [reflexivity|]. split; [lia|]. split; [lia|]. left. split; [reflexivity|]. split; [reflexivity|]. intros (_ & Z). exact (M Z). }
    intros c2 (x2 & r2 & -> & X2 & R2 & ALT). cbn beta. rewrite at_avail by assumption.
    destruct ((0 <? p) && (Z.max 0 (609 - x2) <? q_point_width q)) eqn:FULL.
    { cbn [okp fst]. destruct ALT as [(E2 & -> & _)|(-> & _)]; [|apply andb_prop in FULL; lia].
      exists x2, i, r. split; [reflexivity|]. lia. }
    apply okp_bind. rewrite at_offset_x; [|exact std | unfold top; rewrite N in Hn; clear - X2 Hn PW W; nia]. cbn [okp].
    apply okp_bind. unfold add_u32. rewrite chk_ok by (unfold u32_max; rewrite N in Hn; clear - I Hn W; nia). cbn [okp fst].
    exists (x2 + q_point_width q), (i + 1), r2. split; [reflexivity|]. split; [lia|]. split; [lia|]. split; [lia|].
    right. split; [lia|]. destruct ALT as [(_ & -> & NM)|(_ & I2 & _ & K2)]; [|lia].
    destruct K as [[-> ->]|[K1 K2]]; lia. }
  apply okp_bind. eapply okp_weaken; [exact F|]. intros [[c1 i1] rects] (x & i & r & E & X & R & I & K). cbn [fst] in E. injection E as -> ->. cbn [okp].
  split; [exact empty|]. cbn [call with_ctx rs_ctx]. rewrite at_reset by exact std. exists 0, (y0 + q_point_height q * r). split; [reflexivity|]. unfold xb. split; [lia|].
  assert (r <= q_width q) by (rewrite N in I; clear - K I W R; destruct K as [[_ ->]|[K1 K2]]; nia).
  fold c. fold y0. clear - PH W R H py. subst y0 c. nia.
Qed.

(** a barcode *)
Record bars_ok (b : barcode_g) : Prop := mk_bars_ok {
  br_n : vlen (b_points b) <= 1048576;
  br_pw : 0 <= b_point_width b <= 6;
  br_ph : 0 <= b_point_height b <= 255;
  br_text : span_ok right (b_text b);
  br_chars : vlen (s_text (b_text b)) <= 255 }.
End Draw.

Lemma barcode_text_good right b s : standard (rs_ctx s) -> sinv (rs_ctx s) -> rs_spans s = [] -> 0 <= get_x (rs_ctx s) <= xb ->
  60 <= get_y (rs_ctx s) -> bars_ok right b -> get_y (rs_ctx s) + 65280 <= top ->
  okp (barcode_text b s) (fun s' => pen_to s s' 65280).
Proof.
  intros S I E X Y [_ _ _ T C] B. unfold barcode_text. apply okp_bind.
  assert (CH : chars_of (rs_spans (collect_text (b_text b) s)) <= 255).
  { unfold collect_text. cbn [with_spans rs_spans]. rewrite E. unfold chars_of. cbn [app fold_right]. lia. }
  eapply okp_weaken.
  - apply (flush_good right); cbn [collect_text with_spans rs_ctx]; try assumption.
    + unfold collect_text. cbn [with_spans rs_spans]. rewrite E. constructor; [exact T | constructor].
    + pose proof (chars_nonneg (rs_spans (collect_text (b_text b) s))). lia.
  - cbn beta. intros s1 (E1 & x & y & Ex & X1 & Y1). cbn [collect_text with_spans rs_ctx] in Ex, Y1.
    unfold on_ctx. apply okp_bind. rewrite Ex. pose proof (tk_spacing _ (si_text _ I)).
    rewrite at_newline; [|exact S | lia | unfold top in *; lia | lia]. cbn [okp].
    split; [exact E1|]. cbn [with_ctx rs_ctx]. eexists 0, _. split; [reflexivity|]. unfold xb. lia.
Qed.
Lemma pen_x s s' d : pen_to s s' d -> standard (rs_ctx s) -> 0 <= get_x (rs_ctx s') <= xb /\ 60 <= get_y (rs_ctx s') <= get_y (rs_ctx s) + d.
Proof. intros (_ & x & y & -> & X & Y) S. rewrite at_x, at_y by exact S. auto. Qed.
Lemma pen_more s s' d e : pen_to s s' d -> d <= e -> pen_to s s' e.
Proof. intros (A & x & y & E & X & Y) L. split; [exact A|]. exists x, y. split; [exact E | split; [exact X | lia]]. Qed.
Lemma pen_refl s d : standard (rs_ctx s) -> rs_spans s = [] -> 0 <= get_x (rs_ctx s) <= xb -> 60 <= get_y (rs_ctx s) -> 0 <= d -> pen_to s s d.
Proof. intros S E X Y D. split; [exact E|]. exists (get_x (rs_ctx s)), (get_y (rs_ctx s)). split; [exact (at_self _ S) | split; [exact X | lia]]. Qed.

Lemma barcode_good right b s : standard (rs_ctx s) -> sinv (rs_ctx s) -> rs_spans s = [] -> 0 <= get_x (rs_ctx s) <= xb ->
  60 <= get_y (rs_ctx s) -> bars_ok right b -> get_y (rs_ctx s) + 130823 <= top ->
  okp (process_barcode b s) (fun s' => pen_to s s' 130823).
Proof.
  intros S I E X Y O B. unfold process_barcode. apply okp_bind.
  apply (okp_weaken _ (fun s1 => pen_to s s1 65280)).
  { destruct (bc_human_readable (c_barcode (rs_ctx s))); try (cbn [okp]; apply pen_refl; auto; lia);
      (apply (barcode_text_good right); try assumption; lia). }
  intros s1 P1. pose proof (pen_std _ _ _ P1 S) as S1. pose proof (pen_sinv _ _ _ P1 I) as I1. destruct (pen_x _ _ _ P1 S) as (X1 & Y1).
  destruct O as [N PW PH T C]. pose proof (vlen_nonneg (b_points b)) as V0.
  unfold mul_u32. rewrite chk_ok by (unfold u32_max; nia). cbn [bind].
  unfold on_ctx at 1. set (o := calculate_justification (vlen (b_points b) * b_point_width b) (rs_ctx s1)).
  assert (OB : 0 <= o <= 609).
  { unfold o. rewrite (at_self _ S1). apply at_justified; [exact S1 | exact I1 | nia]. }
  clearbody o. set (c := rs_ctx s1) in *. set (y1 := get_y c) in *.
  rewrite (at_self c S1) at 1. rewrite at_set_x by exact S1. cbn [bind with_ctx rs_ctx]. fold y1.
  apply okp_bind. eapply okp_weaken.
  { apply (fold_good (barcode_point b) (fun n st => exists x, fst st = at_xy x y1 c /\ 0 <= x <= 609 + 6 * n) (b_points b) 0).
    2:{ exists o. cbn [fst]. split; [reflexivity | lia]. }
    intros p n [c2 rects] Hn (x & E2 & X2). cbn [fst] in E2. subst c2. unfold barcode_point.
    destruct ((0 <? p) && (get_available_width (at_xy x y1 c) <? b_point_width b)).
    - cbn [okp fst]. exists x. split; [reflexivity | lia].
    - apply okp_bind. rewrite at_offset_x; [|exact S1 | unfold top; lia]. cbn [okp fst]. exists (x + b_point_width b). split; [reflexivity | lia]. }
  cbn beta. intros [c2 rects] (x & E2 & X2). cbn [fst] in E2. subst c2.
  unfold on_ctx at 1. cbn [call with_ctx rs_ctx]. rewrite at_reset by exact S1. rewrite at_offset_y; [|exact S1 | unfold top in *; lia].
  cbn [bind]. cbn [with_ctx rs_ctx rs_spans rs_errors rs_calls].
  set (s2 := with_ctx (at_xy 0 (y1 + b_point_height b) c) (call (EGraphics rects) (with_ctx (at_xy x y1 c) (with_ctx (at_xy o y1 c) s1)))).
  assert (P2 : pen_to s s2 (65280 + 255)).
  { refine (pen_trans _ s1 _ _ _ S P1 _). split; [exact (proj1 P1)|]. exists 0, (y1 + b_point_height b). split; [reflexivity|]. unfold xb. fold c y1. lia. }
  pose proof (pen_std _ _ _ P2 S) as S2. pose proof (pen_sinv _ _ _ P2 I) as I2. destruct (pen_x _ _ _ P2 S) as (X2' & Y2).
  assert (Fin : okp (do s3 <- on_ctx (offset_y 8) s2; barcode_text b s3) (fun s' => pen_to s s' 130823)).
  { apply okp_bind. unfold on_ctx. apply okp_bind. rewrite (at_self _ S2). rewrite at_offset_y; [|exact S2 | unfold top in *; lia]. cbn [okp].
    set (s3 := with_ctx (at_xy (get_x (rs_ctx s2)) (get_y (rs_ctx s2) + 8) (rs_ctx s2)) s2).
    assert (P3 : pen_to s s3 (65535 + 8)).
    { refine (pen_trans _ s2 _ _ _ S P2 _). split; [exact (proj1 P2)|]. eexists _, _. split; [reflexivity|]. lia. }
    pose proof (pen_std _ _ _ P3 S) as S3. pose proof (pen_sinv _ _ _ P3 I) as I3. destruct (pen_x _ _ _ P3 S) as (X3 & Y3).
    eapply okp_weaken; [apply (barcode_text_good right b s3 S3 I3 (proj1 P3)); [lia | lia | constructor; assumption | lia]|].
    intros s4 P4. refine (pen_trans _ _ _ _ _ S P3 P4). }
  change (mk_rstate (at_xy 0 (y1 + b_point_height b) c) (rs_spans s1) (rs_errors s1) (rs_calls s1 ++ [(at_xy x y1 c, EGraphics rects)])) with s2.
  destruct (bc_human_readable _); try (exact Fin); cbn [okp]; apply (pen_more _ _ _ _ P2); lia.
Qed.

Lemma image_good i s : standard (rs_ctx s) -> sinv (rs_ctx s) -> rs_spans s = [] -> 0 <= get_x (rs_ctx s) <= xb ->
  60 <= get_y (rs_ctx s) -> 0 <= i_w i -> (i_flow i <> FlowBlock -> i_w i <= 131070) -> 0 <= i_h i <= 131070 -> get_y (rs_ctx s) + 131070 <= top ->
  okp (process_image i s) (fun s' => pen_to s s' 131070).
Proof.
  intros S I E X Y W0 W H B. unfold process_image. cbv zeta. set (c := rs_ctx s) in *. pose proof (tk_spacing _ (si_text _ I)).
  destruct (i_flow i) eqn:F.
  - (* inline *)
    apply okp_bind. replace (get_available_width c) with (Z.max 0 (609 - get_x c)) by (rewrite (at_self c S) at 2; rewrite at_avail by assumption; reflexivity).
    apply (okp_weaken _ (fun s1 => rs_spans s1 = [] /\ exists x y, rs_ctx s1 = at_xy x y c /\ 0 <= x /\ x + i_w i <= xb /\ 60 <= y <= get_y c + 255)).
    { destruct (Z.ltb_spec (Z.max 0 (609 - get_x c)) (i_w i)) as [L|L].
      - unfold on_ctx. apply okp_bind. fold c. rewrite (at_self c S) at 1. rewrite at_newline; [|exact S | lia | unfold top in *; lia | lia]. cbn [okp].
        split; [exact E|]. exists 0, (get_y c + t_line_spacing (c_text c) * 1). split; [reflexivity|]. specialize (W ltac:(discriminate)). unfold xb in *. lia.
      - cbn [okp]. split; [exact E|]. exists (get_x c), (get_y c). split; [exact (at_self c S)|]. unfold xb in *. lia. }
    intros s1 (E1 & x & y & Ex & X1 & X1' & Y1). cbn beta. change (i_flow (set_i_y (get_y (rs_ctx s1)) (set_i_x (get_x (rs_ctx s1)) i))) with (i_flow i). rewrite F.
    change (i_w (set_i_y (get_y (rs_ctx s1)) (set_i_x (get_x (rs_ctx s1)) i))) with (i_w i).
    unfold on_ctx. cbn [call rs_ctx]. rewrite Ex. rewrite at_offset_x; [|exact S | unfold top, xb in *; lia]. cbn [bind okp].
    split; [exact E1|]. cbn [with_ctx rs_ctx]. eexists _, _. split; [reflexivity|]. fold c. lia.
  - (* block *)
    unfold standard in S. rewrite S. fold c in S. change (standard c) in S.
    unfold on_ctx at 1. fold c. set (x := calculate_justification (i_w i) c). clearbody x.
    assert (SX : set_x x c = Ok (at_xy x (get_y c) c)) by (rewrite (at_self c S) at 1; apply at_set_x; exact S).
    rewrite SX. cbn [bind].
    cbn [call with_ctx rs_ctx rs_spans rs_calls rs_errors].
    change (i_flow (set_i_y _ (set_i_x _ i))) with (i_flow i). rewrite F. rewrite at_page. unfold standard in S. rewrite S. change (standard c) in S.
    unfold on_ctx. cbn [rs_ctx].
    change (i_h (set_i_y _ (set_i_x _ i))) with (i_h i).
    match goal with |- context [rs_ctx (call ?e (with_ctx ?cc s))] => change (rs_ctx (call e (with_ctx cc s))) with cc end.
    rewrite at_offset_y; [|exact S | unfold top in *; lia]. cbn [bind]. rewrite at_reset by exact S. cbn [okp].
    split; [exact E|]. cbn [with_ctx rs_ctx]. eexists _, _. split; [reflexivity|]. fold c. unfold xb. lia.
  - cbn [bind]. change (i_flow (set_i_y _ (set_i_x _ i))) with (i_flow i). rewrite F. cbn [okp].
    split; [exact E|]. cbn [with_ctx rs_ctx]. eexists (get_x c), (get_y c). split; [exact (at_self c S)|]. fold c. lia.
Qed.
