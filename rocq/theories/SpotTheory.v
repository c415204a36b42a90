(** * SpotTheory: where a gentle job in standard mode draws (used by C59).

    Every call of such a job is made in standard mode, draws nothing below the paper position it is
    made at, apart from the height of what it draws, and stays within moderate coordinates. *)
From Verif Require Import Base Command CommandSet Parser Vec Float32 GTypes Graphics Decoder Context Text
  Handlers Renderer ContextTheory RendererTheory Origin SpecPrinter StateTheory PropsText SpecRender LayoutTheory AreaTheory PlaceTheory SpecSafe
  SafeTheory SafeTheory2 SafeTheory3 SafeTheory4 SafeTheory5 PenTheory CallsTheory.
Local Open Scope Z_scope.
Local Open Scope list_scope.

Definition spot_word (Y : Z) (s : text_span) : Prop :=
  0 <= s_strikethrough s <= 10 /\ exists d, s_dimensions s = Some d /\ 0 <= d_x d <= xb /\ 0 <= d_w d <= xb /\ 0 <= d_y d <= Y.
(** a rectangle starts no lower than the paper position and ends within the printing width, if it is not empty *)
Definition spot_rect (Y : Z) (r : rectangle) : Prop := r_y r <= Y /\ (r_w r = 0 \/ r_x r + r_w r <= 609).
Definition spot_call (x : context * event) : Prop :=
  standard (fst x) /\
  match snd x with
  | EText spans off _ _ => 0 <= off <= 609 /\ Forall (spot_word (get_y (fst x))) spans
  | EGraphics rects => Forall (spot_rect (get_y (fst x))) rects
  | EImage i => i_y i = get_y (fst x) /\ i_h i <= 131070 /\ i_w i * i_h i <= u32_max /\ i_x i + i_w i <= u32_max
  | EPageBegin | ERenderPage | EPageEnd => False
  | EPageAreaChanged r w h => r = R0 /\ w = 0 /\ h = 0
  | _ => True
  end.
Definition spots (Y : Z) (s s' : rstate) : Prop :=
  exists new, rs_calls s' = rs_calls s ++ new /\ Forall (fun x => spot_call x /\ get_y (fst x) <= Y) new.
Lemma spots_refl Y s s' : rs_calls s' = rs_calls s -> spots Y s s'.
Proof. intros E. exists []. rewrite app_nil_r. split; [exact E | constructor]. Qed.
Lemma spots_trans Y s1 s2 s3 : spots Y s1 s2 -> spots Y s2 s3 -> spots Y s1 s3.
Proof.
  intros (a & E1 & F1) (b & E2 & F2). exists (a ++ b). rewrite E2, E1, app_assoc. split; [reflexivity|].
  apply Forall_app. split; assumption.
Qed.
Lemma spots_more Y Y' s s' : spots Y s s' -> Y <= Y' -> spots Y' s s'.
Proof. intros (a & E & F) L. exists a. split; [exact E|]. eapply Forall_impl; [|exact F]. cbn beta. intros x (S & B). split; [exact S | lia]. Qed.
Lemma spots_call Y s e : spot_call (rs_ctx s, e) -> get_y (rs_ctx s) <= Y -> spots Y s (call e s).
Proof. intros S L. exists [(rs_ctx s, e)]. split; [reflexivity|]. constructor; [split; [exact S | exact L] | constructor]. Qed.

(** ** Text *)
Lemma calm_top right K s : calm right K s -> get_y (rs_ctx s) <= top - K.
Proof. intros [_ _ _ _ L]. pose proof (chars_nonneg (rs_spans s)). lia. Qed.
Lemma flush_spots right s s' : standard (rs_ctx s) -> sinv (rs_ctx s) -> Forall (span_ok right) (rs_spans s) ->
  0 <= get_x (rs_ctx s) <= xb -> 60 <= get_y (rs_ctx s) -> get_y (rs_ctx s) + 255 * chars_of (rs_spans s) <= top ->
  process_text s = Ok s' -> spots (get_y (rs_ctx s')) s s'.
Proof.
  intros S I F X Y B H. set (c := rs_ctx s) in *. pose proof (std_width _ S I) as GW.
  unfold process_text in H. destruct (rs_spans s) as [|sp r] eqn:E.
  { injection H as <-. apply spots_refl. reflexivity. }
  rewrite <- E in *. clear E sp r. fold c in H. set (ws := flat_map break_into_words (rs_spans s)) in *.
  assert (L0 : lay_good right c (get_y c) (c, [], [])).
  { constructor; cbn [fst snd].
    - exists (get_x c), (get_y c). split; [exact (at_self _ S)|]. split; [exact X|]. split; [lia|]. intros _. cbn. lia.
    - split; constructor.
    - intros _. split; [constructor | cbn; lia].
    - constructor. }
  assert (BW : get_y c + 255 * chars_of ws <= top) by (unfold ws; rewrite chars_words; exact B).
  pose proof (words_good right c S I ws _ _ L0 (words_ok _ _ F) BW) as G.
  apply okp_ex in G. destruct G as ([[c1 l1] cur] & G & L1).
  assert (B0 : banded c (c, [], [])).
  { split; [apply moved_refl|]. split; [cbn [lay_ctx fst]; lia | constructor]. }
  destruct (words_banded _ (proj1 (tk_spacing _ (si_text _ I))) _ _ _ _ B0 G) as (M & Y1 & FB). cbn [lay_ctx fst snd] in *.
  unfold layout_words in H. rewrite GW, G in H. cbn [bind] in H.
  set (all := match cur with [] => l1 | _ :: _ => l1 ++ [cur] end) in *.
  assert (EC : concat all = concat l1 ++ cur).
  { unfold all. destruct cur; [rewrite app_nil_r; reflexivity|]. rewrite concat_app. cbn [concat]. rewrite app_nil_r. reflexivity. }
  destruct (render_lines_calls _ _ _ H) as (new & En & C & T & Fr & FX & X1 & _). cbn [with_ctx with_spans rs_calls rs_ctx rs_spans] in *.
  pose proof (lg_dims _ _ _ _ L1) as PD. cbn [fst snd] in PD. destruct (lg_lines _ _ _ _ L1) as (LL1 & LL2). cbn [fst snd] in LL1, LL2.
  assert (OK : Forall (span_ok right) (concat l1 ++ cur)).
  { apply Forall_app. split; [|exact LL2]. clear - LL1. induction LL1 as [|a l A _ IH]; [constructor|]. cbn [concat]. apply Forall_app. split; assumption. }
  assert (SW : Forall (spot_word (get_y c1)) (pieces_of new)).
  { rewrite C, EC. rewrite Forall_forall in *. intros w Hw. specialize (FB w Hw). specialize (PD w Hw). specialize (OK w Hw).
    destruct FB as (d & D & FB). destruct PD as (d' & D' & PX & PW). assert (d' = d) by congruence. subst d'.
    split; [exact (so_s _ _ OK)|]. exists d. split; [exact D|]. split; [exact PX|]. split; [exact PW|]. lia. }
  assert (S1 : standard c1) by (unfold standard; rewrite (moved_enabled _ _ M); exact S).
  exists new. split; [exact En|]. rewrite X1. clear - SW T Fr FX S1 GW M. 
  induction new as [|[x ev] new IH]; [constructor|].
  apply Forall_cons_iff in T, Fr, FX. destruct T as (T1 & T2), Fr as (R1 & R2), FX as (X1 & X2). cbn [fst snd] in *.
  change (pieces_of ((x, ev) :: new)) with (match ev with EText l _ _ _ => l | _ => [] end ++ pieces_of new) in SW. apply Forall_app in SW. destruct SW as (W1 & W2).
  constructor; [|apply IH; assumption]. cbn [fst]. subst x. split; [|lia]. split; [exact S1|]. cbn [fst snd].
  unfold framed_call in R1. cbn [fst snd] in R1. destruct ev; try contradiction. destruct spans as [|f r]; [contradiction|].
  destruct R1 as (_ & _ & w & Hw & Ho). split; [|exact W1]. rewrite (moved_width _ _ M), GW in Ho.
  destruct j; cbn [line_offset] in Ho.
  - injection Ho as <-. lia.
  - injection Ho as <-. pose proof (line_width_nonneg _ 0 _ (Z.le_refl 0) Hw) as W0. destruct (w <? 609) eqn:LT; [|lia]. apply Z.ltb_lt in LT.
    assert (DB : 0 <= (609 - w) / 2 <= 609) by (clear - LT W0; split; [apply Z.div_pos; lia | apply Z.div_le_upper_bound; lia]). exact DB.
  - pose proof (line_width_nonneg _ 0 _ (Z.le_refl 0) Hw) as W0. pose proof (chk_inv _ _ _ _ Ho) as (E0 & Q1 & Q2). clear - W0 E0 Q1. lia.
Qed.

(** ** Symbols *)
Lemma room c c' w : standard c -> sinv c -> moved c c' -> 0 <= w -> (get_available_width c' <? w) = false -> w = 0 \/ get_x c' + w <= 609.
Proof.
  intros S I M W H. apply Z.ltb_ge in H. pose proof (std_width _ S I) as G. rewrite <- (moved_width _ _ M) in G.
  unfold get_available_width in H. unfold get_width in G. unfold get_x. unfold standard in S. rewrite (moved_enabled _ _ M), S in *. rewrite G in H.
  set (x := a_x (g_render_area (c_graphics c'))) in *. clearbody x. unfold sat_sub in H. destruct (x <=? 609) eqn:Q; lia.
Qed.
Lemma code2d_spots q s s' : standard (rs_ctx s) -> sinv (rs_ctx s) -> 0 <= q_point_width q -> 0 <= q_point_height q -> process_code_2d q s = Ok s' -> spots (get_y (rs_ctx s')) s s'.
Proof.
  intros S SI PW P H. unfold process_code_2d in H. apply bind_ok in H. destruct H as (t & _ & H). cbv zeta in H.
  set (o := calculate_justification t (rs_ctx s)) in *. clearbody o.
  apply bind_ok in H. destruct H as (c0 & H0 & H). apply bind_ok in H. destruct H as (((c1 & i) & rects) & Hf & H). injection H as <-.
  assert (Q : moved (rs_ctx s) c1 /\ Forall (spot_rect (get_y c1)) rects).
  { refine (fold_res_ind (code2d_point q o) (fun st => moved (rs_ctx s) (fst (fst st)) /\ Forall (spot_rect (get_y (fst (fst st)))) (snd st)) _ (c0, 1, []) (c1, i, rects) _ _ Hf).
    - split; [exact (set_x_moved _ _ _ H0) | constructor].
    - intros p [[c2 j] rs] [[c3 j'] rs'] _ (M & F) E. cbn [fst snd] in *. unfold code2d_point in E.
      apply bind_ok in E. destruct E as (c4 & E4 & E).
      assert (Q4 : moved (rs_ctx s) c4 /\ get_y c2 <= get_y c4).
      { destruct (negb (j =? 1)); [|injection E4 as <-; split; [exact M | lia]]. destruct (q_width q =? 0); [discriminate|].
        destruct (j mod q_width q =? 1); [|injection E4 as <-; split; [exact M | lia]]. apply bind_ok in E4. destruct E4 as (c5 & E5 & E4).
        split; [exact (moved_trans _ _ _ (moved_trans _ _ _ M (set_x_moved _ _ _ E5)) (offset_y_moved _ _ _ E4))|].
        destruct (set_x_pos _ _ _ E5) as (_ & Y5). destruct (offset_y_pos _ _ _ E4) as (Y4 & _). lia. }
      destruct Q4 as (M4 & Y4).
      assert (F4 : Forall (spot_rect (get_y c4)) rs) by (eapply Forall_impl; [|exact F]; intros r (R1 & R2); split; [lia | exact R2]).
      destruct ((0 <? p) && (get_available_width c4 <? q_point_width q)) eqn:FULL; [injection E as <- <- <-; split; assumption|]. cbv zeta in E.
      apply bind_ok in E. destruct E as (c5 & E5 & E). apply bind_ok in E. destruct E as (k & _ & E). injection E as <- <- <-.
      destruct (offset_x_pos _ _ _ E5) as (_ & Y5). rewrite Y5. split; [exact (moved_trans _ _ _ M4 (offset_x_moved _ _ _ E5))|].
      destruct (0 <? p); [|exact F4]. apply Forall_app. split; [exact F4 | constructor; [split; cbn [r_y r_x r_w]; [lia|] | constructor]].
      cbn [andb] in FULL. exact (room _ _ _ S SI M4 PW FULL). }
  destruct Q as (M & F). destruct (reset_x_pos c1) as (_ & RY).
  cbn [call with_ctx rs_ctx]. exists [(reset_x c1, EGraphics rects)]. split; [reflexivity|]. constructor; [|constructor].
  cbn [fst]. split; [|lia]. split; [|cbn [fst snd]; rewrite RY; exact F].
  cbn [fst]. unfold standard. rewrite (moved_enabled _ _ (moved_trans _ _ _ M (moved_reset_x c1))). exact S.
Qed.
Lemma barcode_text_spots right b s s' : standard (rs_ctx s) -> sinv (rs_ctx s) -> rs_spans s = [] -> 0 <= get_x (rs_ctx s) <= xb ->
  60 <= get_y (rs_ctx s) -> bars_ok right b -> get_y (rs_ctx s) + 65280 <= top ->
  barcode_text b s = Ok s' -> spots (get_y (rs_ctx s')) s s' /\ get_y (rs_ctx s) <= get_y (rs_ctx s').
Proof.
  intros S I E X Y [_ _ _ T C] B H. unfold barcode_text in H. apply bind_ok in H. destruct H as (s1 & H1 & H).
  assert (CH : chars_of (rs_spans (collect_text (b_text b) s)) <= 255).
  { unfold collect_text. cbn [with_spans rs_spans]. rewrite E. unfold chars_of. cbn [app fold_right]. lia. }
  pose proof (flush_spots right (collect_text (b_text b) s) s1 S I) as P. cbn [collect_text with_spans rs_ctx rs_spans] in P, CH. rewrite E in P, CH.
  specialize (P ltac:(constructor; [exact T | constructor]) X Y ltac:(lia) H1).
  destruct (flush_band (collect_text (b_text b) s) s1 I H1) as (_ & _ & _ & _ & _ & _ & Y1 & _). cbn [collect_text with_spans rs_ctx] in Y1.
  apply on_ctx_inv in H. destruct H as (c & Hc & ->). cbn [with_ctx rs_ctx]. destruct (line_pos _ _ _ Hc) as (_ & Y2).
  assert (SP : 0 <= t_line_spacing (c_text (rs_ctx s1))).
  { rewrite (moved_text _ _ (proj1 (process_text_moved _ _ H1))). exact (proj1 (tk_spacing _ (si_text _ I))). }
  split; [|lia]. apply (spots_trans _ _ s1); [|apply spots_refl; reflexivity]. refine (spots_more (get_y (rs_ctx s1)) _ _ _ P _). lia.
Qed.
Lemma bars_spots b s s' : standard (rs_ctx s) -> sinv (rs_ctx s) -> 0 <= b_point_width b -> forall o, (do s <- on_ctx (set_x o) s;
  do out <- fold_res (barcode_point b) (b_points b) (rs_ctx s, []);
  let '(c, rects) := out in
  let s := call (EGraphics rects) (with_ctx c s) in
  on_ctx (fun c => offset_y (b_point_height b) (reset_x c)) s) = Ok s' -> 0 <= b_point_height b ->
  spots (get_y (rs_ctx s')) s s' /\ get_y (rs_ctx s') = get_y (rs_ctx s) + b_point_height b /\ moved (rs_ctx s) (rs_ctx s') /\ rs_spans s' = rs_spans s /\ get_x (rs_ctx s') = 0.
Proof.
  intros S SI PW o H P. apply bind_ok in H. destruct H as (s1 & H1 & H). apply on_ctx_inv in H1. destruct H1 as (c0 & H1 & ->). cbn [with_ctx rs_ctx] in H.
  apply bind_ok in H. destruct H as ((c1 & rects) & Hf & H).
  destruct (set_x_pos _ _ _ H1) as (_ & Y0).
  assert (Q : (moved (rs_ctx s) c1 /\ get_y c1 = get_y (rs_ctx s)) /\ Forall (spot_rect (get_y (rs_ctx s))) rects).
  { refine (fold_res_ind (barcode_point b) (fun st => (moved (rs_ctx s) (fst st) /\ get_y (fst st) = get_y (rs_ctx s)) /\ Forall (spot_rect (get_y (rs_ctx s))) (snd st)) _ (c0, []) (c1, rects) _ _ Hf).
    - split; [split; [exact (set_x_moved _ _ _ H1) | exact Y0] | constructor].
    - intros p [c2 rs] [c3 rs'] _ ((M & Y) & F) E. cbn [fst snd] in *. unfold barcode_point in E.
      destruct ((0 <? p) && (get_available_width c2 <? b_point_width b)) eqn:FULL; [injection E as <- <-; split; [split; assumption | assumption]|]. cbv zeta in E.
      apply bind_ok in E. destruct E as (c4 & E4 & E). injection E as <- <-. destruct (offset_x_pos _ _ _ E4) as (_ & Y4).
      split; [split; [exact (moved_trans _ _ _ M (offset_x_moved _ _ _ E4)) | lia]|]. destruct (0 <? p); [|exact F].
      apply Forall_app. split; [exact F | constructor; [split; cbn [r_y r_x r_w]; [lia|] | constructor]].
      cbn [andb] in FULL. exact (room _ _ _ S SI M PW FULL). }
  destruct Q as ((M & Y1) & F). apply on_ctx_inv in H. destruct H as (c2 & H2 & ->). cbn [call with_ctx rs_ctx rs_spans rs_calls] in *.
  destruct (reset_x_pos c1) as (RX & RY). destruct (offset_y_pos _ _ _ H2) as (Y2 & X2). rewrite RY, Y1 in Y2.
  assert (X0 : get_x c2 = 0).
  { rewrite X2, RX. unfold get_base_x. rewrite (moved_enabled _ _ M). unfold standard in S. rewrite S. reflexivity. }
  split; [|split; [exact Y2 | split; [exact (moved_trans _ _ _ (moved_trans _ _ _ M (moved_reset_x c1)) (offset_y_moved _ _ _ H2)) | split; [reflexivity | exact X0]]]].
  exists [(c1, EGraphics rects)]. split; [reflexivity|]. constructor; [|constructor]. cbn [fst snd].
  split; [|lia]. split; [cbn [fst]; unfold standard; rewrite (moved_enabled _ _ M); exact S|]. cbn [fst snd]. rewrite Y1. exact F.
Qed.
Lemma barcode_spots right b s s' : standard (rs_ctx s) -> sinv (rs_ctx s) -> rs_spans s = [] -> 0 <= get_x (rs_ctx s) <= xb ->
  60 <= get_y (rs_ctx s) -> bars_ok right b -> get_y (rs_ctx s) + 130823 <= top ->
  process_barcode b s = Ok s' -> spots (get_y (rs_ctx s')) s s'.
Proof.
  intros S I E X Y O B H. unfold process_barcode in H. apply bind_ok in H. destruct H as (s1 & H1 & H).
  assert (P1 : pen_to s s1 65280 /\ spots (get_y (rs_ctx s1)) s s1).
  { assert (T : forall s1, barcode_text b s = Ok s1 -> pen_to s s1 65280 /\ spots (get_y (rs_ctx s1)) s s1).
    { intros s0 H0. pose proof (barcode_text_good right b s S I E X Y O ltac:(lia)) as G. rewrite H0 in G. split; [exact G|].
      exact (proj1 (barcode_text_spots right b s s0 S I E X Y O ltac:(lia) H0)). }
    assert (N : forall s1, Ok s = Ok s1 -> pen_to s s1 65280 /\ spots (get_y (rs_ctx s1)) s s1).
    { intros s0 [= <-]. split; [apply pen_refl; auto; lia | apply spots_refl; reflexivity]. }
    destruct (bc_human_readable (c_barcode (rs_ctx s))); auto. }
  destruct P1 as (P1 & Q1). pose proof (pen_std _ _ _ P1 S) as S1. pose proof (pen_sinv _ _ _ P1 I) as I1. destruct (pen_x _ _ _ P1 S) as (X1 & Y1).
  apply bind_ok in H. destruct H as (t & _ & H).
  set (o := calculate_justification t (rs_ctx s1)) in *. clearbody o.
  assert (R : exists s2, (do s <- on_ctx (set_x o) s1; do out <- fold_res (barcode_point b) (b_points b) (rs_ctx s, []);
    let '(c, rects) := out in let s := call (EGraphics rects) (with_ctx c s) in
    on_ctx (fun c => offset_y (b_point_height b) (reset_x c)) s) = Ok s2 /\
    match bc_human_readable (c_barcode (rs_ctx s2)) with HriBelow | HriBoth => do s <- on_ctx (offset_y 8) s2; barcode_text b s | _ => Ok s2 end = Ok s').
  { apply bind_ok in H. destruct H as (sa & Ha & H). rewrite Ha. cbn [bind]. apply bind_ok in H. destruct H as ((c & rects) & Hb & H). rewrite Hb. cbn [bind].
    apply bind_ok in H. destruct H as (sb & Hc & H). exists sb. split; [exact Hc | exact H]. }
  clear H. destruct R as (s2 & R & H). pose proof (br_ph _ _ O) as PH.
  destruct (bars_spots _ _ _ S1 I1 (proj1 (br_pw _ _ O)) _ R (proj1 PH)) as (Q2 & Y2 & M2 & E2 & X2).
  assert (Q12 : spots (get_y (rs_ctx s2)) s s2) by (apply (spots_trans _ _ s1); [apply (spots_more _ _ _ _ Q1); lia | exact Q2]).
  assert (T : (do s <- on_ctx (offset_y 8) s2; barcode_text b s) = Ok s' -> spots (get_y (rs_ctx s')) s s').
  { clear H. intros H. apply bind_ok in H. destruct H as (s3 & H3 & H). apply on_ctx_inv in H3. destruct H3 as (c3 & H3 & ->).
    destruct (offset_y_pos _ _ _ H3) as (Y3 & X3).
    pose proof (moved_trans _ _ _ M2 (offset_y_moved _ _ _ H3)) as M3.
    destruct (barcode_text_spots right b (with_ctx c3 s2) s') as (Q3 & Y4); cbn [with_ctx rs_ctx rs_spans]; try assumption.
    - unfold standard. rewrite (moved_enabled _ _ M3). exact S1.
    - exact (sinv_moved _ _ M3 I1).
    - rewrite E2. exact (proj1 P1).
    - rewrite X3, X2. unfold xb. lia.
    - lia.
    - lia.
    - cbn [with_ctx rs_ctx] in Y4. apply (spots_trans _ _ s2); [apply (spots_more _ _ _ _ Q12); lia|].
      apply (spots_trans _ _ (with_ctx c3 s2)); [apply spots_refl; reflexivity | exact Q3]. }
  destruct (bc_human_readable (c_barcode (rs_ctx s2))); try (exact (T H)); injection H as <-; exact Q12.
Qed.

(** ** Images *)
Lemma image_spots i s s' : standard (rs_ctx s) -> sinv (rs_ctx s) -> 0 <= get_x (rs_ctx s) <= xb ->
  0 <= i_w i <= u32_max -> (i_flow i <> FlowBlock -> i_w i <= 131070) -> 0 <= i_h i <= 131070 -> i_w i * i_h i <= u32_max ->
  process_image i s = Ok s' -> spots (Z.max (get_y (rs_ctx s)) (get_y (rs_ctx s'))) s s'.
Proof.
  intros S I X W0 W H0 A H. unfold process_image in H. cbv zeta in H. apply bind_ok in H. destruct H as (s1 & H1 & H).
  assert (Q : rs_calls s1 = rs_calls s /\ moved (rs_ctx s) (rs_ctx s1) /\ get_y (rs_ctx s) <= get_y (rs_ctx s1) /\ get_x (rs_ctx s1) + i_w i <= u32_max /\
    (i_flow i = FlowNone -> get_y (rs_ctx s1) = get_y (rs_ctx s))).
  { destruct (i_flow i) eqn:F.
    - specialize (W ltac:(discriminate)). destruct (get_available_width _ <? _).
      + apply on_ctx_inv in H1. destruct H1 as (c & Hc & ->). cbn [with_ctx rs_ctx rs_calls]. destruct (line_pos _ _ _ Hc) as (Xc & Yc).
        pose proof (tk_spacing _ (si_text _ I)). unfold get_base_x in Xc. unfold standard in S. rewrite S in Xc. rewrite Xc.
        split; [reflexivity|]. split; [exact (newline_moved _ _ _ Hc)|]. split; [lia|]. split; [unfold u32_max; lia | discriminate].
      + injection H1 as <-. split; [reflexivity|]. split; [apply moved_refl|]. split; [lia|]. split; [unfold u32_max, xb in *; lia | discriminate].
    - pose proof S as S'. unfold standard in S'. rewrite S' in H1. apply on_ctx_inv in H1. destruct H1 as (c & Hc & ->). cbn [with_ctx rs_ctx rs_calls].
      destruct (set_x_pos _ _ _ Hc) as (Xc & Yc). unfold get_base_x in Xc. rewrite S' in Xc.
      split; [reflexivity|]. split; [exact (set_x_moved _ _ _ Hc)|]. split; [lia|]. split; [|discriminate]. rewrite Xc.
      unfold calculate_justification. cbv zeta. rewrite (std_width _ S I). destruct (Z.ltb_spec 609 (i_w i)); [lia|].
      destruct (t_justify _); [unfold u32_max; lia | | unfold u32_max; lia]. destruct (Z.ltb_spec 0 (609 - i_w i)); [|unfold u32_max; lia].
      assert ((609 - i_w i) / 2 <= 609) by (apply Z.div_le_upper_bound; lia). unfold u32_max. lia.
    - injection H1 as <-. specialize (W ltac:(discriminate)). split; [reflexivity|]. split; [apply moved_refl|]. split; [lia|]. split; [unfold u32_max, xb in *; lia | reflexivity]. }
  destruct Q as (C & M & Y & XW & YN). clear H1.
  set (j := set_i_y (get_y (rs_ctx s1)) (set_i_x (get_x (rs_ctx s1)) i)) in *.
  assert (Y' : rs_calls s' = rs_calls s1 ++ [(rs_ctx s1, EImage j)] /\ (get_y (rs_ctx s1) <= get_y (rs_ctx s') \/ get_y (rs_ctx s1) = get_y (rs_ctx s))).
  { change (i_flow j) with (i_flow i) in H. destruct (i_flow i) eqn:F.
    - apply on_ctx_inv in H. destruct H as (c & Hc & ->). cbn [with_ctx call rs_ctx rs_calls] in *. destruct (offset_x_pos _ _ _ Hc). split; [reflexivity | left; lia].
    - cbn [call rs_ctx] in H. rewrite (moved_enabled _ _ M) in H. unfold standard in S. rewrite S in H. apply on_ctx_inv in H. destruct H as (c & Hc & ->).
      cbn [with_ctx call rs_ctx rs_calls] in *. apply bind_ok in Hc. destruct Hc as (c2 & Hc & E). injection E as <-. destruct (offset_y_pos _ _ _ Hc) as (Y2 & _).
      destruct (reset_x_pos c2) as (_ & Y3). change (i_h j) with (i_h i) in Y2. split; [reflexivity | left; lia].
    - injection H as <-. cbn [call rs_calls rs_ctx]. split; [reflexivity | right; exact (YN eq_refl)]. }
  destruct Y' as (C' & Y'). exists [(rs_ctx s1, EImage j)]. rewrite C', C. split; [reflexivity|]. constructor; [|constructor]. cbn [fst]. split; [|lia].
  split; [cbn [fst]; unfold standard; rewrite (moved_enabled _ _ M); exact S|]. cbn [fst snd].
  change (get_y (rs_ctx s1) = get_y (rs_ctx s1) /\ i_h i <= 131070 /\ i_w i * i_h i <= u32_max /\ get_x (rs_ctx s1) + i_w i <= u32_max).
  split; [reflexivity|]. split; [lia|]. split; [exact A | exact XW].
Qed.
Lemma gfx_spots right K g s s' : calm right (K + 131070) s -> 0 <= K -> rs_spans s = [] -> ready right g -> gfx_wf g ->
  process_gfx g s = Ok s' -> spots (top - K) s s'.
Proof.
  intros CA K0 E G WF H. pose proof (gfx_good right K g s CA K0 E G WF) as CB. rewrite H in CB. cbn [okp] in CB.
  pose proof (calm_top _ _ _ CA) as T1. pose proof (calm_top _ _ _ CB) as T2.
  pose proof CA as [[S U R] B X Y L]. pose proof (calm_std _ _ R) as Std. rewrite E in L. change (chars_of []) with 0 in L.
  destruct g as [m|q|b|i]; cbn [process_gfx ready] in *.
  - injection H as <-. apply spots_refl. reflexivity.
  - apply (spots_more _ _ _ _ (code2d_spots q s s' Std S (proj1 (co_pw _ G)) (proj1 (co_ph _ G)) H)). exact T2.
  - refine (spots_more _ _ _ _ (barcode_spots right b s s' Std S E X Y G _ H) T2). lia.
  - destruct G as (G1 & G2 & G3 & G4). destruct WF as [W1 _ _]. unfold u32v in W1.
    refine (spots_more _ _ _ _ (image_spots i s s' Std S X _ G2 G3 G4 H) _); [exact W1 | lia].
Qed.

(** ** Device commands *)
Lemma spots_on s f s' Y : on_ctx f s = Ok s' -> spots Y s s'.
Proof. intros H. apply on_ctx_inv in H. destruct H as (c & _ & ->). apply spots_refl. reflexivity. Qed.
Lemma device_spots right d s K s' : calm right (K + dcost d) s -> 0 <= K -> gdev right d -> process_device_command d s = Ok s' -> spots (top - K) s s'.
Proof.
  intros CA K0 G H. pose proof (device_good right d s K CA K0 G) as CB. rewrite H in CB. cbn [okp] in CB.
  pose proof (calm_top _ _ _ CA) as T1. pose proof (calm_top _ _ _ CB) as T2. pose proof (dcost_nonneg d) as D0.
  pose proof CA as [[S U R] B X Y L]. pose proof (calm_std _ _ R) as Std.
  assert (D : forall d, spots (top - K) s (call (EDevice d) s)) by (intros d'; apply spots_call; [split; [exact Std | exact I] | lia]).
  assert (GEO : forall s1 : rstate, rs_ctx s1 = rs_ctx s -> rs_calls s1 = rs_calls (call (EDevice d) s) -> page_geometry s1 = Ok s' -> spots (top - K) s s').
  { intros s1 E1 E2 Hg. unfold page_geometry in Hg. rewrite E1, (cr_page _ _ R) in Hg.
    change (apply_logical_area default_page) with (Ok (R0, 0, 0, default_page)) in Hg. cbn [bind] in Hg. injection Hg as <-.
    assert (EP : upd_page (fun _ => default_page) (rs_ctx s) = rs_ctx s).
    { rewrite <- (cr_page _ _ R). destruct (rs_ctx s) as [dd [t b q g p]]. reflexivity. }
    rewrite EP. apply (spots_trans _ _ (call (EDevice d) s)); [apply D|].
    apply (spots_trans _ _ (with_ctx (rs_ctx s) s1)); [apply spots_refl; exact E2|].
    apply spots_call; cbn [with_ctx rs_ctx]; [split; [exact Std | cbn [snd]; auto] | lia]. }
  destruct G as (DO & G). unfold process_device_command in H. cbv zeta in H.
  destruct d; try contradiction;
    try (injection H as <-; apply D);
    try (refine (spots_trans _ _ _ _ (D _) (spots_on _ _ _ _ H))).
  - (* BeginPrint *) apply bind_ok in H. destruct H as (s1 & H1 & H). injection H as <-.
    apply (spots_trans _ _ s1); [refine (spots_trans _ _ _ _ (D _) (spots_on _ _ _ _ H1))|].
    apply spots_call; [split; [exact (calm_std _ _ (cc_r _ _ (ca_ctx _ _ _ CB))) | exact I] | exact T2].
  - (* EndPrint *) injection H as <-. apply (spots_trans _ _ (call EGetErrors (call (EDevice EndPrint) s))).
    + refine (spots_trans _ _ _ _ (D _) _). apply spots_call; [split; [exact Std | exact I] | cbn [call rs_ctx]; lia].
    + apply spots_call; [split; [exact Std | exact I] | cbn [call rs_ctx]; lia].
  - exact (GEO (call (EDevice ChangePageModeDirection) s) eq_refl eq_refl H).
  - apply bind_ok in H. destruct H as (s1 & H1 & H). apply on_ctx_inv in H1. destruct H1 as (c & Hc & ->). injection Hc as <-.
    assert (EP : upd_page (fun p => set_p_previous_direction (p_direction p) p) (rs_ctx s) = rs_ctx s).
    { pose proof (cr_page _ _ R) as P. destruct (rs_ctx s) as [dd [t b q g p]]. unfold c_page in P. cbn in P. subst p. reflexivity. }
    refine (GEO _ _ _ H); [exact EP | reflexivity].
Qed.
Lemma devices_spots right l : forall s K s', calm right (K + dcosts l) s -> 0 <= K -> Forall (gdev right) l -> process_device_commands l s = Ok s' ->
  spots (top - K) s s'.
Proof.
  unfold process_device_commands. induction l as [|d l IH]; intros s K s' CA K0 F H; cbn [fold_res] in H.
  - injection H as <-. apply spots_refl. reflexivity.
  - apply Forall_cons_iff in F. destruct F as (F1 & F2). change (dcosts (d :: l)) with (dcost d + dcosts l) in CA.
    assert (DL : 0 <= dcosts l) by (clear; induction l as [|d l IH]; [cbn; lia | change (dcosts (d :: l)) with (dcost d + dcosts l); pose proof (dcost_nonneg d); lia]).
    apply bind_ok in H. destruct H as (s1 & H1 & H).
    assert (CA' : calm right (K + dcosts l + dcost d) s) by (replace (K + dcosts l + dcost d) with (K + (dcost d + dcosts l)) by lia; exact CA).
    pose proof (device_good right d s (K + dcosts l) CA' ltac:(lia) F1) as C1. rewrite H1 in C1. cbn [okp] in C1.
    apply (spots_trans _ _ s1); [|exact (IH s1 K s' C1 K0 F2 H)].
    apply (spots_more _ _ _ _ (device_spots right d s (K + dcosts l) s1 CA' ltac:(lia) F1 H1)). lia.
Qed.

(** ** Commands *)
Lemma flush_calm_spots right K s s' : calm right K s -> 0 <= K -> process_text s = Ok s' -> spots (top - K) s s' /\ calm right K s' /\ rs_spans s' = [].
Proof.
  intros CA K0 H. pose proof (flush_calm right K s CA K0) as G. rewrite H in G. cbn [okp] in G. split; [|exact G].
  pose proof CA as [[S U R] B X Y L]. refine (spots_more _ _ _ _ (flush_spots right s s' (calm_std _ _ R) S B X Y _ H) (calm_top _ _ _ (proj1 G))). lia.
Qed.
Lemma command_spots right K e c s s' : calm right (K + paper_for c) s -> 0 <= K -> sent c -> gentle right c -> encoders_ok e ->
  process_command e c s = Ok s' -> spots (top - K) s s'.
Proof.
  intros CA K0 Sc G E H. unfold process_command, paper_for in *. pose proof (vlen_nonneg (c_data c)) as V0.
  assert (DL : forall s l, calm right (K + 65025) s -> Forall (gdev right) l /\ dcosts l <= match c_handler c with HPlain _ | HFeedCut => 65025 | _ => 0 end ->
     process_device_commands l s = Ok s' -> spots (top - K) s s').
  { intros s1 l C1 (F & D) Hl. apply (devices_spots right l s1 K s'); [|exact K0 | exact F | exact Hl]. apply (calm_less _ _ _ _ C1). destruct (c_handler c); lia. }
  assert (DV : forall s, calm right (K + 65025) s -> (do d <- get_device_command c (rs_ctx s); process_device_commands d s) = Ok s' -> spots (top - K) s s').
  { intros s1 C1 Hd. apply bind_ok in Hd. destruct Hd as (l & Hl & Hd). pose proof (get_device_good right c _ (ca_ctx _ _ _ C1) Sc G) as GD. rewrite Hl in GD.
    exact (DL s1 l C1 GD Hd). }
  destruct (c_kind c).
  - apply bind_ok in H. destruct H as (l & Hl & H). pose proof (get_device_good right c _ (ca_ctx _ _ _ CA) Sc G) as GD. rewrite Hl in GD.
    apply bind_ok in H. destruct H as (s1 & H1 & H). destruct (flush_calm_spots right _ s s1 CA ltac:(lia) H1) as (P1 & C1 & _).
    apply (spots_trans _ _ s1); [apply (spots_more _ _ _ _ P1); lia | exact (DL s1 l C1 GD H)].
  - injection H as <-. destruct (get_text c (rs_ctx s)); apply spots_refl; reflexivity.
  - apply bind_ok in H. destruct H as (s1 & H1 & H). pose proof (context_calm right _ e c s CA Sc G E) as C1. rewrite H1 in C1.
    apply (spots_trans _ _ s1); [exact (spots_on _ _ _ _ H1) | exact (DV s1 C1 H)].
  - assert (CA' : calm right (K + 65025 + 131070) s) by (apply (calm_less _ _ _ _ CA); lia). clear CA.
    apply bind_ok in H. destruct H as (s1 & H1 & H). destruct (flush_calm_spots right _ s s1 CA' ltac:(lia) H1) as (P1 & C1 & E1).
    apply bind_ok in H. destruct H as (o & Ho & H). pose proof (get_graphics_good right e c _ (ca_ctx _ _ _ C1) Sc G E) as RD. rewrite Ho in RD. cbn [okp] in RD.
    apply bind_ok in H. destruct H as (s2 & H2 & H).
    assert (P2 : spots (top - (K + 65025)) s1 s2 /\ calm right (K + 65025) s2).
    { destruct o as [g|]; [|injection H2 as <-; split; [apply spots_refl; reflexivity | apply (calm_less _ _ _ _ C1); lia]].
      pose proof (get_graphics_wf _ _ _ _ Sc (cc_u _ _ (ca_ctx _ _ _ C1)) Ho) as WF.
      pose proof (gfx_good right (K + 65025) g s1 C1 ltac:(lia) E1 RD WF) as C2. rewrite H2 in C2. split; [|exact C2].
      exact (gfx_spots right (K + 65025) g s1 s2 C1 ltac:(lia) E1 RD WF H2). }
    destruct P2 as (P2 & C2).
    apply (spots_trans _ _ s1); [apply (spots_more _ _ _ _ P1); lia|]. apply (spots_trans _ _ s2); [apply (spots_more _ _ _ _ P2); lia | exact (DV s2 C2 H)].
  - replace (K + 0) with K in CA by lia. apply bind_ok in H. destruct H as (s1 & H1 & H). destruct (flush_calm_spots right _ s s1 CA K0 H1) as (P1 & C1 & _).
    apply (spots_trans _ _ s1); [exact P1 | exact (spots_on _ _ _ _ H)].
  - apply bind_ok in H. destruct H as (s1 & H1 & H). destruct (flush_calm_spots right _ s s1 CA ltac:(lia) H1) as (P1 & C1 & _).
    apply bind_ok in H. destruct H as (s2 & H2 & H). pose proof (context_calm right _ e c s1 C1 Sc G E) as C2. rewrite H2 in C2.
    apply (spots_trans _ _ s1); [apply (spots_more _ _ _ _ P1); lia|]. apply (spots_trans _ _ s2); [exact (spots_on _ _ _ _ H2) | exact (DV s2 C2 H)].
  - injection H as <-. apply spots_refl. reflexivity.
  - replace (K + 0) with K in CA by lia. apply bind_ok in H. destruct H as (s1 & H1 & H). destruct (flush_calm_spots right _ s s1 CA K0 H1) as (P1 & C1 & _).
    injection H as <-. apply (spots_trans _ _ s1); [exact P1 | apply spots_refl; reflexivity].
Qed.
Lemma commands_spots right e l : encoders_ok e -> forall K s s', calm right (K + paper_for_all l) s -> 0 <= K -> Forall sent l -> Forall (gentle right) l ->
  run_commands e l s = Ok s' -> spots (top - K) s s'.
Proof.
  intros E. unfold run_commands. induction l as [|c l IH]; intros K s s' CA K0 Fs Fg H; cbn [fold_res] in H.
  - injection H as <-. apply spots_refl. reflexivity.
  - apply Forall_cons_iff in Fs, Fg. destruct Fs as (S1 & S2), Fg as (G1 & G2). change (paper_for_all (c :: l)) with (paper_for c + paper_for_all l) in CA.
    pose proof (papers_nonneg l). apply bind_ok in H. destruct H as (s1 & H1 & H).
    assert (CA' : calm right (K + paper_for_all l + paper_for c) s) by (replace (K + paper_for_all l + paper_for c) with (K + (paper_for c + paper_for_all l)) by lia; exact CA).
    pose proof (command_good right (K + paper_for_all l) e c s CA' ltac:(lia) S1 G1 E) as C1. rewrite H1 in C1. cbn [okp] in C1.
    apply (spots_trans _ _ s1); [|exact (IH K s1 s' C1 K0 S2 G2 H)].
    apply (spots_more _ _ _ _ (command_spots right (K + paper_for_all l) e c s s1 CA' ltac:(lia) S1 G1 E H1)). lia.
Qed.
