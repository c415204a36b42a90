(** * PropsReceiptHtml: C67, a receipt of styled, aligned lines, feeds and cuts, from the bytes to the HTML document. *)
From Verif Require Import Base Command CommandSet Parser Vec Float32 GTypes Graphics Utf8 Decoder Context Text Upce Handlers Renderer
  SpecStream StreamProofs ContextTheory RendererTheory Origin SpecPrinter StateTheory PropsText SpecRender
  PropsOutput LayoutTheory AreaTheory PlaceTheory PropsContext PropsLayout PropsPlace SafeTheory PenTheory CallsTheory SpecLines PropsLines
  ManualTheory PropsQr PropsDecoder ThermalImage SpecCanvas CanvasRect ImageRenderer SpecImage ImageTheory PropsImage SpecDraw DrawTheory SpecSafe PropsSafe PropsDraw
  PropsScene SpecPlain PlainTheory PlainRun PlainJob PropsPlain SpecReceipt ReceiptRun PropsReceipt
  ThermalFile HtmlTemplate HtmlRenderer SpecHtml HtmlTheory PropsHtml PropsDrawHtml SpecReceiptHtml.
Local Open Scope Z_scope.
Local Open Scope list_scope.
Local Arguments at_ : simpl never.
Local Arguments vlen : simpl never.

(** ** Words *)
Lemma space_only c : printable c -> is_whitespace c = (c =? 32).
Proof. unfold printable. intros P. assert (H : forallb (fun k => Bool.eqb (is_whitespace k) (k =? 32)) (map Z.of_nat (seq 32 95)) = true) by (vm_compute; reflexivity).
  rewrite forallb_forall in H. specialize (H c). rewrite Bool.eqb_true_iff in H. apply H. apply in_map_iff. exists (Z.to_nat c). split; [lia|]. apply in_seq. lia. Qed.
Lemma words_are t : Forall printable t -> forall cur, words_loop cur t = match cur, line_words t with
  | [], ws => ws
  | _, [] => [cur]
  | _, w :: ws => (cur ++ w) :: ws
  end.
Proof.
  induction 1 as [|c t P F IH]; intros cur; cbn [words_loop line_words]; [destruct cur; reflexivity|]. rewrite (space_only c P), !IH. destruct (c =? 32).
  - destruct cur; reflexivity.
  - destruct cur as [|k cur]; cbn [app]; destruct (line_words t); rewrite <- ?app_assoc; reflexivity.
Qed.
Lemma words_line t : Forall printable t -> words t = line_words t.
Proof. intros F. exact (words_are t F []). Qed.
Lemma join_between sep l : HtmlRenderer.join sep l = between sep l.
Proof. induction l as [|x r IH]; [reflexivity|]. cbn [HtmlRenderer.join between]. destruct r as [|y r]; [cbn; rewrite app_nil_r; reflexivity|]. rewrite IH. cbn [between flat_map]. rewrite <- app_assoc. reflexivity. Qed.

(** ** Classes *)
Local Ltac by_flags n := unfold sp, mode_ctx, cell_width, cell_height, typeface, small_font, bold_face, tall, wide, underlined, flag;
  destruct (Z.testbit n 0), (Z.testbit n 3), (Z.testbit n 4), (Z.testbit n 5), (Z.testbit n 6); vm_compute; reflexivity.
Lemma classes_styled q j t x y k : span_classes (put_at x y (styled (set_s_justify j q) t)) k = span_classes q k. Proof. reflexivity. Qed.
Lemma classes_mode n : span_classes (sp n) default_colors = style_classes n.
Proof. unfold style_classes. by_flags n. Qed.
Lemma spj_classes n a t x y : span_classes (put_at x y (styled (spj n a) t)) default_colors = style_classes n.
Proof. rewrite spj_is. rewrite (classes_styled (sp n) (justify_of a) t x y default_colors). apply classes_mode. Qed.
Definition drop (mh ch : Z) : Z := let ratio := f32_round 78 100 in f32_trunc (f32_sub (f32_mul (f32_of mh) ratio) (f32_mul (f32_of ch) ratio)).
Lemma no_drop n : drop (cell_height n) (cell_height n) = 0.
Proof. by_flags n. Qed.
Lemma put_height q t x y : s_character_height (put_at x y (styled q t)) = s_character_height q. Proof. reflexivity. Qed.
Lemma put_text q t x y : s_text (put_at x y (styled q t)) = t. Proof. reflexivity. Qed.
Lemma dots_styled q t : word_dots (styled q t) = vlen t * s_character_width q. Proof. reflexivity. Qed.
Lemma put_dims q t x y : exists w h, s_dimensions (put_at x y (styled q t)) = Some (mk_dims x y w h).
Proof. eexists; eexists; reflexivity. Qed.
Lemma span_eq k off mh s : span_to_html k off mh s =
  let '(x, y) := match s_dimensions s with None => (0, 0) | Some d => (d_x d, d_y d) end in
  do left_px <- add_u32 off x;
  Ok (y, str "<span style='left: " ++ dec_u32 left_px ++ str "px; top: " ++ dec_u32 (drop mh (s_character_height s)) ++ str "px' class='" ++
         HtmlRenderer.join [32] (span_classes s k) ++ str "'>" ++ s_text s ++ str "</span>").
Proof. unfold span_to_html, drop. cbv zeta. reflexivity. Qed.
Lemma word_out k off mh q t x y y' c : span_to_html k off mh (put_at x y (styled q t)) = Ok (y', c) ->
  y' = y /\ c = str "<span style='left: " ++ dec_u32 (off + x) ++ str "px; top: " ++ dec_u32 (drop mh (s_character_height q)) ++ str "px' class='" ++
 HtmlRenderer.join [32] (span_classes (put_at x y (styled q t)) k) ++ str "'>" ++ t ++ str "</span>".
Proof.
  set (cl := span_classes (put_at x y (styled q t)) k). rewrite span_eq. fold cl. clearbody cl. rewrite put_height, put_text. set (dr := drop mh (s_character_height q)). clearbody dr. destruct (put_dims q t x y) as (w & h & ->). cbn [d_x d_y].
  intros H. apply bind_ok in H. destruct H as (l & Hl & H). destruct (add_u32v _ _ _ Hl) as (-> & _). split; congruence.
Qed.
Local Opaque rctx spj sp.
Lemma word_is n a off t x y y' c : span_to_html default_colors off (cell_height n) (put_at x y (styled (spj n a) t)) = Ok (y', c) -> y' = y /\ c = word_html n (x + off) t.
Proof.
  intros H. apply word_out in H. destruct H as (-> & ->). split; [reflexivity|]. rewrite spj_classes, spj_ch, no_drop, join_between, (Z.add_comm off x). reflexivity.
Qed.
Lemma words_out n a off ts : Forall (plain_word (spj n a)) ts -> forall x y h m html h' m' html',
  fold_res (spans_step default_colors off (cell_height n)) (row tabs0 x y (map (styled (spj n a)) ts)) (h, m, html) = Ok (h', m', html') ->
  html' = html ++ words_html n (x + off) ts /\ (ts = [] -> h' = h /\ m' = m) /\ (ts <> [] -> h' = Z.max h (cell_height n) /\ m' = Z.min m y).
Proof.
  induction ts as [|t ts IH]; intros F x y h m html h' m' html' H; cbn [map row words_html] in *.
  - cbn [fold_res] in H. assert ((h', m', html') = (h, m, html)) by congruence. rewrite app_nil_r. repeat split; try congruence; contradiction.
  - apply Forall_cons_iff in F. destruct F as (F & Fs). unfold plain_word in F. rewrite F in H. cbn [fold_res] in H. apply bind_ok in H. destruct H as (((h1 & m1) & html1) & H1 & H).
    unfold spans_step in H1. apply bind_ok in H1. destruct H1 as ((y1 & c1) & H1 & E1). apply word_is in H1. destruct H1 as (-> & ->).
    rewrite put_height, spj_ch in E1.
    assert (A : h1 = Z.max h (cell_height n) /\ m1 = Z.min m y /\ html1 = html ++ [word_html n (x + off) t]) by (repeat split; congruence). clear E1. destruct A as (-> & -> & ->).
    rewrite dots_styled, spj_cw in H.
    destruct (IH Fs _ _ _ _ _ _ _ _ H) as (A & B & C). rewrite A, <- app_assoc. cbn [app]. replace (x + vlen t * cell_width n + off) with (x + off + vlen t * cell_width n) by lia.
    split; [reflexivity|]. split; [discriminate|]. intros _. destruct ts as [|t2 ts]; [exact (B eq_refl)|]. destruct (C ltac:(discriminate)) as (-> & ->). lia.
Qed.
Lemma row_out n a y t c : Forall printable (c :: t) -> vlen (c :: t) * cell_width n <= 609 -> 
  (exists ln, put n a y (c :: t) = [ln] /\ Renderer.line_height (fst ln) = cell_height n /\
    (forall r, spans_to_html default_colors (fst ln) (snd ln) (Renderer.line_height (fst ln)) = Ok r -> row_y r = Z.min u32_max y /\ HtmlRenderer.row_height r = cell_height n /\ row_content r = line_html n a (c :: t))).
Proof.
  intros Pr Len. assert (PW := proj1 (plain_words (spj n a) _ Pr)). unfold put. cbn [filter]. rewrite row_none by exact PW.
  pose proof (words_text (c :: t)) as WT. pose proof (words_some (c :: t) ltac:(discriminate)) as WS. pose proof (words_line (c :: t) Pr) as WL. destruct (words (c :: t)) as [|w ws] eqn:W; [contradiction|].
  change (nonempty (map (styled (spj n a)) (w :: ws))) with true. cbv iota. set (R := row tabs0 0 y (map (styled (spj n a)) (w :: ws))).
  cbn [map]. exists (placed_line 609 R). split; [reflexivity|]. unfold R. rewrite row_first by exact PW. cbn [fst snd]. pose proof (cell_high n) as CH.
  rewrite row_line_height; [|rewrite spj_ch; exact CH | exact PW]. rewrite spj_ch. split; [reflexivity|].
  rewrite WT, spj_cw, spj_just, indent_shift by exact Len. intros r H. unfold spans_to_html in H.
  assert (NE : exists s0 rest, row tabs0 0 y (map (styled (spj n a)) (w :: ws)) = s0 :: rest).
  { apply Forall_cons_iff in PW. destruct PW as (P1 & _). unfold plain_word in P1. cbn [map row]. rewrite P1. eauto. }
  destruct NE as (s0 & rest & NE). rewrite NE in H. rewrite <- NE in H. apply bind_ok in H. destruct H as (((h & m) & html) & H & E).
  destruct (words_out n a _ (w :: ws) PW _ _ _ _ _ _ _ _ H) as (A & _ & B). destruct (B ltac:(discriminate)) as (Bh & Bm). rewrite Z.add_0_l in A. cbn [app] in A.
  assert (Er : r = mk_row m h (HtmlRenderer.join [10] html)) by congruence. rewrite Er. cbn [row_y HtmlRenderer.row_height row_content]. split; [exact Bm|]. split; [lia|].
  rewrite join_between, A, WL. reflexivity.
Qed.

(** ** Rows *)
Definition line_in (ln : list text_span * Z) (h : hstate) : res hstate :=
  do r <- spans_to_html default_colors (fst ln) (snd ln) (Renderer.line_height (fst ln)); push_row r h.
Lemma lines_in fo pn b new : drawn_lines b new -> Forall call_wf new -> forall h h', Forall (fun c => snd c <> EBeginRender) new -> html_calls fo pn new h = Ok h' ->
  fold_res line_in (lines_of new) h = Ok h'.
Proof.
  unfold html_calls. induction 1 as [|[x ev] new (SL & _) F IH]; intros W h h' NB H; [exact H|]. apply Forall_cons_iff in W, NB. destruct W as (W & Ws), NB as (NB & NBs).
  cbn [fold_res fst snd] in H. apply bind_ok in H. destruct H as (h1 & H1 & H). specialize (IH Ws _ _ NBs H). unfold lines_of in *. cbn [flat_map snd].
  destruct SL as [S|(T & Fr & P)].
  - unfold still in S. cbn [snd] in S, NB. destruct ev; try contradiction; cbn [html_event] in H1; cbn [app]; assert (h1 = h) by congruence; subst; exact IH.
  - unfold is_text_call, framed_call in *. cbn [fst snd] in *. destruct ev; try contradiction. destruct spans as [|f l]; [contradiction|]. destruct Fr as (_ & E & _).
    cbn [html_event] in H1. pose proof (gk_colors _ (si_graphics _ (ci_s _ (proj1 W)))) as GC. cbn [fst] in GC. rewrite P, GC, E in H1. cbn [app fold_res]. change (line_in (f :: l, x_offset) h) with (do r <- spans_to_html default_colors (f :: l) x_offset (Renderer.line_height (f :: l)); push_row r h). rewrite H1. exact IH.
Qed.
Lemma parts_in l : Forall part_ok l -> forall y h h', h_last_y h <= y -> fold_res line_in (put_parts y l) h = Ok h' ->
  h_content h' = h_content h ++ map para_html (paras (h_last_y h) y l) /\ h_last_y h' = paras_end (h_last_y h) y l /\ h_out h' = h_out h /\ h_last_y h' <= y + receipt_height l.
Proof.
  induction 1 as [|p r P F IH]; intros y h h' L H; cbn [put_parts paras paras_end receipt_height fold_right] in *.
  - cbn [fold_res] in H. assert (h' = h) by congruence. subst. cbn [map]. rewrite app_nil_r. split; [reflexivity|]. split; [reflexivity|]. split; [reflexivity | lia].
  - fold (receipt_height r). pose proof (height_some p P) as HS.
    assert (Plain : fold_res line_in (put_parts (y + part_height p) r) h = Ok h' -> h_content h' = h_content h ++ map para_html (paras (h_last_y h) (y + part_height p) r) /\ h_last_y h' = paras_end (h_last_y h) (y + part_height p) r /\ h_out h' = h_out h /\ h_last_y h' <= y + (part_height p + receipt_height r)).
    { intros H'. destruct (IH (y + part_height p) h h' ltac:(lia) H') as (A & B & C & D). rewrite Z.add_assoc. auto. }
    destruct p as [n a [|c t]|k|k|m|m k]; try (apply Plain; exact H). clear Plain. destruct P as (_ & _ & Pr & Len).
    destruct (row_out n a y t c Pr Len) as (ln & El & LH & RO). rewrite El in H. cbn [app fold_res] in H. apply bind_ok in H. destruct H as (h1 & H1 & H).
    unfold line_in in H1. apply bind_ok in H1. destruct H1 as (rw & Hr & H1). destruct (RO _ Hr) as (R1 & R2 & R3). pose proof (cell_high n) as CH.
    assert (YM : Z.min u32_max y = y). { unfold push_row in H1. apply bind_ok in H1. destruct H1 as (v & Hv & _). destruct (add_u32v _ _ _ Hv) as (Ev & Bv). rewrite R1, R2 in Ev. unfold u32v, u32_max in *. clear -Ev Bv CH. lia. }
    apply push_row_inv in H1. destruct H1 as (Q1 & Q2 & Q3). rewrite YM in R1. rewrite R1, R2 in Q2.
    assert (LP : cell_height n <= line_pitch n (c :: t)) by (unfold line_pitch; lia). cbn [part_height] in *.
    destruct (IH (y + line_pitch n (c :: t)) h1 h' ltac:(lia) H) as (A & B & C & D). rewrite Q2 in A, B.
    split; [|split; [exact B | split; [congruence | lia]]]. rewrite A, Q1, <- app_assoc. cbn [app map]. f_equal. f_equal. unfold row_para. rewrite R1, R2, R3. unfold sat_sub. rewrite Z.max_r by lia. reflexivity.
Qed.

(** ** No braces *)
Definition bare (l : list Z) : Prop := Forall (fun c => c <> 123) l.
Lemma bare_app a b : bare a -> bare b -> bare (a ++ b).
Proof. intros A B. apply Forall_app. auto. Qed.
Lemma bare_fixed l : forallb (fun c => negb (c =? 123)) l = true -> bare l.
Proof. intros H. apply Forall_forall. intros c Hc. rewrite forallb_forall in H. specialize (H _ Hc). lia. Qed.
Lemma bare_dec n : bare (dec_u32 n).
Proof. apply bare_fixed. eapply forallb_imp; [|apply (digits_range 10 n)]. cbv beta. intros c H. lia. Qed.
Local Opaque dec_u32.
Lemma bare_between sep l : bare sep -> Forall bare l -> bare (between sep l).
Proof.
  intros S F. unfold between. destruct F as [|x r X F]; [constructor|]. apply bare_app; [exact X|]. induction F as [|y r Y F IH]; [constructor|]. cbn [flat_map]. apply bare_app; [|exact IH]. apply bare_app; assumption.
Qed.
Lemma bare_word n x w : bare w -> bare (word_html n x w).
Proof.
  intros W. unfold word_html. repeat apply bare_app; try (apply bare_fixed; vm_compute; reflexivity); [apply bare_dec | | exact W].
  apply bare_between; [apply bare_fixed; vm_compute; reflexivity|]. unfold style_classes.
  destruct (bold_face n), (wide n =? 2), (tall n =? 2), (underlined n), (small_font n); cbn [app orb]; repeat (apply (Forall_cons (A := list Z)); [apply bare_fixed; vm_compute; reflexivity|]); apply (Forall_nil (A := list Z)).
Qed.
Lemma bare_words t : bare t -> Forall bare (line_words t).
Proof.
  induction 1 as [|c t C F IH]; cbn [line_words]; [constructor|]. destruct (c =? 32); [constructor; [constructor; [exact C | constructor] | exact IH]|].
  destruct IH as [|w ws W IH]; repeat constructor; assumption.
Qed.
Lemma bare_line n x ws : Forall bare ws -> Forall bare (words_html n x ws).
Proof. intros F. revert x. induction F as [|w ws W F IH]; intros x; cbn [words_html]; constructor; [apply bare_word, W | apply IH]. Qed.
Lemma bare_para p : bare (pa_content p) -> bare (para_html p).
Proof. intros C. unfold para_html. repeat apply bare_app; try (apply bare_fixed; vm_compute; reflexivity); try apply bare_dec. exact C. Qed.
Lemma bare_paras l : Forall no_brace l -> forall last y, bare (concat (map para_html (paras last y l))).
Proof.
  induction 1 as [|p r P F IH]; intros last y; cbn [paras]; [constructor|].
  destruct p as [n a [|c t]|k|k|m|m k]; try apply IH. cbn [map concat]. apply bare_app; [|apply IH]. apply bare_para. cbn [pa_content]. unfold line_html.
  apply bare_between; [apply bare_fixed; reflexivity|]. apply bare_line, bare_words. exact P.
Qed.

(** ** The document *)
(** *** C67: one document, every character of which is known. *)
Theorem C67_document : exists head tail, forall fo pn e l docs, Forall part_ok l -> Forall no_brace l ->
  render_html fo pn e (receipt_bytes l) = Ok docs -> docs = [receipt_html head tail l].
Proof.
  exists doc_head, doc_tail. intros fo pn e l docs OK NB E. pose proof (receipt_is_bytes l OK) as B.
  unfold render_html in E. apply bind_ok in E. destruct E as (s & R & E). apply bind_ok in E. destruct E as (h & E & Ed). apply ok_inj in Ed. subst docs.
  destruct (receipt_calls e l s B OK R) as (x0 & x1 & x & new & Ec & D & _ & _ & Y & HH & L & _).
  pose proof (job_calls _ _ _ B R) as W. pose proof (job_begins e (receipt_bytes l) s x0 x1 (new ++ [(x, EDevice EndPrint); (x, EGetErrors); (x, EEndRender)]) B R Ec) as Y1.
  destruct (job_shape e (receipt_bytes l) s B R) as (y0 & y1 & rest & n & Ec' & Nb & _).
  rewrite Ec in E, W, Ec'. cbn [app] in Ec', E, W. set (bs := receipt_bytes l) in *. clearbody bs.
  pose proof (f_equal (fun c => tl (tl c)) Ec') as Er. cbn [tl] in Er. rewrite <- Er, ev_begins_app in Nb. assert (Nn : ev_begins new = 0%nat) by lia.
  apply Forall_cons_iff in W. destruct W as (_ & W). apply Forall_cons_iff in W. destruct W as (W1 & W). apply Forall_app in W. destruct W as (Wn & We). apply Forall_cons_iff in We. destruct We as (Wx & _).
  unfold html_calls in E. cbn [fold_res fst snd html_event bind] in E. apply bind_ok in E. destruct E as (h0 & E0 & E).
  apply html_begin_inv in E0; [|exact (proj1 W1)]. destruct E0 as (Q1 & Q2 & Q3). fold (html_calls fo pn (new ++ [(x, EDevice EndPrint); (x, EGetErrors); (x, EEndRender)]) h0) in E.
  apply html_calls_app in E. destruct E as (h1 & E1 & E2). pose proof (lines_in fo pn _ new D Wn _ _ (no_begins _ Nn) E1) as F. rewrite L in F.
  destruct (parts_in l OK 108 h0 h1 ltac:(lia) F) as (A1 & A2 & A3 & A4).
  unfold html_calls in E2. cbn [fold_res fst snd html_event bind] in E2. apply ok_inj in E2. subst h. unfold html_end. cbn [h_out]. rewrite A3, Q3. cbn [html_new h_out app]. f_equal.
  rewrite Q2, Y1 in A1, A2. unfold first_para in Q1. rewrite Y1 in Q1. rewrite Q1 in A1. rewrite A1, A2, Y.
  assert (Bc : bare (concat ([para_html (mk_para 108 0 [])] ++ map para_html (paras 108 108 l)))).
  { rewrite concat_app. apply bare_app; [|apply bare_paras, NB]. cbn [concat]. rewrite app_nil_r. apply bare_para. constructor. }
  rewrite document_page; [|exact (proj1 Wx) | exact Bc]. unfold receipt_html. unfold sat_sub. rewrite Z.max_r by lia. reflexivity.
Qed.

(** ** Such a receipt does become a document, if it is not too long. *)
Theorem C67_prints : forall fo pn e l, encoders_ok e -> pngs_ok pn -> Forall part_ok l -> Z.of_nat (length l) <= 29000 ->
  exists docs, render_html fo pn e (receipt_bytes l) = Ok docs.
Proof.
  intros fo pn e l Ee PN OK L. pose proof (receipt_is_bytes l OK) as B. destruct (receipt_parse l OK) as (cmds & P & O).
  destruct (C59_html fo pn e true (receipt_bytes l) cmds Ee PN B P) as (s & R & W).
  - assert (G : Forall receipt_seen (map observe cmds)).
    { rewrite O. constructor; [left; left; reflexivity|]. apply Forall_app. split; [apply parts_seen|]. constructor; [left; right; left; reflexivity | constructor]. }
    pose proof (parsed_sent _ _ B P) as Sc. apply Forall_forall. intros c Hc. apply receipt_gentle; [exact (proj1 (Forall_forall _ _) Sc _ Hc)|]. exact (proj1 (Forall_forall _ _) G _ (in_map observe _ _ Hc)).
  - rewrite papers_of, O, !papers_app. pose proof (papers_parts l OK) as PL. change (papers_seen [o_begin]) with 65025. change (papers_seen [o_end]) with 65025. unfold u32_max. lia.
  - apply W. destruct (receipt_calls e l s B OK R) as (x0 & x1 & x & new & Ec & D & _). unfold no_empty_images. intros y i Hi. exfalso. rewrite Ec in Hi. clear -Hi D.
    apply in_app_or in Hi. destruct Hi as [[Hi|[Hi|[]]]|Hi]; [discriminate Hi ..|]. apply in_app_or in Hi. destruct Hi as [Hi|[Hi|[Hi|[Hi|[]]]]]; [|discriminate Hi ..].
    pose proof (proj1 (Forall_forall _ _) D _ Hi) as (S & _). unfold still, lined, is_text_call in S. cbn [fst snd] in S. destruct S as [[]|([] & _)].
Qed.

(** The slip of C66. *)
Definition slip_paras : list para :=
  [mk_para 48 0 (str "<span style='left: 268px; top: 0px' class='w2 h2 str'>A </span>" ++ [10] ++ str "<span style='left: 316px; top: 0px' class='w2 h2 str'>A</span>");
   mk_para 24 24 (str "<span style='left: 0px; top: 0px' class=''>A</span>");
   mk_para 17 0 (str "<span style='left: 591px; top: 0px' class='u ud fb'>AB</span>")].
Example C67_demo : Forall part_ok slip /\ Forall no_brace slip /\ paras 108 108 slip = slip_paras /\ 108 + receipt_height slip - paras_end 108 108 slip = 142.
Proof.
  split; [exact (proj1 C66_demo)|]. split; [repeat constructor; cbn; discriminate|]. vm_compute. auto.
Qed.
Example C67_demo_prints : exists head tail, render_html eight_dots png_demo no_encoders1 (receipt_bytes slip) =
  Ok [page_around head tail (paper_style 142) (concat (map para_html (mk_para 108 0 [] :: slip_paras)))].
Proof.
  destruct C67_document as (head & tail & H). exists head, tail. destruct C67_demo as (FP & NB & D1 & D2).
  destruct (C67_prints eight_dots png_demo no_encoders1 slip C33_demo_encoders png_demo_takes FP) as (docs & E); [vm_compute; congruence|].
  rewrite E. f_equal. rewrite (H _ _ _ _ _ FP NB E). unfold receipt_html. rewrite D1, D2. reflexivity.
Qed.
