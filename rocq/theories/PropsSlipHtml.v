(** * PropsSlipHtml: C69, a receipt with pictures, from the bytes to the HTML document. *)
From Verif Require Import Base Command CommandSet Parser Vec Float32 GTypes Graphics Utf8 Decoder Context Text Upce Handlers Renderer
  SpecStream StreamProofs ContextTheory RendererTheory Origin SpecPrinter StateTheory PropsText SpecRender SpecGraphics
  PropsOutput LayoutTheory AreaTheory PlaceTheory PropsContext PropsLayout PropsPlace SafeTheory PenTheory CallsTheory SpecLines PropsLines
  ManualTheory PropsQr PropsDecoder ThermalImage SpecCanvas CanvasRect ImageRenderer SpecImage ImageTheory PropsImage SpecDraw DrawTheory SpecSafe PropsSafe PropsDraw
  PropsScene SpecPlain PlainTheory PlainRun PlainJob PropsPlain SpecReceipt ReceiptRun PropsReceipt
  ThermalFile HtmlTemplate HtmlRenderer SpecHtml HtmlTheory PropsHtml PropsDrawHtml SpecReceiptHtml PropsReceiptHtml SpecSlip SlipRun PropsSlip SpecSlipHtml.
Local Open Scope Z_scope.
Local Open Scope list_scope.
Local Arguments at_ : simpl never.
Local Arguments vlen : simpl never.
Local Opaque rctx spj sp dec_u32.

(** ** The dots *)
Lemma list_is {A} (d : A) l f : (forall k, 0 <= k < vlen l -> at_ d l k = f k) -> l = map f (map Z.of_nat (seq 0 (length l))).
Proof.
  intros H. apply (nth_ext _ _ d d); [rewrite !map_length, seq_length; reflexivity|]. intros n Hn.
  rewrite (nth_indep (map f _) d (f (Z.of_nat 0))) by (rewrite !map_length, seq_length; exact Hn). rewrite map_nth, map_nth, seq_nth by exact Hn. cbn [Nat.add].
  rewrite <- H by (unfold vlen; lia). unfold at_. rewrite Nat2Z.id. reflexivity.
Qed.
Lemma rgba_is i y a m w h d : shows_image i y a m w h d -> 0 < 8 * w * dot_width m -> as_rgba_u8 i = picture_rgba m w h d.
Proof.
  intros (R & Iw & Ih & _ & _ & _ & Px) W. destruct R as (R1 & R2 & R3). unfold as_rgba_u8, picture_rgba. cbv zeta. set (PW := 8 * w * dot_width m) in *.
  rewrite (list_is transparent (i_pixels i) (fun k => mk_rgba 0 0 0 (if bit_at d w (k mod PW / dot_width m) (k / PW / dot_height m) then 255 else 0))).
  - replace (Z.to_nat (PW * (h * dot_height m))) with (length (i_pixels i)) by (unfold vlen in R3; rewrite Iw, Ih in R3; lia).
    rewrite (flat_map_concat_map _ (map _ (map _ _))), map_map. rewrite <- (flat_map_concat_map _ (map Z.of_nat _)). reflexivity.
  - intros k Hk. pose proof (Z.div_mod k PW ltac:(lia)) as E. pose proof (Z.mod_pos_bound k PW ltac:(lia)) as M. rewrite Iw, Ih in *.
    assert (0 <= k / PW) by (apply Z.div_pos; lia). assert (k / PW < h * dot_height m) by (apply Z.div_lt_upper_bound; lia).
    rewrite <- (Px (k mod PW) (k / PW)) by lia. unfold px. rewrite Iw. f_equal. lia.
Qed.

(** ** Rows *)
Definition thing_in (pn : pngs) (t : thing) (h : hstate) : res hstate :=
  match t with inl ln => line_in ln h | inr i => do r <- encode_html_image pn i; push_row r h end.
Lemma things_in fo pn b new : drawn_things b new -> Forall call_wf new -> forall h h', Forall (fun c => snd c <> EBeginRender) new -> html_calls fo pn new h = Ok h' ->
  fold_res (thing_in pn) (things_of new) h = Ok h'.
Proof.
  unfold html_calls. induction 1 as [|[x ev] new (SL & _) F IH]; intros W h h' NB H; [exact H|]. apply Forall_cons_iff in W, NB. destruct W as (W & Ws), NB as (NB & NBs).
  cbn [fold_res fst snd] in H. apply bind_ok in H. destruct H as (h1 & H1 & H). specialize (IH Ws _ _ NBs H). unfold things_of in *. cbn [flat_map snd].
  destruct SL as [S|[(T & Fr & P)|(I & P)]].
  - unfold still in S. cbn [snd] in S, NB. destruct ev; try contradiction; cbn [html_event] in H1; cbn [app]; assert (h1 = h) by congruence; subst; exact IH.
  - unfold is_text_call, framed_call in *. cbn [fst snd] in *. destruct ev; try contradiction. destruct spans as [|f l]; [contradiction|]. destruct Fr as (_ & E & _).
    cbn [html_event] in H1. pose proof (gk_colors _ (si_graphics _ (ci_s _ (proj1 W)))) as GC. cbn [fst] in GC. rewrite P, GC, E in H1. cbn [app fold_res].
    change (thing_in pn (inl (f :: l, x_offset)) h) with (do r <- spans_to_html default_colors (f :: l) x_offset (Renderer.line_height (f :: l)); push_row r h). rewrite H1. exact IH.
  - cbn [fst snd] in *. destruct ev; try contradiction. cbn [html_event] in H1. rewrite P in H1. cbn [app fold_res thing_in]. rewrite H1. exact IH.
Qed.
Lemma meets_are g T : Forall2 meets T (map GLine g) -> T = map inl g.
Proof.
  revert T. induction g as [|x g IH]; intros T M; inversion M as [|t ? T' ? Mt Ms]; subst; [reflexivity|]. cbn [map]. rewrite <- (IH _ Ms). destruct t; [cbn in Mt; subst; reflexivity | contradiction].
Qed.
Lemma fold_inl pn g : forall h, fold_res (thing_in pn) (map inl g) h = fold_res line_in g h.
Proof. induction g as [|x g IH]; intros h; [reflexivity|]. cbn [map fold_res thing_in]. destruct (line_in x h); [apply IH | reflexivity]. Qed.
Lemma slip_in pn l : Forall element_ok l -> forall y T h h', h_last_y h <= y -> Forall2 meets T (goals y l) -> fold_res (thing_in pn) T h = Ok h' ->
  h_content h' = h_content h ++ map para_html (slip_paras pn (h_last_y h) y l) /\ h_last_y h' = slip_end (h_last_y h) y l /\ h_out h' = h_out h /\ h_last_y h' <= y + slip_height l.
Proof.
  induction 1 as [|q r Q F IH]; intros y T h h' L M H; cbn [goals slip_paras slip_end slip_height fold_right] in *.
  - inversion M; subst T. cbn [fold_res] in H. assert (h' = h) by congruence. subst. cbn [map]. rewrite app_nil_r. split; [reflexivity|]. split; [reflexivity|]. split; [reflexivity | lia].
  - fold (slip_height r). apply Forall2_app_inv_r in M. destruct M as (T1 & T2 & M1 & M2 & ->). rewrite fold_res_app in H. apply bind_ok in H. destruct H as (h1 & H1 & H).
    pose proof (element_some q Q) as HS. destruct q as [p|a m w hh d]; cbn [element_height] in *.
    + rewrite (meets_are _ _ M1), fold_inl in H1. destruct (parts_in [p] (Forall_cons p Q (Forall_nil _)) y h h1 L H1) as (A1 & A2 & A3 & A4). cbn [receipt_height fold_right] in A4.
      destruct (IH (y + part_height p) T2 h1 h' ltac:(lia) M2 H) as (B1 & B2 & B3 & B4). rewrite A2 in B1, B2. rewrite B1, A1, map_app, <- app_assoc. split; [reflexivity|]. split; [exact B2|]. split; [congruence | lia].
    + inversion M1 as [|t ? T' ? Mt Ms]; subst T1. inversion Ms. subst T'. destruct t as [ln|i]; [contradiction|]. cbn [meets] in Mt. cbn [fold_res thing_in] in H1.
      apply bind_ok in H1. destruct H1 as (h2 & H1 & E2). assert (h2 = h1) by congruence. subst h2. clear E2. apply bind_ok in H1. destruct H1 as (rw & Hr & H1).
      pose proof Q as Q0. cbn [element_ok] in Q0. destruct Q0 as (_ & Hm & W0 & _). destruct (scale_is m Hm) as (_ & _ & Mx & _). assert (WW : 0 < 8 * w * dot_width m) by nia.
      pose proof (rgba_is i y a m w hh d Mt WW) as RG. destruct Mt as (_ & Iw & Ih & _ & Ix & Iy & _). unfold encode_html_image in Hr. rewrite RG, Iw, Ih, Ix, Iy in Hr.
      destruct (pn (8 * w * dot_width m) (hh * dot_height m) (picture_rgba m w hh d)) as [data|] eqn:PE; [|discriminate Hr]. apply ok_inj in Hr.
      assert (EC : row_content rw = picture_html pn a m w hh d) by (rewrite <- Hr; unfold picture_html, picture_data; rewrite PE; reflexivity).
      assert (EY : row_y rw = y) by (rewrite <- Hr; reflexivity). assert (EH : HtmlRenderer.row_height rw = hh * dot_height m) by (rewrite <- Hr; reflexivity). clear Hr.
      apply push_row_inv in H1. destruct H1 as (Q1 & Q2 & Q3). rewrite EY, EH in Q2.
      destruct (IH (y + hh * dot_height m) T2 h1 h' ltac:(lia) M2 H) as (B1 & B2 & B3 & B4). rewrite Q2 in B1, B2. split; [|split; [exact B2 | split; [congruence | lia]]].
      rewrite B1, Q1, <- app_assoc. cbn [app map]. f_equal. f_equal. unfold row_para. rewrite EY, EH, EC. unfold sat_sub. rewrite Z.max_r by lia. reflexivity.
Qed.

(** ** No braces *)
Lemma bare_data pn m w h d : base64_encoder pn -> bare (picture_data pn m w h d).
Proof.
  intros B. unfold picture_data. destruct (pn _ _ _) as [t|] eqn:E; [|constructor]. apply bare_fixed. eapply forallb_imp; [|exact (B _ _ _ _ E)]. cbv beta. intros c. unfold base64_char. intros H. lia.
Qed.
Lemma bare_slip pn l : base64_encoder pn -> Forall no_brace_in l -> forall last y, bare (concat (map para_html (slip_paras pn last y l))).
Proof.
  intros B. induction 1 as [|q r Q F IH]; intros last y; cbn [slip_paras]; [constructor|]. destruct q as [p|a m w h d].
  - rewrite map_app, concat_app. apply bare_app; [apply (bare_paras [p]); constructor; [exact Q | constructor] | apply IH].
  - cbn [map concat]. apply bare_app; [|apply IH]. apply bare_para. cbn [pa_content]. unfold picture_html.
    repeat apply bare_app; try (apply bare_fixed; vm_compute; reflexivity); try apply bare_dec. apply bare_data, B.
Qed.

(** ** The document *)
(** *** C69: one document, every character of which is known. *)
Theorem C69_document : exists head tail, forall fo pn e l docs, base64_encoder pn -> Forall element_ok l -> Forall no_brace_in l ->
  render_html fo pn e (slip_bytes l) = Ok docs -> docs = [slip_html pn head tail l].
Proof.
  exists doc_head, doc_tail. intros fo pn e l docs B64 OK NB E. pose proof (slip_is_bytes l OK) as B.
  unfold render_html in E. apply bind_ok in E. destruct E as (s & R & E). apply bind_ok in E. destruct E as (h & E & Ed). apply ok_inj in Ed. subst docs.
  destruct (slip_calls e l s B OK R) as (x0 & x1 & x & new & Ec & D & _ & _ & Y & HH & L & _).
  pose proof (job_calls _ _ _ B R) as W. pose proof (job_begins e (slip_bytes l) s x0 x1 (new ++ [(x, EDevice EndPrint); (x, EGetErrors); (x, EEndRender)]) B R Ec) as Y1.
  destruct (job_shape e (slip_bytes l) s B R) as (y0 & y1 & rest & n & Ec' & Nb & _).
  rewrite Ec in E, W, Ec'. cbn [app] in Ec', E, W. set (bs := slip_bytes l) in *. clearbody bs.
  pose proof (f_equal (fun c => tl (tl c)) Ec') as Er. cbn [tl] in Er. rewrite <- Er, ev_begins_app in Nb. assert (Nn : ev_begins new = 0%nat) by lia.
  apply Forall_cons_iff in W. destruct W as (_ & W). apply Forall_cons_iff in W. destruct W as (W1 & W). apply Forall_app in W. destruct W as (Wn & We). apply Forall_cons_iff in We. destruct We as (Wx & _).
  unfold html_calls in E. cbn [fold_res fst snd html_event bind] in E. apply bind_ok in E. destruct E as (h0 & E0 & E).
  apply html_begin_inv in E0; [|exact (proj1 W1)]. destruct E0 as (Q1 & Q2 & Q3). fold (html_calls fo pn (new ++ [(x, EDevice EndPrint); (x, EGetErrors); (x, EEndRender)]) h0) in E.
  apply html_calls_app in E. destruct E as (h1 & E1 & E2). pose proof (things_in fo pn _ new D Wn _ _ (no_begins _ Nn) E1) as F.
  destruct (slip_in pn l OK 108 _ h0 h1 ltac:(lia) L F) as (A1 & A2 & A3 & A4).
  unfold html_calls in E2. cbn [fold_res fst snd html_event bind] in E2. apply ok_inj in E2. subst h. unfold html_end. cbn [h_out]. rewrite A3, Q3. cbn [html_new h_out app]. f_equal.
  rewrite Q2, Y1 in A1, A2. unfold first_para in Q1. rewrite Y1 in Q1. rewrite Q1 in A1. rewrite A1, A2, Y.
  assert (Bc : bare (concat ([para_html (mk_para 108 0 [])] ++ map para_html (slip_paras pn 108 108 l)))).
  { rewrite concat_app. apply bare_app; [|apply bare_slip; assumption]. cbn [concat]. rewrite app_nil_r. apply bare_para. constructor. }
  rewrite document_page; [|exact (proj1 Wx) | exact Bc]. unfold slip_html. unfold sat_sub. rewrite Z.max_r by lia. reflexivity.
Qed.

(** ** Such a receipt does become a document, if it is not too long and its pictures have dots. *)
Lemma image_goal i T : forall l y, Forall element_ok l -> Forall some_rows l -> Forall2 meets T (goals y l) -> In (inr i) T -> 0 < i_w i /\ 0 < i_h i.
Proof.
  intros l. revert T. induction l as [|q r IH]; intros T y OK SR M H; cbn [goals] in M; [inversion M; subst; contradiction|].
  apply Forall_cons_iff in OK, SR. destruct OK as (Q & OK), SR as (S & SR). apply Forall2_app_inv_r in M. destruct M as (T1 & T2 & M1 & M2 & ->). apply in_app_or in H. destruct H as [H|H]; [|exact (IH _ _ OK SR M2 H)].
  destruct q as [p|a m w h d].
  - rewrite (meets_are _ _ M1) in H. apply in_map_iff in H. destruct H as (ln & H & _). discriminate H.
  - inversion M1 as [|t ? T' ? Mt Ms]; subst T1. inversion Ms. subst T'. destruct H as [H|[]]. subst t. cbn [meets] in Mt. destruct Mt as (_ & -> & -> & _). cbn [element_ok some_rows] in Q, S. destruct Q as (_ & Hm & W0 & _). destruct (scale_is m Hm) as (_ & _ & Mx & My). nia.
Qed.
Theorem C69_prints : forall fo pn e l, encoders_ok e -> pngs_ok pn -> Forall element_ok l -> Forall some_rows l -> Z.of_nat (length l) <= 16000 ->
  exists docs, render_html fo pn e (slip_bytes l) = Ok docs.
Proof.
  intros fo pn e l Ee PN OK SR L. pose proof (slip_is_bytes l OK) as B. destruct (slip_parse l OK) as (cmds & P & O).
  destruct (C59_html fo pn e true (slip_bytes l) cmds Ee PN B P) as (s & R & W).
  - assert (G : Forall slip_seen (map observe cmds)).
    { rewrite O. constructor; [left; left; left; reflexivity|]. apply Forall_app. split; [apply elements_seen, OK|]. constructor; [left; left; right; left; reflexivity | constructor]. }
    pose proof (parsed_sent _ _ B P) as Sc. apply Forall_forall. intros c Hc. apply slip_gentle; [exact (proj1 (Forall_forall _ _) Sc _ Hc)|]. exact (proj1 (Forall_forall _ _) G _ (in_map observe _ _ Hc)).
  - rewrite papers_of, O, !papers_app. pose proof (papers_slip l OK) as PL. change (papers_seen [o_begin]) with 65025. change (papers_seen [o_end]) with 65025. unfold u32_max. lia.
  - apply W. destruct (slip_calls e l s B OK R) as (x0 & x1 & x & new & Ec & D & _ & _ & _ & _ & Go & _). unfold no_empty_images. intros y i Hi. rewrite Ec in Hi. clear -Hi OK SR Go.
    apply in_app_or in Hi. destruct Hi as [[Hi|[Hi|[]]]|Hi]; [discriminate Hi ..|]. apply in_app_or in Hi. destruct Hi as [Hi|[Hi|[Hi|[Hi|[]]]]]; [|discriminate Hi ..].
    apply (image_goal i _ l 108 OK SR Go). unfold things_of. apply in_flat_map. exists (y, EImage i). split; [exact Hi | left; reflexivity].
Qed.

(** The slip of C68. *)
Definition logo_paras : list para :=
  [mk_para 4 0 (str "<img style='left: 288px;' class='img' width='32' src='data:image/png;base64, iVBORw0KGgo' />");
   mk_para 24 0 (str "<span style='left: 292px; top: 0px' class=''>AB</span>");
   mk_para 1 24 (str "<img style='left: 601px;' class='img' width='8' src='data:image/png;base64, iVBORw0KGgo' />")].
Example C69_demo : Forall no_brace_in logo /\ Forall some_rows logo /\ slip_paras png_demo 108 108 logo = logo_paras /\ 108 + slip_height logo - slip_end 108 108 logo = 53 /\
  picture_rgba 0 1 1 [192] = [0; 0; 0; 255; 0; 0; 0; 255; 0; 0; 0; 0; 0; 0; 0; 0; 0; 0; 0; 0; 0; 0; 0; 0; 0; 0; 0; 0; 0; 0; 0; 0].
Proof.
  split; [unfold logo; repeat apply Forall_cons; try apply Forall_nil; cbn; try exact Logic.I; discriminate|].
  split; [unfold logo; repeat apply Forall_cons; try apply Forall_nil; cbn; try exact Logic.I; reflexivity|]. vm_compute. auto.
Qed.
Example C69_demo_prints : exists head tail, render_html eight_dots png_demo no_encoders1 (slip_bytes logo) =
  Ok [page_around head tail (paper_style 53) (concat (map para_html (mk_para 108 0 [] :: logo_paras)))].
Proof.
  destruct C69_document as (head & tail & H). exists head, tail. destruct C69_demo as (NB & SR & D1 & D2 & _). pose proof (proj1 C68_demo) as FP.
  destruct (C69_prints eight_dots png_demo no_encoders1 logo C33_demo_encoders png_demo_takes FP SR) as (docs & E); [vm_compute; congruence|].
  rewrite E. f_equal. rewrite (H _ _ _ _ _ png_demo_base64 FP NB E). unfold slip_html. rewrite D1, D2. reflexivity.
Qed.
