(** * PropsRow: C56, what is in the rows of an HTML receipt; C57, how they look. *)
From Verif Require Import Base Command CommandSet Parser Vec Float32 GTypes Graphics Decoder Context Text Handlers Renderer StateTheory AreaTheory CallsTheory
  ContextTheory RendererTheory Origin SpecPrinter SpecRender PropsOutput PropsSafe ThermalImage ImageRenderer PropsImage ThermalFile HtmlTemplate HtmlRenderer SpecHtml HtmlTheory PropsHtml SpecRow RowTheory.
Local Open Scope Z_scope.
Local Open Scope list_scope.
Local Arguments vlen : simpl never.

(** ** One call, a run of calls *)
Lemma box_nonempty ev t h : box ev t h -> match ev with EText spans _ _ _ => spans <> [] | EGraphics rects => rects <> [] | _ => True end.
Proof. destruct ev; cbn [box]; auto; intros (N & _); exact N. Qed.
Lemma colors_default x : cinv x -> g_render_colors (c_graphics x) = default_colors.
Proof. intros C. exact (gk_colors _ (si_graphics _ (ci_s _ C))). Qed.
Lemma event_row fo pn x ev s s' t h : call_wf (x, ev) -> prints (x, ev) = true -> box ev t h -> html_event fo pn x ev s = Ok s' ->
  exists c, h_content s' = h_content s ++ [para_html (mk_para h (Z.max 0 (t - h_last_y s)) c)] /\ h_last_y s' = t + h /\ shows pn ev t h c.
Proof.
  intros (C & W) P B E. cbn [fst snd] in *. unfold prints in P. cbn [fst snd] in P. apply andb_prop in P. destruct P as (P & D).
  assert (Pf : p_enabled (c_page x) = false) by (destruct (p_enabled (c_page x)); [discriminate | reflexivity]). clear P.
  pose proof (box_nonempty _ _ _ B) as N.
  assert (R : exists r, push_row r s = Ok s' /\ box ev (row_y r) (row_height r) /\ shows pn ev (row_y r) (row_height r) (row_content r)).
  { destruct ev as [dv| | |rt pw ph| | |rects|i|spans off mh j| |]; try discriminate D; cbn [html_event] in E; rewrite Pf in E; apply bind_ok in E; destruct E as (r & Er & E); exists r; (split; [exact E|]).
    - split; [exact (svg_box _ _ N W Er) | exact (svg_shows _ _ _ W N Er)].
    - split; [|exact (image_shows _ _ _ W Er)]. unfold encode_html_image in Er. destruct (pn _ _ _); [|discriminate]. apply ok_inj in Er. subst r. split; reflexivity.
    - rewrite (colors_default _ C) in Er. split; [exact (spans_box _ _ _ _ j _ N (proj1 W) Er) | exact (text_shows _ _ _ _ _ _ W N Er)]. }
  destruct R as (r & E' & B' & S). destruct (box_unique _ _ _ _ _ B' B) as (<- & <-). apply push_row_inv in E'. destruct E' as (A1 & A2 & _).
  exists (row_content r). split; [exact A1|]. split; [exact A2 | exact S].
Qed.
Definition shown_at (pn : pngs) (q : event * Z) (p : para) : Prop := shows pn (fst q) (snd q) (pa_height p) (pa_content p).
Lemma html_rows fo pn l : forall s s' boxes, Forall call_wf l -> Forall (fun c => snd c <> EBeginRender) l -> Forall (fun c => snd c <> ERenderPage) l ->
  html_calls fo pn l s = Ok s' -> Forall2 boxed (paper_calls l) boxes ->
  exists ps, h_content s' = h_content s ++ map para_html ps /\ map pa_height ps = map snd boxes /\ map pa_gap ps = gaps (h_last_y s) boxes /\
    h_last_y s' = ends_at (h_last_y s) boxes /\ Forall2 (shown_at pn) (combine (paper_calls l) (map fst boxes)) ps.
Proof.
  induction l as [|[x ev] l IH]; intros s s' boxes F O N E B; cbn [html_calls fold_res] in E.
  - apply ok_inj in E. subst s'. unfold paper_calls in B. cbn in B. inversion B; subst. exists []. cbn [map]. rewrite app_nil_r. repeat (split; [reflexivity|]). constructor.
  - apply Forall_cons_iff in F. destruct F as (F1 & F2). apply Forall_cons_iff in O. destruct O as (O1 & O2). apply Forall_cons_iff in N. destruct N as (N1 & N2).
    apply bind_ok in E. destruct E as (s1 & E1 & E). cbn [fst snd] in E1, O1, N1. rewrite paper_calls_cons in B |- *. destruct (prints (x, ev)) eqn:P.
    + inversion B as [|? [t h] ? bs Bt Bs]; subst. destruct (event_row _ _ _ _ _ _ t h F1 P Bt E1) as (c & A1 & A2 & A3).
      destruct (IH s1 s' bs F2 O2 N2 E Bs) as (ps & C1 & C2 & C3 & C4 & C5). rewrite A2 in C3, C4.
      exists (mk_para h (Z.max 0 (t - h_last_y s)) c :: ps). cbn [map combine fst snd pa_height pa_gap gaps ends_at].
      split; [rewrite C1, A1, <- app_assoc; reflexivity|]. split; [now rewrite C2|]. split; [now rewrite C3|]. split; [exact C4|]. constructor; [exact A3 | exact C5].
    + destruct (html_said fo pn x ev s s1 F1 O1 E1) as [(p1 & A1 & _ & A3 & _) _]. destruct (A3 N1 P) as (-> & L). cbn [map] in A1. rewrite app_nil_r in A1.
      rewrite <- A1, <- L. exact (IH s1 s' boxes F2 O2 N2 E B).
Qed.
(** ** Jobs *)
Lemma job_run fo pn e bs s docs calls x rest : bytes_ok bs = true -> render e bs renderer_new = Ok s -> render_html fo pn e bs = Ok docs ->
  rs_calls s = calls ++ (x, EEndRender) :: rest ->
  exists y0 y1 mid h0 h later, calls = (y0, EDevice BeginPrint) :: (y1, EBeginRender) :: mid /\ get_y y1 = 108 /\
    html_calls fo pn mid h0 = Ok h /\ Forall call_wf mid /\ Forall (fun c => snd c <> EBeginRender) mid /\
    h_content h0 = [para_html (first_para y1)] /\ h_last_y h0 = get_y y1 /\
    docs = h_out h ++ document x (h_content h) (sat_sub (get_y x) (h_last_y h)) :: later /\ length (h_out h) = number calls /\ cinv x.
Proof.
  intros B Es E Ec. unfold render_html in E. rewrite Es in E. cbn [bind] in E. apply bind_ok in E. destruct E as (hh & E & Ed). apply ok_inj in Ed. subst docs.
  pose proof (job_calls _ _ _ B Es) as F. destruct (job_shape e bs s B Es) as (y0 & y1 & l & n & Ec' & Nb & Ne).
  destruct calls as [|[c0 e0] [|[c1 e1] mid]]; rewrite Ec in Ec'; cbn [app] in Ec'; [discriminate | injection Ec' as _ _ _ D; discriminate |].
  injection Ec' as -> -> -> -> El. rewrite Ec in E, F. cbn [app] in Ec.
  apply Forall_app in F. destruct F as (Fc & F). apply Forall_cons_iff in F. destruct F as (Fx & Fr).
  apply Forall_cons_iff in Fc. destruct Fc as (F0 & Fc). apply Forall_cons_iff in Fc. destruct Fc as (F1 & Fm).
  rewrite <- El, ev_begins_app in Nb. assert (Nm : ev_begins mid = 0%nat) by lia.
  assert (Nr : ev_begins rest = 0%nat) by (unfold ev_begins in Nb |- *; cbn [filter snd begins_output] in Nb; lia).
  apply html_calls_app in E. destruct E as (h & E & Er).
  unfold html_calls in E. cbn [fold_res fst snd html_event] in E. cbn [bind] in E. apply bind_ok in E. destruct E as (h0 & E0 & E).
  apply html_begin_inv in E0; [|exact (proj1 F1)]. destruct E0 as (Q1 & Q2 & Q3).
  pose proof (html_told fo pn mid h0 h Fm (no_begins _ Nm) E) as T.
  unfold html_calls in Er. cbn [fold_res fst snd html_event bind] in Er.
  destruct (html_told fo pn rest _ hh Fr (no_begins _ Nr) Er) as [_ (later & Ol & _)]. cbn [html_end h_out] in Ol.
  exists y0, y1, mid, h0, h, later. split; [reflexivity|]. split; [exact (job_begins _ _ _ _ _ _ B Es Ec)|]. split; [exact E|]. split; [exact Fm|].
  split; [exact (no_begins _ Nm)|]. split; [exact Q1|]. split; [exact Q2|]. split; [rewrite Ol, <- app_assoc; reflexivity|]. split; [|exact (proj1 Fx)].
  destruct T as [_ (d & Od & Ld)]. rewrite Od, Q3. cbn [html_new h_out app]. rewrite Ld. unfold number. rewrite <- ends_count. reflexivity.
Qed.

(** C56.  Every paragraph of a document shows the thing printed: the words of a line each as far from the left as
    printed and on one base line, an image as far from the left and with just its dots, the bars of a symbol each at its
    place and of its size.  [boxes] are the heights the things are printed at (see C44). *)
Theorem C56_rows_show : exists head tail, forall fo pn e bs s docs calls x rest boxes,
  bytes_ok bs = true -> render e bs renderer_new = Ok s -> render_html fo pn e bs = Ok docs -> base64_encoder pn ->
  rs_calls s = calls ++ (x, EEndRender) :: rest -> forallb plain_char (paper_text calls) = true ->
  Forall (fun c => snd c <> ERenderPage) calls -> Forall2 (fun ev b => box ev (fst b) (snd b)) (paper_calls calls) boxes ->
  exists ps, nth_error docs (number calls) =
      Some (page_around head tail (paper_style (Z.max 0 (get_y x - ends_at 108 boxes))) (concat (map para_html (mk_para 108 0 [] :: ps)))) /\
    map pa_height ps = map snd boxes /\ map pa_gap ps = gaps 108 boxes /\
    Forall2 (fun q p => shows pn (fst q) (snd q) (pa_height p) (pa_content p)) (combine (paper_calls calls) (map fst boxes)) ps.
Proof.
  exists doc_head, doc_tail. intros fo pn e bs s docs calls x rest boxes B Es E B64 Ec Pl Np Bx.
  destruct (job_run _ _ _ _ _ _ _ _ _ B Es E Ec) as (y0 & y1 & mid & h0 & h & later & Em & Y1 & Eh & Fm & Nb & Q1 & Q2 & Ed & L & C).
  assert (Np' : Forall (fun c => snd c <> ERenderPage) mid).
  { rewrite Em in Np. apply Forall_cons_iff in Np. destruct Np as (_ & Np). apply Forall_cons_iff in Np. exact (proj2 Np). }
  assert (Pc : paper_calls calls = paper_calls mid).
  { rewrite Em, !paper_calls_cons. unfold prints. cbn [snd draws]. now rewrite !andb_false_r. }
  rewrite Pc in Bx |- *.
  destruct (html_rows fo pn mid h0 h boxes Fm Nb Np' Eh Bx) as (ps & A1 & A2 & A3 & A4 & A5). rewrite Q2, Y1 in A3, A4.
  assert (Fc : Forall (fun c => c <> 123) (concat (h_content h))).
  { destruct (html_told fo pn mid h0 h Fm Nb Eh) as [(ps' & T1 & T2 & _) _]. rewrite Em, !paper_text_silent in Pl by exact I. specialize (T2 B64 Pl).
    rewrite T1, Q1, concat_app. cbn [concat]. rewrite app_nil_r. exact (proj1 (frag_app _ _ _ _ _ _ _ (frag_first y1) T2)). }
  exists ps. split; [|split; [exact A2 | split; [exact A3 | exact A5]]].
  rewrite <- L, Ed, nth_error_app2, Nat.sub_diag by lia. cbn [nth_error]. rewrite (document_page _ _ _ C Fc). rewrite A4, A1, Q1. unfold first_para. rewrite Y1. reflexivity.
Qed.
(** For instance: letters of two sizes on a line, underlined, bold, white on black, then a picture.  The small
    letter stands 18 dots lower than the large ones. *)
Definition row_job : list Z :=
  [65; 29; 33; 17; 66; 27; 45; 1; 67; 27; 69; 1; 68; 29; 66; 1; 69; 10; 27; 74; 30; 29; 118; 48; 0; 1; 0; 2; 0; 170; 85].
Example C56_demo : render_html no_glyphs png_demo no_encoders1 row_job = Ok [page 0
  [mk_para 108 0 [];
   mk_para 48 0 (str "<span style='left: 0px; top: 18px' class=''>A</span>" ++ 10 ::
     str "<span style='left: 12px; top: 0px' class='w2 h2 str'>B</span>" ++ 10 ::
     str "<span style='left: 36px; top: 0px' class='w2 h2 str u ud'>C</span>" ++ 10 ::
     str "<span style='left: 60px; top: 0px' class='b w2 h2 str u ud'>D</span>" ++ 10 ::
     str "<span style='left: 84px; top: 0px' class='b w2 h2 str u ud fg_0 bg_1'>E</span>");
   mk_para 2 30 (str "<img style='left: 0px;' class='img' width='8' src='data:image/png;base64, iVBORw0KGgo' />")]].
Proof. vm_compute. reflexivity. Qed.
Lemma ends_so (l : list (context * event)) : (match rev l with (_, EEndRender) :: _ => true | _ => false end) = true -> exists r x, l = rev r ++ [(x, EEndRender)].
Proof.
  destruct (rev l) as [|[x ev] r] eqn:R; [discriminate|]. destruct ev; try discriminate. intros _. exists r, x. rewrite <- (rev_involutive l), R. reflexivity.
Qed.
(** The job of C44_demo meets the conditions of C56. *)
Example C56_applies : exists s docs calls x rest, render no_encoders1 html_job renderer_new = Ok s /\
  render_html no_glyphs png_demo no_encoders1 html_job = Ok docs /\ base64_encoder png_demo /\ rs_calls s = calls ++ (x, EEndRender) :: rest /\
  forallb plain_char (paper_text calls) = true /\ Forall (fun c => snd c <> ERenderPage) calls /\
  Forall2 (fun ev b => box ev (fst b) (snd b)) (paper_calls calls) [(108, 24); (162, 2); (164, 24)].
Proof.
  destruct C44_demo as (s & E & T & N & B & _). 
  assert (V : (do s <- render no_encoders1 html_job renderer_new;
    Ok (match rev (rs_calls s) with (_, EEndRender) :: _ => true | _ => false end, paper_text (removelast (rs_calls s)), vlen (paper_calls (removelast (rs_calls s))))) = Ok (true, [65; 66; 67], 3)) by (vm_compute; reflexivity).
  rewrite E in V. cbn [bind] in V.
  assert (V1 : (match rev (rs_calls s) with (_, EEndRender) :: _ => true | _ => false end) = true) by congruence.
  assert (V2 : paper_text (removelast (rs_calls s)) = [65; 66; 67]) by congruence.
  clear V. destruct (ends_so _ V1) as (r & x & Ec).
  assert (Er : removelast (rs_calls s) = rev r) by (rewrite Ec; apply removelast_last).
  exists s. eexists. exists (rev r), x, []. split; [exact E|]. split; [exact C43_demo|]. split; [exact png_demo_base64|]. split; [exact Ec|].
  rewrite Er in V2. split; [rewrite V2; reflexivity|]. split.
  - rewrite Ec in N. apply Forall_app in N. exact (proj1 N).
  - rewrite Ec in B. unfold paper_calls, outside_page in B |- *. rewrite filter_app, map_app, filter_app in B. cbn [filter fst] in B.
    destruct (p_enabled (c_page x)); cbn [negb map filter snd draws] in B; rewrite app_nil_r in B; exact B.
Qed.
