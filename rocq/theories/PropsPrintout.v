(** * PropsPrintout: C63, the pages in an HTML receipt. *)
From Verif Require Import Base Command CommandSet Parser Vec Float32 GTypes Graphics Decoder Context Text Handlers Renderer StateTheory AreaTheory CallsTheory
  ContextTheory RendererTheory Origin SpecPrinter SpecRender PropsOutput PropsSafe ThermalImage SpecCanvas CanvasTheory ImageRenderer SpecImage SpecDesk DeskTheory PropsImage PropsDesk ThermalFile HtmlTemplate HtmlRenderer SpecHtml HtmlTheory PropsHtml SpecRow RowTheory PropsRow SpecPrintout PrintoutTheory.
Local Open Scope Z_scope.
Local Open Scope list_scope.
Local Arguments at_ : simpl never.
Local Arguments vlen : simpl never.

Lemma begin_leafy x s s' : cinv x -> html_begin x s = Ok s' -> leafy (h_page s') blank_leaf.
Proof.
  intros C E. unfold html_begin, push_row in E. cbv zeta in E. apply bind_ok in E. destruct E as (y & _ & E). apply ok_inj in E. subst s'. cbn [h_page].
  split; [|split; cbn [blank_leaf lf_w lf_h]; unfold u32_max; lia]. unfold blank_leaf. apply void_leaf; try reflexivity.
  cbn [set_cv_auto_grow set_width set_cv_paper_color cv_paper_color]. rewrite (colors_default _ C). reflexivity.
Qed.
Lemma job_leafy fo pn e bs s docs calls x rest : bytes_ok bs = true -> render e bs renderer_new = Ok s -> render_html fo pn e bs = Ok docs ->
  rs_calls s = calls ++ (x, EEndRender) :: rest ->
  exists y0 y1 mid h0 h later, calls = (y0, EDevice BeginPrint) :: (y1, EBeginRender) :: mid /\ get_y y1 = 108 /\
    html_calls fo pn mid h0 = Ok h /\ Forall call_wf mid /\ Forall (fun c => snd c <> EBeginRender) mid /\
    h_content h0 = [para_html (first_para y1)] /\ h_last_y h0 = get_y y1 /\ leafy (h_page h0) blank_leaf /\
    docs = h_out h ++ document x (h_content h) (sat_sub (get_y x) (h_last_y h)) :: later /\ length (h_out h) = number calls /\ cinv x.
Proof.
  intros B Es E Ec. unfold render_html in E. rewrite Es in E. cbn [bind] in E. apply bind_ok in E. destruct E as (hh & E & Ed). apply ok_inj in Ed. subst docs.
  pose proof (job_calls _ _ _ B Es) as F. destruct (job_shape e bs s B Es) as (y0 & y1 & l & n & Ec' & Nb & Ne).
  destruct calls as [|[c0 e0] [|[c1 e1] mid]]; rewrite Ec in Ec'; cbn [app] in Ec'; [discriminate | injection Ec' as _ _ _ D; discriminate |].
  injection Ec' as -> -> -> -> El. rewrite Ec in E, F. cbn [app] in Ec.
  apply Forall_app in F. destruct F as (Fc & F). apply Forall_cons_iff in F. destruct F as (Fx & Fr).
  apply Forall_cons_iff in Fc. destruct Fc as (F0 & Fc). apply Forall_cons_iff in Fc. destruct Fc as (F1 & Fm).
  rewrite <- El, ev_begins_app in Nb. assert (Nm : ev_begins mid = 0%nat) by lia.
  assert (Nr : ev_begins rest = 0%nat) by (unfold ev_begins in Nb |- *; cbn [filter snd begins_output] in Nb; lia).
  apply html_calls_app in E. destruct E as (h & E & Er).
  unfold html_calls in E. cbn [fold_res fst snd html_event] in E. cbn [bind] in E. apply bind_ok in E. destruct E as (h0 & E0 & E).
  pose proof (begin_leafy _ _ _ (proj1 F1) E0) as Lf.
  apply html_begin_inv in E0; [|exact (proj1 F1)]. destruct E0 as (Q1 & Q2 & Q3).
  pose proof (html_told fo pn mid h0 h Fm (no_begins _ Nm) E) as T.
  unfold html_calls in Er. cbn [fold_res fst snd html_event bind] in Er.
  destruct (html_told fo pn rest _ hh Fr (no_begins _ Nr) Er) as [_ (later & Ol & _)]. cbn [html_end h_out] in Ol.
  exists y0, y1, mid, h0, h, later. split; [reflexivity|]. split; [exact (job_begins _ _ _ _ _ _ B Es Ec)|]. split; [exact E|]. split; [exact Fm|].
  split; [exact (no_begins _ Nm)|]. split; [exact Q1|]. split; [exact Q2|]. split; [exact Lf|]. split; [rewrite Ol, <- app_assoc; reflexivity|]. split; [|exact (proj1 Fx)].
  destruct T as [_ (d & Od & Ld)]. rewrite Od, Q3. cbn [html_new h_out app]. rewrite Ld. unfold number. rewrite <- ends_count. reflexivity.
Qed.
Lemma tops_stacked ps : forall y boxes, map pa_height ps = map snd boxes -> map pa_gap ps = gaps y boxes -> stacked y boxes -> tops y ps = map fst boxes.
Proof.
  induction ps as [|[ph pg pc] ps IH]; intros y boxes H1 H2 S; destruct boxes as [|[t hh] boxes]; try discriminate; [reflexivity|].
  cbn [map gaps pa_height pa_gap fst snd] in *. destruct S as (S1 & S2). injection H1 as -> H1. injection H2 as -> H2.
  cbn [tops pa_gap pa_height]. replace (y + Z.max 0 (t - y)) with t by lia. rewrite (IH _ _ H1 H2 S2). reflexivity.
Qed.

(** C63.  The rows of an HTML receipt, for jobs with and without page mode: every printed page has a row of its own, a
    picture of exactly the page, as far from the left and from the top as the paper stood. *)
Theorem C63_rows : exists head tail, forall fo pn e bs s docs calls x rest boxes,
  bytes_ok bs = true -> render e bs renderer_new = Ok s -> render_html fo pn e bs = Ok docs -> base64_encoder pn ->
  rs_calls s = calls ++ (x, EEndRender) :: rest -> forallb plain_char (paper_text calls) = true ->
  let things := printouts fo empty_desk calls in
  Forall2 (fun ev b => box ev (fst b) (snd b)) things boxes ->
  exists ps, nth_error docs (number calls) =
      Some (page_around head tail (paper_style (Z.max 0 (get_y x - ends_at 108 boxes))) (concat (map para_html (mk_para 108 0 [] :: ps)))) /\
    map pa_height ps = map snd boxes /\ map pa_gap ps = gaps 108 boxes /\
    (stacked 108 boxes -> tops 0 (mk_para 108 0 [] :: ps) = 0 :: map fst boxes) /\
    Forall2 (fun q p => shows pn (fst q) (snd q) (pa_height p) (pa_content p)) (combine things (map fst boxes)) ps.
Proof.
  exists doc_head, doc_tail. intros fo pn e bs s docs calls x rest boxes B Es E B64 Ec Pl things Bx.
  destruct (job_leafy _ _ _ _ _ _ _ _ _ B Es E Ec) as (y0 & y1 & mid & h0 & h & later & Em & Y1 & Eh & Fm & Nb & Q1 & Q2 & Lf & Ed & L & C).
  assert (Pc : things = printouts fo empty_desk mid).
  { unfold things. rewrite Em. cbn [printouts draws]. rewrite !andb_false_r. cbn [app]. f_equal. unfold desk_call, marks. cbn [fst snd fold_left on_leaf].
    destruct (p_enabled (c_page y0)), (p_enabled (c_page y1)); reflexivity. }
  rewrite Pc in Bx |- *. clear Pc things.
  destruct (html_printouts fo pn mid h0 h empty_desk boxes Fm Nb Lf Eh Bx) as (ps & A1 & A2 & A3 & A4 & A5). rewrite Q2, Y1 in A3, A4.
  assert (Fc : Forall (fun c => c <> 123) (concat (h_content h))).
  { destruct (html_told fo pn mid h0 h Fm Nb Eh) as [(ps' & T1 & T2 & _) _]. rewrite Em, !paper_text_silent in Pl by exact I. specialize (T2 B64 Pl).
    rewrite T1, Q1, concat_app. cbn [concat]. rewrite app_nil_r. exact (proj1 (frag_app _ _ _ _ _ _ _ (frag_first y1) T2)). }
  exists ps. split; [|split; [exact A2 | split; [exact A3 | split; [|exact A5]]]].
  - rewrite <- L, Ed, nth_error_app2, Nat.sub_diag by lia. cbn [nth_error]. rewrite (document_page _ _ _ C Fc). rewrite A4, A1, Q1. unfold first_para. rewrite Y1. reflexivity.
  - intros S. cbn [tops pa_gap pa_height]. apply (f_equal (cons 0)). exact (tops_stacked ps _ boxes A2 A3 S).
Qed.

(** Where the page of a call is among the things printed. *)
Lemma printouts_app fo a b : forall d, printouts fo d (a ++ b) = printouts fo d a ++ printouts fo (desk_calls fo 609 a d) b.
Proof.
  induction a as [|[x ev] a IH]; intros d; [reflexivity|]. cbn [app printouts]. rewrite IH, <- app_assoc. reflexivity.
Qed.
(** ... and its dots are those of the page in the image of the same job: the two renderers print the same page. *)
Theorem C63_same_page : forall fo e bs s im before x after y rest,
  bytes_ok bs = true -> render e bs renderer_new = Ok s -> render_images fo e bs = Ok im ->
  rs_calls s = (before ++ (x, ERenderPage) :: after) ++ (y, EEndRender) :: rest ->
  ev_ends before = 0%nat -> Forall (call_inked fo) before ->
  Forall (fun c => markless fo c /\ snd c <> EEndRender) after ->
  let i := page_picture x (dk_leaf (desk_calls fo 609 before empty_desk)) in
  (exists earlier later, printouts fo empty_desk (before ++ (x, ERenderPage) :: after) = earlier ++ EImage i :: later) /\
  exists r more, im_out im = r :: more /\
    (i_x i < 609 -> i_y i + i_h i <= r_height r) /\
    forall X Y, 0 <= X < i_w i -> 0 <= Y < i_h i -> i_x i + X < 609 ->
      rgb_at r (20 + i_x i + X) (i_y i + Y) = SpecImage.rgb_of (at_ rgba_blank (i_pixels i) (Y * i_w i + X)).
Proof.
  intros fo e bs s im before x after y rest B Es E Ec N0 Fb Fa i. split.
  - exists (printouts fo empty_desk before). rewrite printouts_app. cbn [printouts app]. eexists. reflexivity.
  - destruct (C55_image_shows_page fo e bs s im before x after y rest B Es E Ec N0 Fb Fa) as (r & later & A1 & A2 & A3 & A4). cbv zeta in A3, A4.
    set (l := upright x (dk_leaf (desk_calls fo 609 before empty_desk))) in *.
    assert (Ea : 0 <= i_x i /\ 0 <= i_y i).
    { pose proof (job_calls _ _ _ B Es) as F. rewrite Ec in F. apply Forall_app in F. destruct F as (F & _). apply Forall_app in F. destruct F as (_ & F).
      apply Forall_cons_iff in F. destruct F as ((C & _) & _). cbn [fst] in C. pose proof (ua_x _ (ui_render _ (ci_u _ C))) as Ax. pose proof (ua_y _ (ui_render _ (ci_u _ C))) as Ay.
      unfold u32v in Ax, Ay. unfold i, page_picture. cbv zeta. cbn [i_x i_y]. lia. }
    exists r, later. split; [exact A1|]. split; [exact A3|].
    intros X Y HX HY HS. assert (Rl : a_y (g_render_area (c_graphics x)) + lf_h l <= r_height r) by (apply A3; change (i_x i < 609); lia).
    change (i_y i) with (a_y (g_render_area (c_graphics x))) in *. change (i_x i) with (a_x (g_render_area (c_graphics x))) in *.
    change (i_w i) with (lf_w l) in *. change (i_h i) with (lf_h l) in *. change (i_pixels i) with (dots_of l). clear i.
    set (ax := a_x (g_render_area (c_graphics x))) in *. set (ay := a_y (g_render_area (c_graphics x))) in *.
    replace (20 + ax + X) with (20 + (ax + X)) by lia. rewrite (A4 (ax + X) (ay + Y)) by lia.
    replace (covers ax ay (lf_w l) (lf_h l) (ax + X) (ay + Y)) with true by (unfold covers; lia).
    replace (ax + X - ax) with X by lia. replace (ay + Y - ay) with Y by lia. f_equal. unfold dots_of, at_.
    assert (K : 0 <= Y * lf_w l + X < lf_w l * lf_h l) by nia.
    rewrite (nth_indep _ rgba_blank (lf_pic l (0 mod lf_w l) (0 / lf_w l))) by (rewrite map_length, zrange_length; lia).
    rewrite (map_nth (fun k => lf_pic l (k mod lf_w l) (k / lf_w l))), nth_zrange by lia. cbv beta.
    rewrite Z.add_comm, Z.mod_add, Z.div_add by lia. rewrite Z.mod_small, Z.div_small by lia. reflexivity.
Qed.

(** ** For instance: a line of text, a page 16 x 2 printed turned by a quarter, a line of text. *)
Definition tell_png : pngs := fun w h px => if (w =? 0) || (h =? 0) then None else Some (map (fun v => if v =? 0 then 48 else 49) (firstn 24 px)).
Lemma tell_png_base64 : base64_encoder tell_png.
Proof.
  intros w h px d E. unfold tell_png in E. destruct (_ || _); [discriminate|]. apply (f_equal (fun o => match o with Some v => v | None => [] end)) in E. subst d.
  generalize (firstn 24 px). intros l. induction l as [|v l IH]; [reflexivity|]. cbn [map forallb]. rewrite IH. destruct (v =? 0); reflexivity.
Qed.
Definition two_kinds : list Z := [65; 10] ++ turned_job.
Definition page_rows : list para :=
  [mk_para 108 0 []; mk_para 24 0 (str "<span style='left: 0px; top: 0px' class=''>A</span>");
   mk_para 2 0 (str "<img style='left: 0px;' class='img' width='16' src='data:image/png;base64, 000111111111111111111111' />")].
Example C63_document : render_html no_ink tell_png no_encoders1 two_kinds = Ok [PropsHtml.page 14 page_rows].
Proof. vm_compute. reflexivity. Qed.
(** The job meets the conditions of C63_rows. *)
Fixpoint split_end (l : list (context * event)) : option (list (context * event) * context * list (context * event)) :=
  match l with
  | [] => None
  | (x, EEndRender) :: r => Some ([], x, r)
  | c :: r => match split_end r with Some (a, x, b) => Some (c :: a, x, b) | None => None end
  end.
Lemma split_end_spec l : forall a x b, split_end l = Some (a, x, b) -> l = a ++ (x, EEndRender) :: b.
Proof.
  induction l as [|[y ev] l IH]; intros a x b H; cbn [split_end] in H; [discriminate|].
  assert (G : forall o, o = split_end l -> match o with Some (a, x, b) => Some ((y, ev) :: a, x, b) | None => None end = Some (a, x, b) -> (y, ev) :: l = a ++ (x, EEndRender) :: b).
  { intros o Ho H1. destruct o as [[[a1 x1] b1]|]; [|discriminate]. injection H1 as <- <- <-. cbn [app]. f_equal. apply IH. symmetry. exact Ho. }
  destruct ev; try exact (G _ eq_refl H). injection H as <- <- <-. reflexivity.
Qed.
Definition shape (ev : event) : list Z :=
  match ev with EImage i => [1; i_y i; i_h i] | EText [s] _ _ _ => [2; span_top s; s_character_height s] | _ => [] end.
Definition view_printouts (bs : list Z) : res (option (bool * list (list Z))) :=
  do s <- render no_encoders1 bs renderer_new;
  Ok (match split_end (rs_calls s) with
      | Some (calls, x, rest) => Some (forallb plain_char (paper_text calls), map shape (printouts no_ink empty_desk calls))
      | None => None end).
Lemma printouts_seen bs v : view_printouts bs = Ok (Some (true, v)) ->
  exists s calls x rest, render no_encoders1 bs renderer_new = Ok s /\ rs_calls s = calls ++ (x, EEndRender) :: rest /\
    forallb plain_char (paper_text calls) = true /\ map shape (printouts no_ink empty_desk calls) = v.
Proof.
  intros V. unfold view_printouts in V. apply bind_ok in V. destruct V as (s & Es & V). apply ok_inj in V.
  destruct (split_end (rs_calls s)) as [[[calls x] rest]|] eqn:Sp; [|discriminate]. exists s, calls, x, rest. split; [exact Es|]. split; [exact (split_end_spec _ _ _ _ Sp)|].
  split; congruence.
Qed.
Lemma shape_box ev k a b : shape ev = [k; a; b] -> box ev a b.
Proof.
  destruct ev as [| | | | | | |i|[|sp [|? ?]] off mh j| |]; cbn [shape]; try discriminate; intros E; injection E as <- <- <-; cbn [box map]; [split; reflexivity|].
  split; [discriminate|]. split; split; try (left; reflexivity); repeat constructor; apply Z.le_refl.
Qed.
Lemma shapes_boxes l : forall v, map shape l = map (fun q => [fst (fst q); snd (fst q); snd q]) v -> Forall2 (fun ev b => box ev (fst b) (snd b)) l (map (fun q => (snd (fst q), snd q)) v).
Proof.
  induction l as [|ev l IH]; intros [|[[k a] b] v] E; cbn [map] in E; try discriminate; [constructor|]. cbn [fst snd] in E.
  assert (E1 : shape ev = [k; a; b]) by congruence. assert (E2 : map shape l = map (fun q => [fst (fst q); snd (fst q); snd q]) v) by congruence.
  cbn [map fst snd]. constructor; [exact (shape_box _ _ _ _ E1) | exact (IH _ E2)].
Qed.
Example C63_demo : exists s calls x rest, bytes_ok two_kinds = true /\ render no_encoders1 two_kinds renderer_new = Ok s /\ base64_encoder tell_png /\
  rs_calls s = calls ++ (x, EEndRender) :: rest /\ forallb plain_char (paper_text calls) = true /\
  Forall2 (fun ev b => box ev (fst b) (snd b)) (printouts no_ink empty_desk calls) [(108, 24); (132, 2)] /\ stacked 108 [(108, 24); (132, 2)].
Proof.
  assert (V : view_printouts two_kinds = Ok (Some (true, [[2; 108; 24]; [1; 132; 2]]))) by (vm_compute; reflexivity).
  destruct (printouts_seen _ _ V) as (s & calls & x & rest & A1 & A2 & A3 & A4). exists s, calls, x, rest.
  split; [vm_compute; reflexivity|]. split; [exact A1|]. split; [exact tell_png_base64|]. split; [exact A2|]. split; [exact A3|].
  split; [exact (shapes_boxes _ [(2, 108, 24); (1, 132, 2)] A4) | cbn [stacked]; lia].
Qed.
(** The job of C55's example meets the conditions of C63_same_page (page_job_shown). *)

Print Assumptions C63_rows.
Print Assumptions C63_same_page.
