(** * PrintoutTheory: the HTML renderer's page is the page of SpecDesk. *)
From Verif Require Import Base Command Vec Float32 GTypes Graphics Decoder Context Text Handlers Renderer StateTheory AreaTheory CallsTheory
  ContextTheory RendererTheory Origin SpecPrinter SpecRender PropsOutput ThermalImage SpecCanvas CanvasTheory CanvasRect ImageRenderer SpecImage ImageTheory SpecDesk DeskTheory
  PropsImage ThermalFile HtmlTemplate HtmlRenderer SpecHtml HtmlTheory PropsHtml SpecRow RowTheory PropsRow SpecPrintout.
Local Open Scope Z_scope.
Local Open Scope list_scope.
Local Arguments at_ : simpl never.
Local Arguments vlen : simpl never.

Lemma dots_len l : 0 <= lf_w l -> 0 <= lf_h l -> vlen (dots_of l) = lf_w l * lf_h l.
Proof. intros W H. unfold dots_of, vlen. rewrite map_length, zrange_length. rewrite Z2Nat.id; nia. Qed.
Lemma leaf_dots c l : leaf_ok c l -> cv_bytes c = dots_of l.
Proof.
  intros L. pose proof (lk_len _ _ L) as EL. pose proof (lk_w _ _ L) as W0. pose proof (lk_h _ _ L) as H0. unfold dots_of.
  assert (N : length (cv_bytes c) = Z.to_nat (lf_w l * lf_h l)) by (unfold vlen in EL; lia).
  apply (nth_ext _ _ rgba_blank (lf_pic l (0 mod lf_w l) (0 / lf_w l))); [rewrite map_length, zrange_length; exact N|].
  intros n Hn. rewrite (map_nth (fun k => lf_pic l (k mod lf_w l) (k / lf_w l))). rewrite N in Hn.
  assert (EN : nth n (zrange (lf_w l * lf_h l)) 0 = Z.of_nat n) by (rewrite <- (Nat2Z.id n) at 1; apply nth_zrange; lia). rewrite EN.
  assert (Wp : 0 < lf_w l) by nia. set (k := Z.of_nat n) in *. assert (K : 0 <= k < lf_w l * lf_h l) by lia.
  pose proof (Z.div_mod k (lf_w l) ltac:(lia)) as D. pose proof (Z.mod_pos_bound k (lf_w l) Wp) as M.
  assert (Q : 0 <= k / lf_w l < lf_h l) by (split; [apply Z.div_pos; lia | apply Z.div_lt_upper_bound; lia]).
  pose proof (lk_pic _ _ L (k mod lf_w l) (k / lf_w l) M Q) as P. refine (eq_trans _ P). unfold at_. f_equal. lia.
Qed.

(** ** How large a page can get *)
Definition small (l : leaf) : Prop := lf_w l <= u32_max /\ lf_h l <= u32_max.
Lemma small_turn r l : small l -> small (turn_leaf r l).
Proof.
  intros (A & B). unfold u32_max in *. destruct r; cbn [turn_leaf]; cbv zeta; try (destruct (lf_h l =? 0)); unfold small, u32_max; cbn [lf_w lf_h blank_leaf]; lia.
Qed.
Lemma small_enlarge w h l : small l -> w <= u32_max -> h <= u32_max -> small (enlarge_leaf w h l).
Proof. intros (A & B) W H. unfold small, enlarge_leaf. cbn [lf_w lf_h]. unfold u32_max in *. destruct (_ =? 0); lia. Qed.
Lemma small_lengthen h l : small l -> h <= u32_max -> small (lengthen h l).
Proof. intros (A & B) H. unfold lengthen. destruct (lf_w l =? 0); [split; assumption|]. unfold small. cbn [lf_w lf_h]. lia. Qed.
Lemma small_put x y w h px c c' l : leaf_ok c l -> small l -> 0 <= x -> 0 <= y -> 0 <= w -> 0 <= h -> vlen px = w * h ->
  put_pixels x y w h px true c = Ok c' -> small (draw_leaf (Paint x y w h px) l).
Proof.
  intros L Sm Hx Hy Hw Hh Lp E. cbn [draw_leaf]. destruct ((x <? lf_w l) && (y <? lf_h l)) eqn:D; [|exact Sm].
  assert (B : y + rows_drawn l x y w h <= u32_max); [|exact (small_lengthen _ _ Sm B)].
  apply andb_prop in D. destruct D as (Dx & Dy). apply Z.ltb_lt in Dx, Dy. destruct Sm as (S1 & S2).
  unfold rows_drawn. destruct ((lf_w l <? x + w) || (lf_h l <? y + w)) eqn:C; [lia|].
  pose proof (leaf_height _ _ L) as EH. pose proof (lk_width _ _ L) as EW. pose proof (lk_grow _ _ L) as G.
  unfold put_pixels in E. apply bind_inv in E. destruct E as (ar & Har & E).
  destruct (CanvasTheory.chk_inv _ _ _ _ Har) as (-> & R1). replace (w * h <? vlen px) with false in E by lia.
  rewrite EW, EH, G in E. cbn [negb] in E. rewrite andb_true_r in E.
  replace ((lf_w l <=? x) || (lf_h l <=? y)) with false in E by lia.
  apply bind_inv in E. destruct E as (xe & Hxe & E). destruct (CanvasTheory.chk_inv _ _ _ _ Hxe) as (-> & R2).
  apply bind_inv in E. destruct E as (nc & Hnc & E). apply bind_inv in Hnc. destruct Hnc as (ye & Hye & Hnc).
  destruct (CanvasTheory.chk_inv _ _ _ _ Hye) as (-> & R3). injection Hnc as <-. rewrite C in E. cbn [bind] in E.
  apply bind_inv in E. destruct E as (yh & Hyh & _). destruct (CanvasTheory.chk_inv _ _ _ _ Hyh) as (-> & R4). lia.
Qed.
Lemma small_flip x y w h c c' l : leaf_ok c l -> small l -> flip_pixels x y w h c = Ok c' -> small (draw_leaf (Mirror x y w h) l).
Proof.
  intros L Sm E. cbn [draw_leaf]. destruct (x + w <=? lf_w l) eqn:D; [|exact Sm].
  unfold flip_pixels in E. apply bind_inv in E. destruct E as (xe & Hxe & E). destruct (CanvasTheory.chk_inv _ _ _ _ Hxe) as (-> & R1). rewrite (lk_width _ _ L) in E.
  replace (lf_w l <? x + w) with false in E by lia. apply bind_inv in E. destruct E as (ye & Hye & _). destruct (CanvasTheory.chk_inv _ _ _ _ Hye) as (-> & R2).
  exact (small_lengthen (y + h) l Sm (proj2 R2)).
Qed.
Definition leafy (c : canvas) (l : leaf) : Prop := leaf_ok c l /\ small l.
Lemma leafy_call fo x ev f c c' : call_wf (x, ev) -> DeskTheory.draws fo x ev = Some f -> f c = Ok c' -> forall p, leafy c p -> leafy c' (draw_all (marks fo (x, ev)) p).
Proof.
  apply (strokes_call (fun l c c' => forall p, leafy c p -> leafy c' (draw_all l p))).
  - intros a p L. exact L.
  - intros l1 l2 a b d H1 H2 p L. unfold draw_all. rewrite fold_left_app. exact (H2 _ (H1 _ L)).
  - intros x0 y w h px a b H1 H2 H3 H4 H5 E p (L & S). split; [exact (put_leaf _ _ _ _ _ _ _ _ L H1 H2 H3 H4 H5 E) | exact (small_put _ _ _ _ _ _ _ _ L S H1 H2 H3 H4 H5 E)].
  - intros x0 y w h a b H1 H2 H3 H4 E p (L & S). split; [exact (flip_leaf _ _ _ _ _ _ _ L H1 H2 H3 H4 E) | exact (small_flip _ _ _ _ _ _ _ L S E)].
Qed.

(** ** One call *)
Lemma leafy_turn r c c' l : leafy c l -> rotate r c = Ok c' -> leafy c' (turn_leaf r l).
Proof. intros (L & S) E. split; [exact (rotate_leaf _ _ _ _ L E) | exact (small_turn _ _ S)]. Qed.
Lemma html_leaf fo pn x ev s s' d : call_wf (x, ev) -> ev <> EBeginRender -> html_event fo pn x ev s = Ok s' -> leafy (h_page s) (dk_leaf d) ->
  leafy (h_page s') (dk_leaf (desk_call fo 609 (x, ev) d)).
Proof.
  intros Wc N E Lf.
  assert (Dr : forall f t, DeskTheory.draws fo x ev = Some f -> (if p_enabled (c_page x) then on_hpage f s else do r <- t; push_row r s) = Ok s' ->
    desk_call fo 609 (x, ev) d = (if p_enabled (c_page x) then on_leaf (fun l => fold_left (fun l s => draw_leaf s l) (marks fo (x, ev)) l) d
      else mk_desk (drawing 609 (marks fo (x, ev)) (dk_pic d)) (bottoms 609 (marks fo (x, ev)) (dk_low d)) (dk_leaf d)) ->
    leafy (h_page s') (dk_leaf (desk_call fo 609 (x, ev) d))).
  { intros f t Ef Es ->. destruct (p_enabled (c_page x)).
    - unfold on_hpage in Es. apply bind_inv in Es. destruct Es as (c & Ec & Es). apply ok_inj in Es. subst s'. exact (leafy_call fo x ev f _ _ Wc Ef Ec _ Lf).
    - apply bind_inv in Es. destruct Es as (r & _ & Es). unfold push_row in Es. apply bind_inv in Es. destruct Es as (y & _ & Es). apply ok_inj in Es. subst s'. exact Lf. }
  assert (Nop : h_page s' = h_page s ->
    desk_call fo 609 (x, ev) d = (if p_enabled (c_page x) then on_leaf (fun l => l) d else mk_desk (dk_pic d) (dk_low d) (dk_leaf d)) ->
    leafy (h_page s') (dk_leaf (desk_call fo 609 (x, ev) d))).
  { intros -> ->. destruct (p_enabled _); exact Lf. }
  destruct ev as [dv| | |rt pw ph| | |rects|i|spans off mh j| |]; try congruence; cbn [html_event] in E;
    try (refine (Dr _ _ eq_refl E eq_refl)); try (apply ok_inj in E; subst s'; refine (Nop eq_refl eq_refl)).
  - apply ok_inj in E. subst s'. cbn [desk_call fst snd on_leaf dk_leaf with_hpage h_page]. destruct Lf as (Lf & _). split; [|split; cbn [blank_leaf lf_w lf_h]; unfold u32_max; lia].
    unfold blank_leaf. apply void_leaf; try reflexivity; apply Lf.
  - unfold on_hpage in E. apply bind_inv in E. destruct E as (c & Ec & E). apply ok_inj in E. subst s'.
    cbn [desk_call fst snd on_leaf dk_leaf with_hpage h_page]. destruct Wc as (_ & Wev). cbn [snd event_wf] in Wev. unfold u32v in Wev. destruct Lf as (Lf & Sm).
    split; [refine (area_leaf _ _ _ _ _ _ Lf _ _ Ec); lia | apply small_enlarge; [exact (small_turn _ _ Sm) | unfold u32_max; lia | unfold u32_max; lia]].
  - unfold html_page in E. cbv zeta in E. apply bind_inv in E. destruct E as (t & Et & E). unfold copy in E. apply bind_inv in E. destruct E as (b & Eb & E).
    apply bind_inv in E. destruct E as (r & _ & E). unfold push_row in E. apply bind_inv in E. destruct E as (y & _ & E). apply ok_inj in E. subst s'.
    cbn [desk_call fst snd on_leaf dk_leaf h_page with_hpage]. exact (leafy_turn _ _ _ _ (leafy_turn _ _ _ _ Lf Et) Eb).
Qed.
Lemma image_shows' pn i r : img_wf i -> u32v (i_x i) -> encode_html_image pn i = Ok r -> shows pn (EImage i) (row_y r) (row_height r) (row_content r).
Proof.
  intros W Ux E. unfold encode_html_image in E. destruct (pn (i_w i) (i_h i) (as_rgba_u8 i)) as [d|] eqn:P; [|discriminate]. apply ok_inj in E. subst r. cbn [row_y row_height row_content].
  exists (dec_u32 (i_x i)), (dec_u32 (i_w i)), d. split; [reflexivity|]. split; [exact (dec_writes _ Ux)|]. split; [|exact P]. apply dec_writes.
  exact (iw_w _ W).
Qed.
Lemma page_row fo pn x s s' d t h : call_wf (x, ERenderPage) -> leafy (h_page s) (dk_leaf d) -> html_event fo pn x ERenderPage s = Ok s' ->
  box (EImage (page_picture x (dk_leaf d))) t h ->
  exists c, h_content s' = h_content s ++ [para_html (mk_para h (Z.max 0 (t - h_last_y s)) c)] /\ h_last_y s' = t + h /\ shows pn (EImage (page_picture x (dk_leaf d))) t h c.
Proof.
  intros (C & _) Lf E B. cbn [html_event] in E. unfold html_page in E. cbv zeta in E. apply bind_inv in E. destruct E as (tu & Et & E). unfold copy in E. apply bind_inv in E. destruct E as (b & Eb & E).
  apply bind_inv in E. destruct E as (r & Er & E). destruct (leafy_turn _ _ _ _ Lf Et) as (L1 & S1). fold (upright x (dk_leaf d)) in L1, S1.
  rewrite (leaf_height _ _ L1), (lk_width _ _ L1), (leaf_dots _ _ L1) in Er. change (encode_html_image pn (page_picture x (dk_leaf d)) = Ok r) in Er.
  pose proof (ua_x _ (ui_render _ (ci_u _ C))) as Ax. cbn [fst] in Ax.
  pose proof (lk_w _ _ L1) as W0. pose proof (lk_h _ _ L1) as H0. destruct S1 as (S1 & S2). unfold u32_max in S1, S2.
  assert (Iw : img_wf (page_picture x (dk_leaf d))).
  { constructor; cbn [page_picture i_w i_h i_pixels]; unfold u32v; [lia | lia | apply dots_len; assumption]. }
  pose proof (image_shows' _ _ _ Iw Ax Er) as Sh.
  assert (Bx : row_y r = t /\ row_height r = h).
  { clear -Er B. unfold encode_html_image in Er. destruct (pn _ _ _); [|discriminate]. apply ok_inj in Er. subst r. cbn [box] in B. destruct B as (-> & ->). split; reflexivity. }
  destruct Bx as (<- & <-). apply push_row_inv in E. destruct E as (A1 & A2 & _). exists (row_content r). split; [exact A1|]. split; [exact A2 | exact Sh].
Qed.
Lemma html_printouts fo pn l : forall s s' d boxes, Forall call_wf l -> Forall (fun c => snd c <> EBeginRender) l -> leafy (h_page s) (dk_leaf d) ->
  html_calls fo pn l s = Ok s' -> Forall2 boxed (printouts fo d l) boxes ->
  exists ps, h_content s' = h_content s ++ map para_html ps /\ map pa_height ps = map snd boxes /\ map pa_gap ps = gaps (h_last_y s) boxes /\
    h_last_y s' = ends_at (h_last_y s) boxes /\ Forall2 (shown_at pn) (combine (printouts fo d l) (map fst boxes)) ps.
Proof.
  induction l as [|[x ev] l IH]; intros s s' d boxes F O Lf E B; cbn [html_calls fold_res] in E.
  - apply ok_inj in E. subst s'. cbn [printouts] in B. inversion B; subst. exists []. cbn [map]. rewrite app_nil_r. repeat (split; [reflexivity|]). constructor.
  - apply Forall_cons_iff in F. destruct F as (F1 & F2). apply Forall_cons_iff in O. destruct O as (O1 & O2).
    apply bind_ok in E. destruct E as (s1 & E1 & E). cbn [fst snd] in E1, O1. pose proof (html_leaf _ _ _ _ _ _ d F1 O1 E1 Lf) as Lf1.
    assert (Step : (exists ev', printouts fo d ((x, ev) :: l) = ev' :: printouts fo (desk_call fo 609 (x, ev) d) l /\
              forall t h, box ev' t h -> exists c, h_content s1 = h_content s ++ [para_html (mk_para h (Z.max 0 (t - h_last_y s)) c)] /\ h_last_y s1 = t + h /\ shows pn ev' t h c)
            \/ (printouts fo d ((x, ev) :: l) = printouts fo (desk_call fo 609 (x, ev) d) l /\ h_content s1 = h_content s /\ h_last_y s1 = h_last_y s)).
    { assert (Case : ev = ERenderPage \/ ev <> ERenderPage) by (destruct ev; auto; right; discriminate). destruct Case as [->|Np].
      - left. exists (EImage (page_picture x (dk_leaf d))). split; [reflexivity|]. intros t h Bt. exact (page_row fo pn x s s1 d t h F1 Lf E1 Bt).
      - assert (Eq : printouts fo d ((x, ev) :: l) = (if prints (x, ev) then [ev] else []) ++ printouts fo (desk_call fo 609 (x, ev) d) l) by (destruct ev; try congruence; reflexivity).
        rewrite Eq. destruct (prints (x, ev)) eqn:P.
        + left. exists ev. split; [reflexivity|]. intros t h Bt. exact (event_row _ _ _ _ _ _ t h F1 P Bt E1).
        + right. split; [reflexivity|]. destruct (html_said fo pn x ev s s1 F1 O1 E1) as [(p1 & A1 & _ & A3 & _) _]. destruct (A3 Np P) as (-> & L). cbn [map] in A1. rewrite app_nil_r in A1. auto. }
    destruct Step as [(ev' & Eq & St)|(Eq & A1 & L)]; rewrite Eq in B |- *.
    + inversion B as [|? [t h] ? bs Bt Bs]; subst. destruct (St t h Bt) as (c & A1 & A2 & A3).
      destruct (IH s1 s' _ bs F2 O2 Lf1 E Bs) as (ps & C1 & C2 & C3 & C4 & C5). rewrite A2 in C3, C4.
      exists (mk_para h (Z.max 0 (t - h_last_y s)) c :: ps). cbn [map combine fst snd pa_height pa_gap gaps ends_at].
      split; [rewrite C1, A1, <- app_assoc; reflexivity|]. split; [now rewrite C2|]. split; [now rewrite C3|]. split; [exact C4|]. constructor; [exact A3 | exact C5].
    + rewrite <- A1, <- L. exact (IH s1 s' _ boxes F2 O2 Lf1 E B).
Qed.
