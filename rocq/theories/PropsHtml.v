(** * PropsHtml: C43-C46, the HTML a job gives. *)
From Verif Require Import Base Command CommandSet Parser SpecStream Vec Float32 GTypes Graphics Decoder Context Text Handlers Renderer StateTheory AreaTheory CallsTheory
  ContextTheory RendererTheory Origin SpecPrinter SpecRender PropsOutput FlatTheory PropsLayout PropsSafe ThermalImage CanvasRect ImageRenderer PropsImage ThermalFile HtmlTemplate HtmlRenderer SpecHtml HtmlTheory.
Local Open Scope Z_scope.
Local Open Scope list_scope.
Local Arguments vlen : simpl never.

(** ** Boxes *)
Lemma least_unique l a b : least a l -> least b l -> a = b.
Proof. intros (A1 & A2) (B1 & B2). rewrite Forall_forall in A2, B2. pose proof (A2 _ B1). pose proof (B2 _ A1). lia. Qed.
Lemma greatest_unique l a b : greatest a l -> greatest b l -> a = b.
Proof. intros (A1 & A2) (B1 & B2). rewrite Forall_forall in A2, B2. pose proof (A2 _ B1). pose proof (B2 _ A1). lia. Qed.
Lemma fold_min_le {A} (f : A -> Z) (l : list A) : forall m, fold_left (fun m r => Z.min m (f r)) l m <= m /\
  Forall (fun x => fold_left (fun m r => Z.min m (f r)) l m <= x) (map f l) /\
  (fold_left (fun m r => Z.min m (f r)) l m = m \/ In (fold_left (fun m r => Z.min m (f r)) l m) (map f l)).
Proof.
  induction l as [|a l IH]; intros m; cbn [fold_left map]; [split; [lia | split; [constructor | now left]]|].
  destruct (IH (Z.min m (f a))) as (A1 & A2 & A3). split; [lia|]. split; [constructor; [lia | exact A2]|].
  destruct A3 as [->|A3]; [|right; right; exact A3]. destruct (Z.min_spec m (f a)) as [(_ & ->)|(_ & ->)]; [now left | right; now left].
Qed.
Lemma fold_min {A} (f : A -> Z) (l : list A) : l <> [] -> Forall (fun a => f a <= u32_max) l ->
  least (fold_left (fun m r => Z.min m (f r)) l u32_max) (map f l).
Proof.
  intros N F. destruct (fold_min_le f l u32_max) as (A1 & A2 & [A3|A3]); [|split; assumption].
  split; [|exact A2]. destruct l as [|a l]; [congruence|]. inversion F as [|? ? Fa _]; subst. inversion A2 as [|? ? B _]; subst.
  rewrite A3 in *. left. lia.
Qed.
Lemma fold_max_ge {A} (f : A -> Z) (l : list A) : forall m, m <= fold_left (fun m r => Z.max m (f r)) l m /\
  Forall (fun x => x <= fold_left (fun m r => Z.max m (f r)) l m) (map f l) /\
  (fold_left (fun m r => Z.max m (f r)) l m = m \/ In (fold_left (fun m r => Z.max m (f r)) l m) (map f l)).
Proof.
  induction l as [|a l IH]; intros m; cbn [fold_left map]; [split; [lia | split; [constructor | now left]]|].
  destruct (IH (Z.max m (f a))) as (A1 & A2 & A3). split; [lia|]. split; [constructor; [lia | exact A2]|].
  destruct A3 as [->|A3]; [|right; right; exact A3]. destruct (Z.max_spec m (f a)) as [(_ & ->)|(_ & ->)]; [right; now left | now left].
Qed.
Lemma fold_max {A} (f : A -> Z) (l : list A) : l <> [] -> Forall (fun a => 0 <= f a) l ->
  greatest (fold_left (fun m r => Z.max m (f r)) l 0) (map f l).
Proof.
  intros N F. destruct (fold_max_ge f l 0) as (A1 & A2 & [A3|A3]); [|split; assumption].
  split; [|exact A2]. destruct l as [|a l]; [congruence|]. inversion F as [|? ? Fa _]; subst. inversion A2 as [|? ? B _]; subst.
  rewrite A3 in *. left. lia.
Qed.

Lemma svg_fold mx my l : forall w h svg w' h' svg', fold_res (svg_step mx my) l (w, h, svg) = Ok (w', h', svg') ->
  h' = fold_left (fun m r => Z.max m (sat_sub (r_y r) my + r_h r)) l h.
Proof.
  induction l as [|r l IH]; intros w h svg w' h' svg' E; cbn [fold_res] in E; [injection E as _ <- _; reflexivity|].
  apply bind_inv in E. destruct E as ([[w1 h1] svg1] & E1 & E). unfold svg_step in E1. apply bind_inv in E1. destruct E1 as (xe & _ & E1).
  apply bind_inv in E1. destruct E1 as (ye & Hy & E1). injection E1 as _ <- _. destruct (add_u32v _ _ _ Hy) as (-> & _).
  rewrite (IH _ _ _ _ _ _ E). reflexivity.
Qed.
Lemma svg_box l r : l <> [] -> Forall rect_wf l -> graphics_to_svg l = Ok r -> box (EGraphics l) (row_y r) (row_height r).
Proof.
  intros N F E. unfold graphics_to_svg in E. destruct l as [|a l0]; [congruence|]. set (l := a :: l0) in *. cbv zeta in E.
  apply bind_inv in E. destruct E as ([[w h] svg] & E1 & E). apply ok_inj in E. subst r. cbn [row_y row_height].
  apply svg_fold in E1. unfold box. split; [exact N|].
  assert (L : least (least_y l) (map r_y l)).
  { apply fold_min; [exact N|]. eapply Forall_impl; [|exact F]. intros r (_ & A & _). unfold u32v, u32_max in *. lia. }
  split; [exact L|]. set (my := least_y l) in *.
  assert (G : greatest h (map (fun r => sat_sub (r_y r) my + r_h r) l)).
  { rewrite E1. apply fold_max; [exact N|]. eapply Forall_impl; [|exact F]. intros r (_ & _ & _ & A). unfold sat_sub. lia. }
  destruct L as (_ & L). rewrite Forall_map in L.
  destruct G as (G1 & G2). apply in_map_iff in G1. destruct G1 as (r0 & G0 & G1). rewrite Forall_map in G2.
  rewrite Forall_forall in L, G2. split.
  - apply in_map_iff. exists r0. split; [|exact G1]. specialize (L _ G1). unfold sat_sub in G0. lia.
  - rewrite Forall_map. apply Forall_forall. intros r Hr. specialize (L _ Hr). specialize (G2 _ Hr). unfold sat_sub in G2. lia.
Qed.
Definition span_top (s : text_span) : Z := match s_dimensions s with Some d => d_y d | None => 0 end.
Lemma span_y k off mh s y l : span_to_html k off mh s = Ok (y, l) -> y = span_top s.
Proof.
  intros E. unfold span_to_html in E. cbv zeta in E. unfold span_top. destruct (s_dimensions s) as [d|];
    apply bind_inv in E; destruct E as (? & _ & E); apply ok_inj in E; apply (f_equal fst) in E; cbn [fst] in E; congruence.
Qed.
Lemma spans_fold k off mh l : forall h m html h' m' html', fold_res (spans_step k off mh) l (h, m, html) = Ok (h', m', html') ->
  h' = fold_left (fun m s => Z.max m (s_character_height s)) l h /\ m' = fold_left (fun m s => Z.min m (span_top s)) l m.
Proof.
  induction l as [|s l IH]; intros h m html h' m' html' E; cbn [fold_res] in E; [injection E as <- <- _; auto|].
  apply bind_inv in E. destruct E as ([[h1 m1] html1] & E1 & E). unfold spans_step in E1. apply bind_inv in E1. destruct E1 as ([y c] & E1 & E2).
  injection E2 as <- <- _. rewrite (span_y _ _ _ _ _ _ E1) in E. exact (IH _ _ _ _ _ _ E).
Qed.
Lemma span_top_range s : span_wf s -> 0 <= span_top s <= u32_max.
Proof.
  intros W. unfold span_top. pose proof (sw_dims _ W) as D. destruct (s_dimensions s) as [d|]; [|unfold u32_max; lia].
  destruct D as (_ & D & _). unfold u32v, u32_max in *. lia.
Qed.
Lemma spans_box k l off mh j r : l <> [] -> Forall span_wf l -> spans_to_html k l off mh = Ok r -> box (EText l off mh j) (row_y r) (row_height r).
Proof.
  intros N F E. unfold spans_to_html in E. destruct l as [|a l0]; [congruence|]. set (l := a :: l0) in *.
  apply bind_inv in E. destruct E as ([[h m] html] & E1 & E). apply ok_inj in E. subst r. cbn [row_y row_height].
  apply spans_fold in E1. destruct E1 as (-> & ->). unfold box. split; [exact N|]. split.
  - apply (fold_min span_top l N). eapply Forall_impl; [|exact F]. intros s W. pose proof (span_top_range _ W). lia.
  - apply (fold_max s_character_height l N). eapply Forall_impl; [|exact F]. intros s W. destruct (sw_height _ W) as (k0 & A & ->). pose proof (sw_base _ W). nia.
Qed.
Lemma box_unique ev t h t' h' : box ev t h -> box ev t' h' -> t = t' /\ h = h'.
Proof.
  destruct ev as [| | | | | |rects|i|spans off mh j| |]; cbn [box]; try contradiction.
  - intros (_ & A1 & A2) (_ & B1 & B2). pose proof (least_unique _ _ _ A1 B1) as ->. pose proof (greatest_unique _ _ _ A2 B2). lia.
  - intros (-> & ->) (-> & ->). auto.
  - intros (_ & A1 & A2) (_ & B1 & B2). split; [exact (least_unique _ _ _ A1 B1) | exact (greatest_unique _ _ _ A2 B2)].
Qed.

(** ** One call *)
(** what a call prints directly on the paper, outside page mode *)
Definition prints (c : context * event) : bool := negb (p_enabled (c_page (fst c))) && draws (snd c).
Definition call_text (c : context * event) : list Z := paper_text [c].
Definition row_para (last : Z) (r : html_row) : para := mk_para (row_height r) (sat_sub (row_y r) last) (row_content r).
Lemma push_row_inv r s s' : push_row r s = Ok s' ->
  h_content s' = h_content s ++ [para_html (row_para (h_last_y s) r)] /\ h_last_y s' = row_y r + row_height r /\ h_out s' = h_out s.
Proof.
  intros E. unfold push_row in E. apply bind_inv in E. destruct E as (y & Hy & E). apply ok_inj in E. subst s'. destruct (add_u32v _ _ _ Hy) as (-> & _).
  cbn [h_content h_last_y h_out]. split; [reflexivity | auto].
Qed.
(** the rows, documents and text of a call *)
Record said (pn : pngs) (x : context) (ev : event) (s s' : hstate) : Prop := mk_said {
  sd_rows : exists ps, h_content s' = h_content s ++ map para_html ps /\
    (base64_encoder pn -> forallb plain_char (call_text (x, ev)) = true -> frag false (concat (map para_html ps)) (call_text (x, ev)) false) /\
    (ev <> ERenderPage -> prints (x, ev) = false -> ps = [] /\ h_last_y s' = h_last_y s) /\
    (forall t h, prints (x, ev) = true -> box ev t h -> exists c, ps = [mk_para h (Z.max 0 (t - h_last_y s)) c] /\ h_last_y s' = t + h);
  sd_out : h_out s' = h_out s ++ if ends_output ev then [document x (h_content s) (sat_sub (get_y x) (h_last_y s))] else [] }.
Lemma no_text pn x ev s s' : h_content s' = h_content s -> h_last_y s' = h_last_y s -> h_out s' = h_out s -> ends_output ev = false ->
  prints (x, ev) = false -> call_text (x, ev) = [] -> said pn x ev s s'.
Proof.
  intros A B C D P T. constructor.
  - exists []. cbn [map]. rewrite app_nil_r. split; [exact A|]. split; [intros _ _; rewrite T; apply frag_nil|].
    split; [intros _ _; split; [reflexivity | exact B]|]. intros t h P'. congruence.
  - rewrite D, app_nil_r. exact C.
Qed.
Lemma inked_text l : map snd (flat_map (fun s => inked s (s_text s)) l) = flat_map s_text l.
Proof.
  induction l as [|s l IH]; [reflexivity|]. cbn [flat_map]. etransitivity; [apply map_app|]. apply f_equal2; [|exact IH]. unfold inked.
  rewrite map_map. cbn [snd]. apply map_id.
Qed.
Lemma drawn_one x spans off mh j : p_enabled (c_page x) = false -> call_text (x, EText spans off mh j) = flat_map s_text spans.
Proof.
  intros P. unfold call_text, paper_text, outside_page. cbn [filter fst]. rewrite P. cbn [negb]. unfold drawn. cbn [flat_map snd]. rewrite app_nil_r. apply inked_text.
Qed.
Lemma one_row pn x ev s s' r : push_row r s = Ok s' -> ends_output ev = false -> ev <> ERenderPage -> prints (x, ev) = true ->
  (forall t h, box ev t h -> row_y r = t /\ row_height r = h) ->
  (base64_encoder pn -> forallb plain_char (call_text (x, ev)) = true -> frag false (row_content r) (call_text (x, ev)) false) ->
  said pn x ev s s'.
Proof.
  intros E D N P Bx T. apply push_row_inv in E. destruct E as (A & B & C). constructor.
  - exists [row_para (h_last_y s) r]. cbn [map concat]. split; [exact A|]. split.
    + intros B64 Pl. rewrite app_nil_r. apply frag_paragraph. exact (T B64 Pl).
    + split; [intros _ P'; congruence|]. intros t h _ Bt. destruct (Bx _ _ Bt) as (<- & <-). exists (row_content r). split; [reflexivity | exact B].
  - rewrite D, app_nil_r. exact C.
Qed.
Lemma plain_spans spans : forallb plain_char (flat_map s_text spans) = true -> Forall (fun s => forallb plain_char (s_text s) = true) spans.
Proof.
  induction spans as [|s l IH]; intros F; [constructor|]. cbn [flat_map] in F. rewrite forallb_app in F. apply andb_prop in F.
  destruct F as (F1 & F2). constructor; auto.
Qed.
Lemma page_text x ev : p_enabled (c_page x) = true -> call_text (x, ev) = [].
Proof. intros P. unfold call_text, paper_text, outside_page. cbn [filter fst]. rewrite P. reflexivity. Qed.
Lemma silent_text x ev : match ev with EText _ _ _ _ => False | _ => True end -> call_text (x, ev) = [].
Proof. intros N. unfold call_text, paper_text, outside_page. cbn [filter fst]. destruct (negb _); [|reflexivity]. destruct ev; try reflexivity. contradiction. Qed.
Lemma html_said fo pn x ev s s' : call_wf (x, ev) -> ev <> EBeginRender -> html_event fo pn x ev s = Ok s' -> said pn x ev s s'.
Proof.
  intros (C & W) NB E. cbn [fst snd] in *.
  destruct ev as [dv| | |rt pw ph| | |rects|i|spans off mh j| |]; try congruence; cbn [html_event] in E;
    try (apply ok_inj in E; subst s'; apply no_text; try reflexivity; try (apply silent_text; exact I); unfold prints; cbn [snd draws]; now rewrite andb_false_r).
  - unfold on_hpage in E. apply bind_inv in E. destruct E as (c & _ & E). apply ok_inj in E. subst s'.
    apply no_text; try reflexivity; [|apply silent_text; exact I]. unfold prints; cbn [snd draws]; now rewrite andb_false_r.
  - unfold html_page in E. cbv zeta in E. apply bind_inv in E. destruct E as (turned & _ & E). destruct (copy turned) as [[w h] px].
    apply bind_inv in E. destruct E as (back & _ & E). apply bind_inv in E. destruct E as (r & Er & E).
    apply push_row_inv in E. destruct E as (A & B & D). cbn [with_hpage h_content h_last_y h_out] in A, B, D. constructor.
    + exists [row_para (h_last_y s) r]. split; [exact A|]. split; [|split; [congruence | intros t h0 _ []]].
      intros B64 _. cbn [map concat]. rewrite app_nil_r, silent_text by exact I. apply frag_paragraph. exact (frag_image _ _ _ B64 Er).
    + cbn [ends_output]. now rewrite app_nil_r.
  - destruct (p_enabled (c_page x)) eqn:P.
    + unfold on_hpage in E. apply bind_inv in E. destruct E as (c & _ & E). apply ok_inj in E. subst s'.
      apply no_text; try reflexivity; [unfold prints; cbn [fst]; now rewrite P | exact (page_text _ _ P)].
    + apply bind_inv in E. destruct E as (r & Er & E). refine (one_row pn x _ s s' r E _ _ _ _ _); [reflexivity | discriminate | unfold prints; cbn [fst]; now rewrite P| |].
      * intros t h Bt. pose proof Bt as (Nn & _). exact (box_unique _ _ _ _ _ (svg_box _ _ Nn W Er) Bt).
      * intros _ _. rewrite silent_text by exact I. exact (frag_svg _ _ Er).
  - destruct (p_enabled (c_page x)) eqn:P.
    + unfold on_hpage in E. apply bind_inv in E. destruct E as (c & _ & E). apply ok_inj in E. subst s'.
      apply no_text; try reflexivity; [unfold prints; cbn [fst]; now rewrite P | exact (page_text _ _ P)].
    + apply bind_inv in E. destruct E as (r & Er & E). refine (one_row pn x _ s s' r E _ _ _ _ _); [reflexivity | discriminate | unfold prints; cbn [fst]; now rewrite P| |].
      * intros t h (-> & ->). unfold encode_html_image in Er. destruct (pn _ _ _); [|discriminate]. apply ok_inj in Er. subst r. auto.
      * intros B64 _. rewrite silent_text by exact I. exact (frag_image _ _ _ B64 Er).
  - destruct (p_enabled (c_page x)) eqn:P.
    + unfold on_hpage in E. apply bind_inv in E. destruct E as (c & _ & E). apply ok_inj in E. subst s'.
      apply no_text; try reflexivity; [unfold prints; cbn [fst]; now rewrite P | exact (page_text _ _ P)].
    + apply bind_inv in E. destruct E as (r & Er & E). destruct W as (W & _).
      refine (one_row pn x _ s s' r E _ _ _ _ _); [reflexivity | discriminate | unfold prints; cbn [fst]; now rewrite P| |].
      * intros t h Bt. pose proof Bt as (Nn & _). exact (box_unique _ _ _ _ _ (spans_box _ _ _ _ j _ Nn W Er) Bt).
      * intros _. rewrite drawn_one by exact P. intros Pl. exact (frag_spans _ _ _ _ _ (plain_spans _ Pl) Er).
  - apply ok_inj in E. subst s'. constructor.
    + exists []. cbn [map html_end h_content h_last_y]. rewrite app_nil_r. split; [reflexivity|]. rewrite silent_text by exact I. split; [intros _ _; apply frag_nil|].
      split; [auto|]. intros t h _ [].
    + reflexivity.
Qed.

(** ** A run of calls *)
Lemma outside_app a b : outside_page (a ++ b) = outside_page a ++ outside_page b.
Proof. apply filter_app. Qed.
Lemma paper_text_cons c l : paper_text (c :: l) = call_text c ++ paper_text l.
Proof.
  unfold call_text, paper_text. change (c :: l) with ([c] ++ l). rewrite outside_app. unfold drawn. rewrite flat_map_app. apply map_app.
Qed.
Lemma paper_text_app a b : paper_text (a ++ b) = paper_text a ++ paper_text b.
Proof. unfold paper_text. rewrite outside_app. unfold drawn. rewrite flat_map_app. apply map_app. Qed.
Lemma paper_calls_cons x ev l : paper_calls ((x, ev) :: l) = if prints (x, ev) then ev :: paper_calls l else paper_calls l.
Proof. unfold paper_calls, outside_page, prints. cbn [filter fst snd]. destruct (p_enabled (c_page x)); cbn [negb andb map filter snd]; [reflexivity|]. destruct (draws ev); reflexivity. Qed.
Definition boxed (ev : event) (b : Z * Z) : Prop := box ev (fst b) (snd b).
Record told (pn : pngs) (l : list (context * event)) (s s' : hstate) : Prop := mk_told {
  tl_rows : exists ps, h_content s' = h_content s ++ map para_html ps /\
    (base64_encoder pn -> forallb plain_char (paper_text l) = true -> frag false (concat (map para_html ps)) (paper_text l) false) /\
    (Forall (fun c => snd c <> ERenderPage) l -> forall boxes, Forall2 boxed (paper_calls l) boxes ->
       map pa_height ps = map snd boxes /\ map pa_gap ps = gaps (h_last_y s) boxes /\ h_last_y s' = ends_at (h_last_y s) boxes);
  tl_out : exists docs, h_out s' = h_out s ++ docs /\ length docs = ev_ends l }.
Lemma html_told fo pn l : forall s s', Forall call_wf l -> Forall (fun c => snd c <> EBeginRender) l -> html_calls fo pn l s = Ok s' -> told pn l s s'.
Proof.
  induction l as [|[x ev] l IH]; intros s s' F O E; cbn [html_calls fold_res] in E.
  - apply ok_inj in E. subst s'. constructor; [|exists []; split; [now rewrite app_nil_r | reflexivity]].
    exists []. cbn [map concat]. rewrite app_nil_r. split; [reflexivity|]. split; [intros _ _; apply frag_nil|].
    intros _ boxes B. unfold paper_calls in B. cbn in B. inversion B; subst. auto.
  - apply Forall_cons_iff in F. destruct F as (F1 & F2). apply Forall_cons_iff in O. destruct O as (O1 & O2).
    apply bind_inv in E. destruct E as (s1 & E1 & E). cbn [fst snd] in E1, O1.
    destruct (html_said fo pn x ev s s1 F1 O1 E1) as [(p1 & A1 & A2 & A3 & A4) A5]. destruct (IH s1 s' F2 O2 E) as [(p2 & B1 & B2 & B3) (d2 & B4 & B5)].
    constructor.
    + exists (p1 ++ p2). rewrite map_app. split; [rewrite B1, A1; now rewrite app_assoc|]. split.
      * intros B64 Pl. rewrite paper_text_cons in Pl |- *. rewrite forallb_app in Pl. apply andb_prop in Pl. destruct Pl as (P1 & P2).
        rewrite concat_app. exact (frag_app _ _ _ _ _ _ _ (A2 B64 P1) (B2 B64 P2)).
      * intros N boxes B. apply Forall_cons_iff in N. destruct N as (N1 & N2). cbn [snd] in N1. rewrite paper_calls_cons in B.
        destruct (prints (x, ev)) eqn:P.
        -- inversion B as [|? [t h] ? bs Bt Bs]; subst. destruct (A4 t h eq_refl Bt) as (c & -> & L). rewrite L in B3.
           destruct (B3 N2 _ Bs) as (C1 & C2 & C3). cbn [app map snd gaps ends_at pa_height pa_gap]. rewrite C1, C2, C3. auto.
        -- destruct (A3 N1 eq_refl) as (-> & L). rewrite L in B3. exact (B3 N2 _ B).
    + exists ((if ends_output ev then [document x (h_content s) (sat_sub (get_y x) (h_last_y s))] else []) ++ d2).
      split; [rewrite B4, A5; now rewrite app_assoc|]. rewrite app_length, B5. unfold ev_ends. cbn [filter snd]. destruct (ends_output ev); reflexivity.
Qed.
Lemma html_calls_app fo pn a b s s' : html_calls fo pn (a ++ b) s = Ok s' -> exists s1, html_calls fo pn a s = Ok s1 /\ html_calls fo pn b s1 = Ok s'.
Proof. unfold html_calls. rewrite fold_res_app. intros E. apply bind_inv in E. destruct E as (s1 & E1 & E). eauto. Qed.

(** ** Jobs *)
(** the first row: the blank paper above the print position *)
Definition first_para (x : context) : para := mk_para (get_y x) 0 [].
Lemma html_begin_inv x s s' : cinv x -> html_begin x s = Ok s' -> h_content s' = [para_html (first_para x)] /\ h_last_y s' = get_y x /\ h_out s' = h_out s.
Proof.
  intros C E. unfold html_begin in E. cbv zeta in E. apply push_row_inv in E. cbn [h_content h_last_y h_out row_y row_height] in E. destruct E as (-> & -> & ->).
  cbn [app]. split; [|split; [lia | reflexivity]]. unfold row_para, first_para. cbn [row_y row_height row_content].
  assert (0 <= get_y x).
  { unfold get_y. destruct (p_enabled (c_page x)).
    - pose proof (ua_y _ (ui_prender _ (ci_u _ C))) as A. unfold u32v in A. lia.
    - pose proof (ua_y _ (ui_render _ (ci_u _ C))) as A. unfold u32v in A. lia. }
  unfold sat_sub. now replace (Z.max 0 (0 - get_y x)) with 0 by lia.
Qed.
(** a job begins two lines down *)
Lemma job_begins e bs s x x' l : bytes_ok bs = true -> render e bs renderer_new = Ok s ->
  rs_calls s = (x, EDevice BeginPrint) :: (x', EBeginRender) :: l -> get_y x' = 108.
Proof.
  intros B H Ec. unfold render in H. apply bind_ok in H. destruct H as (cmds & P & H).
  assert (F : Forall sent cmds). { apply Forall_forall. intros c Hc. exists bs, cmds. auto. }
  destruct (PropsParser.C02_framed _ _ B P) as (mid & O & _).
  destruct cmds as [|c0 cmds]; [discriminate|]. cbn [map app] in O. injection O as N0 _ _ _ _ _.
  unfold run_commands in H. cbn [fold_res] in H. apply bind_ok in H. destruct H as (s1 & H1 & H).
  inversion F as [|? ? S0 F']; subst. apply (proj1 (frame_name _ S0)) in N0.
  pose proof (kind_of_special _ S0) as K0. rewrite N0 in K0. destruct K0 as (K0 & _).
  unfold process_command in H1. rewrite K0 in H1. unfold get_device_command in H1. rewrite N0 in H1. cbn [device_plain bind] in H1.
  unfold process_text in H1. change (rs_spans renderer_new) with (@nil text_span) in H1. cbn [bind] in H1.
  unfold process_device_commands in H1. cbn [fold_res] in H1. apply bind_ok in H1. destruct H1 as (t1 & H1 & Ht). injection Ht as <-.
  cbn [process_device_command] in H1. apply bind_ok in H1. destruct H1 as (t2 & Ht2 & H1). injection H1 as <-.
  apply on_ctx_inv in Ht2. destruct Ht2 as (y & Hy & ->).
  destruct (run_effect _ _ _ _ F' H) as (m & _ & n & E & _ & _). rewrite E in Ec. cbn [call with_ctx rs_calls app] in Ec.
  change (rs_calls renderer_new) with (@nil (context * event)) in Ec. cbn [app] in Ec. injection Ec as _ <- _. cbn [call with_ctx rs_ctx] in *.
  assert (V : (do c <- newline 2 (rs_ctx renderer_new); Ok (get_y c)) = Ok 108) by (vm_compute; reflexivity).
  rewrite Hy in V. cbn [bind] in V. congruence.
Qed.
(** the state of the HTML renderer just before the end of a sheet *)
Lemma job_reach fo pn e bs s docs calls x rest : bytes_ok bs = true -> render e bs renderer_new = Ok s -> render_html fo pn e bs = Ok docs ->
  rs_calls s = calls ++ (x, EEndRender) :: rest ->
  exists x0 mid h later, calls = (fst (hd (x, EEndRender) calls), EDevice BeginPrint) :: (x0, EBeginRender) :: mid /\ get_y x0 = 108 /\
    (exists h0, told pn mid h0 h /\ h_content h0 = [para_html (first_para x0)] /\ h_last_y h0 = get_y x0 /\ h_out h0 = []) /\
    docs = h_out h ++ document x (h_content h) (sat_sub (get_y x) (h_last_y h)) :: later /\ length (h_out h) = ev_ends calls /\ cinv x.
Proof.
  intros B Es E Ec. unfold render_html in E. rewrite Es in E. cbn [bind] in E. apply bind_inv in E. destruct E as (hh & E & Ed). apply ok_inj in Ed. subst docs.
  pose proof (job_calls _ _ _ B Es) as F. destruct (job_shape e bs s B Es) as (y0 & y1 & l & n & Ec' & Nb & Ne).
  destruct calls as [|[c0 e0] [|[c1 e1] mid]]; rewrite Ec in Ec'; cbn [app] in Ec'; [discriminate | injection Ec' as _ _ _ D; discriminate |].
  injection Ec' as -> -> -> -> El. rewrite Ec in E, F. cbn [app] in Ec.
  apply Forall_app in F. destruct F as (Fc & F). apply Forall_cons_iff in F. destruct F as (Fx & Fr).
  apply Forall_cons_iff in Fc. destruct Fc as (F0 & Fc). apply Forall_cons_iff in Fc. destruct Fc as (F1 & Fm).
  rewrite <- El, ev_begins_app in Nb. assert (Nm : ev_begins mid = 0%nat) by lia.
  assert (Nr : ev_begins rest = 0%nat) by (unfold ev_begins in Nb |- *; cbn [filter snd begins_output] in Nb; lia).
  apply html_calls_app in E. destruct E as (h & E & Er).
  unfold html_calls in E. cbn [fold_res fst snd html_event] in E. cbn [bind] in E. apply bind_inv in E. destruct E as (h0 & E0 & E).
  apply html_begin_inv in E0; [|exact (proj1 F1)]. destruct E0 as (Q1 & Q2 & Q3).
  pose proof (html_told fo pn mid h0 h Fm (no_begins _ Nm) E) as T.
  unfold html_calls in Er. cbn [fold_res fst snd html_event bind] in Er.
  destruct (html_told fo pn rest _ hh Fr (no_begins _ Nr) Er) as [_ (later & Ol & _)]. cbn [html_end h_out] in Ol.
  exists y1, mid, h, later. split; [reflexivity|]. split; [exact (job_begins _ _ _ _ _ _ B Es Ec)|]. split; [exists h0; auto|]. split; [rewrite Ol, <- app_assoc; reflexivity|]. split; [|exact (proj1 Fx)].
  destruct T as [_ (d & Od & Ld)]. rewrite Od, Q3. cbn [html_new h_out app]. rewrite Ld. reflexivity.
Qed.
Lemma paper_text_silent x ev l : match ev with EText _ _ _ _ => False | _ => True end -> paper_text ((x, ev) :: l) = paper_text l.
Proof. intros N. rewrite paper_text_cons, silent_text by exact N. reflexivity. Qed.
Lemma frag_first x : frag false (para_html (first_para x)) [] false.
Proof. apply (frag_paragraph (get_y x) 0 [] []). apply frag_nil. Qed.

(** How many ends of sheets are among the calls: the number of a document. *)
Definition number (calls : list (context * event)) : nat := count ends_output (map snd calls).

(** Every document is the fixed page around a content, and what a reader sees of the content is exactly
    the text printed outside page mode up to the end of that sheet, as long as no character printed
    there has a meaning in HTML or in the template. *)
Theorem C43_document_text : exists head tail, forall fo pn e bs s docs calls x rest,
  bytes_ok bs = true -> render e bs renderer_new = Ok s -> render_html fo pn e bs = Ok docs -> base64_encoder pn ->
  rs_calls s = calls ++ (x, EEndRender) :: rest -> forallb plain_char (paper_text calls) = true ->
  exists content below, nth_error docs (number calls) = Some (page_around head tail (paper_style below) content) /\
    no_lf (html_text content) = no_lf (paper_text calls).
Proof.
  exists doc_head, doc_tail. intros fo pn e bs s docs calls x rest B Es E B64 Ec Pl.
  destruct (job_reach _ _ _ _ _ _ _ _ _ B Es E Ec) as (x0 & mid & h & later & Em & Y0 & (h0 & T & Q1 & Q2 & Q3) & Ed & L & C).
  destruct T as [(ps & A1 & A2 & _) _]. rewrite Em, !paper_text_silent in Pl |- * by exact I. specialize (A2 B64 Pl).
  assert (Fr : frag false (concat (h_content h)) (paper_text mid) false).
  { rewrite A1, Q1, concat_app. cbn [concat]. rewrite app_nil_r. exact (frag_app _ _ _ _ _ _ _ (frag_first x0) A2). }
  destruct Fr as (Fc & t & Et & Nt). exists (concat (h_content h)), (sat_sub (get_y x) (h_last_y h)). split.
  - rewrite <- Em. unfold number. rewrite <- ends_count, <- L, Ed, nth_error_app2, Nat.sub_diag by lia. cbn [nth_error]. rewrite (document_page _ _ _ C Fc). reflexivity.
  - unfold html_text. rewrite Et. exact Nt.
Qed.

(** Rows.  The content of a document is a paragraph for the blank paper at the top and one paragraph for
    each thing printed; each is as high as the thing, and the gap above it is the distance from
    the thing before.  When each thing is below the one before, a browser puts each where
    it was printed, and leaves as much blank paper below as was fed. *)
Theorem C44_rows : exists head tail, forall fo pn e bs s docs calls x rest boxes,
  bytes_ok bs = true -> render e bs renderer_new = Ok s -> render_html fo pn e bs = Ok docs -> base64_encoder pn ->
  rs_calls s = calls ++ (x, EEndRender) :: rest -> forallb plain_char (paper_text calls) = true ->
  Forall (fun c => snd c <> ERenderPage) calls -> Forall2 (fun ev b => box ev (fst b) (snd b)) (paper_calls calls) boxes ->
  exists ps, nth_error docs (number calls) =
      Some (page_around head tail (paper_style (Z.max 0 (get_y x - ends_at 108 boxes))) (concat (map para_html (mk_para 108 0 [] :: ps)))) /\
    map pa_height ps = map snd boxes /\ map pa_gap ps = gaps 108 boxes /\
    (stacked 108 boxes -> tops 0 (mk_para 108 0 [] :: ps) = 0 :: map fst boxes).
Proof.
  exists doc_head, doc_tail. intros fo pn e bs s docs calls x rest boxes B Es E B64 Ec Pl Np Bx.
  destruct (job_reach _ _ _ _ _ _ _ _ _ B Es E Ec) as (x0 & mid & h & later & Em & Y0 & (h0 & T & Q1 & Q2 & Q3) & Ed & L & C).
  destruct T as [(ps & A1 & A2 & A3) _].
  assert (Pl' : forallb plain_char (paper_text mid) = true) by (rewrite Em, !paper_text_silent in Pl by exact I; exact Pl).
  specialize (A2 B64 Pl').
  assert (Np' : Forall (fun c => snd c <> ERenderPage) mid).
  { rewrite Em in Np. apply Forall_cons_iff in Np. destruct Np as (_ & Np). apply Forall_cons_iff in Np. exact (proj2 Np). }
  assert (Bx' : Forall2 boxed (paper_calls mid) boxes).
  { rewrite Em, !paper_calls_cons in Bx. unfold prints in Bx. cbn [snd draws] in Bx. rewrite !andb_false_r in Bx. exact Bx. }
  destruct (A3 Np' _ Bx') as (H1 & H2 & H3). rewrite Q2, Y0 in H2, H3.
  exists ps.
  assert (Fc : Forall (fun c => c <> 123) (concat (h_content h))).
  { rewrite A1, Q1, concat_app. cbn [concat]. rewrite app_nil_r. exact (proj1 (frag_app _ _ _ _ _ _ _ (frag_first x0) A2)). }
  split; [|split; [exact H1 | split; [exact H2|]]].
  - unfold number. rewrite <- ends_count, <- L, Ed, nth_error_app2, Nat.sub_diag by lia. cbn [nth_error]. rewrite (document_page _ _ _ C Fc).
    rewrite H3, A1, Q1. unfold first_para. rewrite Y0. reflexivity.
  - intros S. cbn [tops pa_gap pa_height]. rewrite Z.add_0_r. apply (f_equal (cons 0)). rewrite Z.add_0_l. clear -H1 H2 S.
    revert boxes H1 H2 S. generalize 108 as y. induction ps as [|[ph pg pc] ps IH]; intros y boxes H1 H2 S; destruct boxes as [|[t hh] boxes]; try discriminate; [reflexivity|].
    cbn [map gaps pa_height pa_gap fst snd] in *. destruct S as (S1 & S2). injection H1 as -> H1. injection H2 as -> H2.
    cbn [tops pa_gap pa_height]. replace (y + Z.max 0 (t - y)) with t by lia. rewrite (IH _ _ H1 H2 S2). reflexivity.
Qed.

(** After a form feed: the next document begins with everything the one before shows. *)
Theorem C45_repeats : exists head tail, forall fo pn e bs s docs c1 x1 c2 x2 rest,
  bytes_ok bs = true -> render e bs renderer_new = Ok s -> render_html fo pn e bs = Ok docs -> base64_encoder pn ->
  rs_calls s = c1 ++ (x1, EEndRender) :: c2 ++ (x2, EEndRender) :: rest -> forallb plain_char (paper_text (rs_calls s)) = true ->
  exists content more b1 b2,
    nth_error docs (number c1) = Some (page_around head tail (paper_style b1) content) /\
    nth_error docs (number c1 + 1 + number c2) = Some (page_around head tail (paper_style b2) (content ++ more)) /\
    no_lf (html_text more) = no_lf (paper_text c2).
Proof.
  exists doc_head, doc_tail. intros fo pn e bs s docs c1 x1 c2 x2 rest B Es E B64 Ec Pl.
  unfold render_html in E. rewrite Es in E. cbn [bind] in E. apply bind_inv in E. destruct E as (hh & E & Ed). apply ok_inj in Ed. subst docs.
  pose proof (job_calls _ _ _ B Es) as F. destruct (job_shape e bs s B Es) as (y0 & y1 & l & n & Ec' & Nb & Ne).
  destruct c1 as [|[c0 e0] [|[c1 e1] mid]]; rewrite Ec in Ec'; cbn [app] in Ec'; [discriminate | injection Ec' as _ _ _ D; discriminate |].
  injection Ec' as -> -> -> -> El. rewrite Ec in E, F, Pl. clear Ec.
  apply Forall_app in F. destruct F as (Fc & F). apply Forall_cons_iff in F. destruct F as (Fx1 & F). apply Forall_app in F. destruct F as (F2 & F).
  apply Forall_cons_iff in F. destruct F as (Fx2 & Fr).
  apply Forall_cons_iff in Fc. destruct Fc as (F0 & Fc). apply Forall_cons_iff in Fc. destruct Fc as (F1 & Fm).
  assert (Nb' : ev_begins mid = 0%nat /\ ev_begins c2 = 0%nat /\ ev_begins rest = 0%nat).
  { rewrite <- El, ev_begins_app in Nb. change ((x1, EEndRender) :: c2 ++ (x2, EEndRender) :: rest) with ([(x1, EEndRender)] ++ c2 ++ [(x2, EEndRender)] ++ rest) in Nb.
    rewrite !ev_begins_app in Nb. lia. }
  destruct Nb' as (Nm & N2 & Nr).
  apply html_calls_app in E. destruct E as (h & E & Er).
  unfold html_calls in E. cbn [fold_res fst snd html_event] in E. cbn [bind] in E. apply bind_inv in E. destruct E as (h0 & E0 & E).
  apply html_begin_inv in E0; [|exact (proj1 F1)]. destruct E0 as (Q1 & Q2 & Q3). cbn [html_new h_out] in Q3.
  destruct (html_told fo pn mid h0 h Fm (no_begins _ Nm) E) as [(ps & A1 & A2 & _) (d & Od & Ld)].
  unfold html_calls in Er. cbn [fold_res fst snd html_event bind] in Er.
  apply html_calls_app in Er. destruct Er as (h2 & E2 & Er).
  destruct (html_told fo pn c2 _ h2 F2 (no_begins _ N2) E2) as [(ps2 & A1' & A2' & _) (d2 & Od2 & Ld2)]. cbn [html_end h_content h_out] in A1', Od2.
  unfold html_calls in Er. cbn [fold_res fst snd html_event bind] in Er.
  destruct (html_told fo pn rest _ hh Fr (no_begins _ Nr) Er) as [_ (later & Ol & _)]. cbn [html_end h_out] in Ol.
  rewrite paper_text_app, !paper_text_silent in Pl by exact I. rewrite paper_text_app in Pl. rewrite !forallb_app in Pl.
  apply andb_prop in Pl. destruct Pl as (P1 & Pl). apply andb_prop in Pl. destruct Pl as (P2 & _).
  specialize (A2 B64 P1). specialize (A2' B64 P2).
  assert (Fc1 : frag false (concat (h_content h)) (paper_text mid) false).
  { rewrite A1, Q1, concat_app. cbn [concat]. rewrite app_nil_r. exact (frag_app _ _ _ _ _ _ _ (frag_first y1) A2). }
  exists (concat (h_content h)), (concat (map para_html ps2)), (sat_sub (get_y x1) (h_last_y h)), (sat_sub (get_y x2) (h_last_y h2)).
  assert (L1 : number ((y0, EDevice BeginPrint) :: (y1, EBeginRender) :: mid) = length d) by (unfold number; rewrite <- ends_count, Ld; reflexivity).
  assert (L2 : number c2 = length d2) by (unfold number; now rewrite <- ends_count, Ld2).
  assert (O : h_out hh = d ++ [document x1 (h_content h) (sat_sub (get_y x1) (h_last_y h))] ++ d2 ++ document x2 (h_content h2) (sat_sub (get_y x2) (h_last_y h2)) :: later).
  { rewrite Ol, Od2, Od, Q3. cbn [app]. rewrite <- !app_assoc. reflexivity. }
  rewrite O, L1, L2. split; [|split].
  - rewrite nth_error_app2, Nat.sub_diag by lia. cbn [nth_error app]. rewrite (document_page _ _ _ (proj1 Fx1) (proj1 Fc1)). reflexivity.
  - rewrite nth_error_app2 by lia. rewrite nth_error_app2 by (cbn [length]; lia). rewrite nth_error_app2 by (cbn [length]; lia). cbn [length].
    replace (length d + 1 + length d2 - length d - 1 - length d2)%nat with 0%nat by lia. cbn [nth_error].
    pose proof (frag_app _ _ _ _ _ _ _ Fc1 A2') as F12. rewrite <- concat_app, <- A1' in F12. rewrite (document_page _ _ _ (proj1 Fx2) (proj1 F12)).
    rewrite A1', concat_app. reflexivity.
  - destruct A2' as (_ & t & Et & Nt). unfold html_text. rewrite Et. exact Nt.
Qed.

(** The number of documents: one more than there are form feeds outside page mode. *)
Theorem C43_number_of_documents : forall fo pn e bs cmds docs,
  bytes_ok bs = true -> parse_esc_pos bs = Ok cmds -> render_html fo pn e bs = Ok docs -> length docs = S (sheets false cmds).
Proof.
  intros fo pn e bs cmds docs B P E. unfold render_html in E. apply bind_inv in E. destruct E as (s & Es & E). apply bind_inv in E. destruct E as (hh & E & Ed).
  apply ok_inj in Ed. subst docs. pose proof (job_calls _ _ _ B Es) as F. destruct (job_shape e bs s B Es) as (y0 & y1 & l & n & Ec & Nb & Ne).
  assert (R : run_commands e cmds renderer_new = Ok s) by (unfold render in Es; rewrite P in Es; exact Es).
  destruct (C31_outputs e bs cmds renderer_new s B P R) as (l' & N & Ce & _). apply new_calls_all in N.
  rewrite <- N, <- ends_count, Ec in Ce. rewrite Ec in E, F. apply Forall_cons_iff in F. destruct F as (F0 & F). apply Forall_cons_iff in F. destruct F as (F1 & Fl).
  unfold html_calls in E. cbn [fold_res fst snd html_event] in E. cbn [bind] in E. apply bind_inv in E. destruct E as (h0 & E0 & E).
  apply html_begin_inv in E0; [|exact (proj1 F1)]. destruct E0 as (_ & _ & Q3).
  destruct (html_told fo pn l h0 hh Fl (no_begins _ Nb) E) as [_ (d & Od & Ld)]. rewrite Od, Q3. cbn [html_new h_out app]. rewrite Ld. exact Ce.
Qed.

Lemma outside_all l : Forall in_standard l -> outside_page l = l.
Proof.
  induction 1 as [|c l H F IH]; [reflexivity|]. unfold outside_page in *. cbn [filter]. unfold in_standard in H. rewrite H. cbn [negb]. now rewrite IH.
Qed.
(** A job that never turns page mode on: the last document shows every character the job prints, once
    and in order, as long as none has a meaning in HTML or in the template. *)
Theorem C43_standard_job : exists head tail, forall fo pn e bs cmds docs,
  bytes_ok bs = true -> parse_esc_pos bs = Ok cmds -> Forall (fun c => c_commands c <> [27; 76]) cmds ->
  render_html fo pn e bs = Ok docs -> base64_encoder pn ->
  forallb plain_char (map snd (typed_run e cmds renderer_new)) = true ->
  exists earlier content below, docs = earlier ++ [page_around head tail (paper_style below) content] /\
    length earlier = sheets false cmds /\
    no_lf (html_text content) = no_lf (map snd (typed_run e cmds renderer_new)).
Proof.
  destruct C43_document_text as (head & tail & D). exists head, tail. intros fo pn e bs cmds docs B P NL E B64 Pl.
  assert (Es : exists s, render e bs renderer_new = Ok s). { unfold render_html in E. apply bind_inv in E. destruct E as (s & Es & _). eauto. }
  destruct Es as (s & Es). pose proof (C43_number_of_documents _ _ _ _ _ _ B P E) as Ln.
  assert (R : run_commands e cmds renderer_new = Ok s) by (unfold render in Es; rewrite P in Es; exact Es).
  assert (F : Forall sent cmds). { apply Forall_forall. intros c Hc. exists bs, cmds. auto. }
  pose proof (flat_run _ _ _ _ F NL flat_new R) as (_ & Fl).
  assert (Hn : history e renderer_new) by (exists []; split; [constructor | reflexivity]).
  pose proof (C32_every_character_once e bs renderer_new s cmds Hn eq_refl B P Es) as T.
  change (drawn (rs_calls renderer_new)) with (@nil ink) in T. cbn [app] in T.
  destruct (C31_framed e bs renderer_new s B eq_refl Es) as (_ & mid & N). apply new_calls_all in N.
  rewrite !app_assoc in N. change [EDevice EndPrint; EGetErrors; EEndRender] with ([EDevice EndPrint; EGetErrors] ++ [EEndRender]) in N. rewrite app_assoc in N.
  destruct (exists_last (l := rs_calls s)) as (calls & last & El). { intros Z. rewrite Z in N. apply (f_equal (@length _)) in N. rewrite app_length in N. cbn [map length] in N. lia. }
  rewrite El, map_app in N. cbn [map] in N. apply app_inj_tail in N. destruct N as (N & Nl). destruct last as [x ev]. cbn [snd] in Nl. subst ev.
  assert (PT : paper_text (rs_calls s) = map snd (typed_run e cmds renderer_new)) by (unfold paper_text; rewrite (outside_all _ Fl), T; reflexivity).
  assert (PC : paper_text calls = map snd (typed_run e cmds renderer_new)).
  { rewrite <- PT, El, paper_text_app, paper_text_silent by exact I. unfold paper_text at 3. cbn. now rewrite app_nil_r. }
  rewrite <- PC in Pl |- *. destruct (D fo pn e bs s docs calls x [] B Es E B64 El Pl) as (content & below & A1 & A2).
  destruct (C31_outputs e bs cmds renderer_new s B P R) as (l' & Nc & Ce & _). apply new_calls_all in Nc. rewrite <- Nc, El, map_app in Ce.
  unfold count in Ce. rewrite filter_app, app_length in Ce. cbn [map snd filter ends_output length] in Ce. fold (count ends_output (map snd calls)) in Ce. fold (number calls) in Ce.
  change (p_enabled (c_page (rs_ctx renderer_new))) with false in Ce.
  exists (firstn (number calls) docs), content, below. split; [|split; [rewrite firstn_length; lia | exact A2]].
  apply nth_error_split in A1. destruct A1 as (l1 & l2 & -> & L1). rewrite app_length in Ln. cbn [length] in Ln.
  destruct l2; [|cbn [length] in Ln; lia]. rewrite <- L1, firstn_app, firstn_all, Nat.sub_diag. cbn [firstn]. now rewrite app_nil_r.
Qed.

(** ** C46: images without pixels *)
Lemma html_images fo pn l : forall s s', html_calls fo pn l s = Ok s' ->
  Forall (fun c => match snd c with EImage i => p_enabled (c_page (fst c)) = false -> pn (i_w i) (i_h i) (as_rgba_u8 i) <> None | _ => True end) l.
Proof.
  induction l as [|[x ev] l IH]; intros s s' E; [constructor|]. unfold html_calls in E. cbn [fold_res fst snd] in E. apply bind_inv in E. destruct E as (s1 & E1 & E).
  constructor; [|exact (IH _ _ E)]. destruct ev; cbn [snd]; try exact I. intros P. cbn [html_event fst] in *. rewrite P in E1.
  apply bind_inv in E1. destruct E1 as (r & Er & _). unfold encode_html_image in Er. destruct (pn _ _ _); [discriminate | discriminate].
Qed.
(** A job that prints an image without pixels outside page mode never gives HTML. *)
Theorem C46_empty_image_stops : forall fo pn e bs s x i,
  refuses_empty pn -> render e bs renderer_new = Ok s -> In (x, EImage i) (rs_calls s) -> p_enabled (c_page x) = false -> i_w i = 0 \/ i_h i = 0 ->
  forall docs, render_html fo pn e bs <> Ok docs.
Proof.
  intros fo pn e bs s x i R Es Hi P Z docs E. unfold render_html in E. rewrite Es in E. cbn [bind] in E. apply bind_inv in E. destruct E as (h & E & _).
  apply html_images in E. rewrite Forall_forall in E. specialize (E _ Hi). cbn [fst snd] in E. exact (E P (R _ _ _ Z)).
Qed.

(** ** Examples *)
Definition no_glyphs : fonts := fun _ _ _ _ _ => None.
(** an encoder that refuses images without pixels *)
Definition png_demo : pngs := fun w h _ => if (w =? 0) || (h =? 0) then None else Some (str "iVBORw0KGgo").
Lemma png_demo_base64 : base64_encoder png_demo.
Proof. intros w h px d E. unfold png_demo in E. destruct (_ || _); [discriminate|]. injection E as <-. reflexivity. Qed.
Lemma png_demo_refuses : refuses_empty png_demo.
Proof. intros w h px [-> | ->]; unfold png_demo; [reflexivity|]. now rewrite Z.eqb_refl, orb_true_r. Qed.
Definition page (below : Z) (ps : list para) : list Z := page_around doc_head doc_tail (paper_style below) (concat (map para_html ps)).
(** a bold line, a feed, an image and a second line *)
Definition html_job : list Z := [27; 69; 1; 65; 66; 10; 27; 69; 0; 27; 74; 30; 29; 118; 48; 0; 1; 0; 2; 0; 170; 85; 67; 10].
Example C43_demo : render_html no_glyphs png_demo no_encoders1 html_job = Ok [page 0
  [mk_para 108 0 []; mk_para 24 0 (str "<span style='left: 0px; top: 0px' class='b'>AB</span>");
   mk_para 2 30 (str "<img style='left: 0px;' class='img' width='8' src='data:image/png;base64, iVBORw0KGgo' />");
   mk_para 24 0 (str "<span style='left: 0px; top: 0px' class=''>C</span>")]].
Proof. vm_compute. reflexivity. Qed.
(** The hypotheses of C43 and C44 hold for it: nothing but plain characters, and the boxes are stacked. *)
Example C44_demo : exists s, render no_encoders1 html_job renderer_new = Ok s /\ paper_text (rs_calls s) = [65; 66; 67] /\
  Forall (fun c => snd c <> ERenderPage) (rs_calls s) /\
  Forall2 (fun ev b => box ev (fst b) (snd b)) (paper_calls (rs_calls s)) [(108, 24); (162, 2); (164, 24)] /\ stacked 108 [(108, 24); (162, 2); (164, 24)].
Proof.
  set (shape := fun ev : event => match ev with
    | EImage i => [1; i_y i; i_h i] | EText [s] _ _ _ => [2; span_top s; s_character_height s] | ERenderPage => [3] | _ => [] end).
  assert (V : (do s <- render no_encoders1 html_job renderer_new;
               Ok (paper_text (rs_calls s), map shape (paper_calls (rs_calls s)), existsb (fun c => match snd c with ERenderPage => true | _ => false end) (rs_calls s)))
              = Ok ([65; 66; 67], [[2; 108; 24]; [1; 162; 2]; [2; 164; 24]], false)) by (vm_compute; reflexivity).
  destruct (render no_encoders1 html_job renderer_new) as [s|]; [|discriminate]. exists s. split; [reflexivity|]. cbn [bind] in V.
  assert (V1 : paper_text (rs_calls s) = [65; 66; 67]) by congruence.
  assert (V2 : map shape (paper_calls (rs_calls s)) = [[2; 108; 24]; [1; 162; 2]; [2; 164; 24]]) by congruence.
  assert (V3 : existsb (fun c => match snd c with ERenderPage => true | _ => false end) (rs_calls s) = false) by congruence.
  clear V. split; [exact V1|]. split; [|split].
  - apply Forall_forall. intros c Hc E. enough (X : existsb (fun c => match snd c with ERenderPage => true | _ => false end) (rs_calls s) = true) by congruence.
    apply existsb_exists. exists c. split; [exact Hc | now rewrite E].
  - assert (T : forall ev a b, shape ev = [2; a; b] -> box ev a b).
    { intros ev a b E. destruct ev as [| | | | | | | |[|sp [|? ?]] off mh j| |]; cbn in E; try discriminate. injection E as <- <-. cbn [box map].
      split; [discriminate|]. split; split; try (left; reflexivity); repeat constructor; apply Z.le_refl. }
    assert (J : forall ev a b, shape ev = [1; a; b] -> box ev a b).
    { intros ev a b E. destruct ev as [| | | | | | |i|[|sp [|? ?]] off mh j| |]; cbn in E; try discriminate. injection E as <- <-. split; reflexivity. }
    destruct (paper_calls (rs_calls s)) as [|e1 [|e2 [|e3 [|? ?]]]]; try discriminate. cbn [map] in V2. injection V2 as W1 W2 W3.
    constructor; [exact (T _ _ _ W1)|]. constructor; [exact (J _ _ _ W2)|]. constructor; [exact (T _ _ _ W3) | constructor].
  - cbn. lia.
Qed.
(** Two words printed on one line with ESC $ between them are shown one below the other. *)
Theorem C44_same_line_refuted : exists bs, bytes_ok bs = true /\
  (exists s, render no_encoders1 bs renderer_new = Ok s /\ map span_top (concat (map fst (lines_of (rs_calls s)))) = [108; 108]) /\
  exists ps, render_html no_glyphs png_demo no_encoders1 bs = Ok [page 0 ps] /\ tops 0 ps = [0; 108; 132].
Proof.
  exists [65; 27; 36; 100; 0; 66; 10]. split; [reflexivity|]. split.
  - assert (V : (do s <- render no_encoders1 [65; 27; 36; 100; 0; 66; 10] renderer_new; Ok (map span_top (concat (map fst (lines_of (rs_calls s)))))) = Ok [108; 108])
      by (vm_compute; reflexivity).
    destruct (render _ _ _) as [s|]; [|discriminate]. exists s. split; [reflexivity|]. cbn [bind] in V. congruence.
  - exists [mk_para 108 0 []; mk_para 24 0 (str "<span style='left: 0px; top: 0px' class=''>A</span>");
            mk_para 24 0 (str "<span style='left: 100px; top: 0px' class=''>B</span>")]. vm_compute. auto.
Qed.
(** Each form feed gives one more copy. *)
Example C45_demo : render_html no_glyphs png_demo no_encoders1 [65; 10; 12; 66; 10] =
  let a := mk_para 24 0 (str "<span style='left: 0px; top: 0px' class=''>A</span>") in
  let b := mk_para 24 0 (str "<span style='left: 0px; top: 0px' class=''>B</span>") in
  Ok [page 0 [mk_para 108 0 []; a]; page 0 [mk_para 108 0 []; a; b]].
Proof. vm_compute. reflexivity. Qed.
(** Markup in the text is not escaped: it becomes part of the document. *)
Theorem C43_markup_refuted : exists bs before after, bs = str "<script>alert(1)</script>" ++ [10] /\
  render_html no_glyphs png_demo no_encoders1 bs = Ok [before ++ str "<script>alert(1)</script>" ++ after].
Proof.
  exists (str "<script>alert(1)</script>" ++ [10]).
  exists (doc_head ++ paper_style 0 ++ str """><article>" ++ para_html (mk_para 108 0 []) ++
    str "<p style='height: 24px; margin-top: 0px'><span style='left: 0px; top: 0px' class=''>"), (str "</span></p></article>" ++ doc_tail).
  split; [reflexivity | vm_compute; reflexivity].
Qed.
(** The name of a placeholder in the text is replaced. *)
Theorem C43_placeholder_refuted :
  render_html no_glyphs png_demo no_encoders1 (str "{{receipt-style}}" ++ [10]) = 
  Ok [page 0 [mk_para 108 0 []; mk_para 24 0 (str "<span style='left: 0px; top: 0px' class=''>" ++ paper_style 0 ++ str "</span>")]].
Proof. vm_compute. reflexivity. Qed.
(** GS v 0 with a width of zero bytes: the image renderer gives a receipt, the HTML renderer panics;
    and so does the HTML of a page printed before its area was set (ESC L A FF). *)
Theorem C46_stops_refuted : exists pn, base64_encoder pn /\ refuses_empty pn /\
  (exists im, render_images no_glyphs no_encoders1 [29; 118; 48; 0; 0; 0; 1; 0] = Ok im) /\
  render_html no_glyphs pn no_encoders1 [29; 118; 48; 0; 0; 0; 1; 0] = Panic PUnwrap /\
  (exists im, render_images no_glyphs no_encoders1 [27; 76; 65; 12] = Ok im) /\
  render_html no_glyphs pn no_encoders1 [27; 76; 65; 12] = Panic PUnwrap.
Proof.
  exists png_demo. split; [exact png_demo_base64|]. split; [exact png_demo_refuses|].
  assert (A : forall bs, match render_images no_glyphs no_encoders1 bs with Ok _ => true | Panic _ => false end = true -> exists im, render_images no_glyphs no_encoders1 bs = Ok im).
  { intros bs H. destruct (render_images no_glyphs no_encoders1 bs) as [im|]; [exists im; reflexivity | discriminate]. }
  split; [apply A; vm_compute; reflexivity|]. split; [vm_compute; reflexivity|]. split; [apply A; vm_compute; reflexivity | vm_compute; reflexivity].
Qed.

Print Assumptions C43_document_text.
Print Assumptions C43_standard_job.
Print Assumptions C43_number_of_documents.
Print Assumptions C44_rows.
Print Assumptions C45_repeats.
Print Assumptions C46_empty_image_stops.
