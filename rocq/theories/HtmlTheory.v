(** * HtmlTheory: strings, HTML and rows. *)
From Verif Require Import Base Command Vec Float32 GTypes Graphics Context Handlers Renderer StateTheory AreaTheory CallsTheory
  SpecRender ThermalImage CanvasRect ImageRenderer ThermalFile HtmlTemplate HtmlRenderer SpecHtml.
Local Open Scope Z_scope.
Local Open Scope list_scope.

(** ** Replacing *)
Lemma starts_with_skip p l : starts_with p l = true -> (length p <= length l)%nat.
Proof.
  revert l. induction p as [|x p IH]; intros l H; cbn; [lia|]. destruct l as [|y l]; [discriminate|]. cbn in H.
  apply andb_prop in H. destruct H as (_ & H). specialize (IH _ H). cbn. lia.
Qed.
Lemma replace_fuel pat rep : pat <> [] -> forall n l, (length l <= n)%nat -> replace_from n pat rep l = replace_str pat rep l.
Proof.
  intros NP. assert (A : forall m n l, (length l <= n)%nat -> (length l <= m)%nat -> replace_from n pat rep l = replace_from m pat rep l).
  { induction m as [|m IH]; intros n l L1 L2.
    - destruct l; [|cbn in L2; lia]. destruct n; reflexivity.
    - destruct l as [|c r]; [destruct n; reflexivity|]. destruct n as [|n]; [cbn in L1; lia|]. cbn [replace_from]. cbn [length] in L1, L2.
      destruct (starts_with pat (c :: r)).
      + f_equal. assert (K : (length (skipn (length pat) (c :: r)) <= length r)%nat).
        { rewrite skipn_length. destruct pat; [congruence|]. cbn [length]. lia. }
        apply IH; lia.
      + f_equal. apply IH; lia. }
  intros n l L. unfold replace_str. apply A; lia.
Qed.
Lemma replace_cons pat rep c r : pat <> [] -> replace_str pat rep (c :: r) =
  if starts_with pat (c :: r) then rep ++ replace_str pat rep (skipn (length pat) (c :: r)) else c :: replace_str pat rep r.
Proof.
  intros NP. unfold replace_str at 1. cbn [length replace_from]. destruct (starts_with pat (c :: r)).
  - apply (f_equal (app rep)). apply replace_fuel; [exact NP|]. rewrite skipn_length. destruct pat; [congruence|]. cbn [length]. lia.
  - apply (f_equal (cons c)). apply replace_fuel; [exact NP | lia].
Qed.
Lemma starts_with_cut p c X Y : ~ In c p -> starts_with p (X ++ c :: Y) = starts_with p X.
Proof.
  revert X. induction p as [|x p IH]; intros X N; [reflexivity|]. destruct X as [|y X]; cbn [app starts_with].
  - replace (x =? c) with false; [reflexivity|]. symmetry. apply Z.eqb_neq. intros ->. apply N. now left.
  - rewrite IH; [reflexivity|]. intros H. apply N. now right.
Qed.
(** a character that does not occur in the pattern separates *)
Lemma replace_cut pat rep c : pat <> [] -> ~ In c pat -> forall X Y,
  replace_str pat rep (X ++ c :: Y) = replace_str pat rep X ++ c :: replace_str pat rep Y.
Proof.
  intros NP N. assert (A : forall n X, (length X <= n)%nat -> forall Y, replace_str pat rep (X ++ c :: Y) = replace_str pat rep X ++ c :: replace_str pat rep Y).
  { induction n as [|n IH]; intros X L Y.
    - destruct X; [|cbn in L; lia]. cbn [app]. rewrite replace_cons by exact NP. change (c :: Y) with ([] ++ c :: Y) at 1.
      rewrite starts_with_cut by exact N. destruct pat; [congruence|]. reflexivity.
    - destruct X as [|a X].
      + cbn [app]. rewrite replace_cons by exact NP. change (c :: Y) with ([] ++ c :: Y) at 1.
        rewrite starts_with_cut by exact N. destruct pat; [congruence|]. reflexivity.
      + cbn [app]. rewrite !replace_cons by exact NP. change (a :: X ++ c :: Y) with ((a :: X) ++ c :: Y). rewrite starts_with_cut by exact N.
        destruct (starts_with pat (a :: X)) eqn:S.
        * pose proof (starts_with_skip _ _ S) as K. rewrite skipn_app. replace (length pat - length (a :: X))%nat with 0%nat by lia.
          cbn [skipn]. rewrite IH; [now rewrite app_assoc|]. rewrite skipn_length. destruct pat; [congruence|]. cbn [length] in *. lia.
        * cbn [length] in L. cbn [app]. rewrite IH by lia. reflexivity. }
  intros X Y. exact (A (length X) X (Nat.le_refl _) Y).
Qed.
Lemma replace_none p0 pat rep l : Forall (fun c => c <> p0) l -> replace_str (p0 :: pat) rep l = l.
Proof.
  induction 1 as [|c l N F IH]; [reflexivity|]. rewrite replace_cons by discriminate. cbn [starts_with].
  replace (p0 =? c) with false by (symmetry; apply Z.eqb_neq; congruence). cbn [andb]. rewrite IH. reflexivity.
Qed.
Lemma replace_all pat rep : pat <> [] -> starts_with pat pat = true -> replace_str pat rep pat = rep.
Proof.
  intros NP S. destruct pat as [|a r] eqn:E; [congruence|]. rewrite replace_cons by discriminate. rewrite S, skipn_all. cbn. now rewrite app_nil_r.
Qed.

(** ** The document *)
Definition fill (colors : render_colors) : list Z :=
  replace_str (str "{{color-3}}") (as_hex (rc_color_3 colors))
    (replace_str (str "{{color-2}}") (as_hex (rc_color_2 colors))
      (replace_str (str "{{color-1}}") (as_hex (rc_color_1 colors))
        (replace_str (str "{{color-0}}") (as_hex (rc_paper_color colors)) TEMPLATE))).
Definition color_filled : list Z := fill default_colors.
Lemma document_fill x content padding : document x content padding =
  replace_str (str "{{receipt-style}}") (receipt_style x padding) (replace_str (str "{{content}}") (concat content) (fill (g_render_colors (c_graphics x)))).
Proof. unfold document, fill. cbv zeta. reflexivity. Qed.
(** position of a pattern *)
Fixpoint find_at (pat l : list Z) : nat :=
  match l with [] => 0 | _ :: r => if starts_with pat l then 0 else S (find_at pat r) end.
Definition doc_head : list Z := firstn (find_at (str "{{receipt-style}}") color_filled) color_filled.
Definition doc_tail : list Z := skipn (find_at (str "{{content}}") color_filled + 11 + 10) color_filled.
Definition doc_open : list Z := firstn (length doc_head - 1) doc_head.
Lemma color_split : fill default_colors = doc_open ++ 34 :: str "{{receipt-style}}" ++ 34 :: [] ++ 62 :: str "<article" ++ 62 :: str "{{content}}" ++ 60 :: str "/article>" ++ doc_tail.
Proof. vm_compute. reflexivity. Qed.
Lemma open_head : doc_open ++ [34] = doc_head.
Proof. vm_compute. reflexivity. Qed.
Lemma open_content rep : replace_str (str "{{content}}") rep doc_open = doc_open.
Proof. vm_compute. reflexivity. Qed.
Lemma open_style rep : replace_str (str "{{receipt-style}}") rep doc_open = doc_open.
Proof. vm_compute. reflexivity. Qed.
Lemma tail_content rep : replace_str (str "{{content}}") rep (str "/article>" ++ doc_tail) = str "/article>" ++ doc_tail.
Proof. vm_compute. reflexivity. Qed.
Lemma tail_style rep : replace_str (str "{{receipt-style}}") rep (str "/article>" ++ doc_tail) = str "/article>" ++ doc_tail.
Proof. vm_compute. reflexivity. Qed.
Lemma not_in_by c l : existsb (Z.eqb c) l = false -> ~ In c l.
Proof. intros E H. enough (existsb (Z.eqb c) l = true) by congruence. apply existsb_exists. exists c. split; [exact H | apply Z.eqb_refl]. Qed.

Lemma fixed_none l p0 pat rep : forallb (fun c => negb (c =? p0)) l = true -> replace_str (p0 :: pat) rep l = l.
Proof. intros F. apply replace_none. apply Forall_forall. intros c Hc. rewrite forallb_forall in F. specialize (F _ Hc). lia. Qed.
Lemma style_kept cc : replace_str (str "{{content}}") cc (str "{{receipt-style}}") = str "{{receipt-style}}".
Proof. reflexivity. Qed.
Lemma filled op tl st cc :
  (forall rep, replace_str (str "{{content}}") rep op = op) -> (forall rep, replace_str (str "{{receipt-style}}") rep op = op) ->
  (forall rep, replace_str (str "{{content}}") rep tl = tl) -> (forall rep, replace_str (str "{{receipt-style}}") rep tl = tl) ->
  Forall (fun c => c <> 123) cc ->
  replace_str (str "{{receipt-style}}") st (replace_str (str "{{content}}") cc
    (op ++ 34 :: str "{{receipt-style}}" ++ 34 :: [] ++ 62 :: str "<article" ++ 62 :: str "{{content}}" ++ 60 :: tl)) =
  op ++ 34 :: st ++ 34 :: [] ++ 62 :: str "<article" ++ 62 :: cc ++ 60 :: tl.
Proof.
  intros O1 O2 T1 T2 F.
  assert (P1 : str "{{content}}" <> []) by discriminate. assert (P2 : str "{{receipt-style}}" <> []) by discriminate.
  assert (N1 : ~ In 34 (str "{{content}}")) by (apply not_in_by; reflexivity).
  assert (N2 : ~ In 62 (str "{{content}}")) by (apply not_in_by; reflexivity).
  assert (N3 : ~ In 60 (str "{{content}}")) by (apply not_in_by; reflexivity).
  assert (M1 : ~ In 34 (str "{{receipt-style}}")) by (apply not_in_by; reflexivity).
  assert (M2 : ~ In 62 (str "{{receipt-style}}")) by (apply not_in_by; reflexivity).
  assert (M3 : ~ In 60 (str "{{receipt-style}}")) by (apply not_in_by; reflexivity).
  rewrite (replace_cut _ cc 34 P1 N1), O1. rewrite (replace_cut _ cc 34 P1 N1), style_kept.
  rewrite (replace_cut _ cc 62 P1 N2). rewrite (replace_cut _ cc 62 P1 N2). rewrite (replace_cut _ cc 60 P1 N3), T1.
  rewrite (replace_all (str "{{content}}")) by (try exact P1; reflexivity).
  assert (E1 : replace_str (str "{{content}}") cc [] = []) by reflexivity.
  assert (E2 : replace_str (str "{{content}}") cc (str "<article") = str "<article") by (apply fixed_none; reflexivity).
  rewrite E1, E2.
  rewrite (replace_cut _ st 34 P2 M1), O2. rewrite (replace_cut _ st 34 P2 M1).
  rewrite (replace_cut _ st 62 P2 M2). rewrite (replace_cut _ st 62 P2 M2). rewrite (replace_cut _ st 60 P2 M3), T2.
  rewrite (replace_all (str "{{receipt-style}}")) by (try exact P2; reflexivity).
  assert (E3 : replace_str (str "{{receipt-style}}") st [] = []) by reflexivity.
  assert (E4 : replace_str (str "{{receipt-style}}") st (str "<article") = str "<article") by (apply fixed_none; reflexivity).
  assert (E5 : replace_str (str "{{receipt-style}}") st cc = cc) by exact (replace_none 123 (str "{receipt-style}}") st cc F).
  rewrite E3, E4, E5. reflexivity.
Qed.
Lemma page_shape op tl st cc : op ++ 34 :: st ++ 34 :: [] ++ 62 :: str "<article" ++ 62 :: cc ++ 60 :: str "/article>" ++ tl =
  page_around (op ++ [34]) tl st cc.
Proof.
  unfold page_around. rewrite <- (app_assoc op [34]). apply (f_equal (app op)). cbn [app]. apply (f_equal (cons 34)). apply (f_equal (app st)).
  reflexivity.
Qed.
(** the document is the page around the content when the content has no curly bracket *)
Lemma document_page x content padding : cinv x -> Forall (fun c => c <> 123) (concat content) ->
  document x content padding = page_around doc_head doc_tail (paper_style padding) (concat content).
Proof.
  intros C F. rewrite document_fill, (gk_colors _ (si_graphics _ (ci_s _ C))). rewrite color_split.
  set (cc := concat content) in *. clearbody cc.
  assert (S : receipt_style x padding = paper_style padding).
  { unfold receipt_style. cbv zeta. rewrite (gk_paper _ (si_graphics _ (ci_s _ C))). unfold paper_style.
    replace (a_w (g_paper_area default_graphics)) with 649 by (vm_compute; reflexivity).
    replace (a_x (g_paper_area default_graphics)) with 20 by (vm_compute; reflexivity).
    replace (a_y (g_paper_area default_graphics)) with 20 by (vm_compute; reflexivity). reflexivity. }
  rewrite S. rewrite (filled _ _ _ _ open_content open_style tail_content tail_style F). rewrite page_shape, open_head. reflexivity.
Qed.

Lemma ok_inj {A} (a b : A) : Ok a = Ok b -> a = b.
Proof. congruence. Qed.

(** ** Reading HTML *)
Lemma read_app a : forall b l, read_html b (a ++ l) = let '(t, m) := read_html b a in let '(t', m') := read_html m l in (t ++ t', m').
Proof.
  induction a as [|c a IH]; intros b l; cbn [app read_html].
  - destruct (read_html b l). reflexivity.
  - destruct b; [apply IH|]. destruct (c =? 60); [apply IH|]. rewrite IH. destruct (read_html false a) as [t m]. destruct (read_html m l). reflexivity.
Qed.
Lemma read_tag a : forallb (fun c => negb (c =? 62)) a = true -> read_html true a = ([], true).
Proof.
  induction a as [|c a IH]; intros F; [reflexivity|]. cbn in F |- *. apply andb_prop in F. destruct F as (F1 & F2). rewrite F1. exact (IH F2).
Qed.
Lemma no_lf_app a b : no_lf (a ++ b) = no_lf a ++ no_lf b.
Proof. apply filter_app. Qed.
(** a fragment: no curly bracket; read from [b] it leaves [m] and shows [t], up to line feeds *)
Definition frag (b : bool) (l t : list Z) (m : bool) : Prop :=
  Forall (fun c => c <> 123) l /\ exists t', read_html b l = (t', m) /\ no_lf t' = no_lf t.
Lemma frag_app b l t m l' t' m' : frag b l t m -> frag m l' t' m' -> frag b (l ++ l') (t ++ t') m'.
Proof.
  intros (F & u & E & N) (F' & u' & E' & N'). split; [apply Forall_app; auto|]. exists (u ++ u'). rewrite read_app, E, E'. split; [reflexivity|].
  rewrite !no_lf_app. congruence.
Qed.
Lemma frag_nil b : frag b [] [] b.
Proof. split; [constructor|]. exists []. auto. Qed.
(** inside a tag *)
Definition tag_char (c : Z) : bool := negb (c =? 62) && negb (c =? 123).
Lemma frag_tag l : forallb tag_char l = true -> frag true l [] true.
Proof.
  intros F. split.
  - apply Forall_forall. intros c Hc. rewrite forallb_forall in F. specialize (F _ Hc). unfold tag_char in F. lia.
  - exists []. split; [|reflexivity]. apply read_tag. rewrite forallb_forall in F |- *. intros c Hc. specialize (F _ Hc). unfold tag_char in F. lia.
Qed.
Lemma frag_text l : forallb plain_char l = true -> frag false l l false.
Proof.
  intros F. split.
  - apply Forall_forall. intros c Hc. rewrite forallb_forall in F. specialize (F _ Hc). unfold plain_char in F. lia.
  - exists l. split; [|reflexivity]. induction l as [|c l IH]; [reflexivity|]. cbn in F |- *. apply andb_prop in F. destruct F as (F1 & F2).
    unfold plain_char in F1. replace (c =? 60) with false by lia. rewrite (IH F2). reflexivity.
Qed.
(** fixed markup *)
Lemma frag_fixed b l m : forallb (fun c => negb (c =? 123)) l = true -> read_html b l = ([], m) -> frag b l [] m.
Proof.
  intros F E. split; [|exists []; auto]. apply Forall_forall. intros c Hc. rewrite forallb_forall in F. specialize (F _ Hc). lia.
Qed.
Lemma digits_range : forall f n, forallb (fun c => (48 <=? c) && (c <=? 57)) (digits f n) = true.
Proof.
  induction f as [|f IH]; intros n; [reflexivity|]. cbn [digits]. rewrite forallb_app. cbn [forallb]. pose proof (Z.mod_pos_bound n 10 ltac:(lia)).
  destruct (n <? 10); [cbn [forallb]|rewrite IH]; lia.
Qed.
Lemma forallb_imp {A} (f g : A -> bool) l : (forall a, f a = true -> g a = true) -> forallb f l = true -> forallb g l = true.
Proof. intros H F. rewrite forallb_forall in F |- *. auto. Qed.
Lemma frag_dec n : frag true (dec_u32 n) [] true.
Proof. apply frag_tag. refine (forallb_imp _ _ _ _ (digits_range 10 n)). intros c. unfold tag_char. lia. Qed.
Lemma frag_join sep (l : list (list Z)) (f : list Z -> list Z) :
  frag false sep [] false -> Forall (fun x => frag false x (f x) false) l -> frag false (join sep l) (flat_map f l) false.
Proof.
  intros S F. induction F as [|x l Fx F IH]; [apply frag_nil|]. destruct l as [|y l].
  - cbn [join flat_map]. rewrite app_nil_r. exact Fx.
  - change (join sep (x :: y :: l)) with (x ++ sep ++ join sep (y :: l)). change (flat_map f (x :: y :: l)) with (f x ++ [] ++ flat_map f (y :: l)).
    refine (frag_app _ _ _ _ _ _ _ Fx (frag_app _ _ _ _ _ _ _ S IH)).
Qed.
Ltac fixed := apply frag_fixed; reflexivity.
Lemma frag_lf : frag false [10] [] false.
Proof. split; [repeat constructor; discriminate|]. exists [10]. split; reflexivity. Qed.
Lemma frag_eq b l t t' m : frag b l t m -> t = t' -> frag b l t' m.
Proof. intros H <-. exact H. Qed.

Lemma frag_paragraph height gap content t : frag false content t false -> frag false (paragraph height gap content) t false.
Proof.
  intros F. unfold paragraph. eapply frag_eq.
  - eapply frag_app; [fixed|]. eapply frag_app; [apply frag_dec|]. eapply frag_app; [fixed|]. eapply frag_app; [apply frag_dec|].
    eapply frag_app; [fixed|]. eapply frag_app; [exact F | fixed].
  - cbn [app]. now rewrite app_nil_r.
Qed.
Lemma frag_image pn i r : base64_encoder pn -> encode_html_image pn i = Ok r -> frag false (row_content r) [] false.
Proof.
  intros B E. unfold encode_html_image in E. destruct (pn _ _ _) as [d|] eqn:Ed; [|discriminate]. apply ok_inj in E. subst r. cbn [row_content].
  specialize (B _ _ _ _ Ed). eapply frag_eq.
  - eapply frag_app; [fixed|]. eapply frag_app; [apply frag_dec|]. eapply frag_app; [fixed|]. eapply frag_app; [apply frag_dec|].
    eapply frag_app; [fixed|]. eapply frag_app; [apply frag_tag; refine (forallb_imp _ _ _ _ B); intros c; unfold base64_char, tag_char; lia | fixed].
  - reflexivity.
Qed.
Lemma frag_rect r x y : frag false (svg_rect r x y) [] false.
Proof.
  unfold svg_rect. eapply frag_eq.
  - eapply frag_app; [fixed|]. eapply frag_app; [apply frag_dec|]. eapply frag_app; [fixed|]. eapply frag_app; [apply frag_dec|].
    eapply frag_app; [fixed|]. eapply frag_app; [apply frag_dec|]. eapply frag_app; [fixed|]. eapply frag_app; [apply frag_dec | fixed].
  - reflexivity.
Qed.
Lemma flat_map_none {A B} (l : list A) : flat_map (fun _ => @nil B) l = [].
Proof. induction l; auto. Qed.
Lemma svg_lines mx my l : forall w h svg st, Forall (fun x => frag false x [] false) svg -> fold_res (svg_step mx my) l (w, h, svg) = Ok st ->
  Forall (fun x => frag false x [] false) (snd st).
Proof.
  induction l as [|r l IH]; intros w h svg st F E; cbn [fold_res] in E; [injection E as <-; exact F|].
  apply bind_inv in E. destruct E as ([[w1 h1] svg1] & E1 & E). unfold svg_step in E1. apply bind_inv in E1. destruct E1 as (xe & _ & E1).
  apply bind_inv in E1. destruct E1 as (ye & _ & E1). injection E1 as _ _ <-.
  refine (IH _ _ _ _ _ E). apply Forall_app. split; [exact F|]. constructor; [apply frag_rect | constructor].
Qed.
Lemma frag_svg l r : graphics_to_svg l = Ok r -> frag false (row_content r) [] false.
Proof.
  intros E. unfold graphics_to_svg in E. destruct l as [|a l]; [injection E as <-; apply frag_nil|]. cbv zeta in E.
  apply bind_inv in E. destruct E as ([[w h] svg] & E1 & E). apply ok_inj in E. subst r. cbn [row_content].
  apply svg_lines in E1; [|constructor]. cbn [snd] in E1.
  pose proof (frag_join [10] svg (fun _ => []) frag_lf E1) as J. rewrite flat_map_none in J. eapply frag_eq.
  - eapply frag_app; [fixed|]. eapply frag_app; [apply frag_dec|]. eapply frag_app; [fixed|]. eapply frag_app; [apply frag_dec|].
    eapply frag_app; [fixed|]. eapply frag_app; [apply frag_dec|]. eapply frag_app; [fixed|]. eapply frag_app; [exact J | fixed].
  - reflexivity.
Qed.
Lemma tag_join sep l : forallb tag_char sep = true -> Forall (fun x => forallb tag_char x = true) l -> forallb tag_char (join sep l) = true.
Proof.
  intros S F. induction F as [|x l Fx F IH]; [reflexivity|]. destruct l as [|y l]; [exact Fx|].
  change (join sep (x :: y :: l)) with (x ++ sep ++ join sep (y :: l)). rewrite !forallb_app, Fx, S, IH. reflexivity.
Qed.
Lemma if_class_tag b c : forallb tag_char (str c) = true -> Forall (fun x => forallb tag_char x = true) (if_class b c).
Proof. intros H. destruct b; repeat constructor. exact H. Qed.
Lemma opt_class_tag c : forallb tag_char c = true -> Forall (fun x => forallb tag_char x = true) (opt_class c).
Proof. intros H. destruct c; [constructor|]. cbn [opt_class]. repeat constructor. exact H. Qed.
Lemma stretch_tag a n : tag_char a = true -> forallb tag_char (stretch_class a n) = true.
Proof. intros H. unfold stretch_class. destruct ((2 <=? n) && (n <=? 8)) eqn:D; [|reflexivity]. cbn [forallb]. rewrite H. unfold tag_char. lia. Qed.
Lemma color_tag c k fg : forallb tag_char (color_to_class c k fg) = true.
Proof. unfold color_to_class. repeat match goal with |- context [if ?b then _ else _] => destruct b end; reflexivity. Qed.
Lemma classes_tag s k : Forall (fun x => forallb tag_char x = true) (span_classes s k).
Proof.
  unfold span_classes. cbv zeta. repeat (apply Forall_app; split); try (apply if_class_tag; reflexivity); try apply opt_class_tag; try apply color_tag;
    try (apply stretch_tag; reflexivity).
  - destruct (_ ++ _); repeat constructor.
  - destruct (s_font s); repeat constructor.
Qed.
Lemma frag_span k off mh s y l : forallb plain_char (s_text s) = true -> span_to_html k off mh s = Ok (y, l) -> frag false l (s_text s) false.
Proof.
  intros P E. unfold span_to_html in E. cbv zeta in E. destruct (match s_dimensions s with None => _ | _ => _ end) as [x0 y0].
  apply bind_inv in E. destruct E as (lp & _ & E). apply ok_inj in E. apply (f_equal snd) in E. cbn [snd] in E. subst l. eapply frag_eq.
  - eapply frag_app; [fixed|]. eapply frag_app; [apply frag_dec|]. eapply frag_app; [fixed|]. eapply frag_app; [apply frag_dec|].
    eapply frag_app; [fixed|]. eapply frag_app; [apply frag_tag, tag_join; [reflexivity | apply classes_tag]|].
    eapply frag_app; [fixed|]. eapply frag_app; [apply frag_text; exact P | fixed].
  - cbn [app]. now rewrite app_nil_r.
Qed.
Lemma spans_lines k off mh l : Forall (fun s => forallb plain_char (s_text s) = true) l -> forall h m html st,
  fold_res (spans_step k off mh) l (h, m, html) = Ok st ->
  exists new, snd st = html ++ new /\ Forall2 (fun x s => frag false x (s_text s) false) new l.
Proof.
  induction 1 as [|s l P F IH]; intros h m html st E; cbn [fold_res] in E.
  - injection E as <-. exists []. split; [cbn; now rewrite app_nil_r | constructor].
  - apply bind_inv in E. destruct E as ([[h1 m1] html1] & E1 & E). unfold spans_step in E1. apply bind_inv in E1. destruct E1 as ([y c] & E1 & E2).
    injection E2 as _ _ <-. destruct (IH _ _ _ _ E) as (new & -> & Fn). exists (c :: new). split; [now rewrite <- app_assoc|].
    constructor; [exact (frag_span _ _ _ _ _ _ P E1) | exact Fn].
Qed.
Lemma frag_join2 {A} sep (l : list (list Z)) (ss : list A) (f : A -> list Z) :
  frag false sep [] false -> Forall2 (fun x s => frag false x (f s) false) l ss -> frag false (join sep l) (flat_map f ss) false.
Proof.
  intros S F. induction F as [|x s l ss Fx F IH]; [apply frag_nil|]. destruct l as [|y l].
  - inversion F; subst. cbn [join flat_map]. rewrite app_nil_r. exact Fx.
  - change (join sep (x :: y :: l)) with (x ++ sep ++ join sep (y :: l)). change (flat_map f (s :: ss)) with (f s ++ [] ++ flat_map f ss).
    refine (frag_app _ _ _ _ _ _ _ Fx (frag_app _ _ _ _ _ _ _ S IH)).
Qed.
Lemma frag_spans k spans off mh r : Forall (fun s => forallb plain_char (s_text s) = true) spans -> spans_to_html k spans off mh = Ok r ->
  frag false (row_content r) (flat_map s_text spans) false.
Proof.
  intros P E. unfold spans_to_html in E. destruct spans as [|s l]; [injection E as <-; apply frag_nil|].
  apply bind_inv in E. destruct E as ([[h m] html] & E1 & E). apply ok_inj in E. subst r. cbn [row_content].
  destruct (spans_lines _ _ _ _ P _ _ _ _ E1) as (new & Es & F). cbn [snd app] in Es. subst html.
  exact (frag_join2 _ _ _ _ frag_lf F).
Qed.
