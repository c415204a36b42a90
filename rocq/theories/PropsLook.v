(** * PropsLook: C57, how the text of an HTML receipt looks. *)
From Verif Require Import Base Command CommandSet Parser Vec Float32 GTypes Graphics Decoder Context Text Handlers Renderer StateTheory AreaTheory CallsTheory
  ContextTheory RendererTheory Origin SpecPrinter SpecRender PropsOutput PropsSafe ThermalImage ImageRenderer PropsImage ThermalFile HtmlTemplate HtmlRenderer SpecHtml HtmlTheory PropsHtml SpecRow RowTheory InkTheory.
Local Open Scope Z_scope.
Local Open Scope list_scope.
Local Arguments vlen : simpl never.

(** ** Which classes count *)
Definition same (a b : list Z) : bool := if list_eq_dec Z.eq_dec a b then true else false.
Lemma same_true a b : same a b = true <-> a = b.
Proof. unfold same. destruct (list_eq_dec Z.eq_dec a b); split; congruence. Qed.
Lemma has_in cs c : has cs c = true <-> In c cs.
Proof.
  unfold has. rewrite existsb_exists. split.
  - intros (d & I & H). fold (same d c) in H. apply same_true in H. now subst d.
  - intros I. exists c. split; [exact I|]. fold (same c c). now apply same_true.
Qed.
Lemma has_app a b c : has (a ++ b) c = has a c || has b c.
Proof. unfold has. apply existsb_app. Qed.
Lemma has_if b s c : has (if_class b s) c = same (str s) c && b.
Proof. destruct b; unfold has, if_class; cbn [existsb]; fold (same (str s) c); now destruct (same (str s) c). Qed.
Lemma has_stretch a n c : has (opt_class (stretch_class a n)) c = same [a; 48 + n] c && ((2 <=? n) && (n <=? 8)).
Proof.
  unfold stretch_class. destruct ((2 <=? n) && (n <=? 8)); cbn [opt_class]; unfold has; cbn [existsb].
  - fold (same [a; 48 + n] c). now destruct (same [a; 48 + n] c).
  - now rewrite andb_false_r.
Qed.
Definition relevant (r : rule) (p : list Z) : list (list Z) :=
  if list_eq_dec Z.eq_dec (ru_property r) p then match ru_selector r with 46 :: l => split_at 46 l | _ => [] end else [].
Definition names (sheet : list rule) (p : list Z) : list (list Z) := flat_map (fun r => relevant r p) sheet.
Lemma forallb_ext_in {A} (f g : A -> bool) l : (forall a, In a l -> f a = g a) -> forallb f l = forallb g l.
Proof. induction l as [|a l IH]; intros H; [reflexivity|]. cbn [forallb]. rewrite (H a (or_introl eq_refl)), IH; [reflexivity|]. intros b I. apply H. now right. Qed.
Lemma weight_ext g g' sel : (forall c, In c (match sel with 46 :: l => split_at 46 l | _ => [] end) -> g c = g' c) -> weight g sel = weight g' sel.
Proof.
  intros H. unfold weight. destruct sel as [|z l]; [reflexivity|]. destruct (Z.eq_dec z 46) as [->|N].
  - cbv zeta. rewrite (forallb_ext_in g g' _ H). reflexivity.
  - clear H. repeat match goal with |- (match ?v with _ => _ end) = _ => destruct v; try reflexivity end; congruence.
Qed.
Lemma value_ext p g g' sheet : forall best, (forall c, In c (names sheet p) -> g c = g' c) -> value_from sheet p g best = value_from sheet p g' best.
Proof.
  induction sheet as [|r sheet IH]; intros best H; [reflexivity|]. cbn [value_from].
  assert (W : (if list_eq_dec Z.eq_dec (ru_property r) p then weight g (ru_selector r) else None) = (if list_eq_dec Z.eq_dec (ru_property r) p then weight g' (ru_selector r) else None)).
  { destruct (list_eq_dec Z.eq_dec (ru_property r) p) as [E|]; [|reflexivity]. apply weight_ext. intros c I. apply H. unfold names. cbn [flat_map]. apply in_app_iff. left.
    unfold relevant. destruct (list_eq_dec Z.eq_dec (ru_property r) p); [exact I | contradiction]. }
  rewrite IH by (intros c I; apply H; unfold names; cbn [flat_map]; apply in_app_iff; right; exact I).
  destruct (list_eq_dec Z.eq_dec (ru_property r) p); [rewrite W|]; reflexivity.
Qed.
(** the rules of the page *)
Definition SHEET : list rule := Eval vm_compute in sheet_of doc_head.
Lemma sheet_eq : sheet_of doc_head = SHEET.
Proof. vm_compute. reflexivity. Qed.
Lemma look_ext p g g' l : names SHEET (str p) = l -> (forall c, In c l -> g c = g' c) -> value_from SHEET (str p) g (0, None) = value_from SHEET (str p) g' (0, None).
Proof. intros <- H. apply value_ext. exact H. Qed.

(** ** The classes of a piece of text, as a test *)
Definition inkb (c : rgba) (k : palette) : bool :=
  rgba_eqb c (match k with Paper => rc_paper_color default_colors | Ink1 => rc_color_1 default_colors | Ink2 => rc_color_2 default_colors | Ink3 => rc_color_3 default_colors end).
Definition test_fg (k : rgba) (c : list Z) : bool :=
  same (str "fg_2") c && (negb (inkb k Ink1) && inkb k Ink2) || same (str "fg_3") c && (negb (inkb k Ink1) && negb (inkb k Ink2) && inkb k Ink3) ||
  same (str "fg_0") c && (negb (inkb k Ink1) && negb (inkb k Ink2) && negb (inkb k Ink3)).
Definition test_bg (k : rgba) (c : list Z) : bool :=
  same (str "bg_1") c && inkb k Ink1 || same (str "bg_2") c && (negb (inkb k Ink1) && inkb k Ink2) ||
  same (str "bg_3") c && (negb (inkb k Ink1) && negb (inkb k Ink2) && inkb k Ink3).
Lemma has_one a c : has [a] c = same a c.
Proof. unfold has. cbn [existsb]. fold (same a c). now rewrite orb_false_r. Qed.
Lemma has_none c : has [] c = false.
Proof. reflexivity. Qed.
Lemma has_fg k c : has (opt_class (color_to_class k default_colors true)) c = test_fg k c.
Proof.
  unfold color_to_class, test_fg, inkb.
  destruct (rgba_eqb k (rc_color_1 default_colors)); [|destruct (rgba_eqb k (rc_color_2 default_colors)); [|destruct (rgba_eqb k (rc_color_3 default_colors))]]; cbn [negb andb];
    rewrite ?andb_false_r, ?andb_true_r, ?orb_false_r; cbn [orb];
    [reflexivity | change (opt_class (str "fg_2")) with [str "fg_2"] | change (opt_class (str "fg_3")) with [str "fg_3"] | change (opt_class (str "fg_0")) with [str "fg_0"]]; apply has_one.
Qed.
Lemma has_bg k c : has (opt_class (color_to_class k default_colors false)) c = test_bg k c.
Proof.
  unfold color_to_class, test_bg, inkb.
  destruct (rgba_eqb k (rc_color_1 default_colors)); [|destruct (rgba_eqb k (rc_color_2 default_colors)); [|destruct (rgba_eqb k (rc_color_3 default_colors))]]; cbn [negb andb];
    rewrite ?andb_false_r, ?andb_true_r, ?orb_false_r; cbn [orb];
    [change (opt_class (str "bg_1")) with [str "bg_1"] | change (opt_class (str "bg_2")) with [str "bg_2"] | change (opt_class (str "bg_3")) with [str "bg_3"] | reflexivity]; apply has_one.
Qed.
Definition test (s : text_span) (c : list Z) : bool :=
  same (str "b") c && s_bold s || same (str "i") c && s_italic s || same (str "s") c && (0 <? s_strikethrough s) || same (str "sd") c && (1 <? s_strikethrough s) ||
  same (str "u") c && (0 <? s_underline s) || same (str "ud") c && (1 <? s_underline s) || same (str "upd") c && s_upside_down s ||
  same (str "fb") c && (match s_font s with FontB => true | _ => false end) || same (str "fc") c && (match s_font s with FontC => true | _ => false end) ||
  test_fg (s_text_color s) c || test_bg (s_background_color s) c ||
  same [119; 48 + s_stretch_width s] c && ((2 <=? s_stretch_width s) && (s_stretch_width s <=? 8)) ||
  same [104; 48 + s_stretch_height s] c && ((2 <=? s_stretch_height s) && (s_stretch_height s <=? 8)) ||
  same (str "str") c && ((2 <=? s_stretch_width s) && (s_stretch_width s <=? 8) || (2 <=? s_stretch_height s) && (s_stretch_height s <=? 8)).
Lemma has_font f c : has (match f with FontB => [str "fb"] | FontC => [str "fc"] | _ => [] end) c =
  same (str "fb") c && (match f with FontB => true | _ => false end) || same (str "fc") c && (match f with FontC => true | _ => false end).
Proof. destruct f; unfold has; cbn [existsb]; try fold (same (str "fb") c); try fold (same (str "fc") c); destruct (same (str "fb") c), (same (str "fc") c); reflexivity. Qed.
Lemma has_str w h c : has (match opt_class (stretch_class 119 w) ++ opt_class (stretch_class 104 h) with [] => [] | _ => [str "str"] end) c =
  same (str "str") c && ((2 <=? w) && (w <=? 8) || (2 <=? h) && (h <=? 8)).
Proof.
  unfold stretch_class. destruct ((2 <=? w) && (w <=? 8)), ((2 <=? h) && (h <=? 8)); cbn [opt_class app]; unfold has; cbn [existsb]; try fold (same (str "str") c); destruct (same (str "str") c); reflexivity.
Qed.
Lemma has_classes s cs c : (forall c, In c cs <-> class_for s c) -> has cs c = test s c.
Proof.
  intros D. transitivity (has (span_classes s default_colors) c).
  - apply Bool.eq_iff_eq_true. rewrite !has_in, D. symmetry. apply classes_for.
  - unfold span_classes. cbv zeta. rewrite !has_app, !has_if, !has_stretch, has_font, has_str, has_fg, has_bg. unfold test.
    repeat match goal with |- context [?a && ?b] => let x := fresh in generalize (a && b); intros x end.
    generalize (test_fg (s_text_color s) c) (test_bg (s_background_color s) c). intros y1 y2.
    repeat match goal with x : bool |- _ => destruct x; cbn [orb]; rewrite ?orb_true_r, ?orb_false_r; try reflexivity end.
Qed.
(** evaluate the tests of names *)
Ltac tests := unfold test, test_fg, test_bg; repeat match goal with |- context [same ?a ?b] => let v := eval vm_compute in (same a b) in lazymatch v with true => change (same a b) with true | false => change (same a b) with false end end;
  cbn [andb orb]; rewrite ?orb_false_r.
Lemma look_weight s : value_from SHEET (str "font-weight") (test s) (0, None) = if s_bold s then Some (str "bold") else None.
Proof.
  rewrite (look_ext "font-weight" (test s) (fun c => s_bold s) [str "b"]); [|vm_compute; reflexivity | intros c [<-|[]]; tests; reflexivity].
  destruct (s_bold s); vm_compute; reflexivity.
Qed.
Lemma look_style s : value_from SHEET (str "font-style") (test s) (0, None) = if s_italic s then Some (str "italic") else None.
Proof.
  rewrite (look_ext "font-style" (test s) (fun c => s_italic s) [str "i"]); [|vm_compute; reflexivity | intros c [<-|[]]; tests; reflexivity].
  destruct (s_italic s); vm_compute; reflexivity.
Qed.
Lemma look_size s : value_from SHEET (str "font-size") (test s) (0, None) = match s_font s with FontB => Some (str ".8em") | FontC => Some (str ".65em") | _ => None end.
Proof.
  rewrite (look_ext "font-size" (test s) (fun c => if same (str "fb") c then match s_font s with FontB => true | _ => false end else match s_font s with FontC => true | _ => false end) [str "fb"; str "fc"]);
    [|vm_compute; reflexivity | intros c [<-|[<-|[]]]; tests; reflexivity].
  destruct (s_font s); vm_compute; reflexivity.
Qed.
Lemma look_decoration s : value_from SHEET (str "text-decoration") (test s) (0, None) =
  if 0 <? s_strikethrough s then Some (str "line-through") else if 0 <? s_underline s then Some (str "underline") else None.
Proof.
  rewrite (look_ext "text-decoration" (test s) (fun c => if same (str "u") c then 0 <? s_underline s else if same (str "s") c then 0 <? s_strikethrough s else (0 <? s_strikethrough s) && (1 <? s_strikethrough s))
    [str "u"; str "s"; str "s"; str "sd"]); [|vm_compute; reflexivity|].
  - destruct (0 <? s_strikethrough s), (1 <? s_strikethrough s), (0 <? s_underline s); vm_compute; reflexivity.
  - intros c [<-|[<-|[<-|[<-|[]]]]]; tests; try reflexivity. destruct (1 <? s_strikethrough s) eqn:E; [|now rewrite andb_false_r]. now replace (0 <? s_strikethrough s) with true by lia.
Qed.
Lemma inkb_true c k : inkb c k = true <-> has_colour c k.
Proof. exact (colour_eq c k). Qed.
Lemma one_ink c k : has_colour c k -> forall k', inkb c k' = match k, k' with Paper, Paper | Ink1, Ink1 | Ink2, Ink2 | Ink3, Ink3 => true | _, _ => false end.
Proof.
  intros H k'. apply Bool.eq_iff_eq_true. rewrite inkb_true. destruct k, k'; split; intros A; try reflexivity; try discriminate A; try exact H;
    exfalso; destruct H as (H & _), A as (A & _); rewrite H in A; discriminate A.
Qed.
Lemma look_colour s k : has_colour (s_text_color s) k -> exists v, value_from SHEET (str "color") (test s) (0, None) = Some v /\ colour_is v k.
Proof.
  intros H. pose proof (one_ink _ _ H) as O.
  rewrite (look_ext "color" (test s) (fun c => if same (str "fg_0") c then match k with Paper => true | _ => false end else if same (str "fg_2") c then match k with Ink2 => true | _ => false end
    else if same (str "fg_3") c then match k with Ink3 => true | _ => false end else false) [str "fg_0"; str "fg_1"; str "fg_2"; str "fg_3"]); [|vm_compute; reflexivity|].
  - destruct k; eexists; (split; [vm_compute; reflexivity | vm_compute; split; reflexivity]).
  - intros c [<-|[<-|[<-|[<-|[]]]]]; tests; rewrite ?O; destruct k; reflexivity.
Qed.
Lemma look_ground s k : has_colour (s_background_color s) k -> match k with
  | Paper => value_from SHEET (str "background-color") (test s) (0, None) = Some (str "transparent")
  | _ => exists v, value_from SHEET (str "background-color") (test s) (0, None) = Some v /\ colour_is v k end.
Proof.
  intros H. pose proof (one_ink _ _ H) as O.
  rewrite (look_ext "background-color" (test s) (fun c => if same (str "bg_1") c then match k with Ink1 => true | _ => false end else if same (str "bg_2") c then match k with Ink2 => true | _ => false end
    else if same (str "bg_3") c then match k with Ink3 => true | _ => false end else false) [str "bg_0"; str "bg_1"; str "bg_2"; str "bg_3"]); [|vm_compute; reflexivity|].
  - destruct k; [vm_compute; reflexivity| | |]; eexists; (split; [vm_compute; reflexivity | vm_compute; split; reflexivity]).
  - intros c [<-|[<-|[<-|[<-|[]]]]]; tests; rewrite ?O; destruct k; reflexivity.
Qed.
(** the classes that scale *)
Definition scaling (u : bool) (w h : Z) (c : list Z) : bool :=
  same (str "upd") c && u || same [119; 48 + w] c && ((2 <=? w) && (w <=? 8)) || same [104; 48 + h] c && ((2 <=? h) && (h <=? 8)).
Definition scale_names : list (list Z) := Eval vm_compute in names SHEET (str "transform").
Lemma look_scale s : value_from SHEET (str "transform") (test s) (0, None) = value_from SHEET (str "transform") (scaling (s_upside_down s) (s_stretch_width s) (s_stretch_height s)) (0, None).
Proof.
  apply (look_ext "transform" _ _ scale_names); [vm_compute; reflexivity|]. intros c I. unfold test, scaling.
  assert (G : forallb (fun c => negb (same (str "b") c || same (str "i") c || same (str "s") c || same (str "sd") c || same (str "u") c || same (str "ud") c || same (str "fb") c || same (str "fc") c || same (str "str") c ||
    same (str "fg_2") c || same (str "fg_3") c || same (str "fg_0") c || same (str "bg_1") c || same (str "bg_2") c || same (str "bg_3") c)) scale_names = true) by (vm_compute; reflexivity).
  rewrite forallb_forall in G. specialize (G c I). apply negb_true_iff in G. repeat (apply orb_false_iff in G; destruct G as (G & ?)).
  unfold test_fg, test_bg. repeat match goal with H : same _ c = false |- _ => rewrite H; clear H end. cbn [andb orb]. rewrite ?orb_false_r. reflexivity.
Qed.
Definition scale_value (u : bool) (w h : Z) : option (list Z) :=
  if (w =? 1) && (h =? 1) then (if u then Some (str "scale(1, -1)") else None)
  else if h =? 1 then Some (str "scaleX" ++ [40; 48 + w; 41]) else if w =? 1 then Some (str "scaleY" ++ [40; 48 + h; 41])
  else if w =? h then Some (str "scale" ++ [40; 48 + w; 41])
  else if w <? h then Some (str "scaleY" ++ [40; 48 + h; 41]) else Some (str "scaleX" ++ [40; 48 + w; 41]).
Definition opt_same (a b : option (list Z)) : bool := match a, b with Some x, Some y => same x y | None, None => true | _, _ => false end.
Lemma all_scales : forallb (fun u => forallb (fun w => forallb (fun h => opt_same (value_from SHEET (str "transform") (scaling u w h) (0, None)) (scale_value u w h)) [1; 2; 3; 4; 5; 6; 7; 8])
  [1; 2; 3; 4; 5; 6; 7; 8]) [true; false] = true.
Proof. vm_compute. reflexivity. Qed.
Lemma triple (f : bool -> Z -> Z -> bool) (l : list Z) : forallb (fun u => forallb (fun w => forallb (fun h => f u w h) l) l) [true; false] = true ->
  forall u w h, In w l -> In h l -> f u w h = true.
Proof.
  intros A u w h W H. rewrite forallb_forall in A. assert (U : In u [true; false]) by (destruct u; cbn; auto). specialize (A u U). cbv beta in A.
  rewrite forallb_forall in A. specialize (A w W). cbv beta in A. rewrite forallb_forall in A. exact (A h H).
Qed.
Lemma opt_same_eq a b : opt_same a b = true -> a = b.
Proof. unfold opt_same. destruct a, b; try discriminate; [|reflexivity]. intros A. apply same_true in A. now subst. Qed.
Lemma eight n : 1 <= n <= 8 -> In n [1; 2; 3; 4; 5; 6; 7; 8].
Proof. cbn [In]. lia. Qed.
Lemma look_transform s : 1 <= s_stretch_width s <= 8 -> 1 <= s_stretch_height s <= 8 ->
  value_from SHEET (str "transform") (test s) (0, None) = scale_value (s_upside_down s) (s_stretch_width s) (s_stretch_height s).
Proof.
  intros W H. rewrite look_scale. apply opt_same_eq.
  exact (triple (fun u w h => opt_same (value_from SHEET (str "transform") (scaling u w h) (0, None)) (scale_value u w h)) [1; 2; 3; 4; 5; 6; 7; 8] all_scales
    (s_upside_down s) (s_stretch_width s) (s_stretch_height s) (eight _ W) (eight _ H)).
Qed.

(** C57.  The head of every document has a style sheet, and a browser that obeys it shows every piece of text
    (its classes are those of C56) the way it was printed: bold, italic, in its colour on its ground, in
    the size of its font, struck through or underlined, turned upside down, stretched in one direction
    or in both alike. *)
Theorem C57_look : exists head tail,
  (forall fo pn e bs s docs calls x rest, bytes_ok bs = true -> render e bs renderer_new = Ok s -> render_html fo pn e bs = Ok docs -> base64_encoder pn ->
     rs_calls s = calls ++ (x, EEndRender) :: rest -> forallb plain_char (paper_text calls) = true ->
     exists content below, nth_error docs (number calls) = Some (page_around head tail (paper_style below) content)) /\
  forall s cs, (forall c, In c cs <-> class_for s c) ->
    let look p := value_of (sheet_of head) p cs in
    look "font-weight"%string = (if s_bold s then Some (str "bold") else None) /\
    look "font-style"%string = (if s_italic s then Some (str "italic") else None) /\
    look "font-size"%string = match s_font s with FontB => Some (str ".8em") | FontC => Some (str ".65em") | _ => None end /\
    (forall k, has_colour (s_text_color s) k -> exists v, look "color"%string = Some v /\ colour_is v k) /\
    (has_colour (s_background_color s) Paper -> look "background-color"%string = Some (str "transparent")) /\
    (forall k, k <> Paper -> has_colour (s_background_color s) k -> exists v, look "background-color"%string = Some v /\ colour_is v k) /\
    (1 <= s_strikethrough s -> look "text-decoration"%string = Some (str "line-through")) /\
    (s_strikethrough s <= 0 -> 1 <= s_underline s -> look "text-decoration"%string = Some (str "underline")) /\
    (s_strikethrough s <= 0 -> s_underline s <= 0 -> look "text-decoration"%string = None) /\
    (s_stretch_width s = 1 -> s_stretch_height s = 1 -> look "transform"%string = if s_upside_down s then Some (str "scale(1, -1)") else None) /\
    (2 <= s_stretch_width s <= 8 -> s_stretch_height s = 1 -> exists v, look "transform"%string = Some v /\ scaled "scaleX" (s_stretch_width s) v) /\
    (s_stretch_width s = 1 -> 2 <= s_stretch_height s <= 8 -> exists v, look "transform"%string = Some v /\ scaled "scaleY" (s_stretch_height s) v) /\
    (2 <= s_stretch_width s <= 8 -> s_stretch_height s = s_stretch_width s -> exists v, look "transform"%string = Some v /\ scaled "scale" (s_stretch_width s) v).
Proof.
  destruct C43_document_text as (head0 & tail0 & _). exists doc_head, doc_tail. split.
  - intros fo pn e bs s docs calls x rest B Es E B64 Ec Pl.
    destruct (job_reach _ _ _ _ _ _ _ _ _ B Es E Ec) as (x0 & mid & h & later & Em & Y0 & (h0 & T & Q1 & Q2 & Q3) & Ed & L & C).
    destruct T as [(ps & A1 & A2 & _) _]. rewrite Em, !paper_text_silent in Pl by exact I. specialize (A2 B64 Pl).
    assert (Fr : frag false (concat (h_content h)) (paper_text mid) false).
    { rewrite A1, Q1, concat_app. cbn [concat]. rewrite app_nil_r. exact (frag_app _ _ _ _ _ _ _ (frag_first x0) A2). }
    destruct Fr as (Fc & _). exists (concat (h_content h)), (sat_sub (get_y x) (h_last_y h)).
    unfold number. rewrite <- ends_count, <- L, Ed, nth_error_app2, Nat.sub_diag by lia. cbn [nth_error]. rewrite (document_page _ _ _ C Fc). reflexivity.
  - intros s cs D look.
    assert (V : forall p, look p = value_from SHEET (str p) (test s) (0, None)).
    { intros p. unfold look, value_of. rewrite sheet_eq. apply value_ext. intros c _. exact (has_classes s cs c D). }
    clearbody look. rewrite !V, look_weight, look_style, look_size. split; [reflexivity|]. split; [reflexivity|]. split; [reflexivity|].
    split; [intros k H; exact (look_colour s k H)|]. split; [intros H; exact (look_ground s Paper H)|].
    split; [intros k N H; pose proof (look_ground s k H) as G; destruct k; [congruence | exact G | exact G | exact G]|]. rewrite look_decoration.
    split; [intros H; now replace (0 <? s_strikethrough s) with true by lia|].
    split; [intros H1 H2; replace (0 <? s_strikethrough s) with false by lia; now replace (0 <? s_underline s) with true by lia|].
    split; [intros H1 H2; replace (0 <? s_strikethrough s) with false by lia; now replace (0 <? s_underline s) with false by lia|].
    split; [intros W H; rewrite look_transform by lia; rewrite W, H; reflexivity|].
    assert (Dg : forall name n, 2 <= n <= 8 -> scaled name n (str name ++ [40; 48 + n; 41])) by (intros name n B; exists [48 + n]; split; [apply writes_digit; lia | reflexivity]).
    split; [|split].
    + intros W H. rewrite look_transform by lia. unfold scale_value. rewrite H. replace (s_stretch_width s =? 1) with false by lia. cbn [Z.eqb Pos.eqb andb].
      eexists. split; [reflexivity | exact (Dg _ _ W)].
    + intros W H. rewrite look_transform by lia. unfold scale_value. rewrite W. replace (s_stretch_height s =? 1) with false by lia. cbn [Z.eqb Pos.eqb andb].
      eexists. split; [reflexivity | exact (Dg _ _ H)].
    + intros W H. rewrite look_transform by lia. unfold scale_value. rewrite H. replace (s_stretch_width s =? 1) with false by lia. rewrite Z.eqb_refl. cbn [andb].
      eexists. split; [reflexivity | exact (Dg _ _ W)].
Qed.
(** Text is always printed in one of the printer's four colours on a ground of one of the four. *)
Theorem C57_four_colours : forall e s x line off h j w, history e s -> In (x, EText line off h j) (rs_calls s) -> In w line -> s_text w <> [] ->
  (exists k, has_colour (s_text_color w) k) /\ (exists k, has_colour (s_background_color w) k).
Proof. exact history_colours. Qed.
(** ** What the style sheet does not show *)
(** One line below the text and two lines below it give the same document: a line is measured in pixels, and one
    point is two pixels, so the class for two lines is always there. *)
Theorem C57_double_underline_refuted : exists a b doc, a <> b /\ bytes_ok (27 :: 45 :: a :: [67; 10]) = true /\ bytes_ok (27 :: 45 :: b :: [67; 10]) = true /\
  a = 1 /\ b = 2 /\
  render_html no_glyphs png_demo no_encoders1 (27 :: 45 :: a :: [67; 10]) = Ok [doc] /\ render_html no_glyphs png_demo no_encoders1 (27 :: 45 :: b :: [67; 10]) = Ok [doc].
Proof.
  exists 1, 2, (page 0 [mk_para 108 0 []; mk_para 24 0 (str "<span style='left: 0px; top: 0px' class='u ud'>C</span>")]).
  split; [discriminate|]. do 4 (split; [reflexivity|]). split; vm_compute; reflexivity.
Qed.
(** Text stretched to twice its width and three times its height is shown in its own width, and the right way up
    even if it was printed upside down. *)
Theorem C57_stretch_refuted : forall s cs, (forall c, In c cs <-> class_for s c) -> 2 <= s_stretch_width s < s_stretch_height s -> s_stretch_height s <= 8 ->
  exists v, value_of (sheet_of doc_head) "transform" cs = Some v /\ scaled "scaleY" (s_stretch_height s) v.
Proof.
  intros s cs D W H. unfold value_of. rewrite sheet_eq. rewrite (value_ext (str "transform") _ (test s)) by (intros c _; exact (has_classes s cs c D)).
  rewrite look_transform by lia. unfold scale_value. replace (s_stretch_width s =? 1) with false by lia. replace (s_stretch_height s =? 1) with false by lia.
  replace (s_stretch_width s =? s_stretch_height s) with false by lia. replace (s_stretch_width s <? s_stretch_height s) with true by lia. cbn [andb].
  eexists. split; [reflexivity|]. exists [48 + s_stretch_height s]. split; [apply writes_digit; lia | reflexivity].
Qed.
(** GS ! 18 after ESC { 1 prints such text. *)
Example C57_stretch_job : render_html no_glyphs png_demo no_encoders1 [27; 123; 1; 29; 33; 18; 67; 10] =
  Ok [page 0 [mk_para 108 0 []; mk_para 72 0 (str "<span style='left: 0px; top: 0px' class='w2 h3 str upd'>C</span>")]].
Proof. vm_compute. reflexivity. Qed.
(** Text that is struck through (ESC G 1) and underlined (ESC - 1) is shown without the line below it. *)
Example C57_strike_job : render_html no_glyphs png_demo no_encoders1 [27; 71; 1; 27; 45; 1; 67; 10] =
  Ok [page 0 [mk_para 108 0 []; mk_para 24 0 (str "<span style='left: 0px; top: 0px' class='s sd u ud'>C</span>")]].
Proof. vm_compute. reflexivity. Qed.
Theorem C57_strike_refuted : value_of (sheet_of doc_head) "text-decoration" [str "s"; str "sd"; str "u"; str "ud"] = Some (str "line-through") /\
  value_of (sheet_of doc_head) "transform" [str "w2"; str "h3"; str "str"; str "upd"] = Some (str "scaleY(3)").
Proof. split; vm_compute; reflexivity. Qed.
