(** * RowTheory: the text of one row of an HTML receipt. *)
From Verif Require Import Base Command CommandSet Parser Vec Float32 GTypes Graphics Decoder Context Text Handlers Renderer StateTheory AreaTheory CallsTheory
  ContextTheory RendererTheory SpecPrinter SpecRender ThermalImage ImageRenderer ThermalFile HtmlTemplate HtmlRenderer SpecHtml HtmlTheory PropsHtml PropsCells SpecRow.
Local Open Scope Z_scope.
Local Open Scope list_scope.
Local Arguments vlen : simpl never.

(** ** Numbers *)
Lemma read_app l a n : fold_left (fun n c => 10 * n + (c - 48)) (l ++ [a]) n = 10 * fold_left (fun n c => 10 * n + (c - 48)) l n + (a - 48).
Proof. rewrite fold_left_app. reflexivity. Qed.
Lemma digits_writes : forall f n, 0 <= n -> n < 10 ^ Z.of_nat f -> (0 < f)%nat -> writes n (digits f n).
Proof.
  induction f as [|f IH]; intros n L U F; [lia|]. cbn [digits]. assert (M : 0 <= n mod 10 < 10) by (apply Z.mod_pos_bound; lia).
  destruct (n <? 10) eqn:E.
  - cbn [app]. assert (n mod 10 = n) by (apply Z.mod_small; lia). rewrite H. unfold writes, read_number. cbn [fold_left forallb hd].
    split; [lia|]. split; [discriminate|]. split; [unfold is_digit; lia|]. intros ->. reflexivity.
  - assert (Hf : (0 < f)%nat). { destruct f; [|lia]. cbn in U. lia. }
    assert (L1 : 1 <= n / 10) by (apply Z.div_le_lower_bound; lia).
    assert (U1 : n / 10 < 10 ^ Z.of_nat f).
    { rewrite Nat2Z.inj_succ, Z.pow_succ_r in U by lia. apply Z.div_lt_upper_bound; lia. }
    destruct (IH (n / 10) ltac:(lia) U1 Hf) as (A & B & C & D). unfold writes, read_number in *. rewrite read_app, A.
    split; [pose proof (Z.div_mod n 10 ltac:(lia)); lia|]. split; [intros N; apply app_eq_nil in N; destruct N; discriminate|].
    split; [rewrite forallb_app, C; cbn [forallb]; unfold is_digit; lia|].
    destruct (digits f (n / 10)) as [|c r]; [congruence|]. cbn [app hd] in *. intros H. specialize (D H). injection D as -> ->. cbn in A. lia.
Qed.
Lemma dec_writes n : u32v n -> writes n (dec_u32 n).
Proof. intros U. unfold dec_u32. apply digits_writes; [unfold u32v, u32_max in U; lia | unfold u32v, u32_max in U; change (10 ^ Z.of_nat 10) with 10000000000; lia | lia]. Qed.
Lemma read_ge l : forall n, 1 <= n -> forallb is_digit l = true -> n * 10 ^ Z.of_nat (length l) <= fold_left (fun n c => 10 * n + (c - 48)) l n.
Proof.
  induction l as [|c l IH]; intros n L D; [cbn; lia|]. cbn [forallb] in D. apply andb_prop in D. destruct D as (D1 & D2). unfold is_digit in D1. cbn [fold_left length].
  rewrite Nat2Z.inj_succ, Z.pow_succ_r by lia. pose proof (IH (10 * n + (c - 48)) ltac:(lia) D2). assert (0 < 10 ^ Z.of_nat (length l)) by (apply Z.pow_pos_nonneg; lia). nia.
Qed.
Lemma writes_small n l : 0 <= n <= 9 -> writes n l -> l = [48 + n].
Proof.
  intros B (R & N & D & Z0). destruct l as [|c r]; [congruence|]. cbn [forallb] in D. apply andb_prop in D. destruct D as (D1 & D2). unfold is_digit in D1.
  unfold read_number in R. cbn [fold_left hd] in *. destruct (Z.eq_dec c 48) as [->|Nc].
  - specialize (Z0 eq_refl). injection Z0 as ->. cbn in R. f_equal. lia.
  - destruct r as [|d r]; [cbn in R; f_equal; lia|]. pose proof (read_ge (d :: r) (10 * 0 + (c - 48)) ltac:(lia) D2) as G. rewrite R in G. cbn [length] in G.
    rewrite Nat2Z.inj_succ, Z.pow_succ_r in G by lia. assert (0 < 10 ^ Z.of_nat (length r)) by (apply Z.pow_pos_nonneg; lia). nia.
Qed.
Lemma writes_digit n : 0 <= n <= 9 -> writes n [48 + n].
Proof. intros B. unfold writes, read_number. cbn [fold_left forallb hd]. unfold is_digit. split; [lia|]. split; [discriminate|]. split; [lia|]. intros E. now replace (48 + n) with 48 by lia. Qed.

(** ** Joining *)
Lemma join_between sep l : HtmlRenderer.join [sep] l = between sep l.
Proof.
  destruct l as [|a l]; [reflexivity|]. revert a. induction l as [|b l IH]; intros a; [cbn; now rewrite app_nil_r|].
  change (HtmlRenderer.join [sep] (a :: b :: l)) with (a ++ [sep] ++ HtmlRenderer.join [sep] (b :: l)). rewrite IH. reflexivity.
Qed.

(** ** Classes *)
Lemma colour_eq c k : rgba_eqb c (match k with Paper => rc_paper_color default_colors | Ink1 => rc_color_1 default_colors | Ink2 => rc_color_2 default_colors | Ink3 => rc_color_3 default_colors end) = true
  <-> has_colour c k.
Proof.
  unfold rgba_eqb, has_colour. destruct k; cbn [rc_paper_color rc_color_1 rc_color_2 rc_color_3 default_colors c_r c_g c_b c_a rgb_of];
    (split; [intros H; split; [repeat apply f_equal2|]; lia | intros (H & H'); injection H as -> -> ->; rewrite H'; reflexivity]).
Qed.
Lemma in_if b c x : In x (if_class b c) <-> b = true /\ x = str c.
Proof. unfold if_class. destruct b; cbn; split; intros H; try (destruct H; congruence); intuition congruence. Qed.
Lemma in_stretch a n x : In x (opt_class (stretch_class a n)) <-> 2 <= n <= 8 /\ exists c, writes n c /\ x = a :: c.
Proof.
  unfold stretch_class. destruct ((2 <=? n) && (n <=? 8)) eqn:E; cbn [opt_class In].
  - split; [intros [<-|[]]; split; [lia|]; exists [48 + n]; split; [apply writes_digit; lia | reflexivity]|].
    intros (B & c & W & ->). left. now rewrite (writes_small n c ltac:(lia) W).
  - split; [intros [] | intros (B & _); lia].
Qed.
Lemma in_fg c x : In x (opt_class (color_to_class c default_colors true)) <->
  (x = str "fg_2" /\ has_colour c Ink2) \/ (x = str "fg_3" /\ has_colour c Ink3) \/ (x = str "fg_0" /\ forall k, k <> Paper -> ~ has_colour c k).
Proof.
  unfold color_to_class. pose proof (colour_eq c Ink1) as E1. pose proof (colour_eq c Ink2) as E2. pose proof (colour_eq c Ink3) as E3. cbv iota in E1, E2, E3.
  assert (X12 : has_colour c Ink1 -> has_colour c Ink2 -> False) by (intros (A & _) (B & _); rewrite A in B; discriminate).
  assert (X13 : has_colour c Ink1 -> has_colour c Ink3 -> False) by (intros (A & _) (B & _); rewrite A in B; discriminate).
  assert (X23 : has_colour c Ink2 -> has_colour c Ink3 -> False) by (intros (A & _) (B & _); rewrite A in B; discriminate).
  destruct (rgba_eqb c (rc_color_1 default_colors)).
  - apply proj1 in E1. specialize (E1 eq_refl). cbn [opt_class In]. split; [intros []|]. intros [(_ & H)|[(_ & H)|(_ & H)]]; [exact (X12 E1 H) | exact (X13 E1 H) | exact (H Ink1 ltac:(discriminate) E1)].
  - assert (N1 : ~ has_colour c Ink1) by (intros H; apply E1 in H; discriminate). clear E1. destruct (rgba_eqb c (rc_color_2 default_colors)).
    + apply proj1 in E2. specialize (E2 eq_refl). change (opt_class (str "fg_2")) with [str "fg_2"]. cbn [In]. split; [intros [<-|[]]; auto|].
      intros [(-> & H)|[(_ & H)|(_ & H)]]; [auto | destruct (X23 E2 H) | destruct (H Ink2 ltac:(discriminate) E2)].
    + assert (N2 : ~ has_colour c Ink2) by (intros H; apply E2 in H; discriminate). clear E2. destruct (rgba_eqb c (rc_color_3 default_colors)).
      * apply proj1 in E3. specialize (E3 eq_refl). change (opt_class (str "fg_3")) with [str "fg_3"]. cbn [In]. split; [intros [<-|[]]; auto|].
        intros [(_ & H)|[(-> & H)|(_ & H)]]; [destruct (N2 H) | auto | destruct (H Ink3 ltac:(discriminate) E3)].
      * assert (N3 : ~ has_colour c Ink3) by (intros H; apply E3 in H; discriminate). change (opt_class (str "fg_0")) with [str "fg_0"]. cbn [In]. split.
        -- intros [<-|[]]. right. right. split; [reflexivity|]. intros [] Nk; try assumption. congruence.
        -- intros [(_ & H)|[(_ & H)|(-> & H)]]; [destruct (N2 H) | destruct (N3 H) | auto].
Qed.
Lemma in_bg c x : In x (opt_class (color_to_class c default_colors false)) <->
  (x = str "bg_1" /\ has_colour c Ink1) \/ (x = str "bg_2" /\ has_colour c Ink2) \/ (x = str "bg_3" /\ has_colour c Ink3).
Proof.
  unfold color_to_class. pose proof (colour_eq c Ink1) as E1. pose proof (colour_eq c Ink2) as E2. pose proof (colour_eq c Ink3) as E3. cbv iota in E1, E2, E3.
  assert (X12 : has_colour c Ink1 -> has_colour c Ink2 -> False) by (intros (A & _) (B & _); rewrite A in B; discriminate).
  assert (X13 : has_colour c Ink1 -> has_colour c Ink3 -> False) by (intros (A & _) (B & _); rewrite A in B; discriminate).
  assert (X23 : has_colour c Ink2 -> has_colour c Ink3 -> False) by (intros (A & _) (B & _); rewrite A in B; discriminate).
  destruct (rgba_eqb c (rc_color_1 default_colors)).
  - apply proj1 in E1. specialize (E1 eq_refl). change (opt_class (str "bg_1")) with [str "bg_1"]. cbn [In]. split; [intros [<-|[]]; auto|].
    intros [(-> & H)|[(_ & H)|(_ & H)]]; [auto | destruct (X12 E1 H) | destruct (X13 E1 H)].
  - assert (N1 : ~ has_colour c Ink1) by (intros H; apply E1 in H; discriminate). clear E1. destruct (rgba_eqb c (rc_color_2 default_colors)).
    + apply proj1 in E2. specialize (E2 eq_refl). change (opt_class (str "bg_2")) with [str "bg_2"]. cbn [In]. split; [intros [<-|[]]; auto|].
      intros [(_ & H)|[(-> & H)|(_ & H)]]; [destruct (N1 H) | auto | destruct (X23 E2 H)].
    + assert (N2 : ~ has_colour c Ink2) by (intros H; apply E2 in H; discriminate). clear E2. destruct (rgba_eqb c (rc_color_3 default_colors)).
      * apply proj1 in E3. specialize (E3 eq_refl). change (opt_class (str "bg_3")) with [str "bg_3"]. cbn [In]. split; [intros [<-|[]]; auto|].
        intros [(_ & H)|[(_ & H)|(-> & H)]]; [destruct (N1 H) | destruct (N2 H) | auto].
      * assert (N3 : ~ has_colour c Ink3) by (intros H; apply E3 in H; discriminate). cbn [opt_class In]. split; [intros [] | intros [(_ & H)|[(_ & H)|(_ & H)]]; auto].
Qed.
Lemma in_str w h x : In x (match opt_class (stretch_class 119 w) ++ opt_class (stretch_class 104 h) with [] => [] | _ => [str "str"] end) <->
  x = str "str" /\ (2 <= w <= 8 \/ 2 <= h <= 8).
Proof.
  unfold stretch_class. destruct ((2 <=? w) && (w <=? 8)) eqn:E1, ((2 <=? h) && (h <=? 8)) eqn:E2; cbn [opt_class app In]; split; intros H;
    try (destruct H as [<-|[]]; split; [reflexivity | lia]); try (destruct H as (-> & _); left; reflexivity); try contradiction. destruct H as (_ & H). lia.
Qed.
Lemma in_font f x : In x (match f with FontB => [str "fb"] | FontC => [str "fc"] | _ => [] end) <-> (x = str "fb" /\ f = FontB) \/ (x = str "fc" /\ f = FontC).
Proof. destruct f; cbn [In]; split; intros H; try contradiction; try (destruct H as [<-|[]]; auto); destruct H as [(-> & H)|(-> & H)]; try discriminate; auto. Qed.
Lemma classes_for s x : In x (span_classes s default_colors) <-> class_for s x.
Proof.
  unfold span_classes. cbv zeta. rewrite !in_app_iff, !in_if, !in_stretch, in_fg, in_bg, in_str, in_font. split.
  - intros [(A & ->)|[(A & ->)|[(A & ->)|[(A & ->)|[(A & c & W & ->)|[(A & c & W & ->)|[(-> & A)|[(A & ->)|[(A & ->)|[(A & ->)|[[(-> & A)|(-> & A)]|[[(-> & A)|[(-> & A)|(-> & A)]]|[(-> & A)|[(-> & A)|(-> & A)]]]]]]]]]]]]]].
    + exact (cl_bold _ A).
    + exact (cl_italic _ A).
    + apply cl_strike. lia.
    + apply cl_strike2. lia.
    + exact (cl_width _ _ _ A eq_refl W).
    + exact (cl_height _ _ _ A eq_refl W).
    + exact (cl_stretched _ A).
    + apply cl_under. lia.
    + apply cl_under2. lia.
    + exact (cl_upside _ A).
    + exact (cl_font_b _ A).
    + exact (cl_font_c _ A).
    + exact (cl_ink2 _ A).
    + exact (cl_ink3 _ A).
    + exact (cl_paper _ A).
    + exact (cl_ground1 _ A).
    + exact (cl_ground2 _ A).
    + exact (cl_ground3 _ A).
  - intros [A|A|A|A|A|A|A|n c A <- W|n c A <- W|A|A|A|A|A|A|A|A|A].
    + left. auto.
    + right; left. auto.
    + do 2 right; left. split; [lia | reflexivity].
    + do 3 right; left. split; [lia | reflexivity].
    + do 7 right; left. split; [lia | reflexivity].
    + do 8 right; left. split; [lia | reflexivity].
    + do 9 right; left. auto.
    + do 4 right; left. eauto.
    + do 5 right; left. eauto.
    + do 6 right; left. auto.
    + do 10 right; left. auto.
    + do 10 right; left. auto.
    + do 11 right; left. auto.
    + do 11 right; left. auto.
    + do 11 right; left. auto.
    + do 12 right. auto.
    + do 12 right. auto.
    + do 12 right. auto.
Qed.

(** each class once *)
Definition rank (c : list Z) : Z :=
  match c with
  | [98] => 1 | [105] => 2 | [115] => 3 | [115; 100] => 4 | 119 :: _ => 5 | 104 :: _ => 6 | [115; 116; 114] => 7
  | [117] => 8 | [117; 100] => 9 | [117; 112; 100] => 10 | [102; 98] => 11 | [102; 99] => 11 | 102 :: 103 :: _ => 12 | 98 :: 103 :: _ => 13
  | _ => 0
  end.
Definition ranked (k : Z) (l : list (list Z)) : Prop := NoDup l /\ Forall (fun c => k <= rank c) l.
Lemma ranked_nil k : ranked k [].
Proof. split; constructor. Qed.
Lemma ranked_app k p l : (p = [] \/ exists c, p = [c] /\ rank c = k) -> ranked (k + 1) l -> ranked k (p ++ l).
Proof.
  intros [->|(c & -> & R)] (N & F).
  - split; [exact N|]. eapply Forall_impl; [|exact F]. intros a H. cbv beta in H. lia.
  - cbn [app]. split.
    + constructor; [|exact N]. intros I. rewrite Forall_forall in F. specialize (F _ I). lia.
    + constructor; [lia|]. eapply Forall_impl; [|exact F]. intros a H. cbv beta in H. lia.
Qed.
Lemma if_rank b c k : rank (str c) = k -> if_class b c = [] \/ exists x, if_class b c = [x] /\ rank x = k.
Proof. intros R. destruct b; [right; exists (str c); auto | now left]. Qed.
Lemma stretch_rank a n k : (forall l, rank (a :: l) = k) -> opt_class (stretch_class a n) = [] \/ exists x, opt_class (stretch_class a n) = [x] /\ rank x = k.
Proof. intros R. unfold stretch_class. destruct (_ && _); [right; cbn [opt_class]; eexists; eauto | now left]. Qed.
Lemma colour_rank c (fg : bool) : opt_class (color_to_class c default_colors fg) = [] \/ exists x, opt_class (color_to_class c default_colors fg) = [x] /\ rank x = (if fg then 12 else 13).
Proof.
  unfold color_to_class. repeat (match goal with |- context [if rgba_eqb ?a ?b then _ else _] => destruct (rgba_eqb a b) end); destruct fg; try (now left); right; eexists; (split; [reflexivity | reflexivity]).
Qed.
Lemma classes_once s : NoDup (span_classes s default_colors).
Proof.
  enough (R : ranked 1 (span_classes s default_colors)) by exact (proj1 R). unfold span_classes. cbv zeta.
  repeat (apply ranked_app; [first [apply if_rank; reflexivity | apply stretch_rank; reflexivity | idtac]|]).
  - destruct (_ ++ _); [now left | right; eexists; split; reflexivity].
  - destruct (s_font s); try (now left); right; eexists; split; reflexivity.
  - exact (colour_rank _ true).
  - rewrite <- app_nil_r. apply ranked_app; [exact (colour_rank _ false) | apply ranked_nil].
Qed.

(** ** Pieces of text *)
Definition html_low (H h : Z) : Z := f32_trunc (f32_sub (f32_mul (f32_of H) (f32_round 78 100)) (f32_mul (f32_of h) (f32_round 78 100))).
Definition aligned_ok (H h : Z) : bool :=
  let t := html_low H h in (0 <=? t) && (t + h <=? H) && (Z.abs (100 * t + 78 * h - 78 * H) <=? 100).
Lemma all_aligned : forallb (fun H => forallb (fun h => (H <? h) || aligned_ok H h) sizes) sizes = true.
Proof. vm_compute. reflexivity. Qed.
Lemma aligned_ok_spec H h : aligned_ok H h = true -> aligned H h (html_low H h).
Proof. unfold aligned_ok, aligned. generalize (html_low H h). intros t B. cbv zeta in B. lia. Qed.
Lemma pairwise (f : Z -> Z -> bool) l : forallb (fun a => forallb (fun b => (a <? b) || f a b) l) l = true -> forall a b, In a l -> In b l -> b <= a -> f a b = true.
Proof.
  intros A a b Ia Ib L. rewrite forallb_forall in A. specialize (A _ Ia). cbv beta in A. rewrite forallb_forall in A. specialize (A _ Ib). cbv beta in A.
  assert (N : (a <? b) = false) by (clear - L; lia). rewrite N in A. exact A.
Qed.
Lemma html_low_aligned H h : In H sizes -> In h sizes -> h <= H -> aligned H h (html_low H h).
Proof. intros IH Ih L. apply aligned_ok_spec. exact (pairwise aligned_ok sizes all_aligned H h IH Ih L). Qed.
Lemma line_high l : Forall span_wf l -> forall m, (m = 0 \/ In m sizes) ->
  let H := fold_left (fun h s => Z.max h (s_character_height s)) l m in
  m <= H /\ Forall (fun s => s_character_height s <= H) l /\ (H = 0 \/ In H sizes).
Proof.
  induction l as [|s l IH]; intros F m M; cbn [fold_left].
  - split; [lia|]. split; [constructor | exact M].
  - apply Forall_cons_iff in F. destruct F as (F1 & F2).
    assert (M' : Z.max m (s_character_height s) = 0 \/ In (Z.max m (s_character_height s)) sizes).
    { pose proof (size_in _ F1) as I. destruct (Z.max_spec m (s_character_height s)) as [(_ & ->)|(_ & ->)]; auto. }
    destruct (IH F2 _ M') as (A & B & C). cbv zeta in A, B, C |- *. split; [lia|]. split; [constructor; [lia | exact B] | exact C].
Qed.
Lemma line_sizes l : Forall span_wf l -> l <> [] -> In (line_height l) sizes /\ Forall (fun s => s_character_height s <= line_height l) l.
Proof.
  intros F N. destruct (line_high l F 0 (or_introl eq_refl)) as (_ & B & C). cbv zeta in B, C. change (fold_left (fun h s => Z.max h (s_character_height s)) l 0) with (line_height l) in B, C.
  split; [|exact B]. destruct C as [C|C]; [|exact C]. destruct l as [|s l]; [congruence|]. apply Forall_cons_iff in B. destruct B as (B & _).
  apply Forall_cons_iff in F. destruct F as (W & _). exfalso. destruct (sw_base _ W) as (_ & B1 & _). destruct (sw_height _ W) as (m & M & E). nia.
Qed.
Lemma low_u32 H h t : In H sizes -> aligned H h t -> 0 < h -> u32v t.
Proof. intros I (A & B & _) P. assert (H <= 192) by (unfold sizes in I; cbn [flat_map map app In] in I; lia). unfold u32v, u32_max. lia. Qed.
Lemma span_html_eq k off H s : span_to_html k off H s =
  (let '(x, y) := match s_dimensions s with None => (0, 0) | Some d => (d_x d, d_y d) end in
  do left_px <- add_u32 off x;
  Ok (y, str "<span style='left: " ++ dec_u32 left_px ++ str "px; top: " ++ dec_u32 (html_low H (s_character_height s)) ++ str "px' class='" ++
         HtmlRenderer.join [32] (span_classes s k) ++ str "'>" ++ s_text s ++ str "</span>")).
Proof. unfold span_to_html, html_low. cbv zeta. reflexivity. Qed.
Lemma span_run off H s y c : span_wf s -> In H sizes -> s_character_height s <= H -> span_to_html default_colors off H s = Ok (y, c) ->
  exists r, run_is r c /\ says off H s r.
Proof.
  intros W IH L E. rewrite span_html_eq in E.
  pose proof (html_low_aligned H _ IH (size_in _ W) L) as Al. set (low := html_low H (s_character_height s)) in *. clearbody low.
  set (xs := match s_dimensions s with Some d => d_x d | None => 0 end).
  assert (E' : exists lp, add_u32 off xs = Ok lp /\ c = str "<span style='left: " ++ dec_u32 lp ++ str "px; top: " ++ dec_u32 low ++ str "px' class='" ++
         HtmlRenderer.join [32] (span_classes s default_colors) ++ str "'>" ++ s_text s ++ str "</span>").
  { unfold xs. destruct (s_dimensions s) as [d|]; apply bind_ok in E; destruct E as (lp & E1 & E); exists lp; (split; [exact E1|]);
      apply ok_inj in E; apply (f_equal snd) in E; cbn [snd] in E; symmetry; exact E. }
  destruct E' as (lp & E1 & Ec). destruct (add_u32v _ _ _ E1) as (El & Ul).
  exists (mk_run lp low (span_classes s default_colors) (s_text s)). split.
  - exists (dec_u32 lp), (dec_u32 low). cbn [ru_left ru_top ru_classes ru_text]. split; [exact (dec_writes _ Ul)|]. split.
    + apply dec_writes. refine (low_u32 _ _ _ IH Al _). destruct (sw_base _ W) as (_ & B1 & _). destruct (sw_height _ W) as (m & M & ->). nia.
    + rewrite Ec, join_between. reflexivity.
  - unfold says. cbn [ru_left ru_top ru_classes ru_text]. split; [reflexivity|]. split; [exact El|]. split; [exact Al|]. split; [apply classes_once | apply classes_for].
Qed.
Lemma spans_runs off H l : In H sizes -> Forall (fun s => span_wf s /\ s_character_height s <= H) l -> forall h m html h' m' html',
  fold_res (spans_step default_colors off H) l (h, m, html) = Ok (h', m', html') ->
  exists runs pieces, html' = html ++ pieces /\ Forall2 run_is runs pieces /\ Forall2 (says off H) l runs.
Proof.
  intros IH. induction l as [|s l IHl]; intros F h m html h' m' html' E; cbn [fold_res] in E.
  - injection E as _ _ <-. exists [], []. rewrite app_nil_r. split; [reflexivity | split; constructor].
  - apply Forall_cons_iff in F. destruct F as ((W & L) & F). apply bind_ok in E. destruct E as ([[h1 m1] html1] & E1 & E). unfold spans_step in E1.
    apply bind_ok in E1. destruct E1 as ([y c] & E1 & E2). injection E2 as _ _ <-. destruct (span_run _ _ _ _ _ W IH L E1) as (r & R1 & R2).
    destruct (IHl F _ _ _ _ _ _ E) as (runs & pieces & -> & A & B). exists (r :: runs), (c :: pieces). rewrite <- app_assoc.
    split; [reflexivity | split; constructor; assumption].
Qed.
Lemma text_shows pn spans off mh j r : event_wf (EText spans off mh j) -> spans <> [] -> spans_to_html default_colors spans off mh = Ok r ->
  shows pn (EText spans off mh j) (row_y r) (row_height r) (row_content r).
Proof.
  intros (F & _ & ->) N E. destruct (line_sizes _ F N) as (IH & L). unfold shows.
  pose proof (spans_box _ _ _ _ j _ N F E) as (_ & _ & G). unfold spans_to_html in E. destruct spans as [|s0 l0]; [congruence|]. set (l := s0 :: l0) in *.
  apply bind_ok in E. destruct E as ([[h m] html] & E1 & E). apply ok_inj in E. subst r. cbn [row_y row_height row_content] in *.
  assert (Fl : Forall (fun s => span_wf s /\ s_character_height s <= line_height l) l).
  { apply Forall_forall. intros s Hs. split; [exact (proj1 (Forall_forall _ _) F _ Hs) | exact (proj1 (Forall_forall _ _) L _ Hs)]. }
  destruct (spans_runs _ _ _ IH Fl _ _ _ _ _ _ E1) as (runs & pieces & -> & A & B). exists runs, pieces. cbn [app]. rewrite join_between.
  split; [reflexivity|]. split; [exact A|]. split; [exact B|]. apply spans_fold in E1. destruct E1 as (-> & _). reflexivity.
Qed.

(** ** Rectangles *)
Lemma svg_pieces mx my l : Forall rect_wf l -> Forall (fun r => mx <= r_x r) l -> Forall (fun r => my <= r_y r) l -> 0 <= mx -> 0 <= my ->
  forall w h svg w' h' svg', fold_res (svg_step mx my) l (w, h, svg) = Ok (w', h', svg') -> 0 <= w -> 0 <= h -> u32v w -> u32v h ->
  w <= w' /\ h <= h' /\ u32v w' /\ u32v h' /\
  exists drawing pieces, svg' = svg ++ pieces /\ Forall2 rect_is drawing pieces /\ Forall2 (moved_by mx my) drawing l /\ Forall (inside w' h') drawing.
Proof.
  induction l as [|q l IH]; intros F Fx Fy Px Py w h svg w' h' svg' E W H Uw Uh; cbn [fold_res] in E.
  - injection E as <- <- <-. split; [lia|]. split; [lia|]. split; [exact Uw|]. split; [exact Uh|]. exists [], []. rewrite app_nil_r. split; [reflexivity|]. split; [constructor|]. split; constructor.
  - apply Forall_cons_iff in F. destruct F as (F1 & F). apply Forall_cons_iff in Fx. destruct Fx as (X1 & Fx). apply Forall_cons_iff in Fy. destruct Fy as (Y1 & Fy).
    apply bind_ok in E. destruct E as ([[w1 h1] svg1] & E1 & E). unfold svg_step in E1. cbv zeta in E1. apply bind_ok in E1. destruct E1 as (xe & Hx & E1).
    apply bind_ok in E1. destruct E1 as (ye & Hy & E1). injection E1 as E1 E2 E3. destruct (add_u32v _ _ _ Hx) as (Ex & Ux). destruct (add_u32v _ _ _ Hy) as (Ey & Uy).
    destruct F1 as (R1 & R2 & R3 & R4).
    assert (Sx : sat_sub (r_x q) mx = r_x q - mx) by (unfold sat_sub; lia). assert (Sy : sat_sub (r_y q) my = r_y q - my) by (unfold sat_sub; lia).
    rewrite Sx in *. rewrite Sy in *. assert (Uw1 : u32v w1) by (unfold u32v in *; lia). assert (Uh1 : u32v h1) by (unfold u32v in *; lia).
    destruct (IH F Fx Fy Px Py _ _ _ _ _ _ E ltac:(lia) ltac:(lia) Uw1 Uh1) as (A & B & C & D & drawing & pieces & -> & G1 & G2 & G3).
    split; [lia|]. split; [lia|]. split; [exact C|]. split; [exact D|].
    exists (mk_rectangle (r_x q - mx) (r_y q - my) (r_w q) (r_h q) :: drawing), (svg_rect q (r_x q - mx) (r_y q - my) :: pieces).
    split; [rewrite <- E3, <- app_assoc; reflexivity|]. split; [|split].
    + constructor; [|exact G1]. exists (dec_u32 (r_w q)), (dec_u32 (r_h q)), (dec_u32 (r_x q - mx)), (dec_u32 (r_y q - my)). cbn [r_x r_y r_w r_h].
      split; [apply dec_writes; unfold u32v in *; lia|]. split; [apply dec_writes; unfold u32v in *; lia|]. split; [apply dec_writes; unfold u32v in *; lia|].
      split; [apply dec_writes; unfold u32v in *; lia | reflexivity].
    + constructor; [|exact G2]. unfold moved_by. cbn [r_x r_y r_w r_h]. lia.
    + constructor; [|exact G3]. unfold inside. cbn [r_x r_y r_w r_h]. unfold u32v in *. lia.
Qed.
Lemma svg_shows pn rects r : Forall rect_wf rects -> rects <> [] -> graphics_to_svg rects = Ok r -> shows pn (EGraphics rects) (row_y r) (row_height r) (row_content r).
Proof.
  intros F N E. unfold graphics_to_svg in E. destruct rects as [|a l0]; [congruence|]. set (l := a :: l0) in *. cbv zeta in E.
  apply bind_ok in E. destruct E as ([[w h] svg] & E1 & E). apply ok_inj in E. subst r. cbn [row_y row_height row_content].
  assert (LX : least (least_x l) (map r_x l)).
  { apply fold_min; [exact N|]. eapply Forall_impl; [|exact F]. intros r (A & _). unfold u32v, u32_max in *. lia. }
  assert (LY : least (least_y l) (map r_y l)).
  { apply fold_min; [exact N|]. eapply Forall_impl; [|exact F]. intros r (_ & A & _). unfold u32v, u32_max in *. lia. }
  set (mx := least_x l) in *. set (my := least_y l) in *. clearbody mx my.
  assert (UX : u32v mx). { destruct LX as (I & _). apply in_map_iff in I. destruct I as (q & <- & I). exact (proj1 (proj1 (Forall_forall _ _) F _ I)). }
  assert (UY : u32v my). { destruct LY as (I & _). apply in_map_iff in I. destruct I as (q & <- & I). exact (proj1 (proj2 (proj1 (Forall_forall _ _) F _ I))). }
  destruct LX as (_ & LX). destruct LY as (_ & LY). rewrite Forall_map in LX, LY.
  destruct (svg_pieces mx my l F LX LY ltac:(unfold u32v in UX; lia) ltac:(unfold u32v in UY; lia) 0 0 [] w h svg E1 ltac:(lia) ltac:(lia) ltac:(unfold u32v, u32_max; lia) ltac:(unfold u32v, u32_max; lia))
    as (_ & _ & Uw & Uh & drawing & pieces & -> & A & B & C).
  exists mx, w, (dec_u32 mx), (dec_u32 w), (dec_u32 h), drawing, pieces. cbn [app]. rewrite join_between. split; [reflexivity|]. split; [exact (dec_writes _ UX)|].
  split; [exact (dec_writes _ Uw)|]. split; [exact (dec_writes _ Uh)|]. auto.
Qed.
Lemma image_shows pn i r : event_wf (EImage i) -> encode_html_image pn i = Ok r -> shows pn (EImage i) (row_y r) (row_height r) (row_content r).
Proof.
  intros (W & Ux & Uy) E. unfold encode_html_image in E. destruct (pn (i_w i) (i_h i) (as_rgba_u8 i)) as [d|] eqn:P; [|discriminate]. apply ok_inj in E. subst r. cbn [row_y row_height row_content].
  exists (dec_u32 (i_x i)), (dec_u32 (i_w i)), d. split; [reflexivity|]. split; [exact (dec_writes _ Ux)|]. split; [|exact P]. apply dec_writes.
  exact (iw_w _ W).
Qed.
