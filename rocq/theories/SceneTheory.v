(** * SceneTheory: the strokes on the paper and the scene are the same picture. *)
From Verif Require Import Base Vec Float32 GTypes Graphics Context Text Renderer ContextTheory RendererTheory Origin SpecPrinter StateTheory AreaTheory CallsTheory
  SpecRender ThermalImage SpecCanvas CanvasTheory CanvasRect ImageRenderer SpecImage ImageTheory SpecDraw DrawTheory PropsLines PropsCells InkTheory HueTheory SpecScene GlyphTheory PixelTheory GraphicsTheory.
Local Open Scope Z_scope.
Local Open Scope list_scope.
Local Arguments at_ : simpl never.
Local Arguments vlen : simpl never.

Definition same (p q : picture) : Prop := forall X Y, p X Y = q X Y.
Definition fair (p : picture) : Prop := forall X Y, opaque (p X Y).
Lemma same_refl p : same p p.
Proof. intros X Y. reflexivity. Qed.
Lemma same_trans p q r : same p q -> same q r -> same p r.
Proof. intros A B X Y. rewrite A. apply B. Qed.
Lemma draw_same W s p q : same p q -> same (draw W s p) (draw W s q).
Proof.
  intros S X Y. destruct s as [x y w h px|x y w h]; cbn [draw].
  - rewrite S. reflexivity.
  - destruct (x + w <=? W); [|apply S]. rewrite !S. reflexivity.
Qed.
Lemma drawing_same W l : forall p q, same p q -> same (drawing W l p) (drawing W l q).
Proof. induction l as [|s l IH]; intros p q S; [exact S|]. apply (IH (draw W s p) (draw W s q)). apply draw_same. exact S. Qed.
Lemma drawing_app W a b p : drawing W (a ++ b) p = drawing W b (drawing W a p).
Proof. apply fold_left_app. Qed.

(** [f] tells which strokes to draw, [g] what they look like. *)
Definition likeness (W : Z) (l : list stroke) (g : picture -> picture) : Prop :=
  forall p q, same p q -> fair q -> same (drawing W l p) (g q) /\ fair (g q).
Lemma likeness_one W s g : (forall q, fair q -> same (draw W s q) (g q) /\ fair (g q)) -> likeness W [s] g.
Proof. intros L p q S F. destruct (L q F) as (A & B). split; [|exact B]. exact (same_trans _ _ _ (draw_same _ s _ _ S) A). Qed.
Lemma likeness_id W : likeness W [] (fun p => p).
Proof. intros p q S F. exact (conj S F). Qed.
Lemma likeness_app W a b f g : likeness W a f -> likeness W b g -> likeness W (a ++ b) (fun p => g (f p)).
Proof. intros A B p q S F. rewrite drawing_app. destruct (A _ _ S F) as (A1 & A2). exact (B _ _ A1 A2). Qed.
Lemma likeness_fold {A} W (f : A -> list stroke) (g : A -> picture -> picture) l : Forall (fun a => likeness W (f a) (g a)) l ->
  likeness W (flat_map f l) (fun p => fold_left (fun p a => g a p) l p).
Proof.
  induction l as [|a l IH]; intros F; [apply likeness_id|]. apply Forall_cons_iff in F. destruct F as (F1 & F2).
  cbn [flat_map fold_left]. exact (likeness_app _ _ _ _ _ F1 (IH F2)).
Qed.

(** ** Strokes *)
Lemma blank_printable : printable rgba_blank.
Proof. split; [unfold bytes3; cbn; lia | right; left; reflexivity]. Qed.
Lemma opaque_printable c : opaque c -> printable c.
Proof. intros O. exact (inked_printable _ (opaque_inked _ O)). Qed.
Lemma paint_like W x y w h px (g : picture -> picture) :
  (forall q X Y, g q X Y = if covers x y w h X Y then press (q X Y) (block px w (X - x) (Y - y)) else q X Y) ->
  (forall i j, 0 <= i < w -> 0 <= j < h -> printable (block px w i j)) -> likeness W [Paint x y w h px] g.
Proof.
  intros G P. apply likeness_one. intros q F.
  assert (E : forall X Y, draw W (Paint x y w h px) q X Y = g q X Y).
  { intros X Y. cbn [draw]. rewrite G. destruct (covers x y w h X Y) eqn:C; [|reflexivity]. apply press_printable; [exact (proj1 (F X Y))|]. apply P; unfold covers in C; lia. }
  split; [exact E|]. intros X Y. rewrite G. destruct (covers x y w h X Y) eqn:C; [|apply F]. apply press_stays; [apply F|]. apply P; unfold covers in C; lia.
Qed.
Lemma block_repeat col w h i j : 0 <= i < w -> 0 <= j < h -> block (repeat col (Z.to_nat (w * h))) w i j = col.
Proof. intros Hi Hj. unfold block. apply at_repeat. nia. Qed.
Lemma rule_like W x y w h col : (0 < w -> opaque col) -> likeness W [line_of x y w h col] (rule x y w h col).
Proof.
  intros O. unfold line_of. apply paint_like.
  - intros q X Y. unfold rule. destruct (covers x y w h X Y) eqn:C; [|reflexivity]. rewrite block_repeat by (unfold covers in C; lia). reflexivity.
  - intros i j Hi Hj. rewrite block_repeat by assumption. apply opaque_printable, O. lia.
Qed.
Lemma picture_like W x y w h px : Forall printable px -> likeness W [Paint x y w h px] (picture_at x y w h px).
Proof.
  intros P. apply paint_like; [reflexivity|]. intros i j Hi Hj. unfold block, at_.
  destruct (nth_in_or_default (Z.to_nat (j * w + i)) px rgba_blank) as [I | ->]; [|apply blank_printable].
  exact (proj1 (Forall_forall _ _) P _ I).
Qed.
Lemma mirror_like W x y w h : likeness W [Mirror x y w h] (upside_down W x y w h).
Proof.
  apply likeness_one. intros q F. unfold upside_down. split.
  - intros X Y. cbn [draw]. destruct (x + w <=? W); [|reflexivity]. destruct (covers x y w h X Y); [|reflexivity]. apply blend_with_opaque, F.
  - intros X Y. destruct (x + w <=? W); [|apply F]. destruct (covers x y w h X Y); apply F.
Qed.

(** ** Letters *)
Definition row_of (fo : fonts) (w : text_span) (chars : ustring) (x y : Z) (p : picture) : picture := fun X Y =>
  let cw := s_character_width w in
  if covers x y (vlen chars * cw) (s_character_height w) X Y
  then match fo (s_bold w) (s_italic w) (s_font w) (drawn_at w) (at_ 0 chars ((X - x) / cw)) with
       | Some g => press (p X Y) (dot w g ((X - x) mod cw) (Y - y))
       | None => p X Y
       end
  else p X Y.
Definition one (fo : fonts) (w : text_span) (ch : Z) (x y : Z) (p : picture) : picture := fun X Y =>
  if covers x y (s_character_width w) (s_character_height w) X Y
  then match fo (s_bold w) (s_italic w) (s_font w) (drawn_at w) ch with
       | Some g => press (p X Y) (dot w g (X - x) (Y - y))
       | None => p X Y
       end
  else p X Y.
Lemma coverage_byte fo b i f sc ch g X Y : fonts_fine fo -> fo b i f sc ch = Some g -> 0 <= coverage g X Y <= 255.
Proof.
  intros F E. specialize (F b i f sc ch). rewrite E in F. destruct F as (_ & _ & _ & F). unfold coverage. destruct (_ && _); [|lia]. unfold at_.
  destruct (nth_in_or_default (Z.to_nat ((Y - gl_y g) * gl_width g + (X - gl_x g))) (gl_alpha g) 0) as [I | ->]; [|lia].
  exact (proj1 (Forall_forall _ _) F _ I).
Qed.
Lemma one_like W fo w ch x y : fonts_fine fo -> span_wf w -> opaque (s_background_color w) -> bytes3 (s_text_color w) ->
  likeness W (match render_char fo w ch with Ok (Some (px, a, b)) => [Paint x y a b px] | _ => [] end) (one fo w ch x y).
Proof.
  intros FF Wf OB BC. pose proof (char_dots fo w ch FF Wf OB BC) as D. unfold one.
  destruct (fo (s_bold w) (s_italic w) (s_font w) (drawn_at w) ch) as [g|] eqn:G.
  - destruct D as (px & -> & D). apply paint_like.
    + intros q X Y. destruct (covers x y (s_character_width w) (s_character_height w) X Y) eqn:C; [|reflexivity]. rewrite D by (unfold covers in C; lia). reflexivity.
    + intros i j Hi Hj. rewrite D by assumption. apply opaque_printable. unfold dot. apply fade_opaque; [exact OB | exact BC|]. exact (coverage_byte _ _ _ _ _ _ _ _ _ FF G).
  - rewrite D. intros p q S F. split; [|intros X Y; destruct (covers _ _ _ _ _ _); apply F]. intros X Y. cbn [drawing fold_left]. rewrite S. destruct (covers _ _ _ _ _ _); reflexivity.
Qed.
Lemma at_next {A} (d : A) a l k : 0 <= k -> at_ d (a :: l) (k + 1) = at_ d l k.
Proof. intros K. unfold at_. replace (Z.to_nat (k + 1)) with (S (Z.to_nat k)) by lia. reflexivity. Qed.
Lemma row_cons fo w ch r x y q X Y : 0 < s_character_width w ->
  row_of fo w (ch :: r) x y q X Y = row_of fo w r (x + s_character_width w) y (one fo w ch x y q) X Y.
Proof.
  intros P. unfold row_of, one. cbv zeta. set (cw := s_character_width w) in *. clearbody cw. rewrite (vlen_cons ch r).
  pose proof (vlen_nonneg r) as N. set (n := vlen r) in *. clearbody n.
  assert (NC : 0 <= n * cw) by nia.
  destruct (Z_lt_dec X (x + cw)) as [L|L].
  - assert (C1 : covers (x + cw) y (n * cw) (s_character_height w) X Y = false) by (unfold covers; lia). rewrite C1.
    assert (C2 : covers x y ((1 + n) * cw) (s_character_height w) X Y = covers x y cw (s_character_height w) X Y) by (unfold covers; nia). rewrite C2.
    destruct (covers x y cw (s_character_height w) X Y) eqn:C; [|reflexivity]. unfold covers in C.
    rewrite Z.div_small, Z.mod_small by lia. reflexivity.
  - assert (C1 : covers x y cw (s_character_height w) X Y = false) by (unfold covers; lia). rewrite C1.
    assert (C2 : covers x y ((1 + n) * cw) (s_character_height w) X Y = covers (x + cw) y (n * cw) (s_character_height w) X Y) by (unfold covers; nia). rewrite C2.
    destruct (covers (x + cw) y (n * cw) (s_character_height w) X Y) eqn:C; [|reflexivity].
    replace (X - x) with (X - (x + cw) + 1 * cw) by lia. rewrite Z.div_add, Z.mod_add by lia. rewrite at_next by (apply Z.div_pos; lia). reflexivity.
Qed.
Lemma row_like W fo w y : fonts_fine fo -> span_wf w -> opaque (s_background_color w) -> bytes3 (s_text_color w) ->
  forall chars x, likeness W (cells fo w x y chars) (row_of fo w chars x y).
Proof.
  intros FF Wf OB BC.
  assert (P : 0 < s_character_width w) by (destruct (sw_base _ Wf) as (B1 & _); destruct (sw_width _ Wf) as (m & M & ->); nia).
  induction chars as [|ch r IH]; intros x; cbn [cells].
  - intros p q S F. assert (E : forall X Y, row_of fo w [] x y q X Y = q X Y) by (intros X Y; unfold row_of; change (vlen []) with 0; replace (covers x y (0 * s_character_width w) (s_character_height w) X Y) with false by (unfold covers; lia); reflexivity).
    split; intros X Y; rewrite E; [apply S | apply F].
  - pose proof (likeness_app _ _ _ _ _ (one_like W fo w ch x y FF Wf OB BC) (IH (x + s_character_width w))) as L.
    intros p q S F. destruct (L p q S F) as (A & B). split; intros X Y; rewrite row_cons by exact P; [apply A | apply B].
Qed.

(** ** Words *)
Lemma check2 {A B} (f g : A -> B -> Z) la lb : forallb (fun a => forallb (fun b => f a b =? g a b) lb) la = true -> forall a b, In a la -> In b lb -> f a b = g a b.
Proof. intros H a b Ia Ib. rewrite forallb_forall in H. specialize (H a Ia). rewrite forallb_forall in H. specialize (H b Ib). apply Z.eqb_eq. exact H. Qed.
Lemma check3 {A B C} (f g : A -> B -> C -> Z) (skip : B -> C -> bool) la lb lc :
  forallb (fun a => forallb (fun b => forallb (fun c => skip b c || (f a b c =? g a b c)) lc) lb) la = true ->
  forall a b c, In a la -> In b lb -> In c lc -> skip b c = false -> f a b c = g a b c.
Proof.
  intros H a b c Ia Ib Ic S. rewrite forallb_forall in H. specialize (H a Ia). rewrite forallb_forall in H. specialize (H b Ib). rewrite forallb_forall in H. specialize (H c Ic).
  rewrite S in H. apply Z.eqb_eq. exact H.
Qed.
Lemma font_in f : In f all_fonts.
Proof. destruct f; cbn [In all_fonts]; auto 10. Qed.
Definition shift_of (f : font) (H h : Z) : Z :=
  if 0 <? H - h then f32_trunc (f32_sub (f32_mul (f32_of H) (baseline_of f)) (f32_mul (f32_of h) (baseline_of f))) else H - h.
Lemma depth_exact f h : In h sizes -> f32_trunc (f32_mul (f32_of h) (baseline_of f)) = h * base_line f / 1000000.
Proof.
  revert f h. assert (G : forall f h, In f all_fonts -> In h sizes -> f32_trunc (f32_mul (f32_of h) (baseline_of f)) = h * base_line f / 1000000).
  { apply (check2 (fun f h => f32_trunc (f32_mul (f32_of h) (baseline_of f))) (fun f h => h * base_line f / 1000000)). vm_compute. reflexivity. }
  intros f h. apply G. apply font_in.
Qed.
Lemma middle_exact h : In h sizes -> f32_trunc (f32_div (f32_of h) (f32_round 25 10)) = h * 2 / 5.
Proof.
  revert h. assert (G : forall (u : unit) h, In u [tt] -> In h sizes -> f32_trunc (f32_div (f32_of h) (f32_round 25 10)) = h * 2 / 5).
  { apply (check2 (fun _ h => f32_trunc (f32_div (f32_of h) (f32_round 25 10))) (fun _ h => h * 2 / 5)). vm_compute. reflexivity. }
  intros h. apply (G tt). left. reflexivity.
Qed.
Lemma shift_exact f H h : In H sizes -> In h sizes -> (H <? h) = false -> shift_of f H h = (H - h) * base_line f / 1000000.
Proof.
  revert f H h. assert (G : forall f H h, In f all_fonts -> In H sizes -> In h sizes -> (H <? h) = false -> shift_of f H h = (H - h) * base_line f / 1000000).
  { apply (check3 shift_of (fun f H h => (H - h) * base_line f / 1000000) Z.ltb). vm_compute. reflexivity. }
  intros f H h. apply G. apply font_in.
Qed.
Lemma lowered_exact H w : In H sizes -> span_wf w -> s_character_height w <= H -> lowered H w = Ok ((H - s_character_height w) * base_line (s_font w) / 1000000).
Proof.
  intros IH W LE. assert (N : (H <? s_character_height w) = false) by lia. rewrite <- (shift_exact (s_font w) H _ IH (size_in _ W) N). clear N.
  unfold lowered, shift_of, sub_u32. assert (P0 : 0 < s_character_height w).
  { destruct (sw_base _ W) as (_ & B1 & _). destruct (sw_height _ W) as (m & M & ->). nia. }
  assert (HB : H <= 192) by (unfold sizes in IH; cbn [flat_map map app In] in IH; lia).
  rewrite GraphicsTheory.chk_ok by (unfold u32_max; lia). reflexivity.
Qed.
Definition coloured (w : text_span) : Prop := s_text w <> [] -> colours (s_text_color w) /\ colours (s_background_color w).
Lemma letters_like W fo w x y : fonts_fine fo -> span_wf w -> coloured w -> likeness W (cells fo w x y (s_text w)) (letters fo w x y).
Proof.
  intros FF Wf C. destruct (s_text w) as [|ch r] eqn:T.
  - intros p q S F. assert (E : forall X Y, letters fo w x y q X Y = q X Y) by (intros X Y; unfold letters; rewrite T; change (vlen []) with 0; cbv zeta; replace (covers x y (0 * s_character_width w) (s_character_height w) X Y) with false by (unfold covers; lia); reflexivity).
    split; intros X Y; rewrite E; [apply S | apply F].
  - rewrite <- T. assert (N : s_text w <> []) by congruence. destruct (C N) as (C1 & C2). apply colours_opaque in C1, C2.
    exact (row_like W fo w y FF Wf C2 (proj1 C1) (s_text w) x).
Qed.
Lemma likeness_if W (b : bool) l g : likeness W l g -> likeness W (if b then l else []) (fun p => if b then g p else p).
Proof. intros L. destruct b; [exact L | apply likeness_id]. Qed.
Lemma word_like W fo off mh w : fonts_fine fo -> span_wf w -> coloured w -> In mh sizes -> s_character_height w <= mh ->
  likeness W (span_strokes fo off mh w) (word fo W off mh w).
Proof.
  intros FF Wf C IH LE. unfold span_strokes, word. pose proof (sw_dims _ Wf) as D. destruct (s_dimensions w) as [d|]; [|apply likeness_id].
  destruct D as (_ & _ & DW & _ & DH). rewrite (lowered_exact _ _ IH Wf LE). rewrite (depth_exact _ _ (size_in _ Wf)), (middle_exact _ (size_in _ Wf)). cbv zeta.
  set (x := d_x d + off). set (y := d_y d + _). set (de := _ * base_line (s_font w) / 1000000). set (mi := _ * 2 / 5).
  assert (O : 0 < d_w d -> opaque (s_text_color w)).
  { intros P. apply colours_opaque. apply C. intros T. rewrite T in DW. change (vlen []) with 0 in DW. lia. }
  pose proof (likeness_if W (s_upside_down w) _ _ (mirror_like W x y (d_w d) (d_h d))) as L4.
  pose proof (likeness_if W (0 <? s_strikethrough w) _ _ (rule_like W x (y + mi) (d_w d) (s_strikethrough w) (s_text_color w) O)) as L3.
  pose proof (likeness_if W (0 <? s_underline w) _ _ (rule_like W x (y + 3 + de) (d_w d) 1 (s_text_color w) O)) as L2.
  exact (likeness_app _ _ _ _ _ (letters_like W fo w x y FF Wf C) (likeness_app _ _ _ _ _ L2 (likeness_app _ _ _ _ _ L3 L4))).
Qed.

(** ** Calls *)
Definition ready (call : context * event) : Prop :=
  hue_call call /\ match snd call with EText spans _ mh _ => In mh sizes /\ Forall (fun w => span_wf w /\ s_character_height w <= mh /\ coloured w) spans | _ => True end.
Lemma sketch_like W fo call : fonts_fine fo -> ready call -> likeness W (strokes fo call) (sketch fo W call).
Proof.
  destruct call as [x ev]. intros FF (R & T). unfold strokes, sketch. cbn [fst snd] in *. destruct (p_enabled (c_page x)); [apply likeness_id|].
  destruct ev; try apply likeness_id.
  - assert (E : forall l, map (fun r => line_of (r_x r) (r_y r) (r_w r) (r_h r) (t_color (c_text x))) l = flat_map (fun r => [line_of (r_x r) (r_y r) (r_w r) (r_h r) (t_color (c_text x))]) l)
      by (induction l as [|r l IH]; [reflexivity | cbn [map flat_map app]; rewrite IH; reflexivity]).
    rewrite E. apply (likeness_fold W _ (fun r => rule (r_x r) (r_y r) (r_w r) (r_h r) (t_color (c_text x)))). apply Forall_forall. intros r _. apply rule_like. intros _. exact (colours_opaque _ R).
  - exact (likeness_app _ [_] _ _ _ (picture_like W (i_x i) (i_y i) (i_w i) (i_h i) _ R) (likeness_if _ (i_upside_down i) _ _ (mirror_like W (i_x i) (i_y i) (i_w i) (i_h i)))).
  - destruct T as (IH & T). apply (likeness_fold W _ (fun w => word fo W x_offset max_height w)).
    apply Forall_forall. intros w Hw. destruct (proj1 (Forall_forall _ _) T _ Hw) as (A & B & C). apply word_like; assumption.
Qed.
Lemma history_ready e s : history e s -> Forall ready (rs_calls s).
Proof.
  intros Hh. pose proof (history_hue _ _ Hh) as Hu. apply Forall_forall. intros c Hc. split; [exact (proj1 (Forall_forall _ _) Hu _ Hc)|].
  destruct c as [x ev]. cbn [snd]. destruct ev; try exact Logic.I. destruct (call_sizes _ _ _ _ _ _ _ Hh Hc) as (A & B). split; [exact A|].
  apply Forall_forall. intros w Hw. destruct (proj1 (Forall_forall _ _) B _ Hw) as (B1 & B2). split; [exact B1 | split; [exact B2|]].
  intros N. exact (history_colours _ _ _ _ _ _ _ _ Hh Hc Hw N).
Qed.
Lemma scene_like W fo calls : fonts_fine fo -> Forall ready calls -> likeness W (flat_map (strokes fo) calls) (scene fo W calls).
Proof.
  intros FF R. apply (likeness_fold W (strokes fo) (fun c => sketch fo W c)). rewrite Forall_forall in *. intros c Hc. apply sketch_like; [exact FF | apply R, Hc].
Qed.
