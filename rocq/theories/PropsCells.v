(** * PropsCells: C54, characters of different size on one line. *)
From Verif Require Import Base Command CommandSet Parser Vec Float32 GTypes Graphics Utf8 Decoder Context Text
  Upce Handlers Renderer ContextTheory RendererTheory Origin SpecPrinter StateTheory PropsText SpecRender
  PropsOutput LayoutTheory AreaTheory PlaceTheory PropsContext PropsLayout PropsPlace CallsTheory ThermalImage ImageRenderer SpecImage SpecLines PropsLines GraphicsTheory.
Local Open Scope Z_scope.
Local Open Scope list_scope.

Definition sizes : list Z := flat_map (fun b => map (fun m => b * m) [1; 2; 3; 4; 5; 6; 7; 8]) [24; 17].
Definition all_fonts : list font := [FontA; FontB; FontC; FontD; FontE; FontSpecialA; FontSpecialB].
Definition depth (f : font) (h : Z) : Z := f32_trunc (f32_mul (f32_of h) (baseline_of f)).
Definition lowered_ok (f : font) (H h : Z) : bool :=
  let low := if 0 <? H - h then f32_trunc (f32_sub (f32_mul (f32_of H) (baseline_of f)) (f32_mul (f32_of h) (baseline_of f))) else H - h in
  (0 <=? low) && (low + h <=? H) && (depth f H - 1 <=? low + depth f h) && (low + depth f h <=? depth f H).
(** only three of the seven fonts differ in the place of their baseline *)
Definition base_font (f : font) : font := match f with FontB => FontB | FontC => FontC | _ => FontA end.
Definition base_fonts : list font := [FontA; FontB; FontC].
Lemma base_font_same f : baseline_of f = baseline_of (base_font f).
Proof. destruct f; reflexivity. Qed.
Lemma lowered_ok_base f H h : lowered_ok f H h = lowered_ok (base_font f) H h.
Proof. unfold lowered_ok, depth. rewrite (base_font_same f). reflexivity. Qed.
Lemma all_lowered : forallb (fun f => forallb (fun H => forallb (fun h => (H <? h) || lowered_ok f H h) sizes) sizes) base_fonts = true.
Proof. vm_compute. reflexivity. Qed.
Lemma size_in w : span_wf w -> In (s_character_height w) sizes.
Proof.
  intros W. destruct (sw_base _ W) as (_ & _ & B). destruct (sw_height _ W) as (m & M & E).
  assert (Im : In m [1; 2; 3; 4; 5; 6; 7; 8]) by (cbn [In]; lia).
  unfold sizes. apply in_flat_map. exists (s_base_character_height w). split; [destruct B as [-> | ->]; cbn [In]; auto|].
  rewrite E. exact (in_map (fun m => s_base_character_height w * m) _ _ Im).
Qed.
Lemma lowered_in H w : In H sizes -> span_wf w -> s_character_height w <= H -> exists low, lowered H w = Ok low /\
  0 <= low /\ low + s_character_height w <= H /\ depth (s_font w) H - 1 <= low + base_depth w <= depth (s_font w) H.
Proof.
  intros IH W LE. pose proof (size_in _ W) as Ih.
  assert (If : In (base_font (s_font w)) base_fonts) by (destruct (s_font w); cbn [In base_fonts base_font]; auto 10).
  pose proof (proj1 (forallb_forall _ _) all_lowered _ If) as A. cbv beta in A.
  pose proof (proj1 (forallb_forall _ _) A _ IH) as B. cbv beta in B. pose proof (proj1 (forallb_forall _ _) B _ Ih) as C. cbv beta in C. clear A B.
  assert (N : (H <? s_character_height w) = false) by lia. rewrite N in C. cbn [orb] in C. rewrite <- lowered_ok_base in C. unfold lowered_ok in C. cbv zeta in C.
  unfold lowered. assert (P0 : 0 < s_character_height w).
  { destruct (sw_base _ W) as (_ & B1 & _). destruct (sw_height _ W) as (m & M & ->). nia. }
  assert (HB : H <= 192) by (unfold sizes in IH; cbn [flat_map map app In] in IH; lia).
  unfold sub_u32. rewrite GraphicsTheory.chk_ok by (unfold u32_max; lia). cbn [bind]. eexists. split; [reflexivity|].
  fold (base_depth w) in C. change (depth (s_font w) (s_character_height w)) with (base_depth w) in C.
  set (low := if 0 <? H - s_character_height w then _ else _) in *. clearbody low. lia.
Qed.
Lemma call_sizes e s x line off h j : history e s -> In (x, EText line off h j) (rs_calls s) -> In h sizes /\ Forall (fun w => span_wf w /\ s_character_height w <= h) line.
Proof.
  intros Hh Hi. pose proof (C54_line _ _ _ _ _ _ _ Hh Hi) as (f & r & _ & _ & _ & _ & Ex & Al).
  pose proof (proj1 (Forall_forall _ _) (td_calls _ (history_tidy _ _ Hh)) _ Hi) as (_ & Wf & _).
  split.
  - apply Exists_exists in Ex. destruct Ex as (w & Hw & <-). exact (size_in _ (proj1 (Forall_forall _ _) Wf _ Hw)).
  - apply Forall_forall. intros w Hw. split; [exact (proj1 (Forall_forall _ _) Wf _ Hw) | exact (proj1 (Forall_forall _ _) Al _ Hw)].
Qed.
Lemma cells_top fo off h w d low : s_dimensions w = Some d -> lowered h w = Ok low -> cells_at fo off h w d (d_y d + low).
Proof.
  intros D L. unfold cells_at, span_strokes. rewrite D, L. cbv zeta. eexists. split; [reflexivity|]. rewrite !app_length.
  destruct (0 <? s_underline w), (0 <? s_strikethrough w), (s_upside_down w); cbn [length]; lia.
Qed.

(** *** C54: characters of different size.  On a line the characters of every word stay between the upper edge of
    the line and the lower edge of its highest characters, which are not moved; and the base lines of
    two words in the same font are at most a dot apart. *)
Theorem C54_cells : forall fo e s x line off h j w d, history e s -> In (x, EText line off h j) (rs_calls s) ->
  In w line -> s_dimensions w = Some d ->
  exists top, cells_at fo off h w d top /\ d_y d <= top /\ top + s_character_height w <= d_y d + h.
Proof.
  intros fo e s x line off h j w d Hh Hi Hw D. destruct (call_sizes _ _ _ _ _ _ _ Hh Hi) as (Is & F).
  destruct (proj1 (Forall_forall _ _) F _ Hw) as (W & LE). destruct (lowered_in _ _ Is W LE) as (low & L & A & B & _).
  exists (d_y d + low). split; [exact (cells_top _ _ _ _ _ _ D L)|]. lia.
Qed.
Theorem C54_base_line : forall fo e s x line off h j u v du dv, history e s -> In (x, EText line off h j) (rs_calls s) ->
  In u line -> In v line -> s_dimensions u = Some du -> s_dimensions v = Some dv -> s_font u = s_font v ->
  exists top_u top_v, cells_at fo off h u du top_u /\ cells_at fo off h v dv top_v /\
    (d_y du = d_y dv -> Z.abs (top_u + base_depth u - (top_v + base_depth v)) <= 1).
Proof.
  intros fo e s x line off h j u v du dv Hh Hi Hu Hv Du Dv Ef. destruct (call_sizes _ _ _ _ _ _ _ Hh Hi) as (Is & F).
  destruct (proj1 (Forall_forall _ _) F _ Hu) as (Wu & Lu). destruct (lowered_in _ _ Is Wu Lu) as (lu & L1 & _ & _ & B1).
  destruct (proj1 (Forall_forall _ _) F _ Hv) as (Wv & Lv). destruct (lowered_in _ _ Is Wv Lv) as (lv & L2 & _ & _ & B2).
  exists (d_y du + lu), (d_y dv + lv). split; [exact (cells_top _ _ _ _ _ _ Du L1)|]. split; [exact (cells_top _ _ _ _ _ _ Dv L2)|].
  intros E. rewrite Ef in B1. lia.
Qed.
