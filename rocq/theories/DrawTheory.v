(** * DrawTheory: drawing on the paper cannot fail (used by C59). *)
From Verif Require Import Base Vec Float32 GTypes Graphics Context Text Handlers Renderer ThermalImage SpecCanvas CanvasTheory CanvasRect ImageRenderer
  SpecRender LayoutTheory AreaTheory CallsTheory SpecLines PropsCells SpecDraw SpecScene.
Local Open Scope Z_scope.
Local Open Scope list_scope.
Local Arguments at_ : simpl never.
Local Arguments vlen : simpl never.

Definition HB : Z := 6600000.
Definition sheet (c : canvas) : Prop :=
  rectangular c /\ (cv_width c = 609 \/ cv_width c = 0) /\ cv_auto_grow c = true /\ get_canvas_height c <= HB.
Definition total (r : res canvas) : Prop := exists c', r = Ok c' /\ sheet c'.

Lemma sheet_error e c : sheet c -> sheet (push_cv_error e c).
Proof. intros (R & W & A & H). split; [exact R|]. split; [exact W|]. split; [exact A | exact H]. Qed.
Lemma put_total c x y w h px m : sheet c -> 0 <= x -> 0 <= y -> 0 <= w -> 0 <= h -> vlen px = w * h -> w * h <= u32_max ->
  (x < 609 -> x + w <= u32_max) -> y + h <= HB -> total (put_pixels x y w h px m c).
Proof.
  intros S X Y W H L A XW YH. pose proof S as (R & CW & AG & CH).
  destruct (Z_lt_ge_dec x (cv_width c)) as [XL|XG].
  - assert (E : cv_width c = 609) by lia. pose proof (rect_shows c R ltac:(lia)) as Sh. rewrite E in Sh.
    unfold HB in *.
    destruct (put_pixels_shows_gen c 609 _ _ x y w h px m Sh ltac:(lia) Y W H L) as (c' & P & SS & S').
    + rewrite AG. discriminate.
    + apply XW. lia.
    + rewrite AG. discriminate.
    + exact A.
    + rewrite AG. unfold u32_max. lia.
    + rewrite AG. unfold u32_max. lia.
    + exists c'. split; [exact P|]. split; [exact (shows_rect _ _ _ _ S')|]. split; [left; destruct S' as (_ & _ & E' & _); exact E'|].
      split; [destruct SS as (-> & _); exact AG|]. rewrite (shows_height _ _ _ _ S'), AG. unfold HB. lia.
  - unfold put_pixels, mul_u32. rewrite CanvasTheory.chk_ok by nia. cbn [bind]. replace (w * h <? vlen px) with false by lia.
    replace (cv_width c <=? x) with true by lia. cbn [orb]. eexists. split; [reflexivity | apply sheet_error; exact S].
Qed.
Lemma rect_total c x y w h color m : sheet c -> 0 <= x -> 0 <= y -> 0 <= w -> 0 <= h -> w * h <= u32_max ->
  (x < 609 -> x + w <= u32_max) -> y + h <= HB -> total (draw_rect x y w h color m c).
Proof.
  intros S X Y W H A XW YH. unfold draw_rect, mul_u32. rewrite CanvasTheory.chk_ok by nia. cbn [bind].
  apply put_total; try assumption. rewrite vlen_repeat. nia.
Qed.
Lemma flip_total c x y w h : sheet c -> 0 <= x -> 0 <= y -> 0 <= w -> 0 <= h -> w * h <= u32_max -> x + w <= u32_max -> y + h <= HB ->
  total (flip_pixels x y w h c).
Proof.
  intros S X Y W H A XW YH. pose proof S as (R & CW & AG & CH).
  destruct (Z_lt_ge_dec (cv_width c) (x + w)) as [XL|XG].
  { unfold flip_pixels, add_u32. rewrite CanvasTheory.chk_ok by lia. cbn [bind]. replace (cv_width c <? x + w) with true by lia.
    eexists. split; [reflexivity | exact S]. }
  destruct (Z.eq_dec (w * h) 0) as [Z0|Z0].
  - unfold flip_pixels. unfold add_u32 at 1. rewrite CanvasTheory.chk_ok by lia. cbn [bind]. replace (cv_width c <? x + w) with false by lia.
    unfold add_u32 at 1. rewrite CanvasTheory.chk_ok by (unfold HB, u32_max in *; lia). cbn [bind].
    assert (EX : exists c1, expand_to_height (y + h) c = Ok c1 /\ sheet c1 /\ cv_width c1 = cv_width c /\ cv_width c * (y + h) <= vlen (cv_bytes c1)).
    { assert (MW : 0 <= cv_width c * (y + h) <= u32_max) by (unfold HB, u32_max in *; nia).
      pose proof (rect_len c R) as RL. pose proof (height_nonneg c R) as HN.
      unfold expand_to_height, mul_u32. rewrite CanvasTheory.chk_ok by exact MW. cbn [bind].
      destruct (Z.leb_spec (cv_width c * (y + h)) (vlen (cv_bytes c))) as [LE|GT]; [exists c; auto|].
      eexists. split; [reflexivity|]. split; [|split; [reflexivity | cbn [set_cv_bytes cv_bytes]; rewrite vlen_app, vlen_repeat; lia]].
      assert (W9 : cv_width c = 609) by (destruct CW as [CW|CW]; [exact CW|]; rewrite CW in *; lia).
      assert (L9 : vlen (cv_bytes c ++ repeat (cv_paper_color c) (Z.to_nat (cv_width c * (y + h) - vlen (cv_bytes c)))) = 609 * (y + h)) by (rewrite vlen_app, vlen_repeat; lia).
      split; [split; [cbn [set_cv_bytes cv_width]; lia|]; exists (y + h); split; [lia|]; cbn [set_cv_bytes cv_width cv_bytes]; rewrite W9 at 2; exact L9|].
      split; [left; exact W9|]. split; [exact AG|]. unfold get_canvas_height. cbn [set_cv_bytes cv_width cv_bytes]. rewrite L9, W9.
      change (609 =? 0) with false. cbv iota. rewrite Z.mul_comm, Z.div_mul by lia. exact YH. }
    destruct EX as (c1 & -> & S1 & W1 & L1). cbn [bind]. unfold mul_u32 at 1. rewrite CanvasTheory.chk_ok by nia. cbn [bind].
    assert (SUB : for_range h (fun i acc => do r <- mul_u32 (y + i) (cv_width c1); do start_idx <- add_u32 r x;
         do row <- vslice (cv_bytes c1) start_idx (start_idx + w); Ok (acc ++ row)) [] = Ok []).
    { destruct (for_range_rule (fun _ acc => acc = []) h (fun i acc => do r <- mul_u32 (y + i) (cv_width c1); do start_idx <- add_u32 r x;
         do row <- vslice (cv_bytes c1) start_idx (start_idx + w); Ok (acc ++ row)) [] H eq_refl) as (b & E & ->); [|exact E].
      intros i acc Hi ->. assert (w = 0) by nia. subst w.
      assert (B : 0 <= (y + i) * cv_width c /\ (y + i) * cv_width c + x <= cv_width c * (y + h)) by nia.
      assert (B2 : cv_width c * (y + h) <= u32_max) by (unfold HB, u32_max in *; nia).
      rewrite W1. unfold mul_u32. rewrite CanvasTheory.chk_ok by lia. cbn [bind]. unfold add_u32. rewrite CanvasTheory.chk_ok by lia. cbn [bind].
      unfold vslice. replace (_ || _) with false by (symmetry; rewrite !orb_false_iff; lia). cbn [bind]. exists []. split; [|reflexivity].
      replace ((y + i) * cv_width c + x + 0 - ((y + i) * cv_width c + x)) with 0 by lia. reflexivity. }
    rewrite SUB. cbn [bind].
    assert (FL : for_range (h / 2) (fun i acc => for_range w (fun j acc => swap acc (i * w + j) ((h - i - 1) * w + j)) acc) [] = Ok (@nil rgba)).
    { destruct (Z.eq_dec w 0) as [->|Wn].
      - destruct (for_range_rule (fun _ (acc : list rgba) => acc = []) (h / 2) (fun i acc => for_range 0 (fun j acc => swap acc (i * 0 + j) ((h - i - 1) * 0 + j)) acc) []) as (b & E & ->);
          [apply Z.div_pos; lia | reflexivity | | exact E]. intros i acc _ ->. exists []. split; [apply for_range_neg; lia | reflexivity].
      - assert (h = 0) by nia. subst h. change (0 / 2) with 0. apply for_range_neg. lia. }
    rewrite FL. cbn [bind]. apply put_total; try assumption; [change (vlen (@nil rgba)) with 0; lia | intros _; exact XW].
  - assert (E : cv_width c = 609) by nia. pose proof (rect_shows c R ltac:(lia)) as Sh. rewrite E in Sh.
    assert (P1 : 0 < w) by nia. assert (P2 : 0 < h) by nia. clear Z0. unfold HB in *.
    destruct (flip_pixels_shows_gen c 609 _ _ x y w h Sh X Y P1 P2 ltac:(lia)) as (c' & P & SS & S').
    + unfold u32_max. lia.
    + rewrite AG. discriminate.
    + unfold u32_max. lia.
    + exact A.
    + unfold u32_max. lia.
    + exists c'. split; [exact P|]. split; [exact (shows_rect _ _ _ _ S')|]. split; [left; destruct S' as (_ & _ & E' & _); exact E'|].
      split; [destruct SS as (-> & _); exact AG|]. rewrite (shows_height _ _ _ _ S'). unfold HB. lia.
Qed.

(** ** Characters *)
Lemma glyph_total g color rw rh bytes : 0 < gl_width g -> 0 <= gl_x g -> 0 <= gl_y g -> 0 < rw <= 1000 -> 0 < rh <= 1000 -> vlen bytes = rw * rh ->
  exists b, draw_glyph g color rw rh bytes = Ok b /\ vlen b = rw * rh.
Proof.
  intros W X Y RW RH L. unfold draw_glyph.
  apply (for_range_rule (fun _ b => vlen b = rw * rh)); [apply vlen_nonneg | exact L|].
  intros k acc Hk La. set (tx := Z.min u32_max _). set (ty := Z.min u32_max _).
  assert (TX : 0 <= tx) by (unfold tx, u32_max; pose proof (Z.mod_pos_bound k (gl_width g) W); lia).
  assert (TY : 0 <= ty) by (unfold ty, u32_max; pose proof (Z.div_pos k (gl_width g) (proj1 Hk) W); lia).
  clearbody tx ty. destruct ((tx <? rw) && (ty <? rh)) eqn:B; [|exists acc; auto]. apply andb_prop in B. destruct B as (B1 & B2).
  apply Z.ltb_lt in B1, B2. unfold mul_u32. rewrite CanvasTheory.chk_ok by (unfold u32_max; nia). cbn [bind].
  unfold add_u32. rewrite CanvasTheory.chk_ok by (unfold u32_max; nia). cbn [bind].
  assert (IX : 0 <= ty * rw + tx < vlen acc) by (rewrite La; nia).
  rewrite (vget_ok rgba_blank) by exact IX. cbn [bind]. destruct (vset_ok acc (ty * rw + tx) (blend_with_alpha (at_ rgba_blank acc (ty * rw + tx)) color (at_ 0 (gl_alpha g) k)) IX) as (b & E & Lb & _).
  exists b. split; [exact E | lia].
Qed.
(** where a dot of a scaled character comes from *)
Definition source (b scale m s : Z) : Z := f32_trunc (f32_mul (f32_of s) (f32_div (f32_of (b * scale)) (f32_of (b * m)))).
Definition eights : list Z := [1; 2; 3; 4; 5; 6; 7; 8].
Definition cell_sides : list Z := [1; 2; 3; 4; 5; 6; 7; 8; 9; 10; 11; 12; 17; 24].
(** the ratio of the two cell_sides does not depend on the size of the character it is taken of *)
Definition ratio (scale m : Z) : f32 := f32_div (f32_of scale) (f32_of m).
Definition same_ratio (b scale m : Z) : bool :=
  let r := f32_div (f32_of (b * scale)) (f32_of (b * m)) in (fst r =? fst (ratio scale m)) && (snd r =? snd (ratio scale m)).
Lemma all_ratios : forallb (fun b => forallb (fun scale => forallb (same_ratio b scale) eights) eights) cell_sides = true.
Proof. vm_compute. reflexivity. Qed.
Definition steps_ok (scale m : Z) : bool :=
  let r := ratio scale m in forallb (fun s => f32_trunc (f32_mul (f32_of s) r) =? shrunk scale m s) (zrange (24 * m)).
Lemma all_steps : forallb (fun scale => forallb (steps_ok scale) eights) eights = true.
Proof. vm_compute. reflexivity. Qed.
Lemma in_eights m : 1 <= m <= 8 -> In m eights.
Proof. intros H. unfold eights. cbn [In]. lia. Qed.
Lemma source_even b scale m s : In b cell_sides -> 1 <= scale <= 8 -> 1 <= m <= 8 -> 0 <= s < b * m -> source b scale m s = shrunk scale m s.
Proof.
  intros B S M I. pose proof (proj1 (forallb_forall _ _) all_ratios _ B) as H. cbv beta in H.
  pose proof (proj1 (forallb_forall _ _) H _ (in_eights _ S)) as H1. cbv beta in H1.
  pose proof (proj1 (forallb_forall _ _) H1 _ (in_eights _ M)) as H2. unfold same_ratio in H2. cbv zeta in H2. apply andb_prop in H2. destruct H2 as (E1 & E2).
  apply Z.eqb_eq in E1, E2.
  assert (R : f32_div (f32_of (b * scale)) (f32_of (b * m)) = ratio scale m) by (apply injective_projections; assumption).
  pose proof (proj1 (forallb_forall _ _) all_steps _ (in_eights _ S)) as G. cbv beta in G.
  pose proof (proj1 (forallb_forall _ _) G _ (in_eights _ M)) as G1. unfold steps_ok in G1. cbv zeta in G1.
  assert (L : b <= 24) by (unfold cell_sides in B; cbn [In] in B; clear - B; lia).
  assert (IR : 0 <= s < 24 * m) by (split; [exact (proj1 I)|]; apply Z.lt_le_trans with (b * m); [exact (proj2 I)|]; apply Z.mul_le_mono_nonneg_r; [clear - M; lia | exact L]).
  pose proof (proj1 (forallb_forall _ _) G1 s (proj2 (in_zrange _ _) IR)) as G2. cbv beta in G2. apply Z.eqb_eq in G2.
  unfold source. rewrite R. exact G2.
Qed.
Lemma shrunk_range b scale m s : 1 <= scale -> 1 <= m -> 0 <= s < b * m -> 0 <= shrunk scale m s < b * scale.
Proof.
  intros S M I. assert (R : 0 <= s * scale / m < b * scale) by (split; [apply Z.div_pos; nia | apply Z.div_lt_upper_bound; nia]). unfold shrunk.
  destruct (slips scale m s) eqn:E; [|lia]. assert (1 <= s * scale / m); [|lia]. unfold slips in E. cbn [existsb] in E. apply Z.div_le_lower_bound; [lia|]. nia.
Qed.
Lemma source_range b scale m s : In b cell_sides -> 1 <= scale <= 8 -> 1 <= m <= 8 -> 0 <= s < b * m ->
  0 <= source b scale m s <= 1000.
Proof.
  intros B S M I. rewrite source_even by assumption. pose proof (shrunk_range b scale m s ltac:(lia) ltac:(lia) I) as R.
  assert (L : b <= 24) by (unfold cell_sides in B; cbn [In] in B; clear - B; lia). assert (b * scale <= 192) by nia. split; [exact (proj1 R)|]. pose proof (proj2 R). lia.
Qed.
Lemma scale_total bitmap bw bh scale mw mh : In bw [1; 2; 3; 4; 5; 6; 7; 8; 9; 10; 11; 12; 17; 24] -> In bh [1; 2; 3; 4; 5; 6; 7; 8; 9; 10; 11; 12; 17; 24] ->
  1 <= scale <= 8 -> 1 <= mw <= 8 -> 1 <= mh <= 8 -> 1 <= bw <= 24 -> 1 <= bh <= 24 ->
  exists b, scale_bitmap bitmap (bw * scale) (bh * scale) (bw * mw) (bh * mh) = Ok b /\ vlen b = (bw * mw) * (bh * mh).
Proof.
  intros IW IH S MW MH BW BH. unfold scale_bitmap.
  assert (SB : 1 <= bw * mw <= 192 /\ 1 <= bh * mh <= 192 /\ 1 <= bw * scale <= 192) by nia.
  assert (PB : 0 <= (bw * mw) * (bh * mh) <= 192 * 192) by nia.
  unfold mul_u32 at 1. rewrite CanvasTheory.chk_ok by (unfold u32_max; lia). cbn [bind]. cbv zeta.
  apply (for_range_rule (fun _ b => vlen b = (bw * mw) * (bh * mh))); [lia | rewrite vlen_repeat; lia|].
  intros sy acc Hy La. apply (for_range_rule (fun _ b => vlen b = (bw * mw) * (bh * mh))); [lia | exact La|].
  intros sx b Hx Lb. fold (source bw scale mw sx) (source bh scale mh sy).
  pose proof (source_range bw scale mw sx IW S MW Hx) as QX. pose proof (source_range bh scale mh sy IH S MH Hy) as QY.
  set (px := source bw scale mw sx) in *. set (py := source bh scale mh sy) in *. clearbody px py.
  set (w := bw * scale) in *. set (sw := bw * mw) in *. set (sh := bh * mh) in *. clearbody w sw sh. clear - SB PB Hy Hx Lb QX QY.
  unfold mul_u32 at 1. rewrite CanvasTheory.chk_ok by (unfold u32_max; nia). cbn [bind].
  unfold add_u32 at 1. rewrite CanvasTheory.chk_ok by (unfold u32_max; nia). cbn [bind].
  unfold mul_u32 at 1. rewrite CanvasTheory.chk_ok by (unfold u32_max; nia). cbn [bind].
  unfold add_u32 at 1. rewrite CanvasTheory.chk_ok by (unfold u32_max; nia). cbn [bind].
  destruct ((py * w + px <? vlen bitmap) && (sy * sw + sx <? vlen b)) eqn:B; [|exists b; auto].
  apply andb_prop in B. destruct B as (B1 & B2). apply Z.ltb_lt in B1, B2.
  rewrite (vget_ok rgba_blank) by nia. cbn [bind].
  destruct (vset_ok b (sy * sw + sx) (at_ rgba_blank bitmap (py * w + px)) ltac:(nia)) as (b' & E & L' & _). exists b'. split; [exact E | lia].
Qed.
Lemma base_in s : span_wf s -> In (s_base_character_width s) [1; 2; 3; 4; 5; 6; 7; 8; 9; 10; 11; 12; 17; 24] /\
  In (s_base_character_height s) [1; 2; 3; 4; 5; 6; 7; 8; 9; 10; 11; 12; 17; 24].
Proof. intros W. destruct (sw_base _ W) as (A & B & C). cbn [In]. split; lia. Qed.
Lemma char_total fo s ch : fonts_ok fo -> span_wf s -> exists r, render_char fo s ch = Ok r /\
  match r with Some (px, w, h) => w = s_character_width s /\ h = s_character_height s /\ vlen px = w * h | None => True end.
Proof.
  intros FO W. destruct (sw_base _ W) as (A & B & _). destruct (sw_width _ W) as (mw & MW & EW). destruct (sw_height _ W) as (mh & MH & EH).
  destruct (base_in _ W) as (IW & IH).
  set (bw := s_base_character_width s) in *. set (bh := s_base_character_height s) in *.
  unfold render_char. fold bw bh. rewrite EW, EH. unfold div_u. replace (bw =? 0) with false by lia. replace (bh =? 0) with false by lia. cbn [bind].
  rewrite (Z.mul_comm bw mw), (Z.mul_comm bh mh), !Z.div_mul by lia. rewrite (Z.mul_comm mw bw), (Z.mul_comm mh bh).
  set (scale := Z.max mh mw). assert (S : 1 <= scale <= 8) by lia.
  unfold mul_u32 at 1. rewrite CanvasTheory.chk_ok by (unfold u32_max; nia). cbn [bind]. unfold mul_u32 at 1. rewrite CanvasTheory.chk_ok by (unfold u32_max; nia). cbn [bind].
  pose proof (FO (s_bold s) (s_italic s) (s_font s) scale ch) as G. destruct (fo _ _ _ _ _) as [g|]; [|exists None; auto].
  destruct G as (G1 & G2 & G3). cbv zeta.
  set (blank := repeat (s_background_color s) _). assert (LB : vlen blank = (bw * scale) * (bh * scale)) by (unfold blank; rewrite vlen_repeat; nia).
  assert (D : exists b, (if 0 <? gl_width g then draw_glyph g (s_text_color s) (bw * scale) (bh * scale) blank else Ok blank) = Ok b /\ vlen b = (bw * scale) * (bh * scale)).
  { destruct (Z.ltb_spec 0 (gl_width g)) as [P|P]; [|exists blank; auto]. apply glyph_total; try assumption; nia. }
  destruct D as (b & -> & Lb). cbn [bind]. destruct (Z.ltb_spec 1 scale) as [P|P].
  - destruct (scale_total b bw bh scale mw mh IW IH S MW MH ltac:(lia) ltac:(lia)) as (b' & -> & Lb'). cbn [bind]. eexists. split; [reflexivity|]. cbn beta iota. auto.
  - eexists. split; [reflexivity|]. cbn beta iota. split; [reflexivity|]. split; [reflexivity|].
    assert (scale = 1 /\ mw = 1 /\ mh = 1) as (-> & -> & ->) by lia. exact Lb.
Qed.

(** ** A word *)
Lemma chars_total fo s top low text : fonts_ok fo -> span_wf s -> 0 <= top -> 0 <= low -> add_u32 top low = Ok (top + low) ->
  top + low + s_character_height s <= HB -> forall x c, sheet c -> 0 <= x -> x + vlen text * s_character_width s <= 4000000 ->
  exists x' c', fold_res (span_char fo s (add_u32 top low)) text (x, c) = Ok (x', c') /\ sheet c'.
Proof.
  intros FO W T LW AT TB. assert (CW : 1 <= s_character_width s <= 96 /\ 1 <= s_character_height s <= 192).
  { destruct (sw_base _ W) as (A & B & _). destruct (sw_width _ W) as (mw & MW & ->). destruct (sw_height _ W) as (mh & MH & ->). nia. }
  induction text as [|ch text IH]; intros x c S X XB; [exists x, c; auto|].
  rewrite vlen_cons in XB. pose proof (vlen_nonneg text) as V0. cbn [fold_res].
  assert (ST : exists c', span_char fo s (add_u32 top low) ch (x, c) = Ok (x + s_character_width s, c') /\ sheet c').
  { unfold span_char. destruct (char_total fo s ch FO W) as (r & -> & R). cbn [bind]. destruct r as [[[px w] h]|].
    - destruct R as (-> & -> & L). replace (s_character_width s =? 0) with false by lia. replace (s_character_height s =? 0) with false by lia. cbn [orb].
      rewrite AT. cbn [bind].
      destruct (put_total c x (top + low) (s_character_width s) (s_character_height s) px true S X ltac:(lia) ltac:(lia) ltac:(lia) L) as (c' & -> & S');
        [unfold u32_max; nia | unfold u32_max; nia | exact TB|].
      cbn [bind]. unfold add_u32. rewrite CanvasTheory.chk_ok by (unfold u32_max; nia). cbn [bind]. eauto.
    - unfold add_u32. rewrite CanvasTheory.chk_ok by (unfold u32_max; nia). cbn [bind]. eauto. }
  destruct ST as (c' & -> & S'). cbn [bind]. apply IH; [exact S' | lia | nia].
Qed.
Definition mid (h : Z) : Z := f32_trunc (f32_div (f32_of h) (f32_round 25 10)).
Lemma all_mids : forallb (fun h => (0 <=? mid h) && (mid h <=? 1000)) sizes = true.
Proof. vm_compute. reflexivity. Qed.
Lemma mid_range h : In h sizes -> 0 <= mid h <= 1000.
Proof. intros I. pose proof (proj1 (forallb_forall _ _) all_mids _ I) as H. cbv beta in H. apply andb_prop in H. destruct H as (H1 & H2). apply Z.leb_le in H1, H2. split; assumption. Qed.
Lemma all_depths : forallb (fun f => forallb (fun h => (0 <=? depth f h) && (depth f h <=? 1000)) sizes) all_fonts = true.
Proof. vm_compute. reflexivity. Qed.
Lemma depth_range f h : In h sizes -> 0 <= depth f h <= 1000.
Proof.
  intros I. assert (If : In f all_fonts) by (destruct f; cbn [In all_fonts]; auto 10). pose proof (proj1 (forallb_forall _ _) all_depths _ If) as H0. cbv beta in H0.
  pose proof (proj1 (forallb_forall _ _) H0 _ I) as H. cbv beta in H. apply andb_prop in H. destruct H as (H1 & H2). apply Z.leb_le in H1, H2. split; assumption.
Qed.
Lemma span_total fo off mh s c : fonts_ok fo -> span_wf s -> In mh sizes -> s_character_height s <= mh -> 0 <= off <= 609 ->
  0 <= s_strikethrough s <= 10 -> (exists d, s_dimensions s = Some d /\ 0 <= d_x d <= 1000000 /\ 0 <= d_w d <= 1000000 /\ 0 <= d_y d <= longest_paper) ->
  sheet c -> total (render_span fo off mh s c).
Proof.
  intros FO W IM LE OF SK (d & D & DX & DW & DY) S. unfold render_span. rewrite D. cbv zeta.
  pose proof (sw_dims _ W) as DM. rewrite D in DM. destruct DM as (_ & _ & EW & _ & EH).
  assert (MB : mh <= 192) by (unfold sizes in IM; cbn [flat_map map app In] in IM; lia).
  pose proof (size_in _ W) as IS.
  assert (C0 : 1 <= s_character_height s).
  { destruct (sw_base _ W) as (_ & B & _). destruct (sw_height _ W) as (m & M & ->). nia. }
  unfold add_u32 at 1. rewrite CanvasTheory.chk_ok by (unfold u32_max; lia). cbn [bind].
  destruct (lowered_in _ _ IM W LE) as (low & -> & L0 & L1 & _). cbn [bind].
  unfold longest_paper in *.
  assert (AT : add_u32 (d_y d) low = Ok (d_y d + low)) by (unfold add_u32; apply CanvasTheory.chk_ok; unfold u32_max; lia).
  destruct (chars_total fo s (d_y d) low (s_text s) FO W ltac:(lia) L0 AT ltac:(unfold HB; lia) (d_x d + off) c S ltac:(lia) ltac:(lia)) as (x' & c1 & -> & S1).
  cbn [bind]. rewrite AT.
  change (f32_trunc (f32_mul (f32_of (s_character_height s)) (baseline_of (s_font s)))) with (depth (s_font s) (s_character_height s)).
  fold (mid (s_character_height s)).
  pose proof (depth_range (s_font s) _ IS) as DR. pose proof (mid_range _ IS) as MR.
  set (dp := depth _ _) in *. set (md := mid _) in *. clearbody dp md.
  assert (U : total (if 0 <? s_underline s then do y <- Ok (d_y d + low); do y <- add_u32 y 3; do y <- add_u32 y dp;
     draw_rect (d_x d + off) y (d_w d) 1 (s_text_color s) true c1 else Ok c1)).
  { destruct (0 <? s_underline s); [|exists c1; auto]. cbn [bind]. unfold add_u32 at 1. rewrite CanvasTheory.chk_ok by (unfold u32_max; lia). cbn [bind].
    unfold add_u32 at 1. rewrite CanvasTheory.chk_ok by (unfold u32_max; lia). cbn [bind].
    apply rect_total; try assumption; unfold u32_max, HB; lia. }
  destruct U as (c2 & -> & S2). cbn [bind].
  assert (K : total (if 0 <? s_strikethrough s then do y <- add_u32 (d_y d + low) md;
     draw_rect (d_x d + off) y (d_w d) (s_strikethrough s) (s_text_color s) true c2 else Ok c2)).
  { destruct (0 <? s_strikethrough s); [|exists c2; auto]. cbn [bind]. unfold add_u32 at 1. rewrite CanvasTheory.chk_ok by (unfold u32_max; lia). cbn [bind].
    apply rect_total; try assumption; unfold u32_max, HB; nia. }
  destruct K as (c3 & -> & S3). cbn [bind].
  destruct (s_upside_down s); [|exists c3; auto]. cbn [bind]. rewrite EH. apply flip_total; try assumption; unfold u32_max, HB; try lia; nia.
Qed.
