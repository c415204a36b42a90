(** * GlyphTheory: the dots of a character cell. *)
From Verif Require Import Base Vec Float32 GTypes Graphics Context Text Renderer ContextTheory RendererTheory AreaTheory CallsTheory
  ThermalImage SpecCanvas CanvasTheory CanvasRect ImageRenderer SpecImage ImageTheory SpecDraw DrawTheory HueTheory SpecScene.
Local Open Scope Z_scope.
Local Open Scope list_scope.
Local Arguments at_ : simpl never.
Local Arguments vlen : simpl never.

(** ** Mixing *)
Definition bytes3 (c : rgba) : Prop := 0 <= c_r c <= 255 /\ 0 <= c_g c <= 255 /\ 0 <= c_b c <= 255.
Definition opaque (c : rgba) : Prop := bytes3 c /\ c_a c = 255.
Definition inked (c : rgba) : Prop := bytes3 c /\ (c_a c = 255 \/ c_a c = 0).
Lemma nearest_byte n : 0 <= n <= 65025 -> 0 <= nearest_255 n <= 255.
Proof. intros H. unfold nearest_255. split; [apply Z.div_pos; lia | apply Z.lt_succ_r, Z.div_lt_upper_bound; lia]. Qed.
Lemma press_multiply p q : bytes3 p -> inked q -> multiply_foreground p q = press p q.
Proof.
  intros (P1 & P2 & P3) ((Q1 & Q2 & Q3) & A). unfold multiply_foreground, press. destruct (Z.eqb_spec (c_a q) 0) as [_|N]; [reflexivity|].
  destruct A as [->|A]; [|contradiction]. rewrite !multiply_channel_exact by assumption. reflexivity.
Qed.
Lemma press_opaque p q : opaque p -> inked q -> opaque (press p q).
Proof.
  intros ((P1 & P2 & P3) & A) ((Q1 & Q2 & Q3) & _). unfold press. destruct (c_a q =? 0); [split; [split; [exact P1 | split; [exact P2 | exact P3]] | exact A]|].
  split; [|exact A]. unfold bytes3. cbn [c_r c_g c_b]. split; [|split]; apply nearest_byte; nia.
Qed.
Lemma fade_full c : 0 <= c <= 255 -> nearest_255 (c * 255 + c * (255 - 255)) = c.
Proof. intros H. unfold nearest_255. symmetry. apply (Z.div_unique _ _ _ 255); lia. Qed.
Lemma fade_blend back fore cover : opaque back -> bytes3 fore -> 0 <= cover <= 255 -> blend_with_alpha back fore cover = fade back fore cover.
Proof.
  intros ((B1 & B2 & B3) & A) (F1 & F2 & F3) C. unfold blend_with_alpha, fade, fade1. cbv zeta. destruct (Z.eqb_spec cover 255) as [->|N].
  - replace (255 =? 0) with false by reflexivity. cbn [c_r c_g c_b c_a]. rewrite !blend_channel_exact by (assumption || lia). rewrite A.
    fold (nearest_255 (c_r fore * 255 + c_r fore * (255 - 255))) (nearest_255 (c_g fore * 255 + c_g fore * (255 - 255))) (nearest_255 (c_b fore * 255 + c_b fore * (255 - 255))).
    rewrite !fade_full by assumption. assert (G : forall f b, 0 <= f <= 255 -> nearest_255 (f * 255 + b * (255 - 255)) = f).
    { intros f b H. unfold nearest_255. symmetry. apply (Z.div_unique _ _ _ 255); lia. }
    rewrite !G by assumption. reflexivity.
  - destruct (Z.eqb_spec cover 0) as [->|N0].
    + assert (G : forall f b, 0 <= b <= 255 -> nearest_255 (f * 0 + b * (255 - 0)) = b).
      { intros f b H. unfold nearest_255. symmetry. apply (Z.div_unique _ _ _ 255); lia. }
      rewrite !G by assumption. destruct back; reflexivity.
    + rewrite !blend_channel_exact by assumption. reflexivity.
Qed.
Lemma fade_opaque back fore cover : opaque back -> bytes3 fore -> 0 <= cover <= 255 -> opaque (fade back fore cover).
Proof.
  intros ((B1 & B2 & B3) & A) (F1 & F2 & F3) C. split; [|exact A]. unfold bytes3, fade. cbn [c_r c_g c_b].
  split; [|split]; apply nearest_byte; nia.
Qed.
Lemma opaque_inked c : opaque c -> inked c.
Proof. intros (B & A). split; [exact B | left; exact A]. Qed.
Lemma blend_with_opaque p q : opaque q -> blend_foreground p q = q.
Proof.
  intros ((Q1 & Q2 & Q3) & A). unfold blend_foreground, blend_with_alpha. rewrite A. cbv zeta. replace (255 =? 255) with true by reflexivity. replace (255 =? 0) with false by reflexivity.
  cbn [c_r c_g c_b c_a]. rewrite !blend_channel_exact by (assumption || lia).
  fold (nearest_255 (c_r q * 255 + c_r q * (255 - 255))) (nearest_255 (c_g q * 255 + c_g q * (255 - 255))) (nearest_255 (c_b q * 255 + c_b q * (255 - 255))).
  rewrite !fade_full by assumption. destruct q as [qr qg qb qa]; cbn in A; cbn; congruence.
Qed.

(** ** Glyphs *)
Lemma at_beyond {A} (d : A) l i : vlen l <= i -> at_ d l i = d.
Proof. unfold at_, vlen. intros H. apply nth_overflow. lia. Qed.
Definition reach (g : glyph) (i j : Z) : Z := (j - gl_y g) * gl_width g + (i - gl_x g).
Definition over (g : glyph) (i j : Z) : bool := (gl_x g <=? i) && (i <? gl_x g + gl_width g) && (gl_y g <=? j).
Lemma over_reach g i j : 0 < gl_width g -> over g i j = true -> 0 <= reach g i j.
Proof. unfold over, reach. intros W O. assert (gl_x g <= i /\ gl_y g <= j) by lia. nia. Qed.
Lemma over_same g i j k l : 0 < gl_width g -> over g i j = true -> over g k l = true -> reach g i j = reach g k l -> i = k /\ j = l.
Proof.
  unfold over, reach. intros W O P E. assert (A : 0 <= i - gl_x g < gl_width g) by lia. assert (B : 0 <= k - gl_x g < gl_width g) by lia. clear O P.
  set (w := gl_width g) in *. assert (j - gl_y g = l - gl_y g) by nia. nia.
Qed.
Lemma glyph_dots g color back rw rh : 0 < gl_width g -> 0 <= gl_x g -> 0 <= gl_y g -> 0 < rw <= 1000 -> 0 < rh <= 1000 ->
  opaque back -> bytes3 color -> Forall (fun v => 0 <= v <= 255) (gl_alpha g) ->
  exists b, draw_glyph g color rw rh (repeat back (Z.to_nat (rw * rh))) = Ok b /\ vlen b = rw * rh /\
    forall i j, 0 <= i < rw -> 0 <= j < rh -> at_ rgba_blank b (j * rw + i) = fade back color (coverage g i j).
Proof.
  intros W X Y RW RH OB BC FA. unfold draw_glyph.
  assert (CV : forall k, 0 <= at_ 0 (gl_alpha g) k <= 255).
  { intros k. unfold at_. destruct (nth_in_or_default (Z.to_nat k) (gl_alpha g) 0) as [I|I]; [exact (proj1 (Forall_forall _ _) FA _ I) | rewrite I; lia]. }
  destruct (for_range_rule (fun n b => vlen b = rw * rh /\ forall i j, 0 <= i < rw -> 0 <= j < rh ->
    at_ rgba_blank b (j * rw + i) = if over g i j && (reach g i j <? n) then blend_with_alpha back color (at_ 0 (gl_alpha g) (reach g i j)) else back)
    (vlen (gl_alpha g)) (fun k acc =>
    let tx := Z.min u32_max (k mod gl_width g + gl_x g) in
    let ty := Z.min u32_max (k / gl_width g + gl_y g) in
    if (tx <? rw) && (ty <? rh) then
      do r <- mul_u32 ty rw;
      do idx <- add_u32 r tx;
      do old <- vget acc idx;
      vset acc idx (blend_with_alpha old color (at_ 0 (gl_alpha g) k))
    else Ok acc) (repeat back (Z.to_nat (rw * rh)))) as (b & E & L & V).
  - apply vlen_nonneg.
  - split; [rewrite vlen_repeat; nia|]. intros i j Hi Hj. destruct (over g i j) eqn:O; cbn [andb].
    + pose proof (over_reach g i j W O) as R. replace (reach g i j <? 0) with false by lia. apply at_repeat. nia.
    + apply at_repeat. nia.
  - intros k acc Hk (La & Va). cbv zeta. pose proof (Z.mod_pos_bound k (gl_width g) W) as MB. pose proof (Z.div_pos k (gl_width g) (proj1 Hk) W) as DB.
    pose proof (Z.div_mod k (gl_width g) ltac:(lia)) as DM. set (q := k / gl_width g) in *. set (r := k mod gl_width g) in *. clearbody q r.
    destruct ((Z.min u32_max (r + gl_x g) <? rw) && (Z.min u32_max (q + gl_y g) <? rh)) eqn:B.
    + apply andb_prop in B. destruct B as (B1 & B2). apply Z.ltb_lt in B1, B2. rewrite (Z.min_r u32_max (r + gl_x g)) in * by (unfold u32_max in *; lia).
      rewrite (Z.min_r u32_max (q + gl_y g)) in * by (unfold u32_max in *; lia).
      unfold mul_u32. rewrite CanvasTheory.chk_ok by (unfold u32_max; nia). cbn [bind].
      unfold add_u32. rewrite CanvasTheory.chk_ok by (unfold u32_max; nia). cbn [bind].
      set (tx := r + gl_x g) in *. set (ty := q + gl_y g) in *.
      assert (IX : 0 <= ty * rw + tx < vlen acc) by (rewrite La; nia).
      assert (OV : over g tx ty = true /\ reach g tx ty = k) by (unfold over, reach, tx, ty; split; [lia | nia]).
      rewrite (vget_ok rgba_blank) by exact IX. cbn [bind]. rewrite (Va tx ty) by lia. destruct OV as (OV & RK). rewrite OV, RK. cbn [andb]. rewrite Z.ltb_irrefl.
      destruct (vset_ok acc (ty * rw + tx) (blend_with_alpha back color (at_ 0 (gl_alpha g) k)) IX) as (b & E & Lb & Vb).
      exists b. split; [exact E|]. split; [lia|]. intros i j Hi Hj. rewrite Vb by nia. destruct (Z.eqb_spec (j * rw + i) (ty * rw + tx)) as [EQ|NE].
      * assert (j = ty) by nia. assert (i = tx) by nia. subst i j. rewrite OV, RK. cbn [andb]. replace (k <? k + 1) with true by lia. reflexivity.
      * rewrite Va by assumption. destruct (over g i j) eqn:O; cbn [andb]; [|reflexivity].
        assert (reach g i j <> k).
        { intros RE. apply NE. rewrite <- RK in RE. destruct (over_same g i j tx ty W O OV RE) as (-> & ->). reflexivity. }
        replace (reach g i j <? k + 1) with (reach g i j <? k) by lia. reflexivity.
    + exists acc. split; [reflexivity|]. split; [exact La|]. intros i j Hi Hj. rewrite Va by assumption. destruct (over g i j) eqn:O; cbn [andb]; [|reflexivity].
      assert (reach g i j <> k).
      { intros RE. assert (OV : over g (r + gl_x g) (q + gl_y g) = true) by (unfold over; lia).
        assert (RK : reach g (r + gl_x g) (q + gl_y g) = k) by (unfold reach; nia). rewrite <- RK in RE.
        destruct (over_same g i j _ _ W O OV RE) as (-> & ->). unfold u32_max in B. lia. }
      replace (reach g i j <? k + 1) with (reach g i j <? k) by lia. reflexivity.
  - exists b. split; [exact E|]. split; [exact L|]. intros i j Hi Hj. rewrite V by assumption. unfold coverage. fold (over g i j) (reach g i j).
    destruct (over g i j); cbn [andb].
    + destruct (Z.ltb_spec (reach g i j) (vlen (gl_alpha g))) as [LT|GE].
      * apply fade_blend; [exact OB | exact BC | apply CV].
      * rewrite (at_beyond 0) by exact GE. rewrite <- fade_blend by (assumption || lia). reflexivity.
    + rewrite <- fade_blend by (assumption || lia). reflexivity.
Qed.

(** ** Shrinking *)
Lemma scaled_dots bitmap bw bh scale mw mh : In bw [1; 2; 3; 4; 5; 6; 7; 8; 9; 10; 11; 12; 17; 24] -> In bh [1; 2; 3; 4; 5; 6; 7; 8; 9; 10; 11; 12; 17; 24] ->
  1 <= scale <= 8 -> 1 <= mw <= 8 -> 1 <= mh <= 8 -> 1 <= bw <= 24 -> 1 <= bh <= 24 ->
  vlen bitmap = (bw * scale) * (bh * scale) ->
  exists b, scale_bitmap bitmap (bw * scale) (bh * scale) (bw * mw) (bh * mh) = Ok b /\ vlen b = (bw * mw) * (bh * mh) /\
    forall i j, 0 <= i < bw * mw -> 0 <= j < bh * mh ->
      at_ rgba_blank b (j * (bw * mw) + i) = at_ rgba_blank bitmap ((shrunk scale mh j) * (bw * scale) + shrunk scale mw i).
Proof.
  intros IW IH S MW MH BW BH LM. unfold scale_bitmap.
  assert (SB : 1 <= bw * mw <= 192 /\ 1 <= bh * mh <= 192 /\ 1 <= bw * scale <= 192 /\ 1 <= bh * scale <= 192) by nia.
  assert (PB : 0 <= (bw * mw) * (bh * mh) <= 192 * 192) by nia.
  unfold mul_u32 at 1. rewrite CanvasTheory.chk_ok by (unfold u32_max; lia). cbn [bind]. cbv zeta.
  set (sw := bw * mw) in *. set (sh := bh * mh) in *.
  set (src := fun i j => at_ rgba_blank bitmap ((shrunk scale mh j) * (bw * scale) + shrunk scale mw i)).
  destruct (for_range_rule (fun n b => vlen b = sw * sh /\ forall i j, 0 <= i < sw -> 0 <= j < n -> at_ rgba_blank b (j * sw + i) = src i j)
    sh (fun sy acc => for_range sw (fun sx acc =>
    let src_x := f32_trunc (f32_mul (f32_of sx) (f32_div (f32_of (bw * scale)) (f32_of sw))) in
    let src_y := f32_trunc (f32_mul (f32_of sy) (f32_div (f32_of (bh * scale)) (f32_of sh))) in
    do r <- mul_u32 src_y (bw * scale);
    do src <- add_u32 r src_x;
    do r <- mul_u32 sy sw;
    do dst <- add_u32 r sx;
    if (src <? vlen bitmap) && (dst <? vlen acc) then
      do p <- vget bitmap src; vset acc dst p
    else Ok acc) acc) (repeat rgba_blank (Z.to_nat (sw * sh)))) as (b & E & L & V).
  - lia.
  - split; [rewrite vlen_repeat; lia | intros i j Hi Hj; lia].
  - intros sy acc Hy (La & Va).
    destruct (for_range_rule (fun n b => vlen b = sw * sh /\ forall i j, 0 <= i < sw -> (0 <= j < sy \/ (j = sy /\ i < n)) -> at_ rgba_blank b (j * sw + i) = src i j)
      sw (fun sx acc =>
      let src_x := f32_trunc (f32_mul (f32_of sx) (f32_div (f32_of (bw * scale)) (f32_of sw))) in
      let src_y := f32_trunc (f32_mul (f32_of sy) (f32_div (f32_of (bh * scale)) (f32_of sh))) in
      do r <- mul_u32 src_y (bw * scale);
      do src <- add_u32 r src_x;
      do r <- mul_u32 sy sw;
      do dst <- add_u32 r sx;
      if (src <? vlen bitmap) && (dst <? vlen acc) then
        do p <- vget bitmap src; vset acc dst p
      else Ok acc) acc) as (b & E & L & V).
    + lia.
    + split; [exact La|]. intros i j Hi [Hj|Hj]; [apply Va; assumption | lia].
    + intros sx b Hx (Lb & Vb). cbv zeta. unfold sw at 1. unfold sh at 1. fold (source bw scale mw sx) (source bh scale mh sy).
      rewrite (source_even bw scale mw sx IW S MW Hx), (source_even bh scale mh sy IH S MH Hy).
      assert (S0 : src sx sy = at_ rgba_blank bitmap ((shrunk scale mh sy) * (bw * scale) + shrunk scale mw sx)) by reflexivity.
      pose proof (shrunk_range bw scale mw sx ltac:(lia) ltac:(lia) Hx) as QX. pose proof (shrunk_range bh scale mh sy ltac:(lia) ltac:(lia) Hy) as QY.
      set (px := shrunk scale mw sx) in *. set (py := shrunk scale mh sy) in *. clearbody px py src.
      set (w := bw * scale) in *. set (h := bh * scale) in *. clearbody w h sw sh. clear - SB PB Hy Hx Lb Vb QX QY S0 LM.
      unfold mul_u32 at 1. rewrite CanvasTheory.chk_ok by (unfold u32_max; nia). cbn [bind].
      unfold add_u32 at 1. rewrite CanvasTheory.chk_ok by (unfold u32_max; nia). cbn [bind].
      unfold mul_u32 at 1. rewrite CanvasTheory.chk_ok by (unfold u32_max; nia). cbn [bind].
      unfold add_u32 at 1. rewrite CanvasTheory.chk_ok by (unfold u32_max; nia). cbn [bind].
      assert (I1 : 0 <= py * w + px < vlen bitmap) by (rewrite LM; nia). assert (I2 : 0 <= sy * sw + sx < vlen b) by (rewrite Lb; nia).
      replace ((py * w + px <? vlen bitmap) && (sy * sw + sx <? vlen b)) with true by lia.
      rewrite (vget_ok rgba_blank) by exact I1. cbn [bind].
      destruct (vset_ok b (sy * sw + sx) (at_ rgba_blank bitmap (py * w + px)) I2) as (b' & E & L' & V'). exists b'. split; [exact E|]. split; [lia|].
      intros i j Hi Hj. assert (J0 : 0 <= j <= sy) by lia. rewrite V' by nia. destruct (Z.eqb_spec (j * sw + i) (sy * sw + sx)) as [EQ|NE].
      * assert (j = sy) by nia. assert (i = sx) by nia. subst i j. symmetry. exact S0.
      * apply Vb; [exact Hi|]. destruct Hj as [Hj|(-> & Hj)]; [left; exact Hj|]. right. split; [reflexivity|]. assert (i <> sx) by (intros ->; apply NE; reflexivity). lia.
    + exists b. split; [exact E|]. split; [exact L|]. intros i j Hi Hj. apply V; [exact Hi|]. destruct (Z.eq_dec j sy) as [->|N]; [right; lia | left; lia].
  - exists b. split; [exact E|]. split; [exact L|]. intros i j Hi Hj. exact (V i j Hi Hj).
Qed.

(** ** A character *)
Lemma fonts_fine_ok fo : fonts_fine fo -> fonts_ok fo.
Proof. intros F b i f sc ch. specialize (F b i f sc ch). destruct (fo b i f sc ch) as [g|]; [tauto | exact Logic.I]. Qed.
Lemma char_dots fo s ch : fonts_fine fo -> span_wf s -> opaque (s_background_color s) -> bytes3 (s_text_color s) ->
  match fo (s_bold s) (s_italic s) (s_font s) (drawn_at s) ch with
  | None => render_char fo s ch = Ok None
  | Some g => exists px, render_char fo s ch = Ok (Some (px, s_character_width s, s_character_height s)) /\
      forall i j, 0 <= i < s_character_width s -> 0 <= j < s_character_height s -> block px (s_character_width s) i j = dot s g i j
  end.
Proof.
  intros FO W OB BC. unfold dot, drawn_at, across, down in *. destruct (sw_base _ W) as (A & B & _). destruct (sw_width _ W) as (mw & MW & EW). destruct (sw_height _ W) as (mh & MH & EH).
  destruct (base_in _ W) as (IW & IH). unfold render_char.
  set (bw := s_base_character_width s) in *. set (bh := s_base_character_height s) in *. rewrite EW, EH in *.
  unfold div_u. replace (bw =? 0) with false by lia. replace (bh =? 0) with false by lia. cbn [bind].
  rewrite (Z.mul_comm bw mw), (Z.mul_comm bh mh), !Z.div_mul in * by lia. rewrite (Z.mul_comm mw bw), (Z.mul_comm mh bh).
  rewrite (Z.max_comm mw mh) in *. set (scale := Z.max mh mw) in *. assert (S : 1 <= scale <= 8) by lia.
  assert (M1 : mul_u32 bw scale = Ok (bw * scale)) by (unfold mul_u32; apply CanvasTheory.chk_ok; unfold u32_max; nia).
  assert (M2 : mul_u32 bh scale = Ok (bh * scale)) by (unfold mul_u32; apply CanvasTheory.chk_ok; unfold u32_max; nia).
  rewrite M1, M2. cbn [bind].
  pose proof (FO (s_bold s) (s_italic s) (s_font s) scale ch) as G. destruct (fo _ _ _ _ _) as [g|]; [|reflexivity].
  destruct G as (G1 & G2 & G3 & G4). cbv zeta.
  assert (D : exists b, (if 0 <? gl_width g then draw_glyph g (s_text_color s) (bw * scale) (bh * scale) (repeat (s_background_color s) (Z.to_nat (bw * scale * (bh * scale))))
     else Ok (repeat (s_background_color s) (Z.to_nat (bw * scale * (bh * scale))))) = Ok b /\ vlen b = (bw * scale) * (bh * scale) /\
     forall i j, 0 <= i < bw * scale -> 0 <= j < bh * scale -> at_ rgba_blank b (j * (bw * scale) + i) = fade (s_background_color s) (s_text_color s) (coverage g i j)).
  { destruct (Z.ltb_spec 0 (gl_width g)) as [P|P]; [apply glyph_dots; try assumption; nia|].
    eexists. split; [reflexivity|]. split; [rewrite vlen_repeat; nia|]. intros i j Hi Hj. rewrite at_repeat by nia.
    unfold coverage. replace ((gl_x g <=? i) && (i <? gl_x g + gl_width g) && (gl_y g <=? j)) with false by lia. rewrite <- fade_blend by (assumption || lia). reflexivity. }
  destruct D as (b & -> & Lb & Vb). cbn [bind]. destruct (Z.ltb_spec 1 scale) as [P|P].
  - destruct (scaled_dots b bw bh scale mw mh IW IH S MW MH ltac:(lia) ltac:(lia)) as (b' & -> & Lb' & Vb'); [exact Lb|].
    cbn [bind]. exists b'. split; [reflexivity|]. intros i j Hi Hj. unfold block. rewrite Vb' by assumption.
    apply Vb; apply shrunk_range; lia.
  - assert (scale = 1 /\ mw = 1 /\ mh = 1) as (-> & -> & ->) by lia. exists b. split; [reflexivity|]. intros i j Hi Hj. unfold block.
    change (shrunk 1 1 i) with (i * 1 / 1 - 0). change (shrunk 1 1 j) with (j * 1 / 1 - 0). rewrite !Z.mul_1_r, !Z.div_1_r, !Z.sub_0_r in *. apply Vb; assumption.
Qed.
