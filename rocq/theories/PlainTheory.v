(** * PlainTheory: the picture of lines of text in one style. *)
From Verif Require Import Base Vec GTypes Graphics Context Text Renderer ThermalImage SpecCanvas ImageRenderer SpecImage SpecScene SpecLines SpecRender SpecPlain.
Local Open Scope Z_scope.
Local Open Scope list_scope.
Local Arguments at_ : simpl never.
Local Arguments vlen : simpl never.

(** What is added to a dot of the cell of a character. *)
Section Face.
Variable inked : rgba -> Z -> Z -> Z -> rgba.
Variables cw ch : Z.
Hypothesis cw_pos : 0 < cw.

Definition stamp (t : list Z) (x y : Z) (p : picture) : picture := fun X Y =>
  if covers x y (vlen t * cw) ch X Y then inked (p X Y) (at_ 0 t ((X - x) / cw)) ((X - x) mod cw) (Y - y) else p X Y.

Lemma at_app_l a b i : 0 <= i < vlen a -> at_ 0 (a ++ b) i = at_ 0 a i.
Proof. intros H. unfold at_. unfold vlen in H. apply app_nth1. lia. Qed.
Lemma at_app_r a b i : vlen a <= i -> at_ 0 (a ++ b) i = at_ 0 b (i - vlen a).
Proof. intros H. unfold at_. unfold vlen in *. rewrite app_nth2 by lia. f_equal. lia. Qed.

Lemma stamp_app a b x y p X Y : stamp b (x + vlen a * cw) y (stamp a x y p) X Y = stamp (a ++ b) x y p X Y.
Proof.
  unfold stamp, covers. rewrite vlen_app. pose proof (vlen_nonneg a) as Na. pose proof (vlen_nonneg b) as Nb.
  set (d := X - x). assert (Ed : X = x + d) by (unfold d; lia). clearbody d. subst X.
  replace (x + d - (x + vlen a * cw)) with (d + - vlen a * cw) by lia. rewrite Z.div_add, Z.mod_add by lia.
  destruct ((y <=? Y) && (Y <? y + ch)) eqn:HY.
  2:{ assert (F : forall v, v && (y <=? Y) && (Y <? y + ch) = false) by (intros v; rewrite <- andb_assoc, HY; apply andb_false_r). rewrite !F. reflexivity. }
  apply andb_true_iff in HY. destruct HY as (-> & ->). rewrite !andb_true_r.
  assert (DM : 0 <= d mod cw < cw) by (apply Z.mod_pos_bound; lia). pose proof (Z.div_mod d cw ltac:(lia)) as DE.
  set (q := d / cw) in *. set (r := d mod cw) in *. clearbody q r.
  destruct (Z_lt_dec d 0) as [N|N].
  { replace (x <=? x + d) with false by lia. replace (x + vlen a * cw <=? x + d) with false by nia. cbn [andb]. reflexivity. }
  replace (x <=? x + d) with true by lia.
  assert (Q : 0 <= q) by nia.
  destruct (Z_lt_dec q (vlen a)) as [La|La].
  - replace (x + vlen a * cw <=? x + d) with false by nia. replace (x + d <? x + vlen a * cw) with true by nia.
    replace (x + d <? x + (vlen a + vlen b) * cw) with true by nia. cbn [andb]. rewrite at_app_l by lia. reflexivity.
  - replace (x + vlen a * cw <=? x + d) with true by nia. replace (x + d <? x + vlen a * cw) with false by nia. cbn [andb].
    replace (x + d <? x + vlen a * cw + vlen b * cw) with (x + d <? x + (vlen a + vlen b) * cw) by (f_equal; lia).
    rewrite at_app_r by lia. replace (q + - vlen a) with (q - vlen a) by lia. reflexivity.
Qed.
Lemma stamp_nil x y p X Y : stamp [] x y p X Y = p X Y.
Proof. unfold stamp, covers. change (vlen (@nil Z)) with 0. replace ((x <=? X) && (X <? x + 0 * cw)) with false by lia. reflexivity. Qed.
Lemma stamp_ext t x y p q X Y : p X Y = q X Y -> stamp t x y p X Y = stamp t x y q X Y.
Proof. unfold stamp. intros ->. reflexivity. Qed.

(** Lines, one below the other. *)
Variable lh : list Z -> Z.
Hypothesis lh_pos : forall l, 0 < lh l.
Hypothesis lh_high : forall l, l <> [] -> ch <= lh l.
Fixpoint stamps (y : Z) (lines : list (list Z)) (p : picture) : picture :=
  match lines with [] => p | l :: r => stamps (y + lh l) r (stamp l 0 y p) end.
Fixpoint cell_in (lines : list (list Z)) (x y : Z) : option (Z * Z * Z) :=
  match lines with
  | [] => None
  | l :: r =>
      if (x <? 0) || (y <? 0) then None
      else if y <? lh l then
        if y <? ch then match nth_error l (Z.to_nat (x / cw)) with Some c => Some (c, x mod cw, y) | None => None end else None
      else cell_in r x (y - lh l)
  end.
Lemma stamps_ext lines : forall y p q X Y, (forall X Y, p X Y = q X Y) -> stamps y lines p X Y = stamps y lines q X Y.
Proof. induction lines as [|l r IH]; intros y p q X Y E; cbn [stamps]; [apply E|]. apply IH. intros X' Y'. apply stamp_ext, E. Qed.
Lemma nth_error_at (t : list Z) k : 0 <= k -> nth_error t (Z.to_nat k) = if k <? vlen t then Some (at_ 0 t k) else None.
Proof.
  intros K. destruct (Z.ltb_spec k (vlen t)) as [L|L]; unfold vlen in L.
  - unfold at_. apply nth_error_nth'. lia.
  - apply nth_error_None. lia.
Qed.
Lemma stamp_cell t y p X Y : stamp t 0 y p X Y =
  if (0 <=? X) && (y <=? Y) && (Y <? y + ch) then match nth_error t (Z.to_nat (X / cw)) with Some c => inked (p X Y) c (X mod cw) (Y - y) | None => p X Y end else p X Y.
Proof.
  unfold stamp, covers. rewrite Z.sub_0_r, Z.add_0_l. destruct (Z.leb_spec 0 X) as [PX|]; [|reflexivity]. rewrite !andb_true_l.
  destruct (y <=? Y); [|rewrite andb_false_r; reflexivity]. rewrite andb_true_r, andb_true_l. destruct (Y <? y + ch); [|rewrite andb_false_r; reflexivity]. rewrite andb_true_r.
  assert (Q : 0 <= X / cw) by (apply Z.div_pos; lia). rewrite nth_error_at by exact Q.
  replace (X <? vlen t * cw) with (X / cw <? vlen t); [destruct (X / cw <? vlen t); reflexivity|].
  destruct (Z.ltb_spec X (vlen t * cw)) as [L|L].
  - apply Z.ltb_lt. apply Z.div_lt_upper_bound; lia.
  - apply Z.ltb_ge. apply Z.div_le_lower_bound; lia.
Qed.
Lemma cell_in_neg lines x y : y < 0 -> cell_in lines x y = None.
Proof. intros H. destruct lines; cbn [cell_in]; [reflexivity|]. replace (y <? 0) with true by lia. rewrite orb_true_r. reflexivity. Qed.
Lemma stamps_cell lines : forall y p X Y, stamps y lines p X Y =
  match cell_in lines X (Y - y) with Some (c, i, j) => inked (p X Y) c i j | None => p X Y end.
Proof.
  induction lines as [|l r IH]; intros y p X Y; cbn [stamps cell_in]; [reflexivity|].
  rewrite IH. rewrite stamp_cell. pose proof (lh_pos l) as LP.
  replace (Y - (y + lh l)) with (Y - y - lh l) by lia.
  destruct (Z.ltb_spec X 0) as [A|A].
  { replace (0 <=? X) with false by lia. cbn [andb orb]. destruct r; cbn [cell_in]; [reflexivity|]. replace (X <? 0) with true by lia. reflexivity. }
  replace (0 <=? X) with true by lia. cbn [andb orb]. destruct (Z.ltb_spec (Y - y) 0) as [B|B].
  { replace (y <=? Y) with false by lia. rewrite cell_in_neg by lia. reflexivity. }
  replace (y <=? Y) with true by lia. cbn [andb]. destruct (Z.ltb_spec (Y - y) (lh l)) as [C|C].
  - rewrite cell_in_neg by lia. replace (Y <? y + ch) with (Y - y <? ch) by lia. destruct (Y - y <? ch); [|reflexivity].
    destruct (nth_error l (Z.to_nat (X / cw))); reflexivity.
  - assert (E : (if Y <? y + ch then match nth_error l (Z.to_nat (X / cw)) with Some c => inked (p X Y) c (X mod cw) (Y - y) | None => p X Y end else p X Y) = p X Y).
    { destruct l as [|c0 l0]; [destruct (Z.to_nat (X / cw)); destruct (Y <? y + ch); reflexivity|]. pose proof (lh_high (c0 :: l0) ltac:(discriminate)). replace (Y <? y + ch) with false by lia. reflexivity. }
    rewrite E. reflexivity.
Qed.
End Face.

(** ** Words of one style *)
Section Style.
Variable fo : fonts.
Variable sp : text_span.
Notation cw := (s_character_width sp).
Notation ch := (s_character_height sp).
Definition rule_at : Z := 3 + ch * base_line (s_font sp) / 1000000.
Hypothesis cw_pos : 0 < cw.
Hypothesis ch_pos : 0 < ch.
Hypothesis no_strike : s_strikethrough sp = 0.
Hypothesis upright_style : s_upside_down sp = false.
Hypothesis left_style : s_justify sp = JLeft.
Hypothesis rule_inside : 0 < s_underline sp -> 0 <= rule_at < ch.

Definition ink_of (p : rgba) (c i j : Z) : rgba :=
  let p := match fo (s_bold sp) (s_italic sp) (s_font sp) (drawn_at sp) c with Some g => press p (dot sp g i j) | None => p end in
  if (0 <? s_underline sp) && (j =? rule_at) then press p (s_text_color sp) else p.
Definition styled (t : list Z) : text_span := clone_with t sp.

Lemma word_stamp t x y p X Y : word fo 609 0 ch (put_at x y (styled t)) p X Y = stamp ink_of cw ch t x y p X Y.
Proof.
  unfold word, put_at, styled, clone_with. cbn [s_dimensions set_s_dimensions set_s_text s_character_height s_text s_font s_underline s_strikethrough s_text_color s_upside_down d_x d_y d_w d_h].
  rewrite no_strike, upright_style. change (0 <? 0) with false. cbv iota. rewrite Z.sub_diag, Z.mul_0_l, Z.div_0_l, !Z.add_0_r by lia.
  assert (L : letters fo (set_s_dimensions (Some (mk_dims x y (word_dots (set_s_text t (set_s_dimensions None sp))) ch)) (set_s_text t (set_s_dimensions None sp))) x y p X Y =
    if covers x y (vlen t * cw) ch X Y then
      match fo (s_bold sp) (s_italic sp) (s_font sp) (drawn_at sp) (at_ 0 t ((X - x) / cw)) with Some g => press (p X Y) (dot sp g ((X - x) mod cw) (Y - y)) | None => p X Y end
    else p X Y) by reflexivity.
  unfold stamp, ink_of. destruct (Z.ltb_spec 0 (s_underline sp)) as [U|U].
  - specialize (rule_inside U). unfold rule. rewrite L. replace (y + 3 + ch * base_line (s_font sp) / 1000000) with (y + rule_at) by (unfold rule_at; lia).
    change (word_dots (set_s_text t (set_s_dimensions None sp))) with (vlen t * cw). cbn [andb].
    set (r := rule_at) in *. clearbody r. clear L.
    unfold covers. destruct ((x <=? X) && (X <? x + vlen t * cw)); cbn [andb]; [|reflexivity].
    destruct (Z.leb_spec y Y); destruct (Z.ltb_spec Y (y + ch)); cbn [andb];
      replace ((y + r <=? Y) && (Y <? y + r + 1)) with (Y - y =? r) by lia; try reflexivity; replace (Y - y =? r) with false by lia; reflexivity.
  - exact L.
Qed.

Definition plain_word (t : list Z) : Prop := is_tab (styled t) = false.
Lemma row_stamp tabs ts : Forall plain_word ts -> forall x y p q X Y, (forall X Y, p X Y = q X Y) ->
  fold_left (fun p w => word fo 609 0 ch w p) (row tabs x y (map styled ts)) p X Y = stamp ink_of cw ch (concat ts) x y q X Y.
Proof.
  induction ts as [|t ts IH]; intros F x y p q X Y E; cbn [map row fold_left concat].
  - rewrite stamp_nil. apply E.
  - apply Forall_cons_iff in F. destruct F as (F & Fs). unfold plain_word in F. rewrite F. cbn [fold_left].
    change (word_dots (styled t)) with (vlen t * cw).
    rewrite (IH Fs _ _ _ (stamp ink_of cw ch t x y q)).
    + apply stamp_app. exact cw_pos.
    + intros X' Y'. rewrite word_stamp. apply stamp_ext, E.
Qed.
Lemma row_styled tabs ts : Forall plain_word ts -> forall x y, exists xs, row tabs x y (map styled ts) = map (fun tx => put_at (snd tx) y (styled (fst tx))) (combine ts xs) /\ length xs = length ts.
Proof.
  induction ts as [|t ts IH]; intros F x y; cbn [map row]; [exists []; auto|].
  apply Forall_cons_iff in F. destruct F as (F & Fs). unfold plain_word in F. rewrite F. destruct (IH Fs (x + word_dots (styled t)) y) as (xs & E & L).
  exists (x :: xs). cbn [combine map fst snd length]. rewrite E, L. auto.
Qed.
Lemma row_none tabs ts x y : Forall plain_word ts -> nonempty (row tabs x y (map styled ts)) = nonempty (map styled ts).
Proof. intros F. destruct ts as [|t ts]; [reflexivity|]. apply Forall_cons_iff in F. destruct F as (F & _). unfold plain_word in F. cbn [map row]. rewrite F. reflexivity. Qed.
Lemma row_line_height tabs t ts x y : Forall plain_word (t :: ts) -> Renderer.line_height (row tabs x y (map styled (t :: ts))) = ch.
Proof.
  intros F. destruct (row_styled tabs _ F x y) as (xs & -> & L). unfold Renderer.line_height.
  assert (G : forall l h, 0 <= h <= ch -> fold_left (fun h s => Z.max h (s_character_height s)) (map (fun tx => put_at (snd tx) y (styled (fst tx))) l) h = match l with [] => h | _ => ch end).
  { induction l as [|a l IH]; intros h Hh; [reflexivity|]. cbn [map fold_left]. change (s_character_height (put_at (snd a) y (styled (fst a)))) with ch.
    rewrite IH by lia. destruct l; lia. }
  rewrite G by lia. destruct xs; [discriminate L | reflexivity].
Qed.
Lemma row_shift tabs t ts x y : Forall plain_word (t :: ts) -> placed_line 609 (row tabs x y (map styled (t :: ts))) = (row tabs x y (map styled (t :: ts)), 0).
Proof.
  intros F. unfold placed_line. apply Forall_cons_iff in F. destruct F as (F & _). unfold plain_word in F. cbn [map row]. rewrite F.
  change (s_justify (put_at x y (styled t))) with (s_justify sp). rewrite left_style. reflexivity.
Qed.
Lemma row_height_styled spacing ts : 0 <= spacing -> Forall plain_word ts -> row_height spacing (map styled ts) = match ts with [] => spacing | _ => Z.max spacing ch end.
Proof.
  intros Sp F. induction ts as [|t ts IH]; [reflexivity|]. apply Forall_cons_iff in F. destruct F as (F & Fs). unfold row_height in *. cbn [map fold_right]. unfold plain_word in F. rewrite F, (IH Fs).
  change (s_character_height (styled t)) with ch. destruct ts; lia.
Qed.

(** Lines of words. *)
Definition sheet_lines (lo : list (list text_span * Z)) (p : picture) : picture :=
  fold_left (fun p l => fold_left (fun p w => word fo 609 (snd l) (Renderer.line_height (fst l)) w p) (fst l) p) lo p.
Variable words : list Z -> list (list Z).
Hypothesis words_text : forall l, concat (words l) = l.
Hypothesis words_some : forall l, l <> [] -> words l <> [].
Hypothesis words_none : words [] = [].
Definition wordy (lines : list (list Z)) : list (list text_span) := map (fun l => map styled (words l)) lines.
Definition pitch_of (spacing : Z) (l : list Z) : Z := match l with [] => spacing | _ => Z.max spacing ch end.
Lemma rows_stamps spacing tabs lines : 0 <= spacing -> Forall (fun l => Forall plain_word (words l)) lines -> forall y p q X Y, (forall X Y, p X Y = q X Y) ->
  sheet_lines (map (placed_line 609) (filter nonempty (rows spacing tabs 0 y (wordy lines)))) p X Y =
  stamps ink_of cw ch (pitch_of spacing) y lines q X Y.
Proof.
  intros Sp. induction lines as [|l lines IH]; intros F y p q X Y E; [apply E|].
  apply Forall_cons_iff in F. destruct F as (F & Fs). cbn [wordy map rows filter stamps]. fold (wordy lines).
  rewrite row_none by exact F. rewrite row_height_styled by assumption.
  assert (EP : match words l with [] => spacing | _ => Z.max spacing ch end = pitch_of spacing l).
  { destruct l as [|c l]; [rewrite words_none; reflexivity|]. pose proof (words_some (c :: l) ltac:(discriminate)). destruct (words (c :: l)); [contradiction | reflexivity]. }
  rewrite EP. destruct (words l) as [|t ts] eqn:W.
  - cbn [map nonempty]. apply IH; [exact Fs|]. intros X' Y'. rewrite E. pose proof (words_text l) as WT. rewrite W in WT. cbn in WT. rewrite <- WT. rewrite stamp_nil. reflexivity.
  - change (nonempty (map styled (t :: ts))) with true. cbv iota. set (R := row tabs 0 y (map styled (t :: ts))). cbn [map]. unfold sheet_lines. cbn [fold_left]. unfold R. rewrite row_shift by exact F. cbn [fst snd].
    rewrite row_line_height by exact F.
    match goal with |- fold_left _ ?m ?p0 X Y = _ => change (sheet_lines m p0 X Y = stamps ink_of cw ch (pitch_of spacing) (y + pitch_of spacing l) lines (stamp ink_of cw ch l 0 y q) X Y) end.
    apply IH; [exact Fs|]. intros X' Y'. rewrite (row_stamp tabs _ F 0 y p q X' Y' E). rewrite <- W, words_text. reflexivity.
Qed.
End Style.
