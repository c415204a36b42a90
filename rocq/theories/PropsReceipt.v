(** * PropsReceipt: C66, a receipt of styled, aligned lines, feeds and cuts, from the bytes to the dots. *)
From Verif Require Import Base Command CommandSet Parser Vec Float32 GTypes Graphics Utf8 Decoder Context Text Upce Handlers Renderer
  SpecStream StreamProofs ContextTheory RendererTheory Origin SpecPrinter StateTheory PropsText SpecRender
  PropsOutput LayoutTheory AreaTheory PlaceTheory PropsContext PropsLayout PropsPlace SafeTheory PenTheory CallsTheory SpecLines PropsLines
  ManualTheory PropsQr PropsDecoder ThermalImage SpecCanvas ImageRenderer SpecImage ImageTheory PropsImage SpecDraw DrawTheory SpecSafe PropsSafe PropsDraw
  PropsCells SpecScene GlyphTheory PixelTheory SceneTheory PropsScene SpecPlain PlainTheory PlainRun PlainJob PropsPlain SpecReceipt ReceiptRun.
Local Open Scope Z_scope.
Local Open Scope list_scope.
Local Arguments at_ : simpl never.
Local Arguments vlen : simpl never.
Local Opaque rctx spj sp.

(** ** The dots *)
Lemma scene_lines fo b new : drawn_lines b new -> forall p, scene fo 609 new p = sheet_lines fo (lines_of new) p.
Proof.
  induction 1 as [|c new (SL & _) F IH]; intros p; [reflexivity|]. unfold scene. cbn [fold_left]. fold (scene fo 609 new (sketch fo 609 c p)). rewrite IH.
  destruct c as [x ev]. destruct SL as [S|(T & Fr & P)].
  - unfold still in S. cbn [snd] in S. unfold sketch. cbn [fst snd]. destruct ev; try contradiction; destruct (p_enabled (c_page x)); reflexivity.
  - unfold sketch. cbn [fst snd] in *. rewrite P. unfold is_text_call, framed_call in *. cbn [fst snd] in *. destruct ev; try contradiction.
    destruct spans as [|f l]; [contradiction|]. destruct Fr as (_ & -> & _). reflexivity.
Qed.
Lemma strokes_lines fo b new : drawn_lines b new ->
  flat_map (strokes fo) new = flat_map (fun l => flat_map (span_strokes fo (snd l) (Renderer.line_height (fst l))) (fst l)) (lines_of new).
Proof.
  induction 1 as [|c new (SL & _) F IH]; [reflexivity|]. cbn [flat_map]. rewrite IH. destruct c as [x ev]. destruct SL as [S|(T & Fr & P)].
  - unfold still in S. cbn [snd] in S. unfold strokes. cbn [fst snd]. destruct ev; try contradiction; destruct (p_enabled (c_page x)); reflexivity.
  - unfold is_text_call, framed_call in *. cbn [fst snd] in *. unfold strokes. rewrite P. destruct ev; try contradiction.
    destruct spans as [|f l]; [contradiction|]. destruct Fr as (_ & -> & _). reflexivity.
Qed.
Lemma sheet_app fo a b p : sheet_lines fo (a ++ b) p = sheet_lines fo b (sheet_lines fo a p).
Proof. unfold sheet_lines. apply fold_left_app. Qed.

(** A line that is not at the left edge. *)
Section Row.
Variable fo : fonts.
Variable q : text_span.
Notation cw := (s_character_width q).
Notation ch := (s_character_height q).
Hypothesis cw_pos : 0 < cw.
Hypothesis ch_pos : 0 < ch.
Hypothesis no_strike : s_strikethrough q = 0.
Hypothesis upright_style : s_upside_down q = false.
Hypothesis rule_inside : 0 < s_underline q -> 0 <= rule_at q < ch.
Lemma word_off off x y t p X Y : word fo 609 off ch (put_at x y (styled q t)) p X Y = word fo 609 0 ch (put_at (x + off) y (styled q t)) p X Y.
Proof.
  unfold word, put_at, styled, clone_with. cbn [s_dimensions set_s_dimensions set_s_text s_character_height s_text s_font s_underline s_strikethrough s_text_color s_upside_down d_x d_y d_w d_h].
  rewrite Z.add_0_r. reflexivity.
Qed.
Lemma row_stamp_off tabs off ts : Forall (plain_word q) ts -> forall x y p p' X Y, (forall X Y, p X Y = p' X Y) ->
  fold_left (fun p w => word fo 609 off ch w p) (row tabs x y (map (styled q) ts)) p X Y = stamp (ink_of fo q) cw ch (concat ts) (x + off) y p' X Y.
Proof.
  induction ts as [|t ts IH]; intros F x y p p' X Y E; cbn [map row fold_left concat].
  - rewrite stamp_nil. apply E.
  - apply Forall_cons_iff in F. destruct F as (F & Fs). unfold plain_word in F. rewrite F. cbn [fold_left].
    change (word_dots (styled q t)) with (vlen t * cw).
    rewrite (IH Fs _ _ _ (stamp (ink_of fo q) cw ch t (x + off) y p')).
    + replace (x + vlen t * cw + off) with (x + off + vlen t * cw) by lia. apply stamp_app. exact cw_pos.
    + intros X' Y'. rewrite word_off, (word_stamp fo q cw_pos ch_pos no_strike upright_style rule_inside). apply stamp_ext, E.
Qed.
Lemma row_dots_styled tabs ts : Forall (plain_word q) ts -> forall x y, row_dots (row tabs x y (map (styled q) ts)) = vlen (concat ts) * cw.
Proof.
  induction ts as [|t ts IH]; intros F x y; cbn [map row concat]; [reflexivity|]. apply Forall_cons_iff in F. destruct F as (F & Fs). unfold plain_word in F. rewrite F.
  unfold row_dots in *. cbn [fold_right]. rewrite (IH Fs). rewrite vlen_app. change (word_dots (put_at x y (styled q t))) with (vlen t * cw). lia.
Qed.
Lemma row_first tabs t ts x y : Forall (plain_word q) (t :: ts) -> placed_line 609 (row tabs x y (map (styled q) (t :: ts))) =
  (row tabs x y (map (styled q) (t :: ts)), shift_for (s_justify q) 609 (vlen (concat (t :: ts)) * cw)).
Proof.
  intros F. unfold placed_line. rewrite (row_dots_styled tabs (t :: ts) F). f_equal. apply Forall_cons_iff in F. destruct F as (F & _). unfold plain_word in F. cbn [map row]. rewrite F. reflexivity.
Qed.
End Row.
Lemma stamp_moved inked cw ch t o y p X Y : stamp inked cw ch t o y p X Y = stamp inked cw ch t 0 y (fun a b => p (a + o) b) (X - o) Y.
Proof.
  unfold stamp, covers. replace (X - o + o) with X by lia. replace (X - o - 0) with (X - o) by lia.
  replace (0 <=? X - o) with (o <=? X) by lia. replace (X - o <? 0 + vlen t * cw) with (X <? o + vlen t * cw) by lia. reflexivity.
Qed.

(** ** One line *)
Lemma just_set j q : s_justify (set_s_justify j q) = j. Proof. reflexivity. Qed.
Lemma just_strike j q : s_strikethrough (set_s_justify j q) = s_strikethrough q. Proof. reflexivity. Qed.
Lemma just_up j q : s_upside_down (set_s_justify j q) = s_upside_down q. Proof. reflexivity. Qed.
Lemma just_rule j q : rule_at (set_s_justify j q) = rule_at q. Proof. reflexivity. Qed.
Lemma just_ink fo j q p c x y : ink_of fo (set_s_justify j q) p c x y = ink_of fo q p c x y. Proof. reflexivity. Qed.
Lemma just_wf j q : span_wf q -> span_wf (set_s_justify j q). Proof. intros [A B C D]. constructor; assumption. Qed.
Lemma spj_just n a : s_justify (spj n a) = justify_of a. Proof. rewrite spj_is, (just_set (justify_of a) (sp n)). reflexivity. Qed.
Lemma spj_strike n a : s_strikethrough (spj n a) = 0. Proof. rewrite spj_is, (just_strike (justify_of a) (sp n)). apply sp_strike. Qed.
Lemma spj_up n a : s_upside_down (spj n a) = false. Proof. rewrite spj_is, (just_up (justify_of a) (sp n)). apply sp_upright. Qed.
Lemma spj_rule n a : rule_at (spj n a) = rule_row n. Proof. rewrite spj_is, (just_rule (justify_of a) (sp n)). apply rule_same. Qed.
Lemma spj_ink fo n a p c x y : ink_of fo (spj n a) p c x y = ink_of fo (sp n) p c x y. Proof. rewrite spj_is, (just_ink fo (justify_of a) (sp n)). reflexivity. Qed.
Lemma spj_wf n a t : span_wf (styled (spj n a) t).
Proof. rewrite rctx_style. apply (just_wf (justify_of a) (styled (sp n) t)), styled_wf. Qed.
Lemma indent_shift n a t : vlen t * cell_width n <= 609 -> shift_for (justify_of a) 609 (vlen t * cell_width n) = indent n a t.
Proof.
  intros L. unfold indent. cbv zeta. change (Z.of_nat (length t)) with (vlen t). set (w := vlen t * cell_width n) in *. clearbody w.
  assert (D : 0 <= (609 - w) / 2) by (apply Z.div_pos; lia).
  assert (C : forall b, In b [1; 49] -> shift_for (justify_of b) 609 w = Z.max 0 ((609 - w) / 2)) by (intros b [<-|[<-|[]]]; reflexivity).
  assert (R : forall b, In b [2; 50] -> shift_for (justify_of b) 609 w = 609 - w) by (intros b [<-|[<-|[]]]; reflexivity).
  destruct (Z.eqb_spec a 1) as [N1|N1]; [cbn [orb]; rewrite C by (left; lia); lia|]. destruct (Z.eqb_spec a 49) as [N2|N2]; [cbn [orb]; rewrite C by (right; left; lia); lia|].
  destruct (Z.eqb_spec a 2) as [N3|N3]; [cbn [orb]; rewrite R by (left; lia); lia|]. destruct (Z.eqb_spec a 50) as [N4|N4]; [cbn [orb]; rewrite R by (right; left; lia); lia|].
  cbn [orb]. assert (J : justify_of a = JLeft).
  { clear L D C R. unfold justify_of. destruct a as [|a|a]; try reflexivity. do 6 (destruct a as [a|a|]; try reflexivity; try lia). }
  rewrite J. reflexivity.
Qed.
Lemma put_stamp fo n a y t p p' X Y : text_ok n t -> (forall X Y, p X Y = p' X Y) ->
  sheet_lines fo (put n a y t) p X Y = stamp (ink_of fo (spj n a)) (cell_width n) (cell_height n) t (indent n a t) y p' X Y.
Proof.
  intros (Pr & Len) E. assert (PW := proj1 (plain_words (spj n a) t Pr)). unfold put. cbn [filter]. rewrite row_none by exact PW.
  pose proof (words_text t) as WT. destruct (words t) as [|w ws] eqn:W.
  - cbn [map nonempty]. cbn [concat] in WT. subst t. rewrite stamp_nil. cbn. apply E.
  - change (nonempty (map (styled (spj n a)) (w :: ws))) with true. cbv iota. set (R := row tabs0 0 y (map (styled (spj n a)) (w :: ws))). cbn [map]. unfold sheet_lines. cbn [fold_left]. unfold R.
    rewrite row_first by exact PW. cbn [fst snd]. pose proof (cell_wide n) as CW. pose proof (cell_high n) as CH.
    rewrite row_line_height; [|rewrite spj_ch; exact CH | exact PW].
    rewrite (row_stamp_off fo (spj n a)) with (p' := p'); [|rewrite spj_cw; exact CW | rewrite spj_ch; exact CH | apply spj_strike | apply spj_up | intros _; rewrite spj_rule, spj_ch; apply rule_within | exact PW | exact E].
    rewrite WT, spj_cw, spj_ch, spj_just, indent_shift by exact Len. rewrite Z.add_0_l. reflexivity.
Qed.
Lemma stamp_at inked cw ch t o y p X Y : 0 < cw -> stamp inked cw ch t o y p X Y =
  if (o <=? X) && (y <=? Y) && (Y <? y + ch) then match nth_error t (Z.to_nat ((X - o) / cw)) with Some c => inked (p X Y) c ((X - o) mod cw) (Y - y) | None => p X Y end else p X Y.
Proof.
  intros CW. rewrite stamp_moved. rewrite (stamp_cell inked cw ch CW (fun _ => Z.max ch 1)); [|intros; lia | intros; lia]. replace (X - o + o) with X by lia. replace (0 <=? X - o) with (o <=? X) by lia. reflexivity.
Qed.

(** ** All of them *)
Lemma height_some p : part_ok p -> 0 <= part_height p.
Proof. destruct p; cbn [part_ok part_height]; intros H; try lia. unfold line_pitch. destruct text; lia. Qed.
Lemma cell_above l x y : Forall part_ok l -> y < 0 -> cell_at l x y = None.
Proof.
  intros F H. destruct F as [|p r P F]; cbn [cell_at]; [reflexivity|]. pose proof (height_some p P). replace (y <? part_height p) with true by lia.
  destruct p; try reflexivity. cbv zeta. replace (y <? 0) with true by lia. rewrite orb_true_r. reflexivity.
Qed.
Lemma parts_cell fo l : Forall part_ok l -> forall y p p' X Y, (forall X Y, p X Y = p' X Y) ->
  sheet_lines fo (put_parts y l) p X Y = match cell_at l X (Y - y) with Some (n, c, i, j) => ink_of fo (sp n) (p' X Y) c i j | None => p' X Y end.
Proof.
  induction 1 as [|q r Q F IH]; intros y p p' X Y E; cbn [put_parts cell_at]; [apply E|]. rewrite sheet_app. pose proof (height_some q Q) as HS.
  assert (Plain : (forall p, sheet_lines fo (match q with Line n a t => put n a y t | _ => [] end) p = p) ->
    (Y - y < part_height q -> cell_at (q :: r) X (Y - y) = None) ->
    sheet_lines fo (put_parts (y + part_height q) r) (sheet_lines fo match q with Line n a t => put n a y t | _ => [] end p) X Y =
    match cell_at (q :: r) X (Y - y) with Some (n, c, i, j) => ink_of fo (sp n) (p' X Y) c i j | None => p' X Y end).
  { intros Z1 Z2. rewrite Z1, (IH _ _ p' _ _ E). replace (Y - (y + part_height q)) with (Y - y - part_height q) by lia. destruct (Z_lt_dec (Y - y) (part_height q)) as [L|L].
    - rewrite (Z2 L), cell_above by (assumption || lia). reflexivity.
    - cbn [cell_at]. replace (Y - y <? part_height q) with false by lia. reflexivity. }
  cbn [cell_at] in Plain. destruct q as [n a t|k|k|m|m k]; [clear Plain | apply Plain; [reflexivity|]; intros L; replace (Y - y <? _) with true by lia; reflexivity ..].
  destruct Q as (_ & _ & T). cbn [part_height] in *.
  set (st := stamp (ink_of fo (spj n a)) (cell_width n) (cell_height n) t (indent n a t) y p').
  rewrite (IH _ _ st) by (intros X' Y'; apply put_stamp; [exact T | exact E]).
  replace (Y - (y + line_pitch n t)) with (Y - y - line_pitch n t) by lia.
  assert (ST : st X Y = if (indent n a t <=? X) && (y <=? Y) && (Y <? y + cell_height n) then match nth_error t (Z.to_nat ((X - indent n a t) / cell_width n)) with Some c => ink_of fo (sp n) (p' X Y) c ((X - indent n a t) mod cell_width n) (Y - y) | None => p' X Y end else p' X Y).
  { unfold st. rewrite stamp_at by apply cell_wide. destruct (_ && _); [|reflexivity]. destruct (nth_error t _); [apply spj_ink | reflexivity]. }
  destruct (Z.ltb_spec (Y - y) (line_pitch n t)) as [L|L].
  - rewrite cell_above by (assumption || lia). rewrite ST. cbv zeta.
    replace ((indent n a t <=? X) && (y <=? Y) && (Y <? y + cell_height n)) with (negb ((X - indent n a t <? 0) || (Y - y <? 0) || (cell_height n <=? Y - y))) by lia.
    destruct (_ || _); [reflexivity|]. cbn [negb]. destruct (nth_error t _); reflexivity.
  - assert (EQ : st X Y = p' X Y); [|rewrite EQ; reflexivity]. rewrite ST. destruct t as [|c t].
    + destruct (_ && _); [|reflexivity]. destruct (Z.to_nat _); reflexivity.
    + unfold line_pitch in L. replace (Y <? y + cell_height n) with false by lia. rewrite andb_false_r. reflexivity.
Qed.
Lemma cell_beside l : Forall part_ok l -> forall x y, x < 0 \/ 609 <= x -> cell_at l x y = None.
Proof.
  induction 1 as [|q r Q F IH]; intros x y H; cbn [cell_at]; [reflexivity|]. destruct (y <? part_height q); [|apply IH, H]. destruct q as [n a t| | | |]; try reflexivity.
  cbv zeta. destruct Q as (_ & _ & _ & L). pose proof (cell_wide n) as CW. set (o := indent n a t).
  assert (O : 0 <= o /\ o + Z.of_nat (length t) * cell_width n <= 609).
  { unfold o, indent. cbv zeta. set (w := Z.of_nat (length t) * cell_width n) in *. assert (W0 : 0 <= w) by (unfold w; nia). clearbody w. clear -L W0.
    pose proof (Z.div_mod (609 - w) 2 ltac:(lia)). pose proof (Z.mod_pos_bound (609 - w) 2 ltac:(lia)). destruct (_ || _); [lia|]. destruct (_ || _); lia. }
  clearbody o. destruct (Z.ltb_spec (x - o) 0) as [N|N]; [reflexivity|]. cbn [orb]. destruct (_ || _); [reflexivity|].
  replace (nth_error t (Z.to_nat ((x - o) / cell_width n))) with (@None Z); [reflexivity|]. symmetry. apply nth_error_None.
  assert (Z.of_nat (length t) <= (x - o) / cell_width n) by (apply Z.div_le_lower_bound; lia). lia.
Qed.

(** ** How far down they go *)
Definition line_strokes (fo : fonts) (lo : list (list text_span * Z)) : list stroke :=
  flat_map (fun l => flat_map (span_strokes fo (snd l) (Renderer.line_height (fst l))) (fst l)) lo.
Lemma row_word_of q tabs ts : forall x y w, In w (row tabs x y (map (styled q) ts)) -> exists x' t, w = put_at x' y (styled q t).
Proof.
  induction ts as [|t ts IH]; intros x y w H; cbn [map row] in H; [contradiction|]. destruct (is_tab (styled q t)); [exact (IH _ _ _ H)|].
  destruct H as [<-|H]; [eauto | exact (IH _ _ _ H)].
Qed.
Lemma put_low fo n a y t k : text_ok n t -> 0 <= y -> In k (line_strokes fo (put n a y t)) -> bottom 609 k <= y + line_pitch n t.
Proof.
  intros (Pr & Len) Y. assert (PW := proj1 (plain_words (spj n a) t Pr)). unfold put, line_strokes. cbn [filter]. rewrite row_none by exact PW.
  destruct (words t) as [|w ws] eqn:W; [intros []|]. change (nonempty (map (styled (spj n a)) (w :: ws))) with true. cbv iota.
  set (R := row tabs0 0 y (map (styled (spj n a)) (w :: ws))). cbn [map flat_map]. rewrite app_nil_r. intros H. unfold R in H. rewrite row_first in H by exact PW. cbn [fst snd] in H.
  pose proof (cell_high n) as CH. rewrite row_line_height in H; [|rewrite spj_ch; exact CH | exact PW].
  apply in_flat_map in H. destruct H as (v & Hv & H). apply row_word_of in Hv. destruct Hv as (x' & t' & ->).
  assert (RI : 0 <= rule_at (spj n a) < s_character_height (spj n a)) by (rewrite spj_rule, spj_ch; apply rule_within).
  pose proof (proj1 (Forall_forall _ _) (word_low_at fo (spj n a) x' y t' _ (spj_wf n a t') (spj_strike n a) (spj_up n a) RI) _ H) as B. cbv beta in B. rewrite spj_ch in B.
  assert (LH : cell_height n <= line_pitch n t). { unfold line_pitch. destruct t; [discriminate W | lia]. }
  lia.
Qed.
Lemma parts_low fo l : Forall part_ok l -> forall y k, 0 <= y -> In k (line_strokes fo (put_parts y l)) -> bottom 609 k <= y + receipt_height l.
Proof.
  induction 1 as [|q r Q F IH]; intros y k Y H; cbn [put_parts] in H; [contradiction|]. pose proof (height_some q Q) as HS.
  assert (HR : 0 <= receipt_height r). { clear -F. induction F as [|q r Q F IH]; cbn [receipt_height fold_right]; [lia|]. fold (receipt_height r). pose proof (height_some q Q). lia. }
  cbn [receipt_height fold_right]. fold (receipt_height r). unfold line_strokes in H. rewrite flat_map_app in H. apply in_app_or in H. destruct H as [H|H].
  - destruct q as [n a t| | | |]; try contradiction. destruct Q as (_ & _ & T). pose proof (put_low fo n a y t k T Y H). cbn [part_height] in *. lia.
  - pose proof (IH (y + part_height q) k ltac:(lia) H). lia.
Qed.

(** ** The sheet *)
Lemma receipt_is_bytes l : Forall part_ok l -> bytes_ok (receipt_bytes l) = true.
Proof.
  intros F. unfold bytes_ok. rewrite forallb_forall. intros b Hb. unfold receipt_bytes in Hb. apply in_flat_map in Hb. destruct Hb as (p & Hp & Hb).
  pose proof (proj1 (Forall_forall _ _) F _ Hp) as P. unfold is_byte. destruct p as [n a t|n|n|m|m n]; cbn [part_ok part_bytes] in *.
  - destruct P as (P1 & P2 & P3 & _). apply in_app_or in Hb. destruct Hb as [Hb|Hb]; [cbn [In] in Hb; lia|]. apply in_app_or in Hb. destruct Hb as [Hb|Hb]; [|cbn [In] in Hb; lia].
    pose proof (proj1 (Forall_forall _ _) P3 _ Hb) as Pb. unfold printable in Pb. lia.
  - cbn [In] in Hb. lia.
  - cbn [In] in Hb. lia.
  - cbn [In] in *. lia.
  - cbn [In] in *. lia.
Qed.
(** *** C66: lines of their own style and alignment, line and dot feeds, and cuts. *)
Theorem C66_receipt : forall fo e l im, fonts_fine fo -> Forall part_ok l -> render_images fo e (receipt_bytes l) = Ok im ->
  exists r, im_out im = [r] /\ r_width r = 649 /\ r_height r = 108 + receipt_height l /\
    forall X Y, 0 <= X < 649 -> 0 <= Y < r_height r -> rgb_at r X Y = let v := 255 - receipt_dot fo l (X - 20) (Y - 108) in (v, v, v).
Proof.
  intros fo e l im FF OK E. pose proof (receipt_is_bytes l OK) as B.
  assert (R : exists s, render e (receipt_bytes l) renderer_new = Ok s). { unfold render_images in E. apply bind_ok in E. destruct E as (s & R & _). eauto. }
  destruct R as (s & R). destruct (receipt_calls e l s B OK R) as (x0 & x1 & x & new & Ec & D & _ & _ & _ & HH & L & AY).
  set (bs := receipt_bytes l) in *. clearbody bs.
  set (calls := [(x0, EDevice BeginPrint); (x1, EBeginRender)] ++ new ++ [(x, EDevice EndPrint); (x, EGetErrors)]).
  assert (Ec' : rs_calls s = calls ++ (x, EEndRender) :: []) by (rewrite Ec; unfold calls; rewrite <- !app_assoc; reflexivity).
  assert (O : Forall (fun c => snd c <> EEndRender /\ snd c <> ERenderPage) calls).
  { unfold calls. constructor; [split; discriminate|]. constructor; [split; discriminate|]. apply Forall_app. split.
    - eapply Forall_impl; [|exact D]. cbv beta. intros [y ev] (Hs & _). unfold still, lined, is_text_call in Hs. cbn [fst snd] in *. destruct ev; try (split; discriminate); destruct Hs as [[]|([] & _)].
    - constructor; [split; discriminate|]. constructor; [split; discriminate | constructor]. }
  destruct (C40_first_image fo e bs s im calls x [] B R E Ec' O) as (r & la & A1 & A2 & A3 & _).
  destruct (C60_first_image fo e bs s im calls x [] FF B R E Ec' O) as (r' & la' & B1 & _ & _ & B4).
  assert (Er : r' = r) by congruence. subst r'.
  exists r. split.
  { assert (One : length (im_out im) = 1%nat).
    { unfold render in R. apply bind_ok in R. destruct R as (cmds & Pc & R). destruct (C39_images fo e bs cmds im B Pc E) as (Len & _). rewrite Len. f_equal.
      destruct (C31_outputs e bs cmds renderer_new s B Pc R) as (l0 & N & C & _). pose proof (new_calls_all _ _ N) as M. rewrite <- M, <- ends_count, Ec' in C. rewrite ev_ends_app, (no_ends_count calls O) in C. change (ev_ends [(x, EEndRender)]) with 1%nat in C. change (p_enabled (c_page (rs_ctx renderer_new))) with false in C. lia. }
    rewrite A1 in *. destruct la; [reflexivity | discriminate]. }
  split; [exact A2|]. assert (SC : flat_map (strokes fo) calls = flat_map (strokes fo) new).
  { unfold calls. rewrite !flat_map_app. cbn [flat_map]. unfold strokes. destruct (p_enabled (c_page x0)), (p_enabled (c_page x1)), (p_enabled (c_page x)); rewrite ?app_nil_r; reflexivity. }
  split.
  { rewrite A3, AY. assert (Bt : bottoms 609 (flat_map (strokes fo) calls) 0 <= 108 + receipt_height l).
    { rewrite SC, (strokes_lines fo _ new D), L. apply bottoms_low; [lia|]. intros k Hk. exact (parts_low fo l OK 108 k ltac:(lia) Hk). }
    lia. }
  intros X Y HX HY. rewrite (B4 X Y HX HY). unfold receipt_dot. destruct ((20 <=? X) && (X <? 629)) eqn:IN.
  - assert (SS : scene fo 609 calls blank_sheet (X - 20) Y = scene fo 609 new blank_sheet (X - 20) Y).
    { unfold calls, scene. rewrite !fold_left_app. cbn [fold_left]. unfold sketch. cbn [fst snd]. destruct (p_enabled (c_page x0)), (p_enabled (c_page x1)), (p_enabled (c_page x)); reflexivity. }
    rewrite SS, (scene_lines fo _ new D), L. rewrite (parts_cell fo l OK 108 blank_sheet blank_sheet) by reflexivity.
    destruct (cell_at l (X - 20) (Y - 108)) as [[[[n c] i] j]|]; [apply ink_black, FF | reflexivity].
  - rewrite (cell_beside l OK); [reflexivity|]. lia.
Qed.

(** ** Such a receipt does become an image, if it is not too long. *)
Definition receipt_seen (o : ocmd) : Prop := plain_seen o \/ In (o_prefix o) [[27; 97]; [27; 100]; [27; 74]; [29; 86]].
Lemma receipt_gentle c : sent c -> receipt_seen (observe c) -> gentle true c.
Proof.
  intros Sc [O|O]; [|cbn [In] in O; unfold gentle; cbn in O; destruct O as [O|[O|[O|[O|[]]]]]; symmetry in O].
  - assert (G : gentle false c) by exact (plain_gentle c Sc O). destruct O as [O|[O|[O|[O|O]]]]; unfold gentle.
    + pose proof (f_equal o_name O) as N. cbn in N. apply (proj1 (frame_name _ Sc)) in N. rewrite N. exact Logic.I.
    + pose proof (f_equal o_name O) as N. cbn in N. apply (proj2 (frame_name _ Sc)) in N. rewrite N. exact Logic.I.
    + cbn in O. destruct (text_entry c Sc O) as [(_ & H)|[(_ & H)|[(_ & H)|(_ & H)]]]; rewrite H; exact Logic.I.
    + cbn in O. rewrite (unknown_entry c Sc O). exact Logic.I.
    + cbn in O. known c Sc O cmd_set_print_mode P_set_print_mode. rewrite Hd. exact Logic.I.
  - known c Sc O cmd_set_justification P_set_justification. rewrite Hd. discriminate.
  - known c Sc O cmd_print_and_feed_lines P_print_and_feed_lines. rewrite Hd. exact Logic.I.
  - known c Sc O cmd_print_and_feed P_print_and_feed. rewrite Hd. exact Logic.I.
  - pose proof (sent_entry c _ cmd_feed_and_cut Sc O ltac:(cbn; lia) eq_refl) as I. pose proof (in_handler _ _ I) as Hd. cbn [cmd_feed_and_cut c_handler mk_cmd] in Hd.
    destruct (c_handler c); try contradiction; exact Logic.I.
Qed.
Lemma parts_seen l : Forall receipt_seen (flat_map part_seen l).
Proof.
  apply Forall_forall. intros o Ho. apply in_flat_map in Ho. destruct Ho as (p & _ & Ho). destruct p as [n a t|n|n|m|m n]; cbn [part_seen] in Ho.
  - apply in_app_or in Ho. destruct Ho as [[<-|[<-|[]]]|Ho]; [right; left; reflexivity | left; right; right; right; right; reflexivity|].
    left. right. right. left. destruct t; cbn [line_seen In] in Ho; [destruct Ho as [<-|[]]; reflexivity | destruct Ho as [<-|[<-|[]]]; reflexivity].
  - destruct Ho as [<-|[]]. right. right. left. reflexivity.
  - destruct Ho as [<-|[]]. right. right. right. left. reflexivity.
  - destruct Ho as [<-|[]]. right. right. right. right. left. reflexivity.
  - destruct Ho as [<-|[]]. right. right. right. right. left. reflexivity.
Qed.
Lemma papers_parts l : Forall part_ok l -> papers_seen (flat_map part_seen l) <= 147900 * Z.of_nat (length l).
Proof.
  induction 1 as [|p r P F IH]; cbn [flat_map length]; [cbn; lia|]. rewrite papers_app.
  assert (H : papers_seen (part_seen p) <= 147900); [|lia]. destruct p as [n a t|n|n|m|m n]; try (vm_compute; congruence).
  cbn [part_seen]. rewrite papers_app. assert (H1 : papers_seen [o_fixed "Set Text Justification" KControl [27; 97] a; o_fixed "Set Print Mode" KTextStyle [27; 33] n] = 130050) by (vm_compute; reflexivity). rewrite H1.
  assert (H2 : papers_seen (line_seen t) <= 255 * (1 + Z.of_nat (length t)) + 510).
  { destruct t as [|c t]; [vm_compute; congruence|]. cbn [line_seen]. unfold papers_seen. cbn [fold_right]. unfold paper_seen. cbn [o_text o_lf simple o_kind o_data]. unfold vlen. cbn [length]. lia. }
  destruct P as (_ & _ & _ & L). assert (CW : 9 <= cell_width n) by (unfold cell_width, wide; destruct (small_font n), (Z.testbit n 5); lia). nia.
Qed.
Theorem C66_prints : forall fo e l, fonts_fine fo -> encoders_ok e -> Forall part_ok l -> Z.of_nat (length l) <= 29000 -> 108 + receipt_height l <= longest_paper ->
  exists im, render_images fo e (receipt_bytes l) = Ok im.
Proof.
  intros fo e l FF Ee OK L H. pose proof (receipt_is_bytes l OK) as B. destruct (receipt_parse l OK) as (cmds & P & O).
  destruct (C59_image fo e true (receipt_bytes l) cmds Ee (fonts_fine_ok _ FF) B P) as (s & R & W).
  - assert (G : Forall receipt_seen (map observe cmds)).
    { rewrite O. constructor; [left; left; reflexivity|]. apply Forall_app. split; [apply parts_seen|]. constructor; [left; right; left; reflexivity | constructor]. }
    pose proof (parsed_sent _ _ B P) as Sc. apply Forall_forall. intros c Hc. apply receipt_gentle; [exact (proj1 (Forall_forall _ _) Sc _ Hc)|]. exact (proj1 (Forall_forall _ _) G _ (in_map observe _ _ Hc)).
  - rewrite papers_of, O, !papers_app. pose proof (papers_parts l OK) as PL. change (papers_seen [o_begin]) with 65025. change (papers_seen [o_end]) with 65025. unfold u32_max. lia.
  - apply W. destruct (receipt_calls e l s B OK R) as (x0 & x1 & x & new & Ec & D & Y0 & Y1 & Y & HH & _). unfold within_paper. rewrite Ec.
    constructor; [cbn [fst]; lia|]. constructor; [cbn [fst]; lia|]. apply Forall_app. split; [|repeat constructor; cbn [fst]; lia].
    eapply Forall_impl; [|exact D]. cbv beta. intros c (_ & Hc). lia.
Qed.

(** A title, centred in double height and width (n = 48), a space, two items, the second one at the right edge and underlined, and a cut. *)
Definition slip : list part := [Line 48 1 [65; 32; 65]; Lines 1; Line 0 0 [65]; Line 65 50 [65; 66]; Line 0 0 []; Dots 10; Cut 0; CutFeed 66 5].
Example C66_demo : Forall part_ok slip /\ receipt_height slip = 48 + 24 + 24 + 24 + 24 + 10 + 48 + 53 /\
  map (fun d => receipt_dot eight_dots slip (fst d) (snd d)) [(268, 0); (270, 3); (319, 4); (2, 75); (593, 99); (608, 107); (590, 107)] = [0; 255; 20; 255; 255; 255; 0].
Proof.
  split; [repeat constructor; unfold printable; cbn; try lia; vm_compute; congruence|]. vm_compute. auto.
Qed.
Example C66_demo_prints : exists im r, render_images eight_dots no_encoders1 (receipt_bytes slip) = Ok im /\ im_out im = [r] /\ r_width r = 649 /\ r_height r = 363.
Proof.
  destruct C66_demo as (FP & HT & D). destruct (C66_prints eight_dots no_encoders1 slip eight_fine C33_demo_encoders FP) as (im & E); [vm_compute; congruence | vm_compute; congruence|].
  destruct (C66_receipt eight_dots no_encoders1 slip im eight_fine FP E) as (r & A1 & A2 & A3 & A4). exists im, r. rewrite HT in A3. auto.
Qed.
