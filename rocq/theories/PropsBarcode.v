(** * PropsBarcode: C49 and C50, barcodes (GS k). *)
From Verif Require Import Base Command CommandSet Parser Vec GTypes Graphics Utf8 Decoder Context Text Upce SpecUpc PropsUpce
  Handlers Renderer ContextTheory RendererTheory Origin Told SpecPrinter StateTheory PropsContext PropsText SpecRender PropsOutput LayoutTheory
  AreaTheory PropsLayout SafeTheory PropsThermal SpecSymbol PropsPicture SpecBarcode PlaceTheory PenTheory.
Local Open Scope Z_scope.
Local Open Scope list_scope.
Local Arguments at_ : simpl never.
Local Arguments vlen : simpl never.

(** ** The bars *)
Lemma no_bars x y w h l : 0 <= w -> 609 < x + w -> filter (within 609) (bars x y w h l) = [].
Proof.
  intros W. revert x. induction l as [|m r IH]; intros x X; [reflexivity|]. cbn [bars]. rewrite filter_app, IH by lia. rewrite app_nil_r.
  destruct (0 <? m); [|reflexivity]. cbn [filter]. unfold within. cbn [r_x r_w]. destruct (Z.leb_spec (x + w) 609); [lia | reflexivity].
Qed.
Lemma bars_drawn b c y : standard c -> sinv c -> 0 < b_point_width b -> forall l x rects c' rects', 0 <= x ->
  fold_res (barcode_point b) l (at_xy x y c, rects) = Ok (c', rects') ->
  rects' = rects ++ filter (within 609) (bars x y (b_point_width b) (b_point_height b) l) /\ exists x', c' = at_xy x' y c.
Proof.
  intros S I W. induction l as [|m r IH]; intros x rects c' rects' X H.
  - cbn [fold_res] in H. injection H as <- <-. cbn [bars filter]. rewrite app_nil_r. eauto.
  - cbn [fold_res] in H. apply bind_ok in H. destruct H as ([c1 r1] & H1 & H). unfold barcode_point in H1.
    rewrite at_avail in H1 by assumption. rewrite at_x, at_y in H1 by exact S. cbn [bars]. rewrite filter_app.
    assert (X' : 0 <= x + b_point_width b) by lia.
    destruct (0 <? m); cbn [andb] in H1.
    + destruct (Z.ltb_spec (Z.max 0 (609 - x)) (b_point_width b)) as [L|L].
      * injection H1 as <- <-. destruct (IH _ _ _ _ X H) as (-> & K). split; [|exact K]. f_equal.
        rewrite (no_bars x), (no_bars (x + b_point_width b)) by lia. cbn [filter]. unfold within at 1. cbn [r_x r_w].
        destruct (Z.leb_spec (x + b_point_width b) 609); [lia | reflexivity].
      * apply bind_ok in H1. destruct H1 as (c2 & H2 & H1). apply (went_x _ _ _ _ _ S) in H2. subst c2. injection H1 as <- <-.
        destruct (IH _ _ _ _ X' H) as (-> & K). split; [|exact K]. rewrite <- app_assoc. f_equal. f_equal.
        cbn [filter]. unfold within at 1. cbn [r_x r_w]. destruct (Z.leb_spec (x + b_point_width b) 609) as [|Z]; [reflexivity | lia].
    + apply bind_ok in H1. destruct H1 as (c2 & H2 & H1). apply (went_x _ _ _ _ _ S) in H2. subst c2. injection H1 as <- <-.
      destruct (IH _ _ _ _ X' H) as (-> & K). split; [reflexivity | exact K].
Qed.

(** ** The text for people *)
Lemma hri_text b s s' : wide (b_text b) -> uinv (rs_ctx s) -> sinv (rs_ctx s) -> rs_spans s = [] -> barcode_text b s = Ok s' ->
  exists new, rs_calls s' = rs_calls s ++ new /\ Forall is_text_call new /\ drawn new = span_ink (b_text b) /\
    Forall (in_band (get_y (rs_ctx s)) (get_y (rs_ctx s') - t_line_spacing (c_text (rs_ctx s)))) (pieces_of new) /\
    get_y (rs_ctx s) + t_line_spacing (c_text (rs_ctx s)) <= get_y (rs_ctx s') /\ get_x (rs_ctx s') = get_base_x (rs_ctx s) /\
    moved (rs_ctx s) (rs_ctx s') /\ rs_spans s' = [] /\ rs_errors s' = rs_errors s.
Proof.
  intros W U S Sp H. destruct (barcode_text_ink _ _ _ W U Sp H) as (D & Sp'). destruct (barcode_text_quiet _ _ _ H) as ((M & E & _) & _).
  unfold barcode_text in H. apply bind_ok in H. destruct H as (s1 & H1 & H).
  destruct (flush_band (collect_text (b_text b) s) _ S H1) as (new & C & T & _ & _ & B & Y & _ & _). cbn [collect_text with_spans rs_ctx rs_calls] in *.
  destruct (process_text_quiet _ _ H1) as ((M1 & _) & _). cbn [collect_text with_spans rs_ctx] in M1.
  apply on_ctx_inv in H. destruct H as (c & Hc & ->). cbn [with_ctx rs_calls rs_ctx rs_spans rs_errors] in *.
  destruct (line_pos _ _ _ Hc) as (X2 & Y2). rewrite (moved_text _ _ M1), Z.mul_1_r in Y2. rewrite (moved_base_x _ _ M1) in X2.
  exists new. split; [exact C|]. split; [exact T|]. split.
  - rewrite C, drawn_app in D. apply app_inv_head in D. exact D.
  - split; [|split; [lia|]; split; [exact X2|]; split; [exact M|]; split; [exact Sp'|exact E]].
    eapply Forall_impl; [|exact B]. intros a (d & Hd & Hb). exists d. split; [exact Hd | lia].
Qed.

(** ** The whole symbol *)
Definition hri_above (h : hri) : bool := match h with HriAbove | HriBoth => true | _ => false end.
Definition hri_below (h : hri) : bool := match h with HriBelow | HriBoth => true | _ => false end.
Lemma barcode_printed b s s' : standard (rs_ctx s) -> wide (b_text b) -> uinv (rs_ctx s) -> sinv (rs_ctx s) -> rs_spans s = [] ->
  0 < b_point_width b -> 0 <= b_point_height b -> process_barcode b s = Ok s' ->
  let h := bc_human_readable (c_barcode (rs_ctx s)) in let sp := t_line_spacing (c_text (rs_ctx s)) in
  exists above x y below,
    rs_calls s' = rs_calls s ++ above ++ [(x, EGraphics (filter (within 609)
      (bars (justified (t_justify (c_text (rs_ctx s))) 609 (vlen (b_points b) * b_point_width b)) y (b_point_width b) (b_point_height b) (b_points b))))] ++ below /\
    Forall is_text_call above /\ (if hri_above h then drawn above = span_ink (b_text b) else above = []) /\ Forall (in_band (get_y (rs_ctx s)) (y - sp)) (pieces_of above) /\
    Forall is_text_call below /\ (if hri_below h then drawn below = span_ink (b_text b) else below = []) /\
    Forall (in_band (y + b_point_height b + 8) (get_y (rs_ctx s') - sp)) (pieces_of below) /\
    (if hri_above h then get_y (rs_ctx s) + sp <= y else y = get_y (rs_ctx s)) /\
    (if hri_below h then y + b_point_height b + 8 + sp <= get_y (rs_ctx s') else get_y (rs_ctx s') = y + b_point_height b) /\
    get_x (rs_ctx s') = 0 /\ rs_errors s' = rs_errors s /\ rs_spans s' = [].
Proof.
  intros Sd W U S Sp Pw Ph H. cbv zeta. unfold process_barcode in H. apply bind_ok in H. destruct H as (s1 & H1 & H).
  set (h := bc_human_readable (c_barcode (rs_ctx s))) in *.
  assert (Q : exists above, rs_calls s1 = rs_calls s ++ above /\ Forall is_text_call above /\ (if hri_above h then drawn above = span_ink (b_text b) else above = []) /\
     Forall (in_band (get_y (rs_ctx s)) (get_y (rs_ctx s1) - t_line_spacing (c_text (rs_ctx s)))) (pieces_of above) /\
     (if hri_above h then get_y (rs_ctx s) + t_line_spacing (c_text (rs_ctx s)) <= get_y (rs_ctx s1) else get_y (rs_ctx s1) = get_y (rs_ctx s)) /\
     moved (rs_ctx s) (rs_ctx s1) /\ rs_spans s1 = [] /\ rs_errors s1 = rs_errors s /\ uinv (rs_ctx s1)).
  { destruct h; cbn [hri_above];
      try (injection H1 as <-; exists []; rewrite app_nil_r; (split; [reflexivity|]); (split; [constructor|]); (split; [reflexivity|]); (split; [constructor|]); (split; [reflexivity|]); (split; [apply moved_refl|]); auto);
      (destruct (hri_text _ _ _ W U S Sp H1) as (new & A1 & A2 & A3 & A4 & A5 & A6 & A7 & A8 & A9); exists new;
       exact (conj A1 (conj A2 (conj A3 (conj A4 (conj A5 (conj A7 (conj A8 (conj A9 (barcode_text_u _ _ _ H1 U)))))))))). }
  destruct Q as (above & K1 & T1 & D1 & B1 & Y1 & M1 & Sp1 & E1 & U1). clear H1.
  assert (Sd1 : standard (rs_ctx s1)) by (unfold standard; rewrite (moved_enabled _ _ M1); exact Sd).
  pose proof (sinv_moved _ _ M1 S) as S1.
  apply bind_ok in H. destruct H as (t & Ht & H). apply bind_ok in H. destruct H as (s2 & H2 & H).
  apply on_ctx_inv in H2. destruct H2 as (c2 & Hc2 & ->). change (rs_ctx (with_ctx c2 s1)) with c2 in H.
  apply bind_ok in H. destruct H as ((c & rects) & Hf & H). cbv zeta in H.
  apply bind_ok in H. destruct H as (s4 & H4 & H). apply on_ctx_inv in H4. destruct H4 as (c4 & Hc4 & ->). cbn [call with_ctx rs_ctx] in Hc4.
  apply mul_u32v in Ht. destruct Ht as (-> & Vt). unfold u32v in Vt.
  assert (U2 : uinv c2) by (refine (set_x_u _ _ _ _ Hc2 U1); refine (proj1 (justification_u _ _ U1 _)); lia).
  assert (U3 : uinv c).
  { refine (fold_res_ind _ (fun y => uinv (fst y)) _ (c2, []) (c, rects) U2 _ Hf).
    intros x y y' _ Uy E. exact (barcode_point_u _ _ _ _ E Uy). }
  pose proof (offset_y_u _ _ _ Hc4 (reset_x_u _ U3)) as U4.
  assert (W609 : a_w (g_render_area (c_graphics (rs_ctx s1))) = 609).
  { pose proof (std_width _ Sd1 S1) as Wd. unfold get_width in Wd. rewrite Sd1 in Wd. exact Wd. }
  rewrite (justified_eq _ _ Sd1 W609 (proj1 Vt)), (moved_text _ _ M1) in Hc2.
  set (o := justified _ 609 _) in *. set (y := get_y (rs_ctx s1)) in *.
  rewrite (at_self _ Sd1), (at_set_x _ _ _ _ Sd1) in Hc2. injection Hc2 as <-. fold y in Hf, H.
  assert (O0 : 0 <= o).
  { unfold o, justified. match goal with |- context [609 <? ?z] => destruct (Z.ltb_spec 609 z); [lia|] end. destruct (t_justify _); try lia. }
  destruct (bars_drawn b _ y Sd1 S1 Pw _ _ _ _ _ O0 Hf) as (-> & x' & ->). cbn [app] in *.
  rewrite (at_reset _ _ _ Sd1) in Hc4. apply (went_y _ _ _ _ _ Sd1) in Hc4. subst c4.
  set (s3 := with_ctx (at_xy 0 (y + b_point_height b) (rs_ctx s1)) (call (EGraphics (filter (within 609) (bars o y (b_point_width b) (b_point_height b) (b_points b)))) (with_ctx (at_xy x' y (rs_ctx s1)) (with_ctx (at_xy o y (rs_ctx s1)) s1)))) in *.
  assert (K3 : rs_calls s3 = rs_calls s1 ++ [(at_xy x' y (rs_ctx s1), EGraphics (filter (within 609) (bars o y (b_point_width b) (b_point_height b) (b_points b))))]) by reflexivity.
  assert (C3 : rs_ctx s3 = at_xy 0 (y + b_point_height b) (rs_ctx s1)) by reflexivity.
  assert (M3 : moved (rs_ctx s1) (rs_ctx s3)) by (rewrite C3; apply at_moved).
  rewrite (moved_barcode _ _ M3), (moved_barcode _ _ M1) in H. fold h in H.
  assert (Sp3 : rs_spans s3 = []) by exact Sp1. assert (E3 : rs_errors s3 = rs_errors s) by exact E1. clearbody s3.
  exists above, (at_xy x' y (rs_ctx s1)), y.
  assert (None_ : hri_below h = false -> Ok s3 = Ok s' -> exists below, rs_calls s' = rs_calls s ++ above ++ [(at_xy x' y (rs_ctx s1), EGraphics (filter (within 609) (bars o y (b_point_width b) (b_point_height b) (b_points b))))] ++ below /\
    Forall is_text_call above /\ (if hri_above h then drawn above = span_ink (b_text b) else above = []) /\ Forall (in_band (get_y (rs_ctx s)) (y - t_line_spacing (c_text (rs_ctx s)))) (pieces_of above) /\
    Forall is_text_call below /\ (if hri_below h then drawn below = span_ink (b_text b) else below = []) /\
    Forall (in_band (y + b_point_height b + 8) (get_y (rs_ctx s') - t_line_spacing (c_text (rs_ctx s)))) (pieces_of below) /\
    (if hri_above h then get_y (rs_ctx s) + t_line_spacing (c_text (rs_ctx s)) <= y else y = get_y (rs_ctx s)) /\
    (if hri_below h then y + b_point_height b + 8 + t_line_spacing (c_text (rs_ctx s)) <= get_y (rs_ctx s') else get_y (rs_ctx s') = y + b_point_height b) /\
    get_x (rs_ctx s') = 0 /\ rs_errors s' = rs_errors s /\ rs_spans s' = []).
  { intros Hn Hs. injection Hs as <-. exists []. rewrite Hn, K3, K1, !app_nil_r, <- app_assoc. split; [reflexivity|].
    split; [exact T1|]. split; [exact D1|]. split; [exact B1|]. split; [constructor|]. split; [reflexivity|]. split; [constructor|].
    split; [exact Y1|]. rewrite C3, (at_x _ _ _ Sd1), (at_y _ _ _ Sd1). auto. }
  assert (Some_ : hri_below h = true -> (do s <- on_ctx (offset_y 8) s3; barcode_text b s) = Ok s' -> exists below, rs_calls s' = rs_calls s ++ above ++ [(at_xy x' y (rs_ctx s1), EGraphics (filter (within 609) (bars o y (b_point_width b) (b_point_height b) (b_points b))))] ++ below /\
    Forall is_text_call above /\ (if hri_above h then drawn above = span_ink (b_text b) else above = []) /\ Forall (in_band (get_y (rs_ctx s)) (y - t_line_spacing (c_text (rs_ctx s)))) (pieces_of above) /\
    Forall is_text_call below /\ (if hri_below h then drawn below = span_ink (b_text b) else below = []) /\
    Forall (in_band (y + b_point_height b + 8) (get_y (rs_ctx s') - t_line_spacing (c_text (rs_ctx s)))) (pieces_of below) /\
    (if hri_above h then get_y (rs_ctx s) + t_line_spacing (c_text (rs_ctx s)) <= y else y = get_y (rs_ctx s)) /\
    (if hri_below h then y + b_point_height b + 8 + t_line_spacing (c_text (rs_ctx s)) <= get_y (rs_ctx s') else get_y (rs_ctx s') = y + b_point_height b) /\
    get_x (rs_ctx s') = 0 /\ rs_errors s' = rs_errors s /\ rs_spans s' = []).
  { intros Hn Hs. rewrite Hn. apply bind_ok in Hs. destruct Hs as (s5 & H5 & Hs). apply on_ctx_inv in H5. destruct H5 as (c5 & Hc5 & ->).
    pose proof Hc5 as Hc6. rewrite C3 in Hc5. apply (went_y _ _ _ _ _ Sd1) in Hc5. subst c5.
    assert (U5 : uinv (at_xy 0 (y + b_point_height b + 8) (rs_ctx s1))).
    { refine (offset_y_u _ _ _ Hc6 _). rewrite C3. exact U4. }
    destruct (hri_text b (with_ctx (at_xy 0 (y + b_point_height b + 8) (rs_ctx s1)) s3) _ W U5 (sinv_moved _ _ (at_moved _ _ _) S1) Sp3 Hs) as (new & A1 & A2 & A3 & A4 & A5 & A6 & A7 & A8 & A9).
    cbn [with_ctx rs_ctx rs_calls rs_errors] in *. rewrite (at_y _ _ _ Sd1), at_text, (moved_text _ _ M1) in *.
    exists new. rewrite A1, K3, K1, <- !app_assoc. split; [reflexivity|].
    split; [exact T1|]. split; [exact D1|]. split; [exact B1|]. split; [exact A2|]. split; [exact A3|]. split; [exact A4|].
    split; [exact Y1|]. split; [exact A5|]. split; [|split; [rewrite A9; exact E3 | exact A8]].
    rewrite A6. unfold get_base_x. rewrite at_page, Sd1. reflexivity. }
  destruct h; cbn [hri_below] in None_, Some_; auto.
Qed.

(** ** What GS k asks for *)
Lemma code_sets_eq : forall n l, (length l <= n)%nat -> replace2 123 67 [262] (replace2 123 66 [385] (replace2 123 65 [192] l)) = code_sets l.
Proof.
  assert (Plain : forall b by_ l x, x <> 123 -> replace2 123 b by_ (x :: l) = x :: replace2 123 b by_ l).
  { intros b by_ [|y r] x N; [reflexivity|]. cbn [replace2]. destruct (Z.eqb_spec x 123); [contradiction | reflexivity]. }
  assert (Brace : forall b by_ l, match l with y :: _ => y <> b | [] => True end -> replace2 123 b by_ (123 :: l) = 123 :: replace2 123 b by_ l).
  { intros b by_ [|y r] N; [reflexivity|]. cbn [replace2]. destruct (Z.eqb_spec y b); [contradiction | reflexivity]. }
  assert (Head : forall b by_ l z, match by_ with u :: _ => u <> z | [] => True end -> by_ <> [] -> match l with y :: _ => y <> z | [] => True end ->
            match replace2 123 b by_ l with y :: _ => y <> z | [] => True end).
  { intros b by_ [|y [|y2 r]] z U NE N; cbn [replace2]; try exact N.
    destruct (_ && _); [destruct by_; [congruence | exact U] | exact N]. }
  induction n as [|n IH]; intros l L; [destruct l; [reflexivity | cbn in L; lia]|].
  destruct l as [|x [|y r]]; [reflexivity..|]. cbn [length] in L. cbn [code_sets].
  assert (I1 : replace2 123 67 [262] (replace2 123 66 [385] (replace2 123 65 [192] (y :: r))) = code_sets (y :: r)) by (apply IH; cbn [length]; lia).
  assert (I2 : replace2 123 67 [262] (replace2 123 66 [385] (replace2 123 65 [192] r)) = code_sets r) by (apply IH; lia).
  destruct (Z.eqb_spec x 123) as [->|Nx].
  - destruct (Z.eqb_spec y 65) as [->|N1].
    { change (replace2 123 65 [192] (123 :: 65 :: r)) with (192 :: replace2 123 65 [192] r). rewrite !Plain by lia. rewrite I2. reflexivity. }
    rewrite (Brace 65) by exact N1. destruct (Z.eqb_spec y 66) as [->|N2].
    { rewrite (Plain 65) by lia. change (replace2 123 66 [385] (123 :: 66 :: ?t)) with (385 :: replace2 123 66 [385] t). rewrite !Plain by lia. rewrite I2. reflexivity. }
    rewrite (Brace 66) by (apply Head; [lia | discriminate | exact N2]). destruct (Z.eqb_spec y 67) as [->|N3].
    { rewrite (Plain 65), (Plain 66) by lia. change (replace2 123 67 [262] (123 :: 67 :: ?t)) with (262 :: replace2 123 67 [262] t). rewrite I2. reflexivity. }
    rewrite (Brace 67) by (apply Head; [lia | discriminate|]; apply Head; [lia | discriminate | exact N3]). rewrite I1. reflexivity.
  - rewrite !Plain by exact Nx. rewrite I1. reflexivity.
Qed.
Lemma without_sets_eq : forall n l, (length l <= n)%nat -> no_double_brace l -> replace2 123 67 [] (replace2 123 66 [] (replace2 123 65 [] l)) = without_sets l.
Proof.
  assert (Plain : forall b by_ l x, x <> 123 -> replace2 123 b by_ (x :: l) = x :: replace2 123 b by_ l).
  { intros b by_ [|y r] x N; [reflexivity|]. cbn [replace2]. destruct (Z.eqb_spec x 123); [contradiction | reflexivity]. }
  assert (Brace : forall b by_ y l, y <> b -> replace2 123 b by_ (123 :: y :: l) = 123 :: replace2 123 b by_ (y :: l)).
  { intros b by_ y r N. cbn [replace2]. destruct (Z.eqb_spec y b); [contradiction | reflexivity]. }
  assert (Gone : forall b l, replace2 123 b [] (123 :: b :: l) = replace2 123 b [] l).
  { intros b l. cbn [replace2]. rewrite !Z.eqb_refl. reflexivity. }
  induction n as [|n IH]; intros l L D; [destruct l; [reflexivity | cbn in L; lia]|].
  destruct l as [|x [|y r]]; [reflexivity..|]. cbn [length] in L. cbn [without_sets]. destruct D as (D1 & D2).
  assert (D3 : no_double_brace r) by (destruct r; [exact Logic.I | exact (proj2 D2)]).
  assert (I1 : replace2 123 67 [] (replace2 123 66 [] (replace2 123 65 [] (y :: r))) = without_sets (y :: r)) by (apply IH; [cbn [length]; lia | exact D2]).
  assert (I2 : replace2 123 67 [] (replace2 123 66 [] (replace2 123 65 [] r)) = without_sets r) by (apply IH; [lia | exact D3]).
  destruct (Z.eqb_spec x 123) as [->|Nx]; cbn [andb].
  - assert (Ny : y <> 123) by (intros ->; apply D1; auto). rewrite !Plain in I1 by exact Ny.
    destruct (Z.eqb_spec y 65) as [->|N1]; cbn [orb]; [rewrite Gone; exact I2|].
    rewrite (Brace 65), (Plain 65) by assumption.
    destruct (Z.eqb_spec y 66) as [->|N2]; cbn [orb]; [rewrite Gone; exact I2|].
    rewrite (Brace 66), (Plain 66) by assumption.
    destruct (Z.eqb_spec y 67) as [->|N3]; [rewrite Gone; exact I2|].
    rewrite (Brace 67), (Plain 67) by assumption. rewrite I1. reflexivity.
  - rewrite !Plain by exact Nx. rewrite I1. reflexivity.
Qed.

Lemma barcode_kind_of m : is_byte m = true -> match symbology_of m with
  | Some k => barcode_kind m = match k with UPC_A => UpcA | UPC_E => UpcE | JAN_13 => Ean13 | JAN_8 => Ean8 | CODE_39 => Code39 | SpecBarcode.ITF => Itf | CODABAR => Nw7Codabar | CODE_93 => Code93 | CODE_128 => Code128 end
  | None => match barcode_kind m with UpcA | UpcE | Ean13 | Ean8 | Code39 | Itf | Nw7Codabar | Code93 | Code128 => False | _ => True end
  end.
Proof.
  intros B. destruct (symbology_of m) as [k|] eqn:E.
  - assert (In m [0; 1; 2; 3; 4; 5; 6; 65; 66; 67; 68; 69; 70; 71; 72; 73]).
    { unfold symbology_of in E. destruct ((0 <=? m) && (m <=? 6)) eqn:R; [cbn [In]; lia|]. destruct ((65 <=? m) && (m <=? 73)) eqn:R2; [cbn [In]; lia | discriminate]. }
    cbn [In] in H. repeat (destruct H as [<-|H]; [cbn in E; injection E as <-; reflexivity|]). destruct H.
  - pose proof (per_byte (fun b => match symbology_of b with Some _ => true | None => match barcode_kind b with UpcA | UpcE | Ean13 | Ean8 | Code39 | Itf | Nw7Codabar | Code93 | Code128 => false | _ => true end end)
      ltac:(vm_compute; reflexivity) m B) as Q. cbv beta in Q. rewrite E in Q. destruct (barcode_kind m); try discriminate; exact Logic.I.
Qed.

Lemma barcode_reads e c x m r d : sent c -> c_commands c = [29; 107] -> get_command_bytes c = ([29; 107; m] ++ r, d) ->
  c_kind c = KGraphics /\ is_byte m = true /\ (forall y, get_device_command c y = Ok []) /\
  exists n, get_graphics e c x = (do g <- barcode_graphics e (barcode_told m n) (c_data c) x; Ok (Some g)).
Proof.
  intros Sc C G. destruct (barcode_sent _ _ _ _ Sc C G) as (n & Hh & B). destruct (barcode_entry _ _ Sc Hh) as (K & _).
  split; [exact K|]. split; [exact B|]. split; [intros y; unfold get_device_command; rewrite Hh; reflexivity|]. exists n. unfold get_graphics. rewrite Hh. reflexivity.
Qed.
Lemma takes_ok k n : takes k n -> validate_data_length (match k with UPC_A => UpcA | UPC_E => UpcE | JAN_13 => Ean13 | JAN_8 => Ean8 | CODE_39 => Code39 | SpecBarcode.ITF => Itf | CODABAR => Nw7Codabar | CODE_93 => Code93 | CODE_128 => Code128 end) n = true.
Proof.
  intros T. unfold validate_data_length. destruct (Z.ltb_spec 255 n); destruct k; cbn [takes In] in T; try lia;
  repeat match goal with |- context [?a =? ?b] => destruct (Z.eqb_spec a b); cbn [orb]; try reflexivity end; lia.
Qed.
Lemma takes_not k n : validate_data_length (match k with UPC_A => UpcA | UPC_E => UpcE | JAN_13 => Ean13 | JAN_8 => Ean8 | CODE_39 => Code39 | SpecBarcode.ITF => Itf | CODABAR => Nw7Codabar | CODE_93 => Code93 | CODE_128 => Code128 end) n = true -> takes k n.
Proof.
  unfold validate_data_length. destruct (Z.ltb_spec 255 n); [discriminate|]. destruct k; cbn [takes In]; intros T; lia.
Qed.
Lemma barcode_gives e m n raw x modules text g : is_byte m = true -> barcode e m raw modules text ->
  barcode_graphics e (barcode_told m n) raw x = Ok g -> g = finish_barcode (Some modules) text x.
Proof.
  intros B (k & d & Sk & T & U & Nb & Mo & ->) H. pose proof (barcode_kind_of m B) as Kd. rewrite Sk in Kd.
  unfold barcode_graphics in H. cbn [barcode_told bc_kind] in H. rewrite U, Kd, (takes_ok _ _ T) in H. cbn [negb] in H.
  destruct k; cbn [modules_of readable] in *.
  - injection H as <-. rewrite Mo. reflexivity.
  - destruct (C29_symbol raw) as (u & Hu & Hs). rewrite Hu in *. cbn [bind] in H. destruct u as [code|]; [|discriminate].
    destruct (Hs _ eq_refl) as (He & _). rewrite He in H. cbn [bind] in H. injection H as <-. injection Mo as ->. reflexivity.
  - destruct (_ && _); [discriminate|]. destruct (from_utf8 (firstn 12 raw)); [|discriminate]. injection H as <-. rewrite Mo. reflexivity.
  - injection H as <-. rewrite Mo. reflexivity.
  - injection H as <-. unfold remove1. rewrite Mo. reflexivity.
  - injection H as <-. rewrite Mo. reflexivity.
  - injection H as <-. rewrite Mo. reflexivity.
  - injection H as <-. rewrite Mo. reflexivity.
  - injection H as <-. rewrite (code_sets_eq _ _ (le_n _)), (without_sets_eq _ _ (le_n _) (Nb eq_refl)), Mo. reflexivity.
Qed.
Lemma barcode_refuses e m n raw x g : is_byte m = true ->
  (forall k d, symbology_of m = Some k -> from_utf8 raw = Some d -> takes k (vlen raw) -> modules_of e k raw d = None) ->
  barcode_graphics e (barcode_told m n) raw x = Ok g -> exists msg, g = GError msg.
Proof.
  intros B N H. pose proof (barcode_kind_of m B) as Kd. unfold barcode_graphics in H. cbn [barcode_told bc_kind] in H.
  destruct (validate_data_length _ _) eqn:V; cbn [negb] in H; [|injection H as <-; eauto].
  destruct (symbology_of m) as [k|] eqn:Sk.
  - rewrite Kd in *. destruct (from_utf8 raw) as [d|] eqn:U.
    2:{ apply takes_not in V. exfalso. clear - V. destruct k; cbn [takes In] in V; lia. }
    pose proof (takes_not _ _ V) as T. specialize (N k d eq_refl eq_refl T).
    destruct k; cbn [modules_of readable] in *; try (injection H as <-; unfold remove1, finish_barcode; rewrite ?N; eauto; fail).
    + destruct (C29_symbol raw) as (u & Hu & Hs). rewrite Hu in *. cbn [bind] in H. destruct u as [code|]; [discriminate|]. injection H as <-. eauto.
    + destruct (_ && _); [discriminate|]. destruct (from_utf8 (firstn 12 raw)); [|discriminate]. injection H as <-. rewrite N. cbn. eauto.
    + injection H as <-. rewrite (code_sets_eq _ _ (le_n _)), N. cbn. eauto.
  - destruct (barcode_kind m); try contradiction; injection H as <-; eauto.
Qed.

(** ** C49: a barcode on paper *)
(** The calls print exactly the characters of [text] (SpecRender.shown: blanks that only separate words
    are not printed), in [font], between the heights [y0] and [y1]. *)
Definition says (f : font) (text : ustring) (y0 y1 : Z) (calls : list (context * event)) : Prop :=
  Forall is_text_call calls /\ map snd (drawn calls) = shown true text /\ Forall (fun i => s_font (fst i) = f) (drawn calls) /\
  Forall (in_band y0 y1) (pieces_of calls).

(** GS k in standard mode, after the text still waiting was printed (state [s1]): the modules of the
    symbol as bars of the width of GS w and the height of GS h, side by side, placed by the
    justification; what would leave the paper on the right is left out.  With GS H the text is printed
    above, below or both, in the font of GS f; the paper moves past everything. *)
Theorem C49_printed : forall e c s s1 s' m r d modules text,
  sent c -> c_commands c = [29; 107] -> get_command_bytes c = ([29; 107; m] ++ r, d) -> barcode e m (c_data c) modules text ->
  history e s -> p_enabled (c_page (rs_ctx s)) = false -> process_text s = Ok s1 -> process_command e c s = Ok s' ->
  let b := c_barcode (rs_ctx s) in let x0 := justified (t_justify (c_text (rs_ctx s))) 609 (vlen modules * bc_width b) in
  let sp := t_line_spacing (c_text (rs_ctx s)) in
  exists above x y below,
    rs_calls s' = rs_calls s1 ++ above ++ [(x, EGraphics (filter (within 609) (bars x0 y (bc_width b) (bc_height b) modules)))] ++ below /\
    (if hri_above (bc_human_readable b) then says (bc_font b) text (get_y (rs_ctx s1)) (y - sp) above else above = [] /\ y = get_y (rs_ctx s1)) /\
    (if hri_below (bc_human_readable b) then says (bc_font b) text (y + bc_height b + 8) (get_y (rs_ctx s') - sp) below
     else below = [] /\ get_y (rs_ctx s') = y + bc_height b) /\
    get_y (rs_ctx s1) <= y /\ y + bc_height b <= get_y (rs_ctx s') /\ get_x (rs_ctx s') = 0 /\ rs_errors s' = rs_errors s.
Proof.
  intros e c s s1 s' m r d modules text Sc C G Bc Hy Pg H1 H. cbv zeta.
  destruct (history_lay_ok _ _ Hy) as (_ & S & U). destruct (at_start _ _ Pg S H1) as (P1 & W1 & T1 & E1).
  destruct (process_text_quiet _ _ H1) as ((M1 & _) & Sp1).
  pose proof (sinv_moved _ _ M1 S) as S1. pose proof (process_text_u _ _ H1 U) as U1.
  destruct (barcode_reads e c (rs_ctx s1) _ _ _ Sc C G) as (K & B & Dv & n & Gg).
  unfold process_command in H. rewrite K, H1 in H. cbn [bind] in H. rewrite Gg in H.
  apply bind_ok in H. destruct H as (g & Hg & H). apply bind_ok in Hg. destruct Hg as (g1 & Hg & E). injection E as <-.
  apply (barcode_gives _ _ _ _ _ _ _ _ B Bc) in Hg. subst g1. cbn [finish_barcode process_gfx] in H.
  apply bind_ok in H. destruct H as (s2 & H2 & H). rewrite Dv in H. cbn [bind] in H. injection H as <-.
  pose proof (si_barcode _ S1) as SB. set (bb := mk_barcode_g _ _ _ _ _) in *.
  destruct (barcode_printed bb s1 s2 P1) as (above & x & y & below & Kc & A1 & A2 & A3 & A4 & A5 & A6 & A7 & A8 & A9 & A10 & _).
  { apply (span_new_wide _ text S1). } { exact U1. } { exact S1. } { exact Sp1. }
  { unfold bb. cbn [b_point_width]. pose proof (bk_width _ SB). lia. } { exact (proj1 (bk_height _ SB)). } { exact H2. }
  cbn [bb b_points b_point_width b_point_height b_text] in *.
  rewrite T1, (moved_barcode _ _ M1) in *. pose proof (proj1 (bk_height _ SB)) as H0.
  pose proof (proj1 (tk_spacing _ (si_text _ S))) as SP.
  assert (Ink : forall l, drawn l = span_ink (span_new_for_barcode text (rs_ctx s1)) ->
            map snd (drawn l) = shown true text /\ Forall (fun i => s_font (fst i) = bc_font (c_barcode (rs_ctx s))) (drawn l)).
  { intros l ->. unfold span_ink, inked. split.
    - rewrite map_map. etransitivity; [apply map_id|]. reflexivity.
    - apply Forall_map. apply Forall_forall. intros z _. cbn [fst style_of span_new_for_barcode]. cbn. rewrite (moved_barcode _ _ M1). reflexivity. }
  exists above, x, y, below. split; [exact Kc|]. split.
  { destruct (hri_above _); [|auto]. destruct (Ink _ A2) as (I1 & I2). exact (conj A1 (conj I1 (conj I2 A3))). }
  split. { destruct (hri_below _); [|auto]. destruct (Ink _ A5) as (I1 & I2). exact (conj A4 (conj I1 (conj I2 A6))). }
  split; [destruct (hri_above _); lia|]. split; [destruct (hri_below _); lia|]. split; [exact A9|]. rewrite A10. exact E1.
Qed.

(** ** C50: what is printed for which data *)
(** Everything else prints nothing, moves nothing and is reported. *)
Theorem C50_refused : forall e c s s1 s' m r d,
  sent c -> c_commands c = [29; 107] -> get_command_bytes c = ([29; 107; m] ++ r, d) ->
  (forall k t, symbology_of m = Some k -> from_utf8 (c_data c) = Some t -> takes k (vlen (c_data c)) -> modules_of e k (c_data c) t = None) ->
  process_text s = Ok s1 -> process_command e c s = Ok s' ->
  exists msg, rs_calls s' = rs_calls s1 /\ rs_ctx s' = rs_ctx s1 /\ rs_errors s' = rs_errors s ++ [GraphicsError msg].
Proof.
  intros e c s s1 s' m r d Sc C G N H1 H.
  destruct (barcode_reads e c (rs_ctx s1) _ _ _ Sc C G) as (K & B & Dv & n & Gg).
  unfold process_command in H. rewrite K, H1 in H. cbn [bind] in H. rewrite Gg in H.
  apply bind_ok in H. destruct H as (g & Hg & H). apply bind_ok in Hg. destruct Hg as (g1 & Hg & E). injection E as <-.
  destruct (barcode_refuses _ _ _ _ _ _ B N Hg) as (msg & ->). cbn [process_gfx bind] in H. rewrite Dv in H. cbn [bind] in H. injection H as <-.
  destruct (process_text_quiet _ _ H1) as ((_ & E1 & _) & _). exists msg. cbn [rs_calls rs_ctx rs_errors log_error]. rewrite E1. auto.
Qed.
(** In particular nothing is ever printed for the systems 74 and up (GS1-128, GS1 DataBar, CODE128 auto). *)
Theorem C50_gs1_refuted : forall e c s s1 s' m r d,
  sent c -> c_commands c = [29; 107] -> get_command_bytes c = ([29; 107; m] ++ r, d) -> 74 <= m ->
  process_text s = Ok s1 -> process_command e c s = Ok s' ->
  exists msg, rs_calls s' = rs_calls s1 /\ rs_ctx s' = rs_ctx s1 /\ rs_errors s' = rs_errors s ++ [GraphicsError msg].
Proof.
  intros e c s s1 s' m r d Sc C G M H1 H. refine (C50_refused _ _ _ _ _ _ _ _ Sc C G _ H1 H).
  intros k t Sk. exfalso. unfold symbology_of in Sk. destruct ((0 <=? m) && (m <=? 6)) eqn:A; [lia|]. destruct ((65 <=? m) && (m <=? 73)) eqn:A2; [lia | discriminate].
Qed.
(** The thirteenth digit of an EAN-13 number is its check digit; the user expects a number with a wrong
    one to be refused.  It is not: every thirteenth digit is accepted and gives the same bars. *)
Theorem C50_check_digit_refuted : forall e m raw a b modules text, symbology_of m = Some JAN_13 ->
  length raw = 12%nat -> forallb is_ascii_digit (raw ++ [a; b]) = true ->
  barcode e m (raw ++ [a]) modules text -> barcode e m (raw ++ [b]) modules (raw ++ [b]).
Proof.
  intros e m raw a b modules text Sk L D (k & d & Sk' & T & U & _ & Mo & ->). rewrite Sk in Sk'. injection Sk' as <-.
  assert (A : forall l, forallb is_ascii_digit l = true -> from_utf8 l = Some l).
  { induction l as [|x l IH]; intros Dl; [reflexivity|]. cbn [forallb] in Dl. apply andb_prop in Dl. destruct Dl as (Dx & Dl).
    cbn [from_utf8]. unfold is_ascii_digit in Dx. destruct (Z.ltb_spec x 128) as [_|Z]; [|lia]. rewrite (IH Dl). reflexivity. }
  assert (Db : forallb is_ascii_digit (raw ++ [b]) = true).
  { rewrite forallb_app in *. cbn [forallb] in *. destruct (forallb _ raw), (is_ascii_digit a), (is_ascii_digit b); auto. }
  exists JAN_13, (raw ++ [b]). split; [exact Sk|]. split; [cbn [takes]; right; unfold vlen; rewrite app_length, L; reflexivity|].
  split; [exact (A _ Db)|]. split; [discriminate|]. split; [|reflexivity]. cbn [modules_of] in *.
  rewrite firstn_app in *. rewrite L in *. replace (firstn (12 - 12) [b]) with (firstn (12 - 12) [a]) by reflexivity. exact Mo.
Qed.
(** In CODE128 data {{ stands for one brace.  The code does not know it: of the data {B{{AB, which
    stands for the text {AB, nothing at all is printed for people. *)
Definition one_encoder : encoders :=
  mk_encoders (fun _ => Some [1; 0; 1]) (fun _ => None) (fun _ => None) (fun _ => None) (fun _ => None) (fun _ => None) (fun _ => None) (fun _ => None) (fun _ _ _ _ => None).
Definition is_bars (x : context * event) : bool := match snd x with EGraphics (_ :: _) => true | _ => false end.
Theorem C50_brace_refuted : exists s, render one_encoder [29; 72; 2; 29; 107; 73; 6; 123; 66; 123; 123; 65; 66] renderer_new = Ok s /\
  existsb is_bars (rs_calls s) = true /\ drawn (rs_calls s) = [].
Proof.
  assert (V : (do s <- render one_encoder [29; 72; 2; 29; 107; 73; 6; 123; 66; 123; 123; 65; 66] renderer_new; Ok (existsb is_bars (rs_calls s), drawn (rs_calls s))) = Ok (true, [])) by (vm_compute; reflexivity).
  destruct (render one_encoder _ renderer_new) as [s|]; [|discriminate]. cbn [bind] in V. injection V as A B. exists s. auto.
Qed.

(** The hypotheses of the theorems above are met: this stream prints CODE128, GS k 73 with the data {BA1. *)
Example C49_demo : exists cmds c, parse_esc_pos [29; 107; 73; 4; 123; 66; 65; 49] = Ok cmds /\ In c cmds /\
  c_commands c = [29; 107] /\ get_command_bytes c = ([29; 107; 73] ++ [4], [123; 66; 65; 49]) /\ c_data c = [123; 66; 65; 49] /\
  barcode one_encoder 73 (c_data c) [1; 0; 1] [65; 49].
Proof.
  do 2 eexists. split; [vm_compute; reflexivity|]. split; [right; left; reflexivity|]. split; [reflexivity|]. split; [reflexivity|]. split; [reflexivity|].
  exists CODE_128, [123; 66; 65; 49]. split; [reflexivity|]. split; [vm_compute; split; discriminate|]. split; [reflexivity|]. split; [cbn [no_double_brace]; lia|]. split; reflexivity.
Qed.
