(** * ImageTheory: the image renderer's paper as a strip with strokes on it. *)
From Verif Require Import Base Vec Float32 GTypes Graphics Context Text Handlers Renderer RendererTheory Origin SpecPrinter StateTheory AreaTheory
  ThermalImage SpecCanvas CanvasTheory CanvasRect ImageRenderer SpecImage CallsTheory.
Local Open Scope Z_scope.
Local Open Scope list_scope.
Local Arguments at_ : simpl never.
Local Arguments vlen : simpl never.

(** The canvas is the visible part of a strip: [H] rows of the picture, blank below. *)
Record strip (c : canvas) (W H : Z) (p : picture) : Prop := mk_strip {
  sp_shows : shows c W H p;
  sp_grow : cv_auto_grow c = true;
  sp_fits : W * H <= u32_max;
  sp_blank : forall X Y, H <= Y -> p X Y = cv_paper_color c }.
(** Same paper; errors may have been added. *)
Definition same_paper (c c' : canvas) : Prop :=
  cv_auto_grow c' = cv_auto_grow c /\ cv_paper_color c' = cv_paper_color c /\ exists e, cv_errors c' = cv_errors c ++ e.
Lemma same_paper_refl c : same_paper c c.
Proof. split; [reflexivity | split; [reflexivity | exists []; now rewrite app_nil_r]]. Qed.
Lemma same_paper_trans a b c : same_paper a b -> same_paper b c -> same_paper a c.
Proof. intros (A1 & A2 & e1 & A3) (B1 & B2 & e2 & B3). split; [congruence|]. split; [congruence|]. exists (e1 ++ e2). rewrite B3, A3. now rewrite app_assoc. Qed.
Lemma same_paper_setup c c' : same_setup c c' -> same_paper c c'.
Proof. intros (A & B & C). split; [exact A | split; [exact B | exists []; now rewrite app_nil_r]]. Qed.

Lemma strip_ext c W H p q : (forall X Y, 0 <= X < W -> 0 <= Y -> p X Y = q X Y) -> (forall X Y, H <= Y -> q X Y = cv_paper_color c) ->
  strip c W H p -> strip c W H q.
Proof.
  intros E B [(S1 & S2 & S3 & S4 & S5) G F _]. constructor; [|exact G | exact F | exact B].
  split; [exact S1 | split; [exact S2 | split; [exact S3 | split; [exact S4|]]]]. intros X Y HX HY. rewrite S5 by assumption. apply E; lia.
Qed.

(** The pictures are compared on the strip only. *)
Definition on_strip (c : canvas) (W H : Z) (p : picture) : Prop :=
  exists q, strip c W H q /\ forall X Y, 0 <= X < W -> 0 <= Y -> q X Y = p X Y.

Lemma draw_ext W s p q : 0 <= W -> (forall X Y, 0 <= X < W -> 0 <= Y -> p X Y = q X Y) -> (match s with Paint _ _ _ _ _ => True | Mirror x y w h => 0 <= y end) ->
  forall X Y, 0 <= X < W -> 0 <= Y -> draw W s p X Y = draw W s q X Y.
Proof.
  intros HW E V X Y HX HY. destruct s as [x y w h px|x y w h]; cbn [draw].
  - destruct (covers x y w h X Y); [rewrite E by assumption; reflexivity | apply E; assumption].
  - destruct (x + w <=? W); [|apply E; assumption]. destruct (covers x y w h X Y) eqn:C; [|apply E; assumption].
    unfold covers in C. rewrite !E by lia. reflexivity.
Qed.

Lemma put_strip x y w h px c c' W H p : on_strip c W H p -> 0 <= x -> 0 <= y -> 0 <= w -> 0 <= h -> vlen px = w * h ->
  put_pixels x y w h px true c = Ok c' ->
  on_strip c' W (Z.max H (bottom W (Paint x y w h px))) (draw W (Paint x y w h px) p) /\ same_paper c c'.
Proof.
  intros (q & [S G F B] & Eq) Hx Hy Hw Hh L E. pose proof S as (W0 & H0 & EW & EL & ES). pose proof (shows_height _ _ _ _ S) as EH.
  cbn [bottom]. destruct (x <? W) eqn:Ex.
  - apply Z.ltb_lt in Ex.
    assert (Fit : x + w <= u32_max /\ y + h <= u32_max /\ w * h <= u32_max /\ W * Z.max H (y + h) <= u32_max).
    { pose proof E as E'. unfold put_pixels in E'. apply bind_inv in E'. destruct E' as (ar & Har & E').
      destruct (CanvasTheory.chk_inv _ _ _ _ Har) as (-> & R1). replace (w * h <? vlen px) with false in E' by lia.
      rewrite EW in E'. replace (W <=? x) with false in E' by lia. rewrite G in E'. cbn [orb negb] in E'. rewrite andb_false_r in E'.
      apply bind_inv in E'. destruct E' as (xe & Hxe & E'). destruct (CanvasTheory.chk_inv _ _ _ _ Hxe) as (-> & R2).
      cbn [bind] in E'. apply bind_inv in E'. destruct E' as ([[fw fh] fp] & Hc & E').
      assert (fh = h).
      { destruct ((W <? x + w) || false); [|injection Hc as _ <- _; reflexivity].
        unfold crop_pixels in Hc. apply bind_inv in Hc. destruct Hc as (? & _ & Hc). apply bind_inv in Hc. destruct Hc as (? & _ & Hc).
        injection Hc as _ <- _. reflexivity. }
      subst fh. apply bind_inv in E'. destruct E' as (yh & Hyh & E'). destruct (CanvasTheory.chk_inv _ _ _ _ Hyh) as (-> & R3).
      apply bind_inv in E'. destruct E' as (c1 & He & E'). unfold expand_to_height in He. apply bind_inv in He. destruct He as (len & Hlen & He).
      destruct (CanvasTheory.chk_inv _ _ _ _ Hlen) as (-> & R4). rewrite EW in R4.
      split; [lia | split; [lia | split; [lia|]]].
      destruct (Z.max_spec H (y + h)) as [(_ & ->)|(_ & ->)]; [lia | exact F]. }
    destruct Fit as (F1 & F2 & F3 & F4).
    destruct (put_pixels_shows c W H q x y w h px true S ltac:(lia) Hy Hw Hh L ltac:(congruence) F1 ltac:(congruence) F2 F3 F4) as (c2 & E2 & SS & S2).
    rewrite E in E2. injection E2 as <-. split; [|exact (same_paper_setup _ _ SS)]. rewrite G in S2.
    pose proof SS as (SS1 & SS2 & SS3).
    match type of S2 with shows _ _ _ ?f => exists (fun X Y => if Y <? Z.max H (y + h) then f X Y else cv_paper_color c) end.
    split.
    + constructor; [|congruence | exact F4|].
      * destruct S2 as (A1 & A2 & A3 & A4 & A5). split; [exact A1 | split; [exact A2 | split; [exact A3 | split; [exact A4|]]]].
        intros X Y HX HY. rewrite A5 by assumption. replace (Y <? Z.max H (y + h)) with true by lia. reflexivity.
      * intros X Y HY. replace (Y <? Z.max H (y + h)) with false by lia. congruence.
    + intros X Y HX HY. cbn beta. cbn [draw]. unfold covers, block, grown.
      assert (EB : (X <? x + Z.min w (W - x)) = (X <? x + w)) by lia. rewrite EB. clear EB.
      destruct ((x <=? X) && (X <? x + w) && (y <=? Y) && (Y <? y + h)) eqn:C.
      * replace (Y <? Z.max H (y + h)) with true by lia.
        destruct (Y <? H) eqn:D; [rewrite Eq by assumption; reflexivity|].
        rewrite <- Eq by assumption. rewrite B by lia. reflexivity.
      * destruct (Y <? Z.max H (y + h)) eqn:D2.
        -- destruct (Y <? H) eqn:D; [apply Eq; assumption|]. rewrite <- Eq by assumption. rewrite B by lia. reflexivity.
        -- rewrite <- Eq by assumption. rewrite B by lia. reflexivity.
  - apply Z.ltb_ge in Ex. unfold put_pixels in E. apply bind_inv in E. destruct E as (ar & Har & E).
    destruct (CanvasTheory.chk_inv _ _ _ _ Har) as (-> & R1). replace (w * h <? vlen px) with false in E by lia.
    rewrite EW in E. replace (W <=? x) with true in E by lia. cbn [orb] in E. injection E as <-.
    rewrite Z.max_l by lia. split.
    + exists q. split; [constructor; [exact S | exact G | exact F | exact B]|].
      intros X Y HX HY. cbn [draw]. unfold covers. replace (x <=? X) with false by lia. cbn [andb]. apply Eq; assumption.
    + split; [reflexivity | split; [reflexivity | eexists; reflexivity]].
Qed.
Lemma rect_strip x y w h col c c' W H p : on_strip c W H p -> 0 <= x -> 0 <= y -> 0 <= w -> 0 <= h ->
  draw_rect x y w h col true c = Ok c' ->
  on_strip c' W (Z.max H (bottom W (line_of x y w h col))) (draw W (line_of x y w h col) p) /\ same_paper c c'.
Proof.
  intros S Hx Hy Hw Hh E. unfold draw_rect in E. apply bind_inv in E. destruct E as (n & Hn & E).
  destruct (CanvasTheory.chk_inv _ _ _ _ Hn) as (-> & R). unfold line_of.
  refine (put_strip _ _ _ _ _ _ _ _ _ _ S Hx Hy Hw Hh _ E). rewrite vlen_repeat. lia.
Qed.
Lemma expand_strip h c c' W H p : on_strip c W H p -> 0 <= h -> expand_to_height h c = Ok c' ->
  on_strip c' W (Z.max H h) p /\ same_paper c c'.
Proof.
  intros (q & [S G F B] & Eq) Hh E. pose proof S as (W0 & H0 & EW & EL & ES).
  assert (M : W * h <= u32_max).
  { pose proof E as E'. unfold expand_to_height in E'. apply bind_inv in E'. destruct E' as (len & Hlen & _).
    destruct (CanvasTheory.chk_inv _ _ _ _ Hlen) as (_ & R). rewrite EW in R. lia. }
  destruct (expand_to_height_shows c W H q h S Hh M) as (c2 & E2 & S2 & SS). rewrite E in E2. injection E2 as <-.
  split; [|exact (same_paper_setup _ _ SS)]. destruct SS as (SS1 & SS2 & SS3). exists q. split; [|exact Eq].
  constructor; [|congruence | | intros X Y HY; rewrite B by lia; congruence].
  - destruct S2 as (A1 & A2 & A3 & A4 & A5). split; [exact A1 | split; [exact A2 | split; [exact A3 | split; [exact A4|]]]].
    intros X Y HX HY. rewrite A5 by assumption. destruct (Y <? H) eqn:D; [reflexivity|]. symmetry. apply B. lia.
  - destruct (Z.max_spec H h) as [(_ & ->)|(_ & ->)]; [lia | exact F].
Qed.
Lemma swap_len {A} (l : list A) i j l' : swap l i j = Ok l' -> vlen l' = vlen l.
Proof.
  unfold swap. intros H. apply bind_inv in H. destruct H as (a & _ & H). apply bind_inv in H. destruct H as (b & _ & H).
  apply bind_inv in H. destruct H as (l1 & H1 & H). rewrite (vset_len _ _ _ _ H). exact (vset_len _ _ _ _ H1).
Qed.
Lemma vlen_zero {A} (l : list A) : vlen l = 0 -> l = [].
Proof. destruct l; [reflexivity|]. unfold vlen. cbn [length]. lia. Qed.
Lemma flip_strip x y w h c c' W H p : on_strip c W H p -> 0 <= x -> 0 <= y -> 0 <= w -> 0 <= h ->
  flip_pixels x y w h c = Ok c' ->
  on_strip c' W (Z.max H (bottom W (Mirror x y w h))) (draw W (Mirror x y w h) p) /\ same_paper c c'.
Proof.
  intros S Hx Hy Hw Hh E. pose proof S as (q & [Sh G F B] & Eq). pose proof Sh as (W0 & H0 & EW & EL & ES).
  cbn [bottom draw]. pose proof E as E'. unfold flip_pixels in E'. apply bind_inv in E'. destruct E' as (xe & Hxe & E').
  destruct (CanvasTheory.chk_inv _ _ _ _ Hxe) as (-> & R1). rewrite EW in E'.
  destruct (W <? x + w) eqn:D.
  { injection E' as <-. replace (x + w <=? W) with false by lia. rewrite Z.max_l by lia. split; [exact S | apply same_paper_refl]. }
  replace (x + w <=? W) with true by lia.
  apply bind_inv in E'. destruct E' as (ye & Hye & E'). destruct (CanvasTheory.chk_inv _ _ _ _ Hye) as (-> & R2).
  apply bind_inv in E'. destruct E' as (c1 & He & E'). destruct (expand_strip (y + h) c c1 W H p S ltac:(lia) He) as (S1 & SP1).
  apply bind_inv in E'. destruct E' as (ar & Har & E'). destruct (CanvasTheory.chk_inv _ _ _ _ Har) as (-> & R3).
  assert (R4 : W * Z.max H (y + h) <= u32_max) by (destruct S1 as (q1 & [_ _ F1 _] & _); exact F1).
  assert (R5 : W <= u32_max \/ y + h = 0 \/ w = 0 \/ h = 0) by (destruct (Z.eq_dec (y + h) 0) as [e0|n0]; [right; left; exact e0|]; left; pose proof (Z.mul_le_mono_nonneg_l 1 (Z.max H (y + h)) W ltac:(lia) ltac:(lia)); lia).
  destruct (Z.eq_dec w 0) as [Zw|Nw]; [|destruct (Z.eq_dec h 0) as [Zh|Nh]].
  3:{ destruct (flip_pixels_shows c W H q x y w h Sh Hx Hy ltac:(lia) ltac:(lia) ltac:(lia) ltac:(lia) ltac:(congruence) ltac:(lia) ltac:(lia) R4) as (c2 & E2 & SS & S2).
      rewrite E in E2. injection E2 as <-. split; [|exact (same_paper_setup _ _ SS)].
      pose proof SS as (SS1 & SS2 & SS3). clear S1 E'.
      match type of S2 with shows _ _ _ ?f => exists (fun X Y => if Y <? Z.max H (y + h) then f X Y else cv_paper_color c) end.
      split.
      + constructor; [|congruence | exact R4|].
        * destruct S2 as (A1 & A2 & A3 & A4 & A5). split; [exact A1 | split; [exact A2 | split; [exact A3 | split; [exact A4|]]]].
          intros X Y HX HY. rewrite A5 by assumption. replace (Y <? Z.max H (y + h)) with true by lia. reflexivity.
        * intros X Y HY. replace (Y <? Z.max H (y + h)) with false by lia. congruence.
      + intros X Y HX HY. cbn beta.
        assert (EG : forall Y, 0 <= Y -> grown c H q X Y = p X Y).
        { intros Y' HY'. unfold grown. destruct (Y' <? H) eqn:D'; [apply Eq; assumption|]. rewrite <- Eq by assumption. rewrite B by lia. reflexivity. }
        rewrite (EG Y HY). unfold covers. destruct ((x <=? X) && (X <? x + w) && (y <=? Y) && (Y <? y + h)) eqn:C.
        * replace (Y <? Z.max H (y + h)) with true by lia. rewrite EG by lia. reflexivity.
        * destruct (Y <? Z.max H (y + h)) eqn:D2; [reflexivity|]. rewrite <- Eq by assumption. rewrite B by lia. reflexivity. }
  all: assert (A : w = 0 \/ h = 0) by lia.
  all: apply bind_inv in E'; destruct E' as (sub & Hsub & E'); apply bind_inv in E'; destruct E' as (fl & Hfl & E').
  all: assert (Esub : sub = []).
  3: { unfold for_range in Hsub. refine (fold_res_ind _ (fun a => a = []) _ _ _ eq_refl _ Hsub). intros i a a' Hin -> Ea. subst h. destruct Hin. }
  1: { unfold for_range in Hsub. refine (fold_res_ind _ (fun a => a = []) _ _ _ eq_refl _ Hsub). intros i a a' Hin -> Ea.
       apply bind_inv in Ea; destruct Ea as (r & _ & Ea); apply bind_inv in Ea; destruct Ea as (st & _ & Ea);
       apply bind_inv in Ea; destruct Ea as (row & Hrow & Ea); injection Ea as <-; subst w; rewrite Z.add_0_r in Hrow;
       unfold vslice in Hrow; match type of Hrow with (if ?b then _ else _) = _ => destruct b end; [discriminate|]; injection Hrow as <-; rewrite Z.sub_diag; reflexivity. }
  all: assert (Efl : fl = []) by (apply vlen_zero; change 0 with (vlen (A := rgba) []); rewrite <- Esub; refine (for_range_len _ _ _ _ _ Hfl);
         intros i l l' Hl; refine (for_range_len _ _ _ _ _ Hl); intros j m m' Hm; exact (swap_len _ _ _ _ Hm)).
  all: subst fl; clear Hfl Hsub sub Esub.
  all: assert (Ec' : on_strip c' W (Z.max H (y + h)) p /\ same_paper c1 c').
  1,3: destruct S1 as (q1 & [Sh1 G1 F1 B1] & Eq1); pose proof Sh1 as (_ & _ & EW1 & EL1 & _); pose proof (shows_height _ _ _ _ Sh1) as EH1;
       unfold put_pixels in E'; rewrite EW1, G1 in E'; apply bind_inv in E'; destruct E' as (a2 & Ha2 & E');
       destruct (CanvasTheory.chk_inv _ _ _ _ Ha2) as (-> & _); replace (w * h <? vlen (A := rgba) []) with false in E' by (change (vlen (A := rgba) []) with 0; nia);
       cbn [negb] in E'; rewrite andb_false_r, orb_false_r in E'; destruct (W <=? x) eqn:Dx;
       [ injection E' as <-; split; [exists q1; split; [constructor; [exact Sh1 | exact G1 | exact F1 | exact B1] | exact Eq1]
                                    | split; [reflexivity | split; [reflexivity | eexists; reflexivity]]]
       | unfold add_u32 in E'; rewrite CanvasTheory.chk_ok in E' by lia; cbn [bind] in E'; rewrite D in E'; cbn [orb bind] in E';
         rewrite CanvasTheory.chk_ok in E' by lia; cbn [bind] in E';
         apply bind_inv in E'; destruct E' as (c2 & He2 & E'); cbn [fold_res bind] in E'; injection E' as <-;
         destruct (expand_strip (y + h) c1 c2 W (Z.max H (y + h)) p (ex_intro _ q1 (conj (mk_strip _ _ _ _ Sh1 G1 F1 B1) Eq1)) ltac:(lia) He2) as (S2 & SP2);
         rewrite <- Z.max_assoc, Z.max_id in S2; destruct c2; exact (conj S2 SP2) ].
  all: destruct Ec' as (S2 & SP2); split; [|exact (same_paper_trans _ _ _ SP1 SP2)]; destruct S2 as (q2 & S2 & Eq2); exists q2; split; [exact S2|];
       intros X Y HX HY; rewrite Eq2 by assumption; unfold covers;
       replace ((x <=? X) && (X <? x + w) && (y <=? Y) && (Y <? y + h)) with false by lia; reflexivity.
Qed.

(** Strokes one after the other *)
Definition drawn (W : Z) (l : list stroke) (c c' : canvas) : Prop :=
  forall H p, on_strip c W H p -> on_strip c' W (bottoms W l H) (drawing W l p) /\ same_paper c c'.
Lemma drawn_nil W c : drawn W [] c c.
Proof. intros H p S. split; [exact S | apply same_paper_refl]. Qed.
Lemma drawn_app W l1 l2 a b c : drawn W l1 a b -> drawn W l2 b c -> drawn W (l1 ++ l2) a c.
Proof.
  intros D1 D2 H p S. destruct (D1 H p S) as (S1 & P1). destruct (D2 _ _ S1) as (S2 & P2).
  unfold bottoms, drawing in *. rewrite !fold_left_app. split; [exact S2 | exact (same_paper_trans _ _ _ P1 P2)].
Qed.
Lemma drawn_one W s c c' : (forall H p, on_strip c W H p -> on_strip c' W (Z.max H (bottom W s)) (draw W s p) /\ same_paper c c') ->
  drawn W [s] c c'.
Proof. intros D. exact D. Qed.
Lemma drawn_put W x y w h px c c' : 0 <= x -> 0 <= y -> 0 <= w -> 0 <= h -> vlen px = w * h -> put_pixels x y w h px true c = Ok c' ->
  drawn W [Paint x y w h px] c c'.
Proof. intros A1 A2 A3 A4 A5 E. apply drawn_one. intros H p S. exact (put_strip _ _ _ _ _ _ _ _ _ _ S A1 A2 A3 A4 A5 E). Qed.
Lemma drawn_rect W x y w h col c c' : 0 <= x -> 0 <= y -> 0 <= w -> 0 <= h -> draw_rect x y w h col true c = Ok c' ->
  drawn W [line_of x y w h col] c c'.
Proof. intros A1 A2 A3 A4 E. apply drawn_one. intros H p S. exact (rect_strip _ _ _ _ _ _ _ _ _ _ S A1 A2 A3 A4 E). Qed.
Lemma drawn_flip W x y w h c c' : 0 <= x -> 0 <= y -> 0 <= w -> 0 <= h -> flip_pixels x y w h c = Ok c' ->
  drawn W [Mirror x y w h] c c'.
Proof. intros A1 A2 A3 A4 E. apply drawn_one. intros H p S. exact (flip_strip _ _ _ _ _ _ _ _ _ S A1 A2 A3 A4 E). Qed.
Lemma drawn_fold {A} W (f : A -> canvas -> res canvas) (g : A -> list stroke) l :
  (forall a c c', In a l -> f a c = Ok c' -> drawn W (g a) c c') ->
  forall c c', fold_res f l c = Ok c' -> drawn W (flat_map g l) c c'.
Proof.
  induction l as [|a l IH]; intros F c c' E; cbn [fold_res flat_map] in *; [injection E as <-; apply drawn_nil|].
  apply bind_inv in E. destruct E as (c1 & E1 & E).
  exact (drawn_app _ _ _ _ _ _ (F _ _ _ (or_introl eq_refl) E1) (IH (fun b x x' Hb => F b x x' (or_intror Hb)) _ _ E)).
Qed.

(** ** Text *)
Lemma draw_glyph_len g col rw rh b b' : draw_glyph g col rw rh b = Ok b' -> vlen b' = vlen b.
Proof.
  unfold draw_glyph. intros H. refine (for_range_len _ _ _ _ _ H). intros i l l' Hl. cbv zeta in Hl.
  destruct (_ && _); [|injection Hl as <-; reflexivity].
  apply bind_inv in Hl. destruct Hl as (r & _ & Hl). apply bind_inv in Hl. destruct Hl as (ix & _ & Hl).
  apply bind_inv in Hl. destruct Hl as (o & _ & Hl). exact (vset_len _ _ _ _ Hl).
Qed.
Lemma scale_bitmap_len b w h sw sh b' : scale_bitmap b w h sw sh = Ok b' -> vlen b' = sw * sh.
Proof.
  unfold scale_bitmap. intros H. apply bind_inv in H. destruct H as (n & Hn & H). cbv zeta in H.
  destruct (mul_u32v _ _ _ Hn) as (En & N). rewrite <- En. apply for_range_len in H.
  - rewrite H, vlen_repeat. unfold u32v in N. lia.
  - intros i l l' Hi. refine (for_range_len _ _ _ _ _ Hi). clear. intros j l l' Hj.
    do 4 (apply bind_inv in Hj; destruct Hj as (? & _ & Hj)). destruct (_ && _); [|injection Hj as <-; reflexivity].
    apply bind_inv in Hj; destruct Hj as (? & _ & Hj). exact (vset_len _ _ _ _ Hj).
Qed.
Lemma render_char_size fo s ch px w h : span_wf s -> render_char fo s ch = Ok (Some (px, w, h)) ->
  w = s_character_width s /\ h = s_character_height s /\ 0 < w /\ 0 < h /\ vlen px = w * h.
Proof.
  intros [(Bw & Bh) (mw & Mw & Ew) (mh & Mh & Eh) _] H. unfold render_char in H.
  apply bind_inv in H. destruct H as (ws & Hws & H). apply bind_inv in H. destruct H as (hs & Hhs & H).
  assert (Ews : ws = mw).
  { destruct (div_u_ok _ _ _ Hws) as (_ & ->). rewrite Ew, Z.mul_comm. apply Z.div_mul. lia. }
  assert (Ehs : hs = mh).
  { destruct (div_u_ok _ _ _ Hhs) as (_ & ->). rewrite Eh, Z.mul_comm. apply Z.div_mul. lia. }
  subst ws hs. cbv zeta in H. apply bind_inv in H. destruct H as (rw & Hrw & H). apply bind_inv in H. destruct H as (rh & Hrh & H).
  destruct (mul_u32v _ _ _ Hrw) as (Erw & Vw). destruct (mul_u32v _ _ _ Hrh) as (Erh & Vh).
  assert (P : 0 < s_character_width s /\ 0 < s_character_height s) by nia.
  destruct (fo _ _ _ _ _) as [g|]; [|discriminate].
  apply bind_inv in H. destruct H as (b & Hb & H).
  destruct (1 <? Z.max mh mw) eqn:D.
  - apply bind_inv in H. destruct H as (b2 & Hb2 & H). injection H as <- <- <-.
    split; [reflexivity | split; [reflexivity | split; [lia | split; [lia|]]]]. exact (scale_bitmap_len _ _ _ _ _ _ Hb2).
  - injection H as <- <- <-. split; [reflexivity | split; [reflexivity | split; [lia | split; [lia|]]]].
    assert (E1 : mw = 1 /\ mh = 1) by lia. destruct E1 as (-> & ->).
    assert (L : vlen b = rw * rh).
    { assert (L0 : vlen (repeat (s_background_color s) (Z.to_nat (rw * rh))) = rw * rh) by (rewrite vlen_repeat; unfold u32v in *; nia).
      destruct (0 <? gl_width g); [|injection Hb as <-; exact L0]. rewrite (draw_glyph_len _ _ _ _ _ _ Hb). exact L0. }
    rewrite L, Erw, Erh, Ew, Eh. rewrite Z.max_id. reflexivity.
Qed.
Lemma cells_drawn W fo s top t : span_wf s -> (forall v, top = Ok v -> v = t /\ 0 <= v) ->
  forall chars x c x' c', 0 <= x -> fold_res (span_char fo s top) chars (x, c) = Ok (x', c') -> drawn W (cells fo s x t chars) c c'.
Proof.
  intros Ws Ht. assert (Cw : 0 < s_character_width s) by (destruct Ws as [(B & _) (m & M & E) _ _]; nia).
  induction chars as [|ch r IH]; intros x c x' c' Hx E; cbn [fold_res cells] in *.
  - injection E as _ <-. apply drawn_nil.
  - apply bind_inv in E. destruct E as ([x1 c1] & E1 & E). unfold span_char in E1. apply bind_inv in E1. destruct E1 as (bm & Hbm & E1).
    rewrite Hbm. destruct bm as [[[px w] h]|].
    + destruct (render_char_size _ _ _ _ _ _ Ws Hbm) as (Ew & Eh & P1 & P2 & L). replace ((w =? 0) || (h =? 0)) with false in E1 by lia.
      apply bind_inv in E1. destruct E1 as (y & Hy & E1). apply bind_inv in E1. destruct E1 as (c2 & Hp & E1).
      apply bind_inv in E1. destruct E1 as (x2 & Hx2 & E1). injection E1 as <- <-. destruct (add_u32v _ _ _ Hx2) as (-> & V).
      destruct (Ht _ Hy) as (-> & Hy0).
      refine (drawn_app _ [Paint x t w h px] _ _ _ _ (drawn_put W x t w h px c c2 Hx Hy0 ltac:(lia) ltac:(lia) L Hp) _).
      refine (IH _ _ _ _ _ E). lia.
    + apply bind_inv in E1. destruct E1 as (x2 & Hx2 & E1). injection E1 as <- <-. destruct (add_u32v _ _ _ Hx2) as (-> & V).
      cbn [app]. refine (IH _ _ _ _ _ E). lia.
Qed.
Lemma span_drawn W fo off mh s c c' : span_wf s -> 0 <= off -> render_span fo off mh s c = Ok c' ->
  drawn W (span_strokes fo off mh s) c c'.
Proof.
  intros Ws Ho E. unfold render_span in E. unfold span_strokes. destruct (s_dimensions s) as [d|] eqn:Ed; [|injection E as <-; apply drawn_nil].
  pose proof (sw_dims _ Ws) as Wd. rewrite Ed in Wd. destruct Wd as (Dx & Dy & Dw & Vw & Dh).
  assert (Ch : 0 < s_character_height s) by (destruct Ws as [(_ & B) _ (m & M & Em) _]; nia).
  cbv zeta in E. apply bind_inv in E. destruct E as (x & Hx & E). destruct (add_u32v _ _ _ Hx) as (-> & Vx).
  apply bind_inv in E. destruct E as (low & Hlow & E). rewrite Hlow. cbv zeta.
  apply bind_inv in E. destruct E as ([x1 c1] & E1 & E). apply bind_inv in E. destruct E as (c2 & E2 & E). apply bind_inv in E. destruct E as (c3 & E3 & E).
  unfold u32v in *.
  assert (Ht : forall v, add_u32 (d_y d) low = Ok v -> v = d_y d + low /\ 0 <= v).
  { intros v Hv. destruct (add_u32v _ _ _ Hv) as (-> & V). unfold u32v in V. lia. }
  refine (drawn_app _ _ _ _ _ _ (cells_drawn W fo s _ _ Ws Ht _ (d_x d + off) c x1 c1 ltac:(lia) E1) _).
  refine (drawn_app _ _ _ c1 c2 c' _ _).
  { destruct (0 <? s_underline s); [|injection E2 as <-; apply drawn_nil].
    apply bind_inv in E2. destruct E2 as (y & Hy & E2). apply bind_inv in E2. destruct E2 as (y1 & Hy1 & E2). apply bind_inv in E2. destruct E2 as (y2 & Hy2 & E2).
    destruct (Ht _ Hy) as (-> & _). destruct (add_u32v _ _ _ Hy1) as (-> & _). destruct (add_u32v _ _ _ Hy2) as (-> & V2). unfold u32v in V2.
    refine (drawn_rect _ _ _ _ _ _ _ _ _ _ _ _ E2); lia. }
  refine (drawn_app _ _ _ c2 c3 c' _ _).
  { destruct (0 <? s_strikethrough s) eqn:Es; [|injection E3 as <-; apply drawn_nil].
    apply bind_inv in E3. destruct E3 as (y & Hy & E3). apply bind_inv in E3. destruct E3 as (y1 & Hy1 & E3).
    destruct (Ht _ Hy) as (-> & _). destruct (add_u32v _ _ _ Hy1) as (-> & V1). unfold u32v in V1.
    refine (drawn_rect _ _ _ _ _ _ _ _ _ _ _ _ E3); lia. }
  destruct (s_upside_down s); [|injection E as <-; apply drawn_nil].
  apply bind_inv in E. destruct E as (y & Hy & E). destruct (Ht _ Hy) as (-> & Hy0).
  refine (drawn_flip _ _ _ _ _ _ _ _ _ _ _ E); lia.
Qed.

(** ** Calls *)
Definition on_sheet (ev : event) : Prop :=
  match ev with ERenderPage | EBeginRender | EEndRender => False | _ => True end.
Lemma call_drawn W fo x ev s s' : call_wf (x, ev) -> on_sheet ev -> image_event fo x ev s = Ok s' ->
  drawn W (strokes fo (x, ev)) (im_paper s) (im_paper s') /\ im_out s' = im_out s.
Proof.
  intros (C & Wev) O E. cbn [fst snd] in *.
  assert (N : forall l, im_paper s' = im_paper s -> im_out s' = im_out s -> l = [] -> drawn W l (im_paper s) (im_paper s') /\ im_out s' = im_out s).
  { intros l E1 E2 ->. rewrite E1. split; [apply drawn_nil | exact E2]. }
  assert (Z0 : forall r : list stroke, (if p_enabled (c_page x) then [] else []) = ([] : list stroke)) by (intros; destruct (p_enabled _); reflexivity).
  unfold strokes.
  destruct ev as [dv| | |rt pw ph| | |rects|i|spans off mh j| |]; try contradiction; cbn [image_event] in E;
    try (injection E as <-; apply N; [reflexivity | reflexivity | exact (Z0 [])]).
  - unfold on_page in E. apply bind_inv in E. destruct E as (c & _ & E). injection E as <-. apply N; [reflexivity | reflexivity | exact (Z0 [])].
  - unfold on_canvas in E. destruct (p_enabled (c_page x)).
    { unfold on_page in E. apply bind_inv in E. destruct E as (c & _ & E). injection E as <-. apply N; reflexivity. }
    unfold on_paper in E. apply bind_inv in E. destruct E as (c & Ec & E). injection E as <-. split; [|reflexivity].
    assert (EM : map (fun r => line_of (r_x r) (r_y r) (r_w r) (r_h r) (t_color (c_text x))) rects
                 = flat_map (fun r => [line_of (r_x r) (r_y r) (r_w r) (r_h r) (t_color (c_text x))]) rects).
    { clear. induction rects as [|r l IH]; [reflexivity|]. cbn [map flat_map app]. rewrite IH. reflexivity. }
    rewrite EM. refine (drawn_fold _ _ _ _ _ _ _ Ec). intros r a b Hin Er.
    pose proof (proj1 (Forall_forall _ _) Wev _ Hin) as (R1 & R2 & R3 & R4). unfold u32v in *.
    refine (drawn_rect _ _ _ _ _ _ _ _ _ _ _ _ Er); lia.
  - unfold on_canvas in E. destruct (p_enabled (c_page x)).
    { unfold on_page in E. apply bind_inv in E. destruct E as (c & _ & E). injection E as <-. apply N; reflexivity. }
    unfold on_paper in E. apply bind_inv in E. destruct E as (c & Ec & E). injection E as <-. split; [|reflexivity].
    destruct Wev as ([I1 I2 I3] & I4 & I5). unfold u32v in *. unfold put_render_img in Ec. apply bind_inv in Ec. destruct Ec as (c1 & E1 & Ec).
    refine (drawn_app _ [Paint _ _ _ _ _] _ _ _ _ (drawn_put _ _ _ _ _ _ _ _ _ _ _ _ I3 E1) _); try lia.
    destruct (i_upside_down i); [|injection Ec as <-; apply drawn_nil]. refine (drawn_flip _ _ _ _ _ _ _ _ _ _ _ Ec); lia.
  - unfold on_canvas in E. destruct (p_enabled (c_page x)).
    { unfold on_page in E. apply bind_inv in E. destruct E as (c & _ & E). injection E as <-. apply N; reflexivity. }
    unfold on_paper in E. apply bind_inv in E. destruct E as (c & Ec & E). injection E as <-. split; [|reflexivity].
    destruct Wev as (F & Vo & _). unfold u32v in Vo. refine (drawn_fold _ _ _ _ _ _ _ Ec). intros sp a b Hin Er.
    refine (span_drawn _ _ _ _ _ _ _ (proj1 (Forall_forall _ _) F _ Hin) _ Er). lia.
Qed.
Lemma calls_drawn W fo l : forall s s', Forall call_wf l -> Forall (fun x => on_sheet (snd x)) l -> image_calls fo l s = Ok s' ->
  drawn W (flat_map (strokes fo) l) (im_paper s) (im_paper s') /\ im_out s' = im_out s.
Proof.
  induction l as [|[x ev] l IH]; intros s s' F O E; cbn [image_calls fold_res flat_map] in *.
  - injection E as <-. split; [apply drawn_nil | reflexivity].
  - inversion F as [|? ? F1 F2]; subst. inversion O as [|? ? O1 O2]; subst. apply bind_inv in E. destruct E as (s1 & E1 & E).
    destruct (call_drawn W fo x ev s s1 F1 O1 E1) as (D1 & Q1). destruct (IH s1 s' F2 O2 E) as (D2 & Q2).
    split; [exact (drawn_app _ _ _ _ _ _ D1 D2) | congruence].
Qed.
