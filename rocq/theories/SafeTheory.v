(** * SafeTheory: in standard mode, within the number range, nothing panics (used by PropsSafe). *)
From Verif Require Import Base Command CommandSet Parser Vec Float32 GTypes Graphics GraphicsTheory Decoder Context Text
  Handlers Renderer ContextTheory RendererTheory Origin SpecPrinter StateTheory PropsText SpecRender LayoutTheory AreaTheory.
Local Open Scope Z_scope.
Local Open Scope list_scope.

(** ** The outcome of a step that does not panic *)
Definition okp {A} (r : res A) (Q : A -> Prop) : Prop := match r with Ok a => Q a | Panic _ => False end.
Lemma okp_bind {A B} (r : res A) (f : A -> res B) Q : okp r (fun a => okp (f a) Q) -> okp (bind r f) Q.
Proof. destruct r; [exact (fun H => H) | intros []]. Qed.
Lemma okp_weaken {A} (r : res A) (P Q : A -> Prop) : okp r P -> (forall a, P a -> Q a) -> okp r Q.
Proof. destruct r; cbn; auto. Qed.
Lemma okp_ex {A} (r : res A) Q : okp r Q -> exists a, r = Ok a /\ Q a.
Proof. destruct r; cbn; [eauto | intros []]. Qed.
Lemma okp_and {A} (r : res A) (P Q : A -> Prop) : okp r P -> (forall a, r = Ok a -> Q a) -> okp r (fun a => P a /\ Q a).
Proof. destruct r; cbn; auto. Qed.

(** ** The pen in standard mode *)
Definition top : Z := 4294967295.
Definition standard (c : context) : Prop := p_enabled (c_page c) = false.
Definition at_xy (x y : Z) (c : context) : context := upd_gra (fun a => set_a_x x (set_a_y y a)) c.
Ltac ctx_open := unfold at_xy, standard, reset_x, set_x, offset_x, offset_y, get_x, get_y, get_base_x, c_page, c_graphics, c_text, upd_page, upd_gra, upd_graphics, upd_now in *; cbn in *.

Lemma at_self c : standard c -> c = at_xy (get_x c) (get_y c) c.
Proof. destruct c as [d [t b q [[ax ay aw ah] rc pa dpi h v r st bu] p]]. ctx_open. intros ->. reflexivity. Qed.
Lemma at_at x y x' y' c : at_xy x y (at_xy x' y' c) = at_xy x y c.
Proof. destruct c as [d [t b q [[ax ay aw ah] rc pa dpi h v r st bu] p]]. reflexivity. Qed.
Lemma at_x x y c : standard c -> get_x (at_xy x y c) = x.
Proof. destruct c as [d [t b q g p]]. ctx_open. intros ->. reflexivity. Qed.
Lemma at_y x y c : standard c -> get_y (at_xy x y c) = y.
Proof. destruct c as [d [t b q g p]]. ctx_open. intros ->. reflexivity. Qed.
Lemma at_std x y c : standard (at_xy x y c) <-> standard c.
Proof. destruct c as [d [t b q g p]]. reflexivity. Qed.
Lemma at_text x y c : c_text (at_xy x y c) = c_text c.
Proof. destruct c as [d [t b q g p]]. reflexivity. Qed.
Lemma at_page x y c : c_page (at_xy x y c) = c_page c.
Proof. destruct c as [d [t b q g p]]. reflexivity. Qed.
Lemma at_moved x y c : moved c (at_xy x y c).
Proof. apply moved_gra. Qed.
Lemma at_reset x y c : standard c -> reset_x (at_xy x y c) = at_xy 0 y c.
Proof. destruct c as [d [t b q [[ax ay aw ah] rc pa dpi h v r st bu] p]]. ctx_open. intros ->. reflexivity. Qed.
Lemma at_set_x v x y c : standard c -> set_x v (at_xy x y c) = Ok (at_xy v y c).
Proof. destruct c as [d [t b q [[ax ay aw ah] rc pa dpi h u r st bu] p]]. ctx_open. intros ->. reflexivity. Qed.
Lemma at_offset_x v x y c : standard c -> 0 <= x + v <= top -> offset_x v (at_xy x y c) = Ok (at_xy (x + v) y c).
Proof.
  destruct c as [d [t b q [[ax ay aw ah] rc pa dpi h u r st bu] p]]. intros S B. ctx_open. rewrite S.
  unfold add_u32. rewrite chk_ok by (unfold u32_max, top in *; lia). reflexivity.
Qed.
Lemma at_offset_y v x y c : standard c -> 0 <= y + v <= top -> offset_y v (at_xy x y c) = Ok (at_xy x (y + v) c).
Proof.
  destruct c as [d [t b q [[ax ay aw ah] rc pa dpi h u r st bu] p]]. intros S B. ctx_open. rewrite S.
  unfold add_u32. rewrite chk_ok by (unfold u32_max, top in *; lia). reflexivity.
Qed.
Lemma at_newline n x y c : standard c -> 0 <= t_line_spacing (c_text c) * n -> 0 <= y + t_line_spacing (c_text c) * n <= top -> 0 <= y ->
  newline n (at_xy x y c) = Ok (at_xy 0 (y + t_line_spacing (c_text c) * n) c).
Proof.
  intros S N B Y. unfold newline. cbv zeta. rewrite at_text, at_reset by exact S. unfold mul_u32.
  rewrite chk_ok by (unfold u32_max, top in *; lia). cbn [bind]. apply at_offset_y; assumption.
Qed.
Definition highest (spans : list text_span) (h : Z) : Z := fold_left (fun h s => Z.max h (s_character_height s)) spans h.
Lemma highest_le m spans : forall h, h <= m -> Forall (fun s => s_character_height s <= m) spans -> h <= highest spans h <= m.
Proof.
  induction spans as [|s l IH]; intros h H F; cbn [highest fold_left]; [lia|]. apply Forall_cons_iff in F. destruct F as (F1 & F2).
  specialize (IH (Z.max h (s_character_height s)) ltac:(lia) F2). unfold highest in IH. lia.
Qed.
Lemma at_newline_for spans x y c : standard c -> 0 <= y ->
  let h := highest spans (t_line_spacing (c_text c)) in 0 <= h -> y + h <= top ->
  newline_for_spans spans (at_xy x y c) = Ok (at_xy 0 (y + h) c).
Proof.
  intros S Y h H B. unfold newline_for_spans. cbv zeta. rewrite at_text, at_reset by exact S. apply at_offset_y; [exact S | fold (highest spans (t_line_spacing (c_text c))); fold h; lia].
Qed.
Lemma at_width x y c : get_width (at_xy x y c) = get_width c.
Proof. apply moved_width. apply at_moved. Qed.
Lemma std_width c : standard c -> sinv c -> get_width c = 609.
Proof. intros S I. unfold get_width. unfold standard in S. rewrite S. exact (gk_width _ (si_graphics _ I)). Qed.
Lemma at_avail x y c : standard c -> sinv c -> get_available_width (at_xy x y c) = Z.max 0 (609 - x).
Proof.
  intros S I. pose proof (gk_width _ (si_graphics _ I)) as W.
  unfold get_available_width. rewrite at_page. unfold standard in S. rewrite S. cbv zeta.
  assert (E : g_render_area (c_graphics (at_xy x y c)) = set_a_x x (set_a_y y (g_render_area (c_graphics c)))) by (destruct c as [d [t b q g p]]; reflexivity).
  rewrite E. cbn [set_a_x set_a_y a_x a_w]. rewrite W. destruct (Z.leb_spec x 609); unfold sat_sub; lia.
Qed.
Lemma at_justified w x y c : standard c -> sinv c -> 0 <= w -> 0 <= calculate_justification w (at_xy x y c) <= 609.
Proof.
  intros S I W. unfold calculate_justification. cbv zeta. rewrite at_width, (std_width _ S I), at_text.
  destruct (Z.ltb_spec 609 w); [lia|]. destruct (t_justify (c_text c)); [lia| |lia].
  destruct (Z.ltb_spec 0 (609 - w)); [|lia]. split; [apply Z.div_pos; lia | apply Z.div_le_upper_bound; lia].
Qed.

(** ** Text *)
(** the widest pen position text can reach *)
Definition xb : Z := 1000000.
(** a span the layout can handle: cells 1 to 96 wide, at most 192 high; with [right], at most 24 wide;
    strike-through lines at most 10 dots high *)
Record span_ok (right : bool) (s : text_span) : Prop := mk_span_ok {
  so_w : 1 <= s_character_width s <= 96;
  so_h : s_character_height s <= 192;
  so_j : if right then s_character_width s <= 24 else s_justify s <> JRight;
  so_s : 0 <= s_strikethrough s <= 10 }.
Definition width_of (l : list text_span) : Z := fold_right (fun s a => vlen (s_text s) * s_character_width s + a) 0 l.
Lemma width_of_app a b : width_of (a ++ b) = width_of a + width_of b.
Proof. induction a as [|s a IH]; [reflexivity|]. cbn [app]. change (width_of (s :: a ++ b)) with (vlen (s_text s) * s_character_width s + width_of (a ++ b)).
  change (width_of (s :: a)) with (vlen (s_text s) * s_character_width s + width_of a). lia. Qed.
Lemma width_of_nonneg right l : Forall (span_ok right) l -> 0 <= width_of l.
Proof.
  induction 1 as [|s l [W _ _ _] _ IH]; [cbn; lia|]. change (width_of (s :: l)) with (vlen (s_text s) * s_character_width s + width_of l).
  pose proof (vlen_nonneg (s_text s)). nia.
Qed.

Section Words.
Variables (right : bool) (c : context).
Hypothesis std : standard c.
Hypothesis inv : sinv c.

Lemma spacing_ok : 0 <= t_line_spacing (c_text c) <= 255.
Proof. exact (tk_spacing _ (si_text _ inv)). Qed.

(** where a word stands: its left edge and its width are moderate *)
Definition placed (s : text_span) : Prop := exists d, s_dimensions s = Some d /\ 0 <= d_x d <= xb /\ 0 <= d_w d <= xb.
Lemma placed_break lines cur : Forall placed (concat lines ++ cur) -> Forall placed (concat (lines ++ [cur]) ++ []).
Proof. rewrite concat_app. cbn [concat]. rewrite !app_nil_r. exact (fun F => F). Qed.
Lemma placed_put lines cur p : Forall placed (concat lines ++ cur) -> placed p -> Forall placed (concat lines ++ (cur ++ [p])).
Proof. intros F P. rewrite app_assoc. apply Forall_app. split; [exact F | constructor; [exact P | constructor]]. Qed.
(** the layout so far: pen, finished lines, the open line *)
Record lay_good (Y : Z) (l : layout) : Prop := mk_lay_good {
  lg_pen : exists x y, fst (fst l) = at_xy x y c /\ 0 <= x <= xb /\ 60 <= y <= Y /\ (right = true -> width_of (snd l) <= x);
  lg_lines : Forall (Forall (span_ok right)) (snd (fst l)) /\ Forall (span_ok right) (snd l);
  lg_narrow : right = true -> Forall (fun line => width_of line <= 609) (snd (fst l)) /\ width_of (snd l) <= 609;
  lg_dims : Forall placed (concat (snd (fst l)) ++ snd l) }.

Lemma high_ok cur : Forall (span_ok right) cur -> 0 <= highest cur (t_line_spacing (c_text c)) <= 255.
Proof.
  intros F. pose proof spacing_ok. destruct (highest_le 255 cur (t_line_spacing (c_text c))); [lia| |lia].
  eapply Forall_impl; [|exact F]. intros s [_ Hh _ _]. lia.
Qed.
Lemma dims_ok x w : span_ok right w -> vlen (s_text w) * s_character_width w <= top ->
  okp (get_dimensions x w) (fun w' => span_ok right w' /\ s_text w' = s_text w /\ s_character_width w' = s_character_width w /\
    s_dimensions w' = Some (mk_dims (get_x x) (get_y x) (vlen (s_text w) * s_character_width w) (s_character_height w))).
Proof.
  intros [W H J NS] B. unfold get_dimensions, span_width, mul_u32, character_count. pose proof (vlen_nonneg (s_text w)).
  rewrite chk_ok by (unfold u32_max, top in *; nia). cbn. split; [constructor; auto | auto].
Qed.
Lemma span_width_ok w : span_ok right w -> vlen (s_text w) * s_character_width w <= top ->
  span_width w = Ok (vlen (s_text w) * s_character_width w).
Proof.
  intros [W H J NS] B. unfold span_width, mul_u32, character_count. pose proof (vlen_nonneg (s_text w)).
  apply chk_ok. unfold u32_max, top in *. nia.
Qed.

Lemma tab_walk_ok tabs cw cx x y : bytes_ok tabs = true -> 1 <= cw <= 96 -> 0 <= cx ->
  forall pos, 0 <= pos -> pos + 24480 * vlen tabs <= xb -> (cx <= xb) ->
  okp (tab_walk tabs cw cx pos (at_xy x y c)) (fun c' => exists x', c' = at_xy x' y c /\ (x' = x \/ cx <= x' <= xb)).
Proof.
  intros B W CX. induction tabs as [|t r IH]; intros pos P1 P2 CB; cbn [tab_walk].
  - cbn. exists x. auto.
  - cbn [bytes_ok forallb] in B. apply andb_prop in B. destruct B as [B1 B2]. unfold is_byte in B1.
    assert (V : vlen (t :: r) = 1 + vlen r) by (unfold vlen; cbn [length]; lia). pose proof (vlen_nonneg r).
    destruct (Z.leb_spec cx pos).
    + rewrite at_set_x by exact std. cbn. exists pos. split; [reflexivity|]. right. lia.
    + unfold mul_u32, add_u32. rewrite chk_ok by (unfold u32_max, xb in *; nia). cbn [bind].
      rewrite chk_ok by (unfold u32_max, xb in *; nia). cbn [bind]. apply IH; [exact B2 | nia | nia | exact CB].
Qed.

Definition piece_width (p : text_span) : Z := vlen (s_text p) * s_character_width p.
Lemma width_one p : width_of [p] = piece_width p.
Proof. unfold width_of, piece_width. cbn [fold_right]. lia. Qed.
Lemma piece_same p p' : s_text p' = s_text p -> s_character_width p' = s_character_width p -> piece_width p' = piece_width p.
Proof. unfold piece_width. intros -> ->. reflexivity. Qed.

Lemma pieces_good ps : forall x y lines cur Y,
  lay_good Y (at_xy x y c, lines, cur) -> 0 <= x <= xb -> 60 <= y <= Y -> (right = true -> width_of cur <= x) ->
  Forall (span_ok right) ps -> Forall (fun p => piece_width p <= xb) ps ->
  match ps with [] => True | p :: r =>
    x + piece_width p <= xb /\ (right = true -> width_of cur + piece_width p <= 609 /\ Forall (fun q => piece_width q <= 609) r) end ->
  Y + 255 * vlen (tl ps) <= top ->
  okp (place_pieces ps (at_xy x y c, lines, cur)) (lay_good (Y + 255 * vlen (tl ps))).
Proof.
  induction ps as [|p r IH]; intros x y lines cur Y L HX HY HC F1 F2 H B; cbn [place_pieces].
  - cbn [okp tl]. change (vlen (@nil text_span)) with 0. replace (Y + 255 * 0) with Y by lia. exact L.
  - apply Forall_cons_iff in F1. destruct F1 as (P1 & F1). apply Forall_cons_iff in F2. destruct F2 as (P2 & F2).
    destruct H as (H1 & H2). destruct (lg_lines _ _ L) as (LL1 & LL2). cbn [fst snd] in LL1, LL2.
    assert (PB : vlen (s_text p) * s_character_width p <= top) by (unfold piece_width, xb, top in *; lia).
    pose proof (width_of_nonneg _ _ LL2) as WN.
    assert (PN : 0 <= piece_width p).
    { unfold piece_width. pose proof (vlen_nonneg (s_text p)). destruct P1 as [W _ _ _]. nia. }
    destruct r as [|q r].
    + cbn [tl] in *. change (vlen (@nil text_span)) with 0 in *. replace (Y + 255 * 0) with Y by lia.
      apply okp_bind. eapply okp_weaken; [apply (dims_ok (at_xy x y c) p P1 PB)|]. intros p' (O & T & W & DM). cbn [bind].
      assert (PL : placed p') by (eexists; split; [exact DM|]; cbn [d_x d_w]; rewrite at_x by exact std; split; [lia|]; unfold piece_width in *; lia).
      pose proof (lg_dims _ _ L) as LD; cbn [fst snd] in LD.
      apply okp_bind. rewrite (span_width_ok p' O) by (rewrite T, W; exact PB). cbn [okp]. rewrite T, W. fold (piece_width p).
      apply okp_bind. rewrite at_offset_x; [|exact std | unfold top, xb in *; lia]. cbn [okp].
      constructor; cbn [fst snd].
      * exists (x + piece_width p), y. split; [reflexivity|]. split; [lia|]. split; [lia|]. intros R.
        rewrite width_of_app, width_one, (piece_same p p' T W). specialize (HC R). lia.
      * split; [exact LL1 | apply Forall_app; split; [exact LL2 | constructor; [exact O | constructor]]].
      * intros R. destruct (lg_narrow _ _ L R) as (N1 & N2). cbn [fst snd] in N1, N2. split; [exact N1|].
        rewrite width_of_app, width_one, (piece_same p p' T W). exact (proj1 (H2 R)).
      * exact (placed_put _ _ _ LD PL).
    + apply okp_bind. eapply okp_weaken; [apply (dims_ok (at_xy x y c) p P1 PB)|]. intros p' (O & T & W & DM). cbn [bind].
      assert (PL : placed p') by (eexists; split; [exact DM|]; cbn [d_x d_w]; rewrite at_x by exact std; split; [lia|]; unfold piece_width in *; lia).
      pose proof (lg_dims _ _ L) as LD; cbn [fst snd] in LD.
      assert (F' : Forall (span_ok right) (cur ++ [p'])) by (apply Forall_app; split; [exact LL2 | constructor; [exact O | constructor]]).
      pose proof (high_ok _ F') as HH. cbn [tl] in B. assert (V : vlen (q :: r) = 1 + vlen r) by (unfold vlen; cbn [length]; lia). pose proof (vlen_nonneg r).
      apply okp_bind. rewrite (at_newline_for (cur ++ [p']) x y c std ltac:(lia)); [|lia|lia].
      cbn [okp]. cbn [tl]. replace (Y + 255 * vlen (q :: r)) with ((Y + 255) + 255 * vlen (tl (q :: r))) by (cbn [tl]; lia).
      apply IH.
      * constructor; cbn [fst snd].
        -- exists 0, (y + highest (cur ++ [p']) (t_line_spacing (c_text c))). split; [reflexivity|]. unfold xb. split; [lia|]. split; [lia|]. intros _. cbn. lia.
        -- split; [apply Forall_app; split; [exact LL1 | constructor; [exact F' | constructor]] | constructor].
        -- intros R. destruct (lg_narrow _ _ L R) as (N1 & N2). cbn [fst snd] in N1, N2. split; [|cbn; lia].
           apply Forall_app. split; [exact N1 | constructor; [|constructor]].
           rewrite width_of_app, width_one, (piece_same p p' T W). exact (proj1 (H2 R)).
        -- exact (placed_break _ _ (placed_put _ _ _ LD PL)).
      * unfold xb. lia.
      * lia.
      * intros _. cbn. lia.
      * exact F1.
      * exact F2.
      * apply Forall_cons_iff in F2. destruct F2 as (Q2 & _). split; [lia|]. intros R. destruct (H2 R) as (_ & H3).
        apply Forall_cons_iff in H3. destruct H3 as (H3 & H4). split; [cbn; lia | exact H4].
      * cbn [tl]. lia.
Qed.

Lemma chunks_count n : forall fuel l, (1 <= n)%nat -> (length l <= fuel)%nat -> (length (chunks fuel n l) <= length l)%nat.
Proof.
  induction fuel as [|f IH]; intros l N L; cbn [chunks].
  - destruct l; cbn [length] in *; lia.
  - destruct l as [|a l]; cbn [length]; [lia|]. destruct n as [|n]; [lia|]. cbn [skipn].
    cbn [length] in L. assert (S : (length (skipn n l) <= length l)%nat) by (rewrite skipn_length; lia).
    pose proof (IH (skipn n l) ltac:(lia) ltac:(lia)). lia.
Qed.
Lemma chunks_short n : forall fuel l t, In t (chunks fuel n l) -> (length t <= n)%nat.
Proof.
  induction fuel as [|f IH]; intros l t H; cbn [chunks] in H; [destruct H|]. destruct l as [|a l]; [destruct H|].
  destruct H as [<-|H]; [rewrite firstn_length; lia | exact (IH _ _ H)].
Qed.
(** a word longer than a line is broken into a first piece that fits and further pieces *)
Lemma broken_good w first rest : span_ok right w -> 0 <= first -> 1 <= rest -> first < vlen (s_text w) ->
  okp (break_apart w first rest) (fun ps => Forall (span_ok right) ps /\ 1 <= vlen (tl ps) <= vlen (s_text w) /\
    match ps with [] => False | p :: r => piece_width p <= first * s_character_width w /\
      Forall (fun q => piece_width q <= rest * s_character_width w) r end).
Proof.
  intros O F0 R1 FL. unfold break_apart. destruct (Z.eqb_spec rest 0) as [E|_]; [lia|]. cbn [okp]. cbv zeta.
  set (chars := s_text w) in *.
  set (head := if (0 <? first) && (0 <? vlen chars) then firstn (Z.to_nat first) chars else []).
  set (index := if (0 <? first) && (0 <? vlen chars) then first else 0).
  set (rst := skipn (Z.to_nat index) chars).
  assert (C : forall t, span_ok right (clone_with t w)) by (intros t; destruct O; constructor; auto).
  assert (HL : vlen head <= first).
  { unfold head. destruct ((0 <? first) && (0 <? vlen chars)); unfold vlen; [rewrite firstn_length; lia | cbn; lia]. }
  assert (IX : 0 <= index <= first) by (unfold index; destruct ((0 <? first) && (0 <? vlen chars)); lia).
  assert (RL : 1 <= vlen rst <= vlen chars) by (unfold rst, vlen in *; rewrite skipn_length; lia).
  pose proof (chunks_count (Z.to_nat rest) (length rst) rst ltac:(lia) ltac:(lia)) as CC.
  destruct O as [W _ _ _].
  split; [|split].
  - apply Forall_forall. intros p Hp. apply in_map_iff in Hp. destruct Hp as (t & <- & _). apply C.
  - cbn [map tl]. unfold vlen at 1 2. rewrite map_length. unfold vlen in RL. split; [|unfold vlen; lia].
    destruct rst as [|a l]; [cbn in RL; lia|]. cbn [length chunks]. lia.
  - cbn [map]. split.
    + unfold piece_width. cbn. nia.
    + apply Forall_forall. intros q Hq. apply in_map_iff in Hq. destruct Hq as (t & <- & Ht). apply chunks_short in Ht.
      unfold piece_width. cbn. assert (vlen t <= rest) by (unfold vlen; lia). nia.
Qed.

Lemma word_good w l Y : lay_good Y l -> span_ok right w -> s_text w <> [] -> Y + 255 * vlen (s_text w) <= top ->
  okp (place_word 609 w l) (lay_good (Y + 255 * vlen (s_text w))).
Proof.
  intros L O NE B. pose proof (vlen_nonneg (s_text w)) as V0.
  assert (V1 : 1 <= vlen (s_text w)) by (destruct (s_text w); [congruence | unfold vlen; cbn [length]; lia]).
  destruct l as [[c1 lines] cur]. destruct (lg_pen _ _ L) as (x & y & E & HX & HY & HC). cbn [fst snd] in E, HC. subst c1.
  destruct (lg_lines _ _ L) as (LL1 & LL2). cbn [fst snd] in LL1, LL2. pose proof (lg_dims _ _ L) as LD. cbn [fst snd] in LD.
  assert (PB : vlen (s_text w) * s_character_width w <= top) by (destruct O as [W _ _ _]; unfold top in *; nia).
  pose proof (high_ok _ LL2) as HH. assert (HT : y + highest cur (t_line_spacing (c_text c)) <= top) by lia.
  assert (NL : newline_for_spans cur (at_xy x y c) = Ok (at_xy 0 (y + highest cur (t_line_spacing (c_text c))) c)).
  { apply at_newline_for; [exact std | lia | lia | exact HT]. }
  assert (LB : lay_good (Y + 255) (at_xy 0 (y + highest cur (t_line_spacing (c_text c))) c, lines ++ [cur], [])).
  { constructor; cbn [fst snd].
    - eexists 0, _. split; [reflexivity|]. unfold xb. split; [lia|]. split; [lia|]. intros _. cbn. lia.
    - split; [apply Forall_app; split; [exact LL1 | constructor; [exact LL2 | constructor]] | constructor].
    - intros R. destruct (lg_narrow _ _ L R) as (N1 & N2). cbn [fst snd] in N1, N2.
      split; [apply Forall_app; split; [exact N1 | constructor; [exact N2 | constructor]] | cbn; lia].
    - exact (placed_break _ _ LD). }
  unfold place_word. apply okp_bind. rewrite (span_width_ok w O PB). cbn [okp]. fold (piece_width w).
  assert (PP : 1 <= piece_width w) by (unfold piece_width; destruct O as [W _ _ _]; nia).
  destruct (is_single 10 (s_text w)) eqn:E10.
  { apply okp_bind. rewrite NL. cbn [okp].
    destruct LB as [(x' & y' & E & X' & Y' & C') [A1 A2] N LB]. cbn [fst snd] in *. constructor; cbn [fst snd].
    - exists x', y'. split; [exact E|]. split; [exact X'|]. split; [lia | exact C'].
    - split; [|constructor]. change [cur; []] with ([cur] ++ [[]]). rewrite app_assoc. apply Forall_app. split; [exact A1 | constructor; [constructor | constructor]].
    - intros R. destruct (N R) as (N1 & N2). split; [|cbn; lia]. change [cur; []] with ([cur] ++ [[]]). rewrite app_assoc.
      apply Forall_app. split; [exact N1 | constructor; [cbn; lia | constructor]].
    - change [cur; []] with ([cur] ++ [[]]). rewrite app_assoc, concat_app. cbn [concat]. rewrite !app_nil_r in *. exact LB. }
  destruct (is_single 9 (s_text w)) eqn:E9.
  { apply okp_bind. rewrite at_text, at_x by exact std.
    destruct (tk_tabs _ (si_text _ inv)) as (TL & TB). destruct O as [W Hh J NS].
    eapply okp_weaken; [apply (tab_walk_ok (t_tabs (c_text c)) (s_character_width w) x x y TB W); try (unfold xb in *; lia); unfold vlen; rewrite TL; unfold xb; lia|].
    intros c' (x' & -> & X'). cbn [okp]. constructor; cbn [fst snd].
    - exists x', y. split; [reflexivity|]. split; [lia|]. split; [lia|]. intros R. specialize (HC R). lia.
    - split; assumption.
    - exact (lg_narrow _ _ L).
    - exact LD. }
  rewrite (at_avail x y c std inv).
  destruct (Z.leb_spec (piece_width w) (Z.max 0 (609 - x))) as [LE|GT].
  { apply okp_bind. eapply okp_weaken; [apply (dims_ok (at_xy x y c) w O PB)|]. intros w' (O' & T & W & DM). cbn [bind].
    assert (PL : placed w') by (eexists; split; [exact DM|]; cbn [d_x d_w]; rewrite at_x by exact std; split; [unfold xb in *; lia|]; unfold piece_width, xb in *; lia).
    apply okp_bind. rewrite at_offset_x; [|exact std | unfold top, xb in *; lia]. cbn [okp]. constructor; cbn [fst snd].
    - exists (x + piece_width w), y. split; [reflexivity|]. split; [unfold xb in *; lia|]. split; [lia|]. intros R. specialize (HC R).
      rewrite width_of_app, width_one, (piece_same w w' T W). lia.
    - split; [exact LL1 | apply Forall_app; split; [exact LL2 | constructor; [exact O' | constructor]]].
    - intros R. specialize (HC R). destruct (lg_narrow _ _ L R) as (N1 & N2). cbn [fst snd] in N1, N2. split; [exact N1|].
      rewrite width_of_app, width_one, (piece_same w w' T W). lia.
    - exact (placed_put _ _ _ LD PL). }
  destruct (Z.ltb_spec 609 (piece_width w)) as [LT|GE].
  { pose proof (so_w _ _ O) as W.
    apply okp_bind. unfold div_u. destruct (Z.eqb_spec (s_character_width w) 0) as [Ez|_]; [lia|]. cbn [okp]. apply okp_bind. cbn [okp].
    set (first := Z.max 0 (609 - x) / s_character_width w). set (rest := Z.max (609 / s_character_width w) (s_character_width w)).
    assert (F0 : 0 <= first) by (apply Z.div_pos; lia).
    assert (F1 : first * s_character_width w <= Z.max 0 (609 - x)) by (rewrite Z.mul_comm; apply Z.mul_div_le; lia).
    assert (R0 : 0 <= 609 / s_character_width w) by (apply Z.div_pos; lia).
    assert (R1 : 609 / s_character_width w * s_character_width w <= 609) by (rewrite Z.mul_comm; apply Z.mul_div_le; lia).
    assert (R2 : rest * s_character_width w <= 9216) by (unfold rest; clear - R0 R1 W; destruct (Z.max_spec (609 / s_character_width w) (s_character_width w)) as [[_ ->]|[_ ->]]; nia).
    assert (R3 : right = true -> rest * s_character_width w <= 609).
    { intros R. pose proof (so_j _ _ O) as J. rewrite R in J. unfold rest.
      assert (s_character_width w <= 609 / s_character_width w) by (apply Z.div_le_lower_bound; [lia | clear - J W; nia]).
      rewrite Z.max_l by assumption. exact R1. }
    assert (FL : first < vlen (s_text w)).
    { destruct (Z.lt_ge_cases first (vlen (s_text w))) as [?|G]; [assumption|]. exfalso.
      assert (piece_width w <= first * s_character_width w) by (unfold piece_width; clear - G W; nia). lia. }
    assert (RP : 1 <= rest) by (unfold rest; lia). clearbody first rest.
    apply okp_bind. eapply okp_weaken; [exact (broken_good w first rest O F0 RP FL)|].
    intros ps (P1 & P2 & P3). cbn beta.
    assert (YB : Y + 255 * vlen (tl ps) <= top) by lia.
    eapply okp_weaken.
    - apply (pieces_good ps x y lines cur Y L HX HY HC P1).
      + destruct ps as [|p r]; [constructor|]. destruct P3 as (P3 & P4). constructor; [unfold xb in *; lia|].
        eapply Forall_impl; [|exact P4]. cbn beta. intros q Hq. unfold xb. lia.
      + destruct ps as [|p r]; [exact I|]. destruct P3 as (P3 & P4). split; [unfold xb in *; lia|]. intros R. specialize (HC R).
        destruct (lg_narrow _ _ L R) as (N1 & N2). cbn [fst snd] in N1, N2. split; [lia|].
        eapply Forall_impl; [|exact P4]. cbn beta. intros q Hq. specialize (R3 R). lia.
      + exact YB.
    - intros l [(x' & y' & E & X' & Y' & C') LL N LD']. constructor; [|exact LL | exact N | exact LD'].
      exists x', y'. split; [exact E|]. split; [exact X'|]. split; [lia | exact C']. }
  apply okp_bind. rewrite NL. cbn [okp].
  destruct LB as [(x' & y' & E & X' & Y' & C') [A1 A2] N LB]. cbn [fst snd] in *.
  assert (x' = 0 /\ y' = y + highest cur (t_line_spacing (c_text c))) as (-> & ->).
  { pose proof (f_equal get_x E) as E1. pose proof (f_equal get_y E) as E2. rewrite !at_x in E1 by exact std. rewrite !at_y in E2 by exact std. auto. }
  apply okp_bind. eapply okp_weaken; [apply (dims_ok (at_xy 0 (y + highest cur (t_line_spacing (c_text c))) c) w O PB)|]. intros w' (O' & T & W & DM). cbn [bind].
    assert (PL : placed w') by (eexists; split; [exact DM|]; cbn [d_x d_w]; rewrite at_x by exact std; split; [unfold xb in *; lia|]; unfold piece_width, xb in *; lia).
  apply okp_bind. rewrite at_offset_x; [|exact std | unfold top, xb in *; lia]. cbn [okp]. constructor; cbn [fst snd].
  - eexists _, _. split; [reflexivity|]. split; [unfold xb in *; lia|]. split; [lia|]. intros R.
    rewrite width_one, (piece_same w w' T W). lia.
  - split; [exact A1 | constructor; [exact O' | constructor]].
  - intros R. destruct (N R) as (N1 & N2). split; [exact N1|]. rewrite width_one, (piece_same w w' T W). lia.
  - change [w'] with ([] ++ [w']). exact (placed_put _ _ _ LB PL).
Qed.

Definition chars_of (l : list text_span) : Z := fold_right (fun s a => vlen (s_text s) + a) 0 l.
Lemma words_good ws : forall l Y, lay_good Y l -> Forall (fun w => span_ok right w /\ s_text w <> []) ws -> Y + 255 * chars_of ws <= top ->
  okp (fold_res (place_word 609) ws l) (lay_good (Y + 255 * chars_of ws)).
Proof.
  induction ws as [|w ws IH]; intros l Y L F B.
  - cbn [fold_res okp chars_of fold_right]. replace (Y + 255 * 0) with Y by lia. exact L.
  - change (chars_of (w :: ws)) with (vlen (s_text w) + chars_of ws) in *. apply Forall_cons_iff in F. destruct F as ((O & NE) & F).
    assert (0 <= chars_of ws) by (clear; induction ws as [|a l IH]; [cbn; lia|]; change (chars_of (a :: l)) with (vlen (s_text a) + chars_of l); pose proof (vlen_nonneg (s_text a)); lia).
    cbn [fold_res]. apply okp_bind. eapply okp_weaken; [apply (word_good w l Y L O NE); lia|].
    intros l' L'. cbn beta. replace (Y + 255 * (vlen (s_text w) + chars_of ws)) with ((Y + 255 * vlen (s_text w)) + 255 * chars_of ws) by lia.
    apply IH; [exact L' | exact F | lia].
Qed.
End Words.

Lemma chars_nonneg l : 0 <= chars_of l.
Proof. induction l as [|a l IH]; [cbn; lia|]. change (chars_of (a :: l)) with (vlen (s_text a) + chars_of l). pose proof (vlen_nonneg (s_text a)). lia. Qed.
Lemma chars_app a b : chars_of (a ++ b) = chars_of a + chars_of b.
Proof. induction a as [|s a IH]; [reflexivity|]. cbn [app]. change (chars_of (s :: a ++ b)) with (vlen (s_text s) + chars_of (a ++ b)). change (chars_of (s :: a)) with (vlen (s_text s) + chars_of a). lia. Qed.
Lemma chars_ink l : chars_of l = vlen (all_ink l).
Proof.
  induction l as [|s l IH]; [reflexivity|]. change (chars_of (s :: l)) with (vlen (s_text s) + chars_of l). rewrite IH.
  unfold all_ink. cbn [flat_map]. unfold vlen. rewrite app_length. unfold inked. rewrite map_length. lia.
Qed.
Lemma chars_concat s : chars_of (break_into_words s) = vlen (s_text s).
Proof.
  destruct (C25_words_lossless s) as (H & _). rewrite <- H. clear H. generalize (break_into_words s) as l. clear.
  induction l as [|a l IH]; [reflexivity|]. change (chars_of (a :: l)) with (vlen (s_text a) + chars_of l). rewrite IH.
  cbn [map concat]. unfold vlen. rewrite app_length. lia.
Qed.
Lemma chars_words l : chars_of (flat_map break_into_words l) = chars_of l.
Proof.
  induction l as [|s l IH]; [reflexivity|]. cbn [flat_map]. rewrite chars_app, chars_concat, IH. reflexivity.
Qed.
Lemma words_nonempty cur l : Forall (fun t : ustring => t <> []) (words_loop cur l).
Proof.
  revert cur. induction l as [|a l IH]; intros cur; cbn [words_loop].
  - destruct cur; constructor; [discriminate | constructor].
  - destruct (is_whitespace a); [constructor; [destruct cur; discriminate | apply IH] | apply IH].
Qed.
Lemma words_ok right l : Forall (span_ok right) l -> Forall (fun w => span_ok right w /\ s_text w <> []) (flat_map break_into_words l).
Proof.
  intros F. apply Forall_forall. intros w Hw. apply in_flat_map in Hw. destruct Hw as (s & Hs & Hw).
  unfold break_into_words in Hw. apply in_map_iff in Hw. destruct Hw as (t & <- & Ht).
  pose proof (proj1 (Forall_forall _ _) F _ Hs) as [W H J NS]. split; [constructor; auto|].
  exact (proj1 (Forall_forall _ _) (words_nonempty [] (s_text s)) _ Ht).
Qed.
Lemma word_ink_len ws : vlen (flat_map word_ink ws) <= chars_of ws.
Proof.
  induction ws as [|w ws IH]; [cbn; lia|]. change (chars_of (w :: ws)) with (vlen (s_text w) + chars_of ws).
  cbn [flat_map]. unfold vlen in *. rewrite app_length. unfold word_ink at 1. destruct (keep (s_text w)); [unfold inked; rewrite map_length|cbn [length]]; lia.
Qed.
Lemma width_chars right l : Forall (span_ok right) l -> width_of l <= 96 * chars_of l.
Proof.
  induction 1 as [|s l [W _ _ _] _ IH]; [cbn; lia|]. change (width_of (s :: l)) with (vlen (s_text s) * s_character_width s + width_of l).
  change (chars_of (s :: l)) with (vlen (s_text s) + chars_of l). pose proof (vlen_nonneg (s_text s)). nia.
Qed.
Lemma chars_line line lines : In line lines -> chars_of line <= chars_of (concat lines).
Proof.
  induction lines as [|l r IH]; [intros []|]. cbn [concat]. rewrite chars_app. pose proof (chars_nonneg (concat r)). pose proof (chars_nonneg l).
  intros [->|H1]; [lia | specialize (IH H1); lia].
Qed.
Lemma line_width_ok right l : Forall (span_ok right) l -> forall a, 0 <= a -> a + width_of l <= top -> line_width l a = Ok (a + width_of l).
Proof.
  induction 1 as [|s l O F IH]; intros a A B; cbn [line_width].
  - unfold width_of. cbn [fold_right]. f_equal. lia.
  - change (width_of (s :: l)) with (vlen (s_text s) * s_character_width s + width_of l) in *.
    pose proof (width_of_nonneg _ _ F) as WN. pose proof (vlen_nonneg (s_text s)). pose proof (so_w _ _ O) as W.
    assert (0 <= vlen (s_text s) * s_character_width s) by nia.
    rewrite (span_width_ok right s O) by lia. cbn [bind].
    unfold add_u32. rewrite chk_ok by (unfold u32_max, top in *; lia). cbn [bind]. rewrite IH by lia. f_equal. lia.
Qed.
Lemma render_line_ok right line s : get_width (rs_ctx s) = 609 -> Forall (span_ok right) line -> width_of line <= top -> (right = true -> width_of line <= 609) ->
  okp (render_line line s) (fun s' => rs_ctx s' = rs_ctx s /\ rs_spans s' = rs_spans s).
Proof.
  intros GW F B R. unfold render_line. destruct line as [|f l]; [cbn; auto|]. cbv zeta. rewrite (line_width_ok right _ F 0) by lia. cbn [bind].
  rewrite GW. apply okp_bind. pose proof (width_of_nonneg _ _ F). apply Forall_cons_iff in F. destruct F as (Of & _). pose proof (so_j _ _ Of) as J.
  unfold line_offset. replace (0 + width_of (f :: l)) with (width_of (f :: l)) by lia.
  destruct (s_justify f); [cbn; auto | cbn; auto|].
  destruct right; [|congruence]. unfold sub_u32. rewrite chk_ok by (specialize (R eq_refl); unfold u32_max; lia). cbn. auto.
Qed.
Lemma render_lines_ok right lines : forall s, get_width (rs_ctx s) = 609 -> Forall (Forall (span_ok right)) lines ->
  Forall (fun line => width_of line <= top) lines -> (right = true -> Forall (fun line => width_of line <= 609) lines) ->
  okp (fold_res render_line lines s) (fun s' => rs_ctx s' = rs_ctx s /\ rs_spans s' = rs_spans s).
Proof.
  induction lines as [|l r IH]; intros s GW F B R; cbn [fold_res]; [cbn; auto|].
  apply Forall_cons_iff in F. destruct F as (F1 & F2). apply Forall_cons_iff in B. destruct B as (B1 & B2).
  apply okp_bind. eapply okp_weaken; [apply (render_line_ok right l s GW F1 B1)|].
  - intros E. specialize (R E). apply Forall_cons_iff in R. tauto.
  - intros s1 (E1 & E2). cbn beta. eapply okp_weaken; [apply IH; [rewrite E1; exact GW | exact F2 | exact B2 |]|].
    + intros E. specialize (R E). apply Forall_cons_iff in R. tauto.
    + intros s2 (E3 & E4). cbn beta. split; congruence.
Qed.

(** Printing the collected text: it succeeds as long as there is room on the strip of paper. *)
Lemma flush_good right s : standard (rs_ctx s) -> sinv (rs_ctx s) -> Forall (span_ok right) (rs_spans s) ->
  0 <= get_x (rs_ctx s) <= xb -> 60 <= get_y (rs_ctx s) -> get_y (rs_ctx s) + 255 * chars_of (rs_spans s) <= top ->
  okp (process_text s) (fun s' => rs_spans s' = [] /\ exists x y, rs_ctx s' = at_xy x y (rs_ctx s) /\ 0 <= x <= xb /\
    60 <= y <= get_y (rs_ctx s) + 255 * chars_of (rs_spans s)).
Proof.
  intros S I F X Y B. set (c := rs_ctx s) in *. pose proof (std_width _ S I) as GW.
  unfold process_text. destruct (rs_spans s) as [|sp r] eqn:E.
  { cbn [okp]. split; [exact E|]. exists (get_x c), (get_y c). split; [exact (at_self _ S)|]. split; [exact X | cbn; lia]. }
  rewrite <- E in *. clear E sp r. fold c. set (ws := flat_map break_into_words (rs_spans s)).
  assert (L0 : lay_good right c (get_y c) (c, [], [])).
  { constructor; cbn [fst snd].
    - exists (get_x c), (get_y c). split; [exact (at_self _ S)|]. split; [exact X|]. split; [lia|]. intros _. cbn. lia.
    - split; constructor.
    - intros _. split; [constructor | cbn; lia].
    - constructor. }
  assert (BW : get_y c + 255 * chars_of ws <= top) by (unfold ws; rewrite chars_words; exact B).
  pose proof (words_good right c S I ws _ _ L0 (words_ok _ _ F) BW) as G.
  apply okp_ex in G. destruct G as ([[c1 lines] cur] & G & L1).
  set (lines' := match cur with [] => lines | _ :: _ => lines ++ [cur] end).
  assert (HL : layout_words ws c = Ok (c1, lines')) by (unfold layout_words; rewrite GW, G; reflexivity).
  rewrite HL. cbn [bind].
  assert (INK : all_ink (concat lines') = flat_map word_ink ws).
  { refine (layout_words_ink ws c c1 lines' ltac:(lia) _ HL). eapply Forall_impl; [|exact (words_ok _ _ F)]. cbn beta. intros w ([W _ _ _] & _). lia. }
  destruct L1 as [(x & y & E & X1 & Y1 & C1) [A1 A2] N _]. cbn [fst snd] in *. subst c1.
  assert (A' : Forall (Forall (span_ok right)) lines').
  { unfold lines'. destruct cur; [exact A1 | apply Forall_app; split; [exact A1 | constructor; [exact A2 | constructor]]]. }
  eapply okp_weaken.
  - apply (render_lines_ok right lines' (with_ctx (at_xy x y c) (with_spans [] s))).
    + cbn [with_ctx rs_ctx]. rewrite at_width. exact GW.
    + exact A'.
    + apply Forall_forall. intros line Hl. pose proof (proj1 (Forall_forall _ _) A' _ Hl) as FL. pose proof (width_chars _ _ FL) as WC.
      pose proof (chars_line _ _ Hl) as CL. rewrite (chars_ink (concat lines')), INK in CL. pose proof (word_ink_len ws). unfold top in *. lia.
    + intros R. destruct (N R) as (N1 & N2). unfold lines'. destruct cur; [exact N1 | apply Forall_app; split; [exact N1 | constructor; [exact N2 | constructor]]].
  - cbn beta. cbn [with_ctx with_spans rs_ctx rs_spans]. intros s' (E1 & E2). split; [exact E2|]. exists x, y. split; [exact E1|]. split; [exact X1|].
    unfold ws in Y1. rewrite chars_words in Y1. lia.
Qed.
