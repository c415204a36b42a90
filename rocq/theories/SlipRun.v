(** * SlipRun: a receipt with pictures, from the bytes to the calls. *)
From Verif Require Import Base Command CommandSet Parser Vec Float32 GTypes Graphics Utf8 Decoder Context Text Upce Handlers Renderer
  SpecStream StreamProofs ContextTheory RendererTheory Origin SpecPrinter StateTheory PropsText SpecRender SpecGraphics SpecSymbol PropsPicture
  PropsOutput LayoutTheory AreaTheory PlaceTheory PropsContext PropsLayout PropsPlace SafeTheory PenTheory CallsTheory SpecLines PropsLines
  ManualTheory PropsQr PropsDecoder ThermalImage SpecCanvas ImageRenderer SpecImage SpecScene SpecPlain PlainTheory PlainRun PlainJob SpecReceipt ReceiptRun SpecSlip.
From Verif Require PropsSafe.
Local Open Scope Z_scope.
Local Open Scope list_scope.
Local Arguments at_ : simpl never.
Local Arguments vlen : simpl never.

(** ** Parsing *)
Definition align_item (a : Z) : item := fixed_item "Set Text Justification" KControl [27; 97] a.
Definition element_items (e : element) : list item :=
  match e with Part p => part_items p | Picture a m w h d => [align_item a; IRaster m (w mod 256) (w / 256) (h mod 256) (h / 256) d] end.
Definition o_raster (m w h : Z) (d : list Z) : ocmd :=
  OC "Raster Bit Image" KGraphics [29; 118; 48] d ([29; 118; 48], [m; w mod 256; w / 256; h mod 256; h / 256] ++ d).
Definition element_seen (e : element) : list ocmd :=
  match e with Part p => part_seen p | Picture a m w h d => [o_fixed "Set Text Justification" KControl [27; 97] a; o_raster m w h d] end.
Definition slip_items (l : list element) : list item := flat_map element_items l.
Lemma one_wire p : flat_map wire (part_items p) = part_bytes p.
Proof. pose proof (items_wire [p]) as H. unfold encode, items, receipt_bytes in H. cbn [flat_map] in H. rewrite !app_nil_r in H. exact H. Qed.
Lemma slip_wire l : encode (slip_items l) = slip_bytes l.
Proof.
  unfold encode, slip_items, slip_bytes. induction l as [|e r IH]; [reflexivity|]. cbn [flat_map]. rewrite flat_map_app, IH. f_equal.
  destruct e as [p|a m w h d]; [apply one_wire|]. cbn [element_items element_bytes flat_map]. cbn [wire align_item fixed_item app]. rewrite app_nil_r. reflexivity.
Qed.
Lemma slip_ok l : Forall element_ok l -> Forall item_ok (slip_items l).
Proof.
  unfold slip_items. induction 1 as [|e r P F IH]; [constructor|]. cbn [flat_map]. apply Forall_app. split; [|exact IH].
  destruct e as [p|a m w h d]; cbn [element_items element_ok] in *.
  - pose proof (items_ok [p] (Forall_cons p P (Forall_nil _))) as H. unfold items in H. cbn [flat_map] in H. rewrite app_nil_r in H. exact H.
  - destruct P as (_ & _ & _ & _ & _ & _ & L). constructor; [cbn; unfold in_fixed; vm_compute; tauto|]. constructor; [|constructor]. cbn [item_ok]. unfold zlen. rewrite L.
    pose proof (Z.div_mod w 256 ltac:(lia)). pose proof (Z.div_mod h 256 ltac:(lia)). f_equal; lia.
Qed.
Lemma part_closed p r : separated r = true -> separated (part_items p ++ r) = true.
Proof.
  intros IH. destruct p as [n a t|n|n|m|m n]; cbn [part_items].
  2-5: cbn [app]; rewrite separated_fixed by reflexivity; exact IH.
  rewrite <- app_assoc. apply separated_fixeds; [repeat constructor|]. destruct t as [|c t]; cbn [line_items app].
  - rewrite separated_fixed by reflexivity. exact IH.
  - rewrite separated_two, separated_fixed by reflexivity. rewrite IH. reflexivity.
Qed.
Lemma slip_sep l : separated (slip_items l) = true.
Proof.
  unfold slip_items. induction l as [|e r IH]; [reflexivity|]. cbn [flat_map]. destruct e as [p|a m w h d]; cbn [element_items]; [exact (part_closed p _ IH)|].
  apply separated_fixeds; [repeat constructor | exact IH].
Qed.
Lemma slip_expect l : expect_all (slip_items l) = flat_map element_seen l.
Proof.
  assert (G : forall a r, Forall (fun i => expect_eof i = expect i) a -> expect_all (a ++ r) = flat_map expect a ++ expect_all r).
  { induction 1 as [|i a E F IH]; [reflexivity|]. cbn [app flat_map]. rewrite <- app_assoc, <- IH. destruct (a ++ r) as [|x y]; [cbn [expect_all]; rewrite app_nil_r; exact E | reflexivity]. }
  assert (Q : forall p, flat_map expect (part_items p) = part_seen p /\ Forall (fun i => expect_eof i = expect i) (part_items p)).
  { intros p. assert (A : Forall (fun i => expect_eof i = expect i) (part_items p)) by (destruct p as [n a [|c t]| | | |]; repeat constructor). split; [|exact A].
    pose proof (items_expect [p]) as H. unfold items in H. cbn [flat_map] in H. rewrite (G _ [] A), !app_nil_r in H. exact H. }
  unfold slip_items. induction l as [|e r IH]; [reflexivity|]. cbn [flat_map]. destruct e as [p|a m w h d].
  - cbn [element_items element_seen]. rewrite G, IH by apply Q. f_equal. apply Q.
  - rewrite G, IH by repeat constructor. reflexivity.
Qed.
Lemma slip_lead l : lead (slip_items l) = [].
Proof. destruct l as [|[[]|] ?]; reflexivity. Qed.
Lemma slip_parse l : Forall element_ok l -> exists cmds, parse_esc_pos (slip_bytes l) = Ok cmds /\ map observe cmds = [o_begin] ++ flat_map element_seen l ++ [o_end].
Proof.
  intros F. destruct (parse_stream (slip_items l)) as (cmds & P & O); [split; [exact (slip_ok l F) | exact (slip_sep l)]|].
  rewrite slip_wire in P. exists cmds. split; [exact P|]. rewrite O. unfold parse_spec. rewrite slip_lead, slip_expect. reflexivity.
Qed.

(** ** One picture *)
Lemma image_moves i s s' : standard (rs_ctx s) -> i_flow i = FlowBlock -> process_image i s = Ok s' ->
  exists x i', rs_calls s' = rs_calls s ++ [(x, EImage i')] /\ p_enabled (c_page x) = false /\ get_y x = get_y (rs_ctx s) /\
    rs_ctx s' = at_xy 0 (get_y (rs_ctx s) + i_h i) (rs_ctx s) /\ rs_spans s' = rs_spans s.
Proof.
  intros Pg Fl H. unfold standard in Pg. unfold process_image in H. rewrite Fl, Pg in H. unfold on_ctx at 1 in H. unfold set_x in H. rewrite Pg in H. cbn [bind] in H. cbv zeta in H.
  set (off := calculate_justification (i_w i) (rs_ctx s)) in *. change (i_flow (set_i_y _ (set_i_x _ i))) with (i_flow i) in H. rewrite Fl in H. cbn [rs_ctx call with_ctx] in H.
  change (p_enabled (c_page (upd_gra (set_a_x off) (rs_ctx s)))) with (p_enabled (c_page (rs_ctx s))) in H. rewrite Pg in H.
  set (i' := set_i_y _ _) in H. change (i_h i') with (i_h i) in H. clearbody i'.
  apply on_ctx_inv in H. destruct H as (c2 & H & ->). apply bind_ok in H. destruct H as (c1 & H1 & H). cbn [rs_ctx call with_ctx] in H1.
  exists (upd_gra (set_a_x off) (rs_ctx s)), i'. split; [reflexivity|]. split; [exact Pg|]. cbn [rs_ctx with_ctx call rs_spans]. clear -Pg H H1.
  unfold offset_y in H1. change (p_enabled (c_page (upd_gra (set_a_x off) (rs_ctx s)))) with (p_enabled (c_page (rs_ctx s))) in H1. rewrite Pg in H1.
  apply bind_ok in H1. destruct H1 as (v & Hv & H1). destruct (add_u32v _ _ _ Hv) as (Ev & _).
  assert (E1 : c1 = upd_gra (set_a_y v) (upd_gra (set_a_x off) (rs_ctx s))) by congruence. clear H1 Hv. assert (E2 : c2 = reset_x c1) by congruence. clear H. subst c2 c1 v.
  generalize dependent (rs_ctx s). intros c. destruct c as [d [t b q [[ax ay aw ah] rc pa dpi h v r st bu] p]]. ctx_open. intros ->. auto.
Qed.
Definition shows_image (i : image) (y a m w h : Z) (d : list Z) : Prop :=
  rect i /\ i_w i = 8 * w * dot_width m /\ i_h i = h * dot_height m /\ i_upside_down i = false /\ i_x i = place a (8 * w * dot_width m) /\ i_y i = y /\
  forall X Y, 0 <= X < i_w i -> 0 <= Y < i_h i -> px i X Y = mk_rgba 0 0 0 (if bit_at d w (X / dot_width m) (Y / dot_height m) then 255 else 0).
Lemma place_is a w : 0 <= w <= 609 -> justified (justify_of a) 609 w = place a w.
Proof.
  intros L. unfold justified. replace (609 <? w) with false by lia. unfold place.
  destruct (Z.eqb_spec a 1) as [->|N1]; [reflexivity|]. destruct (Z.eqb_spec a 49) as [->|N2]; [reflexivity|].
  destruct (Z.eqb_spec a 2) as [->|N3]; [reflexivity|]. destruct (Z.eqb_spec a 50) as [->|N4]; [reflexivity|]. cbn [orb].
  assert (J : justify_of a = JLeft). { clear L. unfold justify_of. destruct a as [|a|a]; try reflexivity. do 6 (destruct a as [a|a|]; try reflexivity; try lia). }
  rewrite J. reflexivity.
Qed.
Lemma scale_is m : In m [0; 1; 2; 3; 48; 49; 50] -> raster_scale m = Some (dot_width m, dot_height m) /\ raster_stretch m = (dot_width m, dot_height m) /\ 1 <= dot_width m <= 2 /\ 1 <= dot_height m <= 2.
Proof. cbn [In]. intros [<-|[<-|[<-|[<-|[<-|[<-|[<-|[]]]]]]]]; (split; [reflexivity|]; split; [reflexivity | vm_compute; split; split; congruence]). Qed.
Lemma bit_is d w x y : 0 < w -> raster_dot d (8 * w) x y = bit_at d w x y.
Proof.
  intros W. unfold raster_dot, bit_at. replace (line_bytes (8 * w)) with w; [|unfold line_bytes; replace (8 * w + 7) with (7 + w * 8) by lia; rewrite Z.div_add by lia; reflexivity].
  reflexivity.
Qed.
Lemma rctx_justify n a y : t_justify (c_text (rctx n a y)) = justify_of a. Proof. vm_compute. reflexivity. Qed.
Local Opaque rctx spj.
Lemma picture_step e c s s' n a y m w h d : ready_at e s n a y None -> sent c -> observe c = o_raster m w h d -> element_ok (Picture a m w h d) -> process_command e c s = Ok s' ->
  exists x i, rs_calls s' = rs_calls s ++ [(x, EImage i)] /\ shows_image i y a m w h d /\ p_enabled (c_page x) = false /\ get_y x = y /\ ready_at e s' n a (y + h * dot_height m) None.
Proof.
  intros R Sc O OK H. pose proof (history_step _ _ _ _ (ra_history _ _ _ _ _ _ R) Sc H) as Hh. destruct R as [Hy X Sp _]. cbn [waiting] in Sp. destruct OK as (_ & Hm & W0 & W1 & Hr & Bd & L). destruct (scale_is m Hm) as (Sm & St & Mx & My).
  pose proof (f_equal o_prefix O) as C. pose proof (f_equal o_data O) as D. pose proof (f_equal o_bytes O) as G. cbn in C, D, G. rewrite <- D in G.
  assert (SD : standard (rs_ctx s)) by (rewrite X; apply rctx_std).
  assert (PT : process_text s = Ok s) by (unfold process_text; rewrite Sp; reflexivity).
  assert (Nw : num2 (w mod 256) (w / 256) = w) by (unfold num2; pose proof (Z.div_mod w 256 ltac:(lia)); lia). assert (Nh : num2 (h mod 256) (h / 256) = h) by (unfold num2; pose proof (Z.div_mod h 256 ltac:(lia)); lia).
  destruct (C48_raster e c s s s' m (w mod 256) (w / 256) (h mod 256) (h / 256) (dot_width m) (dot_height m) Sc C G) as (x & i & K & R1 & R2 & R3 & R4 & R5 & R6 & R7 & _);
    [lia | rewrite Nw, Nh, D; exact L | exact Sm | rewrite Nw, Nh; unfold u32_max; nia | exact Hy | exact SD | exact PT | exact H|].
  rewrite Nw in R2, R7. rewrite Nh in R3. rewrite X, rctx_justify in R5. rewrite X, rctx_y in R6.
  destruct (raster_reads e c (rs_ctx s) _ _ _ _ _ Sc C G) as (Kc & _ & Gg & Dv).
  unfold process_command in H. rewrite Kc, PT in H. cbn [bind] in H. apply bind_ok in H. destruct H as (go & Hg & H). rewrite Gg in Hg. apply bind_ok in Hg. destruct Hg as (g & Hg & Eg).
  assert (go = Some g) by congruence. subst go. clear Eg. apply bind_ok in H. destruct H as (s2 & H2 & H). rewrite Dv in H. cbn [bind] in H. assert (s' = s2) by (unfold process_device_commands in H; cbn [fold_res] in H; congruence). subst s2. clear H.
  rewrite Nw, Nh in Hg.
  destruct (PropsGraphics.C15_raster_pixels (8 * w) h (dot_width m) (dot_height m) (color_for_number (g_render_colors (c_graphics (rs_ctx s))) 1) FlowBlock (c_data c)) as (img & Ei & _ & _ & Ih & _ & _ & Fl & _);
    [lia | lia | lia | lia | | unfold u32_max; nia | unfold u32_max; nia | unfold u32_max; nia|].
  { rewrite D. replace (line_bytes (8 * w)) with w; [exact L|]. unfold line_bytes. replace (8 * w + 7) with (7 + w * 8) by lia. rewrite Z.div_add by lia. reflexivity. }
  rewrite St, Ei in Hg. assert (g = GImage img) by congruence. subst g. cbn [process_gfx] in H2.
  destruct (image_moves img s s' SD Fl H2) as (x' & i' & K' & Px & Yx & Cx & Sx). rewrite K in K'. apply app_inv_head in K'.
  assert (Ex : x' = x) by congruence. subst x'. clear K'. rewrite X, rctx_y in Yx. rewrite Ih, X, rctx_y, rctx_moved in Cx.
  exists x, i. split; [exact K|]. split; [|split; [exact Px | split; [exact Yx|]]].
  - split; [exact R1|]. split; [exact R2|]. split; [exact R3|]. split; [exact R4|]. rewrite R2 in R5. rewrite place_is in R5 by nia. split; [exact R5|]. split; [exact R6|].
    intros X0 Y0 HX HY. rewrite (R7 X0 Y0 HX HY), D, bit_is by exact W0. reflexivity.
  - constructor; [exact Hh | exact Cx | rewrite Sx; exact Sp | exact Logic.I].
Qed.

(** ** Things *)
Definition thing : Type := ((list text_span * Z) + image)%type.
Definition things_of (calls : list (context * event)) : list thing :=
  flat_map (fun c => match snd c with EText l off _ _ => [inl (l, off)] | EImage i => [inr i] | _ => [] end) calls.
Inductive goal := GLine (ln : list text_span * Z) | GPic (y a m w h : Z) (d : list Z).
Definition meets (t : thing) (g : goal) : Prop :=
  match t, g with inl ln, GLine ln' => ln = ln' | inr i, GPic y a m w h d => shows_image i y a m w h d | _, _ => False end.
Definition imaged (c : context * event) : Prop := match snd c with EImage i => i_upside_down i = false | _ => False end /\ p_enabled (c_page (fst c)) = false.
Definition drawn_things (b : Z) (l : list (context * event)) : Prop := Forall (fun c => (still c \/ lined c \/ imaged c) /\ get_y (fst c) <= b) l.
Lemma things_more b b' l : drawn_things b l -> b <= b' -> drawn_things b' l.
Proof. intros F L. eapply Forall_impl; [|exact F]. cbv beta. intros c (A & B). split; [exact A | lia]. Qed.
Lemma lines_things b l : drawn_lines b l -> drawn_things b l /\ things_of l = map inl (lines_of l).
Proof.
  induction 1 as [|[x ev] l (S & Y) F (IH1 & IH2)]; [split; [constructor | reflexivity]|]. split; [constructor; [split; [tauto | exact Y] | exact IH1]|].
  unfold things_of, lines_of in *. cbn [flat_map snd]. rewrite IH2, map_app. f_equal. unfold still, lined, is_text_call in S. cbn [snd] in S. destruct ev; try reflexivity; destruct S as [[]|([] & _)].
Qed.
Lemma meets_lines l : Forall2 meets (map inl l) (map GLine l).
Proof. induction l; constructor; [reflexivity | assumption]. Qed.
Lemma meets_only l g : Forall2 meets (map inl l) g -> g = map GLine l.
Proof. revert g. induction l as [|x l IH]; intros g F; inversion F as [|? y ? g' M Fs]; subst; [reflexivity|]. cbn [map]. rewrite <- (IH _ Fs). destruct y; [cbn in M; subst; reflexivity | contradiction]. Qed.
Fixpoint goals (y : Z) (l : list element) : list goal :=
  match l with
  | [] => []
  | e :: r => match e with Part p => map GLine (put_parts y [p]) | Picture a m w h d => [GPic y a m w h d] end ++ goals (y + element_height e) r
  end.

(** ** The whole slip *)
Section Run.
Variable e : encoders.
Definition came (s s' : rstate) (n a y : Z) (t : option (list Z)) (l : list element) : Prop :=
  exists new n' a' y' t', rs_calls s' = rs_calls s ++ new /\ drawn_things (y' + rise n' t') new /\ ready_at e s' n' a' y' t' /\ 0 <= slip_height l /\
    Forall2 meets (things_of new ++ map inl (puts n' a' y' t')) (map GLine (puts n a y t) ++ goals (y + rise n t) l) /\ y' + rise n' t' = y + rise n t + slip_height l.
Lemma element_run q cmds s s' n a y t : ready_at e s n a y t -> element_ok q -> Forall sent cmds -> map observe cmds = element_seen q -> run_commands e cmds s = Ok s' ->
  came s s' n a y t [q].
Proof.
  intros R P Sc O H. destruct q as [p|a' m w h d].
  - destruct (part_run e p cmds s s' n a y t R P Sc O H) as (new & n1 & a1 & y1 & t1 & C & D & R1 & H0 & L & Y). destruct (lines_things _ _ D) as (DT & TL).
    exists new, n1, a1, y1, t1. split; [exact C|]. split; [exact DT|]. split; [exact R1|]. cbn [receipt_height slip_height fold_right element_height goals] in *. split; [exact H0|]. split; [|exact Y].
    rewrite TL, <- map_app, L, app_nil_r, <- map_app. cbn [put_parts]. apply meets_lines.
  - cbn [element_seen] in O. destruct cmds as [|c1 [|c2 [|c3 cmds]]]; try discriminate O.
    pose proof (f_equal (fun l => o_prefix (hd o_lf l)) O) as P1. pose proof (f_equal (fun l => o_data (hd o_lf l)) O) as D1. pose proof (f_equal (fun l => hd o_lf (tl l)) O) as O2. cbn [map hd tl] in P1, D1, O2. cbn in P1, D1. clear O.
    apply Forall_cons_iff in Sc. destruct Sc as (S1 & Sc). apply Forall_cons_iff in Sc. destruct Sc as (S2 & _).
    unfold run_commands in H. cbn [fold_res] in H. apply bind_ok in H. destruct H as (s1 & H1 & H). apply bind_ok in H. destruct H as (s2 & H2 & H). assert (s' = s2) by congruence. subst s2. clear H.
    destruct (align_step e _ _ _ _ _ _ _ _ R S1 P1 D1 H1) as (new & C & D & L & R1). destruct (lines_things _ _ D) as (DT & TL).
    destruct (picture_step e _ _ _ _ _ _ _ _ _ _ R1 S2 O2 P H2) as (x & i & C2 & SI & Px & Yx & R2).
    destruct P as (_ & Hm & W0 & _ & Hr & _). destruct (scale_is m Hm) as (_ & _ & _ & My).
    exists (new ++ [(x, EImage i)]), n, a', (y + rise n t + h * dot_height m), None. split; [rewrite C2, C, <- app_assoc; reflexivity|]. cbn [rise puts slip_height fold_right element_height goals].
    split; [apply Forall_app; split; [apply (things_more _ _ _ DT); nia|]; constructor; [|constructor]|].
    { split; [right; right; split; [cbn [snd]; apply SI | exact Px] | cbn [fst]; nia]. }
    split; [exact R2|]. split; [nia|]. split; [|lia]. unfold things_of in *. rewrite flat_map_app, TL, L. cbn [flat_map snd app map]. rewrite app_nil_r. apply Forall2_app; [apply meets_lines|]. constructor; [exact SI | constructor].
Qed.
Lemma slip_run l : forall cmds s s' n a y t, ready_at e s n a y t -> Forall element_ok l -> Forall sent cmds -> map observe cmds = flat_map element_seen l -> run_commands e cmds s = Ok s' ->
  came s s' n a y t l.
Proof.
  induction l as [|q r IH]; intros cmds s s' n a y t R P Sc O H.
  - destruct cmds; [|discriminate O]. unfold run_commands in H. cbn [fold_res] in H. assert (s' = s) by congruence. subst. exists [], n, a, y, t. rewrite app_nil_r. split; [reflexivity|]. split; [constructor|]. split; [exact R|]. split; [cbn; lia|].
    cbn [things_of flat_map app goals slip_height fold_right]. rewrite app_nil_r. split; [apply meets_lines | lia].
  - cbn [flat_map] in O. apply map_app_inv in O. destruct O as (c1 & c2 & -> & O1 & O2). apply Forall_app in Sc. destruct Sc as (S1 & S2). apply Forall_cons_iff in P. destruct P as (P & Ps).
    unfold run_commands in H. rewrite fold_res_app in H. apply bind_ok in H. destruct H as (s1 & H1 & H2).
    destruct (element_run _ _ _ _ _ _ _ _ R P S1 O1 H1) as (new & n' & a' & y' & t' & C & D & R' & H0 & L & Y).
    destruct (IH _ _ _ _ _ _ _ R' Ps S2 O2 H2) as (new2 & n2 & a2 & y2 & t2 & C' & D' & R2 & H02 & L2 & Y2).
    cbn [slip_height fold_right] in *. fold (slip_height r) in *. rewrite Z.add_0_r in Y, H0.
    exists (new ++ new2), n2, a2, y2, t2. split; [rewrite C', C, app_assoc; reflexivity|]. split; [apply Forall_app; split; [apply (things_more _ _ _ D); lia | exact D']|]. split; [exact R2|].
    change (slip_height (q :: r)) with (element_height q + slip_height r). split; [lia|]. split; [|lia]. cbn [goals] in L |- *. rewrite app_nil_r in L. apply Forall2_app_inv_l in L. destruct L as (g1 & g2 & L1 & Lw & EG). apply meets_only in Lw. subst g2.
    rewrite app_assoc, EG, <- app_assoc. unfold things_of in *. rewrite flat_map_app, <- app_assoc. apply Forall2_app; [exact L1|]. rewrite Y in L2. exact L2.
Qed.
End Run.
Lemma slip_calls e l s : bytes_ok (slip_bytes l) = true -> Forall element_ok l -> render e (slip_bytes l) renderer_new = Ok s ->
  exists x0 x1 x new, rs_calls s = [(x0, EDevice BeginPrint); (x1, EBeginRender)] ++ new ++ [(x, EDevice EndPrint); (x, EGetErrors); (x, EEndRender)] /\
    drawn_things (108 + slip_height l) new /\ get_y x0 <= 108 /\ get_y x1 <= 108 /\ get_y x = 108 + slip_height l /\ 0 <= slip_height l /\ Forall2 meets (things_of new) (goals 108 l) /\ a_y (g_render_area (c_graphics x)) = 108 + slip_height l.
Proof.
  intros B P R. destruct (slip_parse l P) as (cmds & Pc & O). unfold render in R. rewrite Pc in R. cbn [bind] in R. pose proof (PropsSafe.parsed_sent _ _ B Pc) as Sc.
  apply map_app_inv in O. destruct O as (h & rest & -> & Oh & O). apply map_app_inv in O. destruct O as (body & t & -> & Ob & Ot).
  destruct h as [|cb [|]]; try discriminate Oh. destruct t as [|ce [|]]; try discriminate Ot.
  pose proof (f_equal (hd o_lf) Oh) as Eb. pose proof (f_equal (hd o_lf) Ot) as Ee. cbn [hd map] in Eb, Ee. clear Oh Ot.
  apply Forall_app in Sc. destruct Sc as (S1 & Sc). apply Forall_cons_iff in S1. destruct S1 as (S1 & _). apply Forall_app in Sc. destruct Sc as (S2 & S3). apply Forall_cons_iff in S3. destruct S3 as (S3 & _).
  destruct (begin_step e cb S1 Eb) as (s0 & H0 & X0 & Sp0 & x0 & x1 & C0). destruct (begin_high e cb s0 _ _ _ _ S1 Eb H0 C0) as (V0 & V1).
  unfold run_commands in R. cbn [app fold_res] in R. rewrite H0 in R. cbn [bind] in R. rewrite fold_res_app in R. apply bind_ok in R. destruct R as (s1 & R1 & R). cbn [fold_res] in R. apply bind_ok in R. destruct R as (s2 & R2 & R). assert (s = s2) by congruence. subst s2. clear R.
  assert (Rd : ready_at e s0 0 0 108 None).
  { constructor; [exact (history_step _ _ _ _ (history_new e) S1 H0) | rewrite X0; apply rctx_start | exact Sp0 | exact Logic.I]. }
  destruct (slip_run e l _ _ _ _ _ _ _ Rd P S2 Ob R1) as (new & n & a & y & t & C1 & D1 & Rd1 & HH & L1 & Y1). cbn [rise puts map app] in L1, Y1. replace (108 + 0) with 108 in * by lia.
  destruct (end_step _ _ _ _ S3 Ee R2) as (s2 & PT & EC). destruct (flush_line _ _ _ _ _ _ _ Rd1 PT) as (new2 & C2 & D2 & L2 & X2 & _). destruct (lines_things _ _ D2) as (DT2 & TL2).
  exists x0, x1, (rs_ctx s2), (new ++ new2). split; [rewrite EC, C2, C1, C0, <- !app_assoc; reflexivity|]. split; [rewrite <- Y1; apply Forall_app; split; assumption|].
  split; [exact V0|]. split; [exact V1|]. split; [rewrite X2, rctx_y; exact Y1|]. split; [exact HH|]. split; [unfold things_of in *; rewrite flat_map_app, TL2, L2; exact L1|]. rewrite X2. pose proof (rctx_y n a (y + rise n t)) as G. unfold get_y in G. pose proof (rctx_std n a (y + rise n t)) as SD. unfold standard in SD. rewrite SD in G. rewrite G. exact Y1.
Qed.
