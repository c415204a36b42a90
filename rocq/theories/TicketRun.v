(** * TicketRun: a receipt with pictures and barcodes, from the bytes to the calls. *)
From Verif Require Import Base Command CommandSet Parser Vec Float32 GTypes Graphics Utf8 Decoder Context Text Upce Handlers Renderer
  SpecStream StreamProofs ContextTheory RendererTheory Origin Told SpecPrinter StateTheory PropsText SpecRender SpecGraphics SpecSymbol PropsPicture
  PropsOutput LayoutTheory AreaTheory PlaceTheory PropsContext PropsLayout PropsPlace SafeTheory PenTheory CallsTheory SpecLines PropsLines
  ManualTheory PropsQr PropsDecoder ThermalImage SpecCanvas ImageRenderer SpecImage SpecScene SpecPlain PlainTheory PlainRun PlainJob SpecReceipt ReceiptRun SpecSlip SlipRun
  SpecBarcode PropsBarcode SpecTicket.
From Verif Require PropsSafe.
Local Open Scope Z_scope.
Local Open Scope list_scope.
Local Arguments at_ : simpl never.
Local Arguments vlen : simpl never.

(** ** Parsing *)
Definition entry_items (q : entry) : list item :=
  match q with Element q => element_items q | Bars a m d _ => [align_item a; IBarcodeLen m d] end.
Definition o_bars (m : Z) (d : list Z) : ocmd := OC "Barcode" KGraphics [29; 107] d ([29; 107; m; zlen d], d).
Definition entry_seen (q : entry) : list ocmd :=
  match q with Element q => element_seen q | Bars a m d _ => [o_fixed "Set Text Justification" KControl [27; 97] a; o_bars m d] end.
Definition ticket_items (l : list entry) : list item := flat_map entry_items l.
Lemma element_wire q : flat_map wire (element_items q) = element_bytes q.
Proof. pose proof (slip_wire [q]) as H. unfold encode, slip_items, slip_bytes in H. cbn [flat_map] in H. rewrite !app_nil_r in H. exact H. Qed.
Lemma ticket_wire l : encode (ticket_items l) = ticket_bytes l.
Proof.
  unfold encode, ticket_items, ticket_bytes. induction l as [|q r IH]; [reflexivity|]. cbn [flat_map]. rewrite flat_map_app, IH. f_equal.
  destruct q as [q|a m d ms]; [apply element_wire|]. cbn [entry_items entry_bytes flat_map]. cbn [wire align_item fixed_item app]. rewrite app_nil_r. reflexivity.
Qed.
Lemma takes_short k n : takes k n -> n <= 255.
Proof. destruct k; cbn [takes In]; lia. Qed.
Lemma ticket_ok e l : Forall (entry_ok e) l -> Forall item_ok (ticket_items l).
Proof.
  unfold ticket_items. induction 1 as [|q r P F IH]; [constructor|]. cbn [flat_map]. apply Forall_app. split; [|exact IH].
  destruct q as [q|a m d ms]; cbn [entry_items entry_ok] in *.
  - pose proof (slip_ok [q] (Forall_cons q P (Forall_nil _))) as H. unfold slip_items in H. cbn [flat_map] in H. rewrite app_nil_r in H. exact H.
  - destruct P as (_ & Hm & _ & _ & (t & k & u & _ & T & _) & _). pose proof (takes_short _ _ T) as S. constructor; [cbn; unfold in_fixed; vm_compute; tauto|]. constructor; [|constructor]. cbn [item_ok]. unfold zlen, vlen in *. lia.
Qed.
Lemma ticket_sep l : separated (ticket_items l) = true.
Proof.
  unfold ticket_items. induction l as [|q r IH]; [reflexivity|]. cbn [flat_map]. destruct q as [q|a m d ms]; cbn [entry_items].
  - destruct q as [p|a m w h d]; cbn [element_items]; [exact (part_closed p _ IH)|]. apply separated_fixeds; [repeat constructor | exact IH].
  - apply separated_fixeds; [repeat constructor | exact IH].
Qed.
Lemma ticket_expect l : expect_all (ticket_items l) = flat_map entry_seen l.
Proof.
  assert (G : forall a r, Forall (fun i => expect_eof i = expect i) a -> expect_all (a ++ r) = flat_map expect a ++ expect_all r).
  { induction 1 as [|i a E F IH]; [reflexivity|]. cbn [app flat_map]. rewrite <- app_assoc, <- IH. destruct (a ++ r) as [|x y]; [cbn [expect_all]; rewrite app_nil_r; exact E | reflexivity]. }
  assert (Q : forall p, flat_map expect (element_items p) = element_seen p /\ Forall (fun i => expect_eof i = expect i) (element_items p)).
  { intros p. assert (A : Forall (fun i => expect_eof i = expect i) (element_items p)) by (destruct p as [[n a [|c t]| | | |]|]; repeat constructor). split; [|exact A].
    pose proof (slip_expect [p]) as H. unfold slip_items in H. cbn [flat_map] in H. rewrite (G _ [] A), !app_nil_r in H. exact H. }
  unfold ticket_items. induction l as [|q r IH]; [reflexivity|]. cbn [flat_map]. destruct q as [q|a m d ms].
  - cbn [entry_items entry_seen]. rewrite G, IH by apply Q. f_equal. apply Q.
  - rewrite G, IH by repeat constructor. reflexivity.
Qed.
Lemma ticket_lead l : lead (ticket_items l) = [].
Proof. destruct l as [|[[[]|]|] ?]; reflexivity. Qed.
Lemma ticket_parse e l : Forall (entry_ok e) l -> exists cmds, parse_esc_pos (ticket_bytes l) = Ok cmds /\ map observe cmds = [o_begin] ++ flat_map entry_seen l ++ [o_end].
Proof.
  intros F. destruct (parse_stream (ticket_items l)) as (cmds & P & O); [split; [exact (ticket_ok e l F) | exact (ticket_sep l)]|].
  rewrite ticket_wire in P. exists cmds. split; [exact P|]. rewrite O. unfold parse_spec. rewrite ticket_lead, ticket_expect. reflexivity.
Qed.

(** ** One barcode *)
Lemma bars_within W h : forall ms x y w, 0 <= w -> x + w * vlen ms <= W -> filter (within W) (bars x y w h ms) = bars x y w h ms.
Proof.
  unfold vlen. induction ms as [|m ms IH]; intros x y w Hw H; [reflexivity|]. cbn [bars]. rewrite filter_app. cbn [length] in H. rewrite IH by nia. f_equal.
  destruct (0 <? m); [|reflexivity]. cbn [filter]. unfold within at 1. cbn [r_x r_w]. replace (x + w <=? W) with true by nia. reflexivity.
Qed.
Lemma barcode_moves b s s' : standard (rs_ctx s) -> sinv (rs_ctx s) -> uinv (rs_ctx s) -> bc_human_readable (c_barcode (rs_ctx s)) = HriNone ->
  0 < b_point_width b -> 0 <= b_point_height b -> process_barcode b s = Ok s' ->
  let o := justified (t_justify (c_text (rs_ctx s))) 609 (vlen (b_points b) * b_point_width b) in let y := get_y (rs_ctx s) in
  exists x', rs_calls s' = rs_calls s ++ [(at_xy x' y (rs_ctx s), EGraphics (filter (within 609) (bars o y (b_point_width b) (b_point_height b) (b_points b))))] /\
    rs_ctx s' = at_xy 0 (y + b_point_height b) (rs_ctx s) /\ rs_spans s' = rs_spans s.
Proof.
  intros Sd1 S1 U1 Hh Pw Ph H. cbv zeta. unfold process_barcode in H. rewrite Hh in H. cbn [bind] in H.
  apply bind_ok in H. destruct H as (t & Ht & H). apply bind_ok in H. destruct H as (s2 & H2 & H).
  apply on_ctx_inv in H2. destruct H2 as (c2 & Hc2 & ->). change (rs_ctx (with_ctx c2 s)) with c2 in H.
  apply bind_ok in H. destruct H as ((c & rects) & Hf & H). cbv zeta in H.
  apply bind_ok in H. destruct H as (s4 & H4 & H). apply on_ctx_inv in H4. destruct H4 as (c4 & Hc4 & ->). cbn [call with_ctx rs_ctx] in Hc4.
  apply mul_u32v in Ht. destruct Ht as (-> & Vt). unfold u32v in Vt.
  assert (W609 : a_w (g_render_area (c_graphics (rs_ctx s))) = 609).
  { pose proof (std_width _ Sd1 S1) as Wd. unfold get_width in Wd. rewrite Sd1 in Wd. exact Wd. }
  rewrite (justified_eq _ _ Sd1 W609 (proj1 Vt)) in Hc2.
  set (o := justified _ 609 _) in *. set (y := get_y (rs_ctx s)) in *.
  rewrite (at_self _ Sd1), (at_set_x _ _ _ _ Sd1) in Hc2. injection Hc2 as <-. fold y in Hf, H.
  assert (O0 : 0 <= o).
  { unfold o, justified. match goal with |- context [609 <? ?z] => destruct (Z.ltb_spec 609 z); [lia|] end. destruct (t_justify _); try lia. }
  destruct (bars_drawn b _ y Sd1 S1 Pw _ _ _ _ _ O0 Hf) as (-> & x' & ->). cbn [app] in *.
  rewrite (at_reset _ _ _ Sd1) in Hc4. apply (went_y _ _ _ _ _ Sd1) in Hc4. subst c4.
  set (s3 := with_ctx (at_xy 0 (y + b_point_height b) (rs_ctx s)) (call (EGraphics (filter (within 609) (bars o y (b_point_width b) (b_point_height b) (b_points b)))) (with_ctx (at_xy x' y (rs_ctx s)) (with_ctx (at_xy o y (rs_ctx s)) s)))) in *.
  assert (C3 : rs_ctx s3 = at_xy 0 (y + b_point_height b) (rs_ctx s)) by reflexivity.
  assert (M3 : moved (rs_ctx s) (rs_ctx s3)) by (rewrite C3; apply at_moved).
  rewrite (moved_barcode _ _ M3), Hh in H. assert (s' = s3) by congruence. subst s'. clear H. exists x'. split; [reflexivity|]. split; [exact C3 | reflexivity].
Qed.
Lemma rctx_barcode n a y : c_barcode (rctx n a y) = c_barcode (rctx 0 0 0). Proof. vm_compute. reflexivity. Qed.
Lemma barcode0 : bc_width (c_barcode (rctx 0 0 0)) = 3 /\ bc_height (c_barcode (rctx 0 0 0)) = 40 /\ bc_human_readable (c_barcode (rctx 0 0 0)) = HriNone. Proof. vm_compute. auto. Qed.
Lemma rctx_color x y' n a y : t_color (c_text (at_xy x y' (rctx n a y))) = mk_rgba 0 0 0 255 /\ p_enabled (c_page (at_xy x y' (rctx n a y))) = false /\ get_y (at_xy x y' (rctx n a y)) = y'. Proof. vm_compute. auto. Qed.
Lemma rctx_justify n a y : t_justify (c_text (rctx n a y)) = justify_of a. Proof. vm_compute. reflexivity. Qed.
Local Opaque rctx spj.
Lemma bars_step e c s s' n a y m d ms : ready_at e s n a y None -> sent c -> observe c = o_bars m d -> entry_ok e (Bars a m d ms) -> process_command e c s = Ok s' ->
  exists x, rs_calls s' = rs_calls s ++ [(x, EGraphics (bars (place a (symbol_width ms)) y 3 40 ms))] /\ t_color (c_text x) = mk_rgba 0 0 0 255 /\ p_enabled (c_page x) = false /\ get_y x = y /\
    ready_at e s' n a (y + 40) None.
Proof.
  intros R Sc O OK H. pose proof (history_step _ _ _ _ (ra_history _ _ _ _ _ _ R) Sc H) as Hh. destruct R as [Hy X Sp _]. cbn [waiting] in Sp. destruct OK as (_ & Hm & Bd & Wd & (text & Bc) & _).
  pose proof (f_equal o_prefix O) as C. pose proof (f_equal o_data O) as D. pose proof (f_equal o_bytes O) as G. cbn in C, D, G.
  assert (SD : standard (rs_ctx s)) by (rewrite X; apply rctx_std).
  assert (PT : process_text s = Ok s) by (unfold process_text; rewrite Sp; reflexivity).
  destruct (history_lay_ok _ _ Hy) as (_ & S & U).
  destruct (barcode_reads e c (rs_ctx s) m [zlen d] d Sc C G) as (K & B & Dv & k & Gg).
  unfold process_command in H. rewrite K, PT in H. cbn [bind] in H. rewrite Gg in H.
  apply bind_ok in H. destruct H as (g & Hg & H). apply bind_ok in Hg. destruct Hg as (g1 & Hg & E). assert (g = Some g1) by congruence. subst g. clear E. rewrite D in Hg.
  apply (barcode_gives _ _ _ _ _ _ _ _ B Bc) in Hg. subst g1. cbn [finish_barcode process_gfx] in H.
  apply bind_ok in H. destruct H as (s2 & H2 & H). rewrite Dv in H. cbn [bind] in H. assert (s' = s2) by (unfold process_device_commands in H; cbn [fold_res] in H; congruence). subst s2. clear H.
  destruct barcode0 as (B1 & B2 & B3). pose proof (rctx_barcode n a y) as RB. rewrite <- X in RB. rewrite RB, B1, B2, B3 in H2.
  apply barcode_moves in H2; [|exact SD | exact S | exact U | rewrite RB; exact B3 | cbn; lia | cbn; lia]. cbn [b_points b_point_width b_point_height] in H2. cbv zeta in H2.
  destruct H2 as (x' & Kc & Cx & Sx). rewrite X in Kc, Cx. rewrite rctx_y, rctx_justify in Kc. rewrite rctx_y, rctx_moved in Cx.
  replace (vlen ms * 3) with (symbol_width ms) in Kc by (unfold symbol_width, vlen; lia). assert (0 <= symbol_width ms) by (unfold symbol_width; lia). rewrite place_is in Kc by lia.
  assert (Pl : 0 <= place a (symbol_width ms) /\ place a (symbol_width ms) + symbol_width ms <= 609).
  { unfold place. pose proof (Z.div_mod (609 - symbol_width ms) 2 ltac:(lia)). pose proof (Z.mod_pos_bound (609 - symbol_width ms) 2 ltac:(lia)). destruct (_ || _); [lia|]. destruct (_ || _); lia. }
  rewrite bars_within in Kc by (unfold symbol_width, vlen in *; lia). destruct (rctx_color x' y n a y) as (E1 & E2 & E3).
  exists (at_xy x' y (rctx n a y)). split; [exact Kc|]. split; [exact E1|]. split; [exact E2|]. split; [exact E3|].
  constructor; [exact Hh | exact Cx | rewrite Sx; exact Sp | exact Logic.I].
Qed.

(** ** Things and bars *)
Definition tick : Type := (thing + list rectangle)%type.
Definition ticks_of (calls : list (context * event)) : list tick :=
  flat_map (fun c => match snd c with EText l off _ _ => [inl (inl (l, off))] | EImage i => [inl (inr i)] | EGraphics r => [inr r] | _ => [] end) calls.
Inductive aim := AThing (g : goal) | ABars (y a : Z) (ms : list Z).
Definition fits_aim (t : tick) (g : aim) : Prop :=
  match t, g with inl t, AThing g => meets t g | inr r, ABars y a ms => r = bars (place a (symbol_width ms)) y 3 40 ms | _, _ => False end.
Definition ruled_call (c : context * event) : Prop :=
  match snd c with EGraphics _ => True | _ => False end /\ t_color (c_text (fst c)) = mk_rgba 0 0 0 255 /\ p_enabled (c_page (fst c)) = false.
Definition drawn_ticks (b : Z) (l : list (context * event)) : Prop := Forall (fun c => (still c \/ lined c \/ imaged c \/ ruled_call c) /\ get_y (fst c) <= b) l.
Lemma ticks_more b b' l : drawn_ticks b l -> b <= b' -> drawn_ticks b' l.
Proof. intros F L. eapply Forall_impl; [|exact F]. cbv beta. intros c (A & B). split; [exact A | lia]. Qed.
Lemma things_ticks b l : drawn_things b l -> drawn_ticks b l /\ ticks_of l = map inl (things_of l).
Proof.
  induction 1 as [|[x ev] l (S & Y) F (IH1 & IH2)]; [split; [constructor | reflexivity]|]. split; [constructor; [split; [tauto | exact Y] | exact IH1]|].
  unfold ticks_of, things_of in *. cbn [flat_map snd]. rewrite IH2, map_app. f_equal. unfold still, lined, imaged, is_text_call in S. cbn [snd] in S. destruct ev; try reflexivity; destruct S as [[]|[([] & _)|([] & _)]].
Qed.
Lemma fits_things T g : Forall2 meets T g -> Forall2 fits_aim (map inl T) (map AThing g).
Proof. induction 1; constructor; assumption. Qed.
Lemma fits_only T g : Forall2 fits_aim T (map AThing g) -> exists T', T = map inl T' /\ Forall2 meets T' g.
Proof.
  revert T. induction g as [|x g IH]; intros T F; inversion F as [|t ? T0 ? M Fs]; subst; [exists []; split; [reflexivity | constructor]|].
  destruct (IH _ Fs) as (T' & -> & M'). destruct t as [t|r]; [|contradiction]. exists (t :: T'). split; [reflexivity | constructor; assumption].
Qed.
Fixpoint aims (y : Z) (l : list entry) : list aim :=
  match l with
  | [] => []
  | q :: r => match q with Element q => map AThing (goals y [q]) | Bars a m d ms => [ABars y a ms] end ++ aims (y + entry_height q) r
  end.
Lemma ticks_app a b : ticks_of (a ++ b) = ticks_of a ++ ticks_of b.
Proof. apply flat_map_app. Qed.
(** the line that still waits, as ticks *)
Definition held (n a y : Z) (t : option (list Z)) : list tick := map inl (map inl (puts n a y t)).

Section Run.
Variable e : encoders.
Definition arrived (s s' : rstate) (n a y : Z) (t : option (list Z)) (l : list entry) : Prop :=
  exists new n' a' y' t', rs_calls s' = rs_calls s ++ new /\ drawn_ticks (y' + rise n' t') new /\ ready_at e s' n' a' y' t' /\ 0 <= ticket_height l /\
    Forall2 fits_aim (ticks_of new ++ held n' a' y' t') (map AThing (map GLine (puts n a y t)) ++ aims (y + rise n t) l) /\ y' + rise n' t' = y + rise n t + ticket_height l.
Lemma entry_run q cmds s s' n a y t : ready_at e s n a y t -> entry_ok e q -> Forall sent cmds -> map observe cmds = entry_seen q -> run_commands e cmds s = Ok s' ->
  arrived s s' n a y t [q].
Proof.
  intros R P Sc O H. destruct q as [p|a' m d ms].
  - destruct (element_run e p cmds s s' n a y t R P Sc O H) as (new & n1 & a1 & y1 & t1 & C & D & R1 & H0 & L & Y). destruct (things_ticks _ _ D) as (DT & TL).
    exists new, n1, a1, y1, t1. split; [exact C|]. split; [exact DT|]. split; [exact R1|].
    assert (EH : ticket_height [Element p] = slip_height [p]) by reflexivity. rewrite EH. split; [exact H0|]. split; [|exact Y].
    unfold held. rewrite TL, <- map_app. cbn [aims]. rewrite app_nil_r, <- map_app. apply fits_things. exact L.
  - cbn [entry_seen] in O. destruct cmds as [|c1 [|c2 [|c3 cmds]]]; try discriminate O.
    pose proof (f_equal (fun l => o_prefix (hd o_lf l)) O) as P1. pose proof (f_equal (fun l => o_data (hd o_lf l)) O) as D1. pose proof (f_equal (fun l => hd o_lf (tl l)) O) as O2. cbn [map hd tl] in P1, D1, O2. cbn in P1, D1. clear O.
    apply Forall_cons_iff in Sc. destruct Sc as (S1 & Sc). apply Forall_cons_iff in Sc. destruct Sc as (S2 & _).
    unfold run_commands in H. cbn [fold_res] in H. apply bind_ok in H. destruct H as (s1 & H1 & H). apply bind_ok in H. destruct H as (s2 & H2 & H). assert (s' = s2) by congruence. subst s2. clear H.
    destruct (align_step e _ _ _ _ _ _ _ _ R S1 P1 D1 H1) as (new & C & D & L & R1). destruct (lines_things _ _ D) as (DT & TL). destruct (things_ticks _ _ DT) as (DK & TK).
    destruct (bars_step e _ _ _ _ _ _ _ _ _ R1 S2 O2 P H2) as (x & C2 & Col & Px & Yx & R2).
    exists (new ++ [(x, EGraphics (bars (place a' (symbol_width ms)) (y + rise n t) 3 40 ms))]), n, a', (y + rise n t + 40), None. split; [rewrite C2, C, <- app_assoc; reflexivity|].
    split; [apply Forall_app; split; [apply (ticks_more _ _ _ DK); cbn [rise]; lia|]; constructor; [|constructor]|].
    { split; [right; right; right; split; [exact Logic.I | split; [exact Col | exact Px]] | cbn [fst rise]; lia]. }
    split; [exact R2|]. assert (EH : ticket_height [Bars a' m d ms] = 40) by reflexivity. rewrite EH. split; [lia|]. split; [|cbn [rise]; lia].
    unfold held. cbn [puts map]. rewrite app_nil_r, ticks_app, TK, TL, L. apply Forall2_app; [apply fits_things, meets_lines|]. constructor; [reflexivity | constructor].
Qed.
Lemma ticket_run l : forall cmds s s' n a y t, ready_at e s n a y t -> Forall (entry_ok e) l -> Forall sent cmds -> map observe cmds = flat_map entry_seen l -> run_commands e cmds s = Ok s' ->
  arrived s s' n a y t l.
Proof.
  induction l as [|q r IH]; intros cmds s s' n a y t R P Sc O H.
  - destruct cmds; [|discriminate O]. unfold run_commands in H. cbn [fold_res] in H. assert (s' = s) by congruence. subst. exists [], n, a, y, t. rewrite app_nil_r. split; [reflexivity|]. split; [constructor|]. split; [exact R|].
    assert (EH : ticket_height [] = 0) by reflexivity. rewrite EH. split; [lia|]. cbn [ticks_of flat_map app aims]. rewrite app_nil_r. split; [apply fits_things, meets_lines | lia].
  - cbn [flat_map] in O. apply map_app_inv in O. destruct O as (c1 & c2 & -> & O1 & O2). apply Forall_app in Sc. destruct Sc as (S1 & S2). apply Forall_cons_iff in P. destruct P as (P & Ps).
    unfold run_commands in H. rewrite fold_res_app in H. apply bind_ok in H. destruct H as (s1 & H1 & H2).
    destruct (entry_run _ _ _ _ _ _ _ _ R P S1 O1 H1) as (new & n' & a' & y' & t' & C & D & R' & H0 & L & Y).
    destruct (IH _ _ _ _ _ _ _ R' Ps S2 O2 H2) as (new2 & n2 & a2 & y2 & t2 & C' & D' & R2 & H02 & L2 & Y2).
    assert (E1 : ticket_height [q] = entry_height q) by apply Z.add_0_r. assert (E2 : ticket_height (q :: r) = entry_height q + ticket_height r) by reflexivity. rewrite E1 in Y, H0.
    exists (new ++ new2), n2, a2, y2, t2. split; [rewrite C', C, app_assoc; reflexivity|]. split; [apply Forall_app; split; [apply (ticks_more _ _ _ D); lia | exact D']|]. split; [exact R2|].
    rewrite E2. split; [lia|]. split; [|lia]. cbn [aims] in L |- *. rewrite app_nil_r in L. apply Forall2_app_inv_l in L. destruct L as (g1 & g2 & L1 & Lw & EG).
    assert (G2 : g2 = map AThing (map GLine (puts n' a' y' t'))).
    { clear -Lw. unfold held in Lw. revert g2 Lw. induction (puts n' a' y' t') as [|x l IH]; intros g2 F; inversion F as [|? z ? g' M Fs]; subst; [reflexivity|]. cbn [map]. rewrite <- (IH _ Fs). destruct z as [z|]; [|contradiction]. destruct z; [cbn in M; subst; reflexivity | contradiction]. }
    subst g2. rewrite app_assoc, EG, <- app_assoc. rewrite ticks_app, <- app_assoc. apply Forall2_app; [exact L1|]. rewrite Y in L2. exact L2.
Qed.
End Run.
Lemma ticket_calls e l s : bytes_ok (ticket_bytes l) = true -> Forall (entry_ok e) l -> render e (ticket_bytes l) renderer_new = Ok s ->
  exists x0 x1 x new, rs_calls s = [(x0, EDevice BeginPrint); (x1, EBeginRender)] ++ new ++ [(x, EDevice EndPrint); (x, EGetErrors); (x, EEndRender)] /\
    drawn_ticks (108 + ticket_height l) new /\ get_y x0 <= 108 /\ get_y x1 <= 108 /\ get_y x = 108 + ticket_height l /\ 0 <= ticket_height l /\ Forall2 fits_aim (ticks_of new) (aims 108 l) /\
    a_y (g_render_area (c_graphics x)) = 108 + ticket_height l.
Proof.
  intros B P R. destruct (ticket_parse e l P) as (cmds & Pc & O). unfold render in R. rewrite Pc in R. cbn [bind] in R. pose proof (PropsSafe.parsed_sent _ _ B Pc) as Sc.
  apply map_app_inv in O. destruct O as (h & rest & -> & Oh & O). apply map_app_inv in O. destruct O as (body & t & -> & Ob & Ot).
  destruct h as [|cb [|]]; try discriminate Oh. destruct t as [|ce [|]]; try discriminate Ot.
  pose proof (f_equal (hd o_lf) Oh) as Eb. pose proof (f_equal (hd o_lf) Ot) as Ee. cbn [hd map] in Eb, Ee. clear Oh Ot.
  apply Forall_app in Sc. destruct Sc as (S1 & Sc). apply Forall_cons_iff in S1. destruct S1 as (S1 & _). apply Forall_app in Sc. destruct Sc as (S2 & S3). apply Forall_cons_iff in S3. destruct S3 as (S3 & _).
  destruct (begin_step e cb S1 Eb) as (s0 & H0 & X0 & Sp0 & x0 & x1 & C0). destruct (begin_high e cb s0 _ _ _ _ S1 Eb H0 C0) as (V0 & V1).
  unfold run_commands in R. cbn [app fold_res] in R. rewrite H0 in R. cbn [bind] in R. rewrite fold_res_app in R. apply bind_ok in R. destruct R as (s1 & R1 & R). cbn [fold_res] in R. apply bind_ok in R. destruct R as (s2 & R2 & R). assert (s = s2) by congruence. subst s2. clear R.
  assert (Rd : ready_at e s0 0 0 108 None).
  { constructor; [exact (history_step _ _ _ _ (history_new e) S1 H0) | rewrite X0; apply rctx_start | exact Sp0 | exact Logic.I]. }
  destruct (ticket_run e l _ _ _ _ _ _ _ Rd P S2 Ob R1) as (new & n & a & y & t & C1 & D1 & Rd1 & HH & L1 & Y1). cbn [rise puts map app] in L1, Y1. replace (108 + 0) with 108 in * by lia.
  destruct (end_step _ _ _ _ S3 Ee R2) as (s2 & PT & EC). destruct (flush_line _ _ _ _ _ _ _ Rd1 PT) as (new2 & C2 & D2 & L2 & X2 & _). destruct (lines_things _ _ D2) as (DT2 & TL2). destruct (things_ticks _ _ DT2) as (DK2 & TK2).
  exists x0, x1, (rs_ctx s2), (new ++ new2). split; [rewrite EC, C2, C1, C0, <- !app_assoc; reflexivity|]. split; [rewrite <- Y1; apply Forall_app; split; assumption|].
  split; [exact V0|]. split; [exact V1|]. split; [rewrite X2, rctx_y; exact Y1|]. split; [exact HH|]. split; [rewrite ticks_app, TK2, TL2, L2; exact L1|]. rewrite X2. pose proof (rctx_y n a (y + rise n t)) as G. unfold get_y in G. pose proof (rctx_std n a (y + rise n t)) as SD. unfold standard in SD. rewrite SD in G. rewrite G. exact Y1.
Qed.
