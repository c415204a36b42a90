(** * PropsBuffer: C53, the picture buffer (GS ( L, GS 8 L). *)
From Verif Require Import Base Command CommandSet Parser Vec GTypes Graphics SpecGraphics GraphicsTheory GraphicsTheory2 PropsGraphics Decoder Context Text
  Handlers Renderer ContextTheory RendererTheory Origin Told SpecPrinter StateTheory PropsContext SpecRender PropsOutput LayoutTheory
  AreaTheory PropsLayout SafeTheory PropsThermal SpecSymbol PropsPicture PlaceTheory PenTheory SpecMemory MemoryTheory SpecQr PropsQr SpecStored PropsStored SpecBuffer.
Local Open Scope Z_scope.
Local Open Scope list_scope.
Local Arguments at_ : simpl never.
Local Arguments vlen : simpl never.

(** ** The invariant *)
Definition layer_decoded (q : Z * list Z) : res gfx :=
  let d := snd q in
  if vlen d <? 4 then Ok (GError "Not enough parameters for buffer graphics")
  else if fst q =? 113
  then image_from_column_single (parse_u16 d 4) (parse_u16 d 6) (nth 1 d 0, nth 2 d 0) (color_for_number default_colors (nth 3 d 0)) FlowBlock (skipn 8 d)
  else image_from_raster_single (parse_u16 d 4) (parse_u16 d 6) (nth 1 d 0, nth 2 d 0) (color_for_number default_colors (nth 3 d 0)) FlowBlock (skipn 8 d) true.
Definition buffer_holds (b : list (Z * list Z)) (x : context) : Prop :=
  Forall2 (fun q g => bytes_ok (snd q) = true /\ layer_decoded q = Ok g) b (g_buffer_graphics (c_graphics x)).

Lemma store_got col fn data x x' : store_buffer col data x = Ok x' -> fn = (if col : bool then 113 else 112) -> g_render_colors (c_graphics x) = default_colors ->
  exists g, layer_decoded (fn, data) = Ok g /\ g_buffer_graphics (c_graphics x') = g_buffer_graphics (c_graphics x) ++ [g].
Proof.
  intros H -> Col. unfold store_buffer in H. unfold layer_decoded. cbv zeta in *. cbn [fst snd] in *. destruct (vlen data <? 4) eqn:L4; [injection H as <-; eexists; split; reflexivity|].
  apply bind_ok in H. destruct H as (bx & H1 & H). apply bind_ok in H. destruct H as (by_ & H2 & H). apply bind_ok in H. destruct H as (c & H3 & H).
  apply bind_ok in H. destruct H as (body & Hb & H). apply bind_ok in H. destruct H as (g & Hg & H). injection H as <-. rewrite Col in Hg.
  unfold vslice_from, vslice in Hb. destruct (_ || _ || _) eqn:El in Hb; [discriminate|].
  assert (8 <= vlen data) as L by lia. unfold vlen in L.
  assert (Eb : body = skipn 8 data).
  { assert (X : forall a b : list Z, Ok a = Ok b -> b = a) by congruence. rewrite (X _ _ Hb). change (Z.to_nat 8) with 8%nat. apply firstn_all2. rewrite skipn_length. unfold vlen. lia. }
  assert (Nt : forall i v, get_chk PUnwrap data i = Ok v -> nth i data 0 = v).
  { intros i v G. unfold get_chk in G. destruct (nth_error data i) eqn:E; [|discriminate]. injection G as <-. exact (nth_error_nth _ _ _ E). }
  rewrite (Nt _ _ H1), (Nt _ _ H2), (Nt _ _ H3), <- Eb. exists g. split; [|reflexivity]. destruct col; exact Hg.
Qed.
Lemma buffer_other e id c x x' : apply_sub e id c x = Ok x' ->
  match id with S_store_buffer_graphics_raster | S_store_buffer_graphics_column => False | _ => True end ->
  g_buffer_graphics (c_graphics x') = g_buffer_graphics (c_graphics x).
Proof.
  intros H N. destruct id; try contradiction; cbn [apply_sub] in H; try (injection H as <-; reflexivity).
  all: try (injection H as <-; unfold qr_store; cbv zeta; destruct (e_qr _ _ _ _ _) as [(? & ?)|]; reflexivity).
  all: try (injection H as <-; match goal with |- context [if ?b then _ else _] => destruct b end; reflexivity).
  all: try (unfold define_raster, define_column in H;
            repeat match type of H with (if ?b then _ else _) = _ => destruct b end;
            try (injection H as <-; reflexivity);
            repeat (apply bind_ok in H; destruct H as (? & _ & H)); cbv zeta in H; try (apply bind_ok in H; destruct H as (? & _ & H)); injection H as <-; reflexivity).
  all: try (injection H as <-; unfold clear_one; destruct (ref_from_data _ _); reflexivity).
  all: try (apply bind_ok in H; destruct H as (v & _ & H); injection H as <-; try (destruct v as [((? & ?) & ?)|]); reflexivity).
  all: try (destruct (vlen (c_data c) <? 2); [discriminate|]; apply bind_ok in H; destruct H as (v & _ & H); injection H as <-; reflexivity).
  all: try (injection H as <-; repeat match goal with |- context [if ?b then _ else _] => destruct b end; reflexivity).
Qed.
Lemma buffer_step e c s s' b : history e s -> sent c -> buffer_holds b (rs_ctx s) -> process_command e c s = Ok s' ->
  buffer_holds (buffer_after b c) (rs_ctx s').
Proof.
  intros Hy Sc Q H. assert (Mc : forall a b, mem a = mem b -> g_buffer_graphics (c_graphics a) = g_buffer_graphics (c_graphics b)) by (intros a0 b0 E; exact (f_equal snd E)).
  assert (Same : forall x, g_buffer_graphics (c_graphics x) = g_buffer_graphics (c_graphics (rs_ctx s)) -> buffer_holds b x) by (intros x E; unfold buffer_holds; rewrite E; exact Q).
  unfold buffer_after. destruct (list_eq_dec Z.eq_dec (c_commands c) [27; 64]) as [C|C].
  { unfold buffer_holds. rewrite (Mc _ _ (step_reset _ _ _ _ Hy Sc C H)). constructor. }
  assert (Sub : (exists id, c_handler c = HSubPlain id) \/ forall id, c_handler c <> HSubPlain id).
  { destruct (c_handler c); try (right; discriminate). left. eauto. }
  destruct Sub as [(id & Hd)|Ns].
  2:{ rewrite (proj2 (other_named _ Sc Ns)). apply Same, (Mc _ _ (step_kept _ _ _ _ Sc C Ns H)). }
  pose proof (sub_step _ _ _ _ _ Sc Hd H) as St.
  assert (Kept : c_kind c <> KContext -> id <> S_print_buffer_graphics -> buffer_holds b (rs_ctx s')).
  { intros Nk Np. apply Same. destruct (c_kind c); try contradiction; destruct id; first [exact (Mc _ _ St) | contradiction]. }
  assert (KeptC : c_kind c = KContext -> match id with S_store_buffer_graphics_raster | S_store_buffer_graphics_column => False | _ => True end -> buffer_holds b (rs_ctx s')).
  { intros Kc No. rewrite Kc in St. destruct St as (x & x' & Mx & _ & A & E). apply Same. rewrite E, <- (Mc _ _ Mx). exact (buffer_other _ _ _ _ _ A No). }
  destruct (sub_named _ _ Sc Hd) as [(m & fn & t & F & Pn & L & K & ->)|(fn & t & F & Pf & L & K & ->)].
  { rewrite Pn. pose proof (symbol_not_picture _ _ _ L) as X.
    destruct (c_kind c) eqn:Kc; try (apply Kept; [discriminate | intros E; rewrite E in X; exact X]).
    apply KeptC; [reflexivity|]. destruct (sc_id t); auto. }
  rewrite Pf. destruct (picture_entry _ _ L) as (G & Gk). rewrite <- K in Gk.
  destruct (match sc_id t with S_store_buffer_graphics_raster | S_store_buffer_graphics_column | S_print_buffer_graphics => true | _ => false end) eqn:Is.
  - assert (St2 : forall col : bool, c_kind c = KContext -> (forall x x', apply_sub e (sc_id t) c x = Ok x' -> store_buffer col (c_data c) x = Ok x') -> fn = (if col then 113 else 112) ->
      buffer_holds (b ++ [(fn, c_data c)]) (rs_ctx s')).
    { intros col Kc Ap Ef. rewrite Kc in St. destruct St as (x & x' & Mx & Mv & A & E).
      assert (Col : g_render_colors (c_graphics x) = default_colors) by (rewrite (moved_colors _ _ Mv); exact (gk_colors _ (si_graphics _ (history_sinv _ _ Hy)))).
      destruct (store_got col fn _ _ _ (Ap _ _ A) Ef Col) as (g & Dg & Eg). unfold buffer_holds. rewrite E, Eg, (Mc _ _ Mx).
      apply Forall2_app; [exact Q|]. constructor; [|constructor]. split; [exact (sent_bytes _ Sc) | exact Dg]. }
    destruct (sc_id t) eqn:Id; try discriminate Is.
    all: first [ (rewrite G; cbn [Z.eqb Pos.eqb orb]; rewrite <- G; first [apply (St2 false); [exact Gk | intros x x' A; exact A | exact G] | apply (St2 true); [exact Gk | intros x x' A; exact A | exact G]])
               | idtac ].
    rewrite Gk in St. assert (E : g_buffer_graphics (c_graphics (rs_ctx s')) = []) by exact (f_equal snd St).
    replace ((fn =? 112) || (fn =? 113)) with false by lia. replace ((fn =? 2) || (fn =? 50)) with true by lia. unfold buffer_holds. rewrite E. constructor.
  - assert (N : (fn =? 112) || (fn =? 113) = false /\ (fn =? 2) || (fn =? 50) = false).
    { destruct (sc_id t); try discriminate Is; cbn [In] in G; lia. }
    destruct N as (-> & ->).
    destruct (c_kind c) eqn:Kc; try (apply Kept; [discriminate | intros E; rewrite E in Is; discriminate]).
    apply KeptC; [reflexivity|]. destruct (sc_id t); first [discriminate Is | exact Logic.I].
Qed.
Lemma buffer_run e l : forall s s' b, history e s -> Forall sent l -> buffer_holds b (rs_ctx s) -> run_commands e l s = Ok s' ->
  buffer_holds (fold_left buffer_after l b) (rs_ctx s').
Proof.
  unfold run_commands. induction l as [|c l IH]; intros s s' f Hy F Q H; cbn [fold_res fold_left] in *; [injection H as <-; exact Q|].
  apply bind_ok in H. destruct H as (s1 & H1 & H). apply Forall_cons_iff in F. destruct F as (Sc & F).
  refine (IH s1 s' _ _ F (buffer_step _ _ _ _ _ Hy Sc Q H1) H).
  destruct Hy as (l0 & F0 & R0). exists (l0 ++ [c]). split; [apply Forall_app; auto|].
  unfold run_commands in *. rewrite fold_res_app, R0. cbn [bind fold_res]. rewrite H1. reflexivity.
Qed.
Lemma buffer_at e l s : Forall sent l -> run_commands e l renderer_new = Ok s -> buffer_holds (buffered l) (rs_ctx s).
Proof. intros F R. refine (buffer_run e l renderer_new s [] (history_new e) F _ R). constructor. Qed.
Lemma print_buffer_named c : sent c -> In (picture_function c) [Some 2; Some 50] ->
  c_kind c = KGraphics /\ (forall y, get_device_command c y = Ok [ClearBufferGraphics]) /\ forall e x, get_graphics e c x = print_buffer x.
Proof.
  intros Sc F. assert (Sub : (exists id, c_handler c = HSubPlain id) \/ forall id, c_handler c <> HSubPlain id).
  { destruct (c_handler c); try (right; discriminate). left. eauto. }
  destruct Sub as [(id & Hd)|Ns]; [|rewrite (proj2 (other_named _ Sc Ns)) in F; cbn in F; intuition discriminate].
  destruct (sub_named _ _ Sc Hd) as [(m' & fn & t & _ & F' & _)|(fn & t & _ & F' & L & K & ->)]; rewrite F' in F; [cbn in F; intuition discriminate|].
  assert (Fn : fn = 2 \/ fn = 50) by (cbn in F; intuition congruence). destruct (picture_entry _ _ L) as (G & Gk). rewrite <- K in Gk.
  assert (Id : sc_id t = S_print_buffer_graphics).
  { destruct (sc_id t); first [reflexivity | exfalso; cbn [In] in G; lia]. }
  rewrite Id in *. split; [exact Gk|]. split; [intros y; unfold get_device_command; rewrite Hd; reflexivity|]. intros e x. unfold get_graphics. rewrite Hd. reflexivity.
Qed.

(** ** Layers *)
Lemma rect_forall (P : rgba -> Prop) i : rect i -> (forall x y, 0 <= x < i_w i -> 0 <= y < i_h i -> P (px i x y)) -> Forall P (i_pixels i).
Proof.
  intros (W & H & L) Q. apply Forall_forall. intros q Hq. apply (In_nth _ _ transparent) in Hq. destruct Hq as (n & Hn & <-).
  assert (Hz : 0 <= Z.of_nat n < i_w i * i_h i) by (rewrite <- L; unfold vlen; lia).
  assert (W0 : 0 < i_w i) by nia.
  specialize (Q (Z.of_nat n mod i_w i) (Z.of_nat n / i_w i) (Z.mod_pos_bound _ _ W0)).
  assert (Hy : 0 <= Z.of_nat n / i_w i < i_h i) by (split; [apply Z.div_pos; lia | apply Z.div_lt_upper_bound; lia]). specialize (Q Hy).
  unfold px, at_ in Q. replace (Z.to_nat (Z.of_nat n / i_w i * i_w i + Z.of_nat n mod i_w i)) with n in Q; [exact Q|].
  pose proof (Z.div_mod (Z.of_nat n) (i_w i) ltac:(lia)) as D. rewrite Z.mul_comm in D. rewrite <- D. lia.
Qed.
Lemma layer_image l q g W H : sends l q -> complete l -> bytes_ok (snd q) = true -> layer_decoded q = Ok g -> width_of l = W -> height_of l = H -> W * H <= u32_max ->
  exists i, g = GImage i /\ rect i /\ i_w i = W /\ i_h i = H /\ i_flow i = FlowBlock /\ i_upside_down i = false /\ crisp i /\
    forall x y, 0 <= x < W -> 0 <= y < H -> px i x y = layer_dot x y l.
Proof.
  intros (Fq & a & Dq) (Cw & Ch & Cx & Cy & Len) B D EW EH Ar. destruct q as [fn d]. cbn [fst snd] in *. subst d.
  unfold width_of, height_of, layer_dot in *. unfold l_w, l_h in *.
  destruct l as [col bx by_ cn xl xh yl yh dots]. cbn [l_column l_bx l_by l_colour l_xl l_xh l_yl l_yh l_dots] in *.
  assert (Bx : is_byte xl = true /\ is_byte xh = true /\ is_byte yl = true /\ is_byte yh = true /\ is_byte bx = true /\ is_byte by_ = true).
  { unfold bytes_ok in B. cbn [app forallb] in B. repeat rewrite andb_true_iff in B. tauto. }
  destruct Bx as (B1 & B2 & B3 & B4 & B5 & B6). unfold layer_decoded in D. cbv zeta in D. cbn [fst snd] in D.
  assert (L4 : (vlen ([a; bx; by_; cn; xl; xh; yl; yh] ++ dots) <? 4) = false) by (apply Z.ltb_ge; unfold vlen; rewrite app_length; cbn [length]; lia).
  rewrite L4 in D. unfold parse_u16, get_or in D. cbn [nth skipn app Nat.add] in D.
  rewrite (lor_bytes xl xh) in D by first [exact B1 | clear - B2; unfold is_byte in B2; lia].
  rewrite (lor_bytes yl yh) in D by first [exact B3 | clear - B4; unfold is_byte in B4; lia].
  change (xl + 256 * xh) with (num2 xl xh) in D. change (yl + 256 * yh) with (num2 yl yh) in D.
  assert (Rw : num2 xl xh <= 65535 /\ num2 yl yh <= 65535 /\ bx <= 255 /\ by_ <= 255) by (clear - B1 B2 B3 B4 B5 B6; unfold num2, is_byte in *; lia).
  set (w := num2 xl xh) in *. set (h := num2 yl yh) in *. clearbody w h. destruct Rw as (Rw & Rh & Rx & Ry).
  assert (U1 : w * bx <= u32_max) by (unfold u32_max; nia). assert (U2 : h * by_ <= u32_max) by (unfold u32_max; nia).
  assert (U3 : w * bx * (h * by_) <= u32_max) by (rewrite EW, EH; exact Ar).
  assert (Out : forall img, rect img -> i_w img = w * bx -> i_h img = h * by_ ->
    (forall x y, 0 <= x < w * bx -> 0 <= y < h * by_ -> px img x y = SpecGraphics.ink (plane_colour cn) (if col then column_dot dots h (x / bx) (y / by_) else raster_dot dots w (x / bx) (y / by_))) ->
    crisp img).
  { intros img Rc Ew Eh Px. apply rect_forall; [exact Rc|]. intros x y Hx Hy. rewrite Ew in Hx. rewrite Eh in Hy. rewrite (Px x y Hx Hy).
    unfold SpecGraphics.ink. match goal with |- context [mk_rgba _ _ _ (if ?b then 255 else 0)] => destruct b end; [right; split; [reflexivity|] | left; reflexivity].
    unfold channels_ok, plane_colour. destruct (cn =? 0); [|destruct (_ || _); [|destruct (_ || _)]]; cbn; lia. }
  assert (Dot : forall r (on : bool), c_r r = c_r (color_for_number default_colors cn) /\ c_g r = c_g (color_for_number default_colors cn) /\ c_b r = c_g (color_for_number default_colors cn) /\ c_a r = (if on then 255 else 0) ->
    r = SpecGraphics.ink (plane_colour cn) on).
  { intros r on (R1 & R2 & R3 & R4). rewrite <- plane_alpha. unfold with_alpha. destruct r. simpl in R1, R2, R3, R4. congruence. }
  destruct col; subst fn; cbn [Z.eqb Pos.eqb] in D.
  - destruct (C16_column_pixels w h bx by_ (color_for_number default_colors cn) FlowBlock dots ltac:(lia) ltac:(lia) ltac:(lia) ltac:(lia) ltac:(rewrite Len; lia) U1 U2 U3) as (img & Ei & Rc & Ew & Eh & Ef & Px).
    rewrite Ei in D. injection D as <-. exists img. split; [reflexivity|].
    assert (Px' : forall x y, 0 <= x < w * bx -> 0 <= y < h * by_ -> px img x y = SpecGraphics.ink (plane_colour cn) (column_dot dots h (x / bx) (y / by_))) by (intros x y Hx Hy; apply Dot, Px; assumption).
    split; [exact Rc|]. split; [lia|]. split; [lia|]. split; [exact Ef|]. split.
    { unfold image_from_column_single in Ei. apply bind_ok in Ei. destruct Ei as (r & _ & Ei). exact (proj2 (single_flow _ _ _ _ _ _ _ _ Ei)). }
    split; [exact (Out img Rc Ew Eh Px')|]. intros x y Hx Hy. rewrite <- EW in Hx. rewrite <- EH in Hy. exact (Px' x y Hx Hy).
  - destruct (C15_raster_pixels w h bx by_ (color_for_number default_colors cn) FlowBlock dots ltac:(lia) ltac:(lia) ltac:(lia) ltac:(lia) Len U1 U2 U3) as (img & Ei & Rc & Ew & Eh & _ & _ & Ef & Eu & Px).
    rewrite Ei in D. injection D as <-. exists img. split; [reflexivity|].
    assert (Px' : forall x y, 0 <= x < w * bx -> 0 <= y < h * by_ -> px img x y = SpecGraphics.ink (plane_colour cn) (raster_dot dots w (x / bx) (y / by_))) by (intros x y Hx Hy; apply Dot, Px; assumption).
    split; [exact Rc|]. split; [lia|]. split; [lia|]. split; [exact Ef|]. split; [exact Eu|].
    split; [exact (Out img Rc Ew Eh Px')|]. intros x y Hx Hy. rewrite <- EW in Hx. rewrite <- EH in Hy. exact (Px' x y Hx Hy).
Qed.
Lemma layers_image W H : W * H <= u32_max -> forall ls qs gs, Forall2 sends ls qs -> Forall (fun l => complete l /\ width_of l = W /\ height_of l = H) ls ->
  Forall2 (fun q g => bytes_ok (snd q) = true /\ layer_decoded q = Ok g) qs gs ->
  exists is, buffer_layers gs = inl is /\
    Forall2 (fun l i => rect i /\ i_w i = W /\ i_h i = H /\ i_flow i = FlowBlock /\ i_upside_down i = false /\ crisp i /\ forall x y, 0 <= x < W -> 0 <= y < H -> px i x y = layer_dot x y l) ls is.
Proof.
  intros Ar ls qs gs F. revert gs. induction F as [|l q ls qs Hl _ IH]; intros gs C G.
  - inversion G; subst. exists []. split; [reflexivity | constructor].
  - inversion G as [|? g ? gs' (B & D) G']; subst. apply Forall_cons_iff in C. destruct C as ((C & EW & EH) & C').
    destruct (layer_image _ _ _ _ _ Hl C B D EW EH Ar) as (i & -> & P). destruct (IH _ C' G') as (is & E & P'). exists (i :: is). cbn [buffer_layers]. rewrite E. split; [reflexivity | constructor; assumption].
Qed.

(** ** C53 *)
(** Printing the buffer prints the pictures collected since it was last emptied on top of each other, the
    last one uppermost, as one block placed by the justification at the paper position after the text
    still waiting (state [s1]), and empties it (the next printing prints nothing: buffered is then []). *)
Theorem C53_printed : forall e l c s s1 s' first more W H,
  Forall sent l -> run_commands e l renderer_new = Ok s -> sent c -> In (picture_function c) [Some 2; Some 50] ->
  p_enabled (c_page (rs_ctx s)) = false -> process_text s = Ok s1 -> process_command e c s = Ok s' ->
  Forall2 sends (first :: more) (buffered l) -> Forall (fun l => complete l /\ width_of l = W /\ height_of l = H) (first :: more) -> W * H <= u32_max ->
  exists x i done, rs_calls s' = rs_calls s1 ++ (x, EImage i) :: done /\ map snd done = [EDevice ClearBufferGraphics] /\
    rect i /\ i_w i = W /\ i_h i = H /\ i_upside_down i = false /\
    i_x i = justified (t_justify (c_text (rs_ctx s))) 609 W /\ i_y i = get_y (rs_ctx s1) /\
    (forall X Y, 0 <= X < W -> 0 <= Y < H -> px i X Y = topmost (layer_dot X Y first) (map (layer_dot X Y) more)) /\
    get_x (rs_ctx s') = 0 /\ get_y (rs_ctx s') = get_y (rs_ctx s1) + H /\ rs_errors s' = rs_errors s.
Proof.
  intros e l c s s1 s' first more W H F R Sc Pf Pg H1 Hp Sn Cm Ar.
  pose proof (buffer_at e l s F R) as Q. pose proof (history_sinv e s (ex_intro _ l (conj F R))) as I.
  destruct (print_buffer_named _ Sc Pf) as (Kc & Dv & Gg). specialize (Gg e (rs_ctx s1)).
  destruct (process_text_quiet _ _ H1) as ((M & E1 & _) & _).
  destruct (layers_image W H Ar _ _ _ Sn Cm Q) as (is & Bl & P). inversion P as [|? i0 ? ir P0 Pr]; subst.
  unfold print_buffer in Gg. rewrite (moved_buffer _ _ M), Bl in Gg.
  destruct P0 as (R0 & W0 & H0 & F0 & U0 & _ & Px0).
  destruct (C18_topmost_opaque_layer_wins i0 ir R0) as (m & Em & Rm & Wm & Hm & _ & _ & Fm & Um & Pm).
  { clear - Pr W0 H0. rewrite W0, H0. induction Pr as [|? ? ? ? (A1 & A2 & A3 & _ & _ & A4 & _) _ IH]; constructor; [split; [exact A1 | split; [exact A2 | split; [exact A3 | exact A4]]] | exact IH]. }
  rewrite Em in Gg. cbn [bind] in Gg.
  destruct (block_printed e c s s1 s' m [ClearBufferGraphics] I Pg H1 Kc Gg Dv (or_intror eq_refl) ltac:(congruence) ltac:(unfold rect in Rm; lia) Hp) as (x & done & K & Mm & Gx & Gy & Er).
  assert (Wm' : i_w m = W) by lia. assert (Hm' : i_h m = H) by lia. rewrite Wm' in K. rewrite Hm' in Gy.
  exists x, (set_i_y (get_y (rs_ctx s1)) (set_i_x (justified (t_justify (c_text (rs_ctx s))) 609 W) m)), done.
  split; [exact K|]. split; [exact Mm|]. cbn [i_w i_h i_x i_y i_pixels i_upside_down set_i_y set_i_x]. unfold rect in *. cbn [i_w i_h i_pixels set_i_y set_i_x].
  split; [exact Rm|]. split; [exact Wm'|]. split; [exact Hm'|]. split; [congruence|]. split; [reflexivity|]. split; [reflexivity|].
  split; [|split; [exact Gx | split; [exact Gy | exact Er]]].
  intros X Y HX HY. specialize (Pm X Y ltac:(lia) ltac:(lia)). rewrite (Px0 X Y HX HY) in Pm.
  match goal with |- px ?a X Y = _ => change (px a X Y) with (px m X Y) end. rewrite Pm. f_equal.
  clear - Pr HX HY. induction Pr as [|? ? ? ? (_ & _ & _ & _ & _ & _ & A) _ IH]; [reflexivity|]. cbn [map]. f_equal; [exact (A X Y HX HY) | exact IH].
Qed.
(** An empty buffer prints nothing. *)
Theorem C53_empty : forall e l c s s1 s',
  Forall sent l -> run_commands e l renderer_new = Ok s -> sent c -> In (picture_function c) [Some 2; Some 50] ->
  process_text s = Ok s1 -> process_command e c s = Ok s' -> buffered l = [] ->
  exists done, rs_calls s' = rs_calls s1 ++ done /\ map snd done = [EDevice ClearBufferGraphics] /\
    get_x (rs_ctx s') = get_x (rs_ctx s1) /\ get_y (rs_ctx s') = get_y (rs_ctx s1) /\ rs_errors s' = rs_errors s.
Proof.
  intros e l c s s1 s' F R Sc Pf H1 H Em. pose proof (buffer_at e l s F R) as Q. rewrite Em in Q. 
  destruct (print_buffer_named _ Sc Pf) as (Kc & Dv & Gg). specialize (Gg e (rs_ctx s1)). destruct (process_text_quiet _ _ H1) as ((M & E1 & _) & _).
  assert (Eb : g_buffer_graphics (c_graphics (rs_ctx s)) = []) by (inversion Q; reflexivity).
  unfold print_buffer in Gg. rewrite (moved_buffer _ _ M), Eb in Gg. cbn [buffer_layers] in Gg.
  unfold process_command in H. rewrite Kc, H1 in H. cbn [bind] in H. rewrite Gg in H. cbn [bind] in H. rewrite Dv in H. cbn [bind] in H.
  unfold process_device_commands in H. cbn [fold_res bind process_device_command] in H. injection H as <-.
  exists [(rs_ctx s1, EDevice ClearBufferGraphics)]. split; [reflexivity|]. split; [reflexivity|]. split; [reflexivity|]. split; [reflexivity | exact E1].
Qed.
(** One damaged picture (raster data of the wrong size, or hardly any parameters) spoils the whole buffer:
    nothing is printed, one error is reported, and the buffer is empty afterwards. *)
Definition damaged (q : Z * list Z) : Prop :=
  vlen (snd q) < 4 \/
  fst q = 112 /\ exists a bx by_ cn xl xh yl yh dots, snd q = [a; bx; by_; cn; xl; xh; yl; yh] ++ dots /\ vlen dots <> line_bytes (num2 xl xh) * num2 yl yh.
Theorem C53_damaged : forall e l c s s1 s',
  Forall sent l -> run_commands e l renderer_new = Ok s -> sent c -> In (picture_function c) [Some 2; Some 50] ->
  process_text s = Ok s1 -> process_command e c s = Ok s' -> Exists damaged (buffered l) ->
  exists done msg, rs_calls s' = rs_calls s1 ++ done /\ map snd done = [EDevice ClearBufferGraphics] /\
    get_x (rs_ctx s') = get_x (rs_ctx s1) /\ get_y (rs_ctx s') = get_y (rs_ctx s1) /\ rs_errors s' = rs_errors s ++ [GraphicsError msg].
Proof.
  intros e l c s s1 s' F R Sc Pf H1 H Dm. pose proof (buffer_at e l s F R) as Q.
  destruct (print_buffer_named _ Sc Pf) as (Kc & Dv & Gg). specialize (Gg e (rs_ctx s1)). destruct (process_text_quiet _ _ H1) as ((M & E1 & _) & _).
  assert (Bl : exists m, buffer_layers (g_buffer_graphics (c_graphics (rs_ctx s))) = inr (GError m)).
  { unfold buffer_holds in Q. clear - Q Dm. induction Q as [|q g qs gs (B & D) _ IH]; [inversion Dm|].
    assert (Step : (exists m, g = GError m) \/ exists m, buffer_layers gs = inr (GError m)).
    { apply Exists_cons in Dm. destruct Dm as [Dq|Dm]; [left | right; exact (IH Dm)]. clear IH.
      destruct Dq as [Sh|(Fq & a & bx & by_ & cn & xl & xh & yl & yh & dots & Eq & Wr)]; unfold layer_decoded in D; cbv zeta in D.
      - replace (vlen (snd q) <? 4) with true in D by lia. injection D as <-. eauto.
      - rewrite Fq in D. destruct q as [fn d]. cbn [fst snd] in *. subst d.
        assert (L4 : (vlen ([a; bx; by_; cn; xl; xh; yl; yh] ++ dots) <? 4) = false) by (apply Z.ltb_ge; unfold vlen; rewrite app_length; cbn [length]; lia).
        rewrite L4 in D. cbn [Z.eqb Pos.eqb] in D. unfold parse_u16, get_or in D. cbn [nth skipn app Nat.add] in D.
        assert (Bx : is_byte xl = true /\ is_byte xh = true /\ is_byte yl = true /\ is_byte yh = true).
        { unfold bytes_ok in B. cbn [app forallb] in B. repeat rewrite andb_true_iff in B. tauto. }
        destruct Bx as (B1 & B2 & B3 & B4).
        rewrite (lor_bytes xl xh) in D by first [exact B1 | clear - B2; unfold is_byte in B2; lia].
        rewrite (lor_bytes yl yh) in D by first [exact B3 | clear - B4; unfold is_byte in B4; lia].
        change (xl + 256 * xh) with (num2 xl xh) in D. change (yl + 256 * yh) with (num2 yl yh) in D.
        assert (Rw : 0 <= num2 xl xh <= 65535 /\ 0 <= num2 yl yh <= 65535) by (clear - B1 B2 B3 B4; unfold num2, is_byte in *; lia). destruct Rw as (Rw & Rh).
        destruct (C15_wrong_length_is_error (num2 xl xh) (num2 yl yh) bx by_ (color_for_number default_colors cn) FlowBlock dots ltac:(lia) ltac:(lia)) as (m & Em); [unfold u32_max; nia | exact Wr|].
        rewrite Em in D. injection D as <-. eauto. }
    destruct Step as [(m & ->)|(m & Em)]; [eexists; reflexivity|].
    assert (G : match g with GImage _ | GError _ => True | _ => False end).
    { unfold layer_decoded in D. cbv zeta in D. destruct (vlen (snd q) <? 4); [injection D as <-; exact Logic.I|].
      assert (Sg : forall w h st col fl d b, image_from_raster_single w h st col fl d b = Ok g -> match g with GImage _ | GError _ => True | _ => False end).
      { intros w h st col fl d b X. unfold image_from_raster_single in X. apply bind_ok in X. destruct X as (n & _ & X). destruct (negb _); [injection X as <-; exact Logic.I|].
        apply bind_ok in X. destruct X as (((w' & h') & raw) & _ & X). injection X as <-. exact Logic.I. }
      destruct (fst q =? 113); [unfold image_from_column_single in D; apply bind_ok in D; destruct D as (? & _ & D)|]; exact (Sg _ _ _ _ _ _ _ D). }
    destruct g; try contradiction; cbn [buffer_layers]; [eexists; reflexivity | rewrite Em; eexists; reflexivity]. }
  destruct Bl as (m & Bl). unfold print_buffer in Gg. rewrite (moved_buffer _ _ M), Bl in Gg.
  unfold process_command in H. rewrite Kc, H1 in H. cbn [bind] in H. rewrite Gg in H. cbn [bind process_gfx] in H. rewrite Dv in H. cbn [bind] in H.
  unfold process_device_commands in H. cbn [fold_res bind process_device_command] in H. injection H as <-.
  eexists. exists m. split; [reflexivity|]. split; [reflexivity|]. split; [reflexivity|]. split; [reflexivity|]. cbn [rs_errors log_error call with_ctx]. rewrite E1. reflexivity.
Qed.
(** The hypotheses are met: an 8 x 1 raster picture in black, twice as high, and a 8 x 2 column picture in
    colour 2, printed together. *)
Definition buffer_stream : list Z :=
  [29; 40; 76; 11; 0; 48; 112; 48; 1; 2; 49; 8; 0; 1; 0; 240; 29; 40; 76; 18; 0; 48; 113; 48; 1; 1; 50; 8; 0; 2; 0; 0; 64; 128; 192; 0; 64; 128; 192; 29; 40; 76; 2; 0; 48; 50; 10].
Definition demo_first : layer := mk_layer false 1 2 49 8 0 1 0 [240].
Definition demo_second : layer := mk_layer true 1 1 50 8 0 2 0 [0; 64; 128; 192; 0; 64; 128; 192].
Example C53_demo : exists cmds c0 c1 c2 c3, parse_esc_pos buffer_stream = Ok cmds /\ cmds = [c0; c1; c2; c3; nth 4 cmds c0; nth 5 cmds c0] /\
  In (picture_function c3) [Some 2; Some 50] /\
  Forall2 sends [demo_first; demo_second] (buffered [c0; c1; c2]) /\
  Forall (fun l => complete l /\ width_of l = 8 /\ height_of l = 2) [demo_first; demo_second] /\
  map (fun x => topmost (layer_dot x 0 demo_first) [layer_dot x 0 demo_second]) [0; 2; 4; 6] =
    [mk_rgba 0 0 0 255; mk_rgba 158 22 22 255; mk_rgba 0 0 0 0; mk_rgba 158 22 22 255] /\
  buffered [c0; c1; c2; c3] = [].
Proof.
  do 5 eexists. split; [vm_compute; reflexivity|]. split; [reflexivity|]. split; [right; left; reflexivity|].
  split; [apply Forall2_cons; [|apply Forall2_cons; [|apply Forall2_nil]]; (split; [reflexivity | exists 48; reflexivity])|].
  split; [apply Forall_cons; [|apply Forall_cons; [|apply Forall_nil]]; unfold complete, width_of, height_of, l_w, l_h; cbn; unfold num2, vlen, line_bytes; cbn; (split; [|split; reflexivity]); (split; [lia|]; split; [lia|]; split; [lia|]; split; [lia | reflexivity])|].
  split; [vm_compute; reflexivity | reflexivity].
Qed.
