(** * PropsPosition: C58, positions in page mode. *)
From Verif Require Import Base Command CommandSet Parser Vec Float32 GTypes Graphics Decoder Context Text Handlers Renderer StateTheory AreaTheory CallsTheory
  ContextTheory RendererTheory Origin SpecPrinter SpecRender StreamProofs PropsContext PropsOutput PropsSafe PropsPage SpecPosition.
Local Open Scope Z_scope.
Local Open Scope list_scope.
Local Arguments vlen : simpl never.

Lemma ok_inj {A} (a b : A) : Ok a = Ok b -> a = b.
Proof. congruence. Qed.
Lemma page_of p x : c_page (upd_page (fun _ => p) x) = p.
Proof. reflexivity. Qed.
(** A context command of page mode, no text waiting. *)
Lemma context_step e c s s' id : c_kind c = KContext -> c_handler c = HPlain id -> rs_spans s = [] -> process_command e c s = Ok s' ->
  exists x, apply_plain id c (rs_ctx s) = Ok x /\ s' = with_ctx x s.
Proof.
  intros K Hd NS H. unfold process_command in H. rewrite K in H. unfold process_text in H. rewrite NS in H. cbn [bind] in H.
  apply on_ctx_inv in H. destruct H as (x & Hx & ->). unfold apply_context in Hx. rewrite Hd in Hx. eauto.
Qed.
Lemma two_args c a b : c_data c = [a; b] -> get_pos c = two_bytes a b.
Proof. intros D. unfold get_pos, arg, two_bytes. rewrite D. cbn [get_or nth_error nth]. lia. Qed.
Lemma div_u_inv a b v : div_u a b = Ok v -> v = a / b.
Proof. unfold div_u. destruct (b =? 0); [discriminate|]. intros E. now injection E as <-. Qed.

Lemma area_same (f : area -> area) x p : c_page x = upd_pra f p -> (forall a, a_w (f a) = a_w a) -> (forall a, a_h (f a) = a_h a) ->
  p_direction (c_page x) = p_direction p /\ p_page_area (c_page x) = p_page_area p /\ a_w (p_render_area (c_page x)) = a_w (p_render_area p) /\
  a_h (p_render_area (c_page x)) = a_h (p_render_area p) /\ p_enabled (c_page x) = p_enabled p.
Proof. intros -> W H. destruct p; cbn. rewrite W, H. auto. Qed.

Ltac into_page Pg := unfold area_corner, pen, area_size, page_size, page_dir, page_w, page_h, get_base_x, get_base_y, get_width, get_height, get_x, get_y in *; rewrite ?Pg in *.

(** Nothing but the pen changes. *)
Definition only_pen (s s' : rstate) : Prop :=
  rs_calls s' = rs_calls s /\ rs_spans s' = rs_spans s /\ p_enabled (c_page (rs_ctx s')) = true /\ page_dir (rs_ctx s') = page_dir (rs_ctx s) /\
  page_size (rs_ctx s') = page_size (rs_ctx s) /\ area_corner (rs_ctx s') = area_corner (rs_ctx s) /\ area_size (rs_ctx s') = area_size (rs_ctx s).
Lemma only_pen_x s v : p_enabled (c_page (rs_ctx s)) = true -> only_pen s (with_ctx (upd_page (fun _ => upd_pra (set_a_x v) (c_page (rs_ctx s))) (rs_ctx s)) s).
Proof. intros Pg. unfold only_pen. destruct s as [x sp er ca]. destruct x as [d [t bc k g [en la ra pa dir prev]]]. cbn in Pg. subst en. repeat split. Qed.
Lemma only_pen_y s v : p_enabled (c_page (rs_ctx s)) = true -> only_pen s (with_ctx (upd_page (fun _ => upd_pra (set_a_y v) (c_page (rs_ctx s))) (rs_ctx s)) s).
Proof. intros Pg. unfold only_pen. destruct s as [x sp er ca]. destruct x as [d [t bc k g [en la ra pa dir prev]]]. cbn in Pg. subst en. repeat split. Qed.

(** *** ESC $ nL nH puts the pen n motion units right of the left edge of the area, at the same height.
    Printing from top to bottom it counts from the left edge of the area only if the area is
    at the edge of the page. *)
Theorem C58_horizontal : forall e c s s' a b, history e s -> sent c -> c_commands c = [27; 36] -> c_data c = [a; b] -> rs_spans s = [] ->
  p_enabled (c_page (rs_ctx s)) = true -> process_command e c s = Ok s' ->
  let x := rs_ctx s in let x' := rs_ctx s' in let n := two_bytes a b / g_h_motion_unit (c_graphics x) in
  n <= fst (area_size x) ->
  only_pen s s' /\ snd (pen x') = snd (pen x) /\
  fst (pen x') = fst (area_corner x) + n + match page_dir x with TopRight2Bottom => get_base_y x | _ => 0 end.
Proof.
  intros e c s s' a b Hh Sc C D NS Pg H x x' n N. pose proof (ui_page _ (history_uinv _ _ Hh)) as [[UX _] [UY _] [UW _] [UH _]]. clear Hh. known c Sc C cmd_set_horizontal_pos P_set_horizontal_pos.
  destruct (context_step _ _ _ _ _ K Hd NS H) as (y & Hy & ->). clear H. subst x x'. cbn [with_ctx rs_ctx apply_plain] in Hy |- *.
  unfold set_x_absolute in Hy. apply bind_ok in Hy. destruct Hy as (v & Hv & Hy). apply div_u_inv in Hv. rewrite (two_args _ _ _ D) in Hv. fold n in Hv.
  clearbody n. subst v. rewrite Pg in Hy. unfold in_page in Hy. apply bind_ok in Hy. destruct Hy as (p & Hp & Hy). injection Hy as <-.
  unfold pm_set_x_absolute in Hp. cbv zeta in Hp.
  assert (O : only_pen s (with_ctx (upd_page (fun _ => p) (rs_ctx s)) s)).
  { destruct (p_direction (c_page (rs_ctx s))); try (apply bind_ok in Hp; destruct Hp as (v & Hv & Hp)); injection Hp as <-; lazymatch goal with |- context [upd_pra (set_a_x ?v)] => exact (only_pen_x s v Pg) | |- context [upd_pra (set_a_y ?v)] => exact (only_pen_y s v Pg) end. }
  split; [exact O|]. clear O K Hd C D NS Sc. destruct s as [x sp er ca]. cbn [rs_ctx] in *. destruct x as [d [t bc k g [en la ra pa dir prev]]].
  into_page Pg. cbn in Pg, Hp, N, UX, UY, UW, UH |- *. subst en.
  destruct dir; try (apply bind_ok in Hp; destruct Hp as (v & Hv & Hp); apply add_u32_inv in Hv; destruct Hv as (-> & B)); injection Hp as <-; cbn in N |- *; unfold sat_sub; (split; [reflexivity | lia]).
Qed.
(** *** GS $ nL nH puts the pen n motion units below the upper edge of the area, as far right as before. *)
Theorem C58_vertical : forall e c s s' a b, history e s -> sent c -> c_commands c = [29; 36] -> c_data c = [a; b] -> rs_spans s = [] ->
  p_enabled (c_page (rs_ctx s)) = true -> process_command e c s = Ok s' ->
  let x := rs_ctx s in let x' := rs_ctx s' in let n := two_bytes a b / g_v_motion_unit (c_graphics x) in
  n <= snd (area_size x) ->
  only_pen s s' /\ fst (pen x') = fst (pen x) /\ snd (pen x') = snd (area_corner x) + n.
Proof.
  intros e c s s' a b Hh Sc C D NS Pg H x x' n N. pose proof (ui_page _ (history_uinv _ _ Hh)) as [[UX _] [UY _] [UW _] [UH _]]. clear Hh. known c Sc C cmd_set_vertical_pos P_set_vertical_pos.
  destruct (context_step _ _ _ _ _ K Hd NS H) as (y & Hy & ->). clear H. subst x x'. cbn [with_ctx rs_ctx apply_plain] in Hy |- *. rewrite Pg in Hy.
  unfold set_y_absolute in Hy. apply bind_ok in Hy. destruct Hy as (v & Hv & Hy). apply div_u_inv in Hv. rewrite (two_args _ _ _ D) in Hv. fold n in Hv.
  clearbody n. subst v. rewrite Pg in Hy. unfold in_page in Hy. apply bind_ok in Hy. destruct Hy as (p & Hp & Hy). injection Hy as <-.
  unfold pm_set_y_absolute in Hp. cbv zeta in Hp.
  assert (O : only_pen s (with_ctx (upd_page (fun _ => p) (rs_ctx s)) s)).
  { destruct (p_direction (c_page (rs_ctx s))); try (apply bind_ok in Hp; destruct Hp as (v & Hv & Hp)); injection Hp as <-; lazymatch goal with |- context [upd_pra (set_a_x ?v)] => exact (only_pen_x s v Pg) | |- context [upd_pra (set_a_y ?v)] => exact (only_pen_y s v Pg) end. }
  split; [exact O|]. clear O K Hd C D NS Sc. destruct s as [x sp er ca]. cbn [rs_ctx] in *. destruct x as [d [t bc k g [en la ra pa dir prev]]].
  into_page Pg. cbn in Pg, Hp, N, UX, UY, UW, UH |- *. subst en.
  destruct dir; try (apply bind_ok in Hp; destruct Hp as (v & Hv & Hp); apply add_u32_inv in Hv; destruct Hv as (-> & B)); injection Hp as <-; cbn in N |- *; unfold sat_sub in *; (split; [reflexivity | lia]).
Qed.
(** *** GS \ nL nH moves the pen n motion units across the lines (down, if text runs to the right; n has a sign),
    and never past the edge of the page. *)
Theorem C58_relative : forall e c s s' a b, history e s -> sent c -> c_commands c = [29; 92] -> c_data c = [a; b] -> rs_spans s = [] ->
  p_enabled (c_page (rs_ctx s)) = true -> process_command e c s = Ok s' ->
  let x := rs_ctx s in let x' := rs_ctx s' in let n := Z.quot (signed (two_bytes a b)) (g_v_motion_unit (c_graphics x)) in
  get_y x < 2 ^ 31 -> only_pen s s' /\ get_x x' = get_x x /\ get_y x' = Z.max 0 (get_y x + n).
Proof.
  intros e c s s' a b Hh Sc C D NS Pg H x x' n N. pose proof (history_uinv _ _ Hh) as UI. known c Sc C cmd_offset_vertical_pos P_offset_vertical_pos.
  destruct (context_step _ _ _ _ _ K Hd NS H) as (y & Hy & ->). clear H. subst x x'. cbn [with_ctx rs_ctx apply_plain] in Hy |- *. rewrite Pg in Hy.
  unfold offset_y_relative in Hy. apply bind_ok in Hy. destruct Hy as (v & Hv & Hy). unfold div_i16 in Hv. destruct (_ =? 0); [discriminate|].
  injection Hv as <-. rewrite (two_args _ _ _ D) in Hy. change (as_i16 (two_bytes a b)) with (signed (two_bytes a b)) in Hy. fold n in Hy. clearbody n.
  rewrite Pg in Hy. unfold in_page in Hy. apply bind_ok in Hy. destruct Hy as (p & Hp & Hy). injection Hy as <-.
  unfold pm_offset_y_relative in Hp. apply bind_ok in Hp. destruct Hp as (v & Hv & Hp). injection Hp as <-.
  split; [apply only_pen_y; exact Pg|]. unfold get_x, get_y in *. rewrite Pg in *. rewrite page_of.
  assert (Q : forall f p, p_enabled (upd_pra f p) = p_enabled p /\ p_render_area (upd_pra f p) = f (p_render_area p)) by (intros f []; split; reflexivity).
  destruct (Q (set_a_y (Z.max v 0)) (c_page (rs_ctx s))) as (Q1 & Q2). rewrite Q1, Q2, Pg. 
  assert (A : forall z q, a_x (set_a_y z q) = a_x q /\ a_y (set_a_y z q) = z) by (intros z []; split; reflexivity).
  rewrite (proj1 (A _ _)), (proj2 (A _ _)). split; [reflexivity|].
  unfold add_i32 in Hv. assert (V : v = a_y (p_render_area (c_page (rs_ctx s))) + n); [|lia].
  assert (I : as_i32 (a_y (p_render_area (c_page (rs_ctx s)))) = a_y (p_render_area (c_page (rs_ctx s)))) by (unfold as_i32; destruct (_ <? _) eqn:E; lia).
  rewrite I in Hv. revert Hv. unfold chk. destruct (_ && _); [|discriminate]. intros E. now injection E as <-.
Qed.
(** Outside page mode GS $ and GS \ do nothing. *)
Theorem C58_vertical_only_in_page_mode : forall e c s s', sent c -> c_commands c = [29; 36] \/ c_commands c = [29; 92] -> rs_spans s = [] ->
  p_enabled (c_page (rs_ctx s)) = false -> process_command e c s = Ok s' -> s' = s.
Proof.
  intros e c s s' Sc [C|C] NS Pg H; [known c Sc C cmd_set_vertical_pos P_set_vertical_pos | known c Sc C cmd_offset_vertical_pos P_offset_vertical_pos];
    destruct (context_step _ _ _ _ _ K Hd NS H) as (y & Hy & ->); cbn [apply_plain] in Hy; rewrite Pg in Hy; injection Hy as <-; destruct s; reflexivity.
Qed.

(** ** ESC W and ESC T *)
Lemma u16_eq l k : bytes_ok l = true -> parse_u16 l k = two_bytes (nth k l 0) (nth (k + 1) l 0).
Proof.
  intros B. pose proof (bytes_get l k B) as H1. unfold parse_u16, get_or, two_bytes in *. rewrite (lor_shift_add (nth (k + 1) l 0) (nth k l 0) 8) by lia. lia.
Qed.

(** an area that fits on the page *)
Definition fits_page (x y w h : Z) (c : context) : Prop := 0 <= x /\ 0 <= y /\ 0 <= w /\ 0 <= h /\ x + w <= fst (page_size c) /\ y + h <= snd (page_size c).
(** what the geometry does, the page being large enough already *)
Lemma apply_fits p rot w h p' W H : apply_logical_area p = Ok (rot, w, h, p') ->
  (if Bool.eqb (should_swap (p_previous_direction p)) (should_swap (p_direction p)) then (a_w (p_page_area p), a_h (p_page_area p)) else (a_h (p_page_area p), a_w (p_page_area p))) = upright_size (p_direction p) W H ->
  let l := p_logical_area p in 0 <= a_x l -> 0 <= a_y l -> 0 <= a_w l -> 0 <= a_h l -> a_x l + a_w l <= W -> a_y l + a_h l <= H ->
  p_direction p' = p_direction p /\ (a_w (p_page_area p'), a_h (p_page_area p')) = upright_size (p_direction p) W H /\
  (a_x (p_page_area p'), a_y (p_page_area p')) = (a_x (p_render_area p'), a_y (p_render_area p')) /\
  (a_w (p_render_area p'), a_h (p_render_area p')) = upright_size (p_direction p) (a_w l) (a_h l) /\
  upright (p_direction p) (a_w (p_page_area p')) (a_h (p_page_area p')) (a_x (p_render_area p')) (a_y (p_render_area p')) =
    start_of (p_direction p) (a_x l, area_top (p_direction p) H (a_y l) (a_h l)) (a_w l, a_h l) /\ p_enabled p' = p_enabled p.
Proof.
  intros A O l X0 Y0 W0 H0 XW YH. subst l. destruct p as [en [lx ly lw lh] ra [px py pw ph] dir prev].
  cbn [p_logical_area p_page_area p_direction p_previous_direction a_x a_y a_w a_h p_enabled] in *.
  unfold apply_logical_area in A. cbv zeta in A. cbn [p_direction p_previous_direction] in A.
  match type of A with context [p_direction (if ?b then ?y else ?z)] => set (q := if b then y else z) in A;
    assert (Q : q = mk_page_ctx en (mk_area lx ly lw lh) ra (mk_area px py (fst (upright_size dir W H)) (snd (upright_size dir W H))) dir prev) by (unfold q; destruct prev, dir; cbn in O; injection O as <- <-; reflexivity) end.
  rewrite Q in A. clear q Q O.
  destruct dir; cbn [p_direction upright_size fst snd] in A;
    unfold translate_top_left_to_right, translate_bottom_right_to_left, translate_top_right_to_bottom, translate_bottom_left_to_top in A;
    cbn [p_logical_area p_page_area a_x a_y a_w a_h] in A;
    repeat (apply bind_ok in A; let v := fresh "v" in let E := fresh "E" in destruct A as (v & E & A); first [apply add_u32_inv in E; destruct E as (-> & E) | idtac]);
    repeat match goal with E : Ok _ = Ok ?v |- _ => apply ok_inj in E; subst v end;
    repeat match goal with E : (do _ <- _; _) = Ok _ |- _ => apply bind_ok in E; let v := fresh "v" in let E1 := fresh "E" in destruct E as (v & E1 & E); apply add_u32_inv in E1; destruct E1 as (-> & E1) end;
    repeat match goal with E : Ok _ = Ok ?v |- _ => apply ok_inj in E; subst v end;
    apply ok_inj in A; injection A as <- <- <- <-; unfold sat_sub in *;
    cbn [set_p_render_area upd_ppa set_p_page_area p_render_area p_page_area p_logical_area p_direction p_enabled set_a_x set_a_y set_a_w set_a_h a_x a_y a_w a_h upright_size upright start_of area_top fst snd] in *;
    (split; [reflexivity|]); (split; [f_equal; lia|]); (split; [reflexivity|]); (split; [reflexivity|]); (split; [f_equal; lia | reflexivity]).
Qed.
(** The print area and the pen, after the area was given or the page was turned. *)
Definition area_at (d : direction) (x y w h W H : Z) (c : context) : Prop :=
  p_enabled (c_page c) = true /\ page_dir c = d /\ page_size c = (W, H) /\ area_size c = (w, h) /\
  area_corner c = (x, area_top d H y h) /\ pen c = start_of d (x, area_top d H y h) (w, h).
Lemma area_set p rot pw ph p' W H x : apply_logical_area p = Ok (rot, pw, ph, p') -> c_page x = p' -> p_enabled p = true ->
  (if Bool.eqb (should_swap (p_previous_direction p)) (should_swap (p_direction p)) then (a_w (p_page_area p), a_h (p_page_area p)) else (a_h (p_page_area p), a_w (p_page_area p))) = upright_size (p_direction p) W H ->
  let l := p_logical_area p in 0 <= a_x l -> 0 <= a_y l -> 0 <= a_w l -> 0 <= a_h l -> a_x l + a_w l <= W -> a_y l + a_h l <= H ->
  area_at (p_direction p) (a_x l) (a_y l) (a_w l) (a_h l) W H x.
Proof.
  intros A E En O l X0 Y0 W0 H0 XW YH. destruct (apply_fits _ _ _ _ _ _ _ A O X0 Y0 W0 H0 XW YH) as (D & P & B & R & U & En'). subst p'. rewrite En in En'. fold l in R, U.
  unfold area_at. split; [exact En'|]. into_page En'. rewrite D in *. split; [reflexivity|].
  injection B as Bx By. rewrite Bx, By. rewrite U.
  destruct (p_direction p); cbn [upright_size upright start_of area_top fst snd] in *; injection P as Pw Ph; injection R as Rw Rh; injection U as Ux Uy; rewrite ?Pw, ?Ph, ?Rw, ?Rh in *;
    (split; [reflexivity|]); (split; [reflexivity|]); (split; [f_equal; lia | reflexivity]).
Qed.
(** *** ESC W: an area that fits on the page is put as far from the left edge as asked, has the size asked for, and the
    pen goes to where text starts.  Printing to the right or to the top it is as far from the upper edge
    as asked, otherwise as far from the lower edge. *)
Theorem C58_area : forall e c s s' x0 x1 y0 y1 w0 w1 h0 h1, history e s -> sent c -> c_commands c = [27; 87] -> c_data c = [x0; x1; y0; y1; w0; w1; h0; h1] -> rs_spans s = [] ->
  p_enabled (c_page (rs_ctx s)) = true -> process_command e c s = Ok s' ->
  let hu := g_h_motion_unit (c_graphics (rs_ctx s)) in let vu := g_v_motion_unit (c_graphics (rs_ctx s)) in
  let x := two_bytes x0 x1 / hu in let y := two_bytes y0 y1 / vu in let w := two_bytes w0 w1 / hu in let h := two_bytes h0 h1 / vu in
  x + w <= fst (page_size (rs_ctx s)) -> y + h <= snd (page_size (rs_ctx s)) ->
  area_at (page_dir (rs_ctx s)) x y w h (fst (page_size (rs_ctx s))) (snd (page_size (rs_ctx s))) (rs_ctx s').
Proof.
  intros e c s s' x0 x1 y0 y1 w0 w1 h0 h1 Hh Sc C D NS Pg Hp hu vu x y w h XW YH.
  pose proof (sent_bytes c Sc) as By. rewrite D in By.
  known c Sc C cmd_page_mode_print_area P_page_mode_print_area.
  unfold process_command in Hp. rewrite K in Hp. unfold process_text in Hp. rewrite NS in Hp. cbn [bind] in Hp.
  apply bind_ok in Hp. destruct Hp as (s2 & Hs2 & Hp). apply on_ctx_inv in Hs2. destruct Hs2 as (z & Hz & ->).
  unfold apply_context in Hz. rewrite Hd in Hz. cbn [apply_plain] in Hz. rewrite Pg in Hz.
  unfold get_device_command in Hp. rewrite Hd in Hp. cbn [device_plain bind] in Hp.
  unfold process_device_commands in Hp. cbn [fold_res bind process_device_command] in Hp.
  apply bind_ok in Hp. destruct Hp as (s3 & Hp & Hs3). injection Hs3 as ->.
  apply bind_ok in Hp. destruct Hp as (s4 & H4 & Hp). apply on_ctx_inv in H4. destruct H4 as (v & Hv & ->). injection Hv as <-.
  unfold page_geometry in Hp. apply bind_ok in Hp. destruct Hp as ([[[rot pw] ph] p'] & Ha & Hp). injection Hp as <-.
  cbn [rs_ctx with_ctx call] in Ha |- *.
  unfold set_page_area in Hz. apply bind_ok in Hz. destruct Hz as (ax & Ex & Hz). apply bind_ok in Hz. destruct Hz as (ay & Ey & Hz).
  apply bind_ok in Hz. destruct Hz as (aw & Ew & Hz). apply bind_ok in Hz. destruct Hz as (ah & Eh & Hz). apply ok_inj in Hz.
  fold hu in Ex, Ew. fold vu in Ey, Eh.
  apply div_u_inv in Ex, Ey, Ew, Eh. unfold calculate_page_area in Ex, Ey, Ew, Eh. rewrite D in Ex, Ey, Ew, Eh. cbn [a_x a_y a_w a_h] in Ex, Ey, Ew, Eh.
  rewrite !u16_eq in Ex, Ey, Ew, Eh by exact By. cbn [nth Nat.add] in Ex, Ey, Ew, Eh. fold x in Ex. fold y in Ey. fold w in Ew. fold h in Eh.
  assert (Ps : 0 <= x /\ 0 <= y /\ 0 <= w /\ 0 <= h).
  { pose proof (history_sinv _ _ Hh) as SI. destruct (ok_motion _ (proj1 (sinv_settings _) SI)) as (M1 & M2). fold hu in M1. fold vu in M2.
    assert (Q : forall a b u, 0 <= a -> 0 <= b -> 0 <= u -> 0 <= two_bytes a b / u).
    { clear. intros a b u A B U. unfold two_bytes. destruct (Z.eq_dec u 0) as [->|]; [rewrite Zdiv_0_r; lia | apply Z.div_pos; lia]. }
    cbn in By. unfold is_byte in By. unfold x, y, w, h. clear -By M1 M2 Q. repeat split; apply Q; lia. }
  clearbody x y w h. subst ax ay aw ah z. clear By K Hd.
  set (z := upd_page (set_p_logical_area (mk_area x y w h)) (rs_ctx s)) in *.
  assert (Z1 : c_page z = set_p_logical_area (mk_area x y w h) (c_page (rs_ctx s))) by reflexivity.
  unfold page_size, page_w, page_h, page_dir in *.
  set (q := set_p_previous_direction (p_direction (c_page z)) (c_page z)) in *.
  assert (Q : p_enabled q = true /\ p_direction q = p_direction (c_page (rs_ctx s)) /\ p_previous_direction q = p_direction (c_page (rs_ctx s)) /\
    p_page_area q = p_page_area (c_page (rs_ctx s)) /\ p_logical_area q = mk_area x y w h).
  { unfold q. rewrite Z1. destruct (c_page (rs_ctx s)). cbn in Pg |- *. auto. }
  destruct Q as (Q1 & Q2 & Q3 & Q4 & Q5).
  match goal with |- context [upd_page (fun _ => p') ?u] => set (u' := upd_page (fun _ => p') u) end.
  pose proof (area_set q rot pw ph p' (fst (upright_size (p_direction q) (a_w (p_page_area q)) (a_h (p_page_area q)))) (snd (upright_size (p_direction q) (a_w (p_page_area q)) (a_h (p_page_area q)))) u') as A.
  rewrite Q5, Q2, Q3, Q4 in A. cbn [a_x a_y a_w a_h] in A. apply A; try lia.
  - exact Ha.
  - reflexivity.
  - exact Q1.
  - rewrite Bool.eqb_reflx. destruct (p_direction (c_page (rs_ctx s))); reflexivity.
Qed.
(** *** ESC T: the same for the area given before, when the page is turned. *)
Theorem C58_turn : forall e c s s', sent c -> c_commands c = [27; 84] -> rs_spans s = [] -> p_enabled (c_page (rs_ctx s)) = true -> process_command e c s = Ok s' ->
  let l := p_logical_area (c_page (rs_ctx s)) in 
  fits_page (a_x l) (a_y l) (a_w l) (a_h l) (rs_ctx s) ->
  area_at (direction_of (param c 0)) (a_x l) (a_y l) (a_w l) (a_h l) (fst (page_size (rs_ctx s))) (snd (page_size (rs_ctx s))) (rs_ctx s').
Proof.
  intros e c s s' Sc C NS Pg H l (X0 & Y0 & W0 & H0 & XW & YH).
  destruct (esc_t_step _ _ _ _ Sc C H) as (s1 & p0 & rot & w & h & p' & T & P0 & A & P' & _).
  unfold process_text in T. rewrite NS in T. apply ok_inj in T. subst s1. rewrite Pg in P0. change (arg 0 c 0) with (param c 0) in P0.
  assert (Q : p_enabled p0 = true /\ p_direction p0 = direction_of (param c 0) /\ p_previous_direction p0 = page_dir (rs_ctx s) /\
    p_page_area p0 = p_page_area (c_page (rs_ctx s)) /\ p_logical_area p0 = l).
  { subst p0 l. unfold page_dir. destruct (c_page (rs_ctx s)). cbn in Pg |- *. auto. }
  destruct Q as (Q1 & Q2 & Q3 & Q4 & Q5).
  pose proof (area_set p0 rot w h p' (fst (page_size (rs_ctx s))) (snd (page_size (rs_ctx s))) (rs_ctx s') A P' Q1) as G.
  rewrite Q5, Q2, Q3, Q4 in G. apply G; try assumption.
  unfold page_size, page_w, page_h. destruct (page_dir (rs_ctx s)), (direction_of (param c 0)); reflexivity.
Qed.
(** *** While text runs to the right, ESC W puts the area where it is asked for, on a page enlarged if needed. *)
Theorem C58_area_enlarges : forall e c s s' x0 x1 y0 y1 w0 w1 h0 h1, history e s -> sent c -> c_commands c = [27; 87] -> c_data c = [x0; x1; y0; y1; w0; w1; h0; h1] -> rs_spans s = [] ->
  p_enabled (c_page (rs_ctx s)) = true -> page_dir (rs_ctx s) = TopLeft2Right -> process_command e c s = Ok s' ->
  let hu := g_h_motion_unit (c_graphics (rs_ctx s)) in let vu := g_v_motion_unit (c_graphics (rs_ctx s)) in
  let x := two_bytes x0 x1 / hu in let y := two_bytes y0 y1 / vu in let w := two_bytes w0 w1 / hu in let h := two_bytes h0 h1 / vu in
  area_at TopLeft2Right x y w h (Z.max (x + w) (fst (page_size (rs_ctx s)))) (Z.max (y + h) (snd (page_size (rs_ctx s)))) (rs_ctx s').
Proof.
  intros e c s s' x0 x1 y0 y1 w0 w1 h0 h1 Hh Sc C D NS Pg Td Hp hu vu x y w h.
  pose proof (sent_bytes c Sc) as By. rewrite D in By.
  known c Sc C cmd_page_mode_print_area P_page_mode_print_area.
  unfold process_command in Hp. rewrite K in Hp. unfold process_text in Hp. rewrite NS in Hp. cbn [bind] in Hp.
  apply bind_ok in Hp. destruct Hp as (s2 & Hs2 & Hp). apply on_ctx_inv in Hs2. destruct Hs2 as (z & Hz & ->).
  unfold apply_context in Hz. rewrite Hd in Hz. cbn [apply_plain] in Hz. rewrite Pg in Hz.
  unfold get_device_command in Hp. rewrite Hd in Hp. cbn [device_plain bind] in Hp.
  unfold process_device_commands in Hp. cbn [fold_res bind process_device_command] in Hp.
  apply bind_ok in Hp. destruct Hp as (s3 & Hp & Hs3). injection Hs3 as ->.
  apply bind_ok in Hp. destruct Hp as (s4 & H4 & Hp). apply on_ctx_inv in H4. destruct H4 as (v & Hv & ->). injection Hv as <-.
  unfold page_geometry in Hp. apply bind_ok in Hp. destruct Hp as ([[[rot pw] ph] p'] & Ha & Hp). injection Hp as <-.
  cbn [rs_ctx with_ctx call] in Ha |- *.
  unfold set_page_area in Hz. apply bind_ok in Hz. destruct Hz as (ax & Ex & Hz). apply bind_ok in Hz. destruct Hz as (ay & Ey & Hz).
  apply bind_ok in Hz. destruct Hz as (aw & Ew & Hz). apply bind_ok in Hz. destruct Hz as (ah & Eh & Hz). apply ok_inj in Hz.
  fold hu in Ex, Ew. fold vu in Ey, Eh.
  apply div_u_inv in Ex, Ey, Ew, Eh. unfold calculate_page_area in Ex, Ey, Ew, Eh. rewrite D in Ex, Ey, Ew, Eh. cbn [a_x a_y a_w a_h] in Ex, Ey, Ew, Eh.
  rewrite !u16_eq in Ex, Ey, Ew, Eh by exact By. cbn [nth Nat.add] in Ex, Ey, Ew, Eh. fold x in Ex. fold y in Ey. fold w in Ew. fold h in Eh.
  clearbody x y w h. subst ax ay aw ah z. clear By K Hd Hh Sc C D NS. unfold page_size, page_w, page_h, page_dir in *.
  destruct s as [[dd [t bc k g [en la ra pa dir prev]]] sp er ca]. cbn [rs_ctx c_page x_page_mode ctx_now p_enabled p_direction p_page_area] in *. subst en dir.
  cbn in Ha. apply bind_ok in Ha. destruct Ha as (rw & E1 & Ha). apply add_u32_inv in E1. destruct E1 as (-> & E1). 
  apply bind_ok in Ha. destruct Ha as (rh & E2 & Ha). apply add_u32_inv in E2. destruct E2 as (-> & E2). apply ok_inj in Ha. injection Ha as <- <- <- <-.
  unfold area_at, page_size, page_w, page_h, page_dir, area_size, area_corner, pen. cbn. repeat split.
Qed.
(** ** Jobs *)
(** The direction, the page, the area and the pen after a job, and the places of the text it printed, on the turned page. *)
Definition position_view (bs : list Z) : res (Z * (Z * Z) * (Z * Z) * (Z * Z) * (Z * Z) * list (Z * Z)) :=
  do l <- parse_esc_pos bs; do s <- run_commands no_encoders0 l renderer_new;
  Ok (direction_code (page_dir (rs_ctx s)), page_size (rs_ctx s), area_corner (rs_ctx s), area_size (rs_ctx s), pen (rs_ctx s),
      flat_map (fun x => match snd x with EText spans _ _ _ => map (fun sp => match s_dimensions sp with Some d => (d_x d, d_y d) | None => (0, 0) end) spans | _ => [] end) (rs_calls s)).
(** page mode, a page of 400 x 300, an area of 300 x 200 at 10, 20 *)
Definition area_job : list Z := [27; 76; 27; 87; 0; 0; 0; 0; 144; 1; 44; 1; 27; 87; 10; 0; 20; 0; 44; 1; 200; 0].
Definition place_job : list Z := [27; 36; 50; 0; 29; 36; 40; 0].
(** Printing to the right and to the top, the pen is put 50 dots right of and 40 below the corner of the area. *)
Example C58_demo : position_view (area_job ++ place_job) = Ok (0, (400, 300), (10, 20), (300, 200), (60, 60), []) /\
  position_view (area_job ++ place_job ++ [65; 10]) = Ok (0, (400, 300), (10, 20), (300, 200), (10, 84), [(60, 60)]) /\
  position_view (area_job ++ [27; 84; 1]) = Ok (1, (400, 300), (10, 20), (300, 200), (10, 220), []) /\
  position_view (area_job ++ [27; 84; 1] ++ place_job) = Ok (1, (400, 300), (10, 20), (300, 200), (60, 60), []) /\
  position_view (area_job ++ place_job ++ [29; 92; 6; 0]) = Ok (0, (400, 300), (10, 20), (300, 200), (60, 66), []).
Proof. repeat split; vm_compute; reflexivity. Qed.
(** Turning the page around moves the area: asked for at a height of 20, it is at 80, 20 above the lower edge. *)
Theorem C58_area_stays_refuted : exists bs, position_view bs = Ok (0, (400, 300), (10, 20), (300, 200), (10, 20), []) /\
  position_view (bs ++ [27; 84; 2]) = Ok (2, (400, 300), (10, 80), (300, 200), (310, 280), []) /\
  position_view (bs ++ [27; 84; 3]) = Ok (3, (400, 300), (10, 80), (300, 200), (310, 80), []).
Proof. exists area_job. repeat split; vm_compute; reflexivity. Qed.
(** Printing to the bottom, ESC $ 50 puts the pen 140 dots right of the area's left edge. *)
Theorem C58_third_direction_refuted : exists bs, position_view (bs ++ [27; 84; 3]) = Ok (3, (400, 300), (10, 80), (300, 200), (310, 80), []) /\
  position_view (bs ++ [27; 84; 3] ++ [27; 36; 50; 0]) = Ok (3, (400, 300), (10, 80), (300, 200), (150, 80), []).
Proof. exists area_job. repeat split; vm_compute; reflexivity. Qed.
(** GS \ -50 leaves the area at its upper edge. *)
Theorem C58_relative_stays_inside_refuted : exists bs, position_view bs = Ok (0, (400, 300), (10, 20), (300, 200), (60, 60), []) /\
  position_view (bs ++ [29; 92; 206; 255]) = Ok (0, (400, 300), (10, 20), (300, 200), (60, 10), []).
Proof. exists (area_job ++ place_job). repeat split; vm_compute; reflexivity. Qed.
(** An area that does not fit on the turned page is not put where it is asked for: at 10, 20 it is asked for, at 10, 0 it is. *)
Theorem C58_area_must_fit_refuted : position_view [27; 76; 27; 84; 1; 27; 87; 10; 0; 20; 0; 44; 1; 200; 0] = Ok (1, (310, 200), (10, 0), (300, 200), (10, 200), []).
Proof. vm_compute. reflexivity. Qed.
