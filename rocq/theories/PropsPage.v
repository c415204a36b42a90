(** * PropsPage: theorems C23, C24 about page mode: print direction and page geometry. *)
From Verif Require Import Base Command CommandSet Parser Vec Float32 GTypes Graphics Decoder Context Text
  Handlers Renderer ContextTheory RendererTheory Origin SpecPrinter StateTheory.
Local Open Scope Z_scope.
Local Open Scope list_scope.

(** an encoder set for the examples *)
Definition no_encoders0 : encoders :=
  mk_encoders (fun _ => None) (fun _ => None) (fun _ => None) (fun _ => None) (fun _ => None)
    (fun _ => None) (fun _ => None) (fun _ => None) (fun _ _ _ _ => None).

(** ** C23 *)

Lemma rotation_turns a b : turns (calculate_directional_rotation a b) = (direction_code b - direction_code a) mod 4.
Proof. destruct a, b; reflexivity. Qed.

(** Turning from [a] to [b] and on to [c] is turning from [a] to [c]; staying is no turn. *)
Theorem C23_rotations_compose : forall a b c,
  (turns (calculate_directional_rotation a b) + turns (calculate_directional_rotation b c)) mod 4
    = turns (calculate_directional_rotation a c) /\
  calculate_directional_rotation a a = R0.
Proof. intros [] [] []; split; reflexivity. Qed.

(** the events of a list, and appending *)
Lemma turned_app a b : turned (a ++ b) = turned a + turned b.
Proof. induction a as [|[x []] a IH]; cbn [turned app]; lia. Qed.

(** the calls that do not turn the page *)
Definition no_turn (x : context * event) : Prop := match snd x with EPageAreaChanged _ _ _ => False | _ => True end.
Lemma adds_no_turn (P : context * event -> Prop) s s' : (forall x, P x -> no_turn x) -> adds P s s' -> turned (rs_calls s') = turned (rs_calls s).
Proof.
  intros W (n & E & F). rewrite E, turned_app. assert (Z0 : turned n = 0); [|lia].
  clear E. induction F as [|[x e] n Hx F IH]; [reflexivity|]. pose proof (W _ Hx) as N.
  destruct e; cbn in N; try contradiction; exact IH.
Qed.
Lemma draw_no_turn x : is_draw_call x -> no_turn x.
Proof. destruct x as [c []]; cbn; tauto. Qed.
Definition same_dir (s s' : rstate) : Prop :=
  p_direction (c_page (rs_ctx s')) = p_direction (c_page (rs_ctx s)) /\ turned (rs_calls s') = turned (rs_calls s).
Lemma same_dir_trans a b c : same_dir a b -> same_dir b c -> same_dir a c.
Proof. intros (A & B) (C & D). split; congruence. Qed.
Lemma text_same_dir s s' : process_text s = Ok s' -> same_dir s s'.
Proof.
  intros H. apply process_text_quiet in H. destruct H as ((M & _ & A) & _). split; [exact (moved_direction _ _ M)|].
  refine (adds_no_turn _ _ _ _ A). intros [c []]; cbn; tauto.
Qed.

(** handlers other than ESC T's leave the direction alone *)
Lemma apply_plain_dir id c x x' :
  id <> P_page_mode_print_direction -> apply_plain id c x = Ok x' -> p_direction (c_page x') = p_direction (c_page x).
Proof.
  intros N H. destruct id; cbn [apply_plain] in H; try (injection H as <-; reflexivity); try congruence.
  - injection H as <-. destruct (ctx_default x); reflexivity.
  - injection H as <-. unfold reset. destruct (ctx_default x); reflexivity.
  - destruct (p_enabled (c_page x)); [|injection H as <-; reflexivity].
    exact (moved_direction _ _ (offset_y_relative_moved _ _ _ H)).
  - destruct (p_enabled (c_page x)); [|injection H as <-; reflexivity].
    unfold set_page_area in H. repeat inv_bind H. injection H as <-. reflexivity.
  - injection H as <-. destruct (_ <? 2); [reflexivity|]. destruct (6 <? _); reflexivity.
  - exact (moved_direction _ _ (set_x_absolute_moved _ _ _ H)).
  - inv_bind H. injection H as <-. reflexivity.
  - injection H as <-. unfold set_motion_units. destruct (_ || _); reflexivity.
  - destruct (p_enabled (c_page x)); [|injection H as <-; reflexivity].
    exact (moved_direction _ _ (set_y_absolute_moved _ _ _ H)).
Qed.
Lemma apply_sub_dir e id c x x' : apply_sub e id c x = Ok x' -> p_direction (c_page x') = p_direction (c_page x).
Proof.
  intros H. destruct id; cbn [apply_sub] in H; try (injection H as <-; reflexivity).
  all: try (unfold define_column, define_raster, store_buffer in H;
    repeat match type of H with (if ?b then _ else _) = _ => destruct b end;
    repeat (try discriminate; inv_bind H); injection H as <-; reflexivity).
  all: unfold qr_store, clear_one in H; repeat inv_bind H; injection H as <-;
    repeat match goal with |- context [match ?z with _ => _ end] => destruct z end; reflexivity.
Qed.
Lemma apply_context_dir e c x x' :
  c_handler c <> HPlain P_page_mode_print_direction -> apply_context e c x = Ok x' ->
  p_direction (c_page x') = p_direction (c_page x).
Proof.
  intros N H. unfold apply_context in H. destruct (c_handler c) as [id| |cap|s|s|s|s|id];
    try (injection H as <-; reflexivity).
  - refine (apply_plain_dir _ _ _ _ _ H). congruence.
  - injection H as <-. unfold character_effects. cbv zeta. destruct (vlen (c_data c) <? 3); [reflexivity|].
    repeat match goal with |- context [match ?z with _ => _ end] => destruct z end; reflexivity.
  - destruct (ss_subcommand s) as [sc|]; [exact (apply_sub_dir _ _ _ _ _ H) | injection H as <-; reflexivity].
  - exact (apply_sub_dir _ _ _ _ _ H).
Qed.

Lemma on_ctx_same f s s' :
  on_ctx f s = Ok s' -> (forall c, f (rs_ctx s) = Ok c -> p_direction (c_page c) = p_direction (c_page (rs_ctx s))) ->
  same_dir s s'.
Proof. intros H F. apply on_ctx_inv in H. destruct H as (c & Hc & ->). split; [exact (F _ Hc) | reflexivity]. Qed.
Lemma call_same ev s : no_turn (rs_ctx s, ev) -> same_dir s (call ev s).
Proof.
  intros N. split; [reflexivity|]. cbn [call rs_calls]. rewrite turned_app. destruct ev; cbn in N; try contradiction; cbn; lia.
Qed.

Lemma apply_logical_dir p rot w h p' : apply_logical_area p = Ok (rot, w, h, p') ->
  p_direction p' = p_direction p /\ rot = calculate_directional_rotation (p_previous_direction p) (p_direction p).
Proof.
  unfold apply_logical_area. intros H. inv_bind H. inv_bind H. inv_bind H. injection H as <- _ _ <-.
  split; [|reflexivity]. cbn [upd_ppa p_direction set_p_page_area].
  match type of Ha with match p_direction ?z with _ => _ end = _ => set (q := z) in * end.
  assert (Q : p_direction q = p_direction p) by (unfold q; destruct (_ || _); reflexivity).
  rewrite <- Q. destruct (p_direction q) eqn:D;
    unfold translate_top_left_to_right, translate_bottom_right_to_left, translate_top_right_to_bottom, translate_bottom_left_to_top in Ha;
    repeat inv_bind Ha; injection Ha as <-; exact D.
Qed.

Lemma page_geometry_dir s s' : page_geometry s = Ok s' ->
  let p := c_page (rs_ctx s) in
  p_direction (c_page (rs_ctx s')) = p_direction p /\
  turned (rs_calls s') = turned (rs_calls s) + turns (calculate_directional_rotation (p_previous_direction p) (p_direction p)).
Proof.
  unfold page_geometry. intros H. inv_bind H. destruct a as [[[rot w] h] p']. injection H as <-.
  destruct (apply_logical_dir _ _ _ _ _ Ha) as (D & ->). split; [exact D|].
  cbn [call rs_calls with_ctx]. rewrite turned_app. cbn [turned]. lia.
Qed.

Lemma device_same_dir d s s' :
  d <> ChangePageModeDirection -> process_device_command d s = Ok s' -> same_dir s s'.
Proof.
  intros N H. unfold process_device_command in H. cbv zeta in H.
  refine (same_dir_trans _ _ _ (call_same (EDevice d) s I) _).
  set (s0 := call (EDevice d) s) in *. clearbody s0.
  assert (R : same_dir s0 s0) by (split; reflexivity).
  destruct d; try (injection H as <-; exact R); try congruence.
  all: try (exact (on_ctx_same _ _ _ H ltac:(intros ? E; injection E as <-; reflexivity))).
  all: try (exact (on_ctx_same _ _ _ H ltac:(intros ? E; exact (moved_direction _ _ (newline_moved _ _ _ E))))).
  - inv_bind H. injection H as <-.
    refine (same_dir_trans _ _ _ (on_ctx_same _ _ _ Ha ltac:(intros ? E; exact (moved_direction _ _ (newline_moved _ _ _ E)))) _).
    apply call_same. exact I.
  - exact (on_ctx_same _ _ _ H ltac:(intros ? E; exact (moved_direction _ _ (feed_moved _ _ _ E)))).
  - injection H as <-. exact (same_dir_trans _ _ _ (call_same EGetErrors s0 I) (call_same EEndRender _ I)).
  - inv_bind H. injection H as <-.
    refine (same_dir_trans _ _ _ (on_ctx_same _ _ _ Ha ltac:(intros ? E; injection E as <-; reflexivity)) _).
    apply call_same. exact I.
  - refine (same_dir_trans _ _ _ (call_same EPageEnd s0 I) _).
    exact (on_ctx_same _ _ _ H ltac:(intros ? E; injection E as <-; reflexivity)).
  - refine (same_dir_trans _ _ _ (call_same ERenderPage s0 I) _).
    refine (on_ctx_same _ _ _ H _). intros c E. inv_bind E. injection E as <-. reflexivity.
  - inv_bind H. apply on_ctx_inv in Ha. destruct Ha as (c & Hc & ->). injection Hc as <-.
    destruct (page_geometry_dir _ _ H) as (D & T). split; [exact D|].
    rewrite T. cbn [rs_ctx with_ctx rs_calls].
    change (c_page (upd_page ?f (rs_ctx s0))) with (f (c_page (rs_ctx s0))).
    cbn [p_previous_direction p_direction set_p_previous_direction].
    destruct (C23_rotations_compose (p_direction (c_page (rs_ctx s0))) TopLeft2Right TopLeft2Right) as (_ & ->). cbn; lia.
  - refine (on_ctx_same _ _ _ H _). intros c E. injection E as <-. unfold set_tab_len. destruct (_ <? _); reflexivity.
Qed.

(** who uses ESC T's handler, and the device command *)
Lemma direction_handler c : sent c -> c_handler c = HPlain P_page_mode_print_direction ->
  c_commands c = [27; 84] /\ c_kind c = KContextControl.
Proof.
  intros S H. destruct (sent_reported _ S) as [(t & Ht & _ & I)|(sc & _ & I)].
  - assert (F : forallb (fun t => match c_handler t with
        | HPlain P_page_mode_print_direction => list_eqb (c_commands t) [27; 84] && match c_kind t with KContextControl => true | _ => false end
        | _ => true end) all_commands = true) by (vm_compute; reflexivity).
    pose proof (proj1 (forallb_forall _ _) F _ Ht) as E. cbv beta in E.
    pose proof (in_handler _ _ I) as L. rewrite H in L. unfold handler_like in L.
    destruct (c_handler t) as [id| |?|?|?|?|?|?]; try contradiction. subst id.
    apply andb_prop in E. destruct E as (E1 & E2). rewrite (in_commands _ _ I), (in_kind _ _ I).
    unfold list_eqb in E1. destruct (list_eq_dec Z.eq_dec (c_commands t) [27; 84]) as [->|]; [|discriminate].
    split; [reflexivity|]. destruct (c_kind t); try discriminate. reflexivity.
  - rewrite (si_handler _ _ I) in H. discriminate.
Qed.
Lemma device_direction c x d : get_device_command c x = Ok d ->
  c_handler c <> HPlain P_page_mode_print_direction -> ~ In ChangePageModeDirection d.
Proof.
  intros H N Hin. unfold get_device_command in H. destruct (c_handler c) as [id| |cap|s|s|s|s|id];
    try (injection H as <-; destruct Hin).
  - destruct id; cbn [device_plain] in H; try congruence;
      try (injection H as <-; cbn in Hin; intuition discriminate);
      try (injection H as <-; destruct (p_enabled (c_page x)); cbn in Hin; intuition discriminate).
    inv_bind H. injection H as <-. cbn in Hin; intuition discriminate.
  - injection H as <-. unfold feed_cut_device in Hin.
    repeat match goal with H : In _ (match ?z with _ => _ end) |- _ => destruct z end; cbn in Hin; intuition discriminate.
  - destruct id; injection H as <-; cbn in Hin; intuition discriminate.
Qed.
Lemma devices_same_dir l s s' : ~ In ChangePageModeDirection l -> process_device_commands l s = Ok s' -> same_dir s s'.
Proof.
  intros N H. unfold process_device_commands in H.
  refine (fold_res_ind _ (fun y => same_dir s y) _ s s' (conj eq_refl eq_refl) _ H).
  intros d y y' Hin Sy E. refine (same_dir_trans _ _ _ Sy (device_same_dir _ _ _ _ E)). congruence.
Qed.

Lemma other_same_dir e c s s' :
  sent c -> c_handler c <> HPlain P_page_mode_print_direction -> process_command e c s = Ok s' -> same_dir s s'.
Proof.
  intros Sc N H.
  assert (AC : forall y y', on_ctx (apply_context e c) y = Ok y' -> same_dir y y').
  { intros y y' E. refine (on_ctx_same _ _ _ E _). intros x Hx. exact (apply_context_dir _ _ _ _ N Hx). }
  unfold process_command in H. destruct (c_kind c).
  - inv_bind H. inv_bind H.
    exact (same_dir_trans _ _ _ (text_same_dir _ _ Ha0) (devices_same_dir _ _ _ (device_direction _ _ _ Ha N) H)).
  - injection H as <-. destruct (get_text c (rs_ctx s)); split; reflexivity.
  - inv_bind H. inv_bind H.
    exact (same_dir_trans _ _ _ (AC _ _ Ha) (devices_same_dir _ _ _ (device_direction _ _ _ Ha0 N) H)).
  - inv_bind H. inv_bind H. inv_bind H. inv_bind H.
    assert (G : same_dir a a1).
    { destruct a0 as [g|]; [|injection Ha1 as <-; split; reflexivity].
      destruct (process_text_moved _ _ Ha) as (_ & Sp).
      destruct (process_gfx_moved _ _ _ Ha1 Sp) as (M & A & _). split; [exact (moved_direction _ _ M)|].
      exact (adds_no_turn _ _ _ draw_no_turn A). }
    exact (same_dir_trans _ _ _ (text_same_dir _ _ Ha) (same_dir_trans _ _ _ G (devices_same_dir _ _ _ (device_direction _ _ _ Ha2 N) H))).
  - inv_bind H. exact (same_dir_trans _ _ _ (text_same_dir _ _ Ha) (AC _ _ H)).
  - inv_bind H. inv_bind H. inv_bind H.
    exact (same_dir_trans _ _ _ (text_same_dir _ _ Ha) (same_dir_trans _ _ _ (AC _ _ Ha0)
      (devices_same_dir _ _ _ (device_direction _ _ _ Ha1 N) H))).
  - injection H as <-. split; reflexivity.
  - inv_bind H. injection H as <-. destruct (text_same_dir _ _ Ha) as (A & B). split; [exact A | exact B].
Qed.

(** ESC T, step by step *)
Lemma esc_t_step e c s s' : sent c -> c_commands c = [27; 84] -> process_command e c s = Ok s' ->
  exists s1 p0 rot w h p',
    process_text s = Ok s1 /\
    p0 = (if p_enabled (c_page (rs_ctx s1))
          then set_p_direction (direction_of (arg 0 c 0)) (set_p_previous_direction (p_direction (c_page (rs_ctx s1))) (c_page (rs_ctx s1)))
          else c_page (rs_ctx s1)) /\
    apply_logical_area p0 = Ok (rot, w, h, p') /\
    c_page (rs_ctx s') = p' /\
    rs_calls s' = rs_calls s1 ++ [(upd_page (fun _ => p0) (rs_ctx s1), EDevice ChangePageModeDirection); (rs_ctx s', EPageAreaChanged rot w h)].
Proof.
  intros S E H.
  pose proof (sent_entry c _ cmd_page_mode_print_direction S E ltac:(cbn; lia) eq_refl) as I.
  pose proof (in_kind _ _ I) as K. cbn [cmd_page_mode_print_direction mk_cmd c_kind] in K.
  pose proof (in_handler _ _ I) as Hd. cbn [cmd_page_mode_print_direction mk_cmd c_handler handler_like] in Hd.
  destruct (c_handler c) as [id| |?|?|?|?|?|?] eqn:Hc; try contradiction. subst id.
  unfold process_command in H. rewrite K in H. apply bind_ok in H. destruct H as (s1 & Hs1 & H).
  apply bind_ok in H. destruct H as (s2 & Hs2 & H). apply on_ctx_inv in Hs2. destruct Hs2 as (x & Hx & ->).
  unfold apply_context in Hx. rewrite Hc in Hx. cbn [apply_plain] in Hx. injection Hx as <-.
  unfold get_device_command in H. rewrite Hc in H. cbn [device_plain bind] in H.
  unfold process_device_commands in H. cbn [fold_res bind process_device_command] in H.
  apply bind_ok in H. destruct H as (s3 & H & Hs3). injection Hs3 as ->.
  unfold page_geometry in H. inv_bind H. destruct a as [[[rot w] h] p']. injection H as <-.
  set (p0 := if p_enabled (c_page (rs_ctx s1)) then set_p_direction (direction_of (arg 0 c 0))
     (set_p_previous_direction (p_direction (c_page (rs_ctx s1))) (c_page (rs_ctx s1))) else c_page (rs_ctx s1)).
  assert (X : (if p_enabled (c_page (rs_ctx s1))
               then upd_page (fun p => set_p_direction (direction_of (arg 0 c 0)) (set_p_previous_direction (p_direction p) p)) (rs_ctx s1)
               else rs_ctx s1) = upd_page (fun _ => p0) (rs_ctx s1)).
  { unfold p0. destruct (p_enabled (c_page (rs_ctx s1))); [reflexivity|]. destruct (rs_ctx s1) as [d []]; reflexivity. }
  exists s1, p0, rot, w, h, p'. cbn [rs_ctx with_ctx call] in Ha |- *. rewrite X in *.
  split; [exact Hs1|]. split; [reflexivity|]. split; [exact Ha|]. split; [reflexivity|].
  cbn [rs_calls with_ctx call]. rewrite <- app_assoc. reflexivity.
Qed.

(** In every such history the quarter turns the output renderer was told to make add up to the
    current print direction. *)
Theorem C23_turns_match_direction : forall e s, page_history e s ->
  turned (rs_calls s) mod 4 = direction_code (p_direction (c_page (rs_ctx s))).
Proof.
  intros e s H. induction H as [|c s s' H IH Sc Pm E].
  - reflexivity.
  - assert (C : c_handler c = HPlain P_page_mode_print_direction \/ c_handler c <> HPlain P_page_mode_print_direction).
    { destruct (c_handler c) as [id| | | | | | |]; try (right; discriminate).
      destruct id; try (right; discriminate); left; reflexivity. }
    destruct C as [C|C].
    + destruct (direction_handler _ Sc C) as (P & _). specialize (Pm P).
      destruct (esc_t_step _ _ _ _ Sc P E) as (s1 & p0 & rot & w & h & p' & T & P0 & A & <- & Cs).
      destruct (text_same_dir _ _ T) as (D1 & T1). destruct (process_text_moved _ _ T) as (M & _).
      rewrite (moved_enabled _ _ M), Pm in P0.
      destruct (apply_logical_dir _ _ _ _ _ A) as (D & ->).
      rewrite Cs, turned_app. cbn [turned]. rewrite T1, D. subst p0. cbn [p_direction p_previous_direction set_p_direction set_p_previous_direction].
      rewrite D1, rotation_turns. set (new := direction_of _). clearbody new.
      revert IH. set (t := turned (rs_calls s)). set (old := p_direction _). clearbody t old. clear. intros IH.
      rewrite Z.add_0_r, Z.add_mod_idemp_r by lia.
      replace (t + (direction_code new - direction_code old)) with (t - direction_code old + direction_code new) by lia.
      rewrite <- Z.add_mod_idemp_l by lia. rewrite <- IH at 1. rewrite <- Zminus_mod_idemp_r, Zmod_mod, Zminus_mod_idemp_r, Z.sub_diag.
      destruct new; reflexivity.
    + destruct (other_same_dir _ _ _ _ Sc C E) as (D & T). rewrite D, T. exact IH.
Qed.

(** Without the hypothesis it fails: ESC T outside page mode announces the last direction change
    once more.  Here: ESC L, ESC T 1, ESC S, ESC T 0. *)
Definition c23_job : list Z := [27; 76; 27; 84; 1; 27; 83; 27; 84; 0].
Theorem C23_direction_in_standard_mode_refuted :
  match parse_esc_pos c23_job with
  | Ok l => match run_commands no_encoders0 l renderer_new with
            | Ok s => (turned (rs_calls s), direction_code (p_direction (c_page (rs_ctx s))))
            | Panic _ => (0, 0) end
  | Panic _ => (0, 0) end = (2, 1).
Proof. vm_compute. reflexivity. Qed.

(** the page area lies as the direction says, and the logical area is on it *)
Definition page_is (w h : Z) (p : page_ctx) : Prop :=
  let l := p_logical_area p in
  (a_w (p_page_area p), a_h (p_page_area p)) = oriented (p_direction p) w h /\
  0 <= a_x l /\ 0 <= a_y l /\ 0 <= a_w l /\ 0 <= a_h l /\ a_x l + a_w l <= w /\ a_y l + a_h l <= h.

Lemma add_u32_ok a b : 0 <= a + b <= u32_max -> add_u32 a b = Ok (a + b).
Proof. intros H. unfold add_u32, chk. destruct (Z.leb_spec 0 (a + b)), (Z.leb_spec (a + b) u32_max); try lia; reflexivity. Qed.
Lemma add_u32_inv a b v : add_u32 a b = Ok v -> v = a + b /\ 0 <= a + b <= u32_max.
Proof.
  unfold add_u32, chk. destruct (Z.leb_spec 0 (a + b)), (Z.leb_spec (a + b) u32_max); cbn; try discriminate.
  intros E. injection E as <-. lia.
Qed.

Lemma turn_keeps d w h p :
  page_is w h p -> w <= u32_max -> h <= u32_max ->
  exists rot w' h' p', apply_logical_area (set_p_direction d (set_p_previous_direction (p_direction p) p))
     = Ok (rot, w', h', p') /\
     page_is w h p' /\ p_direction p' = d /\ p_logical_area p' = p_logical_area p /\ p_enabled p' = p_enabled p.
Proof.
  intros (O & X & Y & W & H & XW & YH) Bw Bh.
  destruct p as [en la ra [px py pw ph] dir prev]. destruct la as [lx ly lw lh].
  cbn [p_logical_area p_page_area p_direction a_x a_y a_w a_h p_enabled set_p_direction set_p_previous_direction] in *.
  unfold page_is.
  assert (Cases : exists sw : bool, (negb (should_dimension_swap dir) && should_dimension_swap d || negb (should_dimension_swap d) && should_dimension_swap dir) = sw
     /\ (if sw then (ph, pw) else (pw, ph)) = oriented d w h).
  { destruct dir, d; cbn in O |- *; injection O as -> ->; eexists; split; reflexivity. }
  destruct Cases as (sw & Sw & O').
  match goal with |- context [set_p_direction d ?z] =>
    change (set_p_direction d z) with (mk_page_ctx en (mk_area lx ly lw lh) ra (mk_area px py pw ph) d dir) end.
  unfold apply_logical_area. cbv zeta. cbn [p_direction p_previous_direction]. rewrite Sw.
  match goal with |- context [p_direction (if sw then ?y else ?z)] => set (q := if sw then y else z) end.
  assert (Q : q = mk_page_ctx en (mk_area lx ly lw lh) ra (mk_area px py (fst (oriented d w h)) (snd (oriented d w h))) d dir).
  { unfold q. rewrite <- O'. destruct sw; reflexivity. }
  rewrite Q. clear q Q Sw O' sw O.
  destruct d; cbn [p_direction oriented fst snd];
    unfold translate_top_left_to_right, translate_bottom_right_to_left, translate_top_right_to_bottom, translate_bottom_left_to_top;
    cbn [p_logical_area p_page_area a_x a_y a_w a_h]; unfold sat_sub;
    repeat (rewrite add_u32_ok by lia; cbn [bind]);
    cbn [set_p_render_area upd_ppa set_p_page_area p_render_area p_page_area p_logical_area p_direction p_enabled set_a_x set_a_y set_a_w set_a_h a_x a_y a_w a_h bind];
    repeat (rewrite add_u32_ok by lia; cbn [bind]);
    eexists _, _, _, _; (split; [reflexivity|]);
    cbn [set_p_render_area upd_ppa set_p_page_area p_render_area p_page_area p_logical_area p_direction p_enabled set_a_x set_a_y set_a_w set_a_h a_x a_y a_w a_h oriented];
    (split; [split; [f_equal; lia | lia] | auto]).
Qed.

(** A page of W x H (standard orientation) covering the logical area: every ESC T in page mode with
    no text pending succeeds, and leaves a W x H page with the same logical area, now lying in the new
    direction. *)
Theorem C23_direction_change_keeps_page : forall e c s w h,
  sent c -> c_commands c = [27; 84] -> rs_spans s = [] ->
  p_enabled (c_page (rs_ctx s)) = true -> page_is w h (c_page (rs_ctx s)) -> w <= u32_max -> h <= u32_max ->
  exists s', process_command e c s = Ok s' /\ rs_spans s' = [] /\
    p_enabled (c_page (rs_ctx s')) = true /\ page_is w h (c_page (rs_ctx s')) /\
    p_direction (c_page (rs_ctx s')) = direction_of (param c 0) /\
    p_logical_area (c_page (rs_ctx s')) = p_logical_area (c_page (rs_ctx s)).
Proof.
  intros e c s w h S E B Pg Pi Bw Bh.
  destruct (turn_keeps (direction_of (param c 0)) w h _ Pi Bw Bh) as (rot & w' & h' & p' & A & Pi' & D & L & En).
  pose proof (sent_entry c _ cmd_page_mode_print_direction S E ltac:(cbn; lia) eq_refl) as I.
  pose proof (in_kind _ _ I) as K. cbn [cmd_page_mode_print_direction mk_cmd c_kind] in K.
  pose proof (in_handler _ _ I) as Hd. cbn [cmd_page_mode_print_direction mk_cmd c_handler handler_like] in Hd.
  destruct (c_handler c) as [id| |?|?|?|?|?|?] eqn:Hc; try contradiction. subst id.
  unfold process_command. rewrite K. unfold process_text. rewrite B. cbn [bind].
  unfold on_ctx, apply_context. rewrite Hc. cbn [apply_plain bind]. rewrite Pg.
  unfold get_device_command. rewrite Hc. cbn [device_plain bind].
  unfold process_device_commands. cbn [fold_res bind process_device_command]. unfold page_geometry.
  cbn [rs_ctx with_ctx call]. change (c_page (upd_page ?f (rs_ctx s))) with (f (c_page (rs_ctx s))). cbv beta.
  change (arg 0 c 0) with (param c 0). rewrite A. cbn [bind].
  eexists. split; [reflexivity|]. cbn [rs_spans rs_ctx with_ctx call].
  change (c_page (upd_page ?f ?x)) with (f (c_page x)). cbv beta.
  split; [exact B|]. split; [congruence|]. auto.
Qed.

(** Any walk of direction changes keeps the page; a closed one brings back its orientation, its
    dimensions and a total rotation of no turn. *)
Theorem C23_walks : forall e l s w h,
  Forall (fun c => sent c /\ c_commands c = [27; 84]) l -> rs_spans s = [] ->
  p_enabled (c_page (rs_ctx s)) = true -> page_is w h (c_page (rs_ctx s)) -> w <= u32_max -> h <= u32_max ->
  exists s', run_commands e l s = Ok s' /\ page_is w h (c_page (rs_ctx s')) /\
    p_enabled (c_page (rs_ctx s')) = true /\
    p_direction (c_page (rs_ctx s')) =
      last (map (fun c => direction_of (param c 0)) l) (p_direction (c_page (rs_ctx s))) /\
    (turned (rs_calls s') - turned (rs_calls s)) mod 4 =
      (direction_code (p_direction (c_page (rs_ctx s'))) - direction_code (p_direction (c_page (rs_ctx s)))) mod 4 /\
    (p_direction (c_page (rs_ctx s')) = p_direction (c_page (rs_ctx s)) ->
       a_w (p_page_area (c_page (rs_ctx s'))) = a_w (p_page_area (c_page (rs_ctx s))) /\
       a_h (p_page_area (c_page (rs_ctx s'))) = a_h (p_page_area (c_page (rs_ctx s)))).
Proof.
  intros e l s w h F B Pg Pi Bw Bh.
  assert (G : exists s', run_commands e l s = Ok s' /\ page_is w h (c_page (rs_ctx s')) /\
    p_enabled (c_page (rs_ctx s')) = true /\
    p_direction (c_page (rs_ctx s')) =
      last (map (fun c => direction_of (param c 0)) l) (p_direction (c_page (rs_ctx s))) /\
    (turned (rs_calls s') - turned (rs_calls s)) mod 4 =
      (direction_code (p_direction (c_page (rs_ctx s'))) - direction_code (p_direction (c_page (rs_ctx s)))) mod 4).
  { revert s B Pg Pi. induction F as [|c l (Sc & Pc) F IH]; intros s B Pg Pi.
    - exists s. split; [reflexivity|]. split; [exact Pi|]. split; [exact Pg|]. split; [reflexivity|]. now rewrite !Z.sub_diag.
    - destruct (C23_direction_change_keeps_page e c s w h Sc Pc B Pg Pi Bw Bh) as (s1 & H1 & B1 & Pg1 & Pi1 & D1 & _).
      destruct (IH s1 B1 Pg1 Pi1) as (s' & H' & Pi' & Pg' & D' & T').
      exists s'. unfold run_commands. cbn [fold_res]. rewrite H1. cbn [bind]. split; [exact H'|].
      split; [exact Pi'|]. split; [exact Pg'|]. split.
      + rewrite D'. rewrite D1. cbn [map]. destruct (map _ l) as [|x r]; [reflexivity|].
        clear. cbn [last]. generalize (direction_of (param c 0)) as y, (p_direction (c_page (rs_ctx s))) as z.
        revert x. induction r as [|u r IHr]; intros x y z; [reflexivity|]. exact (IHr u y z).
      + assert (T1 : (turned (rs_calls s1) - turned (rs_calls s)) mod 4 =
           (direction_code (p_direction (c_page (rs_ctx s1))) - direction_code (p_direction (c_page (rs_ctx s)))) mod 4).
        { destruct (esc_t_step _ _ _ _ Sc Pc H1) as (s0 & p0 & rot & w' & h' & p' & T & P0 & A & <- & Cs).
          unfold process_text in T. rewrite B in T. injection T as <-. rewrite Pg in P0.
          destruct (apply_logical_dir _ _ _ _ _ A) as (D & ->).
          rewrite Cs, turned_app. cbn [turned]. rewrite D. subst p0.
          cbn [p_direction p_previous_direction set_p_direction set_p_previous_direction].
          rewrite rotation_turns. set (a := direction_code _). set (b := direction_code _). set (t := turned _).
          clearbody a b t. clear. replace (t + ((a - b) mod 4 + 0) - t) with ((a - b) mod 4) by lia. now rewrite Zmod_mod. }
        revert T1 T'. generalize (turned (rs_calls s')), (turned (rs_calls s1)), (turned (rs_calls s)).
        generalize (direction_code (p_direction (c_page (rs_ctx s')))), (direction_code (p_direction (c_page (rs_ctx s1)))),
          (direction_code (p_direction (c_page (rs_ctx s)))). clear. intros a b c x y z H1 H2.
        replace (x - z) with ((x - y) + (y - z)) by lia. replace (a - c) with ((a - b) + (b - c)) by lia.
        rewrite (Zplus_mod (x - y)), (Zplus_mod (a - b)). congruence. }
  destruct G as (s' & H1 & H2 & H3 & H4 & H5). exists s'. repeat (split; [assumption|]).
  intros D. destruct H2 as (O' & _). destruct Pi as (O & _). rewrite D in O'. rewrite <- O in O'. injection O' as -> ->. auto.
Qed.

(** ESC L, ESC W 10,20,300x200 and a walk 1, 3, 2, 0 over the page. *)
Example C23_demo :
  match parse_esc_pos ([27; 76; 27; 87; 10; 0; 20; 0; 44; 1; 200; 0; 27; 84; 1; 27; 84; 3; 27; 84; 2; 27; 84; 0]) with
  | Ok l => match run_commands no_encoders0 l renderer_new with
            | Ok s => flat_map (fun x => match snd x with EPageAreaChanged r w h => [(turns r, w, h)] | _ => [] end) (rs_calls s)
            | Panic _ => [] end
  | Panic _ => [] end = [(0, 310, 220); (1, 220, 310); (2, 220, 310); (3, 310, 220); (2, 310, 220)].
Proof. vm_compute. reflexivity. Qed.

(** ** C24 *)

(** What one page geometry change does to the page: dimensions as if only turned, then grown. *)
Theorem C24_page_covers_print_area : forall p rot w h p',
  apply_logical_area p = Ok (rot, w, h, p') ->
  let turned_w := if Bool.eqb (should_swap (p_previous_direction p)) (should_swap (p_direction p)) then a_w (p_page_area p) else a_h (p_page_area p) in
  let turned_h := if Bool.eqb (should_swap (p_previous_direction p)) (should_swap (p_direction p)) then a_h (p_page_area p) else a_w (p_page_area p) in
  let r := p_render_area p' in
  w = a_w (p_page_area p') /\ h = a_h (p_page_area p') /\
  a_x r + a_w r <= w /\ a_y r + a_h r <= h /\
  turned_w <= w /\ turned_h <= h /\
  (w = turned_w \/ w = a_x r + a_w r) /\ (h = turned_h \/ h = a_y r + a_h r) /\
  a_x (p_page_area p') = a_x r /\ a_y (p_page_area p') = a_y r /\
  p_logical_area p' = p_logical_area p.
Proof.
  intros p rot w h p' H. unfold apply_logical_area in H. cbv zeta in H |- *.
  change should_swap with should_dimension_swap.
  set (tw := if Bool.eqb _ _ then a_w _ else _). set (th := if Bool.eqb _ _ then a_h _ else _).
  set (q := if negb (should_dimension_swap (p_previous_direction p)) && should_dimension_swap (p_direction p) || negb (should_dimension_swap (p_direction p)) && should_dimension_swap (p_previous_direction p)
            then upd_ppa (fun a => set_a_w (a_h a) (set_a_h (a_w a) a)) p else p) in H.
  assert (Q : a_w (p_page_area q) = tw /\ a_h (p_page_area q) = th /\ p_logical_area q = p_logical_area p).
  { unfold q, tw, th. destruct (should_dimension_swap (p_previous_direction p)), (should_dimension_swap (p_direction p)); cbn; repeat split; reflexivity. }
  clearbody q tw th. destruct Q as (Qw & Qh & Ql).
  apply bind_ok in H. destruct H as (q' & Hq & H). apply bind_ok in H. destruct H as (mw & Hmw & H).
  apply bind_ok in H. destruct H as (mh & Hmh & H). injection H as <- <- <- <-.
  assert (K : p_page_area q' = p_page_area q /\ p_logical_area q' = p_logical_area q).
  { destruct (p_direction q);
    unfold translate_top_left_to_right, translate_bottom_right_to_left, translate_top_right_to_bottom, translate_bottom_left_to_top in Hq;
    repeat inv_bind Hq; injection Hq as <-; split; reflexivity. }
  destruct K as (K & K'). apply add_u32_inv in Hmw. apply add_u32_inv in Hmh.
  cbn [upd_ppa set_p_page_area p_page_area p_render_area p_logical_area set_a_w set_a_h set_a_x set_a_y a_w a_h a_x a_y].
  rewrite K, Qw, Qh, K', Ql. destruct Hmw as (-> & _). destruct Hmh as (-> & _).
  repeat (split; [first [reflexivity | lia]|]). auto.
Qed.

(** Hence: setting a print area (ESC W) in any state never shrinks the page, the page it announces
    contains the new print area, and a page already containing it keeps its size. *)
Theorem C24_print_area_command : forall e c s s',
  sent c -> c_commands c = [27; 87] -> process_command e c s = Ok s' ->
  let p := c_page (rs_ctx s) in let p' := c_page (rs_ctx s') in let r := p_render_area p' in
  exists x l, rs_calls s' = l ++ [(x, EPageAreaChanged R0 (a_w (p_page_area p')) (a_h (p_page_area p')))] /\
    a_w (p_page_area p) <= a_w (p_page_area p') /\ a_h (p_page_area p) <= a_h (p_page_area p') /\
    a_x r + a_w r <= a_w (p_page_area p') /\ a_y r + a_h r <= a_h (p_page_area p') /\
    (a_x r + a_w r <= a_w (p_page_area p) -> a_w (p_page_area p') = a_w (p_page_area p)) /\
    (a_y r + a_h r <= a_h (p_page_area p) -> a_h (p_page_area p') = a_h (p_page_area p)).
Proof.
  intros e c s s' S E H. cbv zeta.
  pose proof (sent_entry c _ cmd_page_mode_print_area S E ltac:(cbn; lia) eq_refl) as I.
  pose proof (in_kind _ _ I) as K. cbn [cmd_page_mode_print_area mk_cmd c_kind] in K.
  pose proof (in_handler _ _ I) as Hd. cbn [cmd_page_mode_print_area mk_cmd c_handler handler_like] in Hd.
  destruct (c_handler c) as [id| |?|?|?|?|?|?] eqn:Hc; try contradiction. subst id.
  unfold process_command in H. rewrite K in H. apply bind_ok in H. destruct H as (s1 & Hs1 & H).
  apply bind_ok in H. destruct H as (s2 & Hs2 & H). apply on_ctx_inv in Hs2. destruct Hs2 as (x & Hx & ->).
  unfold apply_context in Hx. rewrite Hc in Hx. cbn [apply_plain] in Hx.
  unfold get_device_command in H. rewrite Hc in H. cbn [device_plain bind] in H.
  unfold process_device_commands in H. cbn [fold_res bind process_device_command] in H.
  apply bind_ok in H. destruct H as (s3 & H & Hs3). injection Hs3 as ->.
  apply bind_ok in H. destruct H as (s4 & H4 & H). apply on_ctx_inv in H4. destruct H4 as (y & Hy & ->). injection Hy as <-.
  unfold page_geometry in H. inv_bind H. destruct a as [[[rot w] h] p']. injection H as <-.
  cbn [rs_ctx with_ctx call] in Ha |- *.
  assert (P : p_page_area (c_page x) = p_page_area (c_page (rs_ctx s))).
  { destruct (process_text_moved _ _ Hs1) as (M & _). rewrite <- (moved_page_area _ _ M).
    destruct (p_enabled (c_page (rs_ctx s1))); [|injection Hx as <-; reflexivity].
    unfold set_page_area in Hx. repeat inv_bind Hx. injection Hx as <-. reflexivity. }
  change (c_page (upd_page ?f ?z)) with (f (c_page z)) in Ha |- *. cbv beta in Ha |- *.
  pose proof (apply_logical_dir _ _ _ _ _ Ha) as (_ & Rot).
  pose proof (C24_page_covers_print_area _ _ _ _ _ Ha) as G.
  cbn [p_previous_direction p_direction set_p_previous_direction p_page_area] in G, Rot. cbv zeta in G.
  rewrite Bool.eqb_reflx, P in G. destruct G as (-> & -> & G1 & G2 & G3 & G4 & G5 & G6 & _).
  destruct (C23_rotations_compose (p_direction (c_page x)) TopLeft2Right TopLeft2Right) as (_ & R). rewrite R in Rot. subst rot.
  eexists _, _. split; [cbn [rs_calls with_ctx call]; reflexivity|].
  repeat match goal with |- _ /\ _ => split end; intros; lia.
Qed.
