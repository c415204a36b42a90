(** * PropsMotion: C54, the paper only moves forward. *)
From Verif Require Import Base Command CommandSet Parser Vec Float32 GTypes Graphics Utf8 Decoder Context Text
  Upce Handlers Renderer ContextTheory RendererTheory Origin SpecPrinter StateTheory PropsText SpecRender
  PropsOutput LayoutTheory AreaTheory PlaceTheory PropsContext PropsLayout PropsPlace SafeTheory PenTheory CallsTheory FlatTheory SpecLines PropsLines.
Local Open Scope Z_scope.
Local Open Scope list_scope.

Definition between (a b : Z) (x : context * event) : Prop := Forall (fun t => a <= t <= b) (printed_tops (snd x)).
Definition down (s s' : rstate) : Prop :=
  standard (rs_ctx s') /\ get_y (rs_ctx s) <= get_y (rs_ctx s') /\
  exists new, rs_calls s' = rs_calls s ++ new /\ Forall (between (get_y (rs_ctx s)) (get_y (rs_ctx s'))) new.
Lemma down_refl s : standard (rs_ctx s) -> down s s.
Proof. intros S. split; [exact S|]. split; [lia|]. exists []. rewrite app_nil_r. auto. Qed.
Lemma between_more a b a' b' x : a' <= a -> b <= b' -> between a b x -> between a' b' x.
Proof. intros A B. apply Forall_impl. intros. lia. Qed.
Lemma down_trans a b c : down a b -> down b c -> down a c.
Proof.
  intros (_ & Y1 & n1 & E1 & F1) (S & Y2 & n2 & E2 & F2). split; [exact S|]. split; [lia|]. exists (n1 ++ n2). rewrite E2, E1, <- app_assoc. split; [reflexivity|].
  apply Forall_app. split; (eapply Forall_impl; [|eassumption]; intros x; apply between_more; lia).
Qed.
Lemma down_call ev s : standard (rs_ctx s) -> Forall (fun t => t = get_y (rs_ctx s)) (printed_tops ev) -> down s (call ev s).
Proof.
  intros S F. split; [exact S|]. split; [cbn [call rs_ctx]; lia|]. eexists. split; [reflexivity|]. constructor; [|constructor].
  cbn [call rs_ctx snd fst]. unfold between. cbn [snd]. eapply Forall_impl; [|exact F]. cbn beta. intros; lia.
Qed.
Lemma down_ctx f s s' : (forall c, f (rs_ctx s) = Ok c -> standard c /\ get_y (rs_ctx s) <= get_y c) -> on_ctx f s = Ok s' -> down s s'.
Proof.
  intros F H. apply on_ctx_inv in H. destruct H as (c & Hc & ->). destruct (F _ Hc) as (S & Y). split; [exact S|]. split; [exact Y|].
  exists []. cbn [with_ctx rs_calls]. rewrite app_nil_r. auto.
Qed.
Lemma std_moved c c' : moved c c' -> standard c -> standard c'.
Proof. intros M S. unfold standard. rewrite (moved_enabled _ _ M). exact S. Qed.
Lemma down_text s s' : standard (rs_ctx s) -> sinv (rs_ctx s) -> process_text s = Ok s' -> down s s'.
Proof.
  intros Std S H. pose proof (proj1 (proj1 (process_text_quiet _ _ H))) as M.
  destruct (flush_band _ _ S H) as (new & E & T & _ & _ & B & Y & _). split; [exact (std_moved _ _ M Std)|]. split; [exact Y|].
  exists new. split; [exact E|]. apply Forall_forall. intros (x, ev) Hx. unfold between. cbn [snd]. apply Forall_forall. intros t Ht.
  pose proof (proj1 (Forall_forall _ _) T _ Hx) as Tx. unfold is_text_call in Tx. cbn [snd] in Tx. destruct ev; try contradiction. cbn [printed_tops] in Ht.
  apply in_flat_map in Ht. destruct Ht as (w & Hw & Ht).
  assert (Ip : In w (pieces_of new)) by (apply in_flat_map; eexists; split; [exact Hx | exact Hw]).
  destruct (proj1 (Forall_forall _ _) B _ Ip) as (d & D & R). rewrite D in Ht. destruct Ht as [<-|[]]. exact R.
Qed.
Lemma newline_down n s s' : standard (rs_ctx s) -> sinv (rs_ctx s) -> 0 <= n -> on_ctx (newline n) s = Ok s' -> down s s'.
Proof.
  intros Std S N. apply down_ctx. intros c Hc. split; [exact (std_moved _ _ (newline_moved _ _ _ Hc) Std)|].
  destruct (line_pos _ _ _ Hc) as (_ & ->). pose proof (tk_spacing _ (si_text _ S)). nia.
Qed.
Lemma down_hri b s s' : standard (rs_ctx s) -> sinv (rs_ctx s) -> barcode_text b s = Ok s' -> down s s' /\ sinv (rs_ctx s').
Proof.
  intros Std S H. unfold barcode_text in H. apply bind_ok in H. destruct H as (s1 & H1 & H).
  pose proof (down_text (collect_text (b_text b) s) _ Std S H1) as D1.
  pose proof (sinv_moved _ _ (proj1 (proj1 (process_text_quiet _ _ H1))) S) as S1.
  split; [exact (down_trans _ _ _ D1 (newline_down 1 _ _ (proj1 D1) S1 ltac:(lia) H))|].
  exact (sinv_moved _ _ (on_ctx_moved _ _ _ (fun c Hc => newline_moved _ _ _ Hc) H) S1).
Qed.
Lemma down_code2d q s s' : standard (rs_ctx s) -> 0 <= q_point_height q -> process_code_2d q s = Ok s' -> down s s'.
Proof.
  intros Std Ph H. unfold process_code_2d in H. apply bind_ok in H. destruct H as (t & _ & H). cbv zeta in H.
  apply bind_ok in H. destruct H as (c & Hc & H). apply bind_ok in H. destruct H as ([[c1 i] rects] & Hf & H). injection H as <-.
  set (y0 := get_y (rs_ctx s)).
  assert (X : standard c1 /\ y0 <= get_y c1 /\ Forall (fun r => y0 <= r_y r <= get_y c1) rects).
  { refine (fold_res_ind _ (fun y => standard (fst (fst y)) /\ y0 <= get_y (fst (fst y)) /\ Forall (fun r => y0 <= r_y r <= get_y (fst (fst y))) (snd y)) _ (c, 1, []) (c1, i, rects) _ _ Hf).
    - cbn [fst snd]. split; [exact (std_moved _ _ (set_x_moved _ _ _ Hc) Std)|]. destruct (set_x_pos _ _ _ Hc) as (_ & ->). split; [unfold y0; lia | constructor].
    - intros x [[cy iy] ry] y' _ (Sy & Yy & Fy) E. cbn [fst snd] in *. unfold code2d_point in E. cbv zeta in E.
      apply bind_ok in E. destruct E as (a & Ha & E).
      assert (Xa : standard a /\ get_y cy <= get_y a).
      { destruct (negb (iy =? 1)); [|injection Ha as <-; split; [exact Sy | lia]].
        destruct (q_width q =? 0); [discriminate|].
        destruct (iy mod q_width q =? 1); [|injection Ha as <-; split; [exact Sy | lia]].
        apply bind_ok in Ha. destruct Ha as (a1 & Ha1 & Ha). split; [exact (std_moved _ _ (offset_y_moved _ _ _ Ha) (std_moved _ _ (set_x_moved _ _ _ Ha1) Sy))|].
        destruct (offset_y_pos _ _ _ Ha) as (-> & _). destruct (set_x_pos _ _ _ Ha1) as (_ & ->). lia. }
      destruct Xa as (Sa & Ya).
      assert (Fa : Forall (fun r => y0 <= r_y r <= get_y a) ry) by (eapply Forall_impl; [|exact Fy]; cbn beta; intros; lia).
      destruct ((0 <? x) && (get_available_width a <? q_point_width q)); [injection E as <-; cbn [fst snd]; split; [exact Sa | split; [lia | exact Fa]]|].
      apply bind_ok in E. destruct E as (a2 & Ha2 & E). apply bind_ok in E. destruct E as (a3 & _ & E). injection E as <-. cbn [fst snd].
      destruct (offset_x_pos _ _ _ Ha2) as (_ & Y2). rewrite Y2. split; [exact (std_moved _ _ (offset_x_moved _ _ _ Ha2) Sa)|]. split; [lia|].
      destruct (0 <? x); [|exact Fa]. apply Forall_app. split; [exact Fa | constructor; [cbn [r_y]; lia | constructor]]. }
  destruct X as (S1 & Y1 & F1). destruct (reset_x_pos c1) as (_ & Yr).
  split; [exact (std_moved _ _ (moved_reset_x _) S1)|]. cbn [call with_ctx rs_ctx rs_calls]. rewrite Yr. split; [exact Y1|].
  eexists. split; [reflexivity|]. constructor; [|constructor]. unfold between. cbn [snd printed_tops]. apply Forall_map. exact F1.
Qed.
Lemma down_barcode b s s' : standard (rs_ctx s) -> sinv (rs_ctx s) -> 0 <= b_point_height b -> process_barcode b s = Ok s' -> down s s'.
Proof.
  intros Std S Bh H. unfold process_barcode in H. apply bind_ok in H. destruct H as (s1 & H1 & H).
  assert (X1 : down s s1 /\ sinv (rs_ctx s1)).
  { destruct (bc_human_readable _); try (injection H1 as <-; split; [exact (down_refl _ Std) | exact S]); exact (down_hri _ _ _ Std S H1). }
  clear H1. destruct X1 as (D1 & S1). refine (down_trans _ _ _ D1 _). apply proj1 in D1. rename D1 into Std1. clear Std S s.
  apply bind_ok in H. destruct H as (t & _ & H). apply bind_ok in H. destruct H as (s2 & H2 & H).
  pose proof (on_ctx_moved _ _ _ (fun c Hc => set_x_moved _ _ _ Hc) H2) as M2.
  assert (D2 : down s1 s2).
  { refine (down_ctx _ _ _ _ H2). intros c Hc. split; [exact (std_moved _ _ (set_x_moved _ _ _ Hc) Std1)|]. destruct (set_x_pos _ _ _ Hc) as (_ & ->). lia. }
  pose proof (sinv_moved _ _ M2 S1) as S2. refine (down_trans _ _ _ D2 _). apply proj1 in D2. rename D2 into Std2. clear H2 M2 S1 Std1 s1.
  apply bind_ok in H. destruct H as ((c & rects) & Hf & H). cbv zeta in H.
  assert (X : moved (rs_ctx s2) c /\ get_y c = get_y (rs_ctx s2) /\ Forall (fun r => r_y r = get_y (rs_ctx s2)) rects).
  { refine (fold_res_ind _ (fun y => moved (rs_ctx s2) (fst y) /\ get_y (fst y) = get_y (rs_ctx s2) /\ Forall (fun r => r_y r = get_y (rs_ctx s2)) (snd y)) _ (rs_ctx s2, []) (c, rects) _ _ Hf).
    - split; [apply moved_refl | split; [reflexivity | constructor]].
    - intros x [cy ry] y' _ (My & Yy & Fy) E. cbn [fst snd] in *. pose proof (moved_trans _ _ _ My (barcode_point_moved _ _ _ _ E)) as My'.
      split; [exact My'|]. unfold barcode_point in E. cbv zeta in E.
      destruct ((0 <? x) && (get_available_width cy <? b_point_width b)); [injection E as <-; auto|].
      apply bind_ok in E. destruct E as (a & Ha & E). injection E as <-. cbn [fst snd]. destruct (offset_x_pos _ _ _ Ha) as (_ & ->). split; [exact Yy|].
      destruct (0 <? x); [|exact Fy]. apply Forall_app. split; [exact Fy | constructor; [exact Yy | constructor]]. }
  destruct X as (M & Y & F). apply bind_ok in H. destruct H as (s4 & H4 & H).
  pose proof (std_moved _ _ M Std2) as Stdc. pose proof (sinv_moved _ _ M S2) as Sc.
  assert (D3 : down s2 (with_ctx c s2)).
  { split; [exact Stdc|]. cbn [with_ctx rs_ctx rs_calls]. rewrite Y. split; [lia|]. exists []. rewrite app_nil_r. auto. }
  assert (D4 : down (with_ctx c s2) (call (EGraphics rects) (with_ctx c s2))).
  { apply down_call; [exact Stdc|]. cbn [printed_tops with_ctx rs_ctx]. apply Forall_map. rewrite Y. exact F. }
  assert (M4 : moved c (rs_ctx s4)).
  { refine (on_ctx_moved _ (call (EGraphics rects) (with_ctx c s2)) _ _ H4). intros d Hd. exact (moved_trans _ _ _ (moved_reset_x _) (offset_y_moved _ _ _ Hd)). }
  assert (D5 : down (call (EGraphics rects) (with_ctx c s2)) s4).
  { refine (down_ctx _ _ _ _ H4). cbn [call with_ctx rs_ctx]. intros d Hd. split; [exact (std_moved _ _ (moved_trans _ _ _ (moved_reset_x _) (offset_y_moved _ _ _ Hd)) Stdc)|].
    destruct (offset_y_pos _ _ _ Hd) as (-> & _). destruct (reset_x_pos c) as (_ & ->). lia. }
  refine (down_trans _ _ _ D3 (down_trans _ _ _ D4 (down_trans _ _ _ D5 _))). clear D3 D4. apply proj1 in D5. pose proof (sinv_moved _ _ M4 Sc) as S4.
  destruct (bc_human_readable (c_barcode (rs_ctx s4))); try (injection H as <-; exact (down_refl _ D5));
    (apply bind_ok in H; destruct H as (s5 & H5 & H);
     assert (D6 : down s4 s5) by (refine (down_ctx _ _ _ _ H5); intros d Hd; split; [exact (std_moved _ _ (offset_y_moved _ _ _ Hd) D5)|]; destruct (offset_y_pos _ _ _ Hd) as (-> & _); lia);
     refine (down_trans _ _ _ D6 (proj1 (down_hri _ _ _ (proj1 D6) _ H)));
     exact (sinv_moved _ _ (on_ctx_moved _ _ _ (fun c Hc => offset_y_moved _ _ _ Hc) H5) S4)).
Qed.
Lemma down_image i s s' : standard (rs_ctx s) -> sinv (rs_ctx s) -> 0 <= i_h i -> process_image i s = Ok s' -> down s s'.
Proof.
  intros Std S Ih H. unfold process_image in H. cbv zeta in H. apply bind_ok in H. destruct H as (s1 & H1 & H).
  assert (D1 : down s s1).
  { destruct (i_flow i).
    - destruct (_ <? _); [|injection H1 as <-; exact (down_refl _ Std)]. exact (newline_down 1 _ _ Std S ltac:(lia) H1).
    - destruct (p_enabled _); [injection H1 as <-; exact (down_refl _ Std)|].
      refine (down_ctx _ _ _ _ H1). intros c Hc. split; [exact (std_moved _ _ (set_x_moved _ _ _ Hc) Std)|]. destruct (set_x_pos _ _ _ Hc) as (_ & ->). lia.
    - injection H1 as <-. exact (down_refl _ Std). }
  refine (down_trans _ _ _ D1 _). apply proj1 in D1. clear H1 Std S s.
  match type of H with match i_flow ?z with _ => _ end = _ => set (i' := z) in H end.
  assert (D2 : down s1 (call (EImage i') s1)).
  { apply down_call; [exact D1|]. constructor; [reflexivity | constructor]. }
  refine (down_trans _ _ _ D2 _). apply proj1 in D2. assert (Hh : i_h i' = i_h i) by reflexivity. destruct (i_flow i').
  - refine (down_ctx _ _ _ _ H). intros c Hc. split; [exact (std_moved _ _ (offset_x_moved _ _ _ Hc) D2)|]. destruct (offset_x_pos _ _ _ Hc) as (_ & ->). cbn [call rs_ctx]. lia.
  - match type of H with context [p_enabled ?z] => destruct (p_enabled z) end; [injection H as <-; exact (down_refl _ D2)|].
    refine (down_ctx _ _ _ _ H). intros c Hc. apply bind_ok in Hc. destruct Hc as (d & Hd & Hc). injection Hc as <-.
    split; [exact (std_moved _ _ (moved_trans _ _ _ (offset_y_moved _ _ _ Hd) (moved_reset_x _)) D2)|].
    destruct (reset_x_pos d) as (_ & ->). destruct (offset_y_pos _ _ _ Hd) as (-> & _). lia.
  - injection H as <-. exact (down_refl _ D2).
Qed.
Lemma down_gfx g s s' : standard (rs_ctx s) -> sinv (rs_ctx s) -> draw_wf g -> process_gfx g s = Ok s' -> down s s'.
Proof.
  intros Std S W H. destruct g; cbn [process_gfx draw_wf] in *.
  - injection H as <-. exact (down_refl s Std).
  - exact (down_code2d _ _ _ Std (proj1 (proj2 W)) H).
  - exact (down_barcode _ _ _ Std S (proj1 (proj1 (proj2 W))) H).
  - refine (down_image _ _ _ Std S _ H). destruct W as [W1 W2 W3]. unfold u32v in *. lia.
Qed.
Definition goes (d : device_command) : Prop :=
  match d with Feed n | FeedLine n => -255 <= n | PrintPageMode | BeginPageMode => False | _ => True end.
Lemma down_device d s s' : goes d -> standard (rs_ctx s) -> sinv (rs_ctx s) -> process_device_command d s = Ok s' -> down s s'.
Proof.
  intros N Std S H. unfold process_device_command in H. cbv zeta in H.
  assert (D0 : down s (call (EDevice d) s)) by (apply down_call; [exact Std | constructor]). refine (down_trans _ _ _ D0 _).
  set (s0 := call (EDevice d) s) in *. assert (Std0 : standard (rs_ctx s0)) by exact Std. assert (S0 : sinv (rs_ctx s0)) by exact S. clearbody s0. clear D0 Std S s. rename s0 into s.
  assert (Same : forall f y, (forall c, f (rs_ctx s) = Ok c -> p_enabled (c_page c) = false /\ get_y c = get_y (rs_ctx s)) -> on_ctx f s = Ok y -> down s y).
  { intros f y F. apply down_ctx. intros c Hc. destruct (F _ Hc) as (A & B). split; [exact A | lia]. }
  assert (G : forall y y', standard (rs_ctx y) -> page_geometry y = Ok y' -> down y y').
  { intros y y' Sy E. pose proof (page_geometry_mode _ _ E) as (M & _). unfold page_geometry in E. apply bind_ok in E. destruct E as ([[[rot w] h] p] & _ & E).
    injection E as <-. unfold mode in M. cbn [call with_ctx rs_ctx] in M.
    split; [unfold standard; cbn [call with_ctx rs_ctx]; rewrite M; exact Sy|]. cbn [call with_ctx rs_ctx rs_calls].
    assert (Ey : get_y (upd_page (fun _ => p) (rs_ctx y)) = get_y (rs_ctx y)) by (unfold get_y; rewrite M, Sy; reflexivity).
    rewrite Ey. split; [lia|]. eexists. split; [reflexivity|]. constructor; [constructor | constructor]. }
  assert (NL : forall n y, 0 <= n -> on_ctx (newline n) s = Ok y -> down s y) by (intros n y P; exact (newline_down n _ _ Std0 S0 P)).
  assert (I16 : forall n, -255 <= n -> 0 <= i16_as_u32 n) by (intros n P; unfold i16_as_u32; destruct (Z.ltb_spec n 0); lia).

  destruct d; try (injection H as <-; exact (down_refl _ Std0)).
  all: try (refine (Same _ _ _ H); intros ? E; injection E as <-; split; [exact Std0 | reflexivity]).
  all: try contradiction; cbn [goes] in N.
  all: try (refine (NL 2 _ _ H); lia).
  - apply bind_ok in H. destruct H as (s1 & H1 & H). injection H as <-. pose proof (NL 2 _ ltac:(lia) H1) as D1. refine (down_trans _ _ _ D1 _). apply down_call; [exact (proj1 D1) | constructor].
  - refine (down_ctx _ _ _ _ H). intros c Hc. split; [exact (std_moved _ _ (feed_moved _ _ _ Hc) Std0)|]. unfold Context.feed in Hc.
    apply bind_ok in Hc. destruct Hc as (d & Hd & Hc). injection Hc as <-. destruct (reset_x_pos d) as (_ & ->). destruct (offset_y_pos _ _ _ Hd) as (-> & _). pose proof (I16 _ N). lia.
  - exact (NL _ _ (I16 _ N) H).
  - injection H as <-. refine (down_trans _ (call EGetErrors s) _ _ _); apply down_call; (exact Std0 || constructor).
  - refine (down_trans _ (call EPageEnd s) _ _ _); [apply down_call; [exact Std0 | constructor]|]. refine (down_ctx _ _ _ _ H).
    intros c Hc. injection Hc as <-. cbn [call rs_ctx]. split; [reflexivity|].
    assert (Ey : get_y (upd_page (set_p_enabled false) (rs_ctx s)) = get_y (rs_ctx s)) by (unfold get_y; rewrite Std0; reflexivity). lia.
  - exact (G _ _ Std0 H).
  - apply bind_ok in H. destruct H as (s1 & H1 & H).
    assert (D1 : down s s1) by (refine (Same _ _ _ H1); intros ? E; injection E as <-; split; [exact Std0 | unfold get_y; cbn; reflexivity]).
    exact (down_trans _ _ _ D1 (G _ _ (proj1 D1) H)).
  - refine (Same _ _ _ H). intros c E. injection E as <-. unfold set_tab_len. destruct (_ <? _); (split; [exact Std0 | reflexivity]).
Qed.
Lemma down_devices l : forall s s', Forall goes l -> Forall device_ok l -> standard (rs_ctx s) -> sinv (rs_ctx s) -> process_device_commands l s = Ok s' -> down s s'.
Proof.
  unfold process_device_commands. induction l as [|d l IH]; intros s s' F K Std S H; cbn [fold_res] in H; [injection H as <-; exact (down_refl _ Std)|].
  apply Forall_cons_iff in F. destruct F as (F1 & F). apply Forall_cons_iff in K. destruct K as (K1 & K).
  apply bind_ok in H. destruct H as (s1 & H1 & H). pose proof (down_device _ _ _ F1 Std S H1) as D.
  exact (down_trans _ _ _ D (IH _ _ F K (proj1 D) (process_device_sinv _ _ _ K1 S H1) H)).
Qed.
Lemma device_goes c x d : sent c -> standard x -> c_handler c <> HPlain P_set_page_mode -> get_device_command c x = Ok d -> Forall goes d.
Proof.
  intros Sc Std N H. pose proof (sent_arg c 0 0 Sc ltac:(lia)) as A0. pose proof (sent_arg c 1 0 Sc ltac:(lia)) as A1. fold (arg 0 c 0) in A0. fold (arg 0 c 1) in A1.
  unfold get_device_command in H. destruct (c_handler c) as [id| |cap|s|s|s|s|id]; try (injection H as <-; constructor).
  - unfold standard in Std. destruct id; cbn [device_plain] in H; rewrite ?Std in H; try congruence.
    all: try (apply bind_ok in H; destruct H as (? & _ & H)).
    all: injection H as <-; repeat (apply Forall_cons || apply Forall_nil); try exact Logic.I; cbn [goes]; lia.
  - injection H as <-. unfold feed_cut_device.
    repeat match goal with |- Forall goes (match ?z with _ => _ end) => destruct z end; repeat (apply Forall_cons || apply Forall_nil); try exact Logic.I; cbn [goes]; lia.
  - destruct id; injection H as <-; repeat constructor.
Qed.
Lemma area_y x x' : standard x -> standard x' -> g_render_area (c_graphics x') = g_render_area (c_graphics x) -> get_y x' = get_y x.
Proof. intros A B E. unfold get_y. unfold standard in A, B. rewrite A, B, E. reflexivity. Qed.
Lemma apply_plain_y id c x x' : standard x -> standard x' -> id <> P_initialize -> apply_plain id c x = Ok x' -> get_y x' = get_y x.
Proof.
  intros Std Std' N H. pose proof Std as E0. unfold standard in E0.
  destruct id; cbn [apply_plain] in H; rewrite ?E0 in H; try congruence; try (injection H as <-; first [reflexivity | apply area_y; [exact Std | exact Std' | reflexivity]]).
  - injection H as <-. apply area_y; [exact Std | exact Std' |]. destruct (ctx_default x); reflexivity.
  - injection H as <-. apply area_y; [exact Std | exact Std' |]. destruct (_ <? 2); [reflexivity|]. destruct (6 <? _); reflexivity.
  - unfold set_x_absolute in H. apply bind_ok in H. destruct H as (a & _ & H). rewrite E0 in H. injection H as <-. unfold get_y. rewrite Std'. unfold standard in Std'. rewrite E0. reflexivity.
  - apply bind_ok in H. destruct H as (d & _ & H). injection H as <-. apply area_y; [exact Std | exact Std' | reflexivity].
  - injection H as <-. apply area_y; [exact Std | exact Std' |]. unfold set_motion_units. cbv zeta. destruct (_ || _); reflexivity.
Qed.
Lemma apply_sub_area e id c x x' : apply_sub e id c x = Ok x' -> g_render_area (c_graphics x') = g_render_area (c_graphics x).
Proof.
  intros H. destruct id; cbn [apply_sub] in H; try (injection H as <-; reflexivity).
  all: try (unfold define_column, define_raster, store_buffer in H;
    repeat match type of H with (if ?b then _ else _) = _ => destruct b end;
    repeat (try discriminate; inv_bind H); injection H as <-; reflexivity).
  all: unfold qr_store, clear_one in H; repeat inv_bind H; injection H as <-;
    repeat match goal with |- context [match ?z with _ => _ end] => destruct z end; reflexivity.
Qed.
Lemma apply_context_y e c x x' : standard x -> c_handler c <> HPlain P_initialize -> apply_context e c x = Ok x' -> standard x' /\ get_y x' = get_y x.
Proof.
  intros Std N H.
  assert (Std' : standard x').
  { assert (D : c_handler c = HPlain P_select_standard_mode \/ c_handler c <> HPlain P_select_standard_mode).
    { destruct (c_handler c) as [id| | | | | | |]; try (right; discriminate). destruct id; try (right; discriminate). left. reflexivity. }
    destruct D as [D|D].
    - unfold apply_context in H. rewrite D in H. injection H as <-. reflexivity.
    - unfold standard. rewrite (apply_context_mode _ _ _ _ D H). exact Std. }
  split; [exact Std'|]. unfold apply_context in H. destruct (c_handler c) as [id| |cap|s|s|s|s|id]; try (injection H as <-; reflexivity).
  - refine (apply_plain_y _ _ _ _ Std Std' _ H). congruence.
  - injection H as <-. apply area_y; [exact Std | exact Std' |]. unfold character_effects. cbv zeta. destruct (_ <? _); [reflexivity|].
    repeat match goal with |- context [match ?z with _ => _ end] => destruct z end; reflexivity.
  - destruct (ss_subcommand s); [|injection H as <-; reflexivity]. apply area_y; [exact Std | exact Std' | exact (apply_sub_area _ _ _ _ _ H)].
  - apply area_y; [exact Std | exact Std' | exact (apply_sub_area _ _ _ _ _ H)].
Qed.
Lemma down_context e c s s' : standard (rs_ctx s) -> c_handler c <> HPlain P_initialize -> on_ctx (apply_context e c) s = Ok s' -> down s s'.
Proof. intros Std N. apply down_ctx. intros x Hx. destruct (apply_context_y _ _ _ _ Std N Hx) as (A & B). split; [exact A | lia]. Qed.
Definition init_entry (t : command) : bool := match c_handler t with HPlain P_initialize => list_eqb (c_commands t) [27; 64] | _ => true end.
Lemma init_entries : forallb init_entry all_commands = true.
Proof. vm_compute. reflexivity. Qed.
Lemma init_name c : sent c -> c_handler c = HPlain P_initialize -> c_commands c = [27; 64].
Proof.
  intros S H. destruct (sent_reported _ S) as [(t & Ht & _ & I)|(sc & _ & I)].
  - pose proof (proj1 (forallb_forall _ _) init_entries _ Ht) as E. rewrite (in_commands _ _ I). pose proof (in_handler _ _ I) as L. rewrite H in L.
    unfold init_entry in E. unfold handler_like in L. destruct (c_handler t) as [id| |?|?|?|?|?|?]; try contradiction. subst id. apply list_eqb_eq in E. exact E.
  - rewrite (si_handler _ _ I) in H. discriminate.
Qed.
Lemma down_step e c s s' : tidy s -> sent c -> c_commands c <> [27; 64] -> c_commands c <> [27; 76] -> standard (rs_ctx s) -> process_command e c s = Ok s' -> down s s'.
Proof.
  intros T Sc NI NL Std H. pose proof (ci_s _ (td_ctx _ T)) as S.
  assert (Ni : c_handler c <> HPlain P_initialize) by (intros E; exact (NI (init_name _ Sc E))).
  assert (N : c_handler c <> HPlain P_set_page_mode).
  { intros E. pose proof (kind_of_special _ Sc) as K. rewrite E in K. apply NL. exact (proj2 K). }
  unfold process_command in H. destruct (c_kind c).
  - apply bind_ok in H. destruct H as (d & Hd & H). apply bind_ok in H. destruct H as (s1 & H1 & H).
    pose proof (down_text _ _ Std S H1) as D1. pose proof (process_text_tidy _ _ T H1) as T1.
    exact (down_trans _ _ _ D1 (down_devices _ _ _ (device_goes _ _ _ Sc Std N Hd) (device_ok_sent _ _ _ Sc S Hd) (proj1 D1) (ci_s _ (td_ctx _ T1)) H)).
  - injection H as <-. destruct (get_text c (rs_ctx s)); exact (down_refl s Std).
  - apply bind_ok in H. destruct H as (s1 & H1 & H). apply bind_ok in H. destruct H as (d & Hd & H).
    pose proof (down_context _ _ _ _ Std Ni H1) as D1. pose proof (ci_s _ (td_ctx _ (context_tidy _ _ _ _ Sc T H1))) as S1.
    exact (down_trans _ _ _ D1 (down_devices _ _ _ (device_goes _ _ _ Sc (proj1 D1) N Hd) (device_ok_sent _ _ _ Sc S1 Hd) (proj1 D1) S1 H)).
  - apply bind_ok in H. destruct H as (s1 & H1 & H). apply bind_ok in H. destruct H as (g & Hg & H).
    apply bind_ok in H. destruct H as (s2 & H2 & H). apply bind_ok in H. destruct H as (d & Hd & H).
    pose proof (down_text _ _ Std S H1) as D1. pose proof (process_text_tidy _ _ T H1) as T1. pose proof (ci_s _ (td_ctx _ T1)) as S1.
    assert (X : down s1 s2 /\ sinv (rs_ctx s2)).
    { destruct g as [g|]; [|injection H2 as <-; split; [exact (down_refl _ (proj1 D1)) | exact S1]].
      pose proof (get_draw_wf _ _ _ _ Sc (td_ctx _ T1) Hg) as W. split; [exact (down_gfx _ _ _ (proj1 D1) S1 W H2)|].
      exact (ci_s _ (td_ctx _ (process_gfx_tidy _ _ _ T1 W H2))). }
    destruct X as (D2 & S2).
    exact (down_trans _ _ _ D1 (down_trans _ _ _ D2 (down_devices _ _ _ (device_goes _ _ _ Sc (proj1 D2) N Hd) (device_ok_sent _ _ _ Sc S2 Hd) (proj1 D2) S2 H))).
  - apply bind_ok in H. destruct H as (s1 & H1 & H). pose proof (down_text _ _ Std S H1) as D1. exact (down_trans _ _ _ D1 (down_context _ _ _ _ (proj1 D1) Ni H)).
  - apply bind_ok in H. destruct H as (s1 & H1 & H). apply bind_ok in H. destruct H as (s2 & H2 & H). apply bind_ok in H. destruct H as (d & Hd & H).
    pose proof (down_text _ _ Std S H1) as D1. pose proof (down_context _ _ _ _ (proj1 D1) Ni H2) as D2.
    pose proof (ci_s _ (td_ctx _ (context_tidy _ _ _ _ Sc (process_text_tidy _ _ T H1) H2))) as S2.
    exact (down_trans _ _ _ D1 (down_trans _ _ _ D2 (down_devices _ _ _ (device_goes _ _ _ Sc (proj1 D2) N Hd) (device_ok_sent _ _ _ Sc S2 Hd) (proj1 D2) S2 H))).
  - injection H as <-. exact (down_refl s Std).
  - apply bind_ok in H. destruct H as (s1 & H1 & H). injection H as <-. exact (down_text _ _ Std S H1).
Qed.

(** *** C54: the paper only moves forward.  Whatever commands are sent in standard mode, other than ESC @ (which
    rewinds the paper, C19) and ESC L: the paper does not move back, and everything they print begins
    no higher than where the paper stood before and no lower than where it stands after them. *)
Theorem C54_paper_moves_forward : forall e s cmds s', history e s -> Forall sent cmds ->
  Forall (fun c => c_commands c <> [27; 64] /\ c_commands c <> [27; 76]) cmds ->
  p_enabled (c_page (rs_ctx s)) = false -> run_commands e cmds s = Ok s' ->
  p_enabled (c_page (rs_ctx s')) = false /\ get_y (rs_ctx s) <= get_y (rs_ctx s') /\
  exists new, rs_calls s' = rs_calls s ++ new /\
    Forall (fun call => Forall (fun top => get_y (rs_ctx s) <= top <= get_y (rs_ctx s')) (printed_tops (snd call))) new.
Proof.
  intros e s cmds s' Hh F N Std H. apply history_tidy in Hh. revert s Hh Std H.
  assert (G : forall s, tidy s -> standard (rs_ctx s) -> run_commands e cmds s = Ok s' -> down s s').
  { unfold run_commands. induction cmds as [|c l IH]; intros s T Std H; cbn [fold_res] in H; [injection H as <-; exact (down_refl _ Std)|].
    apply Forall_cons_iff in F. destruct F as (F1 & F). apply Forall_cons_iff in N. destruct N as ((N1 & N2) & N).
    apply bind_ok in H. destruct H as (s1 & H1 & H). pose proof (down_step _ _ _ _ T F1 N1 N2 Std H1) as D.
    exact (down_trans _ _ _ D (IH F N _ (process_command_tidy _ _ _ _ F1 T H1) (proj1 D) H)). }
  intros s T Std H. exact (G s T Std H).
Qed.

(** ** The print position *)

(** *** C54: ESC $ nL nH puts the pen nL + 256 nH motion units from the left edge, on the same line. *)
Theorem C54_position : forall e c s s' lines last a b, history e s -> sent c -> c_commands c = [27; 36] -> c_data c = [a; b] ->
  process_command e c s = Ok s' -> p_enabled (c_page (rs_ctx s)) = false ->
  let spacing := t_line_spacing (c_text (rs_ctx s)) in let tabs := t_tabs (c_text (rs_ctx s)) in
  lines_of_text lines last (flat_map break_into_words (rs_spans s)) ->
  rows_fit 609 tabs (get_x (rs_ctx s)) lines -> row_fits 609 tabs (last_start (get_x (rs_ctx s)) lines) last ->
  get_x (rs_ctx s') = (a + 256 * b) / g_h_motion_unit (c_graphics (rs_ctx s)) /\
  get_y (rs_ctx s') = rows_bottom spacing (get_y (rs_ctx s)) lines.
Proof.
  intros e c s s' lines last a b Hh Sc C D H Std spacing tabs T F G. destruct (history_lay_ok _ _ Hh) as (_ & S & _).
  known c Sc C cmd_set_horizontal_pos P_set_horizontal_pos. unfold process_command in H. rewrite K in H.
  apply bind_ok in H. destruct H as (s1 & H1 & H). destruct (flush_rows _ _ _ _ Std S H1 T F G) as (_ & X). fold spacing tabs in X.
  apply on_ctx_inv in H. destruct H as (x & Hx & ->). unfold apply_context in Hx. rewrite Hd in Hx. cbn [apply_plain] in Hx.
  unfold set_x_absolute in Hx. apply bind_ok in Hx. destruct Hx as (v & Hv & Hx).
  assert (Std1 : standard (rs_ctx s1)) by (rewrite X; apply at_std, Std). unfold standard in Std1. rewrite Std1 in Hx. injection Hx as <-. cbn [with_ctx rs_ctx].
  assert (Ev : v = (a + 256 * b) / g_h_motion_unit (c_graphics (rs_ctx s))).
  { rewrite X in Hv. unfold div_u in Hv. change (g_h_motion_unit (c_graphics (at_xy ?p ?q (rs_ctx s)))) with (g_h_motion_unit (c_graphics (rs_ctx s))) in Hv.
    destruct (_ =? 0); [discriminate|]. unfold get_pos, arg in Hv. rewrite D in Hv. cbn [get_or nth_error nth] in Hv. injection Hv as <-. f_equal. lia. }
  rewrite <- Ev. rewrite X. change (upd_gra (set_a_x v) (at_xy ?p ?q (rs_ctx s))) with (at_xy v q (rs_ctx s)).
  rewrite (at_x _ _ _ Std), (at_y _ _ _ Std). auto.
Qed.
