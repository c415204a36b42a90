(** * PropsLayout: C32, text is drawn once, in order, in the style in force, and where it fits. *)
From Verif Require Import Base Command CommandSet Parser Vec Float32 GTypes Graphics Utf8 Decoder Context Text
  Upce Handlers Renderer ContextTheory RendererTheory Origin SpecPrinter StateTheory PropsText SpecRender
  PropsOutput LayoutTheory AreaTheory.
Local Open Scope Z_scope.
Local Open Scope list_scope.

(** ** Spans waiting to be printed have a positive cell width *)
Lemma cell_wide c t : sinv c -> 9 <= s_character_width (span_new t c).
Proof.
  intros S. cbn [span_new s_character_width]. pose proof (tk_cell _ (si_text _ S)) as C. pose proof (tk_wmult _ (si_text _ S)) as M.
  assert (9 <= t_character_width (c_text c)) by (destruct (t_font (c_text c)); injection C as -> _; lia).
  change 9 with (9 * 1). apply Z.mul_le_mono_nonneg; lia.
Qed.
Lemma span_new_wide c t : sinv c -> wide (span_new t c).
Proof. intros S. pose proof (cell_wide c t S). unfold wide. lia. Qed.
Lemma get_text_wide c x t : sinv x -> get_text c x = Some t -> wide t.
Proof.
  intros S H. unfold get_text in H. destruct (c_handler c) as [id| | | | | | |]; try discriminate.
  destruct id; try discriminate; injection H as <-; exact (span_new_wide _ _ S).
Qed.
Lemma device_ink d s s' : process_device_command d s = Ok s' ->
  drawn (rs_calls s') = drawn (rs_calls s) /\ rs_spans s' = rs_spans s.
Proof.
  intros H. unfold process_device_command in H. cbv zeta in H.
  assert (C : forall e s, match e with EText _ _ _ _ => False | _ => True end ->
    drawn (rs_calls (call e s)) = drawn (rs_calls s) /\ rs_spans (call e s) = rs_spans s).
  { intros e y E. split; [|reflexivity]. cbn [call rs_calls]. rewrite drawn_app. destruct e; try contradiction; apply app_nil_r. }
  assert (O : forall f s s', on_ctx f s = Ok s' -> drawn (rs_calls s') = drawn (rs_calls s) /\ rs_spans s' = rs_spans s).
  { intros f y y' E. apply on_ctx_spans in E. destruct E as (-> & ->). auto. }
  assert (P : forall s s', page_geometry s = Ok s' -> drawn (rs_calls s') = drawn (rs_calls s) /\ rs_spans s' = rs_spans s).
  { intros y y' E. unfold page_geometry in E. inv_bind E. destruct a as [[[rot w] h] p]. injection E as <-.
    exact (C (EPageAreaChanged rot w h) (with_ctx _ y) I). }
  destruct (C (EDevice d) s I) as (C1 & C2). set (s0 := call (EDevice d) s) in *. clearbody s0. rewrite <- C1, <- C2. clear C1 C2 s.
  destruct d; try (injection H as <-; split; reflexivity); try exact (O _ _ _ H); try exact (P _ _ H).
  - inv_bind H. injection H as <-. destruct (C EBeginRender a I) as (-> & ->). exact (O _ _ _ Ha).
  - injection H as <-. destruct (C EEndRender (call EGetErrors s0) I) as (-> & ->). exact (C EGetErrors s0 I).
  - inv_bind H. injection H as <-. destruct (C EPageBegin a I) as (-> & ->). exact (O _ _ _ Ha).
  - destruct (O _ _ _ H) as (-> & ->). exact (C EPageEnd s0 I).
  - destruct (O _ _ _ H) as (-> & ->). exact (C ERenderPage s0 I).
Qed.
Lemma devices_ink l : forall s s', process_device_commands l s = Ok s' ->
  drawn (rs_calls s') = drawn (rs_calls s) /\ rs_spans s' = rs_spans s.
Proof.
  unfold process_device_commands. induction l as [|d l IH]; intros s s' H; cbn [fold_res] in H.
  - injection H as <-. auto.
  - apply bind_ok in H. destruct H as (s1 & H1 & H). destruct (IH _ _ H) as (-> & ->). exact (device_ink _ _ _ H1).
Qed.

(** a drawn graphic depends on the settings, not on where the cursor is *)
Lemma span_new_moved t x x' : moved x x' -> span_new t x' = span_new t x.
Proof.
  intros M. unfold span_new, points_to_pixels. rewrite (moved_text _ _ M), (moved_dpi _ _ M). reflexivity.
Qed.
Lemma finish_barcode_moved p t x x' : moved x x' -> finish_barcode p t x' = finish_barcode p t x.
Proof.
  intros M. unfold finish_barcode, span_new_for_barcode. rewrite (moved_barcode _ _ M), (span_new_moved _ _ _ M). reflexivity.
Qed.
Lemma get_graphics_moved e c x x' : moved x x' -> get_graphics e c x' = get_graphics e c x.
Proof.
  intros M. unfold get_graphics.
  assert (Sub : forall id d, sub_graphics id d x' = sub_graphics id d x).
  { intros id d. unfold sub_graphics, print_buffer. rewrite (moved_code2d _ _ M), (moved_stored _ _ M), (moved_buffer _ _ M). reflexivity. }
  destruct (c_handler c) as [id| |cap|s|s|s|s|id]; try reflexivity.
  - unfold barcode_graphics. cbv zeta. destruct (negb _); [reflexivity|].
    destruct (bc_kind s); rewrite ?(finish_barcode_moved _ _ _ _ M); try reflexivity.
    + destruct (upce_new _) as [[code|]|]; cbn [bind]; rewrite ?(finish_barcode_moved _ _ _ _ M); try reflexivity.
      destruct (upce_encode _); cbn [bind]; rewrite ?(finish_barcode_moved _ _ _ _ M); reflexivity.
    + destruct (_ && _); [reflexivity|]. destruct (from_utf8 _); [|reflexivity]. rewrite (finish_barcode_moved _ _ _ _ M). reflexivity.
  - unfold bit_image_graphics. rewrite (moved_colors _ _ M). reflexivity.
  - unfold raster_graphics. rewrite (moved_colors _ _ M). reflexivity.
  - destruct (ss_subcommand s); [rewrite Sub|]; reflexivity.
  - apply Sub.
Qed.

(** ** Drawing *)
Lemma barcode_text_ink b s s' : wide (b_text b) -> uinv (rs_ctx s) -> rs_spans s = [] -> barcode_text b s = Ok s' ->
  drawn (rs_calls s') = drawn (rs_calls s) ++ span_ink (b_text b) /\ rs_spans s' = [].
Proof.
  intros W U S H. unfold barcode_text in H. inv_bind H. destruct (on_ctx_spans _ _ _ H) as (E1 & E2). rewrite E1, E2.
  pose proof (process_text_quiet _ _ Ha) as (_ & Sp).
  assert (F : Forall wide (rs_spans (collect_text (b_text b) s))).
  { cbn [collect_text with_spans rs_spans]. rewrite S. constructor; [exact W | constructor]. }
  destruct (process_text_ink (collect_text (b_text b) s) a (proj1 (width_u _ U)) F Ha) as (D & _).
  split; [|exact Sp]. rewrite D. cbn [collect_text with_spans rs_calls]. f_equal. unfold pending. cbn [collect_text with_spans rs_spans].
  rewrite S. cbn [app flat_map]. apply app_nil_r.
Qed.
Lemma graphics_not_text e (s : rstate) : match e with EText _ _ _ _ => False | _ => True end -> drawn (rs_calls (call e s)) = drawn (rs_calls s).
Proof. intros E. cbn [call rs_calls]. rewrite drawn_app. destruct e; try contradiction; apply app_nil_r. Qed.
Lemma process_barcode_ink b s s' : wide (b_text b) -> uinv (rs_ctx s) -> rs_spans s = [] -> process_barcode b s = Ok s' ->
  drawn (rs_calls s') = drawn (rs_calls s) ++ times (copies (bc_human_readable (c_barcode (rs_ctx s)))) (span_ink (b_text b)) /\ rs_spans s' = [].
Proof.
  intros W U Sp H. unfold process_barcode in H. apply bind_ok in H. destruct H as (s1 & H1 & H).
  assert (X1 : exists k, drawn (rs_calls s1) = drawn (rs_calls s) ++ times k (span_ink (b_text b)) /\ rs_spans s1 = [] /\
            k = (match bc_human_readable (c_barcode (rs_ctx s)) with HriAbove | HriBoth => 1 | _ => 0 end)%nat /\
            uinv (rs_ctx s1) /\ c_barcode (rs_ctx s1) = c_barcode (rs_ctx s)).
  { destruct (bc_human_readable _);
      try (injection H1 as <-; exists 0%nat; cbn [times]; rewrite app_nil_r; auto);
      (destruct (barcode_text_ink _ _ _ W U Sp H1) as (D & S1); exists 1%nat; cbn [times]; rewrite app_nil_r;
       destruct (barcode_text_quiet _ _ _ H1) as ((M & _) & _);
       exact (conj D (conj S1 (conj eq_refl (conj (barcode_text_u _ _ _ H1 U) (moved_barcode _ _ M)))))). }
  destruct X1 as (k1 & D1 & S1 & K1 & U1 & B1).
  apply bind_ok in H. destruct H as (t & Ht & H). apply bind_ok in H. destruct H as (s2 & H2 & H).
  apply on_ctx_inv in H2. destruct H2 as (c2 & Hc2 & ->).
  apply bind_ok in H. destruct H as ((c & rects) & Hf & H). cbv zeta in H.
  apply bind_ok in H. destruct H as (s4 & H4 & H). apply on_ctx_inv in H4. destruct H4 as (c4 & Hc4 & ->).
  assert (U2 : uinv c2).
  { refine (set_x_u _ _ _ _ Hc2 U1). refine (proj1 (justification_u _ _ U1 _)). destruct (mul_u32v _ _ _ Ht) as (_ & V). unfold u32v in V; lia. }
  assert (U3 : uinv c /\ moved c2 c).
  { refine (fold_res_ind _ (fun y => uinv (fst y) /\ moved c2 (fst y)) _ (c2, []) (c, rects) (conj U2 (moved_refl _)) _ Hf).
    intros x y y' _ (Uy & My) E. split; [exact (barcode_point_u _ _ _ _ E Uy) | exact (moved_trans _ _ _ My (barcode_point_moved _ _ _ _ E))]. }
  destruct U3 as (U3 & M3). cbn [call with_ctx rs_ctx] in Hc4. change (rs_ctx (with_ctx c4 ?z)) with c4 in H.
  pose proof (offset_y_u _ _ _ Hc4 (reset_x_u _ U3)) as U4.
  assert (B4 : c_barcode c4 = c_barcode (rs_ctx s)).
  { rewrite (moved_barcode _ _ (offset_y_moved _ _ _ Hc4)), (moved_barcode _ _ (moved_reset_x c)), (moved_barcode _ _ M3).
    rewrite (moved_barcode _ _ (set_x_moved _ _ _ Hc2)). exact B1. }
  rewrite B4 in H.
  set (s5 := with_ctx c4 (call (EGraphics rects) (with_ctx c (with_ctx c2 s1)))) in *.
  assert (D5 : drawn (rs_calls s5) = drawn (rs_calls s1)) by (exact (graphics_not_text (EGraphics rects) (with_ctx c (with_ctx c2 s1)) I)).
  assert (S5 : rs_spans s5 = []) by exact S1. assert (C5 : rs_ctx s5 = c4) by reflexivity. clearbody s5.
  destruct (bc_human_readable (c_barcode (rs_ctx s))); subst k1.
  - injection H as <-. rewrite D5, D1. auto.
  - injection H as <-. rewrite D5, D1. auto.
  - apply bind_ok in H. destruct H as (s6 & H6 & H). apply on_ctx_inv in H6. destruct H6 as (c6 & Hc6 & ->). rewrite C5 in Hc6.
    destruct (barcode_text_ink b (with_ctx c6 s5) s' W (offset_y_u _ _ _ Hc6 U4) S5 H) as (D & S). rewrite D. cbn [with_ctx rs_calls].
    rewrite D5, D1. cbn [times copies]. rewrite !app_nil_r. auto.
  - apply bind_ok in H. destruct H as (s6 & H6 & H). apply on_ctx_inv in H6. destruct H6 as (c6 & Hc6 & ->). rewrite C5 in Hc6.
    destruct (barcode_text_ink b (with_ctx c6 s5) s' W (offset_y_u _ _ _ Hc6 U4) S5 H) as (D & S). rewrite D. cbn [with_ctx rs_calls].
    rewrite D5, D1. cbn [times copies]. rewrite !app_nil_r, <- app_assoc. auto.
Qed.
Lemma other_gfx_ink g s s' : process_gfx g s = Ok s' -> match g with GBarcode _ => False | _ => True end ->
  drawn (rs_calls s') = drawn (rs_calls s) /\ rs_spans s' = rs_spans s.
Proof.
  intros H N. destruct g; try contradiction; cbn [process_gfx] in H.
  - injection H as <-. auto.
  - destruct (process_code_2d_quiet _ _ _ H) as (_ & S). split; [|exact S].
    unfold process_code_2d in H. apply bind_ok in H. destruct H as (t & _ & H). cbv zeta in H.
    apply bind_ok in H. destruct H as (cx & _ & H). apply bind_ok in H. destruct H as ([[c1 i] rects] & _ & H). injection H as <-.
    apply (graphics_not_text (EGraphics rects) (with_ctx _ s) I).
  - destruct (process_image_quiet _ _ _ H) as (_ & S). split; [|exact S].
    unfold process_image in H. cbv zeta in H. apply bind_ok in H. destruct H as (s1 & H1 & H).
    assert (D1 : drawn (rs_calls s1) = drawn (rs_calls s)).
    { repeat match type of H1 with (match ?z with _ => _ end) = _ => destruct z end;
        first [injection H1 as <-; reflexivity | apply on_ctx_spans in H1; destruct H1 as (_ & ->); reflexivity]. }
    rewrite <- D1. match type of H with context [call (EImage ?j) s1] => rewrite <- (graphics_not_text (EImage j) s1 I) end.
    repeat match type of H with (match ?z with _ => _ end) = _ => destruct z end;
      first [injection H as <-; reflexivity | apply on_ctx_spans in H; destruct H as (_ & ->); reflexivity].
Qed.

(** ** Each command *)
Lemma text_entry c : sent c -> c_kind c = KText ->
  (c_commands c = [] /\ c_handler c = HPlain P_text) \/ (c_commands c = [13] /\ c_handler c = HPlain P_carriage_return) \/
  (c_commands c = [9] /\ c_handler c = HPlain P_horizontal_tab) \/ (c_commands c = [10] /\ c_handler c = HPlain P_linefeed).
Proof.
  intros Sc K. destruct (sent_reported _ Sc) as [(t & Ht & _ & I)|(sc & Hs & I)].
  - assert (F : forallb (fun t => match c_kind t with
       | KText => match c_commands t, c_handler t with
                  | [], HPlain P_text | [13], HPlain P_carriage_return | [9], HPlain P_horizontal_tab | [10], HPlain P_linefeed => true
                  | _, _ => false end
       | _ => true end) all_commands = true) by (vm_compute; reflexivity).
    pose proof (proj1 (forallb_forall _ _) F _ Ht) as E. cbv beta in E. clear F.
    rewrite (in_kind _ _ I) in K. rewrite K in E. rewrite (in_commands _ _ I). pose proof (in_handler _ _ I) as L.
    destruct (c_commands t) as [|z [|? ?]].
    + destruct (c_handler t) as [[]| | | | | | |]; try discriminate. destruct (c_handler c); cbn [handler_like] in L; try contradiction. subst. auto.
    + assert (Z1 : z = 13 \/ z = 9 \/ z = 10) by
        (repeat match type of E with (match ?v with _ => _ end) = _ => destruct v end; auto; discriminate).
      destruct Z1 as [-> | [-> | ->]]; (destruct (c_handler t) as [[]| | | | | | |]; try discriminate);
        (destruct (c_handler c); cbn [handler_like] in L; try contradiction); subst; auto.
    + exfalso. repeat match type of E with (match ?v with _ => _ end) = _ => destruct v end; discriminate.
  - exfalso. assert (F : forallb (fun sc => match sc_kind sc with KText => false | _ => true end) (code2d_table ++ graphics_table) = true) by (vm_compute; reflexivity).
    pose proof (proj1 (forallb_forall _ _) F _ Hs) as E. cbv beta in E. rewrite (si_kind _ _ I) in K. rewrite K in E. discriminate.
Qed.
Lemma barcode_entry c b : sent c -> c_handler c = HBarcode b -> c_kind c = KGraphics /\ c_commands c = [29; 107].
Proof.
  intros Sc K. destruct (sent_reported _ Sc) as [(t & Ht & _ & I)|(sc & Hs & I)].
  - assert (F : forallb (fun t => match c_handler t with
       | HBarcode _ => match c_kind t, c_commands t with KGraphics, [29; 107] => true | _, _ => false end
       | _ => true end) all_commands = true) by (vm_compute; reflexivity).
    pose proof (proj1 (forallb_forall _ _) F _ Ht) as E. cbv beta in E. clear F.
    rewrite (in_kind _ _ I), (in_commands _ _ I). pose proof (in_handler _ _ I) as L. rewrite K in L.
    destruct (c_handler t); cbn [handler_like] in L; try contradiction.
    destruct (c_kind t); try discriminate. split; [reflexivity|].
    repeat match type of E with (match ?v with _ => _ end) = _ => destruct v end; first [reflexivity | discriminate].
  - rewrite (si_handler _ _ I) in K. discriminate.
Qed.
Lemma barcode_only e c x b : sent c -> uinv x -> get_graphics e c x = Ok (Some (GBarcode b)) ->
  c_commands c = [29; 107] /\ exists t, b_text b = span_new_for_barcode t x.
Proof.
  intros Sc U H. unfold get_graphics in H. destruct (c_handler c) as [id| |cap|s|s|s|s|id] eqn:Hd; try discriminate.
  - split; [exact (proj2 (barcode_entry _ _ Sc Hd))|]. apply bind_ok in H. destruct H as (g & Hg & H). injection H as ->.
    assert (F : forall p t, finish_barcode p t x = GBarcode b -> exists t, b_text b = span_new_for_barcode t x).
    { intros [p|] t E; [injection E as <-; exists t; reflexivity | discriminate]. }
    unfold barcode_graphics in Hg. cbv zeta in Hg. destruct (negb _); [discriminate|].
    destruct (bc_kind s); try discriminate; try (injection Hg as Hg; exact (F _ _ Hg)).
    + apply bind_ok in Hg. destruct Hg as (u & _ & Hg). destruct u; [|discriminate].
      apply bind_ok in Hg. destruct Hg as (p & _ & Hg). injection Hg as Hg. exists (match from_utf8 (c_data c) with Some d => d | None => [] end). rewrite <- Hg. reflexivity.
    + destruct (_ && _); [discriminate|]. destruct (from_utf8 _); [|discriminate]. injection Hg as Hg. exact (F _ _ Hg).
  - exfalso. apply bind_ok in H. destruct H as (g & Hg & H). injection H as ->. unfold bit_image_graphics in Hg. cbv zeta in Hg.
    pose proof (sent_ranges _ Sc) as R. rewrite Hd in R. destruct R as (R1 & R2).
    destruct (bi_col_encoded s); [exact (column_single_wf _ _ _ _ _ _ _ R1 R2 Hg) | exact (raster_single_wf _ _ _ _ _ _ _ _ R1 R2 Hg)].
  - exfalso. apply bind_ok in H. destruct H as (g & Hg & H). injection H as ->. unfold raster_graphics in Hg.
    pose proof (sent_ranges _ Sc) as R. rewrite Hd in R. destruct R as (R1 & R2). exact (raster_single_wf _ _ _ _ _ _ _ _ R1 R2 Hg).
  - exfalso. destruct (ss_subcommand s); [|discriminate]. exact (sub_graphics_wf _ _ _ _ U H).
  - exfalso. exact (sub_graphics_wf _ _ _ _ U H).
Qed.

(** what is waiting to be printed can be laid out *)
Definition lay_ok (s : rstate) : Prop := Forall wide (rs_spans s) /\ sinv (rs_ctx s) /\ uinv (rs_ctx s).
Lemma flush_ok s s' : lay_ok s -> process_text s = Ok s' ->
  drawn (rs_calls s') = drawn (rs_calls s) ++ pending s /\ rs_spans s' = [] /\ moved (rs_ctx s) (rs_ctx s') /\ lay_ok s'.
Proof.
  intros (F & S & U) H. destruct (process_text_ink _ _ (proj1 (width_u _ U)) F H) as (D & _).
  destruct (process_text_moved _ _ H) as (M & Sp).
  split; [exact D | split; [exact Sp | split; [exact M | split; [rewrite Sp; constructor | split; [exact (sinv_moved _ _ M S) | exact (process_text_u _ _ H U)]]]]].
Qed.
Lemma pending_nil s : rs_spans s = [] -> pending s = [].
Proof. unfold pending. intros ->. reflexivity. Qed.
Lemma typed_quiet e c x : sent c -> c_kind c <> KText -> c_kind c <> KGraphics -> typed e c x = [].
Proof. intros Sc N1 N2. unfold typed. destruct (c_kind c); try congruence; reflexivity. Qed.

Lemma step_ink e c s s' : lay_ok s -> sent c -> process_command e c s = Ok s' ->
  drawn (rs_calls s') ++ pending s' = drawn (rs_calls s) ++ pending s ++ typed e c (rs_ctx s) /\ Forall wide (rs_spans s').
Proof.
  intros L Sc H. unfold process_command in H. destruct (c_kind c) eqn:K.
  - (* control *)
    rewrite typed_quiet, app_nil_r by (first [exact Sc | congruence]).
    apply bind_ok in H. destruct H as (d & _ & H). apply bind_ok in H. destruct H as (s1 & H1 & H).
    destruct (flush_ok _ _ L H1) as (D & Sp & _). destruct (devices_ink _ _ _ H) as (D2 & S2).
    rewrite (pending_nil s'), D2, D, S2, Sp, app_nil_r by congruence. auto.
  - (* text *)
    injection H as <-. unfold typed. rewrite K. pose proof (proj1 (proj2 L)) as Si.
    destruct (text_entry _ Sc K) as [(C & Hd)|[(C & Hd)|[(C & Hd)|(C & Hd)]]]; unfold get_text; rewrite Hd, C; cbn [plain_text];
      (split; [|cbn [collect_text with_spans rs_spans]; apply Forall_app; split; [exact (proj1 L) | apply Forall_cons; [exact (span_new_wide _ _ Si) | apply Forall_nil]]]);
      unfold pending; cbn [collect_text with_spans rs_calls rs_spans]; rewrite flat_map_app; cbn [flat_map]; rewrite !app_nil_r; reflexivity.
  - (* style *)
    rewrite typed_quiet, app_nil_r by (first [exact Sc | congruence]).
    apply bind_ok in H. destruct H as (s1 & H1 & H). apply bind_ok in H. destruct H as (d & _ & H).
    destruct (on_ctx_spans _ _ _ H1) as (E1 & E2). destruct (devices_ink _ _ _ H) as (D2 & S2).
    unfold pending. rewrite D2, S2, E1, E2. split; [reflexivity | exact (proj1 L)].
  - (* graphics *)
    apply bind_ok in H. destruct H as (s1 & H1 & H). apply bind_ok in H. destruct H as (g & Hg & H).
    apply bind_ok in H. destruct H as (s2 & H2 & H). apply bind_ok in H. destruct H as (d & _ & H).
    destruct (flush_ok _ _ L H1) as (D & Sp & M & L1). destruct (devices_ink _ _ _ H) as (D2 & S2).
    assert (G : drawn (rs_calls s2) = drawn (rs_calls s1) ++ typed e c (rs_ctx s) /\ rs_spans s2 = []).
    { unfold typed. rewrite K. rewrite <- (get_graphics_moved e c _ _ M), Hg, <- (moved_barcode _ _ M).
      destruct g as [g|].
      - destruct g as [m|q|b|i];
          try (match type of H2 with process_gfx ?z _ = _ => destruct (other_gfx_ink z _ _ H2 I) as (-> & ->) end;
               split; [repeat match goal with |- context [match ?z with _ => _ end] => destruct z end; symmetry; apply app_nil_r | exact Sp]).
        destruct (barcode_only _ _ _ _ Sc (proj2 (proj2 L1)) Hg) as (C & t & T). rewrite C.
        apply process_barcode_ink; [|exact (proj2 (proj2 L1)) | exact Sp | exact H2].
        rewrite T. exact (span_new_wide _ _ (proj1 (proj2 L1))).
      - injection H2 as <-. split; [|exact Sp].
        repeat match goal with |- context [match ?z with _ => _ end] => destruct z end; symmetry; apply app_nil_r. }
    destruct G as (G1 & G2). rewrite (pending_nil s') by congruence. rewrite D2, G1, D, S2, G2, app_nil_r, <- app_assoc. auto.
  - (* settings *)
    rewrite typed_quiet, app_nil_r by (first [exact Sc | congruence]).
    apply bind_ok in H. destruct H as (s1 & H1 & H). destruct (flush_ok _ _ L H1) as (D & Sp & _).
    destruct (on_ctx_spans _ _ _ H) as (E1 & E2).
    rewrite (pending_nil s'), E2, D, E1, Sp, app_nil_r by congruence. auto.
  - rewrite typed_quiet, app_nil_r by (first [exact Sc | congruence]).
    apply bind_ok in H. destruct H as (s1 & H1 & H). apply bind_ok in H. destruct H as (s2 & H2 & H). apply bind_ok in H. destruct H as (d & _ & H).
    destruct (flush_ok _ _ L H1) as (D & Sp & _). destruct (on_ctx_spans _ _ _ H2) as (E1 & E2). destruct (devices_ink _ _ _ H) as (D2 & S2).
    rewrite (pending_nil s'), D2, E2, D, S2, E1, Sp, app_nil_r by congruence. auto.
  - rewrite typed_quiet, app_nil_r by (first [exact Sc | congruence]). injection H as <-. split; [reflexivity | exact (proj1 L)].
  - rewrite typed_quiet, app_nil_r by (first [exact Sc | congruence]).
    apply bind_ok in H. destruct H as (s1 & H1 & H). injection H as <-. destruct (flush_ok _ _ L H1) as (D & Sp & _).
    unfold log_error, pending. cbn [rs_calls rs_spans]. rewrite D, Sp. cbn [flat_map]. rewrite app_nil_r. auto.
Qed.
Lemma step_lay_ok e c s s' : lay_ok s -> sent c -> process_command e c s = Ok s' -> lay_ok s'.
Proof.
  intros L Sc H. split; [exact (proj2 (step_ink _ _ _ _ L Sc H))|]. destruct L as (F & S & U).
  split; [exact (process_command_sinv _ _ _ _ Sc S H) | exact (process_command_u _ _ _ _ Sc S U H)].
Qed.
Lemma history_lay_ok e s : history e s -> lay_ok s.
Proof.
  intros (l & F & H). unfold run_commands in H.
  refine (fold_res_ind _ lay_ok _ renderer_new s (conj (Forall_nil _) (conj sinv_new uinv_new)) _ H).
  intros c y y' Hin L E. exact (step_lay_ok _ _ _ _ L (proj1 (Forall_forall _ _) F _ Hin) E).
Qed.
Lemma run_ink e l : forall s s', lay_ok s -> Forall sent l -> run_commands e l s = Ok s' ->
  drawn (rs_calls s') ++ pending s' = drawn (rs_calls s) ++ pending s ++ typed_run e l s.
Proof.
  unfold run_commands. induction l as [|c l IH]; intros s s' L F H; cbn [fold_res] in H.
  - injection H as <-. cbn [typed_run]. rewrite app_nil_r. reflexivity.
  - apply bind_ok in H. destruct H as (s1 & H1 & H). apply Forall_cons_iff in F. destruct F as (Sc & F).
    rewrite (IH _ _ (step_lay_ok _ _ _ _ L Sc H1) F H), app_assoc, (proj1 (step_ink _ _ _ _ L Sc H1)).
    cbn [typed_run]. rewrite H1, <- !app_assoc. reflexivity.
Qed.

(** *** C32: one command.  What has been drawn, followed by what is waiting to be drawn, grows by
    exactly the characters the command types, in the style in force when it arrives. *)
Theorem C32_each_command : forall e c s s', history e s -> sent c -> process_command e c s = Ok s' ->
  drawn (rs_calls s') ++ pending s' = drawn (rs_calls s) ++ pending s ++ typed e c (rs_ctx s).
Proof. intros e c s s' Hh Sc H. exact (proj1 (step_ink _ _ _ _ (history_lay_ok _ _ Hh) Sc H)). Qed.

(** *** C32: one job.  Every character the job types is drawn exactly once and in order, each in the
    style in force when it was received. *)
Theorem C32_every_character_once : forall e bs s s' cmds, history e s -> rs_spans s = [] ->
  bytes_ok bs = true -> parse_esc_pos bs = Ok cmds -> render e bs s = Ok s' ->
  drawn (rs_calls s') = drawn (rs_calls s) ++ typed_run e cmds s.
Proof.
  intros e bs s s' cmds Hh Sp B P H. destruct (C31_framed _ _ _ _ B Sp H) as (Sp' & _).
  unfold render in H. rewrite P in H. cbn [bind] in H.
  assert (F : Forall sent cmds) by (apply Forall_forall; intros c Hc; exists bs, cmds; auto).
  pose proof (run_ink _ _ _ _ (history_lay_ok _ _ Hh) F H) as E.
  rewrite (pending_nil _ Sp), (pending_nil _ Sp'), app_nil_r in E. exact E.
Qed.
