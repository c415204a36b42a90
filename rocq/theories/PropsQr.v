(** * PropsQr: C51, QR symbols (GS ( k). *)
From Verif Require Import Base Command CommandSet Parser Vec GTypes Graphics Decoder Context Text
  Handlers Renderer ContextTheory RendererTheory Origin Told SpecPrinter StateTheory PropsContext SpecRender PropsOutput LayoutTheory
  AreaTheory PropsLayout SafeTheory PropsThermal SpecSymbol PropsPicture PlaceTheory PenTheory SpecMemory MemoryTheory SpecQr.
Local Open Scope Z_scope.
Local Open Scope list_scope.
Local Arguments at_ : simpl never.
Local Arguments vlen : simpl never.

(** ** The memory *)
Lemma symbol_lookup m fn t : sub_lookup [29; 40; 107] m fn = Some t -> In t code2d_table /\ sc_commands t = [m; fn].
Proof.
  intros H. assert (En : option_map c_handler (entry [29; 40; 107]) = Some (HSub (sub_init false true code2d_table))) by (vm_compute; reflexivity).
  unfold sub_lookup in H. destruct (entry [29; 40; 107]) as [t0|]; [|discriminate En].
  injection En as En. rewrite En in H. cbn [sub_init ss_use_m ss_commands] in H. rename H into L. clear En t0.
  unfold detect_kind_use_m in L.
  assert (G : forall l acc, (forall t, acc = Some t -> In t code2d_table /\ sc_commands t = [m; fn]) ->
    (forall x, In x l -> In x code2d_table) ->
    forall t, fold_left (fun acc c => match sc_commands c with [] => acc | b :: rest => if negb (b =? m) then acc else if mem_byte fn rest then Some c else acc end) l acc = Some t ->
    In t code2d_table /\ sc_commands t = [m; fn]).
  { induction l as [|c l IH]; intros acc Ha Hl t0 H0; [exact (Ha _ H0)|]. cbn [fold_left] in H0.
    refine (IH _ _ (fun x Hx => Hl x (or_intror Hx)) _ H0). intros t1 H1.
    destruct (sc_commands c) as [|b rest] eqn:E; [exact (Ha _ H1)|]. destruct (Z.eqb_spec b m) as [->|]; cbn [negb] in H1; [|exact (Ha _ H1)].
    destruct (mem_byte fn rest) eqn:Mb; [|exact (Ha _ H1)]. injection H1 as <-. split; [apply Hl; left; reflexivity|]. rewrite E. f_equal.
    assert (Q : forallb (fun t => (length (sc_commands t) =? 2)%nat) code2d_table = true) by (vm_compute; reflexivity).
    pose proof (proj1 (forallb_forall _ _) Q c (Hl c (or_introl eq_refl))) as X. cbv beta in X. rewrite E in X.
    destruct rest as [|b2 [|? ?]]; try discriminate X. unfold mem_byte in Mb. cbn in Mb. destruct (Z.eqb_spec fn b2); [congruence|].
    destruct (Z.eqb_spec b2 fn); [congruence | discriminate]. }
  exact (G code2d_table None ltac:(discriminate) (fun x Hx => Hx) t L).
Qed.
Record qr_holds (q : qr_memory) (k : code2d_ctx) : Prop := mk_qr_holds {
  qh_kind : k_qr_model k = qr_kind q;
  qh_level : k_qr_error_correction k = qr_level q;
  qh_dot : k_qr_size k = qr_dot q;
  qh_saved : k_symbol_storage k = match qr_saved q with
    | Some (bits, w, d) => Some (mk_code2d_g (map (fun b : bool => if b then 1 else 0) bits) w d d) | None => None end }.
Lemma qr_holds_new : qr_holds qr_fresh (c_code2d context_new).
Proof. constructor; vm_compute; reflexivity. Qed.

Lemma version_eq m n : 0 <= n -> minimum_version_for_bytes (as_i16 (n mod 65536)) (max_modules m) = qr_version m n.
Proof.
  intros N. assert (E : as_i16 (n mod 65536) = (n + 32768) mod 65536 - 32768).
  { unfold as_i16. destruct (Z.ltb_spec (n mod 65536) 32768); lia. }
  unfold qr_version. cbv zeta. rewrite E. set (k := _ - 32768). clearbody k. clear.
  unfold minimum_version_for_bytes.
  destruct m; cbn [max_modules]; change (40 <? 14) with false; change (40 <? 40) with false; change (40 <? 4) with false; cbv iota;
    cbv [Z.to_nat Pos.to_nat Pos.iter_op Nat.add firstn VERSION_CAPACITIES first_version versions seq find qr_capacities nth Nat.sub];
    repeat match goal with |- context [k <=? ?v] => destruct (k <=? v); [reflexivity|] end; reflexivity.
Qed.
Lemma qr_other e id c x x' q : apply_sub e id c x = Ok x' ->
  match id with S_qr_set_model | S_qr_set_size | S_qr_set_correction_level | S_qr_store => False | _ => True end ->
  qr_holds q (c_code2d x) -> qr_holds q (c_code2d x').
Proof.
  intros H N Q. assert (Same : c_code2d x' = c_code2d x -> qr_holds q (c_code2d x')) by (intros ->; exact Q).
  assert (Up : forall f, k_qr_model (f (c_code2d x)) = k_qr_model (c_code2d x) -> k_qr_error_correction (f (c_code2d x)) = k_qr_error_correction (c_code2d x) ->
    k_qr_size (f (c_code2d x)) = k_qr_size (c_code2d x) -> k_symbol_storage (f (c_code2d x)) = k_symbol_storage (c_code2d x) -> qr_holds q (c_code2d (upd_code2d f x))).
  { intros f A B C D. change (c_code2d (upd_code2d f x)) with (f (c_code2d x)). destruct Q. constructor; congruence. }
  destruct id; try contradiction; cbn [apply_sub] in H; try (injection H as <-; exact Q).
  all: try (injection H as <-; apply Up; reflexivity).
  all: try (injection H as <-; match goal with |- context [if ?b then _ else _] => destruct b end; first [exact Q | apply Up; reflexivity]).
  all: try (unfold define_raster, define_column, store_buffer in H;
            repeat match type of H with (if ?b then _ else _) = _ => destruct b end;
            try (injection H as <-; exact Q);
            repeat (apply bind_ok in H; destruct H as (? & _ & H)); cbv zeta in H; try (apply bind_ok in H; destruct H as (? & _ & H)); injection H as <-; exact Q).
  all: try (injection H as <-; unfold clear_one; destruct (ref_from_data _ _); exact Q).
  all: try (apply bind_ok in H; destruct H as (v & _ & H); injection H as <-; try (destruct v as [((? & ?) & ?)|]); first [exact Q | apply Up; reflexivity]).
  all: try (destruct (vlen (c_data c) <? 2); [discriminate|]; apply bind_ok in H; destruct H as (v & _ & H); injection H as <-; apply Up; reflexivity).
  all: try (injection H as <-; repeat match goal with |- context [if ?b then _ else _] => destruct b end; exact Q).
Qed.
Lemma qr_step e c s s' q : history e s -> sent c -> qr_holds q (c_code2d (rs_ctx s)) -> process_command e c s = Ok s' ->
  qr_holds (qr_after e q c) (c_code2d (rs_ctx s')).
Proof.
  intros Hy Sc Q H. assert (Mc : forall a b, mem a = mem b -> c_code2d a = c_code2d b) by (intros a b E; exact (f_equal (fun m => fst (fst m)) E)).
  unfold qr_after. destruct (list_eq_dec Z.eq_dec (c_commands c) [27; 64]) as [C|C].
  { rewrite (Mc _ _ (step_reset _ _ _ _ Hy Sc C H)). exact qr_holds_new. }
  assert (Sub : (exists id, c_handler c = HSubPlain id) \/ forall id, c_handler c <> HSubPlain id).
  { destruct (c_handler c); try (right; discriminate). left. eauto. }
  destruct Sub as [(id & Hd)|Ns].
  2:{ rewrite (proj1 (other_named _ Sc Ns)), (Mc _ _ (step_kept _ _ _ _ Sc C Ns H)). exact Q. }
  pose proof (sub_step _ _ _ _ _ Sc Hd H) as St.
  assert (Kept : c_kind c <> KContext -> qr_holds q (c_code2d (rs_ctx s'))).
  { intros Nk. assert (E : c_code2d (rs_ctx s') = c_code2d (rs_ctx s)); [|rewrite E; exact Q].
    destruct (c_kind c); try contradiction; destruct id; first [exact (Mc _ _ St) | exact (f_equal (fun m => fst (fst m)) St)]. }
  destruct (sub_named _ _ Sc Hd) as [(m & fn & t & F & _ & L & K & ->)|(fn & t & F & Pf & L & K & ->)]; rewrite F.
  - destruct (symbol_lookup _ _ _ L) as (It & Ec).
    assert (G : match sc_id t with
                | S_qr_set_model => [m; fn] = [49; 65] | S_qr_set_size => [m; fn] = [49; 67] | S_qr_set_correction_level => [m; fn] = [49; 69] | S_qr_store => [m; fn] = [49; 80]
                | _ => ~ In [m; fn] [[49; 65]; [49; 67]; [49; 69]; [49; 80]] end /\
                match sc_id t with S_qr_set_model | S_qr_set_size | S_qr_set_correction_level | S_qr_store => sc_kind t = KContext | _ => True end).
    { rewrite <- Ec. clear - It.
      assert (Qf : Forall (fun t => match sc_id t with
                | S_qr_set_model => sc_commands t = [49; 65] | S_qr_set_size => sc_commands t = [49; 67] | S_qr_set_correction_level => sc_commands t = [49; 69] | S_qr_store => sc_commands t = [49; 80]
                | _ => ~ In (sc_commands t) [[49; 65]; [49; 67]; [49; 69]; [49; 80]] end /\
                match sc_id t with S_qr_set_model | S_qr_set_size | S_qr_set_correction_level | S_qr_store => sc_kind t = KContext | _ => True end) code2d_table).
      { unfold code2d_table. repeat (apply Forall_cons; [cbn; split; [first [reflexivity | intuition discriminate] | auto]|]). apply Forall_nil. }
      exact (proj1 (Forall_forall _ _) Qf _ It). }
    destruct G as (G & Gk). rewrite <- K in Gk.
    destruct (match sc_id t with S_qr_set_model | S_qr_set_size | S_qr_set_correction_level | S_qr_store => true | _ => false end) eqn:Is.
    + assert (Kc : c_kind c = KContext) by (destruct (sc_id t); try discriminate Is; exact Gk). rewrite Kc in St.
      destruct St as (x & x' & Mx & _ & A & E). rewrite E. clear E. pose proof Q as Qx. rewrite <- (Mc _ _ Mx) in Qx. destruct Qx as [Q1 Q2 Q3 Q4].
      destruct (sc_id t); try discriminate Is; injection G as -> ->; cbn [apply_sub] in A; injection A as <-; unfold arg, get_or, first_byte in *.
      * unfold qr_store. cbv zeta. rewrite Q1, Q2, version_eq by apply vlen_nonneg.
        destruct (e_qr _ _ _ _ _) as [(bits & w)|]; [|constructor; assumption].
        constructor; cbn [qr_kind qr_level qr_dot qr_saved]; try assumption. cbn. rewrite Q3. reflexivity.
      * constructor; cbn [qr_kind qr_level qr_dot qr_saved]; try assumption. cbn. destruct (c_data c) as [|b ?]; cbn; [reflexivity|].
        destruct (Z.eqb_spec b 50) as [->|N1]; [reflexivity|]. destruct (Z.eqb_spec b 51) as [->|N2]; [reflexivity|].
        repeat match goal with |- context [match ?v with _ => _ end] => destruct v; try reflexivity; try congruence end.
      * constructor; cbn [qr_kind qr_level qr_dot qr_saved]; try assumption. cbn. destruct (c_data c) as [|b ?]; reflexivity.
      * constructor; cbn [qr_kind qr_level qr_dot qr_saved]; try assumption. cbn. destruct (c_data c) as [|b ?]; cbn; [reflexivity|].
        destruct (Z.eqb_spec b 1) as [->|N1]; [reflexivity|]. destruct (Z.eqb_spec b 2) as [->|N2]; [reflexivity|]. destruct (Z.eqb_spec b 3) as [->|N3]; [reflexivity|].
        repeat match goal with |- context [match ?v with _ => _ end] => destruct v; try reflexivity; try congruence end.
    + assert (Nq : qr_holds q (c_code2d (rs_ctx s'))).
      { destruct (c_kind c) eqn:Kc; try (apply Kept; discriminate). destruct St as (x & x' & Mx & _ & A & E). rewrite E. clear E.
        refine (qr_other _ _ _ _ _ _ A _ _); [destruct (sc_id t); first [discriminate Is | exact Logic.I] | rewrite (Mc _ _ Mx); exact Q]. }
      assert (N4 : ~ In [m; fn] [[49; 65]; [49; 67]; [49; 69]; [49; 80]]) by (destruct (sc_id t); first [discriminate Is | exact G]).
      cbn [In] in N4. repeat match goal with |- context [match ?v with _ => _ end] => destruct v end; try exact Nq; exfalso; apply N4; auto 10.
  - destruct (c_kind c) eqn:Kc; try (apply Kept; discriminate). destruct St as (x & x' & Mx & _ & A & E). rewrite E. clear E.
    refine (qr_other _ _ _ _ _ _ A _ _); [|rewrite (Mc _ _ Mx); exact Q].
    assert (It : In t graphics_table) by (unfold detect_kind in L; exact (proj1 (find_some _ _ L))).
    assert (Qf : Forall (fun t => match sc_id t with S_qr_set_model | S_qr_set_size | S_qr_set_correction_level | S_qr_store => False | _ => True end) graphics_table).
    { unfold graphics_table. repeat (apply Forall_cons; [exact Logic.I|]). apply Forall_nil. }
    exact (proj1 (Forall_forall _ _) Qf _ It).
Qed.
Lemma qr_run e l : forall s s' q, history e s -> Forall sent l -> qr_holds q (c_code2d (rs_ctx s)) -> run_commands e l s = Ok s' ->
  qr_holds (fold_left (qr_after e) l q) (c_code2d (rs_ctx s')).
Proof.
  unfold run_commands. induction l as [|c l IH]; intros s s' q Hy F Q H; cbn [fold_res fold_left] in *; [injection H as <-; exact Q|].
  apply bind_ok in H. destruct H as (s1 & H1 & H). apply Forall_cons_iff in F. destruct F as (Sc & F).
  refine (IH s1 s' _ _ F (qr_step _ _ _ _ _ Hy Sc Q H1) H).
  destruct Hy as (l0 & F0 & R0). exists (l0 ++ [c]). split; [apply Forall_app; auto|].
  unfold run_commands in *. rewrite fold_res_app, R0. cbn [bind fold_res]. rewrite H1. reflexivity.
Qed.
Lemma history_new e : history e renderer_new.
Proof. exists []. split; [constructor | reflexivity]. Qed.

(** ** The grid *)
Lemma grid_drawn c o y0 d w pts : standard c -> sinv c -> 2 <= w -> 0 <= d -> 0 <= o -> o + w * d <= 609 ->
  forall l k x y rects c' i' rects',
  0 <= k -> (k = 0 /\ x = o /\ y = y0 \/ 0 < k /\ x = o + ((k - 1) mod w + 1) * d /\ y = y0 + ((k - 1) / w) * d) ->
  fold_res (code2d_point (mk_code2d_g pts w d d) o) (map (fun b : bool => if b then 1 else 0) l) (at_xy x y c, k + 1, rects) = Ok (c', i', rects') ->
  rects' = rects ++ grid o y0 d w k l /\
  exists x', c' = at_xy x' (if k + vlen l =? 0 then y0 else y0 + ((k + vlen l - 1) / w) * d) c.
Proof.
  intros Sd I W D O Fit. induction l as [|b l IH]; intros k x y rects c' i' rects' K P H.
  - cbn [map fold_res] in H. injection H as <- <- <-. cbn [grid]. rewrite app_nil_r. split; [reflexivity|]. exists x.
    change (vlen (@nil bool)) with 0. replace (k + 0) with k by lia. destruct (Z.eqb_spec k 0); destruct P as [(P1 & P2 & P3)|(P1 & P2 & P3)]; try lia; subst; reflexivity.
  - cbn [map fold_res] in H. apply bind_ok in H. destruct H as (((c1 & i1) & r1) & H1 & H).
    unfold code2d_point in H1. cbn [q_width q_point_width q_point_height] in H1.
    apply bind_ok in H1. destruct H1 as (c2 & H2 & H1).
    assert (E2 : c2 = at_xy (o + (k mod w) * d) (y0 + (k / w) * d) c).
    { destruct (Z.eqb_spec (k + 1) 1) as [E|E]; cbn [negb] in H2.
      - injection H2 as <-. destruct P as [(-> & -> & ->)|(P1 & _)]; [|lia]. rewrite Z.mod_0_l, Z.div_0_l by lia. f_equal; lia.
      - destruct P as [(P1 & _)|(P1 & -> & ->)]; [lia|]. destruct (Z.eqb_spec w 0) as [|_]; [lia|].
        pose proof (Z.div_mod k w ltac:(lia)) as DM. pose proof (Z.mod_pos_bound k w ltac:(lia)) as MB.
        set (qk := k / w) in *. set (rk := k mod w) in *. clearbody qk rk.
        destruct (Z.eqb_spec ((k + 1) mod w) 1) as [M|M].
        + assert (rk = 0).
          { assert (X : (k + 1) mod w = if rk + 1 =? w then 0 else rk + 1).
            { destruct (Z.eqb_spec (rk + 1) w) as [Ew|Nw].
              - replace (k + 1) with (0 + (qk + 1) * w) by nia. rewrite Z_mod_plus_full. apply Z.mod_0_l. lia.
              - replace (k + 1) with ((rk + 1) + qk * w) by lia. rewrite Z_mod_plus_full. apply Z.mod_small. lia. }
            rewrite X in M. destruct (Z.eqb_spec (rk + 1) w); lia. }
          subst rk. assert (Eq : (k - 1) / w = qk - 1) by (symmetry; apply (Z.div_unique _ _ _ (w - 1)); [left; lia | nia]).
          rewrite Eq in H2. rewrite at_set_x in H2 by exact Sd. cbn [bind] in H2. apply (went_y _ _ _ _ _ Sd) in H2. subst c2. f_equal; lia.
        + injection H2 as <-. assert (R0 : rk <> 0).
          { intros ->. apply M. replace (k + 1) with (1 + qk * w) by lia. rewrite Z_mod_plus_full. apply Z.mod_small. lia. }
          assert (Eq : (k - 1) / w = qk) by (symmetry; apply (Z.div_unique _ _ _ (rk - 1)); [left; lia | lia]).
          assert (Er : (k - 1) mod w = rk - 1) by (symmetry; apply (Z.mod_unique _ _ qk); [left; lia | lia]).
          rewrite Eq, Er. f_equal; lia. }
    subst c2. clear H2 P. pose proof (Z.mod_pos_bound k w ltac:(lia)) as MB.
    rewrite at_avail, at_x, at_y in H1 by assumption. cbn [grid].
    assert (Room : (Z.max 0 (609 - (o + k mod w * d)) <? d) = false).
    { apply Z.ltb_ge. assert (k mod w * d + d <= w * d) by nia. lia. }
    rewrite Room, andb_false_r in H1.
    apply bind_ok in H1. destruct H1 as (c3 & H3 & H1). apply (went_x _ _ _ _ _ Sd) in H3. subst c3.
    apply bind_ok in H1. destruct H1 as (i2 & H3 & H1). apply add_u32v in H3. destruct H3 as (-> & _). injection H1 as <- <- <-.
    assert (K1 : 0 <= k + 1) by lia.
    assert (P1 : k + 1 = 0 /\ o + k mod w * d + d = o /\ y0 + k / w * d = y0 \/
      0 < k + 1 /\ o + k mod w * d + d = o + ((k + 1 - 1) mod w + 1) * d /\ y0 + k / w * d = y0 + ((k + 1 - 1) / w) * d).
    { right. replace (k + 1 - 1) with k by lia. split; [lia|]. split; [ring | reflexivity]. }
    destruct (IH (k + 1) _ _ _ _ _ _ K1 P1 H) as (-> & x' & ->). split.
    + destruct b; cbn [Z.ltb Z.compare]; [rewrite <- app_assoc; reflexivity | reflexivity].
    + exists x'. rewrite vlen_cons. replace (k + (1 + vlen l)) with (k + 1 + vlen l) by lia. reflexivity.
Qed.
Lemma symbol_drawn bits w d s s' : standard (rs_ctx s) -> sinv (rs_ctx s) -> 2 <= w -> 0 <= d -> w * d <= 609 -> vlen bits = w * w ->
  process_code_2d (mk_code2d_g (map (fun b : bool => if b then 1 else 0) bits) w d d) s = Ok s' ->
  exists x, rs_calls s' = rs_calls s ++ [(x, EGraphics (grid (justified (t_justify (c_text (rs_ctx s))) 609 (w * d)) (get_y (rs_ctx s)) d w 0 bits))] /\
    get_x (rs_ctx s') = 0 /\ get_y (rs_ctx s') = get_y (rs_ctx s) + (w - 1) * d /\ rs_errors s' = rs_errors s.
Proof.
  intros Sd I W D Fit N H. unfold process_code_2d in H. cbn [q_width q_point_width q_points] in H.
  apply bind_ok in H. destruct H as (t & Ht & H). apply mul_u32v in Ht. destruct Ht as (-> & Vt).
  assert (W609 : a_w (g_render_area (c_graphics (rs_ctx s))) = 609).
  { pose proof (std_width _ Sd I) as Wd. unfold get_width in Wd. rewrite Sd in Wd. exact Wd. }
  assert (T0 : 0 <= w * d) by nia.
  rewrite (justified_eq _ _ Sd W609 T0) in H.
  set (o := justified _ 609 (w * d)) in *.
  assert (O : 0 <= o /\ o + w * d <= 609).
  { unfold o, justified. destruct (Z.ltb_spec 609 (w * d)); [lia|]. destruct (t_justify _); lia. }
  apply bind_ok in H. destruct H as (c1 & H1 & H). rewrite (at_self _ Sd), (at_set_x _ _ _ _ Sd) in H1. injection H1 as <-.
  apply bind_ok in H. destruct H as (((c2 & i2) & rects) & H2 & H).
  destruct (grid_drawn (rs_ctx s) o (get_y (rs_ctx s)) d w _ Sd I W D (proj1 O) (proj2 O) bits 0 _ _ _ _ _ _ ltac:(lia) ltac:(left; auto) H2) as (-> & x' & ->).
  cbn [app] in H. injection H as <-. rewrite N.
  eexists. cbn [rs_calls call with_ctx rs_ctx rs_errors]. split; [reflexivity|].
  rewrite (at_reset _ _ _ Sd), (at_x _ _ _ Sd), (at_y _ _ _ Sd). split; [reflexivity|]. split; [|reflexivity]. match goal with |- context [if ?b then _ else _] => destruct b eqn:Eb; [exfalso; apply Z.eqb_eq in Eb; nia|] end.
  do 2 f_equal. symmetry. apply (Z.div_unique _ _ _ (w - 1)); [left; lia | ring].
Qed.

Lemma print_symbol_named c m : sent c -> symbol_function c = Some (m, 81) ->
  c_kind c = KGraphics /\ exists id, c_handler c = HSubPlain id /\
    (forall y, get_device_command c y = Ok []) /\ 48 <= m <= 54 /\
    (m = 49 -> id = S_qr_print) /\ (m <> 49 -> In id [S_pdf417_print; S_maxi_print; S_gs1_print; S_composite_print; S_aztec_print; S_datamatrix_print]).
Proof.
  intros Sc F. assert (Sub : (exists id, c_handler c = HSubPlain id) \/ forall id, c_handler c <> HSubPlain id).
  { destruct (c_handler c); try (right; discriminate). left. eauto. }
  destruct Sub as [(id & Hd)|Ns]; [|rewrite (proj1 (other_named _ Sc Ns)) in F; discriminate].
  destruct (sub_named _ _ Sc Hd) as [(m' & fn & t & F' & _ & L & K & ->)|(fn & t & F' & _)]; [|congruence].
  rewrite F in F'. injection F' as <- <-. destruct (symbol_lookup _ _ _ L) as (It & Ec). rewrite K.
  assert (Q : Forall (fun t => forall m, sc_commands t = [m; 81] -> sc_kind t = KGraphics /\ 48 <= m <= 54 /\
     match sc_id t with S_print_buffer_graphics => False | _ => True end /\
     (m = 49 -> sc_id t = S_qr_print) /\ (m <> 49 -> In (sc_id t) [S_pdf417_print; S_maxi_print; S_gs1_print; S_composite_print; S_aztec_print; S_datamatrix_print])) code2d_table).
  { unfold code2d_table. repeat (apply Forall_cons; [cbn; intros x E; first [discriminate E | injection E as <-; split; [reflexivity|]; split; [lia|]; split; [exact Logic.I|]; split; intros Z; first [reflexivity | lia | auto 10 | congruence]]|]). apply Forall_nil. }
  destruct (proj1 (Forall_forall _ _) Q _ It _ Ec) as (Q1 & Q2 & Q3 & Q4 & Q5).
  split; [exact Q1|]. exists (sc_id t). split; [exact Hd|]. split; [|auto].
  intros y. unfold get_device_command. rewrite Hd. destruct (sc_id t); try reflexivity. contradiction.
Qed.

(** ** C51 *)
(** After any commands [l], GS ( k print (cn 49, fn 81) in standard mode prints the symbol of the last
    data stored since ESC @: every dark module as a square of the size set when the data was stored, in
    rows below each other, placed by the justification, at the paper position after the text still
    waiting (state [s1]).  Without stored data nothing happens and an error is reported. *)
Theorem C51_printed : forall e l c s s1 s',
  Forall sent l -> run_commands e l renderer_new = Ok s -> sent c -> symbol_function c = Some (49, 81) ->
  p_enabled (c_page (rs_ctx s)) = false -> process_text s = Ok s1 -> process_command e c s = Ok s' ->
  match qr_saved (qr_remembered e l) with
  | Some (modules, w, d) =>
      2 <= w -> vlen modules = w * w -> 0 <= d -> w * d <= 609 ->
      let x0 := justified (t_justify (c_text (rs_ctx s))) 609 (w * d) in
      exists x, rs_calls s' = rs_calls s1 ++ [(x, EGraphics (grid x0 (get_y (rs_ctx s1)) d w 0 modules))] /\
        get_x (rs_ctx s') = 0 /\ get_y (rs_ctx s') = get_y (rs_ctx s1) + (w - 1) * d /\ rs_errors s' = rs_errors s
  | None => exists msg, rs_calls s' = rs_calls s1 /\ rs_ctx s' = rs_ctx s1 /\ rs_errors s' = rs_errors s ++ [GraphicsError msg]
  end.
Proof.
  intros e l c s s1 s' F R Sc Fn Pg H1 H.
  pose proof (qr_run e l renderer_new s qr_fresh (history_new e) F qr_holds_new R) as Q. fold (qr_remembered e l) in Q.
  pose proof (history_sinv e s (ex_intro _ l (conj F R))) as S.
  destruct (print_symbol_named _ _ Sc Fn) as (K & id & Hd & Dv & _ & Id & _). specialize (Id eq_refl). subst id.
  destruct (process_text_quiet _ _ H1) as ((M & E1 & _) & Sp).
  unfold process_command in H. rewrite K, H1 in H. cbn [bind] in H. unfold get_graphics in H. rewrite Hd in H. cbn [sub_graphics] in H.
  rewrite (moved_code2d _ _ M), (qh_saved _ _ Q) in H. cbn [bind] in H.
  destruct (qr_saved (qr_remembered e l)) as [((modules & w) & d)|].
  - intros W N D Fit x0. cbn [process_gfx] in H. apply bind_ok in H. destruct H as (s2 & H2 & H). rewrite Dv in H. cbn [bind] in H. injection H as <-.
    assert (Sd1 : standard (rs_ctx s1)) by (unfold standard; rewrite (moved_enabled _ _ M); exact Pg).
    destruct (symbol_drawn _ _ _ _ _ Sd1 (sinv_moved _ _ M S) W D Fit N H2) as (x & A & B & C & E). rewrite (moved_text _ _ M) in A.
    exists x. split; [exact A|]. split; [exact B|]. split; [exact C | congruence].
  - cbn [process_gfx bind] in H. rewrite Dv in H. cbn [bind] in H. injection H as <-.
    eexists. split; [reflexivity|]. split; [reflexivity|]. cbn [rs_errors log_error]. rewrite E1. reflexivity.
Qed.

(** There is one store for all two-dimensional symbols, and only the QR functions fill it.  So the print
    functions of PDF417, MaxiCode, GS1 DataBar, composite symbols, Aztec and DataMatrix print the QR
    symbol last stored, whatever data their own store function was given, or silently print nothing. *)
Theorem C51_other_symbols_refuted : forall e l c s s1 s' m,
  Forall sent l -> run_commands e l renderer_new = Ok s -> sent c -> symbol_function c = Some (m, 81) -> m <> 49 ->
  p_enabled (c_page (rs_ctx s)) = false -> process_text s = Ok s1 -> process_command e c s = Ok s' ->
  48 <= m <= 54 /\
  match qr_saved (qr_remembered e l) with
  | Some (modules, w, d) =>
      2 <= w -> vlen modules = w * w -> 0 <= d -> w * d <= 609 ->
      let x0 := justified (t_justify (c_text (rs_ctx s))) 609 (w * d) in
      exists x, rs_calls s' = rs_calls s1 ++ [(x, EGraphics (grid x0 (get_y (rs_ctx s1)) d w 0 modules))] /\ rs_errors s' = rs_errors s
  | None => rs_calls s' = rs_calls s1 /\ rs_ctx s' = rs_ctx s1 /\ rs_errors s' = rs_errors s
  end.
Proof.
  intros e l c s s1 s' m F R Sc Fn Nm Pg H1 H.
  pose proof (qr_run e l renderer_new s qr_fresh (history_new e) F qr_holds_new R) as Q. fold (qr_remembered e l) in Q.
  pose proof (history_sinv e s (ex_intro _ l (conj F R))) as S.
  destruct (print_symbol_named _ _ Sc Fn) as (K & id & Hd & Dv & Bm & _ & Id). specialize (Id Nm). split; [exact Bm|].
  destruct (process_text_quiet _ _ H1) as ((M & E1 & _) & Sp).
  unfold process_command in H. rewrite K, H1 in H. cbn [bind] in H. unfold get_graphics in H. rewrite Hd in H.
  assert (G : sub_graphics id (c_data c) (rs_ctx s1) = Ok (match k_symbol_storage (c_code2d (rs_ctx s1)) with Some q => Some (GCode2D q) | None => None end)).
  { destruct Id as [<-|[<-|[<-|[<-|[<-|[<-|[]]]]]]]; reflexivity. }
  rewrite G in H. rewrite (moved_code2d _ _ M), (qh_saved _ _ Q) in H. cbn [bind] in H. clear G.
  destruct (qr_saved (qr_remembered e l)) as [((modules & w) & d)|].
  - intros W N D Fit x0. cbn [process_gfx] in H. apply bind_ok in H. destruct H as (s2 & H2 & H). rewrite Dv in H. cbn [bind] in H. injection H as <-.
    assert (Sd1 : standard (rs_ctx s1)) by (unfold standard; rewrite (moved_enabled _ _ M); exact Pg).
    destruct (symbol_drawn _ _ _ _ _ Sd1 (sinv_moved _ _ M S) W D Fit N H2) as (x & A & B & C & E). rewrite (moved_text _ _ M) in A.
    exists x. split; [exact A | congruence].
  - cbn [bind] in H. rewrite Dv in H. cbn [bind] in H. injection H as <-. auto.
Qed.

(** The paper is left inside the last row of modules: whatever is printed next overlaps it. *)
Theorem C51_overlap_refuted : forall e l c s s1 s' modules w d,
  Forall sent l -> run_commands e l renderer_new = Ok s -> sent c -> symbol_function c = Some (49, 81) ->
  p_enabled (c_page (rs_ctx s)) = false -> process_text s = Ok s1 -> process_command e c s = Ok s' ->
  qr_saved (qr_remembered e l) = Some (modules, w, d) ->
  2 <= w -> vlen modules = w * w -> 0 < d -> w * d <= 609 ->
  get_y (rs_ctx s') < get_y (rs_ctx s1) + w * d.
Proof.
  intros e l c s s1 s' modules w d F R Sc Fn Pg H1 H Q W N D Fit.
  pose proof (C51_printed e l c s s1 s' F R Sc Fn Pg H1 H) as P. rewrite Q in P. destruct (P W N ltac:(lia) Fit) as (x & _ & _ & Y & _). rewrite Y. lia.
Qed.

(** A dummy encoder that only knows the data A with the byte 48 in front, at level L, in the version
    asked for two bytes: its symbol has two dark modules. *)
Definition qr_dummy : encoders :=
  mk_encoders (fun _ => None) (fun _ => None) (fun _ => None) (fun _ => None) (fun _ => None) (fun _ => None) (fun _ => None) (fun _ => None)
    (fun d mic v lvl => if list_eq_dec Z.eq_dec d [48; 65] then match lvl with QrL => if mic then None else if v =? 1 then Some ([true; false; false; true], 2) else None | _ => None end else None).
Definition squares (l : list (context * event)) : list (list rectangle) :=
  flat_map (fun x => match snd x with EGraphics (r :: q) => [r :: q] | _ => [] end) l.
(** ... and this stream prints it: size 4, data A, print.  The hypotheses of the theorems are met. *)
Definition qr_stream : list Z := [29; 40; 107; 3; 0; 49; 67; 4; 29; 40; 107; 4; 0; 49; 80; 48; 65; 29; 40; 107; 3; 0; 49; 81; 48; 10].
Example C51_demo : exists s, render qr_dummy qr_stream renderer_new = Ok s /\
  squares (rs_calls s) = [[mk_rectangle 0 108 4 4; mk_rectangle 4 112 4 4]] /\
  exists cmds c1 c2 c3, parse_esc_pos qr_stream = Ok cmds /\ cmds = [nth 0 cmds c1; c1; c2; c3; nth 4 cmds c1; nth 5 cmds c1] /\
    symbol_function c1 = Some (49, 67) /\ symbol_function c2 = Some (49, 80) /\ c_data c2 = [48; 65] /\ symbol_function c3 = Some (49, 81) /\
    qr_saved (qr_remembered qr_dummy [nth 0 cmds c1; c1; c2]) = Some ([true; false; false; true], 2, 4).
Proof.
  assert (V : (do s <- render qr_dummy qr_stream renderer_new; Ok (squares (rs_calls s))) = Ok [[mk_rectangle 0 108 4 4; mk_rectangle 4 112 4 4]]) by (vm_compute; reflexivity).
  destruct (render qr_dummy _ renderer_new) as [s|]; [|discriminate]. cbn [bind] in V. injection V as A. exists s. split; [reflexivity|]. split; [exact A|].
  do 4 eexists. split; [vm_compute; reflexivity|]. split; [reflexivity|]. repeat split; reflexivity.
Qed.

(** The level bytes of the ESC/POS command are 48 - 51; the three upper ones are not recognised: asking
    for level H (51) stores a symbol of level L. *)
Theorem C51_level_refuted : exists s,
  render qr_dummy ([29; 40; 107; 3; 0; 49; 69; 51] ++ qr_stream) renderer_new = Ok s /\ length (squares (rs_calls s)) = 1%nat.
Proof.
  assert (V : (do s <- render qr_dummy ([29; 40; 107; 3; 0; 49; 69; 51] ++ qr_stream) renderer_new; Ok (length (squares (rs_calls s)))) = Ok 1%nat) by (vm_compute; reflexivity).
  destruct (render qr_dummy _ renderer_new) as [s|]; [|discriminate]. cbn [bind] in V. injection V as A. exists s. auto.
Qed.
(** Data that cannot be encoded (here AA) leaves the symbol stored before: printing it is silent, with no
    error, and shows the old data. *)
Theorem C51_stale_refuted : exists s,
  render qr_dummy (qr_stream ++ [29; 40; 107; 5; 0; 49; 80; 48; 65; 65; 29; 40; 107; 3; 0; 49; 81; 48; 10]) renderer_new = Ok s /\
  map (map (fun r => (r_w r, r_h r))) (squares (rs_calls s)) = [[(4, 4); (4, 4)]; [(4, 4); (4, 4)]] /\ rs_errors s = [].
Proof.
  assert (V : (do s <- render qr_dummy (qr_stream ++ [29; 40; 107; 5; 0; 49; 80; 48; 65; 65; 29; 40; 107; 3; 0; 49; 81; 48; 10]) renderer_new;
    Ok (map (map (fun r => (r_w r, r_h r))) (squares (rs_calls s)), length (rs_errors s))) = Ok ([[(4, 4); (4, 4)]; [(4, 4); (4, 4)]], 0%nat)) by (vm_compute; reflexivity).
  destruct (render qr_dummy _ renderer_new) as [s|]; [|discriminate]. cbn [bind] in V. injection V as A B. exists s. split; [reflexivity|]. split; [exact A|].
  destruct (rs_errors s); [reflexivity | discriminate].
Qed.
