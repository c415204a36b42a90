(** * PropsStored: C52, pictures kept in the printer (GS ( L, GS 8 L). *)
From Verif Require Import Base Command CommandSet Parser Vec GTypes Graphics SpecGraphics GraphicsTheory GraphicsTheory2 PropsGraphics Decoder Context Text
  Handlers Renderer ContextTheory RendererTheory Origin Told SpecPrinter StateTheory PropsContext SpecRender PropsOutput LayoutTheory
  AreaTheory PropsLayout SafeTheory PropsThermal SpecSymbol PropsPicture PlaceTheory PenTheory SpecMemory MemoryTheory SpecQr PropsQr SpecStored.
Local Open Scope Z_scope.
Local Open Scope list_scope.
Local Arguments at_ : simpl never.
Local Arguments vlen : simpl never.

(** ** The map *)
Definition cell (p : place) : storage := match p with NV => Disc | Downloaded => Ram end.
Definition key (p : place) (k1 k2 : Z) : image_ref := {| kc1 := k1; kc2 := k2; ref_storage := cell p |}.
Lemma ref_eqb_spec a b : ref_eqb a b = true <-> a = b.
Proof.
  unfold ref_eqb. destruct a as [a1 a2 [|]], b as [b1 b2 [|]]; cbn; rewrite ?andb_true_r, ?andb_false_r, ?andb_true_iff, ?Z.eqb_eq;
    (split; [intros H; try discriminate; destruct H; congruence | intros H; try discriminate; injection H as -> ->; auto]).
Qed.
Lemma get_filter r m (f : image_ref * gfx -> bool) : (forall kv, fst kv = r -> f kv = true) -> map_get r (filter f m) = map_get r m.
Proof.
  intros F. unfold map_get. induction m as [|kv m IH]; [reflexivity|]. cbn [filter find]. destruct (ref_eqb (fst kv) r) eqn:E.
  - rewrite (F kv (proj1 (ref_eqb_spec _ _) E)). cbn [find]. rewrite E. reflexivity.
  - destruct (f kv); [cbn [find]; rewrite E|]; exact IH.
Qed.
Lemma get_filtered r m (f : image_ref * gfx -> bool) : (forall kv, fst kv = r -> f kv = false) -> map_get r (filter f m) = None.
Proof.
  intros F. unfold map_get. induction m as [|kv m IH]; [reflexivity|]. cbn [filter]. destruct (ref_eqb (fst kv) r) eqn:E.
  - rewrite (F kv (proj1 (ref_eqb_spec _ _) E)). exact IH.
  - destruct (f kv); [cbn [find]; rewrite E|]; exact IH.
Qed.
Lemma get_removed r q m : map_get r (map_remove q m) = if ref_eqb q r then None else map_get r m.
Proof.
  unfold map_remove. destruct (ref_eqb q r) eqn:E.
  - apply get_filtered. intros kv ->. apply ref_eqb_spec in E. subst q. rewrite (proj2 (ref_eqb_spec r r) eq_refl). reflexivity.
  - apply get_filter. intros kv ->. destruct (ref_eqb r q) eqn:E2; [|reflexivity]. apply ref_eqb_spec in E2. subst q.
    rewrite (proj2 (ref_eqb_spec r r) eq_refl) in E. discriminate.
Qed.
Lemma get_inserted r q g m : map_get r (map_insert q g m) = if ref_eqb q r then Some g else map_get r m.
Proof.
  unfold map_insert. unfold map_get at 1. cbn [find fst]. destruct (ref_eqb q r) eqn:E; [reflexivity|].
  change (map_get r (map_remove q m) = map_get r m). rewrite get_removed, E. reflexivity.
Qed.
Lemma get_retained p q k1 k2 m : map_get (key p k1 k2) (map_retain_not (cell q) m) = if storage_eqb (cell p) (cell q) then None else map_get (key p k1 k2) m.
Proof.
  unfold map_retain_not. destruct (storage_eqb (cell p) (cell q)) eqn:E.
  - apply get_filtered. intros kv ->. cbn [key ref_storage]. rewrite E. reflexivity.
  - apply get_filter. intros kv ->. cbn [key ref_storage]. rewrite E. reflexivity.
Qed.

(** ** The invariant *)
(** the picture of a definition's parameters *)
Definition decoded (d : list Z) : res gfx :=
  image_from_raster_multi (parse_u16 d 4) (parse_u16 d 6) (1, 1) (nth 3 d 0) default_colors FlowBlock (skipn 8 d) true.
Definition stored_is (o : option (list Z)) (g : option gfx) : Prop :=
  match o with None => g = None | Some d => (8 <= length d)%nat /\ bytes_ok d = true /\ exists v, decoded d = Ok v /\ g = Some v end.
Definition stored_holds (f : place -> Z -> Z -> option (list Z)) (x : context) : Prop :=
  forall p k1 k2, stored_is (f p k1 k2) (map_get (key p k1 k2) (g_stored_graphics (c_graphics x))).
Definition after_one (old : option (list Z)) (e : effect) : option (list Z) := match e with Kept => old | Deleted => None | Defined d => Some d end.

Lemma define_got st data x x' : (define_raster st data x = Ok x' /\ 8 <= vlen data \/ define_column st data x = Ok x') ->
  g_render_colors (c_graphics x) = default_colors ->
  exists a k1 k2 b t1 t2 t3 t4 body v, data = a :: k1 :: k2 :: b :: t1 :: t2 :: t3 :: t4 :: body /\ decoded data = Ok v /\
    g_stored_graphics (c_graphics x') = map_insert {| kc1 := k1; kc2 := k2; ref_storage := st |} v (g_stored_graphics (c_graphics x)).
Proof.
  intros H Col.
  assert (P : (8 <= length data)%nat /\ exists k1 k2 b body v, nth_error data 1 = Some k1 /\ nth_error data 2 = Some k2 /\ nth_error data 3 = Some b /\ body = skipn 8 data /\
    image_from_raster_multi (parse_u16 data 4) (parse_u16 data 6) (1, 1) b default_colors FlowBlock body true = Ok v /\
    g_stored_graphics (c_graphics x') = map_insert {| kc1 := k1; kc2 := k2; ref_storage := st |} v (g_stored_graphics (c_graphics x))).
  { assert (Core : (do k1 <- get_chk PUnwrap data 1; do k2 <- get_chk PUnwrap data 2; do b <- get_chk PUnwrap data 3; do body <- vslice_from data 8;
      do g <- image_from_raster_multi (parse_u16 data 4) (parse_u16 data 6) (1, 1) b (g_render_colors (c_graphics x)) FlowBlock body true;
      Ok (upd_graphics (fun gc => set_g_stored_graphics (map_insert {| kc1 := k1; kc2 := k2; ref_storage := st |} g (g_stored_graphics gc)) gc) x)) = Ok x').
    { destruct H as [(H & L)|H].
      - unfold define_raster in H. replace (vlen data <? 8) with false in H by lia. exact H.
      - unfold define_column in H. apply bind_ok in H. destruct H as (? & _ & H). exact H. }
    clear H. rewrite Col in Core.
    apply bind_ok in Core. destruct Core as (k1 & H1 & Core). apply bind_ok in Core. destruct Core as (k2 & H2 & Core). apply bind_ok in Core. destruct Core as (b & H3 & Core).
    apply bind_ok in Core. destruct Core as (body & Hb & Core). apply bind_ok in Core. destruct Core as (v & Hv & Core). injection Core as <-.
    unfold vslice_from, vslice in Hb. destruct (_ || _ || _) eqn:El in Hb; [discriminate|].
    assert (8 <= vlen data) as L by lia. unfold vlen in L.
    split; [lia|]. exists k1, k2, b, body, v. unfold get_chk in *.
    destruct (nth_error data 1), (nth_error data 2), (nth_error data 3); try discriminate.
    split; [congruence|]. split; [congruence|]. split; [congruence|]. split; [|split; [exact Hv | reflexivity]].
    injection Hb as <-. change (Z.to_nat 8) with 8%nat. rewrite firstn_all2; [reflexivity|].
    pose proof (skipn_length 8 data) as Ls. cbn [skipn] in Ls. rewrite Ls. unfold vlen. lia. }
  destruct P as (L & k1 & k2 & b & body & v & H1 & H2 & H3 & -> & Hv & E).
  destruct data as [|a [|q1 [|q2 [|q3 [|t1 [|t2 [|t3 [|t4 body]]]]]]]]; cbn [length] in L; try lia.
  cbn [nth_error] in H1, H2, H3. injection H1 as <-. injection H2 as <-. injection H3 as <-.
  exists a, q1, q2, q3, t1, t2, t3, t4, body, v. split; [reflexivity|]. split; [exact Hv | exact E].
Qed.
Lemma stored_other e id c x x' : apply_sub e id c x = Ok x' ->
  match id with S_clear_all_download_graphics | S_clear_all_nv_graphics | S_clear_download_graphic | S_clear_nv_graphic
  | S_define_download_graphics_column | S_define_download_graphics_raster | S_define_nv_graphics_column | S_define_nv_graphics_raster => False | _ => True end ->
  g_stored_graphics (c_graphics x') = g_stored_graphics (c_graphics x).
Proof.
  intros H N. destruct id; try contradiction; cbn [apply_sub] in H; try (injection H as <-; reflexivity).
  all: try (injection H as <-; unfold qr_store; cbv zeta; destruct (e_qr _ _ _ _ _) as [(? & ?)|]; reflexivity).
  all: try (injection H as <-; match goal with |- context [if ?b then _ else _] => destruct b end; reflexivity).
  all: try (unfold store_buffer in H;
            repeat match type of H with (if ?b then _ else _) = _ => destruct b end;
            try (injection H as <-; reflexivity);
            repeat (apply bind_ok in H; destruct H as (? & _ & H)); cbv zeta in H; try (apply bind_ok in H; destruct H as (? & _ & H)); injection H as <-; reflexivity).
  all: try (apply bind_ok in H; destruct H as (v & _ & H); injection H as <-; try (destruct v as [((? & ?) & ?)|]); reflexivity).
  all: try (destruct (vlen (c_data c) <? 2); [discriminate|]; apply bind_ok in H; destruct H as (v & _ & H); injection H as <-; reflexivity).
  all: try (injection H as <-; repeat match goal with |- context [if ?b then _ else _] => destruct b end; reflexivity).
Qed.
Lemma symbol_not_picture m fn t : sub_lookup [29; 40; 107] m fn = Some t ->
  match sc_id t with S_clear_all_download_graphics | S_clear_all_nv_graphics | S_clear_download_graphic | S_clear_nv_graphic
  | S_define_download_graphics_column | S_define_download_graphics_raster | S_define_nv_graphics_column | S_define_nv_graphics_raster
  | S_store_buffer_graphics_raster | S_store_buffer_graphics_column | S_print_buffer_graphics => False | _ => True end.
Proof.
  intros L. destruct (symbol_lookup _ _ _ L) as (It & _).
  assert (Qf : Forall (fun t => match sc_id t with S_clear_all_download_graphics | S_clear_all_nv_graphics | S_clear_download_graphic | S_clear_nv_graphic
  | S_define_download_graphics_column | S_define_download_graphics_raster | S_define_nv_graphics_column | S_define_nv_graphics_raster
  | S_store_buffer_graphics_raster | S_store_buffer_graphics_column | S_print_buffer_graphics => False | _ => True end) code2d_table).
  { unfold code2d_table. repeat (apply Forall_cons; [exact Logic.I|]). apply Forall_nil. }
  exact (proj1 (Forall_forall _ _) Qf _ It).
Qed.
(** the picture functions: number, kind, meaning *)
Lemma picture_entry fn t : detect_kind graphics_table fn = Some t ->
  match sc_id t with
  | S_define_nv_graphics_raster => fn = 67 | S_define_nv_graphics_column => fn = 68
  | S_define_download_graphics_raster => fn = 83 | S_define_download_graphics_column => fn = 84
  | S_clear_all_nv_graphics => fn = 65 | S_clear_all_download_graphics => fn = 81
  | S_clear_nv_graphic => fn = 66 | S_clear_download_graphic => fn = 82
  | S_print_nv_graphic => fn = 69 | S_print_download_graphics => fn = 85
  | S_store_buffer_graphics_raster => fn = 112 | S_store_buffer_graphics_column => fn = 113
  | S_print_buffer_graphics => fn = 2 \/ fn = 50
  | _ => ~ In fn [67; 68; 83; 84; 65; 81; 66; 82; 69; 85; 112; 113; 2; 50] end /\
  match sc_id t with
  | S_define_nv_graphics_raster | S_define_nv_graphics_column | S_define_download_graphics_raster | S_define_download_graphics_column
  | S_clear_all_nv_graphics | S_clear_all_download_graphics | S_clear_nv_graphic | S_clear_download_graphic
  | S_store_buffer_graphics_raster | S_store_buffer_graphics_column => sc_kind t = KContext
  | S_print_nv_graphic | S_print_download_graphics | S_print_buffer_graphics => sc_kind t = KGraphics
  | _ => True end.
Proof.
  intros L. assert (It : In t graphics_table /\ mem_byte fn (sc_commands t) = true) by (unfold detect_kind in L; exact (find_some _ _ L)).
  destruct It as (It & Mb). revert Mb. pattern t. revert t It L. 
  assert (Qf : Forall (fun t => mem_byte fn (sc_commands t) = true ->
  match sc_id t with
  | S_define_nv_graphics_raster => fn = 67 | S_define_nv_graphics_column => fn = 68
  | S_define_download_graphics_raster => fn = 83 | S_define_download_graphics_column => fn = 84
  | S_clear_all_nv_graphics => fn = 65 | S_clear_all_download_graphics => fn = 81
  | S_clear_nv_graphic => fn = 66 | S_clear_download_graphic => fn = 82
  | S_print_nv_graphic => fn = 69 | S_print_download_graphics => fn = 85
  | S_store_buffer_graphics_raster => fn = 112 | S_store_buffer_graphics_column => fn = 113
  | S_print_buffer_graphics => fn = 2 \/ fn = 50
  | _ => ~ In fn [67; 68; 83; 84; 65; 81; 66; 82; 69; 85; 112; 113; 2; 50] end /\
  match sc_id t with
  | S_define_nv_graphics_raster | S_define_nv_graphics_column | S_define_download_graphics_raster | S_define_download_graphics_column
  | S_clear_all_nv_graphics | S_clear_all_download_graphics | S_clear_nv_graphic | S_clear_download_graphic
  | S_store_buffer_graphics_raster | S_store_buffer_graphics_column => sc_kind t = KContext
  | S_print_nv_graphic | S_print_download_graphics | S_print_buffer_graphics => sc_kind t = KGraphics
  | _ => True end) graphics_table).
  { unfold graphics_table. repeat (apply Forall_cons; [cbn; intros Mb; repeat rewrite orb_true_iff in Mb; repeat rewrite Z.eqb_eq in Mb; split; [first [lia | intros G; repeat (destruct G as [G|G]; [lia|]); exact G] | first [reflexivity | exact Logic.I]]|]). apply Forall_nil. }
  intros t It _ Mb. exact (proj1 (Forall_forall _ _) Qf _ It Mb).
Qed.
Lemma define_holds f p st c x x' fn :
  (define_raster st (c_data c) x = Ok x' /\ 8 <= vlen (c_data c) \/ define_column st (c_data c) x = Ok x') ->
  g_render_colors (c_graphics x) = default_colors -> st = cell p -> (fn = fst (fn_define p) \/ fn = snd (fn_define p)) ->
  c_commands c <> [27; 64] -> picture_function c = Some fn -> bytes_ok (c_data c) = true -> stored_holds f x ->
  stored_holds (fun p k1 k2 => after_one (f p k1 k2) (effect_on p k1 k2 c)) x'.
Proof.
  intros H Col -> Fn Ni Pf Bd Q p0 q1 q2. specialize (Q p0 q1 q2).
  destruct (define_got _ _ _ _ H Col) as (a & k1 & k2 & b & t1 & t2 & t3 & t4 & body & v & Ed & Dv & ->). clear H.
  unfold effect_on. destruct (list_eq_dec _ _ _) as [|_]; [contradiction|]. rewrite Pf. rewrite get_inserted.
  assert (Rk : ref_eqb {| kc1 := k1; kc2 := k2; ref_storage := cell p |} (key p0 q1 q2) = (match p, p0 with NV, NV | Downloaded, Downloaded => true | _, _ => false end) && ((k1 =? q1) && (k2 =? q2))).
  { unfold ref_eqb. cbn [kc1 kc2 ref_storage key]. destruct p, p0; cbn [cell storage_eqb]; rewrite ?andb_true_r, ?andb_false_r; reflexivity. }
  rewrite Rk. clear Rk.
  assert (Ff : (fn =? fst (fn_define p0)) || (fn =? snd (fn_define p0)) = match p, p0 with NV, NV | Downloaded, Downloaded => true | _, _ => false end).
  { destruct p, p0; cbn [fn_define fst snd] in *; lia. }
  rewrite Ff. destruct (match p, p0 with NV, NV | Downloaded, Downloaded => true | _, _ => false end) eqn:Sm; cbn [andb].
  - rewrite Ed. destruct ((k1 =? q1) && (k2 =? q2)); [|exact Q]. cbn [after_one stored_is]. rewrite <- Ed. split; [rewrite Ed; cbn; lia|]. split; [exact Bd | eauto].
  - assert (N1 : (fn =? fn_delete_all p0) = false) by (destruct p, p0; try discriminate; cbn in *; lia).
    assert (N2 : (fn =? fn_delete p0) = false) by (destruct p, p0; try discriminate; cbn in *; lia). rewrite N1, N2. exact Q.
Qed.
Lemma stored_step e c s s' f : history e s -> sent c -> stored_holds f (rs_ctx s) -> process_command e c s = Ok s' ->
  stored_holds (fun p k1 k2 => after_one (f p k1 k2) (effect_on p k1 k2 c)) (rs_ctx s').
Proof.
  intros Hy Sc Q H. assert (Mc : forall a b, mem a = mem b -> g_stored_graphics (c_graphics a) = g_stored_graphics (c_graphics b)) by (intros a b E; exact (f_equal (fun m => snd (fst m)) E)).
  assert (Same : forall x, g_stored_graphics (c_graphics x) = g_stored_graphics (c_graphics (rs_ctx s)) -> stored_holds f x) by (intros x E p k1 k2; rewrite E; apply Q).
  destruct (list_eq_dec Z.eq_dec (c_commands c) [27; 64]) as [C|C].
  { intros p k1 k2. rewrite (Mc _ _ (step_reset _ _ _ _ Hy Sc C H)). unfold effect_on. destruct (list_eq_dec _ _ _); [|contradiction]. reflexivity. }
  assert (Plain : (forall p, (match picture_function c with None => True | Some fn => ~ In fn [fst (fn_define p); snd (fn_define p); fn_delete_all p; fn_delete p] end)) ->
    g_stored_graphics (c_graphics (rs_ctx s')) = g_stored_graphics (c_graphics (rs_ctx s)) -> stored_holds (fun p k1 k2 => after_one (f p k1 k2) (effect_on p k1 k2 c)) (rs_ctx s')).
  { intros Nf E p k1 k2. specialize (Nf p). unfold effect_on. destruct (list_eq_dec _ _ _); [contradiction|]. rewrite E. specialize (Q p k1 k2).
    destruct (picture_function c) as [fn|]; [|exact Q]. cbn [In] in Nf.
    replace (fn =? fst (fn_define p)) with false by lia. replace (fn =? snd (fn_define p)) with false by lia.
    replace (fn =? fn_delete_all p) with false by lia. replace (fn =? fn_delete p) with false by lia. exact Q. }
  assert (Sub : (exists id, c_handler c = HSubPlain id) \/ forall id, c_handler c <> HSubPlain id).
  { destruct (c_handler c); try (right; discriminate). left. eauto. }
  destruct Sub as [(id & Hd)|Ns].
  2:{ apply Plain; [rewrite (proj2 (other_named _ Sc Ns)); auto | exact (Mc _ _ (step_kept _ _ _ _ Sc C Ns H))]. }
  pose proof (sub_step _ _ _ _ _ Sc Hd H) as St.
  assert (Kept : c_kind c <> KContext -> g_stored_graphics (c_graphics (rs_ctx s')) = g_stored_graphics (c_graphics (rs_ctx s))).
  { intros Nk. destruct (c_kind c); try contradiction; destruct id; first [exact (Mc _ _ St) | exact (f_equal (fun m => snd (fst m)) St)]. }
  destruct (sub_named _ _ Sc Hd) as [(m & fn & t & F & Pn & L & K & ->)|(fn & t & F & Pf & L & K & ->)].
  { apply Plain; [rewrite Pn; auto|]. destruct (c_kind c) eqn:Kc; try (apply Kept; discriminate). destruct St as (x & x' & Mx & _ & A & E). rewrite E, <- (Mc _ _ Mx).
    apply (stored_other _ _ _ _ _ A). pose proof (symbol_not_picture _ _ _ L) as X. destruct (sc_id t); auto. }
  destruct (picture_entry _ _ L) as (G & Gk). rewrite <- K in Gk.
  destruct (match sc_id t with S_clear_all_download_graphics | S_clear_all_nv_graphics | S_clear_download_graphic | S_clear_nv_graphic
  | S_define_download_graphics_column | S_define_download_graphics_raster | S_define_nv_graphics_column | S_define_nv_graphics_raster => true | _ => false end) eqn:Is.
  - assert (Kc : c_kind c = KContext) by (destruct (sc_id t); try discriminate Is; exact Gk). rewrite Kc in St. destruct St as (x & x' & Mx & Mv & A & E).
    rewrite E. clear E Plain Kept Gk Kc. assert (Qx : stored_holds f x) by (apply Same, (Mc _ _ Mx)).
    assert (Col : g_render_colors (c_graphics x) = default_colors) by (rewrite (moved_colors _ _ Mv); exact (gk_colors _ (si_graphics _ (history_sinv _ _ Hy)))).
    assert (All : forall p, fn = fn_delete_all p -> x' = upd_stored (map_retain_not (cell p)) x -> stored_holds (fun p k1 k2 => after_one (f p k1 k2) (effect_on p k1 k2 c)) x').
    { intros p -> -> p0 q1 q2. specialize (Qx p0 q1 q2). unfold effect_on. destruct (list_eq_dec _ _ _); [contradiction|]. rewrite Pf.
      change (g_stored_graphics (c_graphics (upd_stored ?h x))) with (h (g_stored_graphics (c_graphics x))). rewrite get_retained.
      destruct p, p0; cbn; first [reflexivity | exact Qx]. }
    assert (One : forall p, fn = fn_delete p -> x' = clear_one (cell p) (c_data c) x -> stored_holds (fun p k1 k2 => after_one (f p k1 k2) (effect_on p k1 k2 c)) x').
    { intros p -> -> p0 q1 q2. specialize (Qx p0 q1 q2). unfold effect_on. destruct (list_eq_dec _ _ _); [contradiction|]. rewrite Pf.
      unfold clear_one, ref_from_data. destruct (c_data c) as [|k1 [|k2 rest]].
      - destruct p, p0; exact Qx.
      - destruct p, p0; exact Qx.
      - change (g_stored_graphics (c_graphics (upd_stored ?h x))) with (h (g_stored_graphics (c_graphics x))). rewrite get_removed.
        unfold ref_eqb. cbn [kc1 kc2 ref_storage key].
        destruct p, p0; cbn [cell storage_eqb]; rewrite ?andb_true_r, ?andb_false_r; cbn; destruct ((k1 =? q1) && (k2 =? q2)); first [reflexivity | exact Qx]. }
    assert (Ras : forall p, fn = fst (fn_define p) -> define_raster (cell p) (c_data c) x = Ok x' -> stored_holds (fun p k1 k2 => after_one (f p k1 k2) (effect_on p k1 k2 c)) x').
    { intros p Fn D. destruct (Z.ltb_spec (vlen (c_data c)) 8) as [Sh|Lo].
      - unfold define_raster in D. replace (vlen (c_data c) <? 8) with true in D by lia. injection D as <-.
        intros p0 q1 q2. specialize (Qx p0 q1 q2). unfold effect_on. destruct (list_eq_dec _ _ _); [contradiction|]. rewrite Pf, Fn.
        unfold vlen in Sh. destruct (c_data c) as [|d1 [|d2 [|d3 [|d4 [|d5 [|d6 [|d7 [|d8 rest]]]]]]]]; cbn [length] in Sh; try lia; destruct p, p0; exact Qx.
      - exact (define_holds f p (cell p) c x x' fn (or_introl (conj D Lo)) Col eq_refl (or_introl Fn) C Pf (sent_bytes _ Sc) Qx). }
    assert (Cl : forall p, fn = snd (fn_define p) -> define_column (cell p) (c_data c) x = Ok x' -> stored_holds (fun p k1 k2 => after_one (f p k1 k2) (effect_on p k1 k2 c)) x').
    { intros p Fn D. exact (define_holds f p (cell p) c x x' fn (or_intror D) Col eq_refl (or_intror Fn) C Pf (sent_bytes _ Sc) Qx). }
    destruct (sc_id t); try discriminate Is; cbn [apply_sub] in A.
    all: first [ injection A as <-; first [exact (All NV G eq_refl) | exact (All Downloaded G eq_refl) | exact (One NV G eq_refl) | exact (One Downloaded G eq_refl)]
               | exact (Ras NV G A) | exact (Ras Downloaded G A) | exact (Cl NV G A) | exact (Cl Downloaded G A) ].
  - apply Plain.
    + intros p. rewrite Pf. intros I. assert (I8 : In fn [67; 68; 65; 66; 83; 84; 81; 82]) by (destruct p; cbn in *; tauto). clear I. cbn [In] in I8.
      destruct (sc_id t); try discriminate Is; cbn [In] in G; lia.
    + destruct (c_kind c) eqn:Kc; try (apply Kept; discriminate). destruct St as (x & x' & Mx & _ & A & E). rewrite E, <- (Mc _ _ Mx).
      apply (stored_other _ _ _ _ _ A). destruct (sc_id t); first [discriminate Is | exact Logic.I].
Qed.
Lemma stored_run e l : forall s s' f, history e s -> Forall sent l -> stored_holds f (rs_ctx s) -> run_commands e l s = Ok s' ->
  stored_holds (fun p k1 k2 => fold_left (fun old c => after_one old (effect_on p k1 k2 c)) l (f p k1 k2)) (rs_ctx s').
Proof.
  unfold run_commands. induction l as [|c l IH]; intros s s' f Hy F Q H; cbn [fold_res fold_left] in *; [injection H as <-; exact Q|].
  apply bind_ok in H. destruct H as (s1 & H1 & H). apply Forall_cons_iff in F. destruct F as (Sc & F).
  refine (IH s1 s' _ _ F (stored_step _ _ _ _ _ Hy Sc Q H1) H).
  destruct Hy as (l0 & F0 & R0). exists (l0 ++ [c]). split; [apply Forall_app; auto|].
  unfold run_commands in *. rewrite fold_res_app, R0. cbn [bind fold_res]. rewrite H1. reflexivity.
Qed.
Lemma stored_at e l s p k1 k2 : Forall sent l -> run_commands e l renderer_new = Ok s ->
  stored_is (kept p k1 k2 l) (map_get (key p k1 k2) (g_stored_graphics (c_graphics (rs_ctx s)))).
Proof.
  intros F R. refine (stored_run e l renderer_new s (fun _ _ _ => None) (history_new e) F _ R p k1 k2). intros q1 q2 q3. reflexivity.
Qed.

(** ** Printing *)
Lemma single_flow w h st col fl d b i : image_from_raster_single w h st col fl d b = Ok (GImage i) -> i_flow i = fl /\ i_upside_down i = false.
Proof.
  unfold image_from_raster_single. intros H. apply bind_ok in H. destruct H as (n & _ & H). destruct (negb _); [discriminate|].
  apply bind_ok in H. destruct H as (((w' & h') & raw) & _ & H). injection H as <-. split; reflexivity.
Qed.
Lemma layers_flow fl rc data b bpl w h st : forall n k l, raster_layers k n w h st rc fl data b bpl = Ok (inl l) -> Forall (fun i => i_flow i = fl /\ i_upside_down i = false) l.
Proof.
  induction n as [|n IH]; intros k l H; cbn [raster_layers] in H; [injection H as <-; constructor|]. cbv zeta in H.
  apply bind_ok in H. destruct H as (cn & _ & H). apply bind_ok in H. destruct H as (im & _ & H). apply bind_ok in H. destruct H as (g & Hg & H).
  destruct g; try discriminate; try exact (IH _ _ H).
  apply bind_ok in H. destruct H as (r & Hr & H). destruct r as [r|]; [|discriminate]. injection H as <-. constructor; [exact (single_flow _ _ _ _ _ _ _ _ Hg) | exact (IH _ _ Hr)].
Qed.
Lemma merged_flow l i : merge_image_layers l = Ok (inl i) -> forall fl, Forall (fun i => i_flow i = fl /\ i_upside_down i = false) l -> i_flow i = fl /\ i_upside_down i = false.
Proof.
  intros H fl F. destruct l as [|base rest]; [discriminate|]. apply Forall_cons_iff in F. destruct F as (Fb & _).
  assert (R : forall rest base, merge_rest base rest = Ok (inl i) -> i_flow base = fl /\ i_upside_down base = false -> i_flow i = fl /\ i_upside_down i = false).
  { clear. induction rest as [|l r IH]; intros base H F; cbn [merge_rest] in H; [injection H as <-; exact F|].
    destruct (_ || _); [discriminate|]. apply bind_ok in H. destruct H as (px & _ & H). exact (IH _ H F). }
  cbn [merge_image_layers] in H. destruct rest; [injection H as <-; exact Fb | exact (R _ _ H Fb)].
Qed.
Lemma multi_flow w h st n rc fl d b i : image_from_raster_multi w h st n rc fl d b = Ok (GImage i) -> i_flow i = fl /\ i_upside_down i = false.
Proof.
  unfold image_from_raster_multi. cbv zeta. intros H. destruct (negb _) in H; [discriminate|]. apply bind_ok in H. destruct H as (l & Hl & H).
  destruct l as [l|]; [|discriminate]. apply bind_ok in H. destruct H as (m & Hm & H). injection H as H. destruct m as [m|]; [|discriminate H].
  cbn [merged_gfx] in H. injection H as <-. exact (merged_flow _ _ Hm _ (layers_flow _ _ _ _ _ _ _ _ _ _ _ Hl)).
Qed.
Lemma block_printed e c s s1 s' img d : sinv (rs_ctx s) -> p_enabled (c_page (rs_ctx s)) = false -> process_text s = Ok s1 ->
  c_kind c = KGraphics -> get_graphics e c (rs_ctx s1) = Ok (Some (GImage img)) -> (forall x, get_device_command c x = Ok d) -> d = [] \/ d = [ClearBufferGraphics] ->
  i_flow img = FlowBlock -> 0 <= i_w img -> process_command e c s = Ok s' ->
  exists x more, rs_calls s' = rs_calls s1 ++ (x, EImage (set_i_y (get_y (rs_ctx s1)) (set_i_x (justified (t_justify (c_text (rs_ctx s))) 609 (i_w img)) img))) :: more /\
    map snd more = map EDevice d /\
    get_x (rs_ctx s') = 0 /\ get_y (rs_ctx s') = get_y (rs_ctx s1) + i_h img /\ rs_errors s' = rs_errors s.
Proof.
  intros I Pg H1 Kc Gg Dv Dd Fl Hw H. destruct (at_start _ _ Pg I H1) as (P1 & W1 & T1 & E1).
  unfold process_command in H. rewrite Kc, H1 in H. cbn [bind] in H. rewrite Gg in H. cbn [bind] in H.
  apply bind_ok in H. destruct H as (s2 & H2 & H). rewrite Dv in H. cbn [bind] in H.
  destruct (process_gfx_moved (GImage img) s1 s2 H2 (proj2 (process_text_moved _ _ H1))) as (_ & _ & _ & Er). rewrite app_nil_r in Er.
  destruct (block_image img s1 s2 P1 W1 Fl Hw H2) as (x & K & Gx & Gy). rewrite T1 in K. exists x.
  destruct Dd as [->| ->]; unfold process_device_commands in H; cbn [fold_res bind process_device_command] in H; injection H as <-.
  - exists []. split; [exact K|]. split; [reflexivity|]. split; [exact Gx|]. split; [exact Gy | congruence].
  - exists [(rs_ctx s2, EDevice ClearBufferGraphics)]. split; [cbn [rs_calls call with_ctx]; rewrite K, <- app_assoc; reflexivity|]. split; [reflexivity|].
    split; [exact Gx|]. split; [exact Gy | cbn [rs_errors call with_ctx]; congruence].
Qed.
Lemma plane_colours n : color_for_number default_colors n = (if n =? 0 then mk_rgba 255 255 255 255
  else if (n =? 2) || (n =? 50) then mk_rgba 158 22 22 255 else if (n =? 3) || (n =? 51) then mk_rgba 27 57 169 255 else mk_rgba 0 0 0 255).
Proof.
  destruct (Z.eqb_spec n 0) as [->|]; [reflexivity|]. destruct (Z.eqb_spec n 2) as [->|]; [reflexivity|]. destruct (Z.eqb_spec n 50) as [->|]; [reflexivity|].
  destruct (Z.eqb_spec n 3) as [->|]; [reflexivity|]. destruct (Z.eqb_spec n 51) as [->|]; [reflexivity|]. cbn [orb].
  unfold color_for_number. repeat match goal with |- context [match ?v with _ => _ end] => destruct v end; first [reflexivity | congruence].
Qed.
Lemma plane_alpha n on : with_alpha (color_for_number default_colors n) (if on : bool then 255 else 0) = SpecGraphics.ink (plane_colour n) on.
Proof.
  rewrite plane_colours. unfold plane_colour. destruct (n =? 0); [reflexivity|]. destruct (_ || _); [reflexivity|]. destruct (_ || _); reflexivity.
Qed.
Lemma lor_bytes l h : is_byte l = true -> 0 <= h -> Z.lor (Z.shiftl h 8) l = l + 256 * h.
Proof.
  intros B H. unfold is_byte in B. rewrite <- Z.lxor_lor, <- Z.add_nocarry_lxor.
  - rewrite Z.shiftl_mul_pow2 by lia. change (2 ^ 8) with 256. lia.
  - apply Z.bits_inj'. intros n N. rewrite Z.land_spec, Z.bits_0. destruct (Z.ltb_spec n 8).
    + rewrite Z.shiftl_spec_low by lia. reflexivity.
    + rewrite (Z.bits_above_log2 l n); [apply andb_false_r | lia|]. destruct (Z.eq_dec l 0) as [->|]; [cbn; lia|].
      enough (Z.log2 l < 8) by lia. apply Z.log2_lt_pow2; lia.
  - apply Z.bits_inj'. intros n N. rewrite Z.land_spec, Z.bits_0. destruct (Z.ltb_spec n 8).
    + rewrite Z.shiftl_spec_low by lia. reflexivity.
    + rewrite (Z.bits_above_log2 l n); [apply andb_false_r | lia|]. destruct (Z.eq_dec l 0) as [->|]; [cbn; lia|].
      enough (Z.log2 l < 8) by lia. apply Z.log2_lt_pow2; lia.
Qed.
Lemma print_named c p : sent c -> picture_function c = Some (fn_print p) ->
  c_kind c = KGraphics /\ (forall y, get_device_command c y = Ok []) /\
  forall e x k1 k2 rest, c_data c = k1 :: k2 :: rest -> get_graphics e c x = Ok (map_get (key p k1 k2) (g_stored_graphics (c_graphics x))).
Proof.
  intros Sc F. assert (Sub : (exists id, c_handler c = HSubPlain id) \/ forall id, c_handler c <> HSubPlain id).
  { destruct (c_handler c); try (right; discriminate). left. eauto. }
  destruct Sub as [(id & Hd)|Ns]; [|rewrite (proj2 (other_named _ Sc Ns)) in F; discriminate].
  destruct (sub_named _ _ Sc Hd) as [(m' & fn & t & _ & F' & _)|(fn & t & _ & F' & L & K & ->)]; [congruence|].
  rewrite F in F'. injection F' as <-. destruct (picture_entry _ _ L) as (G & Gk). rewrite <- K in Gk.
  assert (Id : sc_id t = match p with NV => S_print_nv_graphic | Downloaded => S_print_download_graphics end).
  { destruct p; cbn [fn_print] in G; destruct (sc_id t); first [reflexivity | exfalso; cbn [In] in G; lia]. }
  rewrite Id in *. split; [destruct p; exact Gk|]. split; [intros y; unfold get_device_command; rewrite Hd; destruct p; reflexivity|].
  intros e x k1 k2 rest Ed. unfold get_graphics. rewrite Hd. destruct p; cbn [sub_graphics]; rewrite Ed; reflexivity.
Qed.

(** ** C52 *)
(** Printing a picture that is kept prints it dot for dot as it was sent, as a block placed by the
    justification, at the paper position after the text still waiting (state [s1]); the picture is the one
    of the last definition under these keys in this memory.  Its width must be a multiple of 8
    (C52_odd_width_refuted). *)
Theorem C52_printed : forall e l c s s1 s' p k1 k2 rest,
  Forall sent l -> run_commands e l renderer_new = Ok s -> sent c -> picture_function c = Some (fn_print p) -> c_data c = k1 :: k2 :: rest ->
  p_enabled (c_page (rs_ctx s)) = false -> process_text s = Ok s1 -> process_command e c s = Ok s' ->
  match kept p k1 k2 l with
  | None => rs_calls s' = rs_calls s1 /\ rs_ctx s' = rs_ctx s1 /\ rs_errors s' = rs_errors s
  | Some d => forall a xl xh yl yh first more,
      d = [a; k1; k2; 1 + vlen more; xl; xh; yl; yh] ++ planes_data (first :: more) ->
      let w := num2 xl xh in let h := num2 yl yh in
      0 < w -> w mod 8 = 0 -> Forall (fun pl => vlen (snd pl) = w / 8 * h) (first :: more) ->
      exists x i, rs_calls s' = rs_calls s1 ++ [(x, EImage i)] /\ rect i /\ i_w i = w /\ i_h i = h /\ i_upside_down i = false /\
        i_x i = justified (t_justify (c_text (rs_ctx s))) 609 w /\ i_y i = get_y (rs_ctx s1) /\
        (forall X Y, 0 <= X < w -> 0 <= Y < h -> px i X Y = picture_dot w first more X Y) /\
        get_x (rs_ctx s') = 0 /\ get_y (rs_ctx s') = get_y (rs_ctx s1) + h /\ rs_errors s' = rs_errors s
  end.
Proof.
  intros e l c s s1 s' p k1 k2 rest F R Sc Pf Ed Pg H1 H.
  pose proof (stored_at e l s p k1 k2 F R) as Q. pose proof (history_sinv e s (ex_intro _ l (conj F R))) as I.
  destruct (print_named _ _ Sc Pf) as (Kc & Dv & Gg). specialize (fun x => Gg e x _ _ _ Ed).
  destruct (process_text_quiet _ _ H1) as ((M & E1 & _) & _).
  assert (Gs : get_graphics e c (rs_ctx s1) = Ok (map_get (key p k1 k2) (g_stored_graphics (c_graphics (rs_ctx s))))) by (rewrite Gg, (moved_stored _ _ M); reflexivity).
  clear Gg. destruct (kept p k1 k2 l) as [d|]; cbn [stored_is] in Q.
  2:{ rewrite Q in Gs. unfold process_command in H. rewrite Kc, H1 in H. cbn [bind] in H. rewrite Gs in H. cbn [bind] in H. rewrite Dv in H. cbn [bind] in H. injection H as <-. auto. }
  destruct Q as (L8 & B & v & Dc & Q). rewrite Q in Gs. intros a xl xh yl yh first more Edd w h Hw Hm Hf.
  assert (Bx : is_byte xl = true /\ is_byte xh = true /\ is_byte yl = true /\ is_byte yh = true).
  { rewrite Edd in B. unfold bytes_ok in B. cbn [app forallb] in B. repeat rewrite andb_true_iff in B. tauto. }
  destruct Bx as (B1 & B2 & B3 & B4).
  assert (Rw : w <= 65535 /\ 0 <= h <= 65535) by (clear - B1 B2 B3 B4; subst w h; unfold num2, is_byte in *; lia). destruct Rw as (Rw & Rh).
  assert (Pw : parse_u16 d 4 = w) by (rewrite Edd; unfold parse_u16, get_or; cbn [nth app Nat.add]; rewrite lor_bytes; [reflexivity | exact B1 | clear - B2; unfold is_byte in B2; lia]).
  assert (Ph : parse_u16 d 6 = h) by (rewrite Edd; unfold parse_u16, get_or; cbn [nth app Nat.add]; rewrite lor_bytes; [reflexivity | exact B3 | clear - B4; unfold is_byte in B4; lia]).
  unfold decoded in Dc. rewrite Pw, Ph in Dc. rewrite Edd in Dc. cbn [nth skipn app] in Dc.
  destruct first as [cn0 d0]. clearbody w h.
  destruct (C18_multicolour_raster w h 1 1 default_colors FlowBlock cn0 d0 more Hw Hm ltac:(lia) ltac:(lia) ltac:(lia)) as (img & Ei & Rc & Ew & Eh & Px).
  { unfold u32_max. lia. } { unfold u32_max. lia. } { unfold u32_max. assert (w * 1 * (h * 1) <= 65535 * 65535) by nia. lia. }
  { intros n. rewrite plane_colours. destruct (n =? 0); [|destruct (_ || _); [|destruct (_ || _)]]; unfold channels_ok; cbn; lia. }
  { exact Hf. }
  rewrite vlen_cons in Ei. change (image_from_raster_multi w h (1, 1) (1 + vlen more) default_colors FlowBlock (planes_data ((cn0, d0) :: more)) true = Ok (GImage img)) in Ei.
  rewrite Ei in Dc. injection Dc as <-. destruct (multi_flow _ _ _ _ _ _ _ _ _ Ei) as (Fl & Ud).
  assert (Ew' : i_w img = w) by lia. assert (Eh' : i_h img = h) by lia.
  destruct (block_printed e c s s1 s' img [] I Pg H1 Kc Gs Dv (or_introl eq_refl) Fl ltac:(lia) H) as (x & more' & K & Mm & Gx & Gy & Er).
  destruct more'; [|discriminate]. rewrite Ew' in K. rewrite Eh' in Gy.
  exists x, (set_i_y (get_y (rs_ctx s1)) (set_i_x (justified (t_justify (c_text (rs_ctx s))) 609 w) img)).
  split; [exact K|]. cbn [i_w i_h i_x i_y i_pixels i_upside_down set_i_y set_i_x]. unfold rect in *. cbn [i_w i_h i_pixels set_i_y set_i_x].
  split; [exact Rc|]. split; [exact Ew'|]. split; [exact Eh'|]. split; [exact Ud|]. split; [reflexivity|]. split; [reflexivity|].
  split; [|split; [exact Gx | split; [exact Gy | exact Er]]].
  intros X Y HX HY. specialize (Px X Y ltac:(lia) ltac:(lia)). unfold px in *. cbn [i_w i_pixels set_i_y set_i_x]. rewrite Px, !Z.div_1_r, plane_alpha.
  unfold picture_dot. f_equal. apply map_ext. intros pl. unfold plane_dot. apply plane_alpha.
Qed.

(** A picture whose data does not have the announced size is reported when it is printed (not when it is
    defined), every time, and prints nothing. *)
Theorem C52_damaged : forall e l c s s1 s' p k1 k2 rest a b xl xh yl yh body,
  Forall sent l -> run_commands e l renderer_new = Ok s -> sent c -> picture_function c = Some (fn_print p) -> c_data c = k1 :: k2 :: rest ->
  process_text s = Ok s1 -> process_command e c s = Ok s' ->
  kept p k1 k2 l = Some ([a; k1; k2; b; xl; xh; yl; yh] ++ body) ->
  vlen body <> b * (1 + num2 xl xh / 8 * num2 yl yh) ->
  rs_calls s' = rs_calls s1 /\ rs_ctx s' = rs_ctx s1 /\ exists msg, rs_errors s' = rs_errors s ++ [GraphicsError msg].
Proof.
  intros e l c s s1 s' p k1 k2 rest a b xl xh yl yh body F R Sc Pf Ed H1 H Kp Wrong.
  pose proof (stored_at e l s p k1 k2 F R) as Q. rewrite Kp in Q.
  destruct (print_named _ _ Sc Pf) as (Kc & Dv & Gg). specialize (fun x => Gg e x _ _ _ Ed).
  destruct (process_text_quiet _ _ H1) as ((M & E1 & _) & _).
  assert (Gs : get_graphics e c (rs_ctx s1) = Ok (map_get (key p k1 k2) (g_stored_graphics (c_graphics (rs_ctx s))))) by (rewrite Gg, (moved_stored _ _ M); reflexivity).
  clear Gg. destruct Q as (L8 & B & v & Dc & Q). rewrite Q in Gs.
  assert (Bx : is_byte xl = true /\ is_byte xh = true /\ is_byte yl = true /\ is_byte yh = true).
  { unfold bytes_ok in B. cbn [app forallb] in B. repeat rewrite andb_true_iff in B. tauto. }
  destruct Bx as (B1 & B2 & B3 & B4).
  unfold decoded, parse_u16, get_or in Dc. cbn [nth skipn app Nat.add] in Dc.
  rewrite (lor_bytes xl xh) in Dc by first [exact B1 | clear - B2; unfold is_byte in B2; lia].
  rewrite (lor_bytes yl yh) in Dc by first [exact B3 | clear - B4; unfold is_byte in B4; lia].
  unfold image_from_raster_multi in Dc. cbv zeta in Dc. change (xl + 256 * xh) with (num2 xl xh) in Dc. change (yl + 256 * yh) with (num2 yl yh) in Dc.
  replace (negb _) with true in Dc by (symmetry; apply negb_true_iff, Z.eqb_neq; lia). injection Dc as <-.
  unfold process_command in H. rewrite Kc, H1 in H. cbn [bind] in H. rewrite Gs in H. cbn [bind process_gfx] in H. rewrite Dv in H. cbn [bind] in H. injection H as <-.
  split; [reflexivity|]. split; [reflexivity|]. eexists. cbn [rs_errors log_error]. rewrite E1. reflexivity.
Qed.
(** ... which includes every picture whose width is not a multiple of 8, sent as documented: a row takes
    a started byte, but only whole bytes are counted. *)
Theorem C52_odd_width_refuted : forall e l c s s1 s' p k1 k2 rest a b xl xh yl yh body,
  Forall sent l -> run_commands e l renderer_new = Ok s -> sent c -> picture_function c = Some (fn_print p) -> c_data c = k1 :: k2 :: rest ->
  process_text s = Ok s1 -> process_command e c s = Ok s' ->
  kept p k1 k2 l = Some ([a; k1; k2; b; xl; xh; yl; yh] ++ body) ->
  num2 xl xh mod 8 <> 0 -> 0 < b -> 0 < num2 yl yh -> vlen body = b * (1 + line_bytes (num2 xl xh) * num2 yl yh) ->
  rs_calls s' = rs_calls s1 /\ rs_ctx s' = rs_ctx s1 /\ exists msg, rs_errors s' = rs_errors s ++ [GraphicsError msg].
Proof.
  intros e l c s s1 s' p k1 k2 rest a b xl xh yl yh body F R Sc Pf Ed H1 H Kp Odd Hb Hh Len.
  refine (C52_damaged e l c s s1 s' p k1 k2 rest a b xl xh yl yh body F R Sc Pf Ed H1 H Kp _). rewrite Len. unfold line_bytes.
  replace ((num2 xl xh + 7) / 8) with (num2 xl xh / 8 + 1) by lia. intros E. nia.
Qed.
(** "Non-volatile": ESC @ deletes the pictures of both memories. *)
Theorem C52_initialize_deletes_refuted : forall e l i c s s1 s' p k1 k2 rest,
  Forall sent l -> sent i -> c_commands i = [27; 64] -> run_commands e (l ++ [i]) renderer_new = Ok s ->
  sent c -> picture_function c = Some (fn_print p) -> c_data c = k1 :: k2 :: rest ->
  p_enabled (c_page (rs_ctx s)) = false -> process_text s = Ok s1 -> process_command e c s = Ok s' ->
  rs_calls s' = rs_calls s1 /\ rs_errors s' = rs_errors s.
Proof.
  intros e l i c s s1 s' p k1 k2 rest F Si Ci R Sc Pf Ed Pg H1 H.
  assert (F2 : Forall sent (l ++ [i])) by (apply Forall_app; auto).
  pose proof (C52_printed e (l ++ [i]) c s s1 s' p k1 k2 rest F2 R Sc Pf Ed Pg H1 H) as Q.
  assert (E : kept p k1 k2 (l ++ [i]) = None).
  { unfold kept. rewrite fold_left_app. cbn [fold_left]. unfold effect_on at 1. destruct (list_eq_dec Z.eq_dec (c_commands i) [27; 64]); [reflexivity | contradiction]. }
  rewrite E in Q. destruct Q as (Q1 & _ & Q2). auto.
Qed.

(** The hypotheses are met: this stream defines an 8 x 2 picture with one plane under the keys 32 33 in
    non-volatile memory and prints it. *)
Definition stored_stream : list Z := [29; 40; 76; 13; 0; 48; 67; 48; 32; 33; 1; 8; 0; 2; 0; 49; 129; 66; 29; 40; 76; 6; 0; 48; 69; 32; 33; 1; 1; 10].
Definition pictures (l : list (context * event)) : list image := flat_map (fun x => match snd x with EImage i => [i] | _ => [] end) l.
Example C52_demo : exists cmds c0 c1 c2, parse_esc_pos stored_stream = Ok cmds /\ cmds = [c0; c1; c2; nth 3 cmds c0; nth 4 cmds c0] /\
  picture_function c2 = Some (fn_print NV) /\ c_data c2 = [32; 33; 1; 1] /\
  kept NV 32 33 [c0; c1] = Some ([48; 32; 33; 1 + vlen (@nil Z); 8; 0; 2; 0] ++ planes_data [(49, [129; 66])]) /\
  kept Downloaded 32 33 [c0; c1] = None /\ kept NV 32 34 [c0; c1] = None.
Proof.
  do 4 eexists. split; [vm_compute; reflexivity|]. split; [reflexivity|]. split; [reflexivity|]. split; [reflexivity|]. split; [reflexivity|]. split; reflexivity.
Qed.
(** A definition in column format (function 68) is read as rows: the columns of this 8 x 8 picture are all
    empty but the last, and the last row is inked. *)
Theorem C52_column_refuted : exists s,
  render no_encoders1 ([29; 40; 76; 19; 0; 48; 68; 48; 32; 33; 1; 8; 0; 8; 0; 49; 0; 0; 0; 0; 0; 0; 0; 255; 29; 40; 76; 6; 0; 48; 69; 32; 33; 1; 1; 10]) renderer_new = Ok s /\
  map (fun i => (map (fun X => c_a (px i X 7)) [0; 1; 2; 3; 4; 5; 6; 7], map (fun Y => c_a (px i 7 Y)) [0; 1; 2; 3; 4; 5; 6; 7])) (pictures (rs_calls s))
    = [(repeat 255 8, repeat 0 7 ++ [255])].
Proof.
  assert (V : (do s <- render no_encoders1 ([29; 40; 76; 19; 0; 48; 68; 48; 32; 33; 1; 8; 0; 8; 0; 49; 0; 0; 0; 0; 0; 0; 0; 255; 29; 40; 76; 6; 0; 48; 69; 32; 33; 1; 1; 10]) renderer_new;
    Ok (map (fun i => (map (fun X => c_a (px i X 7)) [0; 1; 2; 3; 4; 5; 6; 7], map (fun Y => c_a (px i 7 Y)) [0; 1; 2; 3; 4; 5; 6; 7])) (pictures (rs_calls s))))
    = Ok [(repeat 255 8, repeat 0 7 ++ [255])]) by (vm_compute; reflexivity).
  destruct (render no_encoders1 _ renderer_new) as [s|]; [|discriminate]. cbn [bind] in V. exists s. split; [reflexivity|]. congruence.
Qed.
