(** * ManualTheory: the settings after any command are those the manual describes (C61). *)
From Verif Require Import Base Command CommandSet Parser Vec Float32 GTypes Graphics Decoder Context Text Handlers Renderer ContextTheory RendererTheory
  Origin Told SpecPrinter StateTheory PropsContext PropsOutput LayoutTheory AreaTheory PropsLayout SpecMemory MemoryTheory SpecRender SpecManual PropsQr.
Local Open Scope Z_scope.
Local Open Scope list_scope.

Lemma moved_panel c c' : moved c c' -> panel_of c' = panel_of c.
Proof.
  intros M. unfold panel_of. rewrite (moved_text _ _ M), (moved_barcode _ _ M), (moved_dpi _ _ M), (moved_hmu _ _ M), (moved_vmu _ _ M). reflexivity.
Qed.
Lemma panel_new : panel_of context_new = factory.
Proof. unfold panel_of, factory. vm_compute. reflexivity. Qed.

(** ** The codes *)
Lemma odd_low n : low_bit n = odd_byte n.
Proof. unfold low_bit, odd_byte. change 1 with (Z.ones 1) at 1. rewrite Z.land_ones by lia. reflexivity. Qed.
Lemma odd_flag n k : 0 <= k -> flag n k = odd_byte (n / 2 ^ k).
Proof.
  intros H. unfold flag, odd_byte. pose proof (Z.testbit_true n k H) as T. destruct (Z.testbit n k).
  - rewrite (proj1 T eq_refl). reflexivity.
  - destruct (n / 2 ^ k mod 2 =? 1) eqn:E; [|reflexivity]. apply Z.eqb_eq in E. apply T in E. discriminate.
Qed.
Lemma hri_code_raw n : hri_of n = hri_code n.
Proof. destruct n as [|p|p]; try reflexivity. do 7 (destruct p; try reflexivity). Qed.
Lemma colour_code_raw n : color_for_number default_colors n = colour_code n.
Proof. destruct n as [|p|p]; try reflexivity. do 7 (destruct p; try reflexivity). Qed.
Lemma size_high n : Z.shiftr (Z.land 112 n) 4 = n / 16 mod 8.
Proof. rewrite Z.shiftr_land. change (Z.shiftr 112 4) with (Z.ones 3). rewrite Z.land_comm, Z.land_ones, Z.shiftr_div_pow2 by lia. reflexivity. Qed.
Lemma size_low n : Z.land 7 n = n mod 8.
Proof. change 7 with (Z.ones 3). rewrite Z.land_comm, Z.land_ones by lia. reflexivity. Qed.
Lemma red_code (a b : rgba) n : match n with 1 | 49 => a | _ => b end = if (n =? 1) || (n =? 49) then a else b.
Proof. destruct n as [|p|p]; try reflexivity. do 7 (destruct p; try reflexivity). Qed.
Lemma shadow_code n : match n with 0 | 48 => false | _ => true end = negb ((n =? 0) || (n =? 48)).
Proof. destruct n as [|p|p]; try reflexivity. do 7 (destruct p; try reflexivity). Qed.
Lemma effect_code {A} (a b c d : A) n : match n with 48 => a | 49 => b | 50 => c | _ => d end = if n =? 48 then a else if n =? 49 then b else if n =? 50 then c else d.
Proof. destruct n as [|p|p]; try reflexivity. do 7 (destruct p; try reflexivity). Qed.

(** ** The commands, by what executes them *)
Definition by_context (id : plain_id) : option order :=
  match id with
  | P_set_print_mode => Some PrintMode | P_set_font => Some CharacterFont | P_set_underline => Some Underlining | P_set_emphasis => Some Emphasis
  | P_set_double_strike => Some DoubleStrike | P_set_italic => Some Italics | P_set_upside_down => Some UpsideDown | P_set_smoothing => Some Smoothing
  | P_set_black_white_invert => Some WhiteOnBlack | P_set_alt_color => Some PrintColour | P_default_line_spacing => Some DefaultSpacing
  | P_set_line_spacing => Some LineSpacing | P_set_code_table => Some CodeTable | P_set_international_charset => Some InternationalSet
  | P_set_barcode_height => Some BarcodeHeight | P_set_barcode_width => Some BarcodeWidth | P_set_barcode_hri => Some BarcodeText
  | P_set_barcode_font => Some BarcodeFont | P_set_motion_units => Some MotionUnits
  | _ => None
  end.
Definition by_device (id : plain_id) : option order :=
  match id with
  | P_set_character_size => Some CharacterSize | P_set_justification => Some Justification | P_set_tab_len => Some TabStops
  | _ => None
  end.
Definition applied (o : option order) (d : list Z) (m : panel) : panel := match o with Some o => obey o d m | None => m end.

Lemma update_decoder_panel c : panel_of (update_decoder c) = panel_of c.
Proof. reflexivity. Qed.
Lemma plain_panel id c x x' : id <> P_initialize -> sinv x -> apply_plain id c x = Ok x' -> panel_of x' = applied (by_context id) (c_data c) (panel_of x).
Proof.
  intros N S H. pose proof (si_default _ S) as D. pose proof (gk_colors _ (si_graphics _ S)) as Co.
  destruct id; try contradiction; cbn [apply_plain] in H; cbn [by_context applied]; try (injection H as <-; reflexivity).
  all: try (destruct (p_enabled (c_page x)); [|injection H as <-; reflexivity]).
  all: try exact (moved_panel _ _ (offset_y_relative_moved _ _ _ H)).
  all: try exact (moved_panel _ _ (set_x_absolute_moved _ _ _ H)).
  all: try exact (moved_panel _ _ (set_y_absolute_moved _ _ _ H)).
  all: try (unfold set_page_area in H; cbv zeta in H; repeat (apply bind_ok in H; destruct H as (? & _ & H)); injection H as <-; reflexivity).
  all: try (rewrite Co in H).
  all: unfold obey; cbv zeta; change (nth 0 (c_data c) 0) with (arg 0 c 0).
  - rewrite D in H. injection H as <-. reflexivity.
  - injection H as <-. rewrite <- red_code. reflexivity.
  - injection H as <-. rewrite <- font_code_raw. reflexivity.
  - injection H as <-. rewrite <- hri_code_raw. reflexivity.
  - change (nth 0 (c_data c) 2) with (arg 2 c 0). set (n := arg 2 c 0) in *. clearbody n. cbv zeta in H. injection H as <-. clear D Co S N.
    destruct (n <? 2) eqn:E1; [replace (Z.max 2 n) with 2 by lia; reflexivity|]. replace (Z.max 2 n) with n by lia.
    destruct (6 <? n) eqn:E2; [rewrite (proj2 (Z.leb_gt n 6)) by lia | rewrite (proj2 (Z.leb_le n 6)) by lia]; reflexivity.
  - injection H as <-. destruct (arg 0 c 0 =? 1); reflexivity.
  - injection H as <-. rewrite <- odd_low. unfold double_strike, upd_text, panel_of, with_strike. destruct (low_bit (arg 0 c 0)); reflexivity.
  - injection H as <-. rewrite <- odd_low. reflexivity.
  - injection H as <-. rewrite <- font_code_raw. reflexivity.
  - injection H as <-. rewrite <- odd_low. reflexivity.
  - unfold default_spacing in H. rewrite D in H. cbn [bind] in H. injection H as <-. reflexivity.
  - injection H as <-. unfold set_motion_units. cbv zeta. change (nth 1 (c_data c) 0) with (arg 0 c 1). destruct ((arg 0 c 0 =? 0) || (arg 0 c 1 =? 0)); reflexivity.
  - injection H as <-. unfold set_print_mode. cbv zeta. set (n := arg 0 c 0) in *. clearbody n.
    change 8 with (2 ^ 3). change 16 with (2 ^ 4). change 32 with (2 ^ 5). change 64 with (2 ^ 6). rewrite <- (odd_flag n 3), <- (odd_flag n 4), <- (odd_flag n 5), <- (odd_flag n 6) by lia.
    replace (odd_byte n) with (flag n 0) by (rewrite odd_flag by lia; change (2 ^ 0) with 1; rewrite Z.div_1_r; reflexivity). reflexivity.
  - injection H as <-. rewrite <- odd_low. reflexivity.
  - injection H as <-. rewrite <- underline_code_raw. reflexivity.
  - injection H as <-. rewrite <- odd_low. reflexivity.
Qed.
Lemma effects_panel c x : sinv x -> panel_of (character_effects c x) = obey CharacterEffects (c_data c) (panel_of x).
Proof.
  intros S. pose proof (gk_colors _ (si_graphics _ S)) as Co. unfold character_effects, obey. cbv zeta. rewrite Co. 
  change (nth 2 (c_data c) 0) with (arg 0 c 2). change (nth 3 (c_data c) 48) with (arg 48 c 3). change (nth 4 (c_data c) 0) with (arg 0 c 4).
  unfold vlen. destruct (_ <? _); [reflexivity|]. rewrite effect_code, <- shadow_code, <- colour_code_raw.
  destruct (arg 0 c 2 =? 48); [reflexivity|]. destruct (arg 0 c 2 =? 49); [reflexivity|]. destruct (arg 0 c 2 =? 50); reflexivity.
Qed.

(** ** Device commands *)
Definition turn (m : panel) (d : device_command) : panel :=
  match d with
  | SetTextWidth w => with_wide w m
  | SetTextHeight h => with_high h m
  | Justify j => with_place j m
  | ChangeTabs n k => if k <? vlen (m_tabs m) mod 256 then with_tabs (set_nth (m_tabs m) (Z.to_nat k) n) m else m
  | _ => m
  end.
Lemma geometry_panel s s' : page_geometry s = Ok s' -> panel_of (rs_ctx s') = panel_of (rs_ctx s).
Proof.
  unfold page_geometry. intros H. apply bind_ok in H. destruct H as ((((r & w) & h) & p) & _ & H). injection H as <-. reflexivity.
Qed.
Lemma device_panel d s s' : process_device_command d s = Ok s' -> panel_of (rs_ctx s') = turn (panel_of (rs_ctx s)) d.
Proof.
  intros H. unfold process_device_command in H. cbv zeta in H.
  assert (Nl : forall k s0 s0', on_ctx (newline k) s0 = Ok s0' -> panel_of (rs_ctx s0') = panel_of (rs_ctx s0)).
  { intros k s0 s0' E. apply on_ctx_inv in E. destruct E as (x & E & ->). exact (moved_panel _ _ (newline_moved _ _ _ E)). }
  destruct d; cbn [turn]; try (injection H as <-; reflexivity).
  all: try (apply on_ctx_inv in H; destruct H as (x & E & ->); injection E as <-; reflexivity).
  all: try exact (Nl _ _ _ H).
  all: try (apply on_ctx_inv in H; destruct H as (x & E & ->);
            first [exact (moved_panel _ _ (feed_moved _ _ _ E)) | injection E as <-; unfold set_tab_len; cbn [rs_ctx with_ctx call]; change (m_tabs (panel_of (rs_ctx s))) with (t_tabs (c_text (rs_ctx s))); destruct (_ <? _); reflexivity | apply bind_ok in E; destruct E as (y & _ & E); injection E as <-; reflexivity]).
  all: try exact (geometry_panel _ _ H).
  all: apply bind_ok in H; destruct H as (s1 & H1 & H).
  all: first [ apply Nl in H1; injection H as <-; exact H1
             | apply on_ctx_inv in H1; destruct H1 as (x & E & ->); injection E as <-; first [injection H as <-; reflexivity | exact (geometry_panel _ _ H)] ].
Qed.
Lemma devices_panel l s s' : process_device_commands l s = Ok s' -> panel_of (rs_ctx s') = fold_left turn l (panel_of (rs_ctx s)).
Proof.
  unfold process_device_commands. revert s. induction l as [|d l IH]; intros s H; cbn [fold_res fold_left] in *; [injection H as <-; reflexivity|].
  apply bind_ok in H. destruct H as (s1 & H1 & H). rewrite <- (device_panel _ _ _ H1). exact (IH _ H).
Qed.
Lemma set_nth_split {A} (l : list A) k v : (k < length l)%nat -> set_nth l k v = firstn k l ++ v :: skipn (S k) l.
Proof. revert k. induction l as [|a l IH]; intros k H; [cbn in H; lia|]. destruct k; [reflexivity|]. cbn in H |- *. f_equal. apply IH. lia. Qed.
Lemma ok_same {A} (a b : A) : Ok a = Ok b -> b = a.
Proof. congruence. Qed.
Lemma plain_turns id c x d m : sinv x -> m_tabs m = t_tabs (c_text x) -> 0 <= arg 24 c 1 -> device_plain id c x = Ok d -> fold_left turn d m = applied (by_device id) (c_data c) m.
Proof.
  intros S Mt P H. destruct id; cbn [device_plain] in H; cbn [by_device applied]; try (apply ok_same in H; subst d; reflexivity).
  all: try (apply ok_same in H; subst d; destruct (p_enabled (c_page x)); reflexivity).
  - apply ok_same in H. subst d. cbn [fold_left turn]. unfold obey. cbv zeta. change (nth 0 (c_data c) 0) with (arg 0 c 0). rewrite size_high, size_low. reflexivity.
  - injection H as <-. cbn [fold_left turn]. unfold obey. cbv zeta. change (nth 0 (c_data c) 0) with (arg 0 c 0). rewrite <- justify_code_raw. reflexivity.
  - unfold default_spacing in H. rewrite (si_default _ S) in H. cbn [bind] in H. change (t_line_spacing (x_text default_settings)) with 24 in H. apply ok_same in H. subst d.
    cbn [fold_left turn]. unfold obey. cbv zeta. change (nth 0 (c_data c) 24) with (arg 24 c 0). change (nth 1 (c_data c) 24) with (arg 24 c 1).
    pose proof (proj1 (tk_tabs _ (si_text _ S))) as L. rewrite <- Mt in L. unfold vlen. rewrite L. change (Z.of_nat 32 mod 256) with 32.
    destruct (arg 24 c 1 <? 32) eqn:E; [|reflexivity]. rewrite set_nth_split by (rewrite L; lia). reflexivity.
Qed.

(** ** One command *)
Definition runs_context (k : ckind) : bool := match k with KTextStyle | KContext | KContextControl => true | _ => false end.
Definition runs_device (k : ckind) : bool := match k with KTextStyle | KContextControl | KControl | KGraphics => true | _ => false end.
Definition context_part (c : command) : option order :=
  match c_handler c with HPlain id => by_context id | HCharEffects _ => Some CharacterEffects | _ => None end.
Definition device_part (c : command) : option order := match c_handler c with HPlain id => by_device id | _ => None end.
Lemma context_panel e c x x' : sent c -> c_commands c <> [27; 64] -> c_kind c <> KControl -> (forall id, c_handler c <> HSubPlain id) -> sinv x ->
  apply_context e c x = Ok x' -> panel_of x' = applied (context_part c) (c_data c) (panel_of x).
Proof.
  intros Sc N NK NS S H. unfold apply_context in H. unfold context_part. destruct (c_handler c) as [id| |cap|s|s|s|s|id] eqn:Hh; try (injection H as <-; reflexivity).
  - refine (plain_panel id c x x' _ S H). intros ->. exact (N (init_bytes _ Sc Hh)).
  - injection H as <-. exact (effects_panel c x S).
  - exfalso. exact (NK (hsub_control _ _ Sc Hh)).
  - destruct (NS id eq_refl).
Qed.
Lemma device_part_panel c x d s s' : sent c -> (forall id, c_handler c <> HSubPlain id) -> sinv x -> t_tabs (c_text (rs_ctx s)) = t_tabs (c_text x) ->
  get_device_command c x = Ok d -> process_device_commands d s = Ok s' -> panel_of (rs_ctx s') = applied (device_part c) (c_data c) (panel_of (rs_ctx s)).
Proof.
  intros Sc NS S T G H. rewrite (devices_panel _ _ _ H). clear H. unfold get_device_command in G. unfold device_part.
  pose proof (sent_arg c 1 24 Sc ltac:(lia)) as A.
  destruct (c_handler c) as [id| |cap|q|q|q|q|id] eqn:Hh; try (apply ok_same in G; subst d; reflexivity).
  - exact (plain_turns id c x d (panel_of (rs_ctx s)) S T (proj1 A) G).
  - apply ok_same in G. subst d. unfold feed_cut_device. repeat match goal with |- context [match ?v with _ => _ end] => destruct v end; reflexivity.
  - destruct (NS id eq_refl).
Qed.
Lemma parts c d m : applied (device_part c) d (applied (context_part c) d m) = applied (match context_part c with Some o => Some o | None => device_part c end) d m.
Proof. unfold device_part, context_part. destruct (c_handler c) as [id| | | | | | |]; try reflexivity. destruct id; reflexivity. Qed.

Definition executed (c : command) : option order :=
  if runs_context (c_kind c) then match context_part c with Some o => Some o | None => if runs_device (c_kind c) then device_part c else None end
  else if runs_device (c_kind c) then device_part c else None.
Lemma step_panel e c s s' : history e s -> sent c -> c_commands c <> [27; 64] -> (forall id, c_handler c <> HSubPlain id) ->
  process_command e c s = Ok s' -> panel_of (rs_ctx s') = applied (executed c) (c_data c) (panel_of (rs_ctx s)).
Proof.
  intros Hh Sc N NS H. pose proof (history_sinv _ _ Hh) as S. unfold process_command in H.
  assert (Tp : forall a b, process_text a = Ok b -> panel_of (rs_ctx b) = panel_of (rs_ctx a)) by (intros a b E; exact (moved_panel _ _ (proj1 (process_text_moved _ _ E)))).
  assert (Ts : forall a b, process_text a = Ok b -> sinv (rs_ctx a) -> sinv (rs_ctx b)) by (intros a b E; exact (sinv_moved _ _ (proj1 (process_text_moved _ _ E)))).
  assert (Tt : forall a b, process_text a = Ok b -> c_text (rs_ctx b) = c_text (rs_ctx a)) by (intros a b E; exact (moved_text _ _ (proj1 (process_text_moved _ _ E)))).
  assert (Cp : forall a b, c_kind c <> KControl -> sinv (rs_ctx a) -> on_ctx (apply_context e c) a = Ok b ->
    panel_of (rs_ctx b) = applied (context_part c) (c_data c) (panel_of (rs_ctx a)) /\ sinv (rs_ctx b)).
  { intros a b K Sa E. apply on_ctx_inv in E. destruct E as (x & E & ->). split; [exact (context_panel _ _ _ _ Sc N K NS Sa E) | exact (apply_context_sinv _ _ _ _ Sc Sa E)]. }
  unfold executed. destruct (c_kind c) eqn:K; cbn [runs_context runs_device].
  - apply bind_ok in H. destruct H as (d & Hd & H). apply bind_ok in H. destruct H as (s1 & H1 & H). rewrite <- (Tp _ _ H1).
    apply (device_part_panel c (rs_ctx s) d s1 s' Sc NS S); [rewrite (Tt _ _ H1); reflexivity | exact Hd | exact H].
  - injection H as <-. destruct (get_text c (rs_ctx s)); reflexivity.
  - apply bind_ok in H. destruct H as (s1 & H1 & H). apply bind_ok in H. destruct H as (d & Hd & H). destruct (Cp _ _ ltac:(discriminate) S H1) as (P1 & S1).
    rewrite (device_part_panel c (rs_ctx s1) d s1 s' Sc NS S1 eq_refl Hd H), P1. apply parts.
  - apply bind_ok in H. destruct H as (s1 & H1 & H). apply bind_ok in H. destruct H as (g & _ & H). apply bind_ok in H. destruct H as (s2 & H2 & H).
    apply bind_ok in H. destruct H as (d & Hd & H).
    assert (M : moved (rs_ctx s1) (rs_ctx s2)).
    { destruct g as [g|]; [exact (proj1 (process_gfx_moved _ _ _ H2 (proj2 (process_text_moved _ _ H1)))) | injection H2 as <-; apply moved_refl]. }
    rewrite <- (Tp _ _ H1), <- (moved_panel _ _ M).
    exact (device_part_panel c (rs_ctx s2) d s2 s' Sc NS (sinv_moved _ _ M (Ts _ _ H1 S)) eq_refl Hd H).
  - apply bind_ok in H. destruct H as (s1 & H1 & H). destruct (Cp _ _ ltac:(discriminate) (Ts _ _ H1 S) H) as (P1 & _). rewrite P1, (Tp _ _ H1). destruct (context_part c); reflexivity.
  - apply bind_ok in H. destruct H as (s1 & H1 & H). apply bind_ok in H. destruct H as (s2 & H2 & H). apply bind_ok in H. destruct H as (d & Hd & H).
    destruct (Cp _ _ ltac:(discriminate) (Ts _ _ H1 S) H2) as (P2 & S2).
    rewrite (device_part_panel c (rs_ctx s2) d s2 s' Sc NS S2 eq_refl Hd H), P2, (Tp _ _ H1). apply parts.
  - injection H as <-. reflexivity.
  - apply bind_ok in H. destruct H as (s1 & H1 & H). injection H as <-. exact (Tp _ _ H1).
Qed.

(** ** The manual's table is the crate's *)
Definition order_eqb (a b : option order) : bool :=
  match a, b with
  | None, None => true
  | Some a, Some b => if (ltac:(decide equality) : {a = b} + {a <> b}) then true else false
  | _, _ => false
  end.
Lemma order_eq a b : order_eqb a b = true -> a = b.
Proof. destruct a as [a|], b as [b|]; cbn; try discriminate; try reflexivity. destruct (_ : {a = b} + {a <> b}); [congruence | discriminate]. Qed.
Lemma table_orders : forallb (fun t => match c_kind t with KSubcommand => true | _ => list_eqb (c_commands t) [27; 64] || order_eqb (ordered (c_commands t)) (executed t) end) all_commands = true.
Proof. vm_compute. reflexivity. Qed.
Lemma executed_like t c : instance t c -> executed c = executed t.
Proof.
  intros I. unfold executed, context_part, device_part. rewrite (in_kind _ _ I). pose proof (in_handler _ _ I) as HL.
  destruct (c_handler t), (c_handler c); try contradiction; cbn in HL; try subst; reflexivity.
Qed.
Lemma ordered_executed c : sent c -> c_commands c <> [27; 64] -> (forall id, c_handler c <> HSubPlain id) -> ordered (c_commands c) = executed c.
Proof.
  intros S N NS. destruct (sent_reported _ S) as [(t & Ht & Nk & I)|(sc & _ & I)]; [|destruct (NS _ (si_handler _ _ I))].
  rewrite (executed_like _ _ I), (in_commands _ _ I). rewrite (in_commands _ _ I) in N.
  pose proof (proj1 (forallb_forall _ _) table_orders _ Ht) as X. cbv beta in X. 
  assert (Y : list_eqb (c_commands t) [27; 64] || order_eqb (ordered (c_commands t)) (executed t) = true) by (destruct (c_kind t); [exact X|exact X|exact X|exact X|exact X|exact X|destruct (Nk eq_refl)|exact X]).
  apply Bool.orb_true_iff in Y. destruct Y as [Y|Y]; [|exact (order_eq _ _ Y)].
  unfold list_eqb in Y. destruct (list_eq_dec Z.eq_dec (c_commands t) [27; 64]); [contradiction | discriminate].
Qed.
Lemma ordered_short p o : ordered p = Some o -> (length p <= 3)%nat.
Proof.
  unfold ordered. destruct (find _ manual) as [x|] eqn:F; [|discriminate]. intros _. apply find_some in F. destruct F as (I & E).
  unfold list_eqb in E. destruct (list_eq_dec Z.eq_dec (fst x) p) as [<-|]; [|discriminate].
  assert (Q : forallb (fun x => Nat.leb (length (fst x)) 3) manual = true) by (vm_compute; reflexivity).
  apply Nat.leb_le. exact (proj1 (forallb_forall _ _) Q _ I).
Qed.

(** ** Sub-commands *)
Lemma apply_sub_panel e id c x x' : apply_sub e id c x = Ok x' ->
  panel_of x' = match id with S_set_dot_density => density (c_data c) (panel_of x) | _ => panel_of x end.
Proof.
  intros H. destruct id; cbn [apply_sub] in H; try (injection H as <-; reflexivity).
  - destruct (vlen (c_data c) <? 2); [discriminate|]. apply bind_ok in H. destruct H as (? & _ & H). injection H as <-. reflexivity.
  - injection H as <-. unfold qr_store. destruct (e_qr _ _ _ _ _) as [[bits w]|]; reflexivity.
  - apply bind_ok in H. destruct H as (? & _ & H). injection H as <-. reflexivity.
  - injection H as <-. destruct ((arg 1 c 0 <? 2) || (16 <? arg 1 c 0)); reflexivity.
  - apply bind_ok in H. destruct H as ([[[cols rows] ty]|] & _ & H); injection H as <-; reflexivity.
  - injection H as <-. unfold clear_one. destruct (ref_from_data (c_data c) Ram); reflexivity.
  - injection H as <-. unfold clear_one. destruct (ref_from_data (c_data c) Disc); reflexivity.
  - unfold define_column in H. repeat (apply bind_ok in H; destruct H as (? & _ & H)). injection H as <-. reflexivity.
  - unfold define_raster in H. destruct (vlen (c_data c) <? 8); [injection H as <-; reflexivity|]. repeat (apply bind_ok in H; destruct H as (? & _ & H)). injection H as <-. reflexivity.
  - unfold define_column in H. repeat (apply bind_ok in H; destruct H as (? & _ & H)). injection H as <-. reflexivity.
  - unfold define_raster in H. destruct (vlen (c_data c) <? 8); [injection H as <-; reflexivity|]. repeat (apply bind_ok in H; destruct H as (? & _ & H)). injection H as <-. reflexivity.
  - injection H as <-. unfold density. cbv zeta. change (nth 0 (c_data c) 50) with (arg 50 c 0). change (nth 1 (c_data c) 50) with (arg 50 c 1).
    destruct ((arg 50 c 0 =? 50) && (arg 50 c 1 =? 50)); [reflexivity|]. destruct ((arg 50 c 0 =? 51) && (arg 50 c 1 =? 51)); reflexivity.
  - unfold store_buffer, push_buffer in H. destruct (vlen (c_data c) <? 4); repeat (apply bind_ok in H; destruct H as (? & _ & H)); injection H as <-; reflexivity.
  - unfold store_buffer, push_buffer in H. destruct (vlen (c_data c) <? 4); repeat (apply bind_ok in H; destruct H as (? & _ & H)); injection H as <-; reflexivity.
Qed.
Lemma density_kind c id : sent c -> c_handler c = HSubPlain id -> match c_kind c with KContext => True | KGraphics | KControl => id <> S_set_dot_density | _ => False end.
Proof.
  intros S H. destruct (sent_reported _ S) as [(t & Ht & Nk & I)|(sc & Hs & I)].
  - exfalso. pose proof (in_handler _ _ I) as HL. rewrite H in HL. destruct (c_handler t); contradiction.
  - rewrite (si_handler _ _ I) in H. injection H as <-. rewrite (si_kind _ _ I).
    assert (Q : forallb (fun sc => match sc_kind sc with KContext => true | KGraphics | KControl => match sc_id sc with S_set_dot_density => false | _ => true end | _ => false end) (code2d_table ++ graphics_table) = true) by (vm_compute; reflexivity).
    pose proof (proj1 (forallb_forall _ _) Q _ Hs) as X. cbv beta in X. destruct (sc_kind sc); try discriminate X; auto; intros E; rewrite E in X; discriminate.
Qed.
Lemma sub_panel e c id s s' : sent c -> c_handler c = HSubPlain id -> process_command e c s = Ok s' ->
  panel_of (rs_ctx s') = match id with S_set_dot_density => density (c_data c) (panel_of (rs_ctx s)) | _ => panel_of (rs_ctx s) end.
Proof.
  intros S H P. pose proof (density_kind _ _ S H) as K.
  assert (Tp : forall a b, process_text a = Ok b -> panel_of (rs_ctx b) = panel_of (rs_ctx a)) by (intros a b E; exact (moved_panel _ _ (proj1 (process_text_moved _ _ E)))).
  assert (Dp : forall x d a b, get_device_command c x = Ok d -> process_device_commands d a = Ok b -> panel_of (rs_ctx b) = panel_of (rs_ctx a)).
  { intros x d a b E E2. rewrite (devices_panel _ _ _ E2). unfold get_device_command in E. rewrite H in E. destruct id; apply ok_same in E; subst d; reflexivity. }
  unfold process_command in P. destruct (c_kind c); try contradiction.
  - apply bind_ok in P. destruct P as (d & Hd & P). apply bind_ok in P. destruct P as (s1 & H1 & P). rewrite (Dp _ _ _ _ Hd P), (Tp _ _ H1). destruct id; try contradiction; reflexivity.
  - apply bind_ok in P. destruct P as (s1 & H1 & P). apply bind_ok in P. destruct P as (g & _ & P). apply bind_ok in P. destruct P as (s2 & H2 & P).
    apply bind_ok in P. destruct P as (d & Hd & P). rewrite (Dp _ _ _ _ Hd P).
    assert (E2 : panel_of (rs_ctx s2) = panel_of (rs_ctx s)).
    { rewrite <- (Tp _ _ H1). destruct g as [g|]; [|injection H2 as <-; reflexivity]. exact (moved_panel _ _ (proj1 (process_gfx_moved _ _ _ H2 (proj2 (process_text_moved _ _ H1))))). }
    rewrite E2. destruct id; try contradiction; reflexivity.
  - apply bind_ok in P. destruct P as (s1 & H1 & P). apply on_ctx_inv in P. destruct P as (x & Hx & ->).
    unfold apply_context in Hx. rewrite H in Hx. rewrite <- (Tp _ _ H1). exact (apply_sub_panel _ _ _ _ _ Hx).
Qed.
Lemma density_fn fn t : detect_kind graphics_table fn = Some t ->
  (fn =? 1) || (fn =? 49) = match sc_id t with S_set_dot_density => true | _ => false end.
Proof.
  intros H.
  assert (Q : forallb (fun t => match sc_id t with S_set_dot_density => list_eqb (sc_commands t) [1; 49] | _ => true end) graphics_table = true) by (vm_compute; reflexivity).
  assert (Q1 : option_map sc_id (detect_kind graphics_table 1) = Some S_set_dot_density) by (vm_compute; reflexivity).
  assert (Q2 : option_map sc_id (detect_kind graphics_table 49) = Some S_set_dot_density) by (vm_compute; reflexivity).
  destruct (fn =? 1) eqn:E1; [apply Z.eqb_eq in E1; subst fn; rewrite H in Q1; cbn [option_map] in Q1; injection Q1 as ->; reflexivity|].
  destruct (fn =? 49) eqn:E2; [apply Z.eqb_eq in E2; subst fn; rewrite H in Q2; cbn [option_map] in Q2; injection Q2 as ->; reflexivity|].
  cbn [orb]. unfold detect_kind in H. apply find_some in H. destruct H as (I & M).
  pose proof (proj1 (forallb_forall _ _) Q _ I) as X. cbv beta in X. destruct (sc_id t); try reflexivity. exfalso.
  unfold list_eqb in X. destruct (list_eq_dec Z.eq_dec (sc_commands t) [1; 49]) as [E|]; [|discriminate]. rewrite E in M. cbn in M. rewrite E1, E2 in M. discriminate.
Qed.
Lemma sub_obeyed e c id s s' : sent c -> c_handler c = HSubPlain id -> process_command e c s = Ok s' -> panel_of (rs_ctx s') = obeyed (panel_of (rs_ctx s)) c.
Proof.
  intros S H P. rewrite (sub_panel _ _ _ _ _ S H P). unfold obeyed.
  assert (O : ordered (c_commands c) = None).
  { destruct (ordered (c_commands c)) as [o|] eqn:E; [|reflexivity]. apply ordered_short in E. exfalso.
    destruct (sub_shape _ _ S H) as (p & l & m & fn & t & C & Pp & L & _). rewrite C, !app_length in E. cbn [length] in E.
    assert (length p = 3%nat) by (destruct Pp as [<-|[<-|[<-|[]]]]; reflexivity). lia. }
  destruct (sub_named _ _ S H) as [(m & fn & t & _ & Pf & F & _ & I)|(fn & t & _ & Pf & F & _ & I)]; rewrite Pf.
  - rewrite O. destruct (symbol_lookup _ _ _ F) as (In_t & _).
    assert (Q : forallb (fun t => match sc_id t with S_set_dot_density => false | _ => true end) code2d_table = true) by (vm_compute; reflexivity).
    pose proof (proj1 (forallb_forall _ _) Q _ In_t) as X. cbv beta in X. subst id. destruct (sc_id t); try reflexivity. discriminate.
  - rewrite (density_fn _ _ F). subst id. destruct (sc_id t); reflexivity.
Qed.
(** ** Any command, any run *)
Lemma command_obeyed e c s s' : history e s -> sent c -> process_command e c s = Ok s' -> panel_of (rs_ctx s') = obeyed (panel_of (rs_ctx s)) c.
Proof.
  intros Hh S P.
  assert (Sub : (exists id, c_handler c = HSubPlain id) \/ forall id, c_handler c <> HSubPlain id) by (destruct (c_handler c); try (right; intros ?; discriminate); left; eexists; reflexivity).
  destruct Sub as [(id & H)|N]; [exact (sub_obeyed _ _ _ _ _ S H P)|].
  unfold obeyed. rewrite (proj2 (other_named _ S N)).
  destruct (list_eq_dec Z.eq_dec (c_commands c) [27; 64]) as [E|NE].
  - rewrite E. change (ordered [27; 64]) with (Some Initialise). cbn [obey].
    destruct (C19_initialize_restores_defaults _ _ _ _ Hh S E P) as (A & B & _ & G & _). rewrite <- panel_new. unfold panel_of. rewrite A, B, G. reflexivity.
  - rewrite (ordered_executed _ S NE N). exact (step_panel _ _ _ _ Hh S NE N P).
Qed.
Lemma history_step e c s s' : history e s -> sent c -> process_command e c s = Ok s' -> history e s'.
Proof.
  intros (l0 & F0 & R0) Sc H. exists (l0 ++ [c]). split; [apply Forall_app; auto|].
  unfold run_commands in *. rewrite fold_res_app, R0. cbn [bind fold_res]. rewrite H. reflexivity.
Qed.
Lemma run_obeyed e l : forall s s', history e s -> Forall sent l -> run_commands e l s = Ok s' -> panel_of (rs_ctx s') = fold_left obeyed l (panel_of (rs_ctx s)).
Proof.
  unfold run_commands. induction l as [|c l IH]; intros s s' Hh F H; cbn [fold_res fold_left] in *; [injection H as <-; reflexivity|].
  apply bind_ok in H. destruct H as (s1 & H1 & H). inversion F as [|? ? Sc F2]; subst.
  rewrite <- (command_obeyed _ _ _ _ Hh Sc H1). apply IH; [exact (history_step _ _ _ _ Hh Sc H1) | exact F2 | exact H].
Qed.

(** ** The style of a character and its code *)
Lemma style_panel x t : sinv x -> style_of (span_new t x) = styled (panel_of x).
Proof.
  intros S. unfold style_of, styled, span_new. cbv zeta. cbn [panel_of m_font m_wide m_high m_bold m_italic m_under m_strike m_invert m_upside m_place m_back m_ink].
  pose proof (tk_cell _ (si_text _ S)) as C. destruct (cell_of (t_font (c_text x))) as (w, h). injection C as -> ->.
  assert (D : forall b, line_dots (panel_of x) b = points_to_pixels x (if b then 2 else 1)).
  { intros b. unfold line_dots, points_to_pixels. cbn [panel_of m_dpi]. destruct (gk_dpi _ (si_graphics _ S)) as [<-|[<-|[<-|[]]]]; destruct b; vm_compute; reflexivity. }
  rewrite !D. unfold set_s_text, set_s_dimensions. cbn. destruct (t_underline (c_text x)), (t_strikethrough (c_text x)); reflexivity.
Qed.
Lemma decode_panel x d : sinv x -> decode_utf8 (t_decoder (c_text x)) d = characters (m_table (panel_of x)) (m_charset (panel_of x)) d.
Proof. intros S. rewrite (tk_decoder _ (si_text _ S)). reflexivity. Qed.
