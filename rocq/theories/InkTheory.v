(** * InkTheory: text is printed in one of the printer's four colours. *)
From Verif Require Import Base Command CommandSet Parser Vec Float32 GTypes Graphics Decoder Context Text Handlers Renderer StateTheory AreaTheory CallsTheory
  ContextTheory RendererTheory Origin SpecPrinter SpecRender PropsOutput PropsContext PropsLayout ThermalFile HtmlRenderer SpecHtml SpecRow.
Local Open Scope Z_scope.
Local Open Scope list_scope.
Local Arguments vlen : simpl never.

Definition colours (c : rgba) : Prop := exists k, has_colour c k.
Definition inky (x : context) : Prop := colours (t_color (c_text x)) /\ colours (t_background_color (c_text x)).
Definition cols (x : context) : rgba * rgba := (t_color (c_text x), t_background_color (c_text x)).
Lemma inky_cols x x' : cols x' = cols x -> inky x -> inky x'.
Proof. unfold cols, inky. intros E. injection E as -> ->. auto. Qed.
Lemma moved_cols c c' : moved c c' -> cols c' = cols c.
Proof. intros M. unfold cols. rewrite (moved_text _ _ M). reflexivity. Qed.
Lemma paper_colour : colours (rc_paper_color default_colors).
Proof. exists Paper. split; reflexivity. Qed.
Lemma ink1_colour : colours (rc_color_1 default_colors).
Proof. exists Ink1. split; reflexivity. Qed.
Lemma ink2_colour : colours (rc_color_2 default_colors).
Proof. exists Ink2. split; reflexivity. Qed.
Lemma ink3_colour : colours (rc_color_3 default_colors).
Proof. exists Ink3. split; reflexivity. Qed.
Lemma number_colour n : colours (color_for_number default_colors n).
Proof.
  unfold color_for_number. repeat match goal with |- colours (match ?v with _ => _ end) => destruct v end;
    first [exact paper_colour | exact ink1_colour | exact ink2_colour | exact ink3_colour].
Qed.
Lemma alt_colour n : colours (match n with 49 | 1 => rc_color_2 default_colors | _ => rc_color_1 default_colors end).
Proof. repeat match goal with |- colours (match ?v with _ => _ end) => destruct v end; first [exact ink1_colour | exact ink2_colour]. Qed.
Lemma inky_new : inky context_new.
Proof. split; [exact ink1_colour | exact paper_colour]. Qed.
Lemma update_decoder_cols c : cols (update_decoder c) = cols c.
Proof. reflexivity. Qed.
Lemma set_font_cols f c : cols (set_font f c) = cols c.
Proof. unfold set_font. first [reflexivity | destruct f; reflexivity]. Qed.

Lemma plain_inky id c x x' : sinv x -> inky x -> apply_plain id c x = Ok x' -> inky x'.
Proof.
  intros S I H. pose proof (gk_colors _ (si_graphics _ S)) as RC.
  destruct id; cbn [apply_plain] in H; try rewrite RC in H; try (injection H as <-; exact I).
  all: try (destruct (p_enabled (c_page x)); [|injection H as <-; exact I]).
  all: first
    [ exact (inky_cols _ _ (moved_cols _ _ (offset_y_relative_moved _ _ _ H)) I)
    | exact (inky_cols _ _ (moved_cols _ _ (set_x_absolute_moved _ _ _ H)) I)
    | exact (inky_cols _ _ (moved_cols _ _ (set_y_absolute_moved _ _ _ H)) I)
    | (injection H as <-; unfold reset; rewrite (si_default _ S); exact inky_new)
    | (injection H as <-; split; [exact (alt_colour _) | exact (proj2 I)])
    | (injection H as <-; destruct (arg 0 c 0 =? 1); split; first [exact ink1_colour | exact paper_colour])
    | (injection H as <-; refine (inky_cols _ _ _ I); rewrite ?update_decoder_cols, ?set_font_cols; reflexivity)
    | (injection H as <-; refine (inky_cols _ _ _ I); destruct (ctx_default x); reflexivity)
    | (injection H as <-; refine (inky_cols _ _ _ I); cbv zeta; destruct (6 <? _); reflexivity)
    | (injection H as <-; refine (inky_cols _ _ _ I); unfold set_motion_units; cbv zeta; destruct (_ || _); reflexivity)
    | (injection H as <-; refine (inky_cols _ _ _ I); unfold set_print_mode; cbv zeta; unfold set_font; reflexivity)
    | (unfold set_page_area in H; cbv zeta in H; repeat (apply bind_ok in H; destruct H as (? & _ & H)); injection H as <-; refine (inky_cols _ _ _ I); reflexivity)
    | (apply bind_ok in H; destruct H as (d & _ & H); injection H as <-; refine (inky_cols _ _ _ I); reflexivity) ].
Qed.
Lemma effects_inky c x : sinv x -> inky x -> inky (character_effects c x).
Proof.
  intros S I. unfold character_effects. rewrite (gk_colors _ (si_graphics _ S)). cbv zeta. destruct (vlen (c_data c) <? 3); [exact I|].
  assert (A : inky (upd_text (set_t_color (color_for_number default_colors (arg 48 c 3))) x)) by (split; [exact (number_colour _) | exact (proj2 I)]).
  assert (B : inky (upd_text (set_t_background_color (color_for_number default_colors (arg 48 c 3))) x)) by (split; [exact (proj1 I) | exact (number_colour _)]).
  repeat match goal with |- inky (match ?z with _ => _ end) => destruct z end; first [exact I | exact A | exact B | (refine (inky_cols _ _ _ I); reflexivity)].
Qed.
Lemma sub_text e id c x x' : apply_sub e id c x = Ok x' -> c_text x' = c_text x.
Proof.
  intros H. destruct id; cbn [apply_sub] in H; try (injection H as <-; reflexivity).
  all: try (destruct (vlen (c_data c) <? 2); [discriminate|]).
  all: unfold qr_store, clear_one, define_column, define_raster, store_buffer, push_buffer in H; cbv zeta in H.
  all: repeat match type of H with
    | Ok _ = Ok _ => injection H as <-; repeat match goal with |- context [match ?v with _ => _ end] => destruct v end; reflexivity
    | (if ?b then _ else _) = _ => destruct b
    | (match ?v with _ => _ end) = Ok _ => destruct v
    | bind _ _ = _ => apply bind_ok in H; destruct H as (? & _ & H)
    end.
Qed.
Lemma context_inky e c x x' : sent c -> sinv x -> inky x -> apply_context e c x = Ok x' -> inky x'.
Proof.
  intros Sc S I H. unfold apply_context in H. destruct (c_handler c) as [id| |cap|s|s|s|s|id]; try (injection H as <-; exact I).
  - exact (plain_inky _ _ _ _ S I H).
  - injection H as <-. exact (effects_inky _ _ S I).
  - destruct (ss_subcommand s) as [sc|]; [|injection H as <-; exact I]. unfold inky. rewrite (sub_text _ _ _ _ _ H). exact I.
  - first [ unfold inky; rewrite (sub_text _ _ _ _ _ H); exact I | exact I ].
Qed.
Lemma geometry_cols s s' : page_geometry s = Ok s' -> cols (rs_ctx s') = cols (rs_ctx s).
Proof.
  unfold page_geometry. intros H. apply bind_ok in H. destruct H as ((((r & w) & h) & p) & _ & H). injection H as <-. reflexivity.
Qed.
Lemma device_cols d s s' : process_device_command d s = Ok s' -> cols (rs_ctx s') = cols (rs_ctx s).
Proof.
  intros H. unfold process_device_command in H. cbv zeta in H.
  assert (Nl : forall k s0 s0', on_ctx (newline k) s0 = Ok s0' -> cols (rs_ctx s0') = cols (rs_ctx s0)).
  { intros k s0 s0' E. apply on_ctx_inv in E. destruct E as (x & E & ->). exact (moved_cols _ _ (newline_moved _ _ _ E)). }
  destruct d; try (injection H as <-; reflexivity).
  all: try (apply on_ctx_inv in H; destruct H as (x & E & ->); injection E as <-; reflexivity).
  all: try exact (Nl _ _ _ H).
  all: try (apply on_ctx_inv in H; destruct H as (x & E & ->);
            first [exact (moved_cols _ _ (feed_moved _ _ _ E)) | injection E as <-; unfold set_tab_len; repeat match goal with |- context [match ?v with _ => _ end] => destruct v end; reflexivity | apply bind_ok in E; destruct E as (y & _ & E); injection E as <-; reflexivity]).
  all: try exact (geometry_cols _ _ H).
  all: apply bind_ok in H; destruct H as (s1 & H1 & H).
  all: first [ apply Nl in H1; injection H as <-; exact H1
             | apply on_ctx_inv in H1; destruct H1 as (x & E & ->); injection E as <-; first [injection H as <-; reflexivity | exact (geometry_cols _ _ H)] ].
Qed.
Lemma devices_cols l s s' : process_device_commands l s = Ok s' -> cols (rs_ctx s') = cols (rs_ctx s).
Proof.
  intros H. unfold process_device_commands in H. refine (fold_res_ind _ (fun y => cols (rs_ctx y) = cols (rs_ctx s)) l s s' eq_refl _ H).
  intros d y y' Hd E Hp. rewrite (device_cols _ _ _ Hp). exact E.
Qed.
Lemma step_inky e c s s' : sent c -> sinv (rs_ctx s) -> inky (rs_ctx s) -> process_command e c s = Ok s' -> inky (rs_ctx s').
Proof.
  intros Sc S I H. unfold process_command in H. 
  assert (Tm : forall a b, process_text a = Ok b -> cols (rs_ctx b) = cols (rs_ctx a)) by (intros a b E; exact (moved_cols _ _ (proj1 (process_text_moved _ _ E)))).
  assert (Ts : forall a b, process_text a = Ok b -> sinv (rs_ctx a) -> sinv (rs_ctx b)) by (intros a b E; exact (sinv_moved _ _ (proj1 (process_text_moved _ _ E)))).
  destruct (c_kind c).
  - apply bind_ok in H. destruct H as (d & Hd & H). apply bind_ok in H. destruct H as (s1 & H1 & H). refine (inky_cols _ _ (devices_cols _ _ _ H) _). exact (inky_cols _ _ (Tm _ _ H1) I).
  - injection H as <-. destruct (get_text c (rs_ctx s)); exact I.
  - apply bind_ok in H. destruct H as (s1 & H1 & H). apply bind_ok in H. destruct H as (d & Hd & H). refine (inky_cols _ _ (devices_cols _ _ _ H) _).
    apply on_ctx_inv in H1. destruct H1 as (x & Hx & ->). exact (context_inky _ _ _ _ Sc S I Hx).
  - apply bind_ok in H. destruct H as (s1 & H1 & H). apply bind_ok in H. destruct H as (g & Hg & H). apply bind_ok in H. destruct H as (s2 & H2 & H). apply bind_ok in H. destruct H as (d & Hd & H).
    refine (inky_cols _ _ (devices_cols _ _ _ H) _). destruct (process_text_moved _ _ H1) as (M & Sp). pose proof (inky_cols _ _ (moved_cols _ _ M) I) as I1.
    destruct g as [g|]; [|injection H2 as <-; exact I1]. destruct (process_gfx_moved _ _ _ H2 Sp) as (M2 & _). exact (inky_cols _ _ (moved_cols _ _ M2) I1).
  - apply bind_ok in H. destruct H as (s1 & H1 & H). apply on_ctx_inv in H. destruct H as (x & Hx & ->). exact (context_inky _ _ _ _ Sc (Ts _ _ H1 S) (inky_cols _ _ (Tm _ _ H1) I) Hx).
  - apply bind_ok in H. destruct H as (s1 & H1 & H). apply bind_ok in H. destruct H as (s2 & H2 & H). apply bind_ok in H. destruct H as (d & Hd & H). refine (inky_cols _ _ (devices_cols _ _ _ H) _).
    apply on_ctx_inv in H2. destruct H2 as (x & Hx & ->). exact (context_inky _ _ _ _ Sc (Ts _ _ H1 S) (inky_cols _ _ (Tm _ _ H1) I) Hx).
  - injection H as <-. exact I.
  - apply bind_ok in H. destruct H as (s1 & H1 & H). injection H as <-. exact (inky_cols _ _ (Tm _ _ H1) I).
Qed.
Lemma history_inky e s : history e s -> inky (rs_ctx s).
Proof.
  intros (l & F & H). unfold run_commands in H.
  refine (proj2 (fold_res_ind _ (fun y => sinv (rs_ctx y) /\ inky (rs_ctx y)) _ renderer_new s (conj sinv_new inky_new) _ H)).
  intros c y y' Hin (S & I) E. pose proof (proj1 (Forall_forall _ _) F _ Hin) as Sc. split; [exact (process_command_sinv _ _ _ _ Sc S E) | exact (step_inky _ _ _ _ Sc S I E)].
Qed.

(** ** What is drawn *)
Definition ink_good (i : SpecRender.ink) : Prop := colours (s_text_color (fst i)) /\ colours (s_background_color (fst i)).
Lemma inked_good s t : colours (s_text_color s) -> colours (s_background_color s) -> Forall ink_good (inked s t).
Proof. intros A B. unfold inked. apply Forall_map. apply Forall_forall. intros z _. split; assumption. Qed.
Lemma times_good n (l : list SpecRender.ink) : Forall ink_good l -> Forall ink_good (times n l).
Proof. intros F. induction n as [|n IH]; [constructor | cbn [times]; apply Forall_app; auto]. Qed.
Lemma typed_good e c x : sent c -> uinv x -> inky x -> Forall ink_good (typed e c x).
Proof.
  intros Sc U (A & B). unfold typed. assert (N : Forall ink_good []) by constructor. destruct (c_kind c); try exact N.
  - repeat match goal with |- Forall _ (match ?v with _ => _ end) => destruct v end; first [exact N | unfold span_ink; apply inked_good; assumption].
  - assert (G : Forall ink_good (match get_graphics e c x with Ok (Some (GBarcode b)) => times (copies (bc_human_readable (c_barcode x))) (span_ink (b_text b)) | _ => [] end)).
    { destruct (get_graphics e c x) as [[[er|q|b|i]|]|] eqn:E; try exact N. apply times_good. unfold span_ink. destruct (barcode_only _ _ _ _ Sc U E) as (_ & t & ->). apply inked_good; assumption. }
    repeat match goal with |- Forall _ (match ?v with _ => _ end) => lazymatch v with get_graphics _ _ _ => fail | _ => destruct v end end; first [exact N | exact G].
Qed.
Lemma run_good e l s : Forall sent l -> run_commands e l renderer_new = Ok s -> Forall ink_good (drawn (rs_calls s)).
Proof.
  intros F H. unfold run_commands in H.
  assert (G : lay_ok s /\ inky (rs_ctx s) /\ Forall ink_good (drawn (rs_calls s) ++ pending s)).
  { refine (fold_res_ind _ (fun y => lay_ok y /\ inky (rs_ctx y) /\ Forall ink_good (drawn (rs_calls y) ++ pending y)) l renderer_new s _ _ H).
    - split; [exact (conj (Forall_nil _) (conj sinv_new uinv_new))|]. split; [exact inky_new | constructor].
    - intros c y y' Hin (L & I & G) E. pose proof (proj1 (Forall_forall _ _) F _ Hin) as Sc. pose proof L as (_ & S & U).
      split; [exact (step_lay_ok _ _ _ _ L Sc E)|]. split; [exact (step_inky _ _ _ _ Sc S I E)|].
      rewrite (proj1 (step_ink _ _ _ _ L Sc E)). rewrite app_assoc. apply Forall_app. split; [exact G | exact (typed_good _ _ _ Sc U I)]. }
  destruct G as (_ & _ & G). apply Forall_app in G. exact (proj1 G).
Qed.
Lemma history_colours e s x line off h j w : history e s -> In (x, EText line off h j) (rs_calls s) -> In w line -> s_text w <> [] ->
  colours (s_text_color w) /\ colours (s_background_color w).
Proof.
  intros (l & F & H) Hc Hw N. pose proof (run_good e l s F H) as G. rewrite Forall_forall in G. destruct (s_text w) as [|c r] eqn:T; [congruence|].
  specialize (G (style_of w, c)). apply G. unfold drawn. apply in_flat_map. exists (x, EText line off h j). split; [exact Hc|]. cbn [snd].
  apply in_flat_map. exists w. split; [exact Hw|]. unfold inked. rewrite T. left. reflexivity.
Qed.
