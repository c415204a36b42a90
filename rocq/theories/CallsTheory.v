(** * CallsTheory: what every call on the output renderer looks like, in every history.

    Used by the theorems about the image renderer: coordinates and sizes are u32 values, images and
    spans have the size they claim, and the context passed along has reachable settings. *)
From Verif Require Import Base Command CommandSet Parser Vec Float32 GTypes Graphics Utf8 Decoder Context Text
  Handlers Renderer ContextTheory RendererTheory Origin SpecPrinter StateTheory AreaTheory.
Local Open Scope Z_scope.
Local Open Scope list_scope.

(** ** QR settings *)
Definition sym_wf (q : code2d_g) : Prop := 0 <= q_point_width q <= 255 /\ 0 <= q_point_height q <= 255.
Record qinv (c : context) : Prop := mk_qinv {
  qi_size : 0 <= k_qr_size (c_code2d c) <= 255;
  qi_sym : match k_symbol_storage (c_code2d c) with Some q => sym_wf q | None => True end }.
Lemma qinv_same c c' : c_code2d c' = c_code2d c -> qinv c -> qinv c'.
Proof. intros E [A B]. constructor; rewrite E; assumption. Qed.
Lemma moved_code2d c c' : moved c c' -> c_code2d c' = c_code2d c.
Proof. intros M. exact (f_equal c_code2d M). Qed.
Lemma qinv_moved c c' : moved c c' -> qinv c -> qinv c'.
Proof. intros M. apply qinv_same, moved_code2d, M. Qed.
Lemma qinv_new : qinv context_new.
Proof. constructor; [vm_compute; split; discriminate | exact I]. Qed.

Lemma set_page_area_code2d a c c' : set_page_area a c = Ok c' -> c_code2d c' = c_code2d c.
Proof. unfold set_page_area. intros H. cbv zeta in H. repeat (apply bind_ok in H; destruct H as (? & _ & H)). injection H as <-. reflexivity. Qed.
Ltac same_q Q := first [exact Q | refine (qinv_same _ _ _ Q); reflexivity].
Lemma apply_plain_q id c x x' : sinv x -> qinv x -> apply_plain id c x = Ok x' -> qinv x'.
Proof.
  intros S Q H. destruct id; cbn [apply_plain] in H; try (injection H as <-; same_q Q).
  - injection H as <-. destruct (ctx_default x); same_q Q.
  - injection H as <-. refine (qinv_same context_new _ _ qinv_new). unfold reset. rewrite (si_default _ S). reflexivity.
  - destruct (p_enabled _); [|injection H as <-; exact Q]. exact (qinv_moved _ _ (offset_y_relative_moved _ _ _ H) Q).
  - destruct (p_enabled _); [|injection H as <-; exact Q]. exact (qinv_same _ _ (set_page_area_code2d _ _ _ H) Q).
  - injection H as <-. destruct (p_enabled _); [|exact Q]. same_q Q.
  - injection H as <-. cbv zeta. match goal with |- qinv (if ?b then _ else _) => destruct b end; same_q Q.
  - exact (qinv_moved _ _ (set_x_absolute_moved _ _ _ H) Q).
  - apply bind_ok in H. destruct H as (d & _ & H). injection H as <-. same_q Q.
  - injection H as <-. unfold set_motion_units. cbv zeta. destruct (_ || _); [exact Q | same_q Q].
  - destruct (p_enabled _); [|injection H as <-; exact Q]. exact (qinv_moved _ _ (set_y_absolute_moved _ _ _ H) Q).
Qed.
Lemma upd_stored_q f x : qinv x -> qinv (upd_stored f x).
Proof. intros Q. same_q Q. Qed.
Lemma define_column_q st data x x' : qinv x -> define_column st data x = Ok x' -> qinv x'.
Proof.
  intros Q H. unfold define_column in H. cbv zeta in H.
  repeat match type of H with
  | bind _ _ = Ok _ => apply bind_ok in H; destruct H as (? & _ & H)
  | (if ?b then _ else _) = _ => destruct b
  | match ?z with _ => _ end = _ => destruct z
  end; try discriminate; injection H as <-; same_q Q.
Qed.
Lemma define_raster_q st data x x' : qinv x -> define_raster st data x = Ok x' -> qinv x'.
Proof.
  intros Q H. unfold define_raster in H. cbv zeta in H.
  repeat match type of H with
  | bind _ _ = Ok _ => apply bind_ok in H; destruct H as (? & _ & H)
  | (if ?b then _ else _) = _ => destruct b
  | match ?z with _ => _ end = _ => destruct z
  end; try discriminate; injection H as <-; same_q Q.
Qed.
Lemma store_buffer_q b data x x' : qinv x -> store_buffer b data x = Ok x' -> qinv x'.
Proof.
  intros Q H. unfold store_buffer in H. cbv zeta in H.
  repeat match type of H with
  | bind _ _ = Ok _ => apply bind_ok in H; destruct H as (? & _ & H)
  | (if ?b then _ else _) = _ => destruct b
  | match ?z with _ => _ end = _ => destruct z
  end; try discriminate; injection H as <-; same_q Q.
Qed.
Lemma apply_sub_q e id c x x' : sent c -> qinv x -> apply_sub e id c x = Ok x' -> qinv x'.
Proof.
  intros Sc Q H. destruct id; cbn [apply_sub] in H; cbv zeta in H;
    try (injection H as <-; first [exact Q | destruct Q as [Q1 Q2]; constructor; [exact Q1 | exact Q2] ]).
  all: try exact (define_column_q _ _ _ _ Q H).
  all: try exact (define_raster_q _ _ _ _ Q H).
  all: try exact (store_buffer_q _ _ _ _ Q H).
  - destruct (_ <? _); [discriminate|]. apply bind_ok in H. destruct H as (l & _ & H). injection H as <-. destruct Q as [Q1 Q2]; constructor; [exact Q1 | exact Q2].
  - injection H as <-. unfold qr_store. cbv zeta. destruct (e_qr _ _ _ _ _) as [[w bits]|]; [|exact Q].
    destruct Q as [Q1 Q2]. constructor; [exact Q1|]. cbn. unfold sym_wf. cbn. split; exact Q1.
  - injection H as <-. destruct Q as [Q1 Q2]. constructor; [|exact Q2]. exact (sent_arg _ 0 1 Sc ltac:(lia)).
  - apply bind_ok in H. destruct H as (l & _ & H). injection H as <-. destruct Q as [Q1 Q2]; constructor; [exact Q1 | exact Q2].
  - injection H as <-. destruct (_ || _); [exact Q|]. destruct Q as [Q1 Q2]; constructor; [exact Q1 | exact Q2].
  - apply bind_ok in H. destruct H as (l & _ & H). injection H as <-. destruct l as [[[? ?] ?]|]; [|exact Q]. destruct Q as [Q1 Q2]; constructor; [exact Q1 | exact Q2].
  - injection H as <-. unfold clear_one. destruct (ref_from_data _ _); [apply upd_stored_q|]; exact Q.
  - injection H as <-. unfold clear_one. destruct (ref_from_data _ _); [apply upd_stored_q|]; exact Q.
  - injection H as <-. destruct (_ && _); [same_q Q|]. destruct (_ && _); same_q Q.
Qed.
Lemma apply_context_q e c x x' : sent c -> sinv x -> qinv x -> apply_context e c x = Ok x' -> qinv x'.
Proof.
  intros Sc S Q H. unfold apply_context in H. destruct (c_handler c) as [id| |cap|s|s|s|s|id]; try (injection H as <-; exact Q).
  - exact (apply_plain_q _ _ _ _ S Q H).
  - injection H as <-. unfold character_effects. cbv zeta. destruct (_ <? _); [exact Q|].
    repeat match goal with |- qinv (match ?z with _ => _ end) => destruct z end; same_q Q.
  - destruct (ss_subcommand s); [exact (apply_sub_q _ _ _ _ _ Sc Q H) | injection H as <-; exact Q].
  - exact (apply_sub_q _ _ _ _ _ Sc Q H).
Qed.

(** ** Spans *)
Definition dims_wf (s : text_span) (d : dims) : Prop :=
  u32v (d_x d) /\ u32v (d_y d) /\ d_w d = vlen (s_text s) * s_character_width s /\ u32v (d_w d) /\ d_h d = s_character_height s.
Record span_wf (s : text_span) : Prop := mk_span_wf {
  sw_base : 1 <= s_base_character_width s <= 12 /\ 1 <= s_base_character_height s <= 24 /\ (s_base_character_height s = 24 \/ s_base_character_height s = 17);
  sw_width : exists m, 1 <= m <= 8 /\ s_character_width s = s_base_character_width s * m;
  sw_height : exists m, 1 <= m <= 8 /\ s_character_height s = s_base_character_height s * m;
  sw_dims : match s_dimensions s with Some d => dims_wf s d | None => True end }.
Lemma font_base f a b : (a, b) = cell_of f -> 1 <= a <= 12 /\ 1 <= b <= 24 /\ (b = 24 \/ b = 17).
Proof. intros E. destruct f; injection E as -> ->; lia. Qed.
Lemma span_new_wf t c : sinv c -> span_wf (span_new t c).
Proof.
  intros [_ T _ _]. destruct T as [C W H _ _ _ _]. constructor; cbn.
  - exact (font_base _ _ _ C).
  - exists (t_width_mult (c_text c)). auto.
  - exists (t_height_mult (c_text c)). auto.
  - exact I.
Qed.
Lemma barcode_span_wf t c : sinv c -> span_wf (span_new_for_barcode t c).
Proof. intros S. destruct (span_new_wf t c S) as [A B C _]. constructor; [exact A | exact B | exact C | exact I]. Qed.
Lemma clone_wf t s : span_wf s -> span_wf (clone_with t s).
Proof. intros [A B C D]. constructor; [exact A | exact B | exact C | exact I]. Qed.
Lemma get_dimensions_wf c s s' : uinv c -> span_wf s -> get_dimensions c s = Ok s' -> span_wf s'.
Proof.
  intros U [A B C D] H. unfold get_dimensions in H. apply bind_ok in H. destruct H as (w & Hw & H). injection H as <-.
  destruct (mul_u32v _ _ _ Hw) as (E & V). constructor; [exact A | exact B | exact C|].
  cbn. unfold dims_wf. cbn. exact (conj (x_u _ U) (conj (y_u _ U) (conj E (conj V eq_refl)))).
Qed.
Lemma break_apart_wf s a b l : span_wf s -> break_apart s a b = Ok l -> Forall span_wf l.
Proof.
  intros W H. unfold break_apart in H. destruct (b =? 0); [discriminate|]. cbv zeta in H. injection H as <-.
  apply Forall_forall. intros x Hx. change (In x (map (fun t => clone_with t s)
    ((if (0 <? a) && (0 <? vlen (s_text s)) then firstn (Z.to_nat a) (s_text s) else []) ::
     chunks (length (skipn (Z.to_nat (if (0 <? a) && (0 <? vlen (s_text s)) then a else 0)) (s_text s))) (Z.to_nat b)
       (skipn (Z.to_nat (if (0 <? a) && (0 <? vlen (s_text s)) then a else 0)) (s_text s))))) in Hx.
  apply in_map_iff in Hx. destruct Hx as (t & <- & _). apply clone_wf, W.
Qed.
Lemma words_wf s : span_wf s -> Forall span_wf (break_into_words s).
Proof. intros W. unfold break_into_words. apply Forall_forall. intros x Hx. apply in_map_iff in Hx. destruct Hx as (t & <- & _). apply clone_wf, W. Qed.

(** ** Calls *)
Definition rect_wf (r : rectangle) : Prop := u32v (r_x r) /\ u32v (r_y r) /\ 0 <= r_w r <= 255 /\ 0 <= r_h r <= 255.
Definition event_wf (ev : event) : Prop :=
  match ev with
  | EGraphics rects => Forall rect_wf rects
  | EImage i => img_wf i /\ u32v (i_x i) /\ u32v (i_y i)
  | EText spans off mh _ => Forall span_wf spans /\ u32v off /\ mh = line_height spans
  | EPageAreaChanged _ w h => u32v w /\ u32v h
  | _ => True
  end.
Record cinv (c : context) : Prop := mk_cinv { ci_s : sinv c; ci_u : uinv c; ci_q : qinv c }.
Definition call_wf (x : context * event) : Prop := cinv (fst x) /\ event_wf (snd x).
Record tidy (s : rstate) : Prop := mk_tidy {
  td_ctx : cinv (rs_ctx s); td_spans : Forall span_wf (rs_spans s); td_calls : Forall call_wf (rs_calls s) }.

Lemma tidy_call e s : tidy s -> event_wf e -> tidy (call e s).
Proof.
  intros [C S F] W. constructor; [exact C | exact S|]. cbn [call rs_calls]. apply Forall_app. split; [exact F|].
  constructor; [exact (conj C W) | constructor].
Qed.
Lemma tidy_ctx c s : tidy s -> cinv c -> tidy (with_ctx c s).
Proof. intros [C S F] W. constructor; [exact W | exact S | exact F]. Qed.
Lemma tidy_on_ctx f s s' : tidy s -> (forall c, f (rs_ctx s) = Ok c -> cinv c) -> on_ctx f s = Ok s' -> tidy s'.
Proof. intros T F H. apply on_ctx_inv in H. destruct H as (c & Hc & ->). apply tidy_ctx; [exact T | exact (F _ Hc)]. Qed.
Lemma cinv_moved c c' : moved c c' -> uinv c' -> cinv c -> cinv c'.
Proof. intros M U [S _ Q]. constructor; [exact (sinv_moved _ _ M S) | exact U | exact (qinv_moved _ _ M Q)]. Qed.
Lemma cinv_new : cinv context_new.
Proof. constructor; [exact sinv_new | exact uinv_new | exact qinv_new]. Qed.
Lemma tidy_new : tidy renderer_new.
Proof. constructor; [exact cinv_new | constructor | constructor]. Qed.

(** *** Text *)
Definition lay_wf (l : layout) : Prop := uinv (lay_ctx l) /\ Forall (Forall span_wf) (snd (fst l)) /\ Forall span_wf (snd l).
Lemma snoc_wf {A} (P : A -> Prop) l x : Forall P l -> P x -> Forall P (l ++ [x]).
Proof. intros F H. apply Forall_app. split; [exact F | constructor; [exact H | constructor]]. Qed.
Lemma place_pieces_wf pieces : forall l l', place_pieces pieces l = Ok l' -> Forall span_wf pieces -> lay_wf l -> lay_wf l'.
Proof.
  induction pieces as [|p r IH]; intros [[c lines] cur] l' H F (U & L & C); [injection H as <-; split; auto|].
  inversion F as [|? ? Wp Fr]; subst. cbn [lay_ctx fst snd] in *. cbn [place_pieces] in H. destruct r as [|q r].
  - apply bind_ok in H. destruct H as (p' & Hp & H). apply bind_ok in H. destruct H as (w & _ & H). apply bind_ok in H. destruct H as (c' & Hc & H).
    injection H as <-. split; [exact (offset_x_u _ _ _ Hc U) | split; [exact L|]]. exact (snoc_wf _ _ _ C (get_dimensions_wf _ _ _ U Wp Hp)).
  - apply bind_ok in H. destruct H as (p' & Hp & H). apply bind_ok in H. destruct H as (c' & Hc & H).
    refine (IH _ _ H Fr _). split; [exact (newline_for_spans_u _ _ _ Hc U)|]. split; [|constructor].
    cbn. apply snoc_wf; [exact L|]. exact (snoc_wf _ _ _ C (get_dimensions_wf _ _ _ U Wp Hp)).
Qed.
Lemma place_word_wf mw w l l' : place_word mw w l = Ok l' -> span_wf w -> lay_wf l -> lay_wf l'.
Proof.
  destruct l as [[c lines] cur]. intros H W (U & L & C). cbn [lay_ctx fst snd] in *.
  unfold place_word in H. cbv zeta in H. apply bind_ok in H. destruct H as (ww & Hww & H).
  destruct (is_single 10 (s_text w)).
  { apply bind_ok in H. destruct H as (c' & Hc & H). injection H as <-. split; [exact (newline_for_spans_u _ _ _ Hc U)|].
    split; [|constructor]. cbn. apply Forall_app. split; [exact L|]. constructor; [exact C | constructor; [constructor | constructor]]. }
  destruct (is_single 9 (s_text w)).
  { apply bind_ok in H. destruct H as (c' & Hc & H). injection H as <-. split; [refine (tab_walk_u _ _ _ _ _ _ _ Hc U); unfold u32v; lia|].
    split; [exact L | exact C]. }
  destruct (ww <=? get_available_width c).
  { apply bind_ok in H. destruct H as (w' & Hw & H). apply bind_ok in H. destruct H as (c' & Hc & H). injection H as <-.
    split; [exact (offset_x_u _ _ _ Hc U) | split; [exact L|]]. exact (snoc_wf _ _ _ C (get_dimensions_wf _ _ _ U W Hw)). }
  destruct (mw <? ww).
  { apply bind_ok in H. destruct H as (f & _ & H). apply bind_ok in H. destruct H as (r & _ & H). apply bind_ok in H. destruct H as (ps & Hps & H).
    refine (place_pieces_wf _ _ _ H (break_apart_wf _ _ _ _ W Hps) _). split; auto. }
  apply bind_ok in H. destruct H as (c1 & Hc1 & H). apply bind_ok in H. destruct H as (w' & Hw & H). apply bind_ok in H. destruct H as (c2 & Hc2 & H).
  injection H as <-. pose proof (newline_for_spans_u _ _ _ Hc1 U) as U1. split; [exact (offset_x_u _ _ _ Hc2 U1)|].
  split; [cbn; exact (snoc_wf _ _ _ L C)|]. constructor; [exact (get_dimensions_wf _ _ _ U1 W Hw) | constructor].
Qed.
Lemma layout_words_wf ws c c' lines : layout_words ws c = Ok (c', lines) -> Forall span_wf ws -> uinv c -> Forall (Forall span_wf) lines.
Proof.
  intros H F U. unfold layout_words in H. apply bind_ok in H. destruct H as ([[c1 l1] cur] & Hf & H).
  assert (X : lay_wf (c1, l1, cur)).
  { refine (fold_res_ind _ lay_wf _ (c, [], []) (c1, l1, cur) _ _ Hf).
    - split; [exact U | split; constructor].
    - intros x y y' Hin L E. exact (place_word_wf _ _ _ _ E (proj1 (Forall_forall _ _) F _ Hin) L). }
  destruct X as (_ & L & C). cbn [fst snd] in *. injection H as _ <-. destruct cur; [exact L | exact (snoc_wf _ _ _ L C)].
Qed.
Lemma line_offset_u j mw w off : u32v mw -> 0 <= w -> line_offset j mw w = Ok off -> u32v off.
Proof.
  intros M W H. destruct j; cbn [line_offset] in H.
  - injection H as <-. unfold u32v; lia.
  - injection H as <-. unfold u32v in *. destruct (w <? mw) eqn:E; [|lia]. set (v := mw - w) in *.
    assert (0 <= v / 2 <= v) by (split; [apply Z.div_pos; lia | apply Z.div_le_upper_bound; lia]). lia.
  - exact (proj2 (sub_u32v _ _ _ H)).
Qed.
Lemma line_width_nonneg l : forall a w, 0 <= a -> line_width l a = Ok w -> 0 <= w.
Proof.
  induction l as [|s l IH]; intros a w A H; cbn [line_width] in H; [injection H as <-; exact A|].
  apply bind_ok in H. destruct H as (x & _ & H). apply bind_ok in H. destruct H as (y & Hy & H).
  refine (IH _ _ _ H). destruct (add_u32v _ _ _ Hy) as (_ & V). unfold u32v in V. lia.
Qed.
Lemma render_line_tidy line s s' : Forall span_wf line -> tidy s -> render_line line s = Ok s' -> tidy s'.
Proof.
  intros F T H. unfold render_line in H. destruct line as [|f r]; [injection H as <-; exact T|]. cbv zeta in H.
  apply bind_ok in H. destruct H as (w & Hw & H). apply bind_ok in H. destruct H as (off & Ho & H). injection H as <-.
  apply tidy_call; [exact T|]. split; [exact F|]. split; [|reflexivity].
  refine (line_offset_u _ _ _ _ (width_u _ (ci_u _ (td_ctx _ T))) _ Ho). refine (line_width_nonneg _ _ _ _ Hw). lia.
Qed.
Lemma process_text_tidy s s' : tidy s -> process_text s = Ok s' -> tidy s'.
Proof.
  intros T H. unfold process_text in H. destruct (rs_spans s) as [|f r] eqn:Es; [injection H as <-; exact T|].
  apply bind_ok in H. destruct H as ([c lines] & Hl & H).
  assert (F : Forall span_wf (flat_map break_into_words (f :: r))).
  { pose proof (td_spans _ T) as F. rewrite Es in F. clear - F. induction F as [|x l W F IH]; [constructor|].
    cbn [flat_map]. apply Forall_app. split; [exact (words_wf _ W) | exact IH]. }
  pose proof (layout_words_wf _ _ _ _ Hl F (ci_u _ (td_ctx _ T))) as L.
  refine (fold_res_ind _ tidy _ _ _ _ _ H).
  - apply tidy_ctx; [destruct T as [C S G]; constructor; [exact C | constructor | exact G]|].
    refine (cinv_moved _ _ (layout_words_moved _ _ _ _ Hl) (layout_words_u _ _ _ _ Hl (ci_u _ (td_ctx _ T))) (td_ctx _ T)).
  - intros x y y' Hin Ty E. exact (render_line_tidy _ _ _ (proj1 (Forall_forall _ _) L _ Hin) Ty E).
Qed.

(** *** Symbols and images *)
Definition draw_wf (g : gfx) : Prop :=
  match g with
  | GImage i => img_wf i
  | GCode2D q => sym_wf q
  | GBarcode b => 0 <= b_point_width b <= 255 /\ 0 <= b_point_height b <= 255 /\ span_wf (b_text b)
  | GError _ => True
  end.
Lemma process_code_2d_tidy q s s' : tidy s -> sym_wf q -> process_code_2d q s = Ok s' -> tidy s'.
Proof.
  intros T (W & Hh) H. pose proof (td_ctx _ T) as C.
  pose proof (process_code_2d_u _ _ _ H (ci_u _ C)) as U'. destruct (process_code_2d_quiet _ _ _ H) as ((M & _) & _).
  unfold process_code_2d in H. apply bind_ok in H. destruct H as (t & Ht & H). cbv zeta in H.
  assert (O : u32v (calculate_justification t (rs_ctx s))).
  { refine (proj1 (justification_u _ _ (ci_u _ C) _)). destruct (mul_u32v _ _ _ Ht) as (_ & V). unfold u32v in V; lia. }
  apply bind_ok in H. destruct H as (c & Hc & H). apply bind_ok in H. destruct H as ([[c1 i] rects] & Hf & H). injection H as <-.
  assert (X : uinv c1 /\ Forall rect_wf rects).
  { refine (fold_res_ind _ (fun y => uinv (fst (fst y)) /\ Forall rect_wf (snd y)) _ (c, 1, []) (c1, i, rects) _ _ Hf).
    - split; [exact (set_x_u _ _ _ O Hc (ci_u _ C)) | constructor].
    - intros x y y' _ (Uy & Fy) E. split; [exact (code2d_point_u _ _ _ _ _ O E Uy)|].
      destruct y as [[cy iy] ry]. cbn [fst snd] in *. unfold code2d_point in E. cbv zeta in E.
      apply bind_ok in E. destruct E as (a & Ha & E).
      assert (Ua : uinv a).
      { destruct (negb (iy =? 1)); [|injection Ha as <-; exact Uy].
        destruct (q_width q =? 0); [discriminate|].
        destruct (iy mod q_width q =? 1); [|injection Ha as <-; exact Uy].
        apply bind_ok in Ha. destruct Ha as (a1 & Ha1 & Ha). exact (offset_y_u _ _ _ Ha (set_x_u _ _ _ O Ha1 Uy)). }
      destruct ((0 <? x) && (get_available_width a <? q_point_width q)); [injection E as <-; exact Fy|].
      apply bind_ok in E. destruct E as (a2 & _ & E). apply bind_ok in E. destruct E as (a3 & _ & E). injection E as <-. cbn [snd].
      destruct (0 <? x); [|exact Fy]. apply snoc_wf; [exact Fy|].
      exact (conj (x_u _ Ua) (conj (y_u _ Ua) (conj W Hh))). }
  apply tidy_call; [|exact (proj2 X)]. apply tidy_ctx; [exact T|]. exact (cinv_moved _ _ M U' C).
Qed.
Lemma tidy_collect t s : tidy s -> span_wf t -> tidy (collect_text t s).
Proof. intros [C S F] W. constructor; [exact C | exact (snoc_wf _ _ _ S W) | exact F]. Qed.
Lemma tidy_move f s s' : (forall c, f (rs_ctx s) = Ok c -> moved (rs_ctx s) c) -> (forall c, f (rs_ctx s) = Ok c -> uinv c) ->
  tidy s -> on_ctx f s = Ok s' -> tidy s'.
Proof. intros M U T H. refine (tidy_on_ctx _ _ _ T _ H). intros c Hc. exact (cinv_moved _ _ (M _ Hc) (U _ Hc) (td_ctx _ T)). Qed.
Lemma newline_tidy n s s' : tidy s -> on_ctx (newline n) s = Ok s' -> tidy s'.
Proof.
  intros T. apply tidy_move; [| |exact T]; intros c Hc; [exact (newline_moved _ _ _ Hc) | exact (newline_u _ _ _ Hc (ci_u _ (td_ctx _ T)))].
Qed.
Lemma barcode_text_tidy b s s' : tidy s -> span_wf (b_text b) -> barcode_text b s = Ok s' -> tidy s'.
Proof.
  intros T W H. unfold barcode_text in H. apply bind_ok in H. destruct H as (s1 & H1 & H).
  exact (newline_tidy _ _ _ (process_text_tidy _ _ (tidy_collect _ _ T W) H1) H).
Qed.
Lemma process_barcode_tidy b s s' : tidy s -> draw_wf (GBarcode b) -> process_barcode b s = Ok s' -> tidy s'.
Proof.
  intros T (W & Hh & Wt) H. unfold process_barcode in H. apply bind_ok in H. destruct H as (s1 & H1 & H).
  assert (T1 : tidy s1).
  { destruct (bc_human_readable _); try (injection H1 as <-; exact T); exact (barcode_text_tidy _ _ _ T Wt H1). }
  clear H1 T. apply bind_ok in H. destruct H as (t & Ht & H). apply bind_ok in H. destruct H as (s2 & H2 & H).
  assert (T2 : tidy s2).
  { refine (tidy_move _ _ _ _ _ T1 H2).
    - intros c Hc. exact (set_x_moved _ _ _ Hc).
    - intros c Hc. refine (set_x_u _ _ _ _ Hc (ci_u _ (td_ctx _ T1))).
      refine (proj1 (justification_u _ _ (ci_u _ (td_ctx _ T1)) _)). destruct (mul_u32v _ _ _ Ht) as (_ & V). unfold u32v in V; lia. }
  clear H2 T1. apply bind_ok in H. destruct H as ((c & rects) & Hf & H). cbv zeta in H.
  assert (X : (moved (rs_ctx s2) c /\ uinv c) /\ Forall rect_wf rects).
  { refine (fold_res_ind _ (fun y => (moved (rs_ctx s2) (fst y) /\ uinv (fst y)) /\ Forall rect_wf (snd y)) _ (rs_ctx s2, []) (c, rects) _ _ Hf).
    - exact (conj (conj (moved_refl _) (ci_u _ (td_ctx _ T2))) (Forall_nil _)).
    - intros x y y' _ ((My & Uy) & Fy) E.
      split; [exact (conj (moved_trans _ _ _ My (barcode_point_moved _ _ _ _ E)) (barcode_point_u _ _ _ _ E Uy))|].
      destruct y as [cy ry]. cbn [fst snd] in *. unfold barcode_point in E. cbv zeta in E.
      destruct ((0 <? x) && (get_available_width cy <? b_point_width b)); [injection E as <-; exact Fy|].
      apply bind_ok in E. destruct E as (a & _ & E). injection E as <-. cbn [snd].
      destruct (0 <? x); [|exact Fy]. apply snoc_wf; [exact Fy|]. exact (conj (x_u _ Uy) (conj (y_u _ Uy) (conj W Hh))). }
  destruct X as ((M & U) & F). apply bind_ok in H. destruct H as (s4 & H4 & H).
  assert (T3 : tidy (call (EGraphics rects) (with_ctx c s2))).
  { apply tidy_call; [|exact F]. apply tidy_ctx; [exact T2|]. exact (cinv_moved _ _ M U (td_ctx _ T2)). }
  assert (T4 : tidy s4).
  { refine (tidy_move _ _ _ _ _ T3 H4).
    - intros d Hd. exact (moved_trans _ _ _ (moved_reset_x _) (offset_y_moved _ _ _ Hd)).
    - intros d Hd. exact (offset_y_u _ _ _ Hd (reset_x_u _ U)). }
  clear T3 H4 T2. destruct (bc_human_readable (c_barcode (rs_ctx s4))); try (injection H as <-; exact T4);
    (apply bind_ok in H; destruct H as (s5 & H5 & H); refine (barcode_text_tidy _ _ _ _ Wt H);
     refine (tidy_move _ _ _ _ _ T4 H5); intros d Hd; [exact (offset_y_moved _ _ _ Hd) | exact (offset_y_u _ _ _ Hd (ci_u _ (td_ctx _ T4)))]).
Qed.
Lemma process_image_tidy i s s' : tidy s -> img_wf i -> process_image i s = Ok s' -> tidy s'.
Proof.
  intros T W H. unfold process_image in H. cbv zeta in H. apply bind_ok in H. destruct H as (s1 & H1 & H).
  pose proof (ci_u _ (td_ctx _ T)) as U.
  assert (T1 : tidy s1).
  { destruct (i_flow i).
    - destruct (_ <? _); [|injection H1 as <-; exact T]. exact (newline_tidy _ _ _ T H1).
    - destruct (p_enabled _); [injection H1 as <-; exact T|].
      refine (tidy_move _ _ _ _ _ T H1); intros c Hc; [exact (set_x_moved _ _ _ Hc)|].
      refine (set_x_u _ _ _ (proj1 (justification_u _ _ U _)) Hc U). destruct W as [W _ _]. unfold u32v in W. lia.
    - injection H1 as <-. exact T. }
  clear H1 T U. pose proof (ci_u _ (td_ctx _ T1)) as U1.
  match type of H with match i_flow ?z with _ => _ end = _ => set (i' := z) in H end.
  assert (T2 : tidy (call (EImage i') s1)).
  { apply tidy_call; [exact T1|]. split; [destruct W as [W1 W2 W3]; constructor; [exact W1 | exact W2 | exact W3]|].
    exact (conj (x_u _ U1) (y_u _ U1)). }
  destruct (i_flow i').
  - refine (tidy_move _ _ _ _ _ T2 H); intros c Hc; [exact (offset_x_moved _ _ _ Hc) | exact (offset_x_u _ _ _ Hc U1)].
  - match type of H with context [p_enabled ?z] => destruct (p_enabled z) end; [injection H as <-; exact T2|].
    refine (tidy_move _ _ _ _ _ T2 H); intros c Hc; apply bind_ok in Hc; destruct Hc as (d & Hd & Hc); injection Hc as <-.
    + exact (moved_trans _ _ _ (offset_y_moved _ _ _ Hd) (moved_reset_x _)).
    + exact (reset_x_u _ (offset_y_u _ _ _ Hd U1)).
  - injection H as <-. exact T2.
Qed.
Lemma process_gfx_tidy g s s' : tidy s -> draw_wf g -> process_gfx g s = Ok s' -> tidy s'.
Proof.
  intros T W H. destruct g; cbn [process_gfx] in H.
  - injection H as <-. destruct T as [C S F]. constructor; [exact C | exact S | exact F].
  - exact (process_code_2d_tidy _ _ _ T W H).
  - exact (process_barcode_tidy _ _ _ T W H).
  - exact (process_image_tidy _ _ _ T W H).
Qed.
Lemma barcode_draw_wf e s raw c g : sinv c -> barcode_graphics e s raw c = Ok g -> draw_wf g.
Proof.
  intros S Hg. destruct (si_barcode _ S) as [Bw Bh].
  assert (F : forall p t, draw_wf (finish_barcode p t c)).
  { intros [p|] t; [|exact I]. cbn. split; [lia | split; [lia | apply barcode_span_wf, S]]. }
  unfold barcode_graphics in Hg. cbv zeta in Hg.
  destruct (negb _); [injection Hg as <-; exact I|].
  destruct (bc_kind s); try (injection Hg as <-; first [exact I | apply F]).
  - apply bind_ok in Hg. destruct Hg as (u & _ & Hg). destruct u as [code|]; [|injection Hg as <-; exact I].
    apply bind_ok in Hg. destruct Hg as (p & _ & Hg). injection Hg as <-. apply (F (Some p)).
  - destruct (_ && _); [discriminate|]. destruct (from_utf8 _); [|discriminate]. injection Hg as <-. apply F.
Qed.
Lemma print_buffer_no_symbol x g : print_buffer x = Ok (Some g) -> match g with GCode2D _ | GBarcode _ => False | _ => True end.
Proof.
  intros H. unfold print_buffer in H. destruct (buffer_layers _) as [l|e] eqn:E; [|injection H as <-].
  - destruct l as [|a l]; [discriminate|]. apply bind_ok in H. destruct H as (m & Hm & H). injection H as <-. destruct m; exact I.
  - revert E. generalize (g_buffer_graphics (c_graphics x)) as l. induction l as [|g l IH]; cbn [buffer_layers]; [discriminate|].
    destruct g; intros E; [injection E as <-; exact I | exact (IH E) | exact (IH E)|].
    destruct (buffer_layers l) as [t|e'] eqn:E'; [discriminate|]. injection E as ->. exact (IH eq_refl).
Qed.
Lemma sub_draw_wf id data x g : cinv x -> sub_graphics id data x = Ok (Some g) -> draw_wf g.
Proof.
  intros [S U Q] H. pose proof (sub_graphics_wf _ _ _ _ U H) as W. destruct g as [|q|b|i]; [exact I | | contradiction | exact W].
  unfold sub_graphics in H. cbv zeta in H. pose proof (qi_sym _ Q) as K.
  destruct id; try discriminate; try (destruct (k_symbol_storage (c_code2d x)); [|discriminate]; injection H as <-; exact K).
  - destruct (print_buffer_no_symbol _ _ H).
  - injection H as H. destruct (ref_from_data _ _) as [r|]; [|discriminate].
    destruct (map_get_wf _ _ _ (ui_stored _ U) H).
  - injection H as H. destruct (ref_from_data _ _) as [r|]; [|discriminate].
    destruct (map_get_wf _ _ _ (ui_stored _ U) H).
Qed.
Lemma get_draw_wf e c x g : sent c -> cinv x -> get_graphics e c x = Ok (Some g) -> draw_wf g.
Proof.
  intros Sc C H. pose proof (sent_ranges _ Sc) as R. unfold get_graphics in H.
  destruct (c_handler c) as [id| |cap|s|s|s|s|id]; try discriminate.
  - apply bind_ok in H. destruct H as (g0 & Hg & H). injection H as <-. exact (barcode_draw_wf _ _ _ _ _ (ci_s _ C) Hg).
  - apply bind_ok in H. destruct H as (g0 & Hg & H). injection H as <-.
    assert (K : kept_wf g0); [|destruct g0; [exact I | contradiction | contradiction | exact K]].
    destruct R as (R1 & R2). unfold bit_image_graphics in Hg. cbv zeta in Hg.
    destruct (bi_col_encoded s); [exact (column_single_wf _ _ _ _ _ _ _ R1 R2 Hg) | exact (raster_single_wf _ _ _ _ _ _ _ _ R1 R2 Hg)].
  - apply bind_ok in H. destruct H as (g0 & Hg & H). injection H as <-.
    assert (K : kept_wf g0); [|destruct g0; [exact I | contradiction | contradiction | exact K]].
    destruct R as (R1 & R2). unfold raster_graphics in Hg. exact (raster_single_wf _ _ _ _ _ _ _ _ R1 R2 Hg).
  - destruct (ss_subcommand s) as [sc|]; [|discriminate]. exact (sub_draw_wf _ _ _ _ C H).
  - exact (sub_draw_wf _ _ _ _ C H).
Qed.

(** *** Commands *)
Lemma process_device_tidy d s s' : tidy s -> device_ok d -> process_device_command d s = Ok s' -> tidy s'.
Proof.
  intros T D H. pose proof (process_device_u _ _ _ H (ci_u _ (td_ctx _ T))) as U'. pose proof (process_device_sinv _ _ _ D (ci_s _ (td_ctx _ T)) H) as S'.
  unfold process_device_command in H. cbv zeta in H. set (s0 := call (EDevice d) s) in H.
  assert (T0 : tidy s0) by (apply tidy_call; [exact T | exact I]). clearbody s0. clear T s.
  pose proof (td_ctx _ T0) as C.
  assert (X : forall f, on_ctx f s0 = Ok s' -> (forall c, f (rs_ctx s0) = Ok c -> c_code2d c = c_code2d (rs_ctx s0)) -> tidy s').
  { intros f Hf Q. pose proof Hf as Hf'. apply on_ctx_inv in Hf. destruct Hf as (c & Hc & E). subst s'.
    apply tidy_ctx; [exact T0|]. constructor; [exact S' | exact U' | exact (qinv_same _ _ (Q _ Hc) (ci_q _ C))]. }
  destruct d; try (injection H as <-; exact T0); try (refine (X _ H _); intros c Hc;
    first [ injection Hc as <-; reflexivity | exact (moved_code2d _ _ (newline_moved _ _ _ Hc)) | exact (moved_code2d _ _ (feed_moved _ _ _ Hc)) ]).
  - apply bind_ok in H. destruct H as (s1 & H1 & H). injection H as <-. apply tidy_call; [|exact I]. exact (newline_tidy _ _ _ T0 H1).
  - injection H as <-. apply tidy_call; [|exact I]. apply tidy_call; [exact T0 | exact I].
  - apply bind_ok in H. destruct H as (s1 & H1 & H). injection H as <-. apply tidy_call; [|exact I].
    apply on_ctx_inv in H1. destruct H1 as (c & Hc & ->). injection Hc as <-. apply tidy_ctx; [exact T0|].
    constructor; [exact S' | exact U' | same_q (ci_q _ C)].
  - assert (T1 : tidy (call EPageEnd s0)) by (apply tidy_call; [exact T0 | exact I]).
    apply on_ctx_inv in H. destruct H as (c & Hc & E). subst s'. injection Hc as <-. apply tidy_ctx; [exact T1|].
    constructor; [exact S' | exact U' | same_q (ci_q _ C)].
  - assert (T1 : tidy (call ERenderPage s0)) by (apply tidy_call; [exact T0 | exact I]).
    apply on_ctx_inv in H. destruct H as (c & Hc & E). subst s'. apply tidy_ctx; [exact T1|].
    constructor; [exact S' | exact U' |]. apply bind_ok in Hc. destruct Hc as (y & _ & Hc). injection Hc as <-. same_q (ci_q _ C).
  - unfold page_geometry in H. apply bind_ok in H. destruct H as ([[[rot w] h] p] & Ha & H). injection H as <-.
    destruct (apply_logical_u _ _ _ _ _ (ui_page _ (ci_u _ C)) (ui_logical _ (ci_u _ C)) Ha) as (_ & _ & _ & Vw & Vh).
    apply tidy_call; [|exact (conj Vw Vh)]. apply tidy_ctx; [exact T0|].
    constructor; [exact S' | exact U' | same_q (ci_q _ C)].
  - apply bind_ok in H. destruct H as (s1 & H1 & H). apply on_ctx_inv in H1. destruct H1 as (c1 & Hc1 & ->). injection Hc1 as <-.
    unfold page_geometry in H. apply bind_ok in H. destruct H as ([[[rot w] h] p] & Ha & H). injection H as <-.
    assert (U1 : uinv (upd_page (fun q => set_p_previous_direction (p_direction q) q) (rs_ctx s0)))
      by (apply uinv_page; [exact (ci_u _ C) | intros q; auto]).
    destruct (apply_logical_u _ _ _ _ _ (ui_page _ U1) (ui_logical _ U1) Ha) as (_ & _ & _ & Vw & Vh).
    apply tidy_call; [|exact (conj Vw Vh)]. apply tidy_ctx; [apply tidy_ctx; [exact T0|]|].
    + constructor; [apply sinv_page; exact (ci_s _ C) | exact U1 | same_q (ci_q _ C)].
    + constructor; [exact S' | exact U' | same_q (ci_q _ C)].
  - refine (X _ H _). intros c Hc. injection Hc as <-. unfold set_tab_len. destruct (_ <? _); reflexivity.
Qed.
Lemma process_devices_tidy l s s' : tidy s -> Forall device_ok l -> process_device_commands l s = Ok s' -> tidy s'.
Proof.
  intros T F H. unfold process_device_commands in H. refine (fold_res_ind _ tidy _ _ _ T _ H).
  intros x y y' Hin Ty E. exact (process_device_tidy _ _ _ Ty (proj1 (Forall_forall _ _) F _ Hin) E).
Qed.
Lemma context_tidy e c s s' : sent c -> tidy s -> on_ctx (apply_context e c) s = Ok s' -> tidy s'.
Proof.
  intros Sc T H. refine (tidy_on_ctx _ _ _ T _ H). intros x Hx. destruct (td_ctx _ T) as [S U Q].
  constructor; [exact (apply_context_sinv _ _ _ _ Sc S Hx) | exact (apply_context_u _ _ _ _ Sc S U Hx) | exact (apply_context_q _ _ _ _ Sc S Q Hx)].
Qed.
Lemma get_text_wf c x : sinv x -> match get_text c x with Some t => span_wf t | None => True end.
Proof.
  intros S. unfold get_text, plain_text.
  repeat match goal with |- match (match ?z with _ => _ end) with _ => _ end => destruct z end; try exact I; exact (span_new_wf _ _ S).
Qed.
Lemma process_command_tidy e c s s' : sent c -> tidy s -> process_command e c s = Ok s' -> tidy s'.
Proof.
  intros Sc T H. unfold process_command in H. destruct (c_kind c).
  - apply bind_ok in H. destruct H as (d & Hd & H). apply bind_ok in H. destruct H as (s1 & H1 & H).
    exact (process_devices_tidy _ _ _ (process_text_tidy _ _ T H1) (device_ok_sent _ _ _ Sc (ci_s _ (td_ctx _ T)) Hd) H).
  - injection H as <-. pose proof (get_text_wf c _ (ci_s _ (td_ctx _ T))) as W. destruct (get_text c (rs_ctx s)); [apply tidy_collect; assumption | exact T].
  - apply bind_ok in H. destruct H as (s1 & H1 & H). apply bind_ok in H. destruct H as (d & Hd & H).
    pose proof (context_tidy _ _ _ _ Sc T H1) as T1. exact (process_devices_tidy _ _ _ T1 (device_ok_sent _ _ _ Sc (ci_s _ (td_ctx _ T1)) Hd) H).
  - apply bind_ok in H. destruct H as (s1 & H1 & H). apply bind_ok in H. destruct H as (g & Hg & H).
    apply bind_ok in H. destruct H as (s2 & H2 & H). apply bind_ok in H. destruct H as (d & Hd & H).
    pose proof (process_text_tidy _ _ T H1) as T1.
    assert (T2 : tidy s2).
    { destruct g as [g|]; [|injection H2 as <-; exact T1]. exact (process_gfx_tidy _ _ _ T1 (get_draw_wf _ _ _ _ Sc (td_ctx _ T1) Hg) H2). }
    exact (process_devices_tidy _ _ _ T2 (device_ok_sent _ _ _ Sc (ci_s _ (td_ctx _ T2)) Hd) H).
  - apply bind_ok in H. destruct H as (s1 & H1 & H). exact (context_tidy _ _ _ _ Sc (process_text_tidy _ _ T H1) H).
  - apply bind_ok in H. destruct H as (s1 & H1 & H). apply bind_ok in H. destruct H as (s2 & H2 & H). apply bind_ok in H. destruct H as (d & Hd & H).
    pose proof (context_tidy _ _ _ _ Sc (process_text_tidy _ _ T H1) H2) as T2.
    exact (process_devices_tidy _ _ _ T2 (device_ok_sent _ _ _ Sc (ci_s _ (td_ctx _ T2)) Hd) H).
  - injection H as <-. exact T.
  - apply bind_ok in H. destruct H as (s1 & H1 & H). injection H as <-. destruct (process_text_tidy _ _ T H1) as [A B C]. constructor; assumption.
Qed.
Lemma history_tidy e s : history e s -> tidy s.
Proof.
  intros (l & F & H). unfold run_commands in H. refine (fold_res_ind _ tidy _ _ _ tidy_new _ H).
  intros c y y' Hin T E. exact (process_command_tidy _ _ _ _ (proj1 (Forall_forall _ _) F _ Hin) T E).
Qed.
