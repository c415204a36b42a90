(** * ContextTheory: frame lemmas for the cursor operations of Context.v. *)
From Verif Require Import Base Vec Float32 GTypes Decoder Context Text.
Local Open Scope Z_scope.

Global Strategy 1000 [get_codepage].
Local Arguments get_codepage : simpl never.

Definition origin_area (a : area) : area := set_a_y 0 (set_a_x 0 a).
(** The context with the cursor (x, y of the standard-mode and of the page-mode render area) put
    at 0: equality of [no_cursor] means "nothing but the cursor differs". *)
Definition no_cursor (c : context) : context :=
  upd_page (upd_pra origin_area) (upd_gra origin_area c).
Definition moved (c c' : context) : Prop := no_cursor c' = no_cursor c.

Lemma moved_refl c : moved c c.
Proof. reflexivity. Qed.
Lemma moved_trans a b c : moved a b -> moved b c -> moved a c.
Proof. unfold moved; congruence. Qed.

Lemma bind_ok {A B} (x : res A) (f : A -> res B) b :
  bind x f = Ok b -> exists a, x = Ok a /\ f a = Ok b.
Proof. destruct x; cbn; [eauto | discriminate]. Qed.

Ltac inv_bind H :=
  let a := fresh "a" in let Ha := fresh "Ha" in
  apply bind_ok in H; destruct H as (a & Ha & H).

Ltac ctx_cases c := destruct c as [? [? ? ? [[? ? ? ?] ? ? ? ? ? ? ? ?] [? ? [? ? ? ?] ? ? ?]]].

Lemma moved_gra c x y : moved c (upd_gra (fun a => set_a_x x (set_a_y y a)) c).
Proof. ctx_cases c; reflexivity. Qed.
Lemma moved_gra_x c x : moved c (upd_gra (set_a_x x) c).
Proof. ctx_cases c; reflexivity. Qed.
Lemma moved_gra_y c x : moved c (upd_gra (set_a_y x) c).
Proof. ctx_cases c; reflexivity. Qed.
Lemma moved_pra_x c x : moved c (upd_page (upd_pra (set_a_x x)) c).
Proof. ctx_cases c; reflexivity. Qed.
Lemma moved_pra_y c x : moved c (upd_page (upd_pra (set_a_y x)) c).
Proof. ctx_cases c; reflexivity. Qed.
Lemma moved_reset_x c : moved c (reset_x c).
Proof. unfold reset_x. destruct (p_enabled (c_page c)); [apply moved_pra_x | apply moved_gra_x]. Qed.
Lemma moved_reset_y c : moved c (reset_y c).
Proof. unfold reset_y. destruct (p_enabled (c_page c)); [apply moved_pra_y | apply moved_gra_y]. Qed.

(** page-mode operations that only move the page cursor *)
Definition page_moves (f : page_ctx -> res page_ctx) : Prop :=
  forall p p', f p = Ok p' -> exists v, p' = upd_pra (set_a_x v) p \/ p' = upd_pra (set_a_y v) p.
Lemma in_page_moved f c c' : page_moves f -> in_page f c = Ok c' -> moved c c'.
Proof.
  intros F H. unfold in_page in H. inv_bind H. injection H as <-.
  destruct (F _ _ Ha) as (v & [-> | ->]).
  - apply (moved_pra_x c v).
  - apply (moved_pra_y c v).
Qed.
Lemma pm_offset_x_moves x : page_moves (pm_offset_x x).
Proof. intros p p' H. unfold pm_offset_x in H. inv_bind H. injection H as <-. eauto. Qed.
Lemma pm_offset_y_moves x : page_moves (pm_offset_y x).
Proof. intros p p' H. unfold pm_offset_y in H. inv_bind H. injection H as <-. eauto. Qed.
Lemma pm_set_x_moves x : page_moves (pm_set_x x).
Proof. intros p p' H. unfold pm_set_x in H. inv_bind H. injection H as <-. eauto. Qed.
Lemma pm_set_y_moves x : page_moves (pm_set_y x).
Proof. intros p p' H. unfold pm_set_y in H. inv_bind H. injection H as <-. eauto. Qed.
Lemma pm_offset_x_relative_moves x : page_moves (pm_offset_x_relative x).
Proof. intros p p' H. unfold pm_offset_x_relative in H. inv_bind H. injection H as <-. eauto. Qed.
Lemma pm_offset_y_relative_moves x : page_moves (pm_offset_y_relative x).
Proof. intros p p' H. unfold pm_offset_y_relative in H. inv_bind H. injection H as <-. eauto. Qed.
Lemma pm_set_x_absolute_moves x : page_moves (pm_set_x_absolute x).
Proof.
  intros p p' H. unfold pm_set_x_absolute in H.
  destruct (p_direction p); try inv_bind H; injection H as <-; eauto.
Qed.
Lemma pm_set_y_absolute_moves x : page_moves (pm_set_y_absolute x).
Proof.
  intros p p' H. unfold pm_set_y_absolute in H.
  destruct (p_direction p); try inv_bind H; injection H as <-; eauto.
Qed.

Lemma offset_x_moved x c c' : offset_x x c = Ok c' -> moved c c'.
Proof.
  intros H. unfold offset_x in H. destruct (p_enabled (c_page c)).
  - exact (in_page_moved _ _ _ (pm_offset_x_moves x) H).
  - inv_bind H. injection H as <-. apply moved_gra_x.
Qed.
Lemma offset_y_moved x c c' : offset_y x c = Ok c' -> moved c c'.
Proof.
  intros H. unfold offset_y in H. destruct (p_enabled (c_page c)).
  - exact (in_page_moved _ _ _ (pm_offset_y_moves x) H).
  - inv_bind H. injection H as <-. apply moved_gra_y.
Qed.
Lemma set_x_moved x c c' : set_x x c = Ok c' -> moved c c'.
Proof.
  intros H. unfold set_x in H. destruct (p_enabled (c_page c)).
  - exact (in_page_moved _ _ _ (pm_set_x_moves x) H).
  - injection H as <-. apply moved_gra_x.
Qed.
Lemma set_y_moved x c c' : set_y x c = Ok c' -> moved c c'.
Proof.
  intros H. unfold set_y in H. destruct (p_enabled (c_page c)).
  - exact (in_page_moved _ _ _ (pm_set_y_moves x) H).
  - injection H as <-. apply moved_gra_y.
Qed.
Lemma offset_x_relative_moved x c c' : offset_x_relative x c = Ok c' -> moved c c'.
Proof.
  intros H. unfold offset_x_relative in H. inv_bind H. destruct (p_enabled (c_page c)).
  - exact (in_page_moved _ _ _ (pm_offset_x_relative_moves _) H).
  - inv_bind H. injection H as <-. apply moved_gra_x.
Qed.
Lemma offset_y_relative_moved x c c' : offset_y_relative x c = Ok c' -> moved c c'.
Proof.
  intros H. unfold offset_y_relative in H. inv_bind H. destruct (p_enabled (c_page c)).
  - exact (in_page_moved _ _ _ (pm_offset_y_relative_moves _) H).
  - inv_bind H. injection H as <-. apply moved_gra_y.
Qed.
Lemma set_x_absolute_moved x c c' : set_x_absolute x c = Ok c' -> moved c c'.
Proof.
  intros H. unfold set_x_absolute in H. inv_bind H. destruct (p_enabled (c_page c)).
  - exact (in_page_moved _ _ _ (pm_set_x_absolute_moves _) H).
  - injection H as <-. apply moved_gra_x.
Qed.
Lemma set_y_absolute_moved x c c' : set_y_absolute x c = Ok c' -> moved c c'.
Proof.
  intros H. unfold set_y_absolute in H. inv_bind H. destruct (p_enabled (c_page c)).
  - exact (in_page_moved _ _ _ (pm_set_y_absolute_moves _) H).
  - injection H as <-. apply moved_gra_y.
Qed.
Lemma newline_moved n c c' : newline n c = Ok c' -> moved c c'.
Proof.
  intros H. unfold newline in H. inv_bind H.
  exact (moved_trans _ _ _ (moved_reset_x c) (offset_y_moved _ _ _ H)).
Qed.
Lemma newline_for_spans_moved l c c' : newline_for_spans l c = Ok c' -> moved c c'.
Proof.
  intros H. unfold newline_for_spans in H.
  exact (moved_trans _ _ _ (moved_reset_x c) (offset_y_moved _ _ _ H)).
Qed.
Lemma feed_moved n c c' : feed n c = Ok c' -> moved c c'.
Proof.
  intros H. unfold feed in H. inv_bind H. injection H as <-.
  exact (moved_trans _ _ _ (offset_y_moved _ _ _ Ha) (moved_reset_x _)).
Qed.

(** ** What a cursor movement keeps *)
Lemma moved_default c c' : moved c c' -> ctx_default c' = ctx_default c.
Proof. intros H. exact (f_equal ctx_default H). Qed.
Lemma moved_text c c' : moved c c' -> c_text c' = c_text c.
Proof. intros H. exact (f_equal c_text H). Qed.
Lemma moved_barcode c c' : moved c c' -> c_barcode c' = c_barcode c.
Proof. intros H. exact (f_equal c_barcode H). Qed.
Lemma moved_code2d c c' : moved c c' -> c_code2d c' = c_code2d c.
Proof. intros H. exact (f_equal c_code2d H). Qed.
Lemma moved_enabled c c' : moved c c' -> p_enabled (c_page c') = p_enabled (c_page c).
Proof. intros H. exact (f_equal (fun c => p_enabled (c_page c)) H). Qed.
Lemma moved_page_area c c' : moved c c' -> p_page_area (c_page c') = p_page_area (c_page c).
Proof. intros H. exact (f_equal (fun c => p_page_area (c_page c)) H). Qed.
Lemma moved_logical c c' : moved c c' -> p_logical_area (c_page c') = p_logical_area (c_page c).
Proof. intros H. exact (f_equal (fun c => p_logical_area (c_page c)) H). Qed.
Lemma moved_direction c c' : moved c c' -> p_direction (c_page c') = p_direction (c_page c).
Proof. intros H. exact (f_equal (fun c => p_direction (c_page c)) H). Qed.
Lemma moved_prev c c' : moved c c' -> p_previous_direction (c_page c') = p_previous_direction (c_page c).
Proof. intros H. exact (f_equal (fun c => p_previous_direction (c_page c)) H). Qed.
Lemma moved_render_w c c' : moved c c' -> a_w (g_render_area (c_graphics c')) = a_w (g_render_area (c_graphics c)).
Proof. intros H. exact (f_equal (fun c => a_w (g_render_area (c_graphics c))) H). Qed.
Lemma moved_prender_w c c' : moved c c' -> a_w (p_render_area (c_page c')) = a_w (p_render_area (c_page c)).
Proof. intros H. exact (f_equal (fun c => a_w (p_render_area (c_page c))) H). Qed.
Lemma moved_prender_h c c' : moved c c' -> a_h (p_render_area (c_page c')) = a_h (p_render_area (c_page c)).
Proof. intros H. exact (f_equal (fun c => a_h (p_render_area (c_page c))) H). Qed.
Lemma moved_colors c c' : moved c c' -> g_render_colors (c_graphics c') = g_render_colors (c_graphics c).
Proof. intros H. exact (f_equal (fun c => g_render_colors (c_graphics c)) H). Qed.
Lemma moved_dpi c c' : moved c c' -> g_dots_per_inch (c_graphics c') = g_dots_per_inch (c_graphics c).
Proof. intros H. exact (f_equal (fun c => g_dots_per_inch (c_graphics c)) H). Qed.
Lemma moved_hmu c c' : moved c c' -> g_h_motion_unit (c_graphics c') = g_h_motion_unit (c_graphics c).
Proof. intros H. exact (f_equal (fun c => g_h_motion_unit (c_graphics c)) H). Qed.
Lemma moved_vmu c c' : moved c c' -> g_v_motion_unit (c_graphics c') = g_v_motion_unit (c_graphics c).
Proof. intros H. exact (f_equal (fun c => g_v_motion_unit (c_graphics c)) H). Qed.
Lemma moved_stored c c' : moved c c' -> g_stored_graphics (c_graphics c') = g_stored_graphics (c_graphics c).
Proof. intros H. exact (f_equal (fun c => g_stored_graphics (c_graphics c)) H). Qed.
Lemma moved_buffer c c' : moved c c' -> g_buffer_graphics (c_graphics c') = g_buffer_graphics (c_graphics c).
Proof. intros H. exact (f_equal (fun c => g_buffer_graphics (c_graphics c)) H). Qed.
Lemma moved_paper c c' : moved c c' -> g_paper_area (c_graphics c') = g_paper_area (c_graphics c).
Proof. intros H. exact (f_equal (fun c => g_paper_area (c_graphics c)) H). Qed.
Lemma moved_width c c' : moved c c' -> get_width c' = get_width c.
Proof.
  intros H. unfold get_width. rewrite (moved_enabled _ _ H), (moved_render_w _ _ H), (moved_prender_w _ _ H).
  reflexivity.
Qed.
