(** * PropsTitles: C61, the text of a whole job, with the texts of its barcodes. *)
From Verif Require Import Base Command CommandSet Parser Vec GTypes Graphics Utf8 Decoder Context Text Upce SpecUpc PropsUpce Handlers Renderer ContextTheory RendererTheory
  Origin Told SpecPrinter StateTheory PropsContext PropsText PropsOutput LayoutTheory AreaTheory PropsLayout SpecMemory MemoryTheory SpecRender SpecManual PropsQr ManualTheory PropsManual
  SafeTheory PropsThermal SpecSymbol PropsPicture SpecBarcode PlaceTheory PenTheory PropsBarcode SpecTitles.
Local Open Scope Z_scope.
Local Open Scope list_scope.
Local Arguments at_ : simpl never.
Local Arguments vlen : simpl never.

Lemma takes_test k n : takesb k n = true <-> takes k n.
Proof. destruct k; cbn [takesb takes existsb In]; lia. Qed.
(** [barcode_text] is the text of SpecBarcode. *)
Lemma barcode_has_text e m raw t : (forall d, symbology_of m = Some CODE_128 -> from_utf8 raw = Some d -> no_double_brace d) ->
  barcode_text e m raw = Some t <-> exists modules, barcode e m raw modules t.
Proof.
  intros Nb. unfold barcode_text, barcode. split.
  - intros H. destruct (symbology_of m) as [k|] eqn:Sk; [|discriminate]. destruct (from_utf8 raw) as [d|] eqn:U; [|discriminate].
    destruct (takesb k (vlen raw)) eqn:T; [|discriminate]. destruct (modules_of e k raw d) as [mo|] eqn:Mo; [|discriminate]. injection H as <-.
    exists mo, k, d. apply takes_test in T. repeat split; try assumption. intros ->. exact (Nb d eq_refl eq_refl).
  - intros (mo & k & d & Sk & T & U & _ & Mo & ->). rewrite Sk, U. apply takes_test in T. rewrite T, Mo. reflexivity.
Qed.
(** Whether an encoder is reached does not depend on the settings. *)
Lemma barcode_anywhere e st raw x y g : barcode_graphics e st raw x = Ok g -> exists g', barcode_graphics e st raw y = Ok g'.
Proof.
  unfold barcode_graphics. cbv zeta. destruct (negb _); [eauto|]. destruct (bc_kind st); try (intros _; eauto; fail).
  - destruct (upce_new raw) as [[]|]; cbn [bind]; try (intros _; eauto; fail); try discriminate. destruct (upce_encode _); cbn [bind]; [intros _; eauto | discriminate].
  - destruct (_ && _); [discriminate|]. destruct (from_utf8 (firstn 12 raw)); [intros _; eauto | discriminate].
Qed.
Lemma told_bytes c : sent c -> c_commands c = [29; 107] ->
  (c_handler c = HBarcode barcode_init /\ c_data c = []) \/
  exists m n r d, c_handler c = HBarcode (barcode_told m n) /\ is_byte m = true /\ get_command_bytes c = ([29; 107; m] ++ r, d) /\ (r = [] \/ exists b, r = [b]).
Proof.
  intros S C. destruct (entry_handler [29; 107] (HBarcode barcode_init) eq_refl ltac:(cbn; lia) c S C) as (H & (_ & _ & T)).
  destruct (c_handler c) as [| | |s| | | |] eqn:Hh; try contradiction. destruct T as [(-> & L)|(m & n & -> & B)]; [left; auto|].
  right. unfold get_command_bytes. rewrite Hh, C. cbn [barcode_told bc_raw_params app]. destruct n as [n|]; [exists m, (Some n), [n] | exists m, None, []]; eexists; repeat split; eauto.
Qed.
Lemma title_style t x : sinv x -> style_of (span_new_for_barcode t x) = set_s_font (m_bar_font (panel_of x)) (styled (panel_of x)).
Proof. intros S. rewrite <- (style_panel x t S). unfold span_new_for_barcode. reflexivity. Qed.
Lemma typed_other e c x m : sinv x -> m = panel_of x -> c_commands c <> [29; 107] -> typed e c x = manuscript m [c].
Proof. intros S E N. cbn [manuscript]. rewrite app_nil_r. apply typed_panel; [exact S | exact E | contradiction]. Qed.
Lemma typed_title e c s s' : history e s -> sent c -> c_commands c = [29; 107] -> single_braces c -> process_command e c s = Ok s' ->
  typed e c (rs_ctx s) = title e (panel_of (rs_ctx s)) c.
Proof.
  intros Hy Sc C Nb H. pose proof (history_sinv _ _ Hy) as S. unfold title. destruct (list_eq_dec Z.eq_dec (c_commands c) [29; 107]) as [_|N]; [|contradiction].
  destruct (told_bytes c Sc C) as [(Hh & D)|(m & n & r & d & Hh & B & G & _)].
  - unfold get_command_bytes. rewrite Hh, C. cbn [barcode_init bc_raw_params app fst nth_error].
    unfold typed. rewrite C. destruct (barcode_entry c barcode_init Sc Hh) as (-> & _). unfold get_graphics. rewrite Hh, D. reflexivity.
  - destruct (barcode_reads e c (rs_ctx s) _ _ _ Sc C G) as (K & _ & Dv & _).
    assert (Gr : forall y, get_graphics e c y = (do g <- barcode_graphics e (barcode_told m n) (c_data c) y; Ok (Some g))) by (intros y; unfold get_graphics; rewrite Hh; reflexivity).
    rewrite G. cbn [app fst nth_error]. unfold typed. rewrite K, C, Gr.
    assert (OK : exists g, barcode_graphics e (barcode_told m n) (c_data c) (rs_ctx s) = Ok g).
    { unfold process_command in H. rewrite K in H. apply bind_ok in H. destruct H as (s1 & _ & H). rewrite Gr in H. apply bind_ok in H. destruct H as (g & Hg & _). apply bind_ok in Hg. destruct Hg as (g1 & Hg & _). exact (barcode_anywhere _ _ _ _ _ _ Hg). }
    destruct OK as (g & Hg). rewrite Hg. cbn [bind]. destruct (barcode_text e m (c_data c)) as [t|] eqn:BT.
    + apply barcode_has_text in BT; [|intros d0 Sk U; exact (Nb _ _ _ _ G Sk U)]. destruct BT as (mo & Bc). rewrite (barcode_gives _ _ _ _ _ _ _ _ B Bc Hg). cbn [finish_barcode b_text].
      change (m_bar_text (panel_of (rs_ctx s))) with (bc_human_readable (c_barcode (rs_ctx s))). unfold span_ink, inked. rewrite (title_style t _ S). reflexivity.
    + assert (R : exists msg, g = GError msg).
      { apply (barcode_refuses _ _ _ _ _ _ B) with (2 := Hg). intros k t Sk U T. unfold barcode_text in BT. rewrite Sk, U in BT. apply takes_test in T. rewrite T in BT. destruct (modules_of _ _ _ _); [discriminate | reflexivity]. }
      destruct R as (msg & ->). reflexivity.
Qed.
Lemma title_other e m c : c_commands c <> [29; 107] -> title e m c = [].
Proof. intros N. unfold title. destruct (list_eq_dec Z.eq_dec (c_commands c) [29; 107]); [contradiction | reflexivity]. Qed.
Lemma bar_types_nothing m c : sent c -> c_commands c = [29; 107] -> manuscript m [c] = [].
Proof.
  intros Sc C. cbn [manuscript]. rewrite C. assert (K : c_kind c = KGraphics) by (destruct (told_bytes c Sc C) as [(Hh & _)|(m0 & n & r & d & Hh & _)]; exact (proj1 (barcode_entry _ _ Sc Hh))).
  rewrite K. reflexivity.
Qed.
Lemma run_whole e l : forall s s', history e s -> Forall sent l -> Forall single_braces l -> run_commands e l s = Ok s' ->
  drawn (rs_calls s') ++ pending s' = (drawn (rs_calls s) ++ pending s) ++ whole_text e (panel_of (rs_ctx s)) l.
Proof.
  unfold run_commands. induction l as [|c l IH]; intros s s' Hh F U H; cbn [fold_res whole_text] in *.
  - injection H as <-. rewrite app_nil_r. reflexivity.
  - apply bind_ok in H. destruct H as (s1 & H1 & H). apply Forall_cons_iff in F, U. destruct F as (Sc & F), U as (U1 & U).
    assert (T : typed e c (rs_ctx s) = manuscript (panel_of (rs_ctx s)) [c] ++ title e (panel_of (rs_ctx s)) c).
    { destruct (list_eq_dec Z.eq_dec (c_commands c) [29; 107]) as [E|N].
      - rewrite (bar_types_nothing _ _ Sc E). exact (typed_title _ _ _ _ Hh Sc E U1 H1).
      - rewrite (title_other _ _ _ N), app_nil_r. exact (typed_other e c _ _ (history_sinv _ _ Hh) eq_refl N). }
    pose proof (command_obeyed _ _ _ _ Hh Sc H1) as O. rewrite (IH s1 s' (history_step _ _ _ _ Hh Sc H1) F U H), (C32_each_command _ _ _ _ Hh Sc H1), O, T.
    generalize (manuscript (panel_of (rs_ctx s)) [c]). intros mm. rewrite <- !app_assoc. reflexivity.
Qed.
(** *** C61: everything printed or waiting to be printed is, in order, the text of the stream and of its barcodes. *)
Theorem C61_whole_text : forall e l s, Forall sent l -> Forall single_braces l -> run_commands e l renderer_new = Ok s ->
  drawn (rs_calls s) ++ pending s = whole_text e factory l.
Proof. intros e l s F U R. rewrite <- panel_new. exact (run_whole e l renderer_new s (history_new e) F U R). Qed.
Theorem C61_whole_job : forall e bs cmds s, bytes_ok bs = true -> parse_esc_pos bs = Ok cmds -> Forall single_braces cmds ->
  render e bs renderer_new = Ok s -> drawn (rs_calls s) = whole_text e factory cmds.
Proof.
  intros e bs cmds s B P U R. destruct (C31_framed e bs renderer_new s B eq_refl R) as (Sp & _).
  unfold render in R. rewrite P in R. cbn [bind] in R.
  assert (F : Forall sent cmds) by (apply Forall_forall; intros c Hc; exists bs, cmds; auto).
  rewrite <- (C61_whole_text e cmds s F U R). unfold pending. rewrite Sp. cbn [flat_map]. rewrite app_nil_r. reflexivity.
Qed.

(** GS H 3, GS f 1, ESC E 1, GS k 4 (CODE 39) "A*1", a NUL, C, LF: the barcode's text above and below it. *)
Definition title_job : list Z := [29; 72; 3; 29; 102; 1; 27; 69; 1; 29; 107; 4; 65; 42; 49; 0; 67; 10].
Definition title_encoders : encoders :=
  mk_encoders (fun _ => None) (fun _ => None) (fun l => if list_eq_dec Z.eq_dec l [65; 49] then Some [1; 0; 1] else None) (fun _ => None) (fun _ => None) (fun _ => None) (fun _ => None) (fun _ => None) (fun _ _ _ _ => None).
Lemma code128_is k : symbology_of k = Some CODE_128 -> k = 73.
Proof.
  unfold symbology_of. intros H. destruct ((0 <=? k) && (k <=? 6)) eqn:A.
  - exfalso. assert (M : In k [0; 1; 2; 3; 4; 5; 6]) by (cbn [In]; lia). clear A. cbn [In] in M. destruct M as [<-|[<-|[<-|[<-|[<-|[<-|[<-|[]]]]]]]]; discriminate H.
  - destruct ((65 <=? k) && (k <=? 73)) eqn:A2; [|discriminate]. assert (M : In k [65; 66; 67; 68; 69; 70; 71; 72; 73]) by (cbn [In]; lia). clear A A2. cbn [In] in M.
    destruct M as [<-|[<-|[<-|[<-|[<-|[<-|[<-|[<-|[<-|[]]]]]]]]]]; try discriminate H. reflexivity.
Qed.
Definition no_code128 (c : command) : bool := negb (nth 2 (fst (get_command_bytes c)) 0 =? 73).
Lemma single_without l : forallb no_code128 l = true -> Forall single_braces l.
Proof.
  intros H. apply Forall_forall. intros c Hc k r d t G Sk _. exfalso. rewrite forallb_forall in H. specialize (H _ Hc). unfold no_code128 in H. rewrite G in H. cbn [app fst nth] in H. rewrite (code128_is _ Sk) in H. discriminate H.
Qed.
Definition title_look (i : ink) : Z * bool * font := (snd i, s_bold (fst i), s_font (fst i)).
Definition view_title (bs : list Z) : res (bool * list (Z * bool * font)) :=
  do c <- parse_esc_pos bs; do s <- render title_encoders bs renderer_new; Ok (forallb no_code128 c, map title_look (drawn (rs_calls s))).
Lemma title_seen bs v : view_title bs = Ok v -> exists cmds s, parse_esc_pos bs = Ok cmds /\ render title_encoders bs renderer_new = Ok s /\ v = (forallb no_code128 cmds, map title_look (drawn (rs_calls s))).
Proof. unfold view_title. intros H. apply bind_ok in H. destruct H as (c & P & H). apply bind_ok in H. destruct H as (s & R & H). exists c, s. split; [exact P|]. split; [exact R|]. congruence. Qed.
Example C61_titles_demo : exists cmds s, parse_esc_pos title_job = Ok cmds /\ render title_encoders title_job renderer_new = Ok s /\ Forall single_braces cmds /\
  map title_look (drawn (rs_calls s)) = [(65, true, FontB); (42, true, FontB); (49, true, FontB); (65, true, FontB); (42, true, FontB); (49, true, FontB); (67, true, FontA)] /\
  drawn (rs_calls s) = whole_text title_encoders factory cmds.
Proof.
  assert (V : view_title title_job = Ok (true, [(65, true, FontB); (42, true, FontB); (49, true, FontB); (65, true, FontB); (42, true, FontB); (49, true, FontB); (67, true, FontA)])) by (vm_compute; reflexivity).
  destruct (title_seen _ _ V) as (cmds & s & P & R & E). pose proof (f_equal fst E) as E1. pose proof (f_equal snd E) as E2. cbn [fst snd] in E1, E2. clear V E.
  pose proof (single_without _ (eq_sym E1)) as SB. exists cmds, s. split; [exact P|]. split; [exact R|]. split; [exact SB|]. split; [symmetry; exact E2|].
  exact (C61_whole_job title_encoders title_job cmds s ltac:(vm_compute; reflexivity) P SB R).
Qed.
