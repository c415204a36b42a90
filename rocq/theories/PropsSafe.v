(** * PropsSafe: C33 - which jobs print without a crash, and which crash. *)
From Verif Require Import Base Command CommandSet Parser SpecStream PropsParser Utf8 Vec GTypes Graphics SpecGraphics Context Text Handlers Renderer
  ContextTheory RendererTheory Origin SpecPrinter StateTheory PropsContext PropsOutput AreaTheory PropsLayout PropsThermal SpecSafe
  SafeTheory SafeTheory2 SafeTheory3 SafeTheory4 SafeTheory5.
Local Open Scope Z_scope.
Local Open Scope list_scope.

Lemma parsed_sent bs cmds : bytes_ok bs = true -> parse_esc_pos bs = Ok cmds -> Forall sent cmds.
Proof. intros B P. apply Forall_forall. intros c I. exists bs, cmds. auto. Qed.

(** A job whose commands are all gentle, on a roll that is long enough, prints without a crash. *)
Theorem C33_no_crash : forall e right bs cmds,
  encoders_ok e -> bytes_ok bs = true -> parse_esc_pos bs = Ok cmds -> Forall (gentle right) cmds ->
  60 + paper_for_all cmds <= u32_max ->
  exists s, render e bs renderer_new = Ok s.
Proof.
  intros e right bs cmds E B P G L. unfold render. rewrite P. cbn [bind].
  pose proof (commands_good right e cmds E 0 renderer_new (calm_new right _ L) ltac:(lia) (parsed_sent _ _ B P) G) as O.
  destruct (run_commands e cmds renderer_new) as [s|p]; cbn [okp] in O; [eauto | contradiction].
Qed.

(** Any number of jobs printed one after the other by the same renderer. *)
Theorem C33_no_crash_jobs : forall e right jobs,
  encoders_ok e -> Forall (good_job right) jobs -> 60 + paper_for_jobs jobs <= u32_max ->
  exists s, fold_res (render e) jobs renderer_new = Ok s.
Proof.
  intros e right jobs E G L. pose proof (calm_new right (paper_for_jobs jobs) L) as C. clear L. revert C.
  generalize renderer_new as s. induction jobs as [|bs jobs IH]; intros s C; cbn [fold_res]; [eauto|].
  apply Forall_cons_iff in G. destruct G as ((B & cmds & P & Gc) & G).
  change (paper_for_jobs (bs :: jobs)) with (paper_for_job bs + paper_for_jobs jobs) in C.
  assert (N : 0 <= paper_for_jobs jobs).
  { clear. induction jobs as [|b l IH]; [cbn; lia|]. change (paper_for_jobs (b :: l)) with (paper_for_job b + paper_for_jobs l).
    unfold paper_for_job. destruct (parse_esc_pos b) as [x|]; [pose proof (papers_nonneg x)|]; lia. }
  assert (R : render e bs s = run_commands e cmds s) by (unfold render; rewrite P; reflexivity). rewrite R.
  unfold paper_for_job in C. rewrite P in C.
  replace (paper_for_all cmds + paper_for_jobs jobs) with (paper_for_jobs jobs + paper_for_all cmds) in C by lia.
  pose proof (commands_good right e cmds E _ s C N (parsed_sent _ _ B P) Gc) as O.
  destruct (run_commands e cmds s) as [s1|p]; cbn [okp] in O; [|contradiction]. cbn [bind]. exact (IH G s1 O).
Qed.

(** The roll is long enough for every job of less than five million bytes and 15000 commands. *)
Lemma subseq_len a b : subseq a b -> vlen a <= vlen b.
Proof. unfold vlen. induction 1; cbn [length]; lia. Qed.
Lemma text_bytes c : sent c -> c_kind c = KText -> vlen (c_data c) <= vlen (rebuilt (observe c)).
Proof.
  intros S K. unfold rebuilt, observe. cbn [o_kind o_bytes]. rewrite K.
  assert (E : get_command_bytes c = (c_commands c, c_data c)).
  { destruct (text_entry c S K) as [(_ & H)|[(_ & H)|[(_ & H)|(_ & H)]]]; unfold get_command_bytes; rewrite H; reflexivity. }
  rewrite E. cbn [fst snd]. rewrite vlen_app. pose proof (vlen_nonneg (c_commands c)). lia.
Qed.
Lemma paper_bound l : Forall sent l -> paper_for_all l <= 200000 * vlen l + 255 * vlen (flat_map rebuilt (map observe l)).
Proof.
  induction 1 as [|c l S F IH]; [cbn; lia|]. change (paper_for_all (c :: l)) with (paper_for c + paper_for_all l).
  cbn [map flat_map]. rewrite vlen_app. assert (V : vlen (c :: l) = 1 + vlen l) by (unfold vlen; cbn [length]; lia). rewrite V.
  pose proof (vlen_nonneg (rebuilt (observe c))). unfold paper_for at 1. destruct (c_kind c) eqn:K; try lia.
  pose proof (text_bytes c S K). lia.
Qed.
Theorem C33_receipts_print : forall e right bs cmds,
  encoders_ok e -> bytes_ok bs = true -> parse_esc_pos bs = Ok cmds -> Forall (gentle right) cmds ->
  vlen cmds <= 15000 -> vlen bs <= 5000000 ->
  exists s, render e bs renderer_new = Ok s.
Proof.
  intros e right bs cmds E B P G N M. apply (C33_no_crash e right bs cmds E B P G).
  pose proof (paper_bound cmds (parsed_sent _ _ B P)). pose proof (subseq_len _ _ (C09_nothing_invented _ _ B P)) as L.
  rewrite vlen_app in L. change (vlen [0]) with 1 in L. unfold u32_max. lia.
Qed.

(** The hypotheses hold of a receipt with text, a wide heading, centred, a barcode, a raster image, a
    QR code, feeds and a cut. *)
Definition receipt : list Z :=
  [27; 64; 27; 97; 1; 29; 33; 17; 83; 104; 111; 112; 10; 29; 33; 0; 27; 97; 0; 84; 101; 97; 9; 51; 46; 50; 48; 10;
   29; 107; 69; 3; 65; 66; 67; 29; 118; 48; 0; 1; 0; 2; 0; 170; 85; 29; 40; 107; 4; 0; 49; 80; 48; 65; 29; 40; 107; 3; 0; 49; 81; 48;
   27; 100; 3; 29; 86; 65; 10].
(** [gentle] is decidable. *)
Definition small_imageb (w h sx sy : Z) : bool :=
  (w * Z.max sx 1 * (h * Z.max sy 1) <=? u32_max) && (w * Z.max sx 1 <=? u32_max) && (h * Z.max sy 1 <=? u32_max).
Definition complete_columnsb (w h : Z) (body : list Z) : bool := (0 <? h) && (vlen body =? line_bytes h * w).
Definition gentleb (right : bool) (c : command) : bool :=
  match c_handler c with
  | HPlain P_set_page_mode => false
  | HPlain P_print_and_reverse_feed_lines => arg 0 c 0 =? 0
  | HPlain P_set_motion_units => arg 0 c 0 <=? 180
  | HPlain P_set_justification => right || negb (match justify_of (arg 0 c 0) with JRight => true | _ => false end)
  | HPlain P_set_character_size => negb right || (Z.shiftr (Z.land 112 (arg 0 c 0)) 4 + 1 <=? 2)
  | HRaster s => small_imageb (ra_width s) (ra_height s) (fst (raster_stretch (ra_scaling s))) (snd (raster_stretch (ra_scaling s)))
  | HBitImage s => negb (bi_col_encoded s) || complete_columnsb (bi_width s) (bi_height s) (c_data c)
  | HBarcode s => match bc_kind s with Ean13 => negb (is_cont (get_or 0 (c_data c) 12)) | _ => true end
  | HSubPlain S_define_nv_graphics_column | HSubPlain S_define_download_graphics_column => 8 <=? vlen (c_data c)
  | HSubPlain S_store_buffer_graphics_raster =>
      (vlen (c_data c) <? 4) ||
      ((8 <=? vlen (c_data c)) && small_imageb (parse_u16 (c_data c) 4) (parse_u16 (c_data c) 6) (arg 0 c 1) (arg 0 c 2) &&
       (parse_u16 (c_data c) 6 * Z.max (arg 0 c 2) 1 <=? 131070))
  | HSubPlain S_store_buffer_graphics_column =>
      (vlen (c_data c) <? 4) ||
      ((8 <=? vlen (c_data c)) && small_imageb (parse_u16 (c_data c) 4) (parse_u16 (c_data c) 6) (arg 0 c 1) (arg 0 c 2) &&
       (parse_u16 (c_data c) 6 * Z.max (arg 0 c 2) 1 <=? 131070) &&
       complete_columnsb (parse_u16 (c_data c) 4) (parse_u16 (c_data c) 6) (body (c_data c)))
  | HSubPlain S_pdf417_set_correction_level => (2 <=? vlen (c_data c)) && (48 <=? arg 48 c 0)
  | HSubPlain S_maxi_set_mode => 48 <=? arg 50 c 0
  | HSubPlain S_datamatrix_set_options => negb ((arg 0 c 0 =? 0) || (arg 0 c 0 =? 48)) || (arg 0 c 1 + arg 0 c 2 <=? 255)
  | _ => true
  end.
Lemma small_imageb_ok w h sx sy : small_imageb w h sx sy = true <-> small_image w h sx sy.
Proof. unfold small_imageb, small_image. rewrite !Bool.andb_true_iff, !Z.leb_le. tauto. Qed.
Lemma complete_columnsb_ok w h b : complete_columnsb w h b = true <-> complete_columns w h b.
Proof. unfold complete_columnsb, complete_columns. rewrite Bool.andb_true_iff, Z.ltb_lt, Z.eqb_eq. tauto. Qed.
Lemma implb_ok a b (A B : Prop) : (a = true <-> A) -> (b = true <-> B) -> (negb a || b = true <-> (A -> B)).
Proof. destruct a, b; cbn; intuition discriminate. Qed.
Lemma gentleb_ok right c : gentleb right c = true <-> gentle right c.
Proof.
  unfold gentleb, gentle. destruct (c_handler c) as [id| |cap|s|s|s|s|id]; try tauto.
  - destruct id; try tauto; try apply Z.eqb_eq; try apply Z.leb_le; try (split; [discriminate | contradiction]);
      try (apply implb_ok; [tauto | apply Z.leb_le]).
    destruct right; cbn; [split; intros; [|reflexivity]; discriminate|]. destruct (justify_of _); cbn; intuition congruence.
  - destruct (bc_kind s); try (split; [intros _ X; discriminate | reflexivity]). destruct (is_cont _); cbn; intuition congruence.
  - apply implb_ok; [tauto | apply complete_columnsb_ok].
  - apply small_imageb_ok.
  - destruct id; try tauto; try apply Z.leb_le.
    all: rewrite ?Bool.orb_true_iff, ?Bool.andb_true_iff, ?Z.ltb_lt, ?Z.leb_le, ?small_imageb_ok, ?complete_columnsb_ok, ?Bool.negb_true_iff, ?Bool.orb_false_iff, ?Z.eqb_neq; try tauto.
    all: lia.
Qed.
Example C33_demo : match parse_esc_pos receipt with
  | Ok cmds => forallb (gentleb false) cmds && (vlen cmds =? 19) && (vlen receipt <=? 5000000)
  | Panic _ => false end && bytes_ok receipt = true.
Proof. vm_compute. reflexivity. Qed.
Example C33_demo_encoders : encoders_ok no_encoders1.
Proof. constructor; intros; repeat split; exact I. Qed.

Example C33_demo_prints : forall e, encoders_ok e -> exists s, render e receipt renderer_new = Ok s.
Proof.
  intros e E. pose proof C33_demo as D. apply andb_prop in D. destruct D as (D & B).
  destruct (parse_esc_pos receipt) as [cmds|] eqn:P; [|discriminate]. apply andb_prop in D. destruct D as (D & L).
  apply andb_prop in D. destruct D as (G & N). apply Z.eqb_eq in N. apply Z.leb_le in L.
  apply (C33_receipts_print e false receipt cmds E B P); [|lia | exact L].
  apply Forall_forall. intros c I. apply gentleb_ok. exact (proj1 (forallb_forall _ _) G _ I).
Qed.

(** ** The jobs that do crash *)

Lemma newline_std k c : standard c -> 0 <= t_line_spacing (c_text c) -> 0 <= get_y c -> 0 <= k ->
  (exists p, newline k c = Panic p) <-> u32_max < t_line_spacing (c_text c) * k + get_y c.
Proof.
  intros S L Y K0. assert (E0 : newline k c = newline k (at_xy (get_x c) (get_y c) c)) by (f_equal; exact (at_self c S)). rewrite E0. clear E0.
  unfold newline. cbv zeta. rewrite at_text, at_reset by exact S. unfold mul_u32, chk.
  set (m := t_line_spacing (c_text c) * k) in *. assert (M : 0 <= m) by (unfold m; nia). clearbody m.
  destruct ((0 <=? m) && (m <=? u32_max)) eqn:E; cbn [bind].
  - unfold offset_y. assert (P : p_enabled (c_page (at_xy 0 (get_y c) c)) = false) by (apply (at_std 0 (get_y c) c); exact S). rewrite P.
    assert (A : a_y (g_render_area (c_graphics (at_xy 0 (get_y c) c))) = get_y c).
    { pose proof (at_y 0 (get_y c) c S) as Q. unfold get_y in Q at 1. rewrite P in Q. exact Q. }
    rewrite A. unfold add_u32, chk. destruct ((0 <=? get_y c + m) && (get_y c + m <=? u32_max)) eqn:E2; cbn [bind].
    + split; [intros (p & X); discriminate | lia].
    + split; [lia | eauto].
  - split; [lia | eauto].
Qed.
(** ESC e n (reverse feed) multiplies the line spacing by 2^32 - n: it crashes unless the spacing is
    nought, or one and the printed paper is shorter than n. *)
Theorem C33_reverse_feed : forall e c s n, history e s -> sent c -> c_commands c = [27; 101] -> c_data c = [n] ->
  p_enabled (c_page (rs_ctx s)) = false -> rs_spans s = [] ->
  let spacing := t_line_spacing (c_text (rs_ctx s)) in
  (exists p, process_command e c s = Panic p) <-> 0 < n /\ (2 <= spacing \/ (spacing = 1 /\ n <= get_y (rs_ctx s))).
Proof.
  intros e c s n H Sc C D Std NS spacing.
  pose proof (history_sinv _ _ H) as SI. pose proof (history_uinv _ _ H) as UI.
  known c Sc C cmd_print_and_reverse_feed_lines P_print_and_reverse_feed_lines.
  pose proof (sent_bytes c Sc) as By. rewrite D in By. cbn in By.
  assert (N : 0 <= n <= 255) by (unfold is_byte in By; lia). clear By.
  pose proof (tk_spacing _ (si_text _ SI)) as LS. fold spacing in LS.
  pose proof (ua_y _ (ui_render _ UI)) as UY. unfold u32v in UY.
  assert (GY : get_y (rs_ctx s) = a_y (g_render_area (c_graphics (rs_ctx s)))) by (unfold get_y; rewrite Std; reflexivity). rewrite <- GY in UY.
  assert (E : process_command e c s = do c1 <- newline (i16_as_u32 (0 - n)) (rs_ctx s); Ok (with_ctx c1 (call (EDevice (FeedLine (0 - n))) s))).
  { unfold process_command. rewrite K. unfold get_device_command. rewrite Hd. cbn [device_plain bind]. unfold arg. rewrite D. cbn [get_or nth].
    unfold process_text. rewrite NS. cbn [bind process_device_commands fold_res]. unfold process_device_commands. cbn [fold_res process_device_command].
    unfold on_ctx. cbn [call rs_ctx]. destruct (newline (i16_as_u32 (0 - n)) (rs_ctx s)); reflexivity. }
  rewrite E. clear E.
  assert (I0 : 0 <= i16_as_u32 (0 - n)) by (unfold i16_as_u32; destruct (0 - n <? 0) eqn:?; lia).
  pose proof (newline_std (i16_as_u32 (0 - n)) (rs_ctx s) Std (proj1 LS) (proj1 UY) I0) as R. fold spacing in R.
  assert (T : (exists p, (do c1 <- newline (i16_as_u32 (0 - n)) (rs_ctx s); Ok (with_ctx c1 (call (EDevice (FeedLine (0 - n))) s))) = Panic p)
              <-> (exists p, newline (i16_as_u32 (0 - n)) (rs_ctx s) = Panic p)).
  { destruct (newline (i16_as_u32 (0 - n)) (rs_ctx s)) as [x|p]; cbn [bind]; split; intros (q & X); try discriminate; eauto. }
  rewrite T, R. clear -N LS UY. clearbody spacing. unfold i16_as_u32, u32_max.
  set (y := get_y (rs_ctx s)) in *. clearbody y. destruct (0 - n <? 0) eqn:E; [|split; nia].
  split; intros X; [split; [lia|] | destruct X as (X & [Y|(-> & Y)])]; nia.
Qed.
(** ESC $ divides by the motion unit, which GS P sets to nought for every x above the resolution. *)
Theorem C33_absolute_position : forall e c s, sent c -> c_commands c = [27; 36] ->
  p_enabled (c_page (rs_ctx s)) = false -> rs_spans s = [] ->
  (exists p, process_command e c s = Panic p) <-> g_h_motion_unit (c_graphics (rs_ctx s)) = 0.
Proof.
  intros e c s Sc C Std NS. known c Sc C cmd_set_horizontal_pos P_set_horizontal_pos.
  unfold process_command. rewrite K. unfold process_text. rewrite NS. cbn [bind]. unfold on_ctx, apply_context. rewrite Hd. cbn [apply_plain].
  unfold set_x_absolute, div_u. rewrite Std. destruct (g_h_motion_unit (c_graphics (rs_ctx s)) =? 0) eqn:E; cbn [bind].
  - split; [lia | eauto].
  - split; [intros (p & X); discriminate | lia].
Qed.
Theorem C33_motion_units : forall e c s x y, sent c -> c_commands c = [29; 80] -> c_data c = [x; y] -> history e s -> rs_spans s = [] ->
  exists s', process_command e c s = Ok s' /\ rs_spans s' = [] /\
    (0 < x -> 0 < y -> (g_h_motion_unit (c_graphics (rs_ctx s')) = 0 <-> g_dots_per_inch (c_graphics (rs_ctx s)) < x)).
Proof.
  intros e c s x y Sc C D H NS. known c Sc C cmd_set_motion_units P_set_motion_units.
  pose proof (history_sinv _ _ H) as SI. pose proof (ok_dpi _ (proj1 (sinv_settings _) SI)) as DPI.
  pose proof (sent_bytes c Sc) as By. rewrite D in By. cbn in By. unfold is_byte in By.
  assert (N : 0 <= x <= 255 /\ 0 <= y <= 255) by lia. clear By.
  unfold process_command. rewrite K. unfold process_text. rewrite NS. cbn [bind]. unfold on_ctx, apply_context. rewrite Hd. cbn [apply_plain bind].
  eexists. split; [reflexivity|]. split; [exact NS|]. intros X Y. cbn [with_ctx rs_ctx]. unfold set_motion_units, arg. rewrite D. cbn [get_or nth].
  replace ((x =? 0) || (y =? 0)) with false by lia.
  assert (Q : forall f x, g_h_motion_unit (c_graphics (upd_graphics f x)) = g_h_motion_unit (f (c_graphics x))) by (intros f [d [t b q g p]]; reflexivity).
  rewrite Q. cbn [set_g_v_motion_unit set_g_h_motion_unit g_h_motion_unit].
  assert (DP : let d := g_dots_per_inch (c_graphics (rs_ctx s)) in d = 203 \/ d = 180 \/ d = 360) by (cbv zeta; destruct DPI as [<- |[<- |[<- |[]]]]; auto).
  cbv zeta in DP. set (d := g_dots_per_inch (c_graphics (rs_ctx s))) in *. clearbody d. clear -DP N X Y.
  split; intros Z0.
  - destruct (Z.ltb_spec d x) as [G|G]; [exact G|]. exfalso. assert (x = 1 \/ 2 <= x) as [-> |G2] by lia.
    + destruct DP as [-> |[-> | ->]]; vm_compute in Z0; discriminate.
    + assert (1 <= d / x <= 180) by (split; [apply Z.div_le_lower_bound; lia | apply Z.div_le_upper_bound; nia]).
      rewrite Z.mod_small in Z0 by lia. lia.
  - rewrite Z.div_small by lia. reflexivity.
Qed.

(** Streams that crash: reverse feed; GS P 204 1 then ESC $; a GS v 0 header announcing an image of more
    than 2^32 dots; ESC * cut short; a PDF417 correction level of one byte; MaxiCode mode 0; Data Matrix
    200 by 200; a column graphic without its parameters; a print buffer image without its
    dimensions; EAN-13 cut in the middle of a character; text too wide for right justification. *)
Definition crashes : list (list Z) :=
  [[27; 101; 1];
   [29; 80; 204; 1; 27; 36; 10; 0];
   [29; 118; 48; 0; 255; 255; 255; 255; 0];
   [27; 42; 33; 4; 0; 170; 85];
   [29; 40; 107; 3; 0; 48; 69; 48; 10];
   [29; 40; 107; 3; 0; 50; 65; 0; 10];
   [29; 40; 107; 5; 0; 54; 66; 0; 200; 200; 10];
   [29; 40; 76; 3; 0; 48; 68; 1; 10];
   [29; 40; 76; 7; 0; 48; 112; 48; 1; 1; 49; 8; 10];
   [29; 107; 67; 13; 49; 49; 49; 49; 49; 49; 49; 49; 49; 49; 49; 195; 160];
   [27; 97; 2; 29; 33; 112] ++ repeat 65 20 ++ [10]].
Theorem C33_crashes : forall bs, In bs crashes ->
  bytes_ok bs = true /\ exists p, render no_encoders1 bs renderer_new = Panic p.
Proof.
  assert (F : forallb (fun bs => bytes_ok bs && match render no_encoders1 bs renderer_new with Ok _ => false | Panic _ => true end) crashes = true)
    by (vm_compute; reflexivity).
  intros bs I. pose proof (proj1 (forallb_forall _ _) F _ I) as E. apply andb_prop in E. destruct E as (B & E). split; [exact B|].
  destruct (render no_encoders1 bs renderer_new) as [s|p]; [discriminate | eauto].
Qed.
(** ... and the conditions name the culprit each time: without the exceptions of [gentle] the theorem
    would be wrong. *)
Theorem C33_exceptions_needed : forall bs right, In bs crashes ->
  match parse_esc_pos bs with Ok cmds => ~ Forall (gentle right) cmds /\ 60 + paper_for_all cmds <= u32_max | Panic _ => False end.
Proof.
  assert (F : forallb (fun right => forallb (fun bs => match parse_esc_pos bs with
      | Ok cmds => negb (forallb (gentleb right) cmds) && (60 + paper_for_all cmds <=? u32_max) | Panic _ => false end) crashes) [true; false] = true)
    by (vm_compute; reflexivity).
  intros bs right I.
  assert (R : In right [true; false]) by (destruct right; cbn; auto).
  pose proof (proj1 (forallb_forall _ _) (proj1 (forallb_forall _ _) F _ R) _ I) as E. cbv beta in E.
  destruct (parse_esc_pos bs) as [cmds|]; [|discriminate]. apply andb_prop in E. destruct E as (E & L). apply Z.leb_le in L. split; [|exact L].
  intros G. apply Bool.negb_true_iff in E. rewrite (proj2 (forallb_forall (gentleb right) cmds)) in E; [discriminate|].
  intros c Ic. apply gentleb_ok. exact (proj1 (Forall_forall _ _) G c Ic).
Qed.
Example C33_reverse_feed_demo : history no_encoders1 renderer_new /\ p_enabled (c_page (rs_ctx renderer_new)) = false /\ rs_spans renderer_new = [] /\
  2 <= t_line_spacing (c_text (rs_ctx renderer_new)).
Proof. split; [exists []; split; [constructor | reflexivity]|]. split; [reflexivity|]. split; [reflexivity|]. vm_compute. discriminate. Qed.

Print Assumptions C33_no_crash.
Print Assumptions C33_no_crash_jobs.
Print Assumptions C33_receipts_print.
Print Assumptions C33_reverse_feed.
Print Assumptions C33_motion_units.
Print Assumptions C33_crashes.
