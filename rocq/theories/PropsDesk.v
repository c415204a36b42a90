(** * PropsDesk: C55, printing in page mode. *)
From Verif Require Import Base Command CommandSet Parser SpecStream Vec Float32 GTypes Graphics Decoder Context Text Handlers Renderer
  ContextTheory RendererTheory Origin SpecPrinter StateTheory PropsParser SpecRender PropsOutput AreaTheory GraphicsTheory2
  ThermalImage SpecCanvas CanvasTheory CanvasRect PropsCanvas ImageRenderer SpecImage CallsTheory ImageTheory PropsSafe PropsImage
  SpecDesk DeskTheory PageTheory.
Local Open Scope Z_scope.
Local Open Scope list_scope.
Local Arguments at_ : simpl never.
Local Arguments vlen : simpl never.

(** ** The picture of a sheet *)
Theorem C55_sheet : forall fo e s im a x0 mid x1 b,
  history e s -> image_calls fo (rs_calls s) image_new = Ok im ->
  rs_calls s = a ++ (x0, EBeginRender) :: mid ++ (x1, EEndRender) :: b ->
  Forall (fun c => no_limit (snd c)) mid ->
  let d := desk_calls fo 609 mid empty_desk in
  exists earlier r later, im_out im = earlier ++ r :: later /\ length earlier = ev_ends a /\
    r_width r = 649 /\
    r_height r = Z.max (dk_low d) (a_y (g_render_area (c_graphics x1))) /\
    forall X Y, 0 <= X < 649 -> 0 <= Y < r_height r ->
      rgb_at r X Y = if (20 <=? X) && (X <? 629) then rgb_of (dk_pic d (X - 20) Y) else (255, 255, 255).
Proof.
  intros fo e s im a x0 mid x1 b Hh E Ec O d. pose proof (td_calls _ (history_tidy _ _ Hh)) as F. rewrite Ec in E, F.
  apply Forall_app in F. destruct F as (Fa & F). apply Forall_cons_iff in F. destruct F as (F0 & F). apply Forall_app in F. destruct F as (Fm & F).
  apply Forall_cons_iff in F. destruct F as (F1 & Fb).
  apply image_calls_app in E. destruct E as (s1 & Ea & E). cbn [image_calls fold_res fst snd image_event] in E. cbn [bind] in E.
  fold (image_calls fo (mid ++ (x1, EEndRender) :: b)) in E.
  destruct (sizes_run fo a _ _ Fa image_new_ok Ea) as (S1 & na & Oa & La & _). cbn [image_new im_out app] in Oa.
  destruct (sheet_begin x0 s1 (proj1 F0) S1) as ([R0 W0 P0 G0] & W0' & B0 & O0).
  apply image_calls_app in E. destruct E as (s2 & Em & E).
  assert (A0 : at_desk 609 (begin_render x0 s1) empty_desk).
  { split; [exact (fresh_strip _ W0' B0 G0 P0)|]. split; [|exact P0]. cbn [empty_desk dk_leaf]. unfold blank_leaf. apply void_leaf; try reflexivity.
    unfold begin_render. cbn [im_page with_page set_cv_auto_grow set_width set_cv_paper_color cv_paper_color].
    pose proof (gk_colors _ (si_graphics _ (ci_s _ (proj1 F0)))) as K. cbn [fst] in K. rewrite K. reflexivity. }
  destruct (desk_run 609 fo mid _ _ _ Fm O Em A0) as ((Sp & _ & Pc) & Om). fold d in Sp.
  cbn [image_calls fold_res fst snd image_event] in E. apply bind_inv in E. destruct E as (s3 & Ee & E). fold (image_calls fo b) in E.
  destruct (strip_end x1 s2 s3 _ _ (proj1 F1) Sp ltac:(exact Pc) Ee) as (r & O3 & Q1 & Q2 & Q3 & Q4 & Q5 & Q6).
  destruct (sheet_end x1 s2 s3 (proj1 F1)) as (r' & c' & _ & _ & _ & _ & Q7 & Q8 & Q9 & _); [|exact Ee|].
  { destruct Sp as (q & [Sh G Fi Bl] & _). constructor; [exact (shows_rect _ _ _ _ Sh) | right; apply Sh | exact Pc | exact G]. }
  assert (S3 : sheet_ok (im_paper s3)) by (rewrite Q7; exact (sheet_off _ Q8 Q9)).
  destruct (sizes_run fo b _ _ Fb S3 E) as (_ & nb & Ob & _ & _).
  exists na, r, nb. split; [refine (out_at _ _ _ _ _ _ Ob); rewrite O3, Om, O0, Oa; reflexivity|].
  split; [exact La|]. split; [exact Q1|]. split; [exact Q2 | exact Q3].
Qed.

(** The one image of a job that can show anything, for every job (page mode or not). *)
Theorem C55_image : forall fo e bs s im calls x rest,
  bytes_ok bs = true -> render e bs renderer_new = Ok s -> render_images fo e bs = Ok im ->
  rs_calls s = calls ++ (x, EEndRender) :: rest -> ev_ends calls = 0%nat ->
  let d := desk_calls fo 609 calls empty_desk in
  exists r later, im_out im = r :: later /\ r_width r = 649 /\
    r_height r = Z.max (dk_low d) (a_y (g_render_area (c_graphics x))) /\
    forall X Y, 0 <= X < 649 -> 0 <= Y < r_height r ->
      rgb_at r X Y = if (20 <=? X) && (X <? 629) then rgb_of (dk_pic d (X - 20) Y) else (255, 255, 255).
Proof.
  intros fo e bs s im calls x rest B Es E Ec O d. unfold render_images in E. rewrite Es in E. cbn [bind] in E.
  destruct (job_shape e bs s B Es) as (x0 & x1 & l & n & Ec' & Nb & Ne).
  destruct calls as [|[y0 e0] [|[y1 e1] mid]]; rewrite Ec in Ec'; cbn [app] in Ec'; [discriminate | injection Ec' as _ _ _ D; discriminate |].
  injection Ec' as -> -> -> -> El.
  assert (O' : Forall (fun c => no_limit (snd c)) mid).
  { rewrite <- El, ev_begins_app in Nb. assert (Nm : ev_begins mid = 0%nat) by lia. apply no_begins in Nm.
    assert (Om : ev_ends mid = 0%nat) by (unfold ev_ends in O |- *; exact O). apply no_ends in Om. clear -Om Nm. rewrite Forall_forall in *.
    intros c I. specialize (Om c I). specialize (Nm c I). destruct c as [y ev]. cbn [snd] in *. destruct ev; cbn; tauto. }
  destruct (C55_sheet fo e s im [(x0, EDevice BeginPrint)] x1 mid x rest (job_history _ _ _ B Es) E Ec O') as (ea & r & la & A1 & A2 & A3 & A4 & A5).
  destruct ea; [|discriminate]. exists r, la. cbn [app] in A1.
  assert (Em : d = desk_calls fo 609 mid empty_desk).
  { unfold d, desk_calls. cbn [fold_left]. f_equal. unfold desk_call, marks. cbn [fst snd fold_left on_leaf].
    destruct (p_enabled (c_page x0)), (p_enabled (c_page x1)); reflexivity. }
  rewrite Em. auto.
Qed.

(** ** Printing a page copies it *)
(** a colour as its type in the program says: four bytes *)
Definition is_rgba8 (p : rgba) : Prop := channels_ok p /\ 0 <= c_a p <= 255.
Definition solid (p : rgba) : Prop := channels_ok p /\ c_a p = 255.
Definition ink_ok (s : stroke) : Prop := match s with Paint _ _ _ _ px => Forall is_rgba8 px | Mirror _ _ _ _ => True end.

Lemma f32_round_pos n d : 0 <= n -> 0 < d -> 0 <= fst (f32_round n d) /\ 0 < snd (f32_round n d).
Proof.
  intros Hn Hd. unfold f32_round. destruct (n =? 0); [cbn; lia|]. cbv zeta. generalize (if (if 0 <=? (Z.log2 n - Z.log2 d) then d * 2 ^ (Z.log2 n - Z.log2 d) <=? n else d <=? n * 2 ^ (- (Z.log2 n - Z.log2 d))) then Z.log2 n - Z.log2 d - 23 else Z.log2 n - Z.log2 d - 24). intros e.
  destruct (0 <=? e) eqn:De; cbn [fst snd].
  - assert (P : 0 < 2 ^ e) by (apply Z.pow_pos_nonneg; lia). assert (Q : 0 < d * 2 ^ e) by nia.
    pose proof (Z.div_pos n (d * 2 ^ e) Hn Q). set (m := n / _) in *. clearbody m. set (r := n mod _). clearbody r.
    split; [|lia]. destruct (2 * r <? _); [nia|]. destruct (_ <? 2 * r); [nia|]. destruct (Z.even m); nia.
  - assert (P : 0 < 2 ^ (- e)) by (apply Z.pow_pos_nonneg; lia).
    pose proof (Z.div_pos (n * 2 ^ (- e)) d ltac:(nia) Hd). set (m := _ / d) in *. clearbody m. set (r := _ mod d). clearbody r.
    split; [|lia]. destruct (2 * r <? _); [lia|]. destruct (_ <? 2 * r); [lia|]. destruct (Z.even m); lia.
Qed.
Definition pos32 (a : f32) : Prop := 0 <= fst a /\ 0 < snd a.
Lemma pos_of x : 0 <= x -> pos32 (f32_of x). Proof. unfold pos32, f32_of. cbn. lia. Qed.
Lemma pos_mul a b : pos32 a -> pos32 b -> pos32 (f32_mul a b).
Proof. intros (A1 & A2) (B1 & B2). apply f32_round_pos; nia. Qed.
Lemma pos_div a b : pos32 a -> pos32 b -> 0 < fst b -> pos32 (f32_div a b).
Proof. intros (A1 & A2) (B1 & B2) P. apply f32_round_pos; nia. Qed.
Lemma round_u8 a : pos32 a -> 0 <= f32_round_u8 a <= 255.
Proof. intros (A & B). unfold f32_round_u8. pose proof (Z.div_pos (2 * fst a + snd a) (2 * snd a) ltac:(lia) ltac:(lia)). lia. Qed.
Lemma multiply_byte s c a : 0 <= s -> 0 <= c -> 0 <= a -> 0 <= multiply_channel s c a <= 255.
Proof.
  intros. unfold multiply_channel. cbv zeta. apply round_u8.
  assert (P : 0 < fst (f32_of 255)) by reflexivity.
  repeat first [apply pos_mul | apply pos_div; [| |exact P] | apply pos_of; lia].
Qed.
Lemma multiply_solid p q : solid p -> is_rgba8 q -> solid (multiply_foreground p q).
Proof.
  intros ((R & G & B) & A) ((R' & G' & B') & A'). unfold multiply_foreground. destruct (c_a q =? 0); [split; [split; [|split]|]; assumption|].
  split; [|exact A]. unfold channels_ok. cbn [c_r c_g c_b]. split; [|split]; apply multiply_byte; lia.
Qed.
Lemma blend_solid p q : solid q -> blend_foreground p q = q.
Proof. intros (C & A). exact (blend_opaque _ _ A C). Qed.
Lemma white_solid : solid paper_white.
Proof. unfold solid, channels_ok. cbn. lia. Qed.
Lemma block_ok px w X Y : Forall is_rgba8 px -> is_rgba8 (block px w X Y).
Proof.
  intros F. unfold block. unfold at_. destruct (nth_in_or_default (Z.to_nat (Y * w + X)) px rgba_blank) as [I|I].
  - rewrite Forall_forall in F. exact (F _ I).
  - rewrite I. unfold is_rgba8, channels_ok. cbn. lia.
Qed.

Definition all_solid (p : picture) : Prop := forall X Y, solid (p X Y).
Lemma lengthen_solid h l : all_solid (lf_pic l) -> all_solid (lf_pic (lengthen h l)).
Proof. intros S. unfold lengthen. destruct (lf_w l =? 0); [exact S|]. intros X Y. cbn [lf_pic]. destruct (Y <? _); [apply S | exact white_solid]. Qed.
Lemma draw_leaf_solid s l : ink_ok s -> all_solid (lf_pic l) -> all_solid (lf_pic (draw_leaf s l)).
Proof.
  intros K S. destruct s as [x y w h px|x y w h]; cbn [draw_leaf].
  - destruct (_ && _); [|exact S]. cbv zeta. intros X Y. cbn [lf_pic]. pose proof (lengthen_solid (y + rows_drawn l x y w h) l S) as S'.
    destruct (covers _ _ _ _ X Y); [|apply S']. apply multiply_solid; [apply S' | apply block_ok; exact K].
  - destruct (_ <=? _); [|exact S]. cbv zeta. intros X Y. cbn [lf_pic]. pose proof (lengthen_solid (y + h) l S) as S'.
    destruct (covers _ _ _ _ X Y); [|apply S']. rewrite blend_solid by apply S'. apply S'.
Qed.
Lemma draw_solid W s p : ink_ok s -> all_solid p -> all_solid (draw W s p).
Proof.
  intros K S. destruct s as [x y w h px|x y w h]; cbn [draw].
  - intros X Y. destruct (covers _ _ _ _ X Y); [|apply S]. apply multiply_solid; [apply S | apply block_ok; exact K].
  - destruct (_ <=? _); [|exact S]. intros X Y. destruct (covers _ _ _ _ X Y); [|apply S]. rewrite blend_solid by apply S. apply S.
Qed.
Lemma turn_solid r l : all_solid (lf_pic l) -> all_solid (lf_pic (turn_leaf r l)).
Proof.
  intros S. destruct r; cbn [turn_leaf]; try exact S.
  - destruct (lf_h l =? 0); [intros X Y; exact white_solid|]. intros X Y. cbn [lf_pic]. unfold turn_90. apply S.
  - intros X Y. cbn [lf_pic]. unfold turn_180. apply S.
  - destruct (lf_h l =? 0); [intros X Y; exact white_solid|]. intros X Y. cbn [lf_pic]. unfold turn_270. apply S.
Qed.
Definition desk_solid (d : desk) : Prop := all_solid (dk_pic d) /\ all_solid (lf_pic (dk_leaf d)).
Definition call_inked (fo : fonts) (c : context * event) : Prop := Forall ink_ok (marks fo c).
Lemma desk_call_solid fo W c d : call_inked fo c -> desk_solid d -> desk_solid (desk_call fo W c d).
Proof.
  intros K (S & L).
  assert (Dr : desk_solid (if p_enabled (c_page (fst c))
         then on_leaf (fun l => fold_left (fun l s => draw_leaf s l) (marks fo c) l) d
         else mk_desk (drawing W (marks fo c) (dk_pic d)) (bottoms W (marks fo c) (dk_low d)) (dk_leaf d))).
  { unfold call_inked in K. destruct (p_enabled _); (split; cbn [on_leaf dk_pic dk_leaf]); try assumption.
    - set (l := dk_leaf d) in *. clearbody l. revert l L. induction (marks fo c) as [|s m IH]; intros l L; [exact L|]. cbn [fold_left].
      apply Forall_cons_iff in K. destruct K as (K1 & K). exact (IH K _ (draw_leaf_solid _ _ K1 L)).
    - set (p := dk_pic d) in *. clearbody p. unfold drawing. revert p S. induction (marks fo c) as [|s m IH]; intros p S; [exact S|]. cbn [fold_left].
      apply Forall_cons_iff in K. destruct K as (K1 & K). exact (IH K _ (draw_solid _ _ _ K1 S)). }
  destruct c as [x ev]. destruct ev; cbn [desk_call fst snd]; try exact Dr.
  - split; [exact S|]. intros X Y. exact white_solid.
  - split; [exact S|]. cbn [on_leaf dk_leaf enlarge_leaf lf_pic]. intros X Y. cbv zeta. destruct (covers _ _ _ _ X Y); [|exact white_solid]. apply (turn_solid r _ L).
  - split; cbn [on_leaf stamp dk_pic dk_leaf].
    + intros X Y. destruct (covers _ _ _ _ X Y); [|apply S]. rewrite blend_solid; apply (turn_solid _ _ L).
    + unfold put_back. apply turn_solid. unfold upright. apply turn_solid. exact L.
Qed.
Lemma desk_calls_solid fo W l : forall d, Forall (call_inked fo) l -> desk_solid d -> desk_solid (desk_calls fo W l d).
Proof.
  induction l as [|c l IH]; intros d F S; [exact S|]. apply Forall_cons_iff in F. destruct F as (F1 & F). cbn [desk_calls fold_left].
  exact (IH _ F (desk_call_solid _ _ _ _ F1 S)).
Qed.
Lemma empty_solid : desk_solid empty_desk.
Proof. split; intros X Y; exact white_solid. Qed.

Lemma put_back_upright x l : 0 < lf_w l -> 0 < lf_h l ->
  let l' := put_back x (upright x l) in
  lf_w l' = lf_w l /\ lf_h l' = lf_h l /\ forall X Y, lf_pic l' X Y = lf_pic l X Y.
Proof.
  intros W H. destruct l as [w h p]. cbn [lf_w lf_h] in *. unfold put_back, upright.
  assert (Hh : (h =? 0) = false) by lia. assert (Hw : (w =? 0) = false) by lia.
  destruct (p_direction (c_page x));
    repeat match goal with |- context [calculate_directional_rotation ?a ?b] =>
      let r := eval vm_compute in (calculate_directional_rotation a b) in change (calculate_directional_rotation a b) with r end;
    cbn [turn_leaf lf_w lf_h lf_pic]; rewrite ?Hh; cbn [lf_w lf_h lf_pic]; rewrite ?Hw; cbn [lf_w lf_h lf_pic];
    (split; [reflexivity|]; split; [reflexivity|]; intros X Y; unfold turn_90, turn_180, turn_270; f_equal; lia).
Qed.
Lemma desk_calls_app fo W a b d : desk_calls fo W (a ++ b) d = desk_calls fo W b (desk_calls fo W a d).
Proof. unfold desk_calls. apply fold_left_app. Qed.

(** The moment the page is printed: the sheet shows exactly the page, upright, with its top left corner
    where the paper stands, and the rest of the sheet as before.  The page keeps what it shows. *)
Theorem C55_page_printed : forall fo before x,
  Forall (call_inked fo) before ->
  let d := desk_calls fo 609 before empty_desk in
  let d' := desk_calls fo 609 (before ++ [(x, ERenderPage)]) empty_desk in
  let l := upright x (dk_leaf d) in
  let a := g_render_area (c_graphics x) in
  (forall X Y, dk_pic d' X Y = if covers (a_x a) (a_y a) (lf_w l) (lf_h l) X Y then lf_pic l (X - a_x a) (Y - a_y a) else dk_pic d X Y) /\
  dk_low d' = (if a_x a <? 609 then Z.max (dk_low d) (a_y a + lf_h l) else dk_low d) /\
  (0 < lf_w (dk_leaf d) -> 0 < lf_h (dk_leaf d) ->
     lf_w (dk_leaf d') = lf_w (dk_leaf d) /\ lf_h (dk_leaf d') = lf_h (dk_leaf d) /\
     forall X Y, lf_pic (dk_leaf d') X Y = lf_pic (dk_leaf d) X Y).
Proof.
  intros fo before x F d d' l a.
  assert (Ed : d' = desk_call fo 609 (x, ERenderPage) d) by (unfold d', d; rewrite desk_calls_app; reflexivity).
  clearbody d'. subst d'.
  destruct (desk_calls_solid fo 609 before empty_desk F empty_solid) as (_ & L). fold d in L. clearbody d. cbn [desk_call fst snd on_leaf stamp dk_pic dk_low dk_leaf].
  fold a l. split; [|split; [reflexivity|]].
  - intros X Y. destruct (covers _ _ _ _ X Y); [|reflexivity]. apply blend_solid. apply (turn_solid _ _ L).
  - intros W H. exact (put_back_upright x (dk_leaf d) W H).
Qed.

(** calls that leave no marks on the sheet *)
Definition markless (fo : fonts) (c : context * event) : Prop := snd c <> ERenderPage /\ (p_enabled (c_page (fst c)) = true \/ marks fo c = []).
Lemma markless_desk fo W c d : markless fo c -> dk_pic (desk_call fo W c d) = dk_pic d /\ dk_low (desk_call fo W c d) = dk_low d.
Proof.
  intros (N & M). destruct c as [x ev]. cbn [fst snd] in *.
  assert (Dr : forall f d2, d2 = (if p_enabled (c_page x) then on_leaf f d
         else mk_desk (drawing W (marks fo (x, ev)) (dk_pic d)) (bottoms W (marks fo (x, ev)) (dk_low d)) (dk_leaf d)) ->
         dk_pic d2 = dk_pic d /\ dk_low d2 = dk_low d).
  { intros f d2 ->. destruct (p_enabled (c_page x)); [split; reflexivity|]. destruct M as [M|M]; [discriminate|]. rewrite M. split; reflexivity. }
  destruct ev; cbn [desk_call fst snd]; try (eapply Dr; reflexivity); try (split; reflexivity). congruence.
Qed.
Lemma markless_run fo W l : forall d, Forall (markless fo) l -> dk_pic (desk_calls fo W l d) = dk_pic d /\ dk_low (desk_calls fo W l d) = dk_low d.
Proof.
  induction l as [|c l IH]; intros d F; [auto|]. apply Forall_cons_iff in F. destruct F as (F1 & F). cbn [desk_calls fold_left].
  destruct (markless_desk fo W c d F1) as (A & B). destruct (IH (desk_call fo W c d) F) as (A' & B'). unfold desk_calls in A', B'. split; congruence.
Qed.
(** A job that ends with printing a page: its image shows the page where the paper stood, 20 pixels from the edge. *)
Theorem C55_image_shows_page : forall fo e bs s im before x after y rest,
  bytes_ok bs = true -> render e bs renderer_new = Ok s -> render_images fo e bs = Ok im ->
  rs_calls s = (before ++ (x, ERenderPage) :: after) ++ (y, EEndRender) :: rest ->
  ev_ends before = 0%nat -> Forall (call_inked fo) before ->
  Forall (fun c => markless fo c /\ snd c <> EEndRender) after ->
  let d := desk_calls fo 609 before empty_desk in
  let l := upright x (dk_leaf d) in
  let a := g_render_area (c_graphics x) in
  exists r later, im_out im = r :: later /\ r_width r = 649 /\
    (a_x a < 609 -> a_y a + lf_h l <= r_height r) /\
    forall X Y, 0 <= X < 609 -> 0 <= Y < r_height r ->
      rgb_at r (20 + X) Y = rgb_of (if covers (a_x a) (a_y a) (lf_w l) (lf_h l) X Y then lf_pic l (X - a_x a) (Y - a_y a) else dk_pic d X Y).
Proof.
  intros fo e bs s im before x after y rest B Es E Ec N0 Fb Fa d l a.
  assert (N : ev_ends (before ++ (x, ERenderPage) :: after) = 0%nat).
  { rewrite ev_ends_app, N0. unfold ev_ends. cbn [filter snd ends_output]. clear -Fa. induction after as [|[z ev] r IH]; [reflexivity|].
    apply Forall_cons_iff in Fa. destruct Fa as ((_ & N) & Fa). cbn [filter snd] in *. destruct ev; try (cbn [ends_output]; exact (IH Fa)). congruence. }
  destruct (C55_image fo e bs s im _ y rest B Es E Ec N) as (r & later & Q1 & Q2 & Q3 & Q4).
  destruct (C55_page_printed fo before x Fb) as (P1 & P2 & _). fold d l a in P1, P2.
  change ((x, ERenderPage) :: after) with ([(x, ERenderPage)] ++ after) in Q3, Q4. rewrite app_assoc, desk_calls_app in Q3, Q4.
  destruct (markless_run fo 609 after (desk_calls fo 609 (before ++ [(x, ERenderPage)]) empty_desk)) as (M1 & M2).
  { refine (Forall_impl _ _ Fa). intros c (H & _). exact H. }
  rewrite M2, P2 in Q3. exists r, later. split; [exact Q1|]. split; [exact Q2|]. split.
  - intros La. rewrite Q3. replace (a_x a <? 609) with true by lia. lia.
  - intros X Y HX HY. rewrite Q4 by (exact HY || lia). replace ((20 <=? 20 + X) && (20 + X <? 629)) with true by lia. rewrite M1.
    replace (20 + X - 20) with X by lia. rewrite P1. reflexivity.
Qed.

(** ** The commands *)
Lemma page_command_name c : sent c -> page_command c -> In (c_commands c) [[12]; [27; 12]; [27; 83]; [27; 64]].
Proof.
  intros S C. destruct (sent_reported _ S) as [(t & Ht & _ & I)|(sc & _ & I)].
  - pose proof (proj1 (forallb_forall _ _) page_entries _ Ht) as E. rewrite (in_commands _ _ I). pose proof (in_handler _ _ I) as L.
    unfold page_entry in E. unfold handler_like in L. unfold page_command in C.
    destruct C as [C|[C|[C|C]]]; rewrite C in L; destruct (c_handler t) as [id| |?|?|?|?|?|?]; try contradiction; subst id; destruct (c_kind t); try discriminate E;
      apply list_eqb_eq in E; rewrite E; cbn [In]; auto.
  - pose proof (si_handler _ _ I) as L. unfold page_command in C. rewrite L in C. intuition discriminate.
Qed.
(** In page mode nothing but printing the page, ESC S and ESC @ moves the paper or leaves page mode: what is
    printed there goes onto the page. *)
Theorem C55_paper_waits : forall e c s s',
  sent c -> ~ In (c_commands c) [[12]; [27; 12]; [27; 83]; [27; 64]] ->
  p_enabled (c_page (rs_ctx s)) = true -> process_command e c s = Ok s' ->
  p_enabled (c_page (rs_ctx s')) = true /\ g_render_area (c_graphics (rs_ctx s')) = g_render_area (c_graphics (rs_ctx s)).
Proof.
  intros e c s s' Sc N P H. refine (step_stays e c s s' _ H P). intros C. exact (N (page_command_name c Sc C)).
Qed.
Lemma page_run e l : forall s s', Forall (fun c => sent c /\ ~ In (c_commands c) [[12]; [27; 12]; [27; 83]; [27; 64]]) l ->
  p_enabled (c_page (rs_ctx s)) = true -> run_commands e l s = Ok s' ->
  p_enabled (c_page (rs_ctx s')) = true /\ g_render_area (c_graphics (rs_ctx s')) = g_render_area (c_graphics (rs_ctx s)).
Proof.
  induction l as [|c l IH]; intros s s' F P H; unfold run_commands in H; cbn [fold_res] in H.
  - injection H as <-. auto.
  - apply Forall_cons_iff in F. destruct F as ((Sc & N) & F). apply bind_ok in H. destruct H as (s1 & H1 & H).
    destruct (C55_paper_waits e c s s1 Sc N P H1) as (P1 & E1). destruct (IH s1 s' F P1 H) as (P2 & E2). split; congruence.
Qed.

(** the paper after a page [h] high was printed *)
Definition past_page (h : Z) (a : area) : area := mk_area 0 (a_y a + h) (a_w a) (a_h a).

(** ESC FF: the page is printed where the paper stands; the paper moves past it; page mode stays on. *)
Theorem C55_print_page : forall e c s s',
  sent c -> c_commands c = [27; 12] -> p_enabled (c_page (rs_ctx s)) = true -> process_command e c s = Ok s' ->
  exists s1, process_text s = Ok s1 /\
    rs_calls s' = rs_calls s1 ++ [(rs_ctx s1, EDevice PrintPageMode); (rs_ctx s1, ERenderPage)] /\
    g_render_area (c_graphics (rs_ctx s1)) = g_render_area (c_graphics (rs_ctx s)) /\
    g_render_area (c_graphics (rs_ctx s')) = past_page (a_h (p_page_area (c_page (rs_ctx s)))) (g_render_area (c_graphics (rs_ctx s))) /\
    c_page (rs_ctx s') = c_page (rs_ctx s1) /\ p_enabled (c_page (rs_ctx s')) = true.
Proof.
  intros e c s s' Sc E P H.
  pose proof (sent_entry c _ cmd_page_mode_print_data Sc E ltac:(cbn; lia) eq_refl) as I.
  pose proof (in_kind _ _ I) as K. cbn [cmd_page_mode_print_data mk_cmd c_kind] in K.
  pose proof (in_handler _ _ I) as Hd. cbn [cmd_page_mode_print_data mk_cmd c_handler handler_like] in Hd.
  destruct (c_handler c) as [id| |?|?|?|?|?|?] eqn:Hc; try contradiction. subst id.
  unfold process_command in H. rewrite K in H. unfold get_device_command in H. rewrite Hc in H. cbn [device_plain] in H. rewrite P in H. cbn [bind] in H.
  apply bind_ok in H. destruct H as (s1 & T & H). exists s1. split; [exact T|].
  destruct (text_stays _ _ T P) as (P1 & E1). destruct (process_text_moved _ _ T) as (M & _). pose proof (moved_page_area _ _ M) as Mp.
  unfold process_device_commands in H. cbn [fold_res] in H. apply bind_ok in H. destruct H as (s2 & D & H). injection H as <-.
  unfold process_device_command in D. cbv zeta in D. unfold on_ctx in D. apply bind_ok in D. destruct D as (c2 & D & D2). injection D2 as <-.
  apply bind_ok in D. destruct D as (y & Hy & D). injection D as <-. destruct (add_u32v _ _ _ Hy) as (Ey & _). cbn [rs_ctx with_ctx call] in *.
  cbn [rs_calls with_ctx call]. split; [rewrite <- app_assoc; reflexivity|]. split; [exact E1|]. split.
  - rewrite Ey, <- E1, <- Mp. destruct (rs_ctx s1) as [dd [t b q g p]]. reflexivity.
  - split; [reflexivity | exact P1].
Qed.
(** FF in page mode does the same and leaves page mode. *)
Theorem C55_form_feed : forall e c s s',
  sent c -> c_commands c = [12] -> p_enabled (c_page (rs_ctx s)) = true -> process_command e c s = Ok s' ->
  exists s1 x1, process_text s = Ok s1 /\ x1 = upd_page (set_p_enabled false) (rs_ctx s1) /\
    rs_calls s' = rs_calls s1 ++ [(rs_ctx s1, EDevice EndPageMode); (rs_ctx s1, EPageEnd); (x1, EDevice PrintPageMode); (x1, ERenderPage)] /\
    g_render_area (c_graphics x1) = g_render_area (c_graphics (rs_ctx s)) /\
    g_render_area (c_graphics (rs_ctx s')) = past_page (a_h (p_page_area (c_page (rs_ctx s)))) (g_render_area (c_graphics (rs_ctx s))) /\
    c_page (rs_ctx s') = set_p_enabled false (c_page (rs_ctx s1)).
Proof.
  intros e c s s' Sc E P H.
  pose proof (sent_entry c _ cmd_formfeed Sc E ltac:(cbn; lia) eq_refl) as I.
  pose proof (in_kind _ _ I) as K. cbn [cmd_formfeed mk_cmd c_kind] in K.
  pose proof (in_handler _ _ I) as Hd. cbn [cmd_formfeed mk_cmd c_handler handler_like] in Hd.
  destruct (c_handler c) as [id| |?|?|?|?|?|?] eqn:Hc; try contradiction. subst id.
  unfold process_command in H. rewrite K in H. unfold get_device_command in H. rewrite Hc in H. cbn [device_plain] in H. rewrite P in H. cbn [bind] in H.
  apply bind_ok in H. destruct H as (s1 & T & H). exists s1, (upd_page (set_p_enabled false) (rs_ctx s1)). split; [exact T|]. split; [reflexivity|].
  destruct (text_stays _ _ T P) as (P1 & E1). destruct (process_text_moved _ _ T) as (M & _). pose proof (moved_page_area _ _ M) as Mp.
  unfold process_device_commands in H. cbn [fold_res] in H. unfold process_device_command in H. cbv zeta in H. unfold on_ctx in H. cbn [bind] in H.
  apply bind_ok in H. destruct H as (s2 & D & H). injection H as <-.
  apply bind_ok in D. destruct D as (c2 & D & D2). injection D2 as <-.
  apply bind_ok in D. destruct D as (y & Hy & D). injection D as <-. destruct (add_u32v _ _ _ Hy) as (Ey & _). cbn [rs_ctx with_ctx call] in *.
  cbn [rs_calls with_ctx call]. split; [rewrite <- !app_assoc; reflexivity|]. split; [exact E1|]. split.
  - rewrite Ey. change (g_render_area (c_graphics (upd_page ?f ?z))) with (g_render_area (c_graphics z)). rewrite <- E1, <- Mp. destruct (rs_ctx s1) as [dd [t b q g p]]. reflexivity.
  - destruct (rs_ctx s1) as [dd [t b q g p]]. reflexivity.
Qed.
(** Whatever is printed in page mode first (any commands that stay there), the page goes where the paper stood. *)
Theorem C55_page_goes_where_the_paper_stood : forall e l c s s',
  Forall (fun c => sent c /\ ~ In (c_commands c) [[12]; [27; 12]; [27; 83]; [27; 64]]) l ->
  sent c -> c_commands c = [12] \/ c_commands c = [27; 12] ->
  p_enabled (c_page (rs_ctx s)) = true -> run_commands e (l ++ [c]) s = Ok s' ->
  exists x before, rs_calls s' = before ++ [(x, ERenderPage)] /\
    g_render_area (c_graphics x) = g_render_area (c_graphics (rs_ctx s)) /\
    g_render_area (c_graphics (rs_ctx s')) = past_page (a_h (p_page_area (c_page x))) (g_render_area (c_graphics (rs_ctx s))).
Proof.
  intros e l c s s' F Sc C P H. unfold run_commands in H. rewrite fold_res_app in H. apply bind_ok in H. destruct H as (s1 & H1 & H).
  destruct (page_run e l s s1 F P H1) as (P1 & E1). cbn [fold_res] in H. apply bind_ok in H. destruct H as (s2 & H2 & H). injection H as <-.
  destruct C as [C|C].
  - destruct (C55_form_feed e c s1 s2 Sc C P1 H2) as (t & x & T & -> & A1 & A2 & A3 & A4). exists (upd_page (set_p_enabled false) (rs_ctx t)).
    eexists. split; [rewrite A1; change [?a; ?b; ?c; ?d] with ([a; b; c] ++ [d]); rewrite app_assoc; reflexivity|]. split; [congruence|].
    destruct (process_text_moved _ _ T) as (M & _). rewrite A3, E1. change (p_page_area (c_page (upd_page (set_p_enabled false) (rs_ctx t)))) with (p_page_area (c_page (rs_ctx t))).
    rewrite (moved_page_area _ _ M). reflexivity.
  - destruct (C55_print_page e c s1 s2 Sc C P1 H2) as (t & T & A1 & A2 & A3 & A4 & A5). exists (rs_ctx t).
    eexists. split; [rewrite A1; change [?a; ?b] with ([a] ++ [b]); rewrite app_assoc; reflexivity|]. split; [congruence|].
    destruct (process_text_moved _ _ T) as (M & _). rewrite A3, E1. rewrite (moved_page_area _ _ M). reflexivity.
Qed.
(** Outside page mode ESC FF prints nothing and moves nothing. *)
Theorem C55_print_page_outside : forall e c s s',
  sent c -> c_commands c = [27; 12] -> p_enabled (c_page (rs_ctx s)) = false -> process_command e c s = Ok s' -> process_text s = Ok s'.
Proof.
  intros e c s s' Sc E P H.
  pose proof (sent_entry c _ cmd_page_mode_print_data Sc E ltac:(cbn; lia) eq_refl) as I.
  pose proof (in_kind _ _ I) as K. cbn [cmd_page_mode_print_data mk_cmd c_kind] in K.
  pose proof (in_handler _ _ I) as Hd. cbn [cmd_page_mode_print_data mk_cmd c_handler handler_like] in Hd.
  destruct (c_handler c) as [id| |?|?|?|?|?|?] eqn:Hc; try contradiction. subst id.
  unfold process_command in H. rewrite K in H. unfold get_device_command in H. rewrite Hc in H. cbn [device_plain] in H. rewrite P in H. cbn [bind] in H.
  apply bind_ok in H. destruct H as (s1 & T & H). injection H as <-. exact T.
Qed.

(** A page has no columns until its area is given (ESC W or ESC T): what is drawn before that is lost. *)
Lemma draw_leaf_void s l : lf_w l = 0 -> lf_w (draw_leaf s l) = 0.
Proof.
  intros W. assert (Le : forall h, lf_w (lengthen h l) = 0) by (intros h; unfold lengthen; rewrite W; exact W).
  destruct s; cbn [draw_leaf]; destruct (_ : bool); cbv zeta; cbn [lf_w]; try apply Le; exact W.
Qed.
Theorem C55_page_needs_an_area : forall fo before x l y,
  Forall (fun c => match snd c with EPageAreaChanged _ _ _ => False | _ => True end) l ->
  let d := desk_calls fo 609 (before ++ (x, EPageBegin) :: l) empty_desk in
  let d' := desk_calls fo 609 (before ++ (x, EPageBegin) :: l ++ [(y, ERenderPage)]) empty_desk in
  forall X Y, dk_pic d' X Y = dk_pic d X Y.
Proof.
  intros fo before x l y F d d' X Y.
  assert (Ed : d' = desk_call fo 609 (y, ERenderPage) d).
  { unfold d', d. rewrite !desk_calls_app. cbn [desk_calls fold_left]. fold (desk_calls fo 609). rewrite fold_left_app. reflexivity. }
  assert (T : forall r m, lf_w m = 0 -> lf_h m = 0 -> lf_w (turn_leaf r m) = 0 /\ lf_h (turn_leaf r m) = 0).
  { intros r m W H. destruct r; cbn [turn_leaf]; try rewrite H; cbn [Z.eqb blank_leaf lf_w lf_h]; auto. }
  assert (V : lf_w (dk_leaf d) = 0 /\ lf_h (dk_leaf d) = 0).
  { unfold d. rewrite desk_calls_app. cbn [desk_calls fold_left]. set (d0 := desk_call fo 609 (x, EPageBegin) _).
    assert (V0 : lf_w (dk_leaf d0) = 0 /\ lf_h (dk_leaf d0) = 0) by (split; reflexivity). clearbody d0. clear -F V0 T.
    revert d0 V0. induction l as [|[z ev] l IH]; intros d0 V0; [exact V0|]. apply Forall_cons_iff in F. destruct F as (F1 & F). cbn [fold_left].
    apply (IH F). clear IH. destruct V0 as (W & H).
    assert (Dr : forall ms, let m := fold_left (fun l s => draw_leaf s l) ms (dk_leaf d0) in lf_w m = 0 /\ lf_h m = 0).
    { intros ms. set (m0 := dk_leaf d0) in *. clearbody m0. revert m0 W H. induction ms as [|s ms IH]; intros m0 W H; [exact (conj W H)|]. cbn [fold_left].
      apply IH; [exact (draw_leaf_void _ _ W)|].
      assert (Le : forall h, lf_h (lengthen h m0) = 0) by (intros h; unfold lengthen; rewrite W; exact H).
      destruct s; cbn [draw_leaf]; destruct (_ : bool); cbv zeta; cbn [lf_h]; try apply Le; exact H. }
    destruct ev; cbn [desk_call fst snd] in *; try contradiction; try (split; reflexivity);
      try (destruct (p_enabled _); cbn [on_leaf dk_leaf]; [apply Dr | exact (conj W H)]).
    cbn [on_leaf dk_leaf]. unfold put_back, upright. destruct (T (calculate_directional_rotation (p_direction (c_page z)) TopLeft2Right) _ W H) as (W1 & H1).
    exact (T _ _ W1 H1). }
  rewrite Ed. destruct V as (W & H). cbn [desk_call fst snd on_leaf stamp dk_pic]. unfold upright.
  destruct (T (calculate_directional_rotation (p_direction (c_page y)) TopLeft2Right) _ W H) as (W1 & H1).
  unfold covers. rewrite W1. destruct (_ && _) eqn:D; [lia | reflexivity].
Qed.

(** ** Examples and what does not hold *)
Definition black_byte : list Z := [29; 118; 48; 0; 1; 0; 1; 0; 255].                (* a raster image, 8 x 1, black *)
Definition print_area (x y w h : Z) : list Z := [27; 87; x; 0; y; 0; w; 0; h; 0].    (* ESC W *)
Lemma split_nth {A} (l : list A) k d : (k < length l)%nat -> l = firstn k l ++ nth k l d :: skipn (S k) l.
Proof. revert k. induction l as [|x l IH]; intros k H; cbn in H; [lia|]. destruct k; [reflexivity|]. cbn. f_equal. apply IH. lia. Qed.
Definition is_page_print (ev : event) : bool := match ev with ERenderPage => true | _ => false end.
Lemma is_page_print_spec ev : is_page_print ev = true -> ev = ERenderPage.
Proof. destruct ev; cbn; congruence. Qed.
Definition rgba8b (p : rgba) : bool := forallb (fun v => (0 <=? v) && (v <=? 255)) [c_r p; c_g p; c_b p; c_a p].
Definition ink_okb (s : stroke) : bool := match s with Paint _ _ _ _ px => forallb rgba8b px | Mirror _ _ _ _ => true end.
Lemma ink_okb_spec s : ink_okb s = true -> ink_ok s.
Proof.
  destruct s; cbn; [|auto]. intros H. rewrite Forall_forall. rewrite forallb_forall in H. intros p I. specialize (H p I). unfold rgba8b in H. cbn [forallb] in H.
  unfold is_rgba8, channels_ok. lia.
Qed.
Lemma inkedb fo l : forallb (fun c => forallb ink_okb (marks fo c)) l = true -> Forall (call_inked fo) l.
Proof.
  intros H. rewrite Forall_forall. rewrite forallb_forall in H. intros c I. specialize (H c I). unfold call_inked. rewrite Forall_forall. rewrite forallb_forall in H.
  intros s J. exact (ink_okb_spec _ (H s J)).
Qed.
Definition marklessb (fo : fonts) (c : context * event) : bool :=
  match snd c with ERenderPage | EEndRender => false | _ => true end && (p_enabled (c_page (fst c)) || match marks fo c with [] => true | _ => false end).
Lemma marklessb_spec fo l : forallb (marklessb fo) l = true -> Forall (fun c => markless fo c /\ snd c <> EEndRender) l.
Proof.
  intros H. rewrite Forall_forall. rewrite forallb_forall in H. intros c I. specialize (H c I). unfold marklessb in H. apply andb_prop in H. destruct H as (A & B).
  apply orb_prop in B. unfold markless. split; [split; [destruct (snd c); congruence|] | destruct (snd c); congruence].
  destruct B as [B|B]; [left; exact B | right]. destruct (marks fo c); congruence.
Qed.

(** a page 16 x 2 with eight black dots at its top left corner, printed by FF *)
Definition page_job : list Z := [27; 76] ++ print_area 0 0 16 2 ++ black_byte ++ [12].
Definition no_ink : fonts := fun _ _ _ _ _ => None.
Definition nothing : context * event := (context_new, EPageEnd).
Definition is_sheet_end (ev : event) : bool := match ev with EEndRender => true | _ => false end.
Lemma is_sheet_end_spec ev : is_sheet_end ev = true -> ev = EEndRender.
Proof. destruct ev; cbn; congruence. Qed.
(** calls [k] and [k + 1 + n] of the job print a page and end the sheet; what the theorem needs of the rest *)
Definition page_check (calls : list (context * event)) (k n : nat) : bool :=
  let after := firstn n (skipn (S k) calls) in
  (Nat.ltb (k + 1 + n) (length calls)) && is_page_print (snd (nth k calls nothing)) && is_sheet_end (snd (nth n (skipn (S k) calls) nothing)) &&
  Nat.eqb (ev_ends (firstn k calls)) 0 && forallb (fun c => forallb ink_okb (marks no_ink c)) (firstn k calls) && forallb (marklessb no_ink) after.
Lemma page_check_spec calls k n : page_check calls k n = true ->
  let before := firstn k calls in let x := fst (nth k calls nothing) in
  exists after y rest, calls = (before ++ (x, ERenderPage) :: after) ++ (y, EEndRender) :: rest /\
    ev_ends before = 0%nat /\ Forall (call_inked no_ink) before /\ Forall (fun c => markless no_ink c /\ snd c <> EEndRender) after.
Proof.
  intros H before x. unfold page_check in H. repeat (apply andb_prop in H; destruct H as (H & ?)).
  apply Nat.ltb_lt in H. apply is_page_print_spec in H4. apply is_sheet_end_spec in H3. apply Nat.eqb_eq in H2.
  exists (firstn n (skipn (S k) calls)), (fst (nth n (skipn (S k) calls) nothing)), (skipn (S n) (skipn (S k) calls)).
  split; [|split; [exact H2 | split; [exact (inkedb _ _ H1) | exact (marklessb_spec _ _ H0)]]].
  rewrite (split_nth calls k nothing) at 1 by lia. fold before. rewrite <- app_assoc. f_equal. cbn [app]. f_equal; [rewrite <- H4; apply surjective_pairing|].
  rewrite (split_nth (skipn (S k) calls) n nothing) at 1 by (rewrite skipn_length; lia). f_equal. f_equal. rewrite <- H3. apply surjective_pairing.
Qed.
Definition page_view (bs : list Z) (k n : nat) : res (bool * (Z * Z * Z * Z) * list (Z * Z * Z) * Z) :=
  do s <- render no_encoders1 bs renderer_new;
  let before := firstn k (rs_calls s) in let x := fst (nth k (rs_calls s) nothing) in
  let d := desk_calls no_ink 609 before empty_desk in let l := upright x (dk_leaf d) in
  Ok (page_check (rs_calls s) k n, (a_x (g_render_area (c_graphics x)), a_y (g_render_area (c_graphics x)), lf_w l, lf_h l),
      map (fun X => rgb_of (lf_pic l X 0)) [0; 7; 8; 15], a_y (g_render_area (c_graphics (rs_ctx s)))).
Lemma page_view_inv bs k n v : page_view bs k n = Ok v -> fst (fst (fst v)) = true ->
  exists s before x after y rest, render no_encoders1 bs renderer_new = Ok s /\
    rs_calls s = (before ++ (x, ERenderPage) :: after) ++ (y, EEndRender) :: rest /\
    ev_ends before = 0%nat /\ Forall (call_inked no_ink) before /\ Forall (fun c => markless no_ink c /\ snd c <> EEndRender) after /\
    let l := upright x (dk_leaf (desk_calls no_ink 609 before empty_desk)) in
    (a_x (g_render_area (c_graphics x)), a_y (g_render_area (c_graphics x)), lf_w l, lf_h l) = snd (fst (fst v)) /\
    map (fun X => rgb_of (lf_pic l X 0)) [0; 7; 8; 15] = snd (fst v) /\ a_y (g_render_area (c_graphics (rs_ctx s))) = snd v.
Proof.
  intros V T. unfold page_view in V. destruct (render no_encoders1 bs renderer_new) as [s|] eqn:Es; [|discriminate]. cbn [bind] in V. cbv zeta in V.
  injection V as <-. cbn [fst snd] in *. destruct (page_check_spec _ _ _ T) as (after & y & rest & A1 & A2 & A3 & A4).
  exists s, (firstn k (rs_calls s)), (fst (nth k (rs_calls s) nothing)), after, y, rest.
  split; [reflexivity|]. split; [exact A1|]. split; [exact A2|]. split; [exact A3|]. split; [exact A4|].
  cbv zeta. split; [reflexivity|]. split; reflexivity.
Qed.
Definition fine (r : res istate) : bool := match r with Ok _ => true | Panic _ => false end.
Lemma fine_inv r : fine r = true -> exists im, r = Ok im.
Proof. destruct r; [eauto | discriminate]. Qed.
Example page_job_shown : exists s im before x after y rest,
  bytes_ok page_job = true /\ render no_encoders1 page_job renderer_new = Ok s /\ render_images no_ink no_encoders1 page_job = Ok im /\
  rs_calls s = (before ++ (x, ERenderPage) :: after) ++ (y, EEndRender) :: rest /\
  ev_ends before = 0%nat /\ Forall (call_inked no_ink) before /\
  Forall (fun c => markless no_ink c /\ snd c <> EEndRender) after /\
  let l := upright x (dk_leaf (desk_calls no_ink 609 before empty_desk)) in
  (a_x (g_render_area (c_graphics x)), a_y (g_render_area (c_graphics x)), lf_w l, lf_h l) = (0, 108, 16, 2) /\
  map (fun X => rgb_of (lf_pic l X 0)) [0; 7; 8; 15] = [(0, 0, 0); (0, 0, 0); (255, 255, 255); (255, 255, 255)].
Proof.
  assert (V : page_view page_job 10 2 = Ok (true, (0, 108, 16, 2), [(0, 0, 0); (0, 0, 0); (255, 255, 255); (255, 255, 255)], 110))
    by (vm_compute; reflexivity).
  assert (I : fine (render_images no_ink no_encoders1 page_job) = true) by (vm_compute; reflexivity).
  apply fine_inv in I. destruct I as (im & I).
  destruct (page_view_inv _ _ _ _ V eq_refl) as (s & before & x & after & y & rest & A0 & A1 & A2 & A3 & A4 & A5 & A6 & _).
  exists s, im, before, x, after, y, rest.
  split; [vm_compute; reflexivity|]. split; [exact A0|]. split; [exact I|]. split; [exact A1|]. split; [exact A2|]. split; [exact A3|]. split; [exact A4|].
  split; [exact A5 | exact A6].
Qed.

(** The paper moves by the height of the turned page, not by the height of what was printed: the page
    16 x 2 printed with ESC T 1 is 2 rows high, and the paper moves by 16. *)
Definition turned_job : list Z := [27; 76] ++ print_area 0 0 16 2 ++ [27; 84; 1] ++ black_byte ++ [12].
Theorem C55_paper_moves_past_the_print_refuted : exists s before x after,
  render no_encoders1 turned_job renderer_new = Ok s /\ rs_calls s = before ++ (x, ERenderPage) :: after /\
  let l := upright x (dk_leaf (desk_calls no_ink 609 before empty_desk)) in
  0 < lf_h l /\ a_y (g_render_area (c_graphics (rs_ctx s))) <> a_y (g_render_area (c_graphics x)) + lf_h l.
Proof.
  assert (V : page_view turned_job 12 2 = Ok (true, (0, 108, 16, 2), [(0, 0, 0); (255, 255, 255); (255, 255, 255); (255, 255, 255)], 124)) by (vm_compute; reflexivity).
  destruct (page_view_inv _ _ _ _ V eq_refl) as (s & before & x & after & y & rest & A0 & A1 & A2 & A3 & A4 & A5 & _ & A6).
  exists s, before, x, (after ++ (y, EEndRender) :: rest).
  split; [exact A0|]. split; [rewrite A1, <- app_assoc; reflexivity|]. cbv zeta. cbn [fst snd] in A5, A6. injection A5 as _ E2 _ E4.
  rewrite E4, E2, A6. lia.
Qed.

(** Enlarging the print area moves what is on the page already: the dots drawn at the left edge of a page
    16 wide are printed 8 columns further right when the page is enlarged to 32. *)
Definition widened_job : list Z := [27; 76] ++ print_area 0 0 16 2 ++ black_byte ++ print_area 0 0 32 2 ++ [12].
Theorem C55_enlarging_keeps_the_page_refuted : exists s before x after,
  render no_encoders1 widened_job renderer_new = Ok s /\ rs_calls s = before ++ (x, ERenderPage) :: after /\
  let l := upright x (dk_leaf (desk_calls no_ink 609 before empty_desk)) in
  map (fun X => rgb_of (lf_pic l X 0)) [0; 7; 8; 15] = [(255, 255, 255); (255, 255, 255); (0, 0, 0); (0, 0, 0)].
Proof.
  assert (V : page_view widened_job 12 2 = Ok (true, (0, 108, 32, 2), [(255, 255, 255); (255, 255, 255); (0, 0, 0); (0, 0, 0)], 110))
    by (vm_compute; reflexivity).
  destruct (page_view_inv _ _ _ _ V eq_refl) as (s & before & x & after & y & rest & A0 & A1 & A2 & A3 & A4 & _ & A5 & _).
  exists s, before, x, (after ++ (y, EEndRender) :: rest).
  split; [exact A0|]. split; [rewrite A1, <- app_assoc; reflexivity|]. exact A5.
Qed.

Print Assumptions C55_sheet.
Print Assumptions C55_image.
Print Assumptions C55_page_printed.
Print Assumptions C55_image_shows_page.
Print Assumptions C55_paper_waits.
Print Assumptions C55_print_page.
Print Assumptions C55_form_feed.
Print Assumptions C55_page_goes_where_the_paper_stood.
Print Assumptions C55_print_page_outside.
Print Assumptions C55_page_needs_an_area.
