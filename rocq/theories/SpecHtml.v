(** * SpecHtml: what a browser makes of a receipt in HTML. *)
From Verif Require Import Base Command GTypes Context Handlers Renderer SpecRender ThermalFile HtmlTemplate HtmlRenderer.
Local Open Scope Z_scope.
Local Open Scope list_scope.

(** Reading HTML: characters between < and > are markup, the others are text.  The result is the text
    and whether the reader is inside a tag at the end. *)
Fixpoint read_html (in_tag : bool) (l : list Z) : list Z * bool :=
  match l with
  | [] => ([], in_tag)
  | c :: r =>
      if in_tag then read_html (negb (c =? 62)) r
      else if c =? 60 then read_html true r
      else let '(t, m) := read_html false r in (c :: t, m)
  end.
Definition html_text (l : list Z) : list Z := fst (read_html false l).
(** line feeds in HTML are only white space *)
Definition no_lf (l : list Z) : list Z := filter (fun c => negb (c =? 10)) l.
(** characters that stand for themselves in HTML (and in the template language of the document) *)
Definition plain_char (c : Z) : bool := negb ((c =? 60) || (c =? 38) || (c =? 123)).

(** The characters of base64 text. *)
Definition base64_char (c : Z) : bool :=
  ((65 <=? c) && (c <=? 90)) || ((97 <=? c) && (c <=? 122)) || ((48 <=? c) && (c <=? 57)) || (c =? 43) || (c =? 47) || (c =? 61).
Definition base64_encoder (pn : pngs) : Prop := forall w h px d, pn w h px = Some d -> forallb base64_char d = true.

(** The document around a receipt: [head] and [tail] are the fixed parts of the page (style sheet and
    all); the style of the receipt says how wide the paper is, how far from its left edge printing
    begins, and how much blank paper is below. *)
Definition page_around (head tail style content : list Z) : list Z :=
  head ++ style ++ str """><article>" ++ content ++ str "</article>" ++ tail.
Definition paper_style (padding : Z) : list Z :=
  str "width: 649px; padding-left: 20px; padding-right: 20px; padding-bottom: " ++ dec_u32 padding ++ str "px;".

(** ** Rows *)

(** A paragraph: its height, the gap above it, its content. *)
Record para := mk_para { pa_height : Z; pa_gap : Z; pa_content : list Z }.
Definition para_html (p : para) : list Z :=
  str "<p style='height: " ++ dec_u32 (pa_height p) ++ str "px; margin-top: " ++ dec_u32 (pa_gap p) ++ str "px'>" ++ pa_content p ++ str "</p>".
(** A browser stacks paragraphs: where each one starts, when the first may start at [y]. *)
Fixpoint tops (y : Z) (l : list para) : list Z :=
  match l with [] => [] | p :: r => (y + pa_gap p) :: tops (y + pa_gap p + pa_height p) r end.

Definition least (m : Z) (l : list Z) : Prop := In m l /\ Forall (fun x => m <= x) l.
Definition greatest (m : Z) (l : list Z) : Prop := In m l /\ Forall (fun x => x <= m) l.
(** Where a call of the renderer wants something on the paper: [t] is its upper edge, [h] its height. *)
Definition box (ev : event) (t h : Z) : Prop :=
  match ev with
  | EImage i => t = i_y i /\ h = i_h i
  | EGraphics rects => rects <> [] /\ least t (map r_y rects) /\ greatest (t + h) (map (fun r => r_y r + r_h r) rects)
  | EText spans _ _ _ => spans <> [] /\ least t (map (fun s => match s_dimensions s with Some d => d_y d | None => 0 end) spans) /\
                         greatest h (map s_character_height spans)
  | _ => False
  end.
Definition draws (ev : event) : bool := match ev with EImage _ | EGraphics _ | EText _ _ _ _ => true | _ => false end.
(** Every box begins at or below the end of the one before. *)
Fixpoint stacked (y : Z) (l : list (Z * Z)) : Prop :=
  match l with [] => True | (t, h) :: r => y <= t /\ stacked (t + h) r end.
(** Where the last box ends. *)
Fixpoint ends_at (y : Z) (l : list (Z * Z)) : Z := match l with [] => y | (t, h) :: r => ends_at (t + h) r end.
(** The gap a browser is told to leave above each box: from the end of the box before, and never less
    than nothing. *)
Fixpoint gaps (y : Z) (l : list (Z * Z)) : list Z :=
  match l with [] => [] | (t, h) :: r => Z.max 0 (t - y) :: gaps (t + h) r end.
(** What is printed directly on the paper: the calls made outside page mode. *)
Definition outside_page (l : list (context * event)) : list (context * event) := filter (fun c => negb (p_enabled (c_page (fst c)))) l.
Definition paper_calls (l : list (context * event)) : list event := filter draws (map snd (outside_page l)).
(** the text of these calls *)
Definition paper_text (l : list (context * event)) : list Z := map snd (drawn (outside_page l)).
(** A PNG encoder does not accept an image without pixels. *)
Definition refuses_empty (pn : pngs) : Prop := forall w h px, w = 0 \/ h = 0 -> pn w h px = None.
