(** * SpecSlipHtml: a receipt with pictures (SpecSlip), from the bytes to the HTML document.

    A picture becomes one paragraph with one image; the image is the text the PNG encoder makes of its dots. *)
From Verif Require Import Base Vec GTypes ThermalFile HtmlTemplate HtmlRenderer SpecHtml SpecPlain SpecReceipt SpecReceiptHtml SpecSlip.
Local Open Scope Z_scope.
Local Open Scope list_scope.

(** The dots of a picture, row by row from the top and from left to right, each as red, green, blue and opacity:
    black where the bit is set, transparent where not.  Dot [k] is in column [k mod width] of row [k / width]. *)
Definition picture_rgba (m w h : Z) (d : list Z) : list Z :=
  let width := 8 * w * dot_width m in
  flat_map (fun k => [0; 0; 0; if bit_at d w (k mod width / dot_width m) (k / width / dot_height m) then 255 else 0])
    (map Z.of_nat (seq 0 (Z.to_nat (width * (h * dot_height m))))).
(** What the encoder makes of them. *)
Definition picture_data (pn : pngs) (m w h : Z) (d : list Z) : list Z :=
  match pn (8 * w * dot_width m) (h * dot_height m) (picture_rgba m w h d) with Some text => text | None => [] end.
Definition picture_html (pn : pngs) (a m w h : Z) (d : list Z) : list Z :=
  str "<img style='left: " ++ dec_u32 (place a (8 * w * dot_width m)) ++ str "px;' class='img' width='" ++ dec_u32 (8 * w * dot_width m) ++
  str "' src='data:image/png;base64, " ++ picture_data pn m w h d ++ str "' />".

(** The paragraphs, when the next element begins in row [y] and the paragraph before ends in row [last]. *)
Fixpoint slip_paras (pn : pngs) (last y : Z) (l : list element) : list para :=
  match l with
  | [] => []
  | Part p :: r => paras last y [p] ++ slip_paras pn (paras_end last y [p]) (y + part_height p) r
  | Picture a m w h d :: r =>
      mk_para (h * dot_height m) (y - last) (picture_html pn a m w h d) :: slip_paras pn (y + h * dot_height m) (y + h * dot_height m) r
  end.
(** Where the last paragraph ends. *)
Fixpoint slip_end (last y : Z) (l : list element) : Z :=
  match l with
  | [] => last
  | Part p :: r => slip_end (paras_end last y [p]) (y + part_height p) r
  | Picture a m w h d :: r => slip_end (y + h * dot_height m) (y + h * dot_height m) r
  end.
Definition slip_html (pn : pngs) (head tail : list Z) (l : list element) : list Z :=
  page_around head tail (paper_style (108 + slip_height l - slip_end 108 108 l))
    (concat (map para_html (mk_para 108 0 [] :: slip_paras pn 108 108 l))).
Definition no_brace_in (e : element) : Prop := match e with Part p => no_brace p | Picture _ _ _ _ _ => True end.
(** Pictures have at least one row. *)
Definition some_rows (e : element) : Prop := match e with Part _ => True | Picture _ _ _ h _ => 0 < h end.
