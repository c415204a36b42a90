(** * SpecTicketHtml: a receipt with pictures and barcodes (SpecTicket), from the bytes to the HTML document.

    A barcode becomes one paragraph with one drawing: a rectangle for every module that is a bar. *)
From Verif Require Import Base Vec GTypes ThermalFile HtmlTemplate HtmlRenderer SpecHtml SpecPlain SpecReceipt SpecReceiptHtml SpecSlip SpecSlipHtml SpecTicket.
Local Open Scope Z_scope.
Local Open Scope list_scope.

(** Which modules are bars, the first module having the number [k]. *)
Fixpoint bar_numbers (k : Z) (ms : list Z) : list Z :=
  match ms with [] => [] | m :: r => (if 0 <? m then [k] else []) ++ bar_numbers (k + 1) r end.
(** The drawing begins at the first bar, [first], and ends with the last one. *)
Definition bar_html (first k : Z) : list Z := str "<rect width='3' height='40' x='" ++ dec_u32 (3 * (k - first)) ++ str "' y='0' fill='black' />".
Definition bars_html (a : Z) (ms : list Z) : list Z :=
  let bars := bar_numbers 0 ms in
  let first := hd 0 bars in
  str "<svg style='left: " ++ dec_u32 (place a (symbol_width ms) + 3 * first) ++ str "px;' class='gfx' width='" ++ dec_u32 (3 * (last bars 0 - first) + 3) ++
  str "' height='40'>" ++ between [10] (map (bar_html first) bars) ++ str "</svg>".

(** The paragraphs, when the next entry begins in row [y] and the paragraph before ends in row [last]. *)
Fixpoint ticket_paras (pn : pngs) (last y : Z) (l : list entry) : list para :=
  match l with
  | [] => []
  | Element q :: r => slip_paras pn last y [q] ++ ticket_paras pn (slip_end last y [q]) (y + element_height q) r
  | Bars a m d ms :: r => mk_para 40 (y - last) (bars_html a ms) :: ticket_paras pn (y + 40) (y + 40) r
  end.
(** Where the last paragraph ends. *)
Fixpoint ticket_end (last y : Z) (l : list entry) : Z :=
  match l with
  | [] => last
  | Element q :: r => ticket_end (slip_end last y [q]) (y + element_height q) r
  | Bars a m d ms :: r => ticket_end (y + 40) (y + 40) r
  end.
Definition ticket_html (pn : pngs) (head tail : list Z) (l : list entry) : list Z :=
  page_around head tail (paper_style (108 + ticket_height l - ticket_end 108 108 l))
    (concat (map para_html (mk_para 108 0 [] :: ticket_paras pn 108 108 l))).
(** Text without an opening brace; symbols with at least one bar. *)
Definition documented (q : entry) : Prop := match q with Element q => no_brace_in q | Bars _ _ _ ms => bar_numbers 0 ms <> [] end.
Definition rows_in (q : entry) : Prop := match q with Element q => some_rows q | Bars _ _ _ _ => True end.
