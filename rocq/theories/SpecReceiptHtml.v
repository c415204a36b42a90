(** * SpecReceiptHtml: a receipt of parts (SpecReceipt), from the bytes to the HTML document.

    Every line becomes one paragraph; every word of it, with the space that ends it, one element of the
    style sheet's classes, at its distance from the left edge. *)
From Verif Require Import Base Vec GTypes ThermalFile HtmlTemplate HtmlRenderer SpecHtml SpecPlain SpecReceipt.
Local Open Scope Z_scope.
Local Open Scope list_scope.

(** The words of a line: each ends with its space. *)
Fixpoint line_words (t : list Z) : list (list Z) :=
  match t with
  | [] => []
  | c :: r => if c =? 32 then [c] :: line_words r
              else match line_words r with [] => [[c]] | w :: ws => (c :: w) :: ws end
  end.

(** The classes of a style: bold, enlarged in width or height (and then to be stretched), underlined, small font. *)
Definition style_classes (n : Z) : list (list Z) :=
  (if bold_face n then [str "b"] else []) ++
  (if wide n =? 2 then [str "w2"] else []) ++ (if tall n =? 2 then [str "h2"] else []) ++
  (if (wide n =? 2) || (tall n =? 2) then [str "str"] else []) ++
  (if underlined n then [str "u"; str "ud"] else []) ++
  (if small_font n then [str "fb"] else []).
Definition between (sep : list Z) (l : list (list Z)) : list Z :=
  match l with [] => [] | x :: r => x ++ flat_map (fun y => sep ++ y) r end.
Definition word_html (n x : Z) (w : list Z) : list Z :=
  str "<span style='left: " ++ dec_u32 x ++ str "px; top: 0px' class='" ++ between (str " ") (style_classes n) ++ str "'>" ++ w ++ str "</span>".
(** The words of a line, the first at column [x]; line feeds between them. *)
Fixpoint words_html (n x : Z) (ws : list (list Z)) : list (list Z) :=
  match ws with [] => [] | w :: r => word_html n x w :: words_html n (x + Z.of_nat (length w) * cell_width n) r end.
Definition line_html (n a : Z) (t : list Z) : list Z := between [10] (words_html n (indent n a t) (line_words t)).

(** The paragraphs of a receipt whose next part begins in row [y], when the paragraph before ends in row [last]:
    lines without characters, feeds and cuts only make the gap above the next line larger. *)
Fixpoint paras (last y : Z) (l : list part) : list para :=
  match l with
  | [] => []
  | p :: r =>
      match p with
      | Line n a (c :: t) => mk_para (cell_height n) (y - last) (line_html n a (c :: t)) :: paras (y + cell_height n) (y + part_height p) r
      | _ => paras last (y + part_height p) r
      end
  end.
(** Where the last paragraph ends. *)
Fixpoint paras_end (last y : Z) (l : list part) : Z :=
  match l with
  | [] => last
  | p :: r =>
      match p with
      | Line n _ (_ :: _) => paras_end (y + cell_height n) (y + part_height p) r
      | _ => paras_end last (y + part_height p) r
      end
  end.
(** The document: the 108 dots of blank paper at the top, the paragraphs, and the blank paper at the bottom. *)
Definition receipt_html (head tail : list Z) (l : list part) : list Z :=
  page_around head tail (paper_style (108 + receipt_height l - paras_end 108 108 l))
    (concat (map para_html (mk_para 108 0 [] :: paras 108 108 l))).
(** The one character that means something in the template of the document. *)
Definition no_brace (p : part) : Prop := match p with Line _ _ t => Forall (fun c => c <> 123) t | _ => True end.
