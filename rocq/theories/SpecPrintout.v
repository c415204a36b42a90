(** * SpecPrintout: everything an HTML receipt has a row for, pages included.

    In HTML, too, page mode draws on a page beside the paper; a printed page becomes a picture. *)
From Verif Require Import Base Vec GTypes Graphics Context Renderer ThermalImage SpecCanvas ImageRenderer SpecImage SpecDesk SpecHtml.
Local Open Scope Z_scope.
Local Open Scope list_scope.

(** The dots of a page, row by row. *)
Definition dots_of (l : leaf) : list rgba := map (fun k => lf_pic l (k mod lf_w l) (k / lf_w l)) (zrange (lf_w l * lf_h l)).
(** The page, turned so that it can be read, as a picture where the paper stands. *)
Definition page_picture (x : context) (l : leaf) : image :=
  let up := upright x l in let a := g_render_area (c_graphics x) in
  mk_image (dots_of up) (a_x a) (a_y a) (lf_w up) (lf_h up) FlowBlock false.
(** What is printed, in order: each thing printed outside page mode, and a picture for each page.
    [d] is the sheet and the page before the calls (SpecDesk). *)
Fixpoint printouts (fo : fonts) (d : desk) (calls : list (context * event)) : list event :=
  match calls with
  | [] => []
  | (x, ev) :: r =>
      match ev with
      | ERenderPage => [EImage (page_picture x (dk_leaf d))]
      | _ => if negb (p_enabled (c_page x)) && draws ev then [ev] else []
      end ++ printouts fo (desk_call fo 609 (x, ev) d) r
  end.
