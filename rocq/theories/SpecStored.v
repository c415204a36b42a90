(** * SpecStored: the vocabulary of C52: pictures kept in the printer under two key bytes, in non-volatile
    memory or as downloaded graphics. *)
From Verif Require Import Base Command GTypes SpecGraphics SpecSymbol SpecMemory.
Local Open Scope Z_scope.
Local Open Scope list_scope.

Inductive place := NV | Downloaded.
(** GS ( L / GS 8 L, function: define in raster format, define in column format, delete all, delete one, print *)
Definition fn_define (p : place) : Z * Z := match p with NV => (67, 68) | Downloaded => (83, 84) end.
Definition fn_delete_all (p : place) : Z := match p with NV => 65 | Downloaded => 81 end.
Definition fn_delete (p : place) : Z := match p with NV => 66 | Downloaded => 82 end.
Definition fn_print (p : place) : Z := match p with NV => 69 | Downloaded => 85 end.

(** What a command does to the picture kept in [p] under the keys [k1] and [k2].  A definition has the
    parameters a k1 k2 b xL xH yL yH and then the picture.  ESC @ deletes all pictures. *)
Inductive effect := Kept | Deleted | Defined (parameters : list Z).
Definition effect_on (p : place) (k1 k2 : Z) (c : command) : effect :=
  if list_eq_dec Z.eq_dec (c_commands c) [27; 64] then Deleted
  else match picture_function c with
       | None => Kept
       | Some fn =>
           if (fn =? fst (fn_define p)) || (fn =? snd (fn_define p)) then
             match c_data c with
             | a :: q1 :: q2 :: b :: _ :: _ :: _ :: _ :: _ => if (q1 =? k1) && (q2 =? k2) then Defined (c_data c) else Kept
             | _ => Kept
             end
           else if fn =? fn_delete_all p then Deleted
           else if fn =? fn_delete p then
             match c_data c with q1 :: q2 :: _ => if (q1 =? k1) && (q2 =? k2) then Deleted else Kept | _ => Kept end
           else Kept
       end.
(** The picture kept after a sequence of commands: that of the last definition not deleted since. *)
Definition kept (p : place) (k1 k2 : Z) (l : list command) : option (list Z) :=
  fold_left (fun old c => match effect_on p k1 k2 c with Kept => old | Deleted => None | Defined d => Some d end) l None.

(** The colours of the planes of a picture.  Colour 3 is the blue (27, 57, 169) everywhere else; in
    pictures its blue channel is lost (C15_raster_ink_refuted). *)
Definition plane_colour (n : Z) : rgba :=
  if n =? 0 then mk_rgba 255 255 255 255
  else if (n =? 2) || (n =? 50) then mk_rgba 158 22 22 255
  else if (n =? 3) || (n =? 51) then mk_rgba 27 57 57 255
  else mk_rgba 0 0 0 255.
(** One dot of a picture of [w] dots a row, whose planes are colour number and dots in raster format: the
    last plane that has the dot shows, without ink in any plane the dot stays transparent. *)
Definition plane_dot (w x y : Z) (pl : Z * list Z) : rgba := ink (plane_colour (fst pl)) (raster_dot (snd pl) w x y).
Definition picture_dot (w : Z) (first : Z * list Z) (more : list (Z * list Z)) (x y : Z) : rgba :=
  topmost (plane_dot w x y first) (map (plane_dot w x y) more).
Definition planes_data (l : list (Z * list Z)) : list Z := flat_map (fun pl => fst pl :: snd pl) l.
