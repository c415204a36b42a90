(** * SpecError: the vocabulary of C47, what is reported as an error. *)
From Verif Require Import Base Command Parser GTypes Context Handlers Renderer.
Local Open Scope Z_scope.
Local Open Scope list_scope.

(** What a command is complained about when the settings are [x]: an unrecognised command by name, a
    graphics command (barcode, image, 2D code) whose data cannot be turned into a picture. *)
Definition complaints (e : encoders) (c : command) (x : context) : list render_error :=
  match c_kind c with
  | KUnknown => [UnknownCommand c]
  | KGraphics => match get_graphics e c x with Ok (Some (GError m)) => [GraphicsError m] | _ => [] end
  | _ => []
  end.
(** ... and a run of commands, each under the settings it meets *)
Fixpoint complaints_run (e : encoders) (l : list command) (s : rstate) : list render_error :=
  match l with
  | [] => []
  | c :: r => complaints e c (rs_ctx s) ++
              match process_command e c s with Ok s' => complaints_run e r s' | Panic _ => [] end
  end.
Definition is_unknown (c : command) : bool := match c_kind c with KUnknown => true | _ => false end.
(** the unrecognised commands among the errors *)
Definition unknowns (l : list render_error) : list command :=
  flat_map (fun r => match r with UnknownCommand c => [c] | GraphicsError _ => [] end) l.
