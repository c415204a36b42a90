(** * Parser: model of thermal_parser/src/parser.rs *)
From Verif Require Import Base Command CommandSet.

(** parser.rs:6-14.  [match_depth] is a [nat]: command prefixes have at most 3 bytes, so the
    Rust [u8] counter cannot overflow.  [cmd_set] is passed separately. *)
Record pstate := mk_pstate {
  p_depth : nat;
  p_matches : list command;
  p_current : option command;
  p_default : bool;
  p_buffer : list Z;
  p_captured : list command }.

(** parser.rs:17-27 *)
Definition parser_new : pstate :=
  {| p_depth := 0; p_matches := []; p_current := None; p_default := false; p_buffer := [];
     p_captured := [] |}.

(** parser.rs:56-78: the commands appended to the captured list when [cmd] is emitted. *)
Definition emitted (cmd : command) : list command :=
  match c_kind cmd with
  | KSubcommand =>
      match get_subcommand (c_handler cmd) with
      | Some s => [ {| c_name := sc_name s; c_commands := c_commands cmd ++ sc_commands s;
                       c_data := sc_data s; c_kind := sc_kind s; c_dkind := DSubcommand;
                       c_handler := HSubPlain (sc_id s) |} ]
      | None => []
      end
  | _ => [cmd]
  end.

Definition emitted_opt (o : option command) : list command :=
  match o with Some c => emitted c | None => [] end.

(** parser.rs:102-108: the loop filtering the candidate commands. *)
Definition matching (subset : list command) (depth : nat) (byte : Z) : list command :=
  filter (fun c => match nth_error (c_commands c) depth with
                   | Some b => b =? byte
                   | None => false
                   end) subset.

(** parser.rs:91-178: everything after the "willing to accept" fast path. *)
Definition parse_match (cs : command_set) (st : pstate) (byte : Z) : res pstate :=
  let buffer := p_buffer st ++ [byte] in
  let subset := if (p_depth st =? 0)%nat then cs_commands cs else p_matches st in
  let ms := matching subset (p_depth st) byte in
  match ms with
  | [c] =>
      if negb ((length (c_commands c) - 1) =? p_depth st)%nat then
        Ok {| p_depth := S (p_depth st); p_matches := ms; p_current := p_current st;
              p_default := p_default st; p_buffer := buffer; p_captured := p_captured st |}
      else
        Ok {| p_depth := 0; p_matches := ms; p_current := Some c; p_default := false;
              p_buffer := []; p_captured := p_captured st ++ emitted_opt (p_current st) |}
  | [] =>
      if mem_byte (hd 0 buffer) (c_commands (cs_unknown cs)) then
        (* a new unknown command holding the whole buffer *)
        Ok {| p_depth := 0; p_matches := [];
              p_current := Some (with_data (cs_unknown cs) buffer);
              p_default := true; p_buffer := [];
              p_captured := p_captured st ++
                            match p_current st with
                            | Some c => emitted c
                            | None => emitted (cs_unknown cs)
                            end |}
      else if p_default st then
        (* append to the running default (or unknown) command *)
        do cur <- (match p_current st with
                   | Some c => do r <- cmd_push c byte; Ok (Some (snd r))
                   | None => Ok None
                   end);
        Ok {| p_depth := 0; p_matches := []; p_current := cur; p_default := true;
              p_buffer := []; p_captured := p_captured st |}
      else
        (* a new default (text) command *)
        do r <- cmd_push (cs_default cs) byte;
        Ok {| p_depth := 0; p_matches := []; p_current := Some (snd r);
              p_default := true; p_buffer := [];
              p_captured := p_captured st ++
                            match p_current st with
                            | Some c => emitted c
                            | None => emitted (cs_unknown cs)
                            end |}
  | _ =>
      Ok {| p_depth := S (p_depth st); p_matches := ms; p_current := p_current st;
            p_default := p_default st; p_buffer := buffer; p_captured := p_captured st |}
  end.

(** parser.rs:80-179 [Parser::parse] *)
Definition parse_byte (cs : command_set) (st : pstate) (byte : Z) : res pstate :=
  if (p_depth st =? 0)%nat && negb (p_default st) then
    match p_current st with
    | Some c =>
        do r <- cmd_push c byte;
        let '(accepted, c') := r in
        let st' := {| p_depth := p_depth st; p_matches := p_matches st; p_current := Some c';
                      p_default := p_default st; p_buffer := p_buffer st;
                      p_captured := p_captured st |} in
        if accepted then Ok st' else parse_match cs st' byte
    | None => parse_match cs st byte
    end
  else parse_match cs st byte.

Fixpoint parse_all (cs : command_set) (st : pstate) (bytes : list Z) : res pstate :=
  match bytes with
  | [] => Ok st
  | b :: rest => do st' <- parse_byte cs st b; parse_all cs st' rest
  end.

(** parser.rs:29-54 [Parser::parse_bytes]: result and the parser left behind. *)
Definition parse_bytes (cs : command_set) (st : pstate) (bytes : list Z)
  : res (list command * pstate) :=
  let st0 := {| p_depth := p_depth st; p_matches := p_matches st; p_current := p_current st;
                p_default := p_default st; p_buffer := p_buffer st;
                p_captured := p_captured st ++ emitted (cs_begin cs) |} in
  do st1 <- parse_all cs st0 bytes;
  let captured := p_captured st1 ++ emitted_opt (p_current st1) ++ emitted (cs_end cs) in
  Ok (captured,
      {| p_depth := 0; p_matches := []; p_current := None; p_default := false; p_buffer := [];
         p_captured := [] |}).

(** lib.rs [parse_esc_pos]: a fresh parser over the ESC/POS command set. *)
Definition parse_esc_pos (bytes : list Z) : res (list command) :=
  do r <- parse_bytes esc_pos parser_new bytes; Ok (fst r).
