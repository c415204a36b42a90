(** * SpecQr: the vocabulary of C51: which QR symbol is printed, and what it looks like on paper. *)
From Verif Require Import Base Command Vec GTypes Handlers SpecMemory.
Local Open Scope Z_scope.
Local Open Scope list_scope.

(** What the printer remembers of the GS ( k commands for QR symbols (cn = 49): the model (fn 65), the
    error correction level (fn 69), the size of a module in dots (fn 67) and the symbol of the last
    data stored (fn 80): its modules row by row, the number of modules in a row, and the size of a
    module when it was stored. *)
Record qr_memory := mk_qr_memory {
  qr_kind : qr_model;
  qr_level : qr_ec;
  qr_dot : Z;
  qr_saved : option (list bool * Z * Z) }.
Definition qr_fresh : qr_memory := mk_qr_memory QrModel1 QrL 3 None.

(** The capacities of versions 1 - 40 (8-bit data, level L), and the version asked for: the first that
    has room, at most the last one of the model.  Lengths are kept in 16 signed bits. *)
Definition qr_capacities : list Z :=
  [17; 32; 53; 78; 106; 134; 154; 192; 230; 271; 321; 367; 425; 458; 520; 586; 644; 718; 792; 858;
   929; 1003; 1091; 1171; 1273; 1367; 1465; 1528; 1628; 1732; 1840; 1952; 2068; 2188; 2303; 2431; 2563; 2699; 2809; 2953].
Definition versions (top : nat) : list nat := seq 1 top.
Definition qr_version (m : qr_model) (n : Z) : Z :=
  let top := match m with QrModel1 => 14 | QrModel2 => 40 | QrMicro => 4 end%nat in
  let n := (n + 32768) mod 65536 - 32768 in
  Z.of_nat (match find (fun v => n <=? nth (v - 1) qr_capacities 0) (versions top) with Some v => v | None => top end).
(** the first parameter byte *)
Definition first_byte (d : Z) (c : command) : Z := match c_data c with b :: _ => b | [] => d end.

(** How a command changes this memory; [e] stands for the QR encoder of the external crate. *)
Definition qr_after (e : encoders) (k : qr_memory) (c : command) : qr_memory :=
  if list_eq_dec Z.eq_dec (c_commands c) [27; 64] then qr_fresh
  else match symbol_function c with
       | Some (49, 65) =>
           let n := first_byte 49 c in
           mk_qr_memory (if n =? 50 then QrModel2 else if n =? 51 then QrMicro else QrModel1) (qr_level k) (qr_dot k) (qr_saved k)
       | Some (49, 67) => mk_qr_memory (qr_kind k) (qr_level k) (first_byte 1 c) (qr_saved k)
       | Some (49, 69) =>
           let n := first_byte 48 c in
           mk_qr_memory (qr_kind k) (if n =? 1 then QrM else if n =? 2 then QrQ else if n =? 3 then QrH else QrL) (qr_dot k) (qr_saved k)
       | Some (49, 80) =>
           match e_qr e (c_data c) (match qr_kind k with QrMicro => true | _ => false end) (qr_version (qr_kind k) (vlen (c_data c))) (qr_level k) with
           | Some (modules, w) => mk_qr_memory (qr_kind k) (qr_level k) (qr_dot k) (Some (modules, w, qr_dot k))
           | None => k
           end
       | _ => k
       end.
Definition qr_remembered (e : encoders) (l : list command) : qr_memory := fold_left (qr_after e) l qr_fresh.

(** The dark modules of a symbol with [w] modules in a row, each a square of [d] dots, the upper left
    corner at (x, y); [k] numbers the modules row by row. *)
Fixpoint grid (x y d w k : Z) (modules : list bool) : list rectangle :=
  match modules with
  | [] => []
  | b :: r => (if b then [mk_rectangle (x + (k mod w) * d) (y + (k / w) * d) d d] else []) ++ grid x y d w (k + 1) r
  end.
