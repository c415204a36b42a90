(** * Utf8: the two Rust library decoders the crate relies on.

    [String::from_utf8_lossy] and [str::from_utf8] are not part of the repository; they are
    modelled here from the Rust library documentation and source (core::str::lossy::Utf8Chunks:
    one U+FFFD per maximal invalid prefix), because Codepage::decode_utf8 (decoder/mod.rs:25),
    thermal_file.rs:217,286 and commands/barcode.rs:117 call them. *)
From Verif Require Import Base.

Definition is_cont (b : Z) : bool := (128 <=? b) && (b <=? 191).
(** admissible second byte after lead byte [b] of a 3-byte sequence *)
Definition second3 (b c : Z) : bool :=
  if b =? 224 then (160 <=? c) && (c <=? 191)
  else if b =? 237 then (128 <=? c) && (c <=? 159)
  else is_cont c.
(** admissible second byte after lead byte [b] of a 4-byte sequence *)
Definition second4 (b c : Z) : bool :=
  if b =? 240 then (144 <=? c) && (c <=? 191)
  else if b =? 244 then (128 <=? c) && (c <=? 143)
  else is_cont c.
Definition lead2 (b : Z) : bool := (194 <=? b) && (b <=? 223).
Definition lead3 (b : Z) : bool := (224 <=? b) && (b <=? 239).
Definition lead4 (b : Z) : bool := (240 <=? b) && (b <=? 244).
Definition ucp2 (b c : Z) : Z := (b - 192) * 64 + (c - 128).
Definition ucp3 (b c d : Z) : Z := (b - 224) * 4096 + (c - 128) * 64 + (d - 128).
Definition ucp4 (b c d e : Z) : Z := (b - 240) * 262144 + (c - 128) * 4096 + (d - 128) * 64 + (e - 128).
Definition REPLACEMENT := 65533.

Fixpoint from_utf8_lossy (l : list Z) : list Z :=
  match l with
  | [] => []
  | b :: r1 =>
      if b <? 128 then b :: from_utf8_lossy r1
      else if lead2 b then
        match r1 with
        | c :: r2 => if is_cont c then ucp2 b c :: from_utf8_lossy r2 else REPLACEMENT :: from_utf8_lossy r1
        | [] => [REPLACEMENT]
        end
      else if lead3 b then
        match r1 with
        | c :: r2 =>
            if second3 b c then
              match r2 with
              | d :: r3 => if is_cont d then ucp3 b c d :: from_utf8_lossy r3 else REPLACEMENT :: from_utf8_lossy r2
              | [] => [REPLACEMENT]
              end
            else REPLACEMENT :: from_utf8_lossy r1
        | [] => [REPLACEMENT]
        end
      else if lead4 b then
        match r1 with
        | c :: r2 =>
            if second4 b c then
              match r2 with
              | d :: r3 =>
                  if is_cont d then
                    match r3 with
                    | e :: r4 => if is_cont e then ucp4 b c d e :: from_utf8_lossy r4 else REPLACEMENT :: from_utf8_lossy r3
                    | [] => [REPLACEMENT]
                    end
                  else REPLACEMENT :: from_utf8_lossy r2
              | [] => [REPLACEMENT]
              end
            else REPLACEMENT :: from_utf8_lossy r1
        | [] => [REPLACEMENT]
        end
      else REPLACEMENT :: from_utf8_lossy r1
  end.

(** [str::from_utf8]: [Some] the decoded string, or [None] when the bytes are not valid UTF-8 *)
Fixpoint from_utf8 (l : list Z) : option (list Z) :=
  let cons c r := match r with Some r => Some (c :: r) | None => None end in
  match l with
  | [] => Some []
  | b :: r1 =>
      if b <? 128 then cons b (from_utf8 r1)
      else if lead2 b then
        match r1 with
        | c :: r2 => if is_cont c then cons (ucp2 b c) (from_utf8 r2) else None
        | [] => None
        end
      else if lead3 b then
        match r1 with
        | c :: d :: r3 => if second3 b c && is_cont d then cons (ucp3 b c d) (from_utf8 r3) else None
        | _ => None
        end
      else if lead4 b then
        match r1 with
        | c :: d :: e :: r4 =>
            if second4 b c && is_cont d && is_cont e then cons (ucp4 b c d e) (from_utf8 r4) else None
        | _ => None
        end
      else None
  end.
