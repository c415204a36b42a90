(** * Upce: thermal_parser/src/utils/barcodes/upce.rs *)
From Verif Require Import Base Vec GTypes.
Local Open Scope Z_scope.

(** upce.rs:3 and the two guards and the digit patterns imported from the external crate
    [barcoders::sym::ean13] (upce.rs:1).  The crate's source is not in the repository; the values
    are the published EAN-13 ones (set A = odd parity, set B = even parity, set C = right half). *)
Definition LEFT_GUARD : list Z := [1; 0; 1].
Definition MIDDLE_GUARD : list Z := [0; 1; 0; 1; 0].
Definition UPCE_RIGHT_GUARD : list Z := [1].
Definition ENCODINGS : list (list (list Z)) :=
  [ [ [0;0;0;1;1;0;1]; [0;0;1;1;0;0;1]; [0;0;1;0;0;1;1]; [0;1;1;1;1;0;1]; [0;1;0;0;0;1;1];
      [0;1;1;0;0;0;1]; [0;1;0;1;1;1;1]; [0;1;1;1;0;1;1]; [0;1;1;0;1;1;1]; [0;0;0;1;0;1;1] ];
    [ [0;1;0;0;1;1;1]; [0;1;1;0;0;1;1]; [0;0;1;1;0;1;1]; [0;1;0;0;0;0;1]; [0;0;1;1;1;0;1];
      [0;1;1;1;0;0;1]; [0;0;0;0;1;0;1]; [0;0;1;0;0;0;1]; [0;0;0;1;0;0;1]; [0;0;1;0;1;1;1] ];
    [ [1;1;1;0;0;1;0]; [1;1;0;0;1;1;0]; [1;1;0;1;1;0;0]; [1;0;0;0;0;1;0]; [1;0;1;1;1;0;0];
      [1;0;0;1;1;1;0]; [1;0;1;0;0;0;0]; [1;0;0;0;1;0;0]; [1;0;0;1;0;0;0]; [1;1;1;0;1;0;0] ] ].

(** upce.rs:8-35 *)
Definition UPCE_PARITY_TABLE : list (list (list Z)) :=
  [ [ [1;1;1;0;0;0]; [1;1;0;1;0;0]; [1;1;0;0;1;0]; [1;1;0;0;0;1]; [1;0;1;1;0;0];
      [1;0;0;1;1;0]; [1;0;0;0;1;1]; [1;0;1;0;1;0]; [1;0;1;0;0;1]; [1;0;0;1;0;1] ];
    [ [0;0;0;1;1;1]; [0;0;1;0;1;1]; [0;0;1;1;0;1]; [0;0;1;1;1;0]; [0;1;0;0;1;1];
      [0;1;1;0;0;1]; [0;1;1;1;0;0]; [0;1;0;1;0;1]; [0;1;0;1;1;0]; [0;1;1;0;1;0] ] ].

(** Result<UPCE, String>: the code digits, or the error message *)
Inductive upce_result :=
| UOk (digits : list Z)
| UErr (msg : string).
Arguments UErr msg%string.

(** upce.rs:309-327: odds/evens are u8 and checked; [i + 1] odd is the "odds" sum.
    [odds] and [evens] start at 0; overflow would panic. *)
Fixpoint sum_digits (odd_position : bool) (odds evens : Z) (l : list Z) : res (Z * Z) :=
  match l with
  | [] => Ok (odds, evens)
  | d :: r =>
      if odd_position then do o <- add_u8 odds d; sum_digits false o evens r
      else do e <- add_u8 evens d; sum_digits true odds e r
  end.
Definition calculate_checkdigit (data : list Z) : res Z :=
  do (odds, evens) <- sum_digits true 0 0 data;
  do odds3 <- chk 0 u8_max (odds * 3);
  do s <- add_u8 odds3 evens;
  Ok (let n := 10 - s mod 10 in if n =? 10 then 0 else n).

(** upce.rs:154-252.  A slice of length 12 is matched directly; the manufacturer code is
    [m0 m1 m2 m3 m4], the product code [p0 p1 p2 p3 p4]. *)
Definition from_upc_a (upc_a : list Z) : upce_result :=
  match upc_a with
  | [nsys; m0; m1; m2; m3; m4; p0; p1; p2; p3; p4; chck] =>
      if negb (nsys =? 1) && negb (nsys =? 0) then
        UErr "Invalid UPCA: The number system (first digit) should be 0 or 1."
      else if ((m2 =? 0) && (m3 =? 0) && (m4 =? 0)) || ((m2 =? 1) && (m3 =? 0) && (m4 =? 0))
              || ((m2 =? 2) && (m3 =? 0) && (m4 =? 0)) then
        if negb (p0 =? 0) && negb (p1 =? 0) then
          UErr "Invalid UPCA: Product code can not be greater than 00999."
        else UOk [nsys; m0; m1; p2; p3; p4; m2; chck]
      else if (m3 =? 0) && (m4 =? 0) then
        if negb (p0 =? 0) && negb (p1 =? 0) then
          UErr "Invalid UPCA: Product code can not be greater than 00999."
        else UOk [nsys; m0; m1; m2; p3; p4; 3; chck]
      else if m4 =? 0 then
        if negb (p0 =? 0) && negb (p1 =? 0) && negb (p2 =? 0) && negb (p3 =? 0) then
          UErr "Invalid UPCA: Product code can not be greater than 00009."
        else UOk [nsys; m0; m1; m2; m3; p4; 4; chck]
      else if negb (m4 =? 0) then
        if negb (p0 =? 0) || negb (p1 =? 0) || negb (p2 =? 0) || negb (p3 =? 0) || (p4 <? 5) || (9 <? p4) then
          UErr "Invalid UPCA: Product code can not be greater than 00005 and less than 00009."
        else UOk [nsys; m0; m1; m2; m3; m4; p4; chck]
      else UErr "Invalid UPCA: Unable to compress into UPCE, manufacturer code does not end in zero."
  | _ => UErr "Invalid UPCA: The UPCA length is not correct, should be 12 digits."
  end.

(** upce.rs:108-140: the expansion of seven digits to eleven *)
Definition expand_upc_e (b0 b1 b2 b3 b4 b5 b6 : Z) : option (list Z) :=
  if (b6 =? 0) || (b6 =? 1) || (b6 =? 2) then Some [b0; b1; b2; b6; 0; 0; 0; 0; b3; b4; b5]
  else if b6 =? 3 then Some [b0; b1; b2; b3; 0; 0; 0; 0; 0; b4; b5]
  else if b6 =? 4 then Some [b0; b1; b2; b3; b4; 0; 0; 0; 0; 0; b5]
  else if (5 <=? b6) && (b6 <=? 9) then Some [b0; b1; b2; b3; b4; b5; 0; 0; 0; 0; b6]
  else None.

(** upce.rs:95-149 *)
Definition from_upc_e (upc_e : list Z) : res upce_result :=
  match upc_e with
  | [b0; b1; b2; b3; b4; b5; b6] =>
      match expand_upc_e b0 b1 b2 b3 b4 b5 b6 with
      | Some upc_a => do c <- calculate_checkdigit upc_a; Ok (from_upc_a (upc_a ++ [c]))
      | None => Ok (UErr "Invalid UPCE: The last digit should be a 3,4,5,6,7,8 or 9")
      end
  | [b0; b1; b2; b3; b4; b5; b6; checksum] =>
      match expand_upc_e b0 b1 b2 b3 b4 b5 b6 with
      | Some upc_a => Ok (from_upc_a (upc_a ++ [checksum]))
      | None => Ok (UErr "Invalid UPCE: The last digit should be a 3,4,5,6,7,8 or 9")
      end
  | _ => Ok (UErr "Invalid UPCE: The UPCE length is not correct, should be 7 or 8 digits.")
  end.

(** [u8::is_ascii_digit] *)
Definition is_ascii_digit (b : Z) : bool := (48 <=? b) && (b <=? 57).

(** upce.rs:47-88.  The argument is the byte sequence of the Rust string. *)
Definition upce_new (data : list Z) : res upce_result :=
  if negb (forallb is_ascii_digit data) then Ok (UErr "Invalid UPCA: Only digits 1 - 9 are valid.")
  else
    let digits := map (fun c => sat_sub c 48) data in
    match length data with
    | 6%nat => from_upc_e (0 :: digits)
    | 7%nat => from_upc_e digits
    | 8%nat => from_upc_e digits
    | 11%nat => do c <- calculate_checkdigit digits; Ok (from_upc_a (digits ++ [c]))
    | 12%nat => Ok (from_upc_a digits)
    | _ => Ok (UErr "Invalid UPCA: Data length is not correct. Valid lengths are 6,7,8,11 and 12")
    end.

(** upce.rs:254-262, 281-291: table lookups are checked index operations *)
Definition get_parity_encoding (code : list Z) : res (list Z) :=
  do d0 <- get_chk PIndex code 0;
  do d7 <- get_chk PIndex code 7;
  do row <- get_chk PIndex UPCE_PARITY_TABLE (Z.to_nat d0);
  get_chk PIndex row (Z.to_nat d7).
Definition char_encoding (side d : Z) : res (list Z) :=
  do row <- get_chk PIndex ENCODINGS (Z.to_nat side);
  get_chk PIndex row (Z.to_nat d).
Fixpoint join_encodings (ds : list (Z * Z)) : res (list Z) :=
  match ds with
  | [] => Ok []
  | (d, s) :: r => do e <- char_encoding s d; do t <- join_encodings r; Ok (e ++ t)
  end.
Definition upce_payload (code : list Z) : res (list Z) :=
  if (length code <? 7)%nat then Panic PIndex   (* the slice [self.0[1..=6]] *)
  else do parity <- get_parity_encoding code;
       join_encodings (combine (firstn 6 (skipn 1 code)) parity).

(** upce.rs:293-304 *)
Definition upce_encode (code : list Z) : res (list Z) :=
  do payload <- upce_payload code;
  Ok (LEFT_GUARD ++ payload ++ MIDDLE_GUARD ++ UPCE_RIGHT_GUARD).
