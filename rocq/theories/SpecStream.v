(** * SpecStream: what an ESC/POS byte stream means, independently of the parser.

    A stream is a sequence of items.  [wire] gives the bytes a printer driver sends for an
    item; [expect] the commands an application should get back for it when something
    follows, [expect_eof] when the stream ends right after it.  Nothing here refers to the
    parser's automaton, handler states or command table. *)
From Verif Require Import Base Command.
Local Open Scope string_scope.
Local Open Scope Z_scope.
Local Open Scope list_scope.

(** The observable part of a returned command: its public fields [name], [kind],
    [commands], [data] and the result of the public [get_command_bytes]. *)
Record ocmd := OC {
  o_name : string;
  o_kind : ckind;
  o_prefix : list Z;
  o_data : list Z;
  o_bytes : list Z * list Z }.

Definition observe (c : command) : ocmd :=
  OC (c_name c) (c_kind c) (c_commands c) (c_data c) (get_command_bytes c).

(** A command whose rebuilt bytes are just its prefix and its data. *)
Definition simple (name : string) (k : ckind) (prefix data : list Z) : ocmd :=
  OC name k prefix data (prefix, data).

Definition o_begin : ocmd := simple "Begin Print" KControl [] [].
Definition o_end : ocmd := simple "End Print" KControl [] [].
Definition o_text (bs : list Z) : ocmd := simple "Text" KText [] bs.
Definition o_unknown (bs : list Z) : ocmd :=
  simple "Unknown Command" KUnknown [16; 27; 28; 29] bs.

(** Fixed-length commands: name, kind, prefix bytes, number of argument bytes. *)
Definition fixed_table : list (string * ckind * list Z * nat) :=
  [
   ("Cancel", KControl, [24; 64], 0%nat);
   ("Line Feed", KText, [13], 0%nat);
   ("Default Line Spacing", KContext, [27; 50], 0%nat);
   ("Form Feed", KControl, [12], 0%nat);
   ("Horizontal Tab", KText, [9], 0%nat);
   ("Initialize", KContextControl, [27; 64], 0%nat);
   ("Line Feed", KText, [10], 0%nat);
   ("Select Paper End Sensors", KControl, [27; 99; 3], 1%nat);
   ("Print and Feed Lines", KControl, [27; 100], 1%nat);
   ("Print and Feed", KControl, [27; 74], 1%nat);
   ("Print and Reverse Feed Lines", KControl, [27; 101], 1%nat);
   ("Print Stop Sensors", KControl, [27; 99; 4], 1%nat);
   ("Pulse", KControl, [27; 112], 3%nat);
   ("Set Absolute Horizontal Position", KContext, [27; 36], 2%nat);
   ("Set Print Color to Alternate", KTextStyle, [27; 114], 1%nat);
   ("Set Barcode Height", KContext, [29; 104], 1%nat);
   ("Set Barcode Width", KContext, [29; 119], 1%nat);
   ("Set Black White Invert", KTextStyle, [29; 66], 1%nat);
   ("Set Character Size", KTextStyle, [29; 33], 1%nat);
   ("Set Code Table", KTextStyle, [27; 116], 1%nat);
   ("Enable Double Strike Through", KTextStyle, [27; 71], 1%nat);
   ("Enable Emphasis", KTextStyle, [27; 69], 1%nat);
   ("Set Font", KTextStyle, [27; 77], 1%nat);
   ("Set Vertical and Horizontal Motion Units", KContext, [29; 80], 2%nat);
   ("Set Hri Barcode Font", KContext, [29; 102], 1%nat);
   ("Set Hri Print POS", KContext, [29; 72], 1%nat);
   ("Set International Character Set", KTextStyle, [27; 82], 1%nat);
   ("Enable Italic", KTextStyle, [27; 52], 1%nat);
   ("Set Text Justification", KControl, [27; 97], 1%nat);
   ("Set Line Spacing", KContext, [27; 51], 1%nat);
   ("Enable Panel Buttons", KControl, [27; 99; 5], 1%nat);
   ("Set Peripheral Device", KControl, [27; 61], 1%nat);
   ("Set Print Mode", KTextStyle, [27; 33], 1%nat);
   ("Set Relative Vertical Position", KContext, [29; 92], 2%nat);
   ("Set Smoothing", KTextStyle, [29; 98], 1%nat);
   ("Set Tab Len", KTextStyle, [27; 68], 2%nat);
   ("Enable Underline", KTextStyle, [27; 45], 1%nat);
   ("Enable Upside Down Mode", KTextStyle, [27; 123], 1%nat);
   ("Transmit Printer ID", KControl, [29; 73], 1%nat);
   ("Set page mode", KContextControl, [27; 76], 0%nat);
   ("Set Absolute Vertical Position", KContext, [29; 36], 2%nat);
   ("Set Print Area", KContextControl, [27; 87], 8%nat);
   ("Set Page Mode Print Direction", KContextControl, [27; 84], 1%nat);
   ("Select standard mode", KContext, [27; 83], 0%nat);
   ("Unknown GS ( G", KContext, [29; 40; 71], 4%nat)
  ].

(** Prefixes of the commands whose length depends on their data. *)
Definition variable_prefixes : list (list Z) :=
  [ [29; 107]        (* GS k    barcode *);
    [27; 42]         (* ESC *   column bit image *);
    [29; 118; 48]    (* GS v 0  raster bit image *);
    [29; 86]         (* GS V    feed and cut *);
    [29; 40; 78]     (* GS ( N  character effects *);
    [27; 12]         (* ESC FF  print page *);
    [29; 40; 107]    (* GS ( k  2D codes *);
    [29; 40; 76]     (* GS ( L  graphics *);
    [29; 56; 76]     (* GS 8 L  large graphics *);
    [29; 40; 72]     (* GS ( H  response request *) ].

Definition all_prefixes : list (list Z) :=
  map (fun '(_, _, p, _) => p) fixed_table ++ variable_prefixes.

(** 2D code functions: (cn, fn) -> name, kind.  (52,67) is what the code registers under
    that key (see [C12] notes: the composite dot-width command is shadowed). *)
Definition code2d_functions : list ((Z * Z) * (string * ckind)) :=
  [
   ((48, 65), ("PDF417 Sets the Column Width", KContext));
   ((48, 66), ("PDF417 Sets the number of rows", KContext));
   ((48, 67), ("PDF417 Sets the Module Width", KContext));
   ((48, 69), ("PDF417 Set Error Correction Level", KContext));
   ((48, 70), ("PDF417 Set Options", KContext));
   ((48, 80), ("PDF417 Store the Code2D data", KContext));
   ((48, 81), ("Print the Code2D data", KGraphics));
   ((48, 82), ("Transmit Size of storage area", KControl));
   ((49, 65), ("QR Sets the Model", KContext));
   ((49, 67), ("QR Sets the dot count", KContext));
   ((49, 69), ("QR Sets Error Correction Level", KContext));
   ((49, 80), ("QR Store the Code2D data", KContext));
   ((49, 81), ("Print the Code2D data", KGraphics));
   ((49, 82), ("Transmit Size of storage area", KControl));
   ((50, 65), ("Maxi Sets the Mode", KContext));
   ((50, 80), ("PDF417 Store the Code2D data", KContext));
   ((50, 81), ("Print the Code2D data", KGraphics));
   ((50, 82), ("Transmit Size of storage area", KControl));
   ((51, 67), ("GS1 Sets the dot Width", KContext));
   ((51, 71), ("GS1 Sets Max Width", KContext));
   ((51, 80), ("PDF417 Store the Code2D data", KContext));
   ((51, 81), ("Print the Code2D data", KGraphics));
   ((51, 82), ("Transmit Size of storage area", KControl));
   ((52, 67), ("Datamatrix Sets the dot Width", KContext));
   ((52, 71), ("Composite Sets Max Width", KContext));
   ((52, 72), ("Composite Sets Human Readable Options", KContext));
   ((52, 80), ("PDF417 Store the Code2D data", KContext));
   ((52, 81), ("Print the Code2D data", KGraphics));
   ((52, 82), ("Transmit Size of storage area", KControl));
   ((53, 66), ("Aztec Set Function and Layers", KContext));
   ((53, 67), ("Aztec Set Size", KContext));
   ((53, 69), ("Aztec Set Error Correction Level", KContext));
   ((53, 80), ("PDF417 Store the Code2D data", KContext));
   ((53, 81), ("Print the Code2D data", KGraphics));
   ((53, 82), ("Transmit Size of storage area", KControl));
   ((54, 66), ("Datamatrix Set Options", KContext));
   ((54, 80), ("PDF417 Store the Code2D data", KContext));
   ((54, 81), ("Print the Code2D data", KGraphics));
   ((54, 82), ("Transmit Size of storage area", KControl))
  ].

(** Graphics functions: fn -> name, kind. *)
Definition graphics_functions : list (Z * (string * ckind)) :=
  [
   (0, ("Get NV Capacity", KControl));
   (1, ("Set Dot Density", KContext));
   (2, ("Print Buffer Graphics", KGraphics));
   (4, ("Get NV Remaining Capacity", KControl));
   (48, ("Get NV Capacity", KControl));
   (49, ("Set Dot Density", KContext));
   (50, ("Print Buffer Graphics", KGraphics));
   (52, ("Get NV Remaining Capacity", KControl));
   (64, ("Get NV Key Codes", KControl));
   (65, ("Clears NV Graphics Data", KContext));
   (66, ("Clear NV Graphic", KContext));
   (67, ("Define NV Graphics in Raster Format", KContext));
   (68, ("Define NV Graphics in Column Format", KContext));
   (69, ("Print NV Graphic", KGraphics));
   (80, ("Get Download RAM Key Codes", KControl));
   (81, ("Clears Download RAM Graphics Data", KContext));
   (82, ("Clear Download (RAM) Graphic", KContext));
   (83, ("Define Download Graphics in Raster Format", KContext));
   (84, ("Define Download Graphics in Column Format", KContext));
   (85, ("Print Download (RAM) Graphics", KGraphics));
   (112, ("Store Print Buffer Graphics Raster Format", KContext));
   (113, ("Store Print Buffer Graphics Table Format", KContext))
  ].

Fixpoint assoc {A B} (eqb : A -> A -> bool) (k : A) (l : list (A * B)) : option B :=
  match l with
  | [] => None
  | (a, b) :: r => if eqb k a then Some b else assoc eqb k r
  end.

Definition code2d_lookup (cn fn : Z) : option (string * ckind) :=
  assoc (fun x y => (fst x =? fst y) && (snd x =? snd y)) (cn, fn) code2d_functions.
Definition graphics_lookup (fn : Z) : option (string * ckind) :=
  assoc Z.eqb fn graphics_functions.

(** The three sub-command families. *)
Inductive family := Code2d | Graphics | LargeGraphics.
Definition fam_prefix (f : family) : list Z :=
  match f with
  | Code2d => [29; 40; 107] | Graphics => [29; 40; 76] | LargeGraphics => [29; 56; 76]
  end.
(** Little-endian length field: two bytes, four for the large family. *)
Definition fam_len (f : family) (n : Z) : list Z :=
  match f with
  | LargeGraphics => [n mod 256; (n / 256) mod 256; (n / 65536) mod 256; n / 16777216]
  | _ => [n mod 256; n / 256]
  end.
Definition fam_max (f : family) : Z :=
  match f with LargeGraphics => 4294967295 | _ => 65535 end.
Definition fam_lookup (f : family) (m fn : Z) : option (string * ckind) :=
  match f with Code2d => code2d_lookup m fn | _ => graphics_lookup fn end.

(** A unit of plain text: an ordinary byte, or a stray CAN followed by a byte other than '@'.
    The parser drops the stray CAN and takes the byte after it as text, whatever it is. *)
Inductive tunit := TB (b : Z) | TC (x : Z).
Definition unit_wire (u : tunit) : list Z := match u with TB b => [b] | TC x => [24; x] end.
Definition unit_show (u : tunit) : list Z := match u with TB b => [b] | TC x => [x] end.
Definition shown (us : list tunit) : list Z := flat_map unit_show us.
(** Bytes that are plain text: all but HT LF FF CR DLE CAN ESC FS GS. *)
Definition text_byte (b : Z) : bool :=
  negb (existsb (Z.eqb b) [9; 10; 12; 13; 16; 24; 27; 28; 29]).
Definition unit_ok (u : tunit) : bool :=
  match u with TB b => text_byte b | TC x => negb (x =? 64) end.

Inductive item :=
| IFixed (name : string) (k : ckind) (prefix args : list Z)
| IText (us : list tunit)
| IUnknown (u : list Z) (us : list tunit)   (* unrecognised sequence, then plain text *)
| IBarcodeNul (m : Z) (payload : list Z)    (* GS k m d1..dn NUL *)
| IBarcodeLen (m : Z) (payload : list Z)    (* GS k m n d1..dn *)
| IBarcodeBad (m : Z)                       (* GS k m, m not a known system *)
| IBitImage (m nl nh : Z) (payload : list Z)
| IRaster (m xl xh yl yh : Z) (payload : list Z)
| ICut (m : Z)
| ICutFeed (m n : Z)
| ICharEffects (pl ph : Z) (payload : list Z)
| IPrintPage
| ISub (f : family) (m fn : Z) (payload : list Z)
| IRequest (m fn : Z) (payload : list Z).

Definition zlen (l : list Z) : Z := Z.of_nat (length l).
Definition header (f : family) (m fn : Z) (payload : list Z) : list Z :=
  fam_len f (zlen payload + 2) ++ [m; fn].

(** Bytes on the wire. *)
Definition wire (i : item) : list Z :=
  match i with
  | IFixed _ _ p args => p ++ args
  | IText us => flat_map unit_wire us
  | IUnknown u us => u ++ flat_map unit_wire us
  | IBarcodeNul m d => [29; 107; m] ++ d ++ [0]
  | IBarcodeLen m d => [29; 107; m; zlen d] ++ d
  | IBarcodeBad m => [29; 107; m]
  | IBitImage m nl nh d => [27; 42; m; nl; nh] ++ d
  | IRaster m xl xh yl yh d => [29; 118; 48; m; xl; xh; yl; yh] ++ d
  | ICut m => [29; 86; m]
  | ICutFeed m n => [29; 86; m; n]
  | ICharEffects pl ph d => [29; 40; 78; pl; ph] ++ d
  | IPrintPage => [27; 12]
  | ISub f m fn d => fam_prefix f ++ header f m fn d ++ d
  | IRequest m fn d => [29; 40; 72] ++ header Code2d m fn d ++ d
  end.

(** The commands an application gets for an item that is followed by another byte. *)
Definition expect (i : item) : list ocmd :=
  match i with
  | IFixed name k p args => [simple name k p args]
  | IText us => [o_text (shown us)]
  | IUnknown u us => [o_unknown (u ++ shown us)]
  | IBarcodeNul m d => [OC "Barcode" KGraphics [29; 107] d ([29; 107; m], d ++ [0])]
  | IBarcodeLen m d => [OC "Barcode" KGraphics [29; 107] d ([29; 107; m; zlen d], d)]
  | IBarcodeBad m => [OC "Barcode" KGraphics [29; 107] [] ([29; 107; m], [])]
  | IBitImage m nl nh d =>
      [OC "Bit Image" KGraphics [27; 42] d ([27; 42], [m; nl; nh] ++ d)]
  | IRaster m xl xh yl yh d =>
      [OC "Raster Bit Image" KGraphics [29; 118; 48] d
          ([29; 118; 48], [m; xl; xh; yl; yh] ++ d)]
  | ICut m => [simple "Feed and Cut" KControl [29; 86] [m]]
  | ICutFeed m n => [simple "Feed and Cut" KControl [29; 86] [m; n]]
  | ICharEffects pl ph d =>
      [simple "Set Character Effects" KTextStyle [29; 40; 78] ([pl; ph] ++ d)]
  | IPrintPage => [simple "Print Contents of Page Mode" KControl [27; 12] []]
  | ISub f m fn d =>
      match fam_lookup f m fn with
      | Some (name, k) => [simple name k (fam_prefix f ++ header f m fn d) d]
      | None => []
      end
  | IRequest m fn d =>
      [simple "Request Response Transmission" KControl [29; 40; 72] d]
  end.

(** The same when the stream ends right after the item.  Three kinds of item differ:
    a sub-command's payload is lost (an empty one vanishes altogether), a NUL terminated
    barcode keeps its terminator, a response request without payload shows its header. *)
Definition expect_eof (i : item) : list ocmd :=
  match i with
  | IBarcodeNul m d =>
      [OC "Barcode" KGraphics [29; 107] (d ++ [0]) ([29; 107; m], d ++ [0; 0])]
  | ISub f m fn d =>
      match d, fam_lookup f m fn with
      | _ :: _, Some (name, k) => [simple name k (fam_prefix f ++ header f m fn d) []]
      | _, _ => []
      end
  | IRequest m fn [] =>
      [simple "Request Response Transmission" KControl [29; 40; 72] (header Code2d m fn [])]
  | _ => expect i
  end.

Fixpoint is_prefix (p l : list Z) : bool :=
  match p, l with
  | [], _ => true
  | a :: p', b :: l' => (a =? b) && is_prefix p' l'
  | _ :: _, [] => false
  end.

(** [u] is an unrecognised sequence: it starts with DLE, ESC, FS or GS, is not the beginning
    of any command prefix, and becomes one when its last byte is removed. *)
Definition unrecognised (u : list Z) : bool :=
  match u with
  | [] => false
  | b :: _ => existsb (Z.eqb b) [16; 27; 28; 29]
  end
  && negb (existsb (is_prefix u) all_prefixes)
  && match removelast u with
     | [] => true
     | p => existsb (is_prefix p) all_prefixes && negb (existsb (fun q => is_prefix q p) all_prefixes)
     end.

Definition in_fixed (name : string) (k : ckind) (p : list Z) (n : nat) : Prop :=
  In (name, k, p, n) fixed_table.

(** Well-formed items: lengths agree with what the headers announce. *)
Definition item_ok (i : item) : Prop :=
  match i with
  | IFixed name k p args => in_fixed name k p (length args)
  | IText us => us <> [] /\ forallb unit_ok us = true
  | IUnknown u us => unrecognised u = true /\ forallb unit_ok us = true
  | IBarcodeNul m d => 0 <= m <= 6 /\ ~ In 0 d
  | IBarcodeLen m d => 65 <= m <= 79 /\ zlen d <= 255
  | IBarcodeBad m => 6 < m < 65 \/ 79 < m
  | IBitImage m nl nh d =>
      zlen d = (nl + 256 * nh) * (if (m =? 32) || (m =? 33) then 3 else 1)
  | IRaster m xl xh yl yh d => zlen d = (xl + 256 * xh) * (yl + 256 * yh)
  | ICut m => In m [0; 1; 48; 49]
  | ICutFeed m n => ~ In m [0; 1; 48; 49]
  | ICharEffects pl ph d => d <> [] /\ zlen d = Z.max 1 (pl + 256 * ph)
  | IPrintPage => True
  | ISub f m fn d => zlen d + 2 <= fam_max f
  | IRequest m fn d => zlen d + 2 <= 65535
  end.

(** Items that keep absorbing plain bytes. *)
Definition open_ended (i : item) : bool :=
  match i with IText _ | IUnknown _ _ => true | _ => false end.
Definition is_text (i : item) : bool := match i with IText _ => true | _ => false end.

(** A text run never follows text or an unrecognised sequence (it would be the same run). *)
Fixpoint separated (l : list item) : bool :=
  match l with
  | a :: ((b :: _) as r) => negb (open_ended a && is_text b) && separated r
  | _ => true
  end.

Definition stream_ok (l : list item) : Prop := Forall item_ok l /\ separated l = true.

Definition encode (l : list item) : list Z := flat_map wire l.

Fixpoint expect_all (l : list item) : list ocmd :=
  match l with
  | [] => []
  | [i] => expect_eof i
  | i :: r => expect i ++ expect_all r
  end.

(** When the very first thing in a stream is text or an unrecognised sequence the parser
    additionally reports one empty unknown command. *)
Definition lead (l : list item) : list ocmd :=
  match l with
  | i :: _ => if open_ended i then [o_unknown []] else []
  | [] => []
  end.

Definition parse_spec (l : list item) : list ocmd :=
  [o_begin] ++ lead l ++ expect_all l ++ [o_end].


(** ** Truncated streams.
    What may be left at the end of a byte string after its complete items. *)
Inductive tail :=
| TNone
| TPrefix (q : list Z)                          (* part of a command prefix *)
| TFixed (name : string) (k : ckind) (p args : list Z)
| TBarcodeKind                                  (* GS k *)
| TBarcodeNul (m : Z) (d : list Z)              (* terminator missing *)
| TBarcodeSize (m : Z)                          (* size byte missing *)
| TBarcodeLen (m n : Z) (d : list Z)            (* fewer than n bytes *)
| TBitImageHdr (args : list Z)
| TBitImage (m nl nh : Z) (d : list Z)
| TRasterHdr (args : list Z)
| TRaster (m xl xh yl yh : Z) (d : list Z)
| TCut (args : list Z)
| TCharEffectsHdr (args : list Z)
| TCharEffects (pl ph : Z) (d : list Z)
| TSubHdr (f : family) (args : list Z)          (* header incomplete, or complete and last *)
| TSub (f : family) (n m fn : Z) (d : list Z)   (* payload begun but incomplete *)
| TRequestHdr (args : list Z)
| TRequest (n m fn : Z) (d : list Z).

Definition hdr_len (f : family) : nat := match f with LargeGraphics => 6 | _ => 4 end.
(** The value of the length field of a header. *)
Definition hdr_value (f : family) (hdr : list Z) : Z :=
  let b i := nth i hdr 0 in
  match f with
  | LargeGraphics => b 0%nat + 256 * b 1%nat + 65536 * b 2%nat + 16777216 * b 3%nat
  | _ => b 0%nat + 256 * b 1%nat
  end.

Definition tail_wire (t : tail) : list Z :=
  match t with
  | TNone => []
  | TPrefix q => q
  | TFixed _ _ p args => p ++ args
  | TBarcodeKind => [29; 107]
  | TBarcodeNul m d => [29; 107; m] ++ d
  | TBarcodeSize m => [29; 107; m]
  | TBarcodeLen m n d => [29; 107; m; n] ++ d
  | TBitImageHdr a => [27; 42] ++ a
  | TBitImage m nl nh d => [27; 42; m; nl; nh] ++ d
  | TRasterHdr a => [29; 118; 48] ++ a
  | TRaster m xl xh yl yh d => [29; 118; 48; m; xl; xh; yl; yh] ++ d
  | TCut a => [29; 86] ++ a
  | TCharEffectsHdr a => [29; 40; 78] ++ a
  | TCharEffects pl ph d => [29; 40; 78; pl; ph] ++ d
  | TSubHdr f a => fam_prefix f ++ a
  | TSub f n m fn d => fam_prefix f ++ fam_len f n ++ [m; fn] ++ d
  | TRequestHdr a => [29; 40; 72] ++ a
  | TRequest n m fn d => [29; 40; 72] ++ fam_len Code2d n ++ [m; fn] ++ d
  end.

Definition tail_ok (t : tail) : Prop :=
  match t with
  | TNone => True
  | TPrefix q => q <> [] /\ existsb (is_prefix q) all_prefixes = true /\
                 existsb (fun p => is_prefix p q) all_prefixes = false
  | TFixed name k p args => exists n, in_fixed name k p n /\ (length args < n)%nat
  | TBarcodeKind => True
  | TBarcodeNul m d => 0 <= m <= 6 /\ ~ In 0 d
  | TBarcodeSize m => 65 <= m <= 79
  | TBarcodeLen m n d => 65 <= m <= 79 /\ zlen d < n
  | TBitImageHdr a => (length a < 3)%nat
  | TBitImage m nl nh d => zlen d < (nl + 256 * nh) * (if (m =? 32) || (m =? 33) then 3 else 1)
  | TRasterHdr a => (length a < 5)%nat
  | TRaster m xl xh yl yh d => zlen d < (xl + 256 * xh) * (yl + 256 * yh)
  | TCut a => a = [] \/ exists m, a = [m] /\ ~ In m [0; 1; 48; 49]
  | TCharEffectsHdr a => (length a < 2)%nat
  | TCharEffects pl ph d => zlen d < Z.max 1 (pl + 256 * ph)
  | TSubHdr f a => (length a <= hdr_len f)%nat
  | TSub f n m fn d => d <> [] /\ zlen d + 2 < n <= fam_max f
  | TRequestHdr a => (length a <= 4)%nat
  | TRequest n m fn d => d <> [] /\ zlen d + 2 < n <= 65535
  end.

Definition tail_expect (t : tail) : list ocmd :=
  match t with
  | TNone => []
  | TPrefix _ => []
  | TFixed name k p args => [simple name k p args]
  | TBarcodeKind => [OC "Barcode" KGraphics [29; 107] [] ([29; 107], [])]
  | TBarcodeNul m d => [OC "Barcode" KGraphics [29; 107] d ([29; 107; m], d ++ [0])]
  | TBarcodeSize m => [OC "Barcode" KGraphics [29; 107] [] ([29; 107; m], [])]
  | TBarcodeLen m n d => [OC "Barcode" KGraphics [29; 107] d ([29; 107; m; n], d)]
  | TBitImageHdr a => [simple "Bit Image" KGraphics [27; 42] a]
  | TBitImage m nl nh d => [OC "Bit Image" KGraphics [27; 42] d ([27; 42], [m; nl; nh] ++ d)]
  | TRasterHdr a => [simple "Raster Bit Image" KGraphics [29; 118; 48] a]
  | TRaster m xl xh yl yh d =>
      [OC "Raster Bit Image" KGraphics [29; 118; 48] d ([29; 118; 48], [m; xl; xh; yl; yh] ++ d)]
  | TCut a => [simple "Feed and Cut" KControl [29; 86] a]
  | TCharEffectsHdr a => [simple "Set Character Effects" KTextStyle [29; 40; 78] a]
  | TCharEffects pl ph d =>
      [simple "Set Character Effects" KTextStyle [29; 40; 78] ([pl; ph] ++ d)]
  | TSubHdr _ _ => []
  | TSub f n m fn d =>
      match fam_lookup f m fn with
      | Some (name, k) => [simple name k (fam_prefix f ++ fam_len f n ++ [m; fn]) []]
      | None => []
      end
  | TRequestHdr a => [simple "Request Response Transmission" KControl [29; 40; 72] a]
  | TRequest n m fn d => [simple "Request Response Transmission" KControl [29; 40; 72] d]
  end.

(** The commands reported for any byte string [encode l ++ tail_wire t]. *)
Definition parse_total (l : list item) (t : tail) : list ocmd :=
  [o_begin] ++ lead l ++
  match t with TNone => expect_all l | _ => flat_map expect l ++ tail_expect t end ++ [o_end].

(** Headers whose length field is below two; [Some f] a sub-command family, [None] GS ( H. *)
Definition sub_prefix (o : option family) : list Z :=
  match o with Some f => fam_prefix f | None => [29; 40; 72] end.
Definition sub_family (o : option family) : family := match o with Some f => f | None => Code2d end.
Definition bad_header (o : option family) (hdr : list Z) : Prop :=
  length hdr = hdr_len (sub_family o) /\ hdr_value (sub_family o) hdr < 2.
