(** * SpecText: what the code pages, national sets and UTF-8 are, independently of the code.

    The code page rows are the published IBM/Microsoft mappings (as shipped in the Python codecs
    cp437, cp850, cp857, cp860, cp863, cp865); the national sets are those of the ESC R
    documentation (ISO 646 variants).  Nothing here refers to the decoder of the crate. *)
From Verif Require Import Base.
Local Open Scope Z_scope.

(** code page 437, bytes 0x80..0xFF *)
Definition std_cp437 : list Z :=
  [199; 252; 233; 226; 228; 224; 229; 231; 234; 235; 232; 239; 238; 236; 196; 197;
   201; 230; 198; 244; 246; 242; 251; 249; 255; 214; 220; 162; 163; 165; 8359; 402;
   225; 237; 243; 250; 241; 209; 170; 186; 191; 8976; 172; 189; 188; 161; 171; 187;
   9617; 9618; 9619; 9474; 9508; 9569; 9570; 9558; 9557; 9571; 9553; 9559; 9565; 9564; 9563; 9488;
   9492; 9524; 9516; 9500; 9472; 9532; 9566; 9567; 9562; 9556; 9577; 9574; 9568; 9552; 9580; 9575;
   9576; 9572; 9573; 9561; 9560; 9554; 9555; 9579; 9578; 9496; 9484; 9608; 9604; 9612; 9616; 9600;
   945; 223; 915; 960; 931; 963; 181; 964; 934; 920; 937; 948; 8734; 966; 949; 8745;
   8801; 177; 8805; 8804; 8992; 8993; 247; 8776; 176; 8729; 183; 8730; 8319; 178; 9632; 160].

(** code page 850, bytes 0x80..0xFF *)
Definition std_cp850 : list Z :=
  [199; 252; 233; 226; 228; 224; 229; 231; 234; 235; 232; 239; 238; 236; 196; 197;
   201; 230; 198; 244; 246; 242; 251; 249; 255; 214; 220; 248; 163; 216; 215; 402;
   225; 237; 243; 250; 241; 209; 170; 186; 191; 174; 172; 189; 188; 161; 171; 187;
   9617; 9618; 9619; 9474; 9508; 193; 194; 192; 169; 9571; 9553; 9559; 9565; 162; 165; 9488;
   9492; 9524; 9516; 9500; 9472; 9532; 227; 195; 9562; 9556; 9577; 9574; 9568; 9552; 9580; 164;
   240; 208; 202; 203; 200; 305; 205; 206; 207; 9496; 9484; 9608; 9604; 166; 204; 9600;
   211; 223; 212; 210; 245; 213; 181; 254; 222; 218; 219; 217; 253; 221; 175; 180;
   173; 177; 8215; 190; 182; 167; 247; 184; 176; 168; 183; 185; 179; 178; 9632; 160].

(** code page 857, bytes 0x80..0xFF (0 = unassigned) *)
Definition std_cp857 : list Z :=
  [199; 252; 233; 226; 228; 224; 229; 231; 234; 235; 232; 239; 238; 305; 196; 197;
   201; 230; 198; 244; 246; 242; 251; 249; 304; 214; 220; 248; 163; 216; 350; 351;
   225; 237; 243; 250; 241; 209; 286; 287; 191; 174; 172; 189; 188; 161; 171; 187;
   9617; 9618; 9619; 9474; 9508; 193; 194; 192; 169; 9571; 9553; 9559; 9565; 162; 165; 9488;
   9492; 9524; 9516; 9500; 9472; 9532; 227; 195; 9562; 9556; 9577; 9574; 9568; 9552; 9580; 164;
   186; 170; 202; 203; 200; 0; 205; 206; 207; 9496; 9484; 9608; 9604; 166; 204; 9600;
   211; 223; 212; 210; 245; 213; 181; 0; 215; 218; 219; 217; 236; 255; 175; 180;
   173; 177; 0; 190; 182; 167; 247; 184; 176; 168; 183; 185; 179; 178; 9632; 160].

(** code page 860, bytes 0x80..0xFF *)
Definition std_cp860 : list Z :=
  [199; 252; 233; 226; 227; 224; 193; 231; 234; 202; 232; 205; 212; 236; 195; 194;
   201; 192; 200; 244; 245; 242; 218; 249; 204; 213; 220; 162; 163; 217; 8359; 211;
   225; 237; 243; 250; 241; 209; 170; 186; 191; 210; 172; 189; 188; 161; 171; 187;
   9617; 9618; 9619; 9474; 9508; 9569; 9570; 9558; 9557; 9571; 9553; 9559; 9565; 9564; 9563; 9488;
   9492; 9524; 9516; 9500; 9472; 9532; 9566; 9567; 9562; 9556; 9577; 9574; 9568; 9552; 9580; 9575;
   9576; 9572; 9573; 9561; 9560; 9554; 9555; 9579; 9578; 9496; 9484; 9608; 9604; 9612; 9616; 9600;
   945; 223; 915; 960; 931; 963; 181; 964; 934; 920; 937; 948; 8734; 966; 949; 8745;
   8801; 177; 8805; 8804; 8992; 8993; 247; 8776; 176; 8729; 183; 8730; 8319; 178; 9632; 160].

(** code page 863, bytes 0x80..0xFF *)
Definition std_cp863 : list Z :=
  [199; 252; 233; 226; 194; 224; 182; 231; 234; 235; 232; 239; 238; 8215; 192; 167;
   201; 200; 202; 244; 203; 207; 251; 249; 164; 212; 220; 162; 163; 217; 219; 402;
   166; 180; 243; 250; 168; 184; 179; 175; 206; 8976; 172; 189; 188; 190; 171; 187;
   9617; 9618; 9619; 9474; 9508; 9569; 9570; 9558; 9557; 9571; 9553; 9559; 9565; 9564; 9563; 9488;
   9492; 9524; 9516; 9500; 9472; 9532; 9566; 9567; 9562; 9556; 9577; 9574; 9568; 9552; 9580; 9575;
   9576; 9572; 9573; 9561; 9560; 9554; 9555; 9579; 9578; 9496; 9484; 9608; 9604; 9612; 9616; 9600;
   945; 223; 915; 960; 931; 963; 181; 964; 934; 920; 937; 948; 8734; 966; 949; 8745;
   8801; 177; 8805; 8804; 8992; 8993; 247; 8776; 176; 8729; 183; 8730; 8319; 178; 9632; 160].

(** code page 865, bytes 0x80..0xFF *)
Definition std_cp865 : list Z :=
  [199; 252; 233; 226; 228; 224; 229; 231; 234; 235; 232; 239; 238; 236; 196; 197;
   201; 230; 198; 244; 246; 242; 251; 249; 255; 214; 220; 248; 163; 216; 8359; 402;
   225; 237; 243; 250; 241; 209; 170; 186; 191; 8976; 172; 189; 188; 161; 171; 164;
   9617; 9618; 9619; 9474; 9508; 9569; 9570; 9558; 9557; 9571; 9553; 9559; 9565; 9564; 9563; 9488;
   9492; 9524; 9516; 9500; 9472; 9532; 9566; 9567; 9562; 9556; 9577; 9574; 9568; 9552; 9580; 9575;
   9576; 9572; 9573; 9561; 9560; 9554; 9555; 9579; 9578; 9496; 9484; 9608; 9604; 9612; 9616; 9600;
   945; 223; 915; 960; 931; 963; 181; 964; 934; 920; 937; 948; 8734; 966; 949; 8745;
   8801; 177; 8805; 8804; 8992; 8993; 247; 8776; 176; 8729; 183; 8730; 8319; 178; 9632; 160].

(** the character a byte stands for: ASCII below 0x80, the page above *)
Definition std_char (page : list Z) (b : Z) : Z :=
  if b <? 128 then b else nth (Z.to_nat (b - 128)) page 0.

(** ** National variants of ASCII (ESC R n), as (byte, character) pairs that differ from ASCII *)
Definition std_national (n : Z) : list (Z * Z) :=
  match n with
  | 0 => (* USA *) []
  | 1 => (* France *) [(64, 224); (91, 176); (92, 231); (93, 167); (123, 233); (124, 249); (125, 232); (126, 168)]
  | 2 => (* Germany *) [(64, 167); (91, 196); (92, 214); (93, 220); (123, 228); (124, 246); (125, 252); (126, 223)]
  | 3 => (* UK *) [(35, 163)]
  | 4 => (* Denmark I *) [(91, 198); (92, 216); (93, 197); (123, 230); (124, 248); (125, 229)]
  | 5 => (* Sweden *) [(36, 164); (64, 201); (91, 196); (92, 214); (93, 197); (94, 220); (96, 233); (123, 228); (124, 246); (125, 229); (126, 252)]
  | 6 => (* Italy *) [(91, 176); (93, 233); (96, 249); (123, 224); (124, 242); (125, 232); (126, 236)]
  | 7 => (* Spain I *) [(35, 8359); (91, 161); (92, 209); (93, 191); (123, 168); (124, 241)]
  | 8 => (* Japan *) [(92, 165)]
  | 9 => (* Norway *) [(36, 164); (64, 201); (91, 198); (92, 216); (93, 197); (94, 220); (96, 233); (123, 230); (124, 248); (125, 229); (126, 252)]
  | 10 => (* Denmark II *) [(64, 201); (91, 198); (92, 216); (93, 197); (94, 220); (96, 233); (123, 230); (124, 248); (125, 229); (126, 252)]
  | _ => []
  end.
Fixpoint lookup (b : Z) (l : list (Z * Z)) : option Z :=
  match l with [] => None | (k, v) :: r => if k =? b then Some v else lookup b r end.
(** the character byte [b] < 128 stands for in national set [n] *)
Definition std_national_char (n b : Z) : Z :=
  match lookup b (std_national n) with Some v => v | None => b end.

(** ** UTF-8 (RFC 3629) *)
Definition is_scalar (c : Z) : bool := ((0 <=? c) && (c <? 55296)) || ((57344 <=? c) && (c <=? 1114111)).
Definition utf8_encode1 (c : Z) : list Z :=
  if c <? 128 then [c]
  else if c <? 2048 then [192 + c / 64; 128 + c mod 64]
  else if c <? 65536 then [224 + c / 4096; 128 + (c / 64) mod 64; 128 + c mod 64]
  else [240 + c / 262144; 128 + (c / 4096) mod 64; 128 + (c / 64) mod 64; 128 + c mod 64].
Definition utf8_encode (s : list Z) : list Z := flat_map utf8_encode1 s.
