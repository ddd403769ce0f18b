(** Checksum routines of the library and the bootloader. *)
From Verif Require Export Base.

(** firmware_updater/bootloader/src/crc.cpp:27-34: the constants g0..g7 *)
Definition g0 := 0xEDB88320.
Definition g1 := Z.shiftr g0 1.
Definition g2 := Z.shiftr g0 2.
Definition g3 := Z.shiftr g0 3.
Definition g4 := Z.shiftr g0 4.
Definition g5 := Z.shiftr g0 5.
Definition g6 := Z.lxor (Z.shiftr g0 6) g0.
Definition g7 := Z.shiftr (Z.lxor (Z.shiftr g0 6) g0) 1.
(** crc.cpp:41-44: [crc << n >> 31] on a 32-bit int (two's complement, arithmetic right shift); the left shift of a
    negative int is undefined before C++20, modelled as the wrapped value every compiler in use produces *)
Definition sh31 (crc n : Z) : Z := Z.shiftr (s32 (Z.shiftl crc n)) 31.
(** crc.cpp:37-46: loop body.  The int [crc] is kept as its unsigned 32-bit value. *)
Definition crc32Byte (crc byte : Z) : Z :=
  let crc := Z.lxor crc byte in
  let c := Z.lxor (Z.lxor (Z.lxor (Z.lxor (Z.lxor (Z.lxor (Z.lxor
             (Z.land (sh31 crc 31) g7) (Z.land (sh31 crc 30) g6)) (Z.land (sh31 crc 29) g5)) (Z.land (sh31 crc 28) g4))
             (Z.land (sh31 crc 27) g3)) (Z.land (sh31 crc 26) g2)) (Z.land (sh31 crc 25) g1)) (Z.land (sh31 crc 24) g0) in
  Z.lxor (Z.shiftr crc 8) c.
(** crc.cpp:22-48 crc32 (data as the list of the [count] bytes read) *)
Definition crc32 (startCrc32 : Z) (data : list Z) : Z := u32 (Z.lnot (fold_left crc32Byte data startCrc32)).

(** sblib/src/onewire.cpp:480-486: inner loop, [n] passes *)
Fixpoint crc8Bits (n : nat) (crc inbyte : Z) : Z :=
  match n with
  | O => crc
  | S n' =>
      let mix := Z.land (Z.lxor crc inbyte) 0x01 in
      let crc := Z.shiftr crc 1 in
      let crc := if mix =? 0 then crc else Z.lxor crc 0x8C in
      crc8Bits n' crc (Z.shiftr inbyte 1)
  end.
(** sblib/src/onewire.cpp:473-489 OneWireCRC8 *)
Definition OneWireCRC8 (addr : list Z) : Z := fold_left (crc8Bits 8) addr 0.

(** sblib/src/onewire.cpp:535 oddparity *)
Definition oddparity : list Z := [0; 1; 1; 0; 1; 0; 0; 1; 1; 0; 0; 1; 0; 1; 1; 0].
(** sblib/src/onewire.cpp:536-551: loop body *)
Definition crc16Byte (crc input : Z) : Z :=
  let cdata := Z.land (Z.lxor input crc) 0xff in
  let crc := Z.shiftr crc 8 in
  let crc := if Z.lxor (rd oddparity (Z.to_nat (Z.land cdata 0x0F))) (rd oddparity (Z.to_nat (Z.shiftr cdata 4))) =? 0
             then crc else Z.lxor crc 0xC001 in
  let cdata := u16 (Z.shiftl cdata 6) in
  let crc := Z.lxor crc cdata in
  let cdata := u16 (Z.shiftl cdata 1) in
  Z.lxor crc cdata.
(** sblib/src/onewire.cpp:533-553 OneWireCRC16 *)
Definition OneWireCRC16 (input : list Z) (crc : Z) : Z := fold_left crc16Byte input crc.
(** sblib/src/onewire.cpp:507-511 OneWireCheckCRC16 *)
Definition OneWireCheckCRC16 (input inverted_crc : list Z) (crc : Z) : bool :=
  let crc := u16 (Z.lnot (OneWireCRC16 input crc)) in
  (Z.land crc 0xFF =? rd inverted_crc 0) && (Z.shiftr crc 8 =? rd inverted_crc 1).

(** sblib/src/i2c/ds2482.cpp:343-353 dscrc_table *)
Definition dscrc_table : list Z :=
  [0; 94; 188; 226; 97; 63; 221; 131; 194; 156; 126; 32; 163; 253; 31; 65; 157; 195; 33; 127; 252; 162; 64; 30;
   95; 1; 227; 189; 62; 96; 130; 220; 35; 125; 159; 193; 66; 28; 254; 160; 225; 191; 93; 3; 128; 222; 60; 98;
   190; 224; 2; 92; 223; 129; 99; 61; 124; 34; 192; 158; 29; 67; 161; 255; 70; 24; 250; 164; 39; 121; 155; 197;
   132; 218; 56; 102; 229; 187; 89; 7; 219; 133; 103; 57; 186; 228; 6; 88; 25; 71; 165; 251; 120; 38; 196; 154;
   101; 59; 217; 135; 4; 90; 184; 230; 167; 249; 27; 69; 198; 152; 122; 36; 248; 166; 68; 26; 153; 199; 37; 123;
   58; 100; 134; 216; 91; 5; 231; 185; 140; 210; 48; 110; 237; 179; 81; 15; 78; 16; 242; 172; 47; 113; 147; 205;
   17; 79; 173; 243; 112; 46; 204; 146; 211; 141; 111; 49; 178; 236; 14; 80; 175; 241; 19; 77; 206; 144; 114; 44;
   109; 51; 209; 143; 12; 82; 176; 238; 50; 108; 142; 208; 83; 13; 239; 177; 240; 174; 76; 18; 145; 207; 45; 115;
   202; 148; 118; 40; 171; 245; 23; 73; 8; 86; 180; 234; 105; 55; 213; 139; 87; 9; 235; 181; 54; 104; 138; 212;
   149; 203; 41; 119; 244; 170; 72; 22; 233; 183; 85; 11; 136; 214; 52; 106; 43; 117; 151; 201; 74; 20; 246; 168;
   116; 42; 200; 150; 21; 75; 169; 247; 182; 232; 10; 84; 215; 137; 107; 53].
(** sblib/src/i2c/ds2482.cpp:362-369 OneWireDS2482::crc8 (table variant) *)
Definition ds2482_crc8 (addr : list Z) : Z :=
  fold_left (fun crc b => rd dscrc_table (Z.to_nat (Z.lxor crc b))) addr 0.

(** sblib/src/i2c/SHT2x.cpp:153-156, SHT4x.cpp:211-214, SGP4x.cpp:300-303: inner loop, [n] passes (uint8_t) *)
Fixpoint sensirionBits (n : nat) (crc : Z) : Z :=
  match n with
  | O => crc
  | S n' => sensirionBits n' (u8 (if Z.land crc 0x80 =? 0 then Z.shiftl crc 1 else Z.lxor (Z.shiftl crc 1) 0x31))
  end.
(** SHT2x.cpp:142-159 (initial value 0x00), SHT4x.cpp:192-217 and SGP4x.cpp:281-306 (0xFF) crc8 *)
Definition sensirion_crc8 (start : Z) (data : list Z) : Z :=
  fold_left (fun crc b => sensirionBits 8 (Z.lxor crc b)) data start.

(** sblib/src/eib/propertiesSYSTEMB.cpp:198-205: inner loop, [n] passes (uint16_t) *)
Fixpoint systembBits (n : nat) (crc : Z) : Z :=
  match n with
  | O => crc
  | S n' => systembBits n' (u16 (if Z.land crc 0x8000 =? 0 then Z.shiftl crc 1 else Z.lxor (Z.shiftl crc 1) 0x1021))
  end.
(** propertiesSYSTEMB.cpp:188-208 crc16 *)
Definition systemb_crc16 (data : list Z) : Z :=
  fold_left (fun crc b => systembBits 8 (Z.lxor crc (Z.shiftl b 8))) data 0x1D0F.
