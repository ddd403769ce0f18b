(** The graphical display EA-DOGS (controller UC1701): sblib/src/lcd/graphical_eadogs.cpp, graphical.cpp, font.cpp, font_5x7.cpp; texts: sblib/src/print.cpp.
    [panel s cd b]: the byte b arrives at the display over SPI while the pin CD has the level cd; SPI::transfer returns when it has arrived (C108). *)
From Verif Require Export Base.
Open Scope Z_scope.

(** graphical_eadogs.cpp:16-19 *)
Definition DISPLAY_WIDTH : nat := 102.
Definition DISPLAY_HEIGHT : nat := 8.
(** graphical_eadogs.cpp:27-87 *)
Definition CMD_COL_ADDR_LSB : Z := 0x00.
Definition CMD_COL_ADDR_MSB : Z := 0x10.
Definition CMD_POWER_CTRL : Z := 0x28.
Definition CMD_SCROLL_LINE : Z := 0x40.
Definition CMD_PAGE_ADDR : Z := 0xb0.
Definition CMD_RESISTOR_RATIO : Z := 0x20.
Definition CMD_CONTRAST : Z := 0x81.
Definition CMD_PIXELS_NORMAL : Z := 0xa4.
Definition CMD_DISP_NORMAL : Z := 0xa6.
Definition CMD_DISP_INVERSE : Z := 0xa7.
Definition CMD_ENABLE : Z := 0xaf.
Definition CMD_SEG_DIR_MIRROR : Z := 0xa1.
Definition CMD_COM_DIR_NORMAL : Z := 0xc0.
Definition CMD_RESET : Z := 0xe2.
Definition CMD_BIAS_RATIO_1_9 : Z := 0xa2.
Definition CMD_ADV_CONTROL : Z := 0xfa.

(** font.h:34-49 *)
Record Font := mkFont { firstChar : Z; numChars : Z; charWidth : nat; data : list Z }.
(** font_5x7.cpp:13-111 *)
Definition fontData5x7 : list Z :=
  [0; 0; 0; 0; 0; 0; 0; 95; 0; 0; 0; 7; 0; 7; 0; 20; 127; 20; 127; 20; 36; 42; 127; 42; 18; 35; 19; 8; 100; 98; 54; 73; 85; 34; 80; 0; 5; 3; 0; 0;
   0; 28; 34; 65; 0; 0; 65; 34; 28; 0; 8; 42; 28; 42; 8; 8; 8; 62; 8; 8; 0; 80; 48; 0; 0; 8; 8; 8; 8; 8; 0; 48; 48; 0; 0; 32; 16; 8; 4; 2;
   62; 81; 73; 69; 62; 0; 66; 127; 64; 0; 66; 97; 81; 73; 70; 33; 65; 69; 75; 49; 24; 20; 18; 127; 16; 39; 69; 69; 69; 57; 60; 74; 73; 73; 48; 1; 113; 9; 5; 3;
   54; 73; 73; 73; 54; 6; 73; 73; 41; 30; 0; 54; 54; 0; 0; 0; 86; 54; 0; 0; 0; 8; 20; 34; 65; 20; 20; 20; 20; 20; 65; 34; 20; 8; 0; 2; 1; 81; 9; 6;
   50; 73; 121; 65; 62; 126; 17; 17; 17; 126; 127; 73; 73; 73; 54; 62; 65; 65; 65; 34; 127; 65; 65; 34; 28; 127; 73; 73; 73; 65; 127; 9; 9; 1; 1; 62; 65; 65; 81; 50;
   127; 8; 8; 8; 127; 0; 65; 127; 65; 0; 32; 64; 65; 63; 1; 127; 8; 20; 34; 65; 127; 64; 64; 64; 64; 127; 2; 4; 2; 127; 127; 4; 8; 16; 127; 62; 65; 65; 65; 62;
   127; 9; 9; 9; 6; 62; 65; 81; 33; 94; 127; 9; 25; 41; 70; 70; 73; 73; 73; 49; 1; 1; 127; 1; 1; 63; 64; 64; 64; 63; 31; 32; 64; 32; 31; 127; 32; 24; 32; 127;
   99; 20; 8; 20; 99; 3; 4; 120; 4; 3; 97; 81; 73; 69; 67; 0; 0; 127; 65; 65; 2; 4; 8; 16; 32; 65; 65; 127; 0; 0; 4; 2; 1; 2; 4; 64; 64; 64; 64; 64;
   0; 1; 2; 4; 0; 32; 84; 84; 84; 120; 127; 72; 68; 68; 56; 56; 68; 68; 68; 32; 56; 68; 68; 72; 127; 56; 84; 84; 84; 24; 8; 126; 9; 1; 2; 8; 20; 84; 84; 60;
   127; 8; 4; 4; 120; 0; 68; 125; 64; 0; 32; 64; 68; 61; 0; 0; 127; 16; 40; 68; 0; 65; 127; 64; 0; 124; 4; 24; 4; 120; 124; 8; 4; 4; 120; 56; 68; 68; 68; 56;
   124; 20; 20; 20; 8; 8; 20; 20; 24; 124; 124; 8; 4; 4; 8; 72; 84; 84; 84; 32; 4; 63; 68; 64; 32; 60; 64; 64; 32; 124; 28; 32; 64; 32; 28; 60; 64; 48; 64; 60;
   68; 40; 16; 40; 68; 12; 80; 80; 80; 60; 68; 100; 84; 76; 68; 0; 8; 54; 65; 0; 0; 0; 127; 0; 0; 0; 65; 54; 8; 0; 8; 8; 42; 28; 8; 8; 28; 42; 8; 8].
(** font_5x7.cpp:113 *)
Definition font_5x7 : Font := mkFont 32 (Z.of_nat (length fontData5x7) / 5) 5 fontData5x7.

Section Driver.
  Context {S : Type} (panel : S -> bool -> Z -> S).
  (** the level of the pin CD, whether the SPI is enabled, and the display *)
  Record lcd := mkLcd { cd : bool; enabled : bool; world : S }.
  (** digitalWrite(pinCD, ...) *)
  Definition level (l : lcd) (b : bool) : lcd := mkLcd b (enabled l) (world l).
  (** spi.cpp:124-141 with a data size of 8 bits: the value is cut to a byte; None: it waits forever, because the SPI is not enabled *)
  Definition transfer (l : lcd) (v : Z) : option lcd := if enabled l then Some (mkLcd (cd l) true (panel (world l) (cd l) (u8 v))) else None.
  (** several calls of transfer one after the other *)
  Fixpoint transfers (l : lcd) (vs : list Z) : option lcd :=
    match vs with [] => Some l | v :: vs => match transfer l v with Some l => transfers l vs | None => None end end.
  (** graphical_eadogs.cpp:106-137; spi.cpp:114-117; the clock divider is left out *)
  Definition begin (l : lcd) : option lcd :=
    match transfers (level (mkLcd (cd l) true (world l)) false)
      [CMD_RESET; CMD_SCROLL_LINE; CMD_SEG_DIR_MIRROR; CMD_COM_DIR_NORMAL; CMD_PIXELS_NORMAL; CMD_DISP_NORMAL; CMD_BIAS_RATIO_1_9; Z.lor CMD_POWER_CTRL 7; Z.lor CMD_RESISTOR_RATIO 7;
       CMD_CONTRAST; 0x10; CMD_ADV_CONTROL; 0x90; CMD_ENABLE] with
    | None => None
    | Some l =>
        match transfers (level l false) [Z.lor CMD_COL_ADDR_LSB 0; Z.lor CMD_COL_ADDR_MSB 0; Z.lor CMD_PAGE_ADDR 0] with
        | None => None
        | Some l => transfers (level l true) (map Z.of_nat (seq 0 255))
        end
    end.
  (** graphical_eadogs.cpp:139-142; spi.cpp:119-122 *)
  Definition endSpi (l : lcd) : lcd := mkLcd (cd l) false (world l).
  (** graphical_eadogs.cpp:144-148 *)
  Definition inverse (l : lcd) (enable : bool) : option lcd := transfer (level l false) (if enable then CMD_DISP_INVERSE else CMD_DISP_NORMAL).
  (** graphical_eadogs.cpp:150-156 *)
  Definition pos (l : lcd) (x y : Z) : option lcd :=
    transfers (level l false) [Z.lor CMD_COL_ADDR_LSB (Z.land x 15); Z.lor CMD_COL_ADDR_MSB (Z.land (Z.shiftr x 4) 15); Z.lor CMD_PAGE_ADDR (Z.land y 7)].
  (** graphical_eadogs.cpp:167-168: the loop; outside the array: None *)
  Fixpoint glyph (f : Font) (l : lcd) (idx : nat) (i : nat) : option lcd :=
    match i with
    | O => Some l
    | Datatypes.S i => match nth_error (data f) idx with None => None | Some b => match transfer l b with Some l => glyph f l (idx + 1) i | None => None end end
    end.
  (** graphical_eadogs.cpp:158-171 *)
  Definition write (f : Font) (l : lcd) (ch : Z) : option (lcd * Z) :=
    let idx := ch - firstChar f in
    if (idx <? 0) || (idx >=? numChars f) then Some (l, 0) else
    let idx := (Z.to_nat idx * charWidth f)%nat in
    match glyph f (level l true) idx (charWidth f) with Some l => Some (l, 1) | None => None end.
  (** print.cpp:102-111 *)
  Fixpoint writeAll (f : Font) (l : lcd) (chars : list Z) : option (lcd * Z) :=
    match chars with
    | [] => Some (l, 0)
    | c :: chars => match write f l c with None => None | Some (l, k) => match writeAll f l chars with Some (l, k') => Some (l, k + k') | None => None end end
    end.
  (** print.cpp:97-100 *)
  Definition println (f : Font) (l : lcd) : option (lcd * Z) := writeAll f l [13; 10].
  (** graphical_eadogs.cpp:177-184: [n] rows to go, from row y *)
  Fixpoint rows (l : lcd) (y : nat) (n : nat) : option lcd :=
    match n with
    | O => Some l
    | Datatypes.S n =>
        match pos l 0 (Z.of_nat y) with
        | None => None
        | Some l => match transfers (level l true) (repeat 0 DISPLAY_WIDTH) with Some l => rows l (y + 1) n | None => None end
        end
    end.
  (** graphical_eadogs.cpp:173-187 *)
  Definition clear (l : lcd) : option lcd := match rows l 0 DISPLAY_HEIGHT with Some l => pos l 0 0 | None => None end.
End Driver.
Arguments lcd : clear implicits.
Arguments mkLcd {S}. Arguments cd {S}. Arguments enabled {S}. Arguments world {S}.
