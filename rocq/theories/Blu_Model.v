(** firmware_updater/bootloaderupdater/src/app_main.cpp: the application that replaces the bootloader by the one it carries *)
From Verif Require Export Iap_Model.

(** app_main.cpp:94: four bytes of the buffer as a word, lowest byte first; as it is only added to a [uint32_t], the sign of [int] does not matter *)
Definition word (buf : list Z) (j : nat) : Z := rd buf (4 * j) + 256 * rd buf (4 * j + 1) + 65536 * rd buf (4 * j + 2) + 16777216 * rd buf (4 * j + 3).
(** app_main.cpp:91-96 *)
Definition vectorSum (buf : list Z) : Z := u32 (- fold_left (fun checksum j => u32 (checksum + word buf j)) (seq 0 7) 0).
(** app_main.cpp:97 *)
Definition putWord (buf : list Z) (i : nat) (v : Z) : list Z := wr_range buf i [u8 v; u8 (Z.shiftr v 8); u8 (Z.shiftr v 16); u8 (Z.shiftr v 24)].
(** app_main.cpp:75-101: the buffer of the pass at offset [i] of the image ([flash] is the null pointer in the first pass) *)
Definition passBuffer (image : list Z) (i : nat) : list Z :=
  let buf := repeat 0xff (Z.to_nat FLASH_SECTOR_SIZE) in
  let len := (length image - i)%nat in
  let len := if Z.of_nat len >? FLASH_SECTOR_SIZE then Z.to_nat FLASH_SECTOR_SIZE else len in
  let buf := blit buf (skipn i image) len in
  if Nat.eqb i 0 then putWord buf 28 (vectorSum buf) else buf.

Section Updater.
  (** [w buf]: the boot ROM while the buffer, at the address [at_], holds [buf]; [clk]: SystemCoreClock; [image]: the bytes from incbin_bl_start to incbin_bl_end *)
  Context {S : Type} (w : list Z -> bootrom S) (clk at_ : Z) (image : list Z).
  (** app_main.cpp:73-110: at most [n] passes of the loop from offset [i]; the statuses of iapProgram() are dropped. The lamp and the debug output are left out *)
  Fixpoint passes (n : nat) (i : nat) (s : cpu S) : cpu S :=
    match n with
    | O => s
    | Datatypes.S n =>
        if Nat.ltb i (length image) then
          let buf := passBuffer image i in
          let '(s, _) := iapProgram (w buf) clk (Z.of_nat i) at_ FLASH_SECTOR_SIZE s in
          passes n (i + Z.to_nat FLASH_SECTOR_SIZE)%nat s
        else s
    end.
  (** app_main.cpp:58-67: the sectors of the image are erased; the status is dropped *)
  Definition erase (s : cpu S) : cpu S :=
    let newBlSize := u32 (Z.of_nat (length image)) in
    let newBlStartSector := iapSectorOfAddress 0 in
    let newBlEndSector := iapSectorOfAddress (u32 (0 + newBlSize - 1)) in
    fst (iapEraseSectorRange (w []) clk newBlStartSector newBlEndSector s).
  (** app_main.cpp:54-115 up to the [n]-th pass of the loop: what the chip holds if power fails then *)
  Definition update_upto (n : nat) (s : cpu S) : cpu S := passes n 0 (erase s).
  (** app_main.cpp:54-115 up to the reset; each pass takes at least one byte of the image, so there are at most as many passes as bytes *)
  Definition update (s : cpu S) : cpu S := update_upto (length image) s.
End Updater.
