(** C109: erasing and programming the flash (iap.cpp) *)
From Verif Require Export Iap_Proofs.

(** A chip with four sectors; the RAM holds the low byte of each address; sectors 0 and 1 hold zeros, the rest is erased. *)
Definition small : world := {| sectors := 4; ram := fun a => a mod 256; busy := fun _ => false; worn := fun _ _ v => v; meddle := fun _ _ b => b; uid := [0x04030201; 5; 6; 0xf0000007]; part := 0x2540102b |}.
Definition used : chip := mkChip (fun a => if a <? 8192 then 0 else 0xff) (fun _ => false) 0 false.
(** The same chip with a cell that cannot be erased any more. *)
Definition old : world := {| sectors := 4; ram := fun a => a mod 256; busy := fun _ => false; worn := fun _ a v => if a =? 300 then Z.land v 0xfe else v; meddle := fun _ _ b => b; uid := []; part := 0 |}.
(** The same chip with interrupt handlers that use the boot ROM themselves. *)
Definition shared : world := {| sectors := 4; ram := fun a => a mod 256; busy := fun _ => false; worn := fun _ _ v => v; meddle := fun _ _ _ => false; uid := []; part := 0 |}.

(** iapProgram(): whatever the chip does (busy, worn cells, other users of the ROM): nothing outside the range is changed; if success is returned the range lies in the flash and holds
    exactly the bytes of the RAM; no call of the ROM is made with interrupts enabled. *)
Theorem C109_program wd clk rom src size s : let '(s', st) := iapProgram (lpc wd) clk rom src size s in
  (forall a, ~ (rom <= a < rom + size) -> cells (hw s') a = cells (hw s) a) /\
  (st = 0 -> 0 <= rom /\ rom + size <= sectors wd * 4096 /\ 0 < size /\ forall k, 0 <= k < size -> cells (hw s') (rom + k) = ram wd (src + k)) /\
  exposed (hw s') = exposed (hw s).
Proof.
  pose proof (program_sound wd clk rom src size s) as P. destruct (iapProgram (lpc wd) clk rom src size s) as [s' st]. destruct P as (P1 & P2 & P3 & _).
  split; [intros a N; apply P1; destruct (within rom size a) eqn:W; auto; apply within_spec in W; contradiction|]. split; auto.
  intros E. destruct (P2 E) as (A & B & C & D). repeat split; auto. intros k L. rewrite D by (apply within_spec; lia). f_equal. lia.
Qed.
Print Assumptions C109_program.
(** On a chip without defects it succeeds exactly if every bit that must be 1 still is; otherwise it reports a difference. *)
Theorem C109_program_succeeds wd clk rom src size s : healthy wd -> sane wd -> src mod 4 = 0 -> rom mod 256 = 0 -> In size [256; 512; 1024; 4096] -> 0 <= rom -> rom + size <= sectors wd * 4096 ->
  let '(s', st) := iapProgram (lpc wd) clk rom src size s in
  (st = 0 <-> forall k, 0 <= k < size -> Z.land (cells (hw s) (rom + k)) (ram wd (src + k)) = ram wd (src + k)) /\ (st = 0 \/ st = COMPARE_ERROR).
Proof.
  intros A B C D E F G. pose proof (program_sound wd clk rom src size s) as P. destruct (iapProgram (lpc wd) clk rom src size s) as [s' st]. destruct P as (_ & P2 & _ & _ & P5).
  destruct (P5 A B C D E F G) as (Q1 & Q2 & Q3). split; auto. split.
  - intros Z k L. destruct (P2 Z) as (_ & _ & _ & R). assert (W : within rom size (rom + k) = true) by (apply within_spec; lia). specialize (Q1 _ W). rewrite (R _ W) in Q1. replace (src + (rom + k - rom)) with (src + k) in Q1 by lia. auto.
  - intros H. apply Q2. intros a W. apply within_spec in W. specialize (H (a - rom) ltac:(lia)). replace (rom + (a - rom)) with a in H by lia. exact H.
Qed.
Print Assumptions C109_program_succeeds.
Example C109_program_example : healthy small /\ sane small /\ snd (iapProgram (lpc small) 48000000 8192 0x10000000 256 (mkCpu used true)) = 0 /\
  cells (hw (fst (iapProgram (lpc small) 48000000 8192 0x10000000 256 (mkCpu used true)))) 8195 = 3 /\
  snd (iapProgram (lpc small) 48000000 4096 0x10000000 256 (mkCpu used true)) = COMPARE_ERROR /\ snd (iapProgram (lpc small) 48000000 8200 0x10000000 256 (mkCpu used true)) = DST_ADDR_ERROR.
Proof. split; [repeat split|]. split; [split; [cbn; lia|intros a; apply Z.mod_pos_bound; lia]|]. vm_compute. repeat split. Qed.

(** iapEraseSector() and iapEraseSectorRange(): nothing outside the sectors is changed; success means that all their bytes are 0xff, even if cells are worn out; it is returned
    for every range of sectors of a chip without defects. *)
Theorem C109_erase_sectors wd clk first last s : let '(s', st) := iapEraseSectorRange (lpc wd) clk first last s in
  (forall a, ~ (first * 4096 <= a < (last + 1) * 4096) -> cells (hw s') a = cells (hw s) a) /\
  (st = 0 -> 0 <= first <= last /\ last < sectors wd /\ forall a, first * 4096 <= a < (last + 1) * 4096 -> cells (hw s') a = 0xff) /\
  exposed (hw s') = exposed (hw s) /\ (healthy wd -> 0 <= first <= last -> last < sectors wd -> st = 0).
Proof.
  pose proof (erase_sound wd clk first last s) as P. destruct (iapEraseSectorRange (lpc wd) clk first last s) as [s' st]. destruct P as (P1 & P2 & P3 & _ & P5).
  split; [intros a N; apply P1; destruct (within (first * 4096) ((last - first + 1) * 4096) a) eqn:W; auto; apply within_spec in W; exfalso; lia|].
  split. { intros E. destruct (P2 E) as [A B]. unfold sectorsOk in A. split; [lia|]. split; [lia|]. intros a L. apply B, within_spec. lia. }
  split; auto. intros Hh L1 L2. apply P5; auto. unfold sectorsOk. lia.
Qed.
Print Assumptions C109_erase_sectors.
Theorem C109_erase_sector wd clk n s : let '(s', st) := iapEraseSector (lpc wd) clk n s in
  (forall a, ~ (n * 4096 <= a < n * 4096 + 4096) -> cells (hw s') a = cells (hw s) a) /\
  (st = 0 -> 0 <= n < sectors wd /\ forall a, n * 4096 <= a < n * 4096 + 4096 -> cells (hw s') a = 0xff) /\
  exposed (hw s') = exposed (hw s) /\ (healthy wd -> 0 <= n < sectors wd -> st = 0).
Proof.
  pose proof (C109_erase_sectors wd clk n n s) as P. unfold iapEraseSector. destruct (iapEraseSectorRange (lpc wd) clk n n s) as [s' st]. destruct P as (P1 & P2 & P3 & P4).
  split; [intros a N; apply P1; lia|]. split; [intros E; destruct (P2 E) as (A & B & C); split; [lia|intros a L; apply C; lia]|]. split; auto. intros. apply P4; auto; lia.
Qed.
Print Assumptions C109_erase_sector.
Example C109_erase_example : snd (iapEraseSectorRange (lpc small) 48000000 0 1 (mkCpu used true)) = 0 /\ cells (hw (fst (iapEraseSectorRange (lpc small) 48000000 0 1 (mkCpu used true)))) 4100 = 0xff /\
  snd (iapEraseSector (lpc old) 48000000 0 (mkCpu used true)) = SECTOR_NOT_BLANK /\ snd (iapEraseSector (lpc small) 48000000 4 (mkCpu used true)) = INVALID_SECTOR /\
  snd (iapEraseSector (lpc shared) 48000000 0 (mkCpu used true)) = NOT_PREPARED.
Proof. vm_compute. repeat split. Qed.

(** iapErasePage() and iapErasePageRange(). Wanted: as for sectors. Missing: with worn cells success does not mean that the page is erased (next theorem). *)
Theorem C109_erase_pages_partial wd clk first last s : let '(s', st) := iapErasePageRange (lpc wd) clk first last s in
  (forall a, ~ (first * 256 <= a < (last + 1) * 256) -> cells (hw s') a = cells (hw s) a) /\
  (st = 0 -> 0 <= first <= last /\ last < sectors wd * 16 /\ ((forall k a v, worn wd k a v = v) -> forall a, first * 256 <= a < (last + 1) * 256 -> cells (hw s') a = 0xff)) /\
  exposed (hw s') = exposed (hw s) /\ (healthy wd -> 0 <= first <= last -> last < sectors wd * 16 -> st = 0).
Proof.
  pose proof (page_sound wd clk first last s) as P. destruct (iapErasePageRange (lpc wd) clk first last s) as [s' st]. destruct P as (P1 & P2 & P3 & _ & P5).
  split; [intros a N; apply P1; destruct (within (first * 256) ((last - first + 1) * 256) a) eqn:W; auto; apply within_spec in W; exfalso; lia|].
  split. { intros E. destruct (P2 E) as (A & B & C). split; [lia|]. split; [lia|]. intros NW a L. apply C; auto. apply within_spec. lia. }
  split; auto.
Qed.
Print Assumptions C109_erase_pages_partial.
Theorem C109_erase_page_partial wd clk n s : let '(s', st) := iapErasePage (lpc wd) clk n s in
  (forall a, ~ (n * 256 <= a < n * 256 + 256) -> cells (hw s') a = cells (hw s) a) /\
  (st = 0 -> 0 <= n < sectors wd * 16 /\ ((forall k a v, worn wd k a v = v) -> forall a, n * 256 <= a < n * 256 + 256 -> cells (hw s') a = 0xff)) /\
  exposed (hw s') = exposed (hw s) /\ (healthy wd -> 0 <= n < sectors wd * 16 -> st = 0).
Proof.
  pose proof (C109_erase_pages_partial wd clk n n s) as P. unfold iapErasePage. destruct (iapErasePageRange (lpc wd) clk n n s) as [s' st]. destruct P as (P1 & P2 & P3 & P4).
  split; [intros a N; apply P1; lia|]. split; [intros E; destruct (P2 E) as (A & B & C); split; [lia|intros W a L; apply (C W); lia]|]. split; auto. intros. apply P4; auto; lia.
Qed.
Print Assumptions C109_erase_page_partial.
Example C109_erase_page_example : snd (iapErasePageRange (lpc small) 48000000 15 16 (mkCpu used true)) = 0 /\ cells (hw (fst (iapErasePageRange (lpc small) 48000000 15 16 (mkCpu used true)))) 4096 = 0xff /\
  snd (iapErasePage (lpc small) 48000000 64 (mkCpu used true)) = INVALID_SECTOR.
Proof. vm_compute. repeat split. Qed.
Theorem C109_erase_page_worn_refuted : exists wd clk n s, sane wd /\ snd (iapErasePage (lpc wd) clk n s) = 0 /\ exists a, n * 256 <= a < n * 256 + 256 /\ cells (hw (fst (iapErasePage (lpc wd) clk n s))) a <> 0xff.
Proof.
  exists old, 48000000, 1, (mkCpu used true). split; [split; [cbn; lia|intros a; apply Z.mod_pos_bound; lia]|]. split; [vm_compute; reflexivity|]. exists 300. split; [lia|]. vm_compute. discriminate.
Qed.
Print Assumptions C109_erase_page_worn_refuted.

(** Whether interrupts were enabled before is not remembered: afterwards they are. *)
Theorem C109_interrupts_refuted wd clk rom src size first last s : let s := mkCpu s false in
  irq (fst (iapProgram (lpc wd) clk rom src size s)) <> irq s /\ irq (fst (iapEraseSectorRange (lpc wd) clk first last s)) <> irq s /\ irq (fst (iapErasePageRange (lpc wd) clk first last s)) <> irq s.
Proof.
  cbv zeta. set (s0 := mkCpu s false). pose proof (program_sound wd clk rom src size s0) as P. pose proof (erase_sound wd clk first last s0) as Q. pose proof (page_sound wd clk first last s0) as R.
  destruct (iapProgram _ _ _ _ _ s0), (iapEraseSectorRange _ _ _ _ s0), (iapErasePageRange _ _ _ _ s0). destruct P as (_ & _ & _ & P & _), Q as (_ & _ & _ & Q & _), R as (_ & _ & _ & R & _). cbn [fst]. rewrite P, Q, R. repeat split; discriminate.
Qed.
Print Assumptions C109_interrupts_refuted.

(** iapFlashSize(): the size of the flash, for chips with an even number of sectors, up to 512 KiB (all LPC11xx); the second call returns the same without asking. *)
Theorem C109_flash_size wd s N : (forall k, busy wd k = false) -> sectors wd = 2 * N -> 1 <= N <= 64 ->
  let '(s', r) := iapFlashSize (lpc wd) 0 s in r = sectors wd * 4096 /\ (forall a, cells (hw s') a = cells (hw s) a) /\ exposed (hw s') = exposed (hw s) /\ iapFlashSize (lpc wd) r s' = (s', r).
Proof.
  intros NB E L. unfold iapFlashSize at 1. cbn [Z.eqb negb]. change (FLASH_SIZE_SEARCH_INC / FLASH_SECTOR_SIZE) with 2. change (MAX_FLASH_SIZE / FLASH_SECTOR_SIZE) with 128.
  pose proof (sizeLoop_ok wd NB (Z.to_nat 128) 2 s N E L) as H. destruct (sizeLoop (lpc wd) (Z.to_nat 128) 2 s) as [s' r]. destruct H as (-> & H2 & H3); [lia|reflexivity|lia|].
  assert (R : u32 (2 * N * FLASH_SECTOR_SIZE) = sectors wd * 4096) by (unfold u32, FLASH_SECTOR_SIZE; rewrite Z.mod_small; lia).
  split; auto. split; auto. split; auto. unfold iapFlashSize. rewrite R. destruct (Z.eqb_spec (sectors wd * 4096) 0); [lia|reflexivity].
Qed.
Print Assumptions C109_flash_size.
Example C109_flash_size_example : sectors small = 2 * 2 /\ snd (iapFlashSize (lpc small) 0 (mkCpu used true)) = 16384.
Proof. vm_compute. auto. Qed.

(** Pages and sectors of addresses. *)
Theorem C109_addresses a : 0 <= a < 2147483648 ->
  iapAddressOfSector (iapSectorOfAddress a) <= a < iapAddressOfSector (iapSectorOfAddress a) + 4096 /\ iapAddressOfPage (iapPageOfAddress a) <= a < iapAddressOfPage (iapPageOfAddress a) + 256 /\
  iapPageOfAddress a / 16 = iapSectorOfAddress a.
Proof.
  intros H. rewrite sector_of, page_of by auto. unfold iapAddressOfSector, iapAddressOfPage, FLASH_SECTOR_SIZE, FLASH_PAGE_SIZE, FLASH_BASE_ADDRESS, u32.
  pose proof (Z.div_mod a 4096 ltac:(lia)). pose proof (Z.mod_pos_bound a 4096 ltac:(lia)). pose proof (Z.div_mod a 256 ltac:(lia)). pose proof (Z.mod_pos_bound a 256 ltac:(lia)).
  rewrite !Z.add_0_r, !Z.mod_mod by lia. rewrite !Z.mod_small by lia. rewrite Z.div_div by lia. change (256 * 16) with 4096. lia.
Qed.
Print Assumptions C109_addresses.
Theorem C109_addresses_back n : (0 <= n < 524288 -> iapSectorOfAddress (iapAddressOfSector n) = n) /\ (0 <= n < 8388608 -> iapPageOfAddress (iapAddressOfPage n) = n).
Proof.
  unfold iapAddressOfSector, iapAddressOfPage, FLASH_SECTOR_SIZE, FLASH_PAGE_SIZE, FLASH_BASE_ADDRESS, u32. rewrite !Z.add_0_r, !Z.mod_mod by lia.
  split; intros H; rewrite Z.mod_small by lia; [rewrite sector_of by lia|rewrite page_of by lia]; apply Z.div_mul; lia.
Qed.
Print Assumptions C109_addresses_back.
Example C109_addresses_example : iapSectorOfAddress 0x3456 = 3 /\ iapPageOfAddress 0x3456 = 0x34 /\ iapAddressOfPage 0x34 = 0x3400 /\ iapAddressOfSector 3 = 0x3000.
Proof. vm_compute. auto. Qed.

(** iapReadUID() gives the 16 bytes of the ROM's four words, iapReadPartID() its word. *)
Theorem C109_ids wd s : busy wd (calls (hw s)) = false -> 
  (let '(s', (st, b)) := iapReadUID (lpc wd) s in st = 0 /\ length b = 16%nat /\ (forall i j, (i < 4)%nat -> (j < 4)%nat -> rd b (4 * i + j) = rd (uid wd) i / 256 ^ Z.of_nat j mod 256) /\ exposed (hw s') = exposed (hw s) /\ forall a, cells (hw s') a = cells (hw s) a) /\
  (let '(s', (st, v)) := iapReadPartID (lpc wd) s in st = 0 /\ v = part wd /\ exposed (hw s') = exposed (hw s) /\ forall a, cells (hw s') a = cells (hw s) a).
Proof.
  intros B. unfold iapReadUID, iapReadPartID, IAP_Call_InterruptSafe, noInterrupts, interrupts. cbn [hw irq lpc call handlers]. unfold rom_call. cbn [arg rd nth calls cells ready exposed]. rewrite B. cmds. cbn [fst snd hw exposed cells]. rewrite orb_false_r.
  split; repeat split; auto. intros i j I J. cbn [flat_map app]. unfold u8. rewrite !Z.shiftr_div_pow2 by lia.
  do 4 (destruct i as [|i]; [do 4 (destruct j as [|j]; [cbn [rd nth Nat.mul Nat.add]; change (256 ^ Z.of_nat 0) with 1; rewrite ?Z.div_1_r; reflexivity|]); lia|]). lia.
Qed.
Print Assumptions C109_ids.
Example C109_ids_example : snd (iapReadUID (lpc small) (mkCpu used true)) = (0, [1; 2; 3; 4; 5; 0; 0; 0; 6; 0; 0; 0; 7; 0; 0; 0xf0]) /\ snd (iapReadPartID (lpc small) (mkCpu used true)) = (0, 0x2540102b).
Proof. vm_compute. auto. Qed.
