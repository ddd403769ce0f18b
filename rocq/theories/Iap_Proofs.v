(** Proofs about iap.cpp on the boot ROM of Iap_Spec. *)
From Verif Require Export Iap_Spec.

Lemma all_spec f lo hi : all f lo hi = true <-> forall a, lo <= a <= hi -> f a = true.
Proof.
  unfold all. rewrite forallb_forall. split.
  - intros H a L. apply H. apply in_map_iff. exists (Z.to_nat (a - lo)). split; [lia|]. apply in_seq. lia.
  - intros H x I. apply in_map_iff in I. destruct I as (k & <- & I). apply in_seq in I. apply H. lia.
Qed.
Lemma within_spec lo n a : within lo n a = true <-> lo <= a < lo + n.
Proof. unfold within. lia. Qed.

(** what a call leaves alone *)
Lemma call_rest wd e cmd par c : let c' := fst (rom_call wd e cmd par c) in calls c' = S (calls c) /\ exposed c' = exposed c || e.
Proof.
  cbv zeta. unfold rom_call.
  repeat match goal with |- context [if ?b then _ else _] => destruct b end; cbn [fst calls exposed]; auto.
Qed.

Lemma s32_small a : 0 <= a < 2147483648 -> s32 a = a.
Proof. intros H. unfold s32, u32. rewrite Z.mod_small by lia. destruct (Z.ltb_spec a 2147483648); lia. Qed.
Lemma sector_of a : 0 <= a < 2147483648 -> iapSectorOfAddress a = a / 4096.
Proof.
  intros H. unfold iapSectorOfAddress, FLASH_BASE_ADDRESS, FLASH_SECTOR_SIZE. rewrite Z.sub_0_r, s32_small by auto. rewrite Z.quot_div_nonneg by lia.
  apply Z.mod_small. split; [apply Z.div_pos; lia|]. apply Z.div_lt_upper_bound; lia.
Qed.
Lemma page_of a : 0 <= a < 2147483648 -> iapPageOfAddress a = a / 256.
Proof.
  intros H. unfold iapPageOfAddress, FLASH_BASE_ADDRESS, FLASH_PAGE_SIZE. rewrite Z.sub_0_r, s32_small by auto. rewrite Z.quot_div_nonneg by lia.
  apply Z.mod_small. split; [apply Z.div_pos; lia|]. apply Z.div_lt_upper_bound; lia.
Qed.

Ltac cmds := repeat match goal with |- context [Z.eqb ?a ?b] =>
  lazymatch a with CMD_PREPARE => idtac | CMD_ERASE => idtac | CMD_ERASE_PAGE => idtac | CMD_BLANK_CHECK => idtac | CMD_READ_UID => idtac | CMD_COPY_RAM2FLASH => idtac | CMD_COMPARE => idtac | CMD_READ_PART_ID => idtac end;
  let v := eval vm_compute in (Z.eqb a b) in change (Z.eqb a b) with v end; cbv iota.

Lemma prepare_call wd a b c : let '(c', r) := rom_call wd false CMD_PREPARE [a; b] c in
  cells c' = cells c /\ calls c' = S (calls c) /\ exposed c' = exposed c /\ (fst r = 0 -> sectorsOk wd a b = true) /\
  (busy wd (calls c) = false -> sectorsOk wd a b = true -> fst r = 0 /\ forall s, a <= s <= b -> ready c' s = true).
Proof.
  unfold rom_call. cbn [arg rd nth calls cells ready exposed]. cmds. rewrite orb_false_r. destruct (busy wd (calls c)); cbn [fst]; [repeat split; auto; discriminate|].
  destruct (sectorsOk wd a b); cbn [fst cells calls exposed ready]; repeat split; auto; try discriminate. intros; lia.
Qed.
Lemma erase_call wd a b k c : let '(c', r) := rom_call wd false CMD_ERASE [a; b; k] c in
  calls c' = S (calls c) /\ exposed c' = exposed c /\ (fst r = 0 -> sectorsOk wd a b = true) /\
  (forall x, within (a * 4096) ((b - a + 1) * 4096) x = false -> cells c' x = cells c x) /\
  (busy wd (calls c) = false -> (forall k a v, worn wd k a v = v) -> sectorsOk wd a b = true -> (forall s, a <= s <= b -> ready c s = true) ->
   fst r = 0 /\ forall x, within (a * 4096) ((b - a + 1) * 4096) x = true -> cells c' x = 0xff).
Proof.
  unfold rom_call. cbn [arg rd nth calls cells ready exposed]. cmds. rewrite orb_false_r. destruct (busy wd (calls c)); cbn [fst]; [repeat split; auto; discriminate|].
  destruct (sectorsOk wd a b); cbn [negb fst]; [|repeat split; auto; discriminate].
  destruct (all (ready c) a b) eqn:A; cbn [negb fst cells calls exposed].
  - repeat split; auto. + intros x ->. reflexivity. + intros x W. rewrite W. auto.
  - repeat split; auto; try discriminate; exfalso; (assert (E : all (ready c) a b = true) by (apply all_spec; auto)); congruence.
Qed.
Lemma blank_call wd a b k c : let '(c', r) := rom_call wd false CMD_BLANK_CHECK (a :: b :: k) c in
  calls c' = S (calls c) /\ exposed c' = exposed c /\ cells c' = cells c /\
  (fst r = 0 -> forall x, a * 4096 <= x <= b * 4096 + 4095 -> cells c x = 0xff) /\
  (busy wd (calls c) = false -> sectorsOk wd a b = true -> (forall x, a * 4096 <= x <= b * 4096 + 4095 -> cells c x = 0xff) -> fst r = 0) /\
  (busy wd (calls c) = false -> (fst r = IAP_INVALID_SECTOR <-> sectorsOk wd a b = false)).
Proof.
  unfold rom_call. cbn [arg rd nth calls cells ready exposed]. cmds. rewrite orb_false_r. destruct (busy wd (calls c)); cbn [fst]; [repeat split; auto; discriminate|].
  destruct (sectorsOk wd a b); cbn [negb fst].
  - destruct (all _ _ _) eqn:A; cbn [fst cells calls exposed]; repeat split; auto; try discriminate.
    + intros _ x L. rewrite all_spec in A. specialize (A x L). cbn beta in A. lia.
    + intros _ _ E. exfalso. assert (T : all (fun a0 => cells c a0 =? 255) (a * 4096) (b * 4096 + 4095) = true) by (apply all_spec; intros x L; rewrite (E x L); reflexivity). congruence.
  - repeat split; auto; discriminate.
Qed.
Lemma page_call wd a b k c : let '(c', r) := rom_call wd false CMD_ERASE_PAGE [a; b; k] c in
  calls c' = S (calls c) /\ exposed c' = exposed c /\ (fst r = 0 -> 0 <= a <= b /\ b < sectors wd * 16) /\
  (forall x, within (a * 256) ((b - a + 1) * 256) x = false -> cells c' x = cells c x) /\
  (fst r = 0 -> (forall k a v, worn wd k a v = v) -> forall x, within (a * 256) ((b - a + 1) * 256) x = true -> cells c' x = 0xff) /\
  (busy wd (calls c) = false -> 0 <= a <= b -> b < sectors wd * 16 -> (forall s, a / 16 <= s <= b / 16 -> ready c s = true) -> fst r = 0).
Proof.
  unfold rom_call. cbn [arg rd nth calls cells ready exposed]. cmds. rewrite orb_false_r. destruct (busy wd (calls c)); cbn [fst]; [repeat split; auto; discriminate|].
  destruct ((0 <=? a) && (a <=? b) && (b <? sectors wd * 16)) eqn:V; cbn [negb fst]; [|repeat split; auto; try discriminate; intros; exfalso; lia].
  destruct (all (ready c) (a / 16) (b / 16)) eqn:A; cbn [negb fst cells calls exposed].
  - split; [auto|]. split; [auto|]. split; [lia|]. split; [intros x ->; reflexivity|]. split; [intros _ W x ->; apply W|auto].
  - repeat split; auto; try discriminate. intros _ _ _ E. exfalso. assert (T : all (ready c) (a / 16) (b / 16) = true) by (apply all_spec; auto). congruence.
Qed.

Lemma copy_call wd rom src size k c : let '(c', r) := rom_call wd false CMD_COPY_RAM2FLASH [rom; src; size; k] c in
  calls c' = S (calls c) /\ exposed c' = exposed c /\ (fst r = 0 -> 0 <= rom /\ rom + size <= sectors wd * 4096 /\ 0 < size) /\
  (forall x, within rom size x = false -> cells c' x = cells c x) /\
  (busy wd (calls c) = false -> (forall k a v, worn wd k a v = v) -> src mod 4 = 0 -> rom mod 256 = 0 -> In size [256; 512; 1024; 4096] -> 0 <= rom -> rom + size <= sectors wd * 4096 ->
   (forall s, rom / 4096 <= s <= (rom + size - 1) / 4096 -> ready c s = true) ->
   fst r = 0 /\ forall a, within rom size a = true -> cells c' a = Z.land (cells c a) (ram wd (src + (a - rom)))).
Proof.
  unfold rom_call. cbn [arg rd nth calls cells ready exposed]. cmds. rewrite orb_false_r. destruct (busy wd (calls c)); cbn [fst]; [repeat split; auto; discriminate|].
  destruct (Z.eqb_spec (src mod 4) 0); cbn [negb fst]; [|repeat split; auto; discriminate || contradiction].
  destruct (Z.eqb_spec (rom mod 256) 0); cbn [negb fst]; [|repeat split; auto; discriminate || contradiction].
  destruct (existsb (Z.eqb size) [256; 512; 1024; 4096]) eqn:EX; cbn [negb fst].
  2:{ split; [auto|]. split; [auto|]. split; [discriminate|]. split; [auto|]. intros _ _ _ _ IN. exfalso. assert (T : existsb (Z.eqb size) [256; 512; 1024; 4096] = true) by (apply existsb_exists; exists size; split; [exact IN|apply Z.eqb_refl]). congruence. }
  destruct ((0 <=? rom) && (rom + size <=? sectors wd * 4096)) eqn:V; cbn [negb fst].
  2:{ split; [auto|]. split; [auto|]. split; [discriminate|]. split; [auto|]. intros. exfalso. lia. }
  destruct (all (ready c) _ _) eqn:A; cbn [negb fst cells calls exposed].
  - split; [auto|]. split; [auto|]. split; [intros _; cbn in EX; lia|]. split; [intros x ->; reflexivity|]. intros _ W _ _ _ _ _ _. split; auto. intros a X. rewrite X. apply W.
  - split; [auto|]. split; [auto|]. split; [discriminate|]. split; [auto|]. intros _ _ _ _ _ _ _ E. exfalso. assert (T : all (ready c) (rom / 4096) ((rom + size - 1) / 4096) = true) by (apply all_spec; auto). congruence.
Qed.
Lemma compare_call wd rom src size k c : let '(c', r) := rom_call wd false CMD_COMPARE [rom; src; size; k] c in
  calls c' = S (calls c) /\ exposed c' = exposed c /\ cells c' = cells c /\
  (fst r = 0 -> forall a, within rom size a = true -> cells c a = ram wd (src + (a - rom))) /\
  (busy wd (calls c) = false -> src mod 4 = 0 -> rom mod 4 = 0 -> size mod 4 = 0 ->
   ((forall a, within rom size a = true -> cells c a = ram wd (src + (a - rom))) -> fst r = 0) /\ (fst r = 0 \/ fst r = COMPARE_ERROR)).
Proof.
  unfold rom_call. cbn [arg rd nth calls cells ready exposed]. cmds. rewrite orb_false_r. destruct (busy wd (calls c)); cbn [fst]; [repeat split; auto; discriminate|].
  destruct (Z.eqb_spec (src mod 4) 0); cbn [negb fst]; [|repeat split; auto; discriminate || contradiction].
  destruct (Z.eqb_spec (rom mod 4) 0); cbn [negb fst]; [|repeat split; auto; discriminate || contradiction].
  destruct (Z.eqb_spec (size mod 4) 0); cbn [negb fst]; [|repeat split; auto; discriminate || contradiction].
  destruct (all _ _ _) eqn:A; cbn [fst cells calls exposed]; repeat split; auto; try discriminate.
  - intros _ a W. apply within_spec in W. rewrite all_spec in A. apply Z.eqb_eq, A. lia.
  - intros E. exfalso. assert (T : all (fun a => cells c a =? ram wd (src + (a - rom))) rom (rom + size - 1) = true) by (apply all_spec; intros a L; apply Z.eqb_eq, E, within_spec; lia). congruence.
Qed.

Section Program.
  Context (wd : world) (clk rom src size : Z).
  Lemma program_sound s : let '(s', st) := iapProgram (lpc wd) clk rom src size s in
    (forall a, within rom size a = false -> cells (hw s') a = cells (hw s) a) /\
    (st = 0 -> 0 <= rom /\ rom + size <= sectors wd * 4096 /\ 0 < size /\ forall a, within rom size a = true -> cells (hw s') a = ram wd (src + (a - rom))) /\
    exposed (hw s') = exposed (hw s) /\ irq s' = true /\
    (healthy wd -> sane wd -> src mod 4 = 0 -> rom mod 256 = 0 -> In size [256; 512; 1024; 4096] -> 0 <= rom -> rom + size <= sectors wd * 4096 ->
     (forall a, within rom size a = true -> cells (hw s') a = Z.land (cells (hw s) a) (ram wd (src + (a - rom)))) /\
     ((forall a, within rom size a = true -> Z.land (cells (hw s) a) (ram wd (src + (a - rom))) = ram wd (src + (a - rom))) -> st = 0) /\ (st = 0 \/ st = COMPARE_ERROR)).
  Proof.
    destruct s as [c q]. unfold iapProgram, prepareSectorRange, IAP_Call_InterruptSafe, noInterrupts, interrupts. cbn [hw irq lpc call handlers].
    set (a0 := iapSectorOfAddress rom). set (b0 := iapSectorOfAddress (u32 _)).
    pose proof (prepare_call wd a0 b0 c) as P. destruct (rom_call wd false CMD_PREPARE [a0; b0] c) as [c1 [st1 x1]]. cbn [fst snd hw irq] in *. destruct P as (P1 & P2 & P3 & P4 & P5).
    assert (V : sane wd -> In size [256; 512; 1024; 4096] -> 0 <= rom -> rom + size <= sectors wd * 4096 -> a0 = rom / 4096 /\ b0 = (rom + size - 1) / 4096 /\ sectorsOk wd a0 b0 = true /\ size mod 4 = 0).
    { intros [SZ _] A3 A4 A5. assert (B : 256 <= size <= 4096 /\ size mod 4 = 0) by (cbn in A3; repeat (destruct A3 as [<-|A3]; [split; [lia|reflexivity]|]); contradiction).
      unfold a0, b0. rewrite sector_of by lia. replace (u32 (rom + size - 1)) with (rom + size - 1) by (unfold u32; rewrite Z.mod_small; lia). rewrite sector_of by lia. repeat split; [|apply B].
      unfold sectorsOk. assert (0 <= rom / 4096) by (apply Z.div_pos; lia). assert (rom / 4096 <= (rom + size - 1) / 4096) by (apply Z.div_le_mono; lia). assert ((rom + size - 1) / 4096 < sectors wd) by (apply Z.div_lt_upper_bound; lia). lia. }
    clearbody a0 b0.
    destruct (Z.eqb_spec st1 IAP_SUCCESS) as [->|N]; cbn [negb fst hw irq cells exposed].
    2:{ rewrite P1, P3. split; [auto|]. split; [intros ->; contradiction|]. split; [auto|]. split; [auto|]. intros (Hb & _) SN A1 A2 A3 A4 A5. destruct (V SN A3 A4 A5) as (_ & _ & V1 & _). destruct (P5 (Hb _) V1) as [-> _]. contradiction. }
    pose proof (copy_call wd rom src size (clk / 1000) c1) as Q. destruct (rom_call wd false CMD_COPY_RAM2FLASH [rom; src; size; clk / 1000] c1) as [c2 [st2 x2]]. cbn [fst snd hw irq] in *. destruct Q as (Q1 & Q2 & Q3 & Q4 & Q5).
    assert (R2 : healthy wd -> sane wd -> src mod 4 = 0 -> rom mod 256 = 0 -> In size [256; 512; 1024; 4096] -> 0 <= rom -> rom + size <= sectors wd * 4096 ->
      st2 = 0 /\ forall a, within rom size a = true -> cells c2 a = Z.land (cells c a) (ram wd (src + (a - rom)))).
    { intros (Hb & Hw & Hm) SN A1 A2 A3 A4 A5. destruct (V SN A3 A4 A5) as (V1 & V2 & V3 & _). rewrite <- P1. apply Q5; auto. intros s L. apply P5; auto. lia. }
    clear Q5.
    destruct (Z.eqb_spec st2 IAP_SUCCESS) as [->|N]; cbn [negb fst hw irq cells exposed].
    2:{ rewrite Q2, P3. split; [intros a W; rewrite Q4, P1 by auto; reflexivity|]. split; [intros ->; contradiction|]. split; [auto|]. split; [auto|]. intros. exfalso. apply N, R2; auto. }
    pose proof (compare_call wd rom src size (clk / 1000) c2) as B. destruct (rom_call wd false CMD_COMPARE [rom; src; size; clk / 1000] c2) as [c3 [st3 x3]]. cbn [fst snd hw irq cells exposed] in *. destruct B as (B1 & B2 & B3 & B4 & B5).
    rewrite B3, B2, Q2, P3. split; [intros a W; rewrite Q4, P1 by auto; reflexivity|].
    split; [intros E; destruct (Q3 eq_refl) as (? & ? & ?); auto|]. split; [auto|]. split; [auto|].
    intros Hh SN A1 A2 A3 A4 A5. destruct (R2 Hh SN A1 A2 A3 A4 A5) as [_ R]. destruct (V SN A3 A4 A5) as (_ & _ & _ & S4). split; [exact R|].
    assert (M : rom mod 4 = 0) by (apply Z.mod_divide; [lia|]; clear - A2; apply Z.mod_divide in A2; [|lia]; destruct A2 as [x ->]; exists (x * 64); lia).
    destruct (B5 (proj1 Hh _) A1 M S4) as [C1 C2]. split; auto. intros E. apply C1. intros a W. rewrite R by auto. auto.
  Qed.
End Program.

Section Erase.
  Context (wd : world) (clk : Z).
  Lemma erase_sound a b s : let '(s', st) := iapEraseSectorRange (lpc wd) clk a b s in
    (forall x, within (a * 4096) ((b - a + 1) * 4096) x = false -> cells (hw s') x = cells (hw s) x) /\
    (st = 0 -> sectorsOk wd a b = true /\ forall x, within (a * 4096) ((b - a + 1) * 4096) x = true -> cells (hw s') x = 0xff) /\
    exposed (hw s') = exposed (hw s) /\ irq s' = true /\
    (healthy wd -> sectorsOk wd a b = true -> st = 0).
  Proof.
    destruct s as [c q]. unfold iapEraseSectorRange, prepareSectorRange, IAP_Call_InterruptSafe, noInterrupts, interrupts. cbn [hw irq lpc call handlers].
    pose proof (prepare_call wd a b c) as P. destruct (rom_call wd false CMD_PREPARE [a; b] c) as [c1 [st1 x1]]. cbn [fst hw irq cells calls exposed ready] in *. destruct P as (P1 & P2 & P3 & P4 & P5).
    destruct (Z.eqb_spec st1 IAP_SUCCESS) as [->|N]; cbn [fst hw irq cells exposed].
    2:{ rewrite P1, P3. split; [auto|]. split; [intros ->; contradiction|]. split; [auto|]. split; [auto|]. intros (Hb & _) V. destruct (P5 (Hb _) V) as [-> _]. contradiction. }
    set (c1' := mkChip (cells c1) _ _ _).
    pose proof (erase_call wd a b (clk / 1000) c1') as Q. destruct (rom_call wd false CMD_ERASE [a; b; clk / 1000] c1') as [c2 [st2 x2]]. cbn [fst hw irq cells calls exposed ready] in *. destruct Q as (Q1 & Q2 & Q3 & Q4 & Q5).
    assert (R2 : healthy wd -> sectorsOk wd a b = true -> st2 = 0 /\ forall x, within (a * 4096) ((b - a + 1) * 4096) x = true -> cells c2 x = 0xff).
    { intros (Hb & Hw & Hm) V. apply Q5; auto. intros s L. unfold c1'. cbn [ready]. rewrite Hm. apply P5; auto. }
    unfold c1' in Q1, Q2, Q4. cbn [cells calls exposed] in Q1, Q2, Q4. clear Q5 c1'.
    destruct (Z.eqb_spec st2 IAP_SUCCESS) as [->|N]; cbn [fst hw irq cells exposed].
    2:{ rewrite Q2, P3. split; [intros x W; rewrite Q4, P1 by auto; reflexivity|]. split; [intros ->; contradiction|]. split; [auto|]. split; [auto|]. intros Hh V. destruct (R2 Hh V) as [-> _]. contradiction. }
    set (c2' := mkChip (cells c2) _ _ _).
    pose proof (blank_call wd a b [clk / 1000] c2') as B. destruct (rom_call wd false CMD_BLANK_CHECK [a; b; clk / 1000] c2') as [c3 [st3 x3]]. cbn [fst hw irq cells calls exposed ready] in *. destruct B as (B1 & B2 & B3 & B4 & B5 & _).
    unfold c2' in *. cbn [cells calls exposed] in *. clear c2'.
    rewrite B3, B2, Q2, P3. split; [intros x W; rewrite Q4, P1 by auto; reflexivity|]. split; [intros E; split; [apply Q3; reflexivity|intros x W; apply within_spec in W; apply B4; [exact E|lia]]|]. repeat split; auto.
    intros Hh V. destruct (R2 Hh V) as [_ R]. destruct Hh as (Hb & _). apply B5; auto. intros x L. apply R, within_spec. lia.
  Qed.
  Lemma page_sound a b s : let '(s', st) := iapErasePageRange (lpc wd) clk a b s in
    (forall x, within (a * 256) ((b - a + 1) * 256) x = false -> cells (hw s') x = cells (hw s) x) /\
    (st = 0 -> 0 <= a <= b /\ b < sectors wd * 16 /\ ((forall k a v, worn wd k a v = v) -> forall x, within (a * 256) ((b - a + 1) * 256) x = true -> cells (hw s') x = 0xff)) /\
    exposed (hw s') = exposed (hw s) /\ irq s' = true /\
    (healthy wd -> 0 <= a <= b -> b < sectors wd * 16 -> st = 0).
  Proof.
    destruct s as [c q]. unfold iapErasePageRange, prepareSectorRange, IAP_Call_InterruptSafe, noInterrupts, interrupts. cbn [hw irq lpc call handlers].
    change (FLASH_SECTOR_SIZE / FLASH_PAGE_SIZE) with 16. set (a0 := a / 16). set (b0 := b / 16).
    assert (V0 : 0 <= a <= b -> b < sectors wd * 16 -> sectorsOk wd a0 b0 = true).
    { intros A B. unfold sectorsOk. assert (0 <= a0) by (apply Z.div_pos; lia). assert (a0 <= b0) by (apply Z.div_le_mono; lia). assert (b0 < sectors wd) by (apply Z.div_lt_upper_bound; lia). lia. }
    pose proof (prepare_call wd a0 b0 c) as P. destruct (rom_call wd false CMD_PREPARE [a0; b0] c) as [c1 [st1 x1]]. cbn [fst hw irq cells calls exposed ready] in *. destruct P as (P1 & P2 & P3 & P4 & P5).
    destruct (Z.eqb_spec st1 IAP_SUCCESS) as [->|N]; cbn [fst hw irq cells exposed].
    2:{ rewrite P1, P3. split; [auto|]. split; [intros ->; contradiction|]. repeat split; auto. intros (Hb & _) V V'. destruct (P5 (Hb _) (V0 V V')) as [-> _]. contradiction. }
    set (c1' := mkChip (cells c1) _ _ _).
    pose proof (page_call wd a b (clk / 1000) c1') as Q. destruct (rom_call wd false CMD_ERASE_PAGE [a; b; clk / 1000] c1') as [c2 [st2 x2]]. cbn [fst hw irq cells calls exposed ready] in *. destruct Q as (Q1 & Q2 & Q3 & Q4 & Q5 & Q6).
    rewrite Q2. split; [intros x W; rewrite Q4 by auto; unfold c1'; cbn [cells]; rewrite P1; reflexivity|].
    split; [intros E; destruct (Q3 E); auto|]. unfold c1'. cbn [exposed]. repeat split; auto.
    intros (Hb & Hw & Hm) V V'. apply Q6; auto. intros s L. unfold c1'. cbn [ready]. rewrite Hm. apply P5; auto.
  Qed.
End Erase.

Lemma sizeLoop_ok wd (NB : forall k, busy wd k = false) : forall n sector s N, sectors wd = 2 * N -> 1 <= N <= 64 -> 2 <= sector <= 2 * N -> sector mod 2 = 0 -> 128 - sector < Z.of_nat n * 2 + 2 -> 
  let '(s', r) := sizeLoop (lpc wd) n sector s in r = 2 * N /\ (forall a, cells (hw s') a = cells (hw s) a) /\ exposed (hw s') = exposed (hw s).
Proof.
  induction n as [|n IH]; intros sector s N E L R M F; cbn [sizeLoop].
  - split; auto. apply Z.mod_divide in M; [|lia]. destruct M as [x ->]. lia.
  - change (MAX_FLASH_SIZE / FLASH_SECTOR_SIZE) with 128. change (FLASH_SIZE_SEARCH_INC / FLASH_SECTOR_SIZE) with 2.
    destruct (Z.ltb_spec sector 128); [|split; auto; lia].
    unfold IAP_Call_InterruptSafe, noInterrupts, interrupts. cbn [hw irq lpc call handlers].
    pose proof (blank_call wd sector sector [] (hw s)) as B. destruct (rom_call wd false CMD_BLANK_CHECK [sector; sector] (hw s)) as [c1 [st1 x1]]. cbn [fst hw irq] in *. destruct B as (B1 & B2 & B3 & B4 & B5 & B6).
    specialize (B6 (NB _)). unfold sectorsOk in B6.
    destruct (Z.eqb_spec st1 IAP_INVALID_SECTOR) as [->|NI]; cbn [hw cells exposed].
    + rewrite B3, B2. split; auto. destruct B6 as [B6 _]. specialize (B6 eq_refl). lia.
    + assert (sector < 2 * N) by (destruct (Z.lt_ge_cases sector (2 * N)); auto; exfalso; apply NI, B6; lia).
      set (s1 := mkCpu _ true). specialize (IH (sector + 2) s1 N E L).
      destruct (sizeLoop (lpc wd) n (sector + 2) s1) as [s' r]. destruct IH as (I1 & I2 & I3).
      * apply Z.mod_divide in M; [|lia]. destruct M as [x ->]. lia.
      * rewrite <- Z.add_mod_idemp_l by lia. rewrite M. reflexivity.
      * lia.
      * split; auto. rewrite I3. split; [intros x; rewrite I2; unfold s1; cbn [hw cells]; rewrite B3; reflexivity|exact B2].
Qed.
