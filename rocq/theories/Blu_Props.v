(** C118: the application that replaces the bootloader (firmware_updater/bootloaderupdater) *)
From Verif Require Export Blu_Proofs.

(** A chip with four sectors that hold zeros; an image of 5000 bytes and one of 5; a chip that is busy at the fourth call of the boot ROM, once. *)
Definition board (b : nat -> bool) : world := {| sectors := 4; ram := fun a => a mod 256; busy := b; worn := fun _ _ v => v; meddle := fun _ _ x => x; uid := []; part := 0 |}.
Definition fresh : cpu chip := mkCpu (mkChip (fun _ => 0) (fun _ => false) 0 false) true.
Definition five : list Z := map (fun k => Z.of_nat k mod 251) (seq 0 (Z.to_nat 5000)).
Definition tiny : list Z := [1; 2; 3; 4; 5].
Lemma five_length : length five = Z.to_nat 5000.
Proof. unfold five. rewrite map_length, seq_length. reflexivity. Qed.
Lemma five_taken : taken (length five) = 2.
Proof. rewrite five_length. unfold taken. rewrite Z2Nat.id by lia. reflexivity. Qed.
Lemma five_bytes : Forall is_byte five.
Proof. apply Forall_forall. intros x H. apply in_map_iff in H. destruct H as (k & <- & _). unfold is_byte. pose proof (Z.mod_pos_bound (Z.of_nat k) 251 ltac:(lia)). lia. Qed.
Lemma five_nth a : 0 <= a < 5000 -> nth (Z.to_nat a) five 0xff = a mod 251.
Proof.
  intros L. unfold five. rewrite (nth_indep _ 0xff (Z.of_nat 0 mod 251)) by (rewrite map_length, seq_length; lia). rewrite (map_nth (fun k => Z.of_nat k mod 251)), seq_nth by lia. rewrite Nat.add_0_l, Z2Nat.id by lia. reflexivity.
Qed.
Definition rom (wd : world) (p : Z) : list Z -> bootrom chip := fun buf => lpc (with_buffer wd p buf).

(** On a chip without defects that is large enough: when the updater resets the device the flash holds the image it carries, the boot ROM starts it, everything behind its last sector
    is as before, and no call of the ROM was made with interrupts enabled. *)
Theorem C118_installed_partial wd clk p image s : healthy wd -> sane wd -> p mod 4 = 0 -> Forall is_byte image -> (0 < length image)%nat -> taken (length image) <= sectors wd ->
  let s' := update (rom wd p) clk p image s in
  holds image (cells (hw s')) /\ (forall a, taken (length image) * 4096 <= a -> cells (hw s') a = cells (hw s) a) /\ exposed (hw s') = exposed (hw s).
Proof.
  intros Hh Hs Hp Hb Hl Ht. cbv zeta. assert (B : Z.of_nat (length image) < 2147483648) by (destruct Hs as [Hs _]; unfold taken in Ht; Z.div_mod_to_equations; lia).
  unfold update. destruct (upto_any wd clk p image (length image) s Hl B) as [A1 A2]. cbv zeta in *. unfold rom. set (s' := update_upto _ _ _ _ _ s) in *.
  assert (G : forall a, 0 <= a < taken (length image) * 4096 -> cells (hw s') a = goal image a).
  { intros a L. unfold s'. rewrite (upto_good wd clk p image (length image) s Hh Hs Hp Hb Hl Ht a L). destruct (Z.ltb_spec a (Z.of_nat (length image) * 4096)) as [?|C]; auto. exfalso. unfold taken in L. clear - L C Hl. Z.div_mod_to_equations. lia. }
  assert (T : 1 <= taken (length image)) by (unfold taken; Z.div_mod_to_equations; lia).
  split; [|split; [intros a L; apply A1; lia|exact A2]]. split; [intros a L N; rewrite G by auto; apply goal_image; [lia|auto]|]. split.
  - intros a L. rewrite G by lia. rewrite goal_first by lia. apply pass_byte; auto. lia.
  - apply (goal_accepted image). intros a L. apply G. lia.
Qed.
Print Assumptions C118_installed_partial.
Example C118_installed_example : healthy (board (fun _ => false)) /\ sane (board (fun _ => false)) /\ Forall is_byte five /\ taken (length five) = 2 /\
  (let f := cells (hw (update (rom (board (fun _ => false)) 0x10000400) 48000000 0x10000400 five fresh)) in f 0 = 0 /\ f 4 = 4 /\ f 4999 = 230 /\ f 5000 = 0xff /\ f 8191 = 0xff /\ f 8192 = 0).
Proof.
  assert (A : healthy (board (fun _ => false))) by repeat split. assert (B : sane (board (fun _ => false))) by (split; [cbn; lia|intros a; apply Z.mod_pos_bound; lia]).
  split; [exact A|]. split; [exact B|]. split; [exact five_bytes|]. split; [exact five_taken|].
  assert (K : forall f, holds five f -> (forall a, taken (length five) * 4096 <= a -> f a = cells (hw fresh) a) -> f 0 = 0 /\ f 4 = 4 /\ f 4999 = 230 /\ f 5000 = 0xff /\ f 8191 = 0xff /\ f 8192 = 0).
  { intros f (H1 & _) H2. rewrite five_taken in H1, H2. rewrite !H1 by lia. rewrite H2 by lia. rewrite !five_nth by lia. rewrite !nth_overflow by (rewrite five_length; lia). repeat split. }
  destruct (C118_installed_partial (board (fun _ => false)) 48000000 0x10000400 five fresh A B eq_refl five_bytes) as (H1 & H2 & _); [rewrite five_length; lia|rewrite five_taken; cbn; lia|]. exact (K _ H1 H2).
Qed.

(** Whatever the chip does, at every moment: nothing outside the sectors of the image is changed (the updater itself lies behind them), no call with interrupts enabled. *)
Theorem C118_confined wd clk p image n s : (0 < length image)%nat -> Z.of_nat (length image) < 2147483648 ->
  let s' := update_upto (rom wd p) clk p image n s in (forall a, ~ (0 <= a < taken (length image) * 4096) -> cells (hw s') a = cells (hw s) a) /\ exposed (hw s') = exposed (hw s).
Proof. intros A B. apply (upto_any wd clk p image n s A B). Qed.
Print Assumptions C118_confined.
Example C118_confined_example : (0 < length five)%nat /\ Z.of_nat (length five) < 2147483648 /\ cells (hw (update_upto (rom (board (fun k => Nat.even k)) 0x10000400) 48000000 0x10000400 five 1 fresh)) 8192 = 0.
Proof.
  split; [rewrite five_length; lia|]. split; [rewrite five_length; lia|]. destruct (C118_confined (board (fun k => Nat.even k)) 48000000 0x10000400 five 1 fresh ltac:(rewrite five_length; lia) ltac:(rewrite five_length; lia)) as (H & _). cbv zeta in H. rewrite H by (rewrite five_taken; lia). reflexivity.
Qed.

(** Power failures, on a chip without defects. After the erasing and before the first pass the boot ROM starts nothing; after each later pass it starts what is there, *)
Theorem C118_power wd clk p image n s : healthy wd -> sane wd -> p mod 4 = 0 -> Forall is_byte image -> (0 < length image)%nat -> taken (length image) <= sectors wd ->
  accepted (cells (hw (update_upto (rom wd p) clk p image n s))) <-> (1 <= n)%nat.
Proof.
  intros Hh Hs Hp Hb Hl Ht. assert (T : 1 <= taken (length image)) by (unfold taken; Z.div_mod_to_equations; lia).
  pose proof (upto_good wd clk p image n s Hh Hs Hp Hb Hl Ht) as G. fold (rom wd p) in G. destruct n as [|n].
  - split; [|lia]. intros A. exfalso. unfold accepted, entry in A. rewrite !G in A by lia. revert A. vm_compute. discriminate.
  - split; [lia|]. intros _. apply (goal_accepted image). intros a L. rewrite G by lia. destruct (Z.ltb_spec a (Z.of_nat (S n) * 4096)); [reflexivity|lia].
Qed.
Print Assumptions C118_power.
(** even though the rest of the bootloader is missing. *)
Theorem C118_power_refuted : exists wd clk p image n s, healthy wd /\ sane wd /\ p mod 4 = 0 /\ Forall is_byte image /\ (0 < length image)%nat /\ taken (length image) <= sectors wd /\
  accepted (cells (hw (update_upto (rom wd p) clk p image n s))) /\ ~ holds image (cells (hw (update_upto (rom wd p) clk p image n s))).
Proof.
  destruct C118_installed_example as (A & B & C & _). assert (L : (0 < length five)%nat) by (rewrite five_length; lia). assert (S4 : taken (length five) <= sectors (board (fun _ => false))) by (rewrite five_taken; cbn; lia).
  exists (board (fun _ => false)), 48000000, 0x10000400, five, 1%nat, fresh. split; [exact A|]. split; [exact B|]. split; [reflexivity|]. split; [exact C|]. split; [exact L|]. split; [exact S4|].
  split; [apply (C118_power (board (fun _ => false)) 48000000 0x10000400 five 1 fresh A B eq_refl C L S4); lia|]. intros (H & _). specialize (H 4999). rewrite five_taken in H. specialize (H ltac:(lia) ltac:(lia)).
  unfold rom in H. rewrite (upto_good (board (fun _ => false)) 48000000 0x10000400 five 1 fresh A B eq_refl C L S4) in H by (rewrite five_taken; lia). rewrite five_nth in H by lia. discriminate H.
Qed.
Print Assumptions C118_power_refuted.

(** Wanted: the device is only reset with a working bootloader. Refuted: the statuses of erasing and programming are not looked at; if the boot ROM is busy once, the device has none. *)
Theorem C118_failure_refuted : exists wd clk p image s, sane wd /\ (forall k a v, worn wd k a v = v) /\ (forall k x b, meddle wd k x b = b) /\ (exists k, forall j, busy wd j = true <-> j = k) /\
  p mod 4 = 0 /\ Forall is_byte image /\ (0 < length image)%nat /\ taken (length image) <= sectors wd /\ ~ accepted (cells (hw (update (rom wd p) clk p image s))).
Proof.
  exists (board (Nat.eqb 3)), 48000000, 0x10000400, tiny, fresh. destruct C118_installed_example as (_ & (B1 & B2) & C & _). split; [split; auto|]. split; [reflexivity|]. split; [reflexivity|].
  split; [exists 3%nat; intros j; cbn [busy board]; rewrite Nat.eqb_eq; split; auto|]. split; [reflexivity|]. split; [repeat constructor; lia|]. split; [cbn; lia|]. split; [vm_compute; discriminate|]. vm_compute. discriminate.
Qed.
Print Assumptions C118_failure_refuted.
(** An updater without an image (an empty bootloader.bin) erases the bootloader. *)
Theorem C118_empty_refuted wd clk p s : healthy wd -> sane wd -> forall a, 0 <= a < 4096 -> cells (hw (update (rom wd p) clk p [] s)) a = 0xff.
Proof.
  intros Hh Hs a L. unfold update, update_upto. cbn [length passes]. unfold erase. cbn [length]. change (iapSectorOfAddress (u32 (0 + u32 (Z.of_nat 0) - 1))) with 0. change (iapSectorOfAddress 0) with 0.
  pose proof (erase_sound (with_buffer wd p []) clk 0 0 s) as P. fold (rom wd p []) in P. destruct (iapEraseSectorRange _ _ _ _ s) as [s1 st]. destruct P as (_ & P2 & _ & _ & P5). cbn [fst].
  destruct Hs as [Hs _]. apply P2; [|apply within_spec; lia]. apply P5; [exact Hh|]. unfold sectorsOk. cbn [sectors with_buffer]. lia.
Qed.
Print Assumptions C118_empty_refuted.
Example C118_empty_example : healthy (board (fun _ => false)) /\ sane (board (fun _ => false)) /\ cells (hw fresh) 0 = 0 /\ ~ accepted (cells (hw (update (rom (board (fun _ => false)) 0) 48000000 0 [] fresh))).
Proof. destruct C118_installed_example as (A & B & _). split; [exact A|]. split; [exact B|]. split; [reflexivity|]. unfold accepted, entry. rewrite !(C118_empty_refuted _ _ _ _ A B) by lia. vm_compute. discriminate. Qed.
