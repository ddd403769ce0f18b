(** C124: the bootloader on the bus *)
From Verif Require Export BootTel_Proofs.
Open Scope Z_scope.

Lemma request_apci t m : is_byte (rd t 6) -> request t m -> apciCommand t = 0x2F8.
Proof.
  intros B (R6 & R7 & _). unfold apciCommand. rewrite R7. assert (E : Z.land (rd t 6) 3 = 2) by (change 3 with (Z.ones 2); rewrite Z.land_ones by lia; change (2 ^ 2) with 4; exact R6). rewrite E. reflexivity.
Qed.

(** Every command sent to the bootloader is executed on exactly the bytes of its message, whatever the receive buffer holds behind them, and the updating program reads from the answer exactly the reply: its command and all its data. *)
Theorem C124_command debug L e t m sb s s' r : is_byte (rd t 6) -> request t m -> (length m <= 14)%nat -> (23 <= length sb)%nat -> bytes_only L e s -> handle L e m s = Some (s', r) ->
  exists sb', processApci debug L e (apciCommand t) t (telegram_length m) sb s = Some (s', sb', true, false) /\ read_answer sb' = Some r /\ same_head sb sb' /\ rd sb' 5 / 16 = 6 /\ Z.of_nat (length (snd r)) <= 12.
Proof.
  intros B Q Lm Ls W H. pose proof (handle_good L e m s s' r W H) as G. destruct (answer_good debug sb r G Ls) as (sb' & E & Rd & Sh & R5). exists sb'. assert (L12 : Z.of_nat (length (snd r)) <= 12) by (destruct G as (_ & _ & ->); apply replyCount_small).
  split; [|split; [exact Rd|]; split; [exact Sh|]; split; [rewrite R5; symmetry; apply (Z.div_unique _ 16 6 (2 + Z.of_nat (length (snd r)))); lia|exact L12]].
  unfold processApci. rewrite (request_apci t m B Q). change (0x2F8 =? APCI_MEMORY_WRITE_PDU) with false. change (0x2F8 =? APCI_USERMSG_MANUFACTURER_0) with true. cbv iota zeta. destruct Q as (_ & _ & rest & Sk & _). unfold telegram_length. replace (8 + Z.of_nat (length m) + 1 - 8 - 1) with (Z.of_nat (length m)) by lia.
  assert (U : u32 (Z.of_nat (length m)) = Z.of_nat (length m)) by (unfold u32; apply Z.mod_small; lia). rewrite U, Sk. unfold handleApciUsermsgManufacturer, manufacturerInternal. rewrite app_length. destruct (Z.leb_spec (Z.of_nat (length m)) (Z.of_nat (length m + length rest))) as [_|N]; [|lia].
  rewrite Nat2Z.id, firstn_app, Nat.sub_diag, firstn_all, app_nil_r, H, E. reflexivity.
Qed.
Print Assumptions C124_command.

Definition chip : layout := mkLayout (Z.of_nat 12 * 1024) (Z.of_nat 64 * 1024) [1; 2; 3; 4; 5; 6; 7; 8; 9; 10; 11; 12; 13; 14; 15; 16].
Definition around : env := mkEnv [] (fun _ => 0) [1; 0; 2; 0].
Definition device : upd := updInit chip (fun _ => 0xFF).
(** UID request, with other bytes behind the message *)
Definition tel : list Z := [0xB0; 0x11; 0x01; 0xFF; 0xC0; 0x62; 0x42; 0xF8; 0xBE; 0x77; 0x55; 0x33].
Example C124_command_example : exists sb', processApci true chip around (apciCommand tel) tel 10 (repeat 0 23) device = Some (device, sb', true, false) /\ read_answer sb' = Some (0xBD, [1; 2; 3; 4; 5; 6; 7; 8; 9; 10; 11; 12]).
Proof.
  destruct (C124_command true chip around tel [0xBE] (repeat 0 23) device device (0xBD, [1; 2; 3; 4; 5; 6; 7; 8; 9; 10; 11; 12])) as (sb' & E & R & _).
  - split; [discriminate|reflexivity].
  - split; [reflexivity|]. split; [reflexivity|]. exists [0x77; 0x55; 0x33]. split; [reflexivity|cbn; lia].
  - cbn. lia.
  - cbn. lia.
  - split; [intros a; split; [discriminate|reflexivity]|]. split; [repeat (constructor; [split; [discriminate|reflexivity]|]); constructor|]. split; [cbn; lia|]. split; [repeat (constructor; [split; [discriminate|reflexivity]|]); constructor|reflexivity].
  - reflexivity.
  - exists sb'. split; [exact E|exact R].
Qed.

(** A telegram too short for a service (its checksum is taken for one): the length computed wraps around, but nothing is executed and an error is answered *)
Theorem C124_short debug L e t sb s : (8 < length t <= 8 + 254)%nat -> (23 <= length sb)%nat ->
  exists sb' c, processApci debug L e 0x2F8 t 8 sb s = Some (s, sb', true, false) /\ read_answer sb' = Some (0xDC, [c]) /\ (c = 0x01 \/ c = 0x55) /\ same_head sb sb'.
Proof.
  intros Lt Ls. unfold processApci. change (0x2F8 =? APCI_MEMORY_WRITE_PDU) with false. change (0x2F8 =? APCI_USERMSG_MANUFACTURER_0) with true. cbv iota zeta. change (u32 (8 - 8 - 1)) with 4294967295. unfold handleApciUsermsgManufacturer, manufacturerInternal.
  destruct (Z.leb_spec 4294967295 (Z.of_nat (length (skipn 8 t)))) as [A|A]; [rewrite skipn_length in A; lia|]. clear A. change (u32 (4294967295 - 1)) with 4294967294. destruct (code2UPDCommand (rd (skipn 8 t) 0)) as [code [lo hi]] eqn:C.
  assert (Hi : hi <= 255).
  { unfold code2UPDCommand in C. destruct (find _ updCommands) as [x|] eqn:Fd; [|injection C as _ _ <-; lia]. apply find_some in Fd. destruct Fd as [Hin _]. subst x. unfold updCommands in Hin. cbn [In] in Hin. repeat (destruct Hin as [Hin|Hin]; [injection Hin as _ _ <-; lia|]). destruct Hin. }
  destruct (code =? 0).
  - destruct (answer_good debug sb (lastError UDP_INVALID)) as (t' & E & R & Sh & _); [apply good_error; lit|exact Ls|]. rewrite E. exists t', 0x01. split; [reflexivity|]. split; [exact R|]. split; [left; reflexivity|exact Sh].
  - destruct (Z.ltb_spec hi 4294967294) as [_|N]; [|lia]. rewrite orb_true_r. destruct (answer_good debug sb (lastError UDP_INVALID_DATA)) as (t' & E & R & Sh & _); [apply good_error; lit|exact Ls|]. rewrite E. exists t', 0x55. split; [reflexivity|]. split; [exact R|]. split; [right; reflexivity|exact Sh].
Qed.
Print Assumptions C124_short.

Example C124_short_example : exists sb', processApci false chip around (apciCommand [0xB0; 0x11; 0x01; 0xFF; 0xC0; 0x60; 0x42; 0xF8; 0xEA]) [0xB0; 0x11; 0x01; 0xFF; 0xC0; 0x60; 0x42; 0xF8; 0xEA] 8 (repeat 0 23) device = Some (device, sb', true, false).
Proof. destruct (C124_short false chip around [0xB0; 0x11; 0x01; 0xFF; 0xC0; 0x60; 0x42; 0xF8; 0xEA] (repeat 0 23) device) as (sb' & c & E & _); [cbn; lia|cbn; lia|]. exists sb'. exact E. Qed.

(** Memory writes of older updating programs change nothing; the answer is the one these programs understand as "not implemented". All other services but the restart change and send nothing, and only the restart restarts the device. *)
Theorem C124_others debug L e cmd t n sb s : cmd <> 0x2F8 ->
  exists sb' sent restart, processApci debug L e cmd t n sb s = Some (s, sb', sent, restart) /\ (restart = true <-> cmd = 0x380) /\ (sent = true <-> cmd = 0x280) /\
    (sent = false -> sb' = sb) /\ (cmd = 0x280 -> (23 <= length sb)%nat -> same_head sb sb' /\ rd sb' 5 mod 16 = 7 /\ service sb' = 0x244 /\ firstn 6 (skipn 8 sb') = [0; 0x15; 0xFF; 0xFF; 0; 0]).
Proof.
  intros N. unfold processApci. cbv zeta. change APCI_USERMSG_MANUFACTURER_0 with 0x2F8. change APCI_MEMORY_WRITE_PDU with 0x280. change APCI_BASIC_RESTART_PDU with 0x380. destruct (Z.eqb_spec cmd 0x280) as [->|N1].
  - exists (handleDeprecatedApciMemoryWrite sb), true, false. split; [reflexivity|]. split; [split; discriminate|]. split; [split; reflexivity|]. split; [discriminate|]. intros _ Ls.
    do 23 (destruct sb as [|? sb]; [cbn in Ls; lia|]). vm_compute. repeat split; reflexivity.
  - destruct (Z.eqb_spec cmd 0x2F8); [contradiction|]. destruct (Z.eqb_spec cmd 0x380) as [->|N2].
    + exists sb, false, true. split; [reflexivity|]. split; [split; reflexivity|]. split; [split; discriminate|]. split; [reflexivity|discriminate].
    + exists sb, false, false. split; [reflexivity|]. split; [split; [discriminate|contradiction]|]. split; [split; [discriminate|contradiction]|]. split; [reflexivity|contradiction].
Qed.
Print Assumptions C124_others.

Example C124_others_example : exists sb', processApci false chip around 0x280 [] 12 (repeat 9 23) device = Some (device, sb', true, false) /\ firstn 6 (skipn 8 sb') = [0; 0x15; 0xFF; 0xFF; 0; 0].
Proof. eexists. vm_compute. split; reflexivity. Qed.

(** The first address an application may have is what the identity answer says, for every updating program of version 1.0 or later *)
Theorem C124_identity L e s ma mi : unlocked s = true -> 1 <= ma < 256 -> is_byte mi -> 0 <= appFirst L < 2 ^ 32 ->
  exists d, handle L e [0xB8; ma; mi] s = Some (s, (0xB7, d)) /\ value (skipn 6 d) = appFirst L.
Proof.
  intros U Ma Mi A. eexists. split.
  - unfold handle. change (code2UPDCommand 0xB8) with (0xB8, (2, 2)). cbv beta iota. change (0xB8 =? 0) with false. change ((Z.of_nat (length [ma; mi]) <? 2) || (2 <? Z.of_nat (length [ma; mi]))) with false. rewrite U. cbn [negb andb]. unfold dispatch. cbn [Z.eqb Pos.eqb]. unfold updRequestBootloaderIdentity. change (rd [ma; mi] 0) with ma. change (rd [ma; mi] 1) with mi.
    assert (V : (1 <? ma) || ((ma =? 1) && (0 <=? mi)) = true). { destruct (Z.ltb_spec 1 ma); [reflexivity|]. replace (ma =? 1) with true by (symmetry; apply Z.eqb_eq; lia). destruct (Z.leb_spec 0 mi); [reflexivity|unfold is_byte in Mi; lia]. } rewrite V. reflexivity.
  - generalize dependent (appFirst L). intros v A. unfold uInt32ToStream. cbn [app skipn value fold_right]. unfold u8. rewrite !Z.shiftr_div_pow2 by lia. change (2 ^ 8) with 256. change (2 ^ 16) with (256 * 256). change (2 ^ 24) with (256 * 256 * 256). rewrite <- !Z.div_div by lia. rewrite (Z.mod_small (v / 256 / 256 / 256) 256).
    + pose proof (Z.div_mod v 256 ltac:(lia)). pose proof (Z.div_mod (v / 256) 256 ltac:(lia)). pose proof (Z.div_mod (v / 256 / 256) 256 ltac:(lia)). lia.
    + split; [repeat (apply Z.div_pos; [|lia]); lia|]. repeat (apply Z.div_lt_upper_bound; [lia|]). change (2 ^ 32) with (256 * (256 * (256 * 256))) in A. lia.
Qed.
Print Assumptions C124_identity.

Example C124_identity_example : exists d, handle chip around [0xB8; 1; 20] (mkUpd (fun _ => 0xFF) true (repeat 0 1265) 0 (decInit 0)) = Some (mkUpd (fun _ => 0xFF) true (repeat 0 1265) 0 (decInit 0), (0xB7, d)) /\ value (skipn 6 d) = 12 * 1024 + 256.
Proof. destruct (C124_identity chip around (mkUpd (fun _ => 0xFF) true (repeat 0 1265) 0 (decInit 0)) 1 20) as (d & E & V); [reflexivity|lia|split; [discriminate|reflexivity]|vm_compute; split; [discriminate|reflexivity]|]. exists d. split; [exact E|rewrite V; vm_compute; reflexivity]. Qed.
