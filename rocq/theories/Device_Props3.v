(** C76: the content of the EEPROM changes only by orders, and what was written survives the loss of power *)
From Verif Require Import Base Bits Telegram_Model Device_Model Device_Spec Device_Spec3 Device_Spec4 Device_Wf Device_Steps Device_Save Device_EeWrite Device_Keep Device_Ex Device_Props2.
From Verif Require MemReq_Spec MemReq_Props.

(** Every byte of the EEPROM but the last (which marks the valid flash page) stays as it is in every operation except power-up, unless there is one of the causes in [change];
    a memory write gives exactly the byte that the executed telegram carries for this address *)
Theorem C76_only_writes c x o y l j : conf_ok c -> MemReq_Spec.layout_ok (lay c) -> reachable_device c x -> op_ok c o -> is_power_up o = false ->
  dstep c x o = Some (y, l) -> (j < Eeprom_Model.esize (ecf c) - 1)%nat -> rd (eeData (mem y)) j <> rd (eeData (mem x)) j -> change c x o y l j.
Proof.
  intros K L R OK PU E J N. destruct (step_change c x o y l j K (small _ L) OK (reachable_wf c x K R) PU J E) as [Q|Q]; [contradiction|exact Q].
Qed.
Print Assumptions C76_only_writes.
(** a connectionless memory write of the bytes 0x41, 0x42, 0x43 to address 0x120 *)
Definition memWrite : list Z := [0xB0; 0x11; 0x01; 0x12; 0x34; 0x66; 0x02; 0x83; 0x01; 0x20; 0x41; 0x42; 0x43; 0].
Definition there (c : conf) : device := runTo c (addressed c).
Lemma there_reachable : reachable_device bcu1conf (there bcu1conf) /\ reachable_device bcu2conf (there bcu2conf).
Proof.
  split; (apply runTo_reachable; [apply confs_ok|apply ecfgs_ok|vm_compute; reflexivity| |vm_compute; reflexivity]);
    (apply Forall_cons; [exact Logic.I|]; apply Forall_cons; [apply got_ok; reflexivity|]; apply Forall_cons; [exact Logic.I|apply Forall_nil]).
Qed.
Lemma devices_layout : MemReq_Spec.layout_ok (lay bcu1conf) /\ MemReq_Spec.layout_ok (lay bcu2conf).
Proof. repeat split; cbn; lia. Qed.
Example C76_only_writes_example :
  let c := bcu1conf in let x := there c in let o := Loop (gotBusy c 20 memWrite) in let j := Z.to_nat 0x21 in
  conf_ok c /\ MemReq_Spec.layout_ok (lay c) /\ reachable_device c x /\ op_ok c o /\ is_power_up o = false /\
  option_map (fun q => rd (eeData (mem (fst q))) j) (dstep c x o) = Some 0x42 /\ rd (eeData (mem x)) j <> 0x42 /\ (j < Eeprom_Model.esize (ecf c) - 1)%nat.
Proof.
  cbv zeta. split; [apply confs_ok|]. split; [apply devices_layout|]. split; [apply there_reachable|]. split; [apply gotBusy_ok; reflexivity|]. split; [reflexivity|].
  split; [vm_compute; reflexivity|]. split; [vm_compute; discriminate|vm_compute; lia].
Qed.
(** An executed memory write whose range lies in the EEPROM stores its bytes at once *)
Theorem C76_written c x o y l t j v : conf_ok c -> MemReq_Spec.layout_ok (lay c) -> reachable_device c x -> op_ok c o -> dstep c x o = Some (y, l) ->
  requested l t -> in_eeprom_range c x t -> writes_byte c t j v -> (j < Eeprom_Model.esize (ecf c) - 1)%nat -> rd (eeData (mem y)) j = v.
Proof. intros K L R OK E RQ IE WB J. apply (step_writes c x o y l t j v K (small _ L) OK (reachable_wf c x K R) J E RQ IE WB). Qed.
Print Assumptions C76_written.
Example C76_written_example :
  let c := bcu1conf in let x := there c in let o := Loop (gotBusy c 20 memWrite) in
  conf_ok c /\ MemReq_Spec.layout_ok (lay c) /\ reachable_device c x /\ op_ok c o /\ option_map snd (dstep c x o) = Some [Bus (ExecDirect memWrite); Pin true] /\
  in_eeprom_range c x memWrite /\ writes_byte c memWrite (Z.to_nat 0x20) 0x41 /\ writes_byte c memWrite (Z.to_nat 0x22) 0x43.
Proof.
  cbv zeta. split; [apply confs_ok|]. split; [apply devices_layout|]. split; [apply there_reachable|]. split; [apply gotBusy_ok; reflexivity|]. split; [vm_compute; reflexivity|].
  split; [vm_compute; repeat split; discriminate|]. split; vm_compute; repeat split; discriminate.
Qed.
(** The bytes survive the loss of power: after a write, and as long as nothing else overwrites the byte, every history in which the device finishes one pass of its main loop
    without a connection and not sending leaves the byte in the flash, and the next power-up brings it back. Excepted: bytes with fixed values, the individual address (see C32),
    the last byte, and BCU2 devices whose saved address table is being loaded *)
Theorem C76_survives c x o y l t j v h i z outs lst junk z' l' : conf_ok c -> MemReq_Spec.layout_ok (lay c) -> reachable_device c x -> op_ok c o -> dstep c x o = Some (y, l) ->
  requested l t -> in_eeprom_range c x t -> writes_byte c t j v -> (j < Eeprom_Model.esize (ecf c) - 1)%nat ->
  Forall (op_ok c) (h ++ [Loop i]) -> druns c (h ++ [Loop i]) y = Some (z, outs) -> byte_stays c j v y (h ++ [Loop i]) -> sending3 i = false -> connected z = false ->
  dstep c z (PowerUp lst junk) = Some (z', l') -> ~ begin_fixes c j -> j <> Z.to_nat 0x17 -> j <> Z.to_nat 0x18 ->
  (forall d, saved c (sector z) d -> kind c = Bcu1 \/ rd d (Z.to_nat 0x371) <> 2) -> rd (eeData (mem z')) j = v.
Proof.
  intros K L R OK E RQ IE WB J F D BS S3 NC PU NF N1 N2 NL. pose proof (step_writes c x o y l t j v K (small _ L) OK (reachable_wf c x K R) J E RQ IE WB) as SY. pose proof (after c x o y l R OK E) as RY.
  destruct (stays_secured c j v K (small _ L) J _ _ _ _ RY F D BS SY) as (RZ & V & M).
  assert (MZ : eeModified (mem z) = false).
  { assert (G : forall h y outs, reachable_device c y -> Forall (op_ok c) (h ++ [Loop i]) -> druns c (h ++ [Loop i]) y = Some (z, outs) -> exists u lo, reachable_device c u /\ dstep c u (Loop i) = Some (z, lo)).
    { clear - K. induction h as [|o h IH]; intros y outs R F; cbn [app druns].
      - destruct (dstep c y (Loop i)) as [[u lo]|] eqn:E; [|discriminate]. intros [= <- _]. exists y, lo. auto.
      - inversion F as [|? ? F1 F2]; subst. destruct (dstep c y o) as [[u lo]|] eqn:E; [|discriminate]. destruct (druns c (h ++ [Loop i]) u) as [[u2 lo2]|] eqn:E2; [|discriminate]. intros [= <- _]. apply (IH u lo2); auto. apply (after c y o u lo R F1 E). }
    destruct (G h y outs RY F D) as (u & lo & RU & EU). apply Forall_app in F. destruct F as (_ & F). inversion F as [|? ? F1 _]; subst. apply (pass_saves c i u z lo K F1 RU EU S3 NC). }
  destruct M as [M|M]; [congruence|]. unfold dstep, option_map in PU. destruct (powerUp _ _ _ _ _) as [w|] eqn:P; [|discriminate]. injection PU as <- _.
  rewrite (powerUp_calm _ _ _ _ _ _ K (proj1 (proj2 (reachable_wf c z K RZ))) NL P j); [exact M|]. split; auto.
Qed.
Print Assumptions C76_survives.
Definition written (c : conf) : device := match dstep c (there c) (Loop (gotBusy c 20 memWrite)) with Some (y, _) => y | None => nothing end.
(** the write of [memWrite], then two more passes, then power is lost *)
Example C76_survives_example :
  let c := bcu2conf in let x := there c in let o := Loop (gotBusy c 20 memWrite) in let j := Z.to_nat 0x21 in let h := [TxDone true] in let i := idle 30 1 in
  conf_ok c /\ MemReq_Spec.layout_ok (lay c) /\ reachable_device c x /\ op_ok c o /\ option_map snd (dstep c x o) = Some [Bus (ExecDirect memWrite); Pin true] /\
  in_eeprom_range c x memWrite /\ writes_byte c memWrite j 0x42 /\ (j < Eeprom_Model.esize (ecf c) - 1)%nat /\ Forall (op_ok c) (h ++ [Loop i]) /\
  option_map (fun q => (connected (fst q), rd (read_back c (sector (fst q))) (Z.to_nat 0x371), option_map (fun p => rd (eeData (mem (fst p))) j) (dstep c (fst q) (PowerUp 1 [])))) (druns c (h ++ [Loop i]) (written c)) = Some (false, 0, Some 0x42) /\
  byte_stays c j 0x42 (written c) (h ++ [Loop i]) /\ sending3 i = false /\ ~ begin_fixes c j.
Proof.
  cbv zeta. split; [apply confs_ok|]. split; [apply devices_layout|]. split; [apply there_reachable|]. split; [apply gotBusy_ok; reflexivity|]. split; [vm_compute; reflexivity|].
  split; [vm_compute; repeat split; discriminate|]. split; [vm_compute; repeat split; discriminate|]. split; [vm_compute; lia|]. split; [repeat (apply Forall_cons; [first [exact Logic.I|apply idle_ok]|]); apply Forall_nil|].
  split; [vm_compute; reflexivity|]. split; [|split; [reflexivity|unfold begin_fixes; rewrite Z2Nat.id by lia; cbn [In static bcu2conf]; lia]].
  cbn [app byte_stays]. split; [reflexivity|]. split; [intros _; exact Logic.I|]. intros y lo E.
  assert (Q : rd (eeData (mem y)) (Z.to_nat 0x21) = 0x42 /\ dstep bcu2conf (written bcu2conf) (TxDone true) = Some (y, lo)) by
    (split; [|exact E]; assert (P : option_map (fun q => rd (eeData (mem (fst q))) (Z.to_nat 0x21)) (dstep bcu2conf (written bcu2conf) (TxDone true)) = Some 0x42) by (vm_compute; reflexivity); rewrite E in P; now injection P).
  destruct Q as (Q & _). split; [exact Q|]. split; [reflexivity|]. split; [intros _ r [=]|]. intros y2 lo2 E2. split; [|exact Logic.I].
  assert (P : option_map (fun q => rd (eeData (mem (fst q))) (Z.to_nat 0x21)) (druns bcu2conf [TxDone true; Loop (idle 30 1)] (written bcu2conf)) = Some 0x42) by (vm_compute; reflexivity).
  cbn [druns] in P. rewrite E in P. rewrite E2 in P. now injection P.
Qed.

(** Not so for property writes: the order to start loading the address table changes the EEPROM, is answered with the new state, and is lost with the power, however long the device
    was idle before (see C69) *)
Definition startLoading : list Z := [0xB0; 0x11; 0x01; 0x12; 0x34; 0x6F; 0x03; 0xD7; 1; 5; 0x10; 1; 1; 0; 0; 0; 0; 0; 0; 0; 0; 0; 0].
Definition executesb (t : list Z) (l : list dout) : bool := existsb (fun e => match e with Bus (ExecDirect u) => if list_eq_dec Z.eq_dec u t then true else false | _ => false end) l.
Lemma executesb_ok t l : executesb t l = true -> requested l t.
Proof.
  intros H. right. apply existsb_exists in H. destruct H as (e & I1 & I2). destruct e as [q| |]; try discriminate. destruct q as [| |u| |]; try discriminate. destruct (list_eq_dec _ _ _) as [->|]; [exact I1|discriminate].
Qed.
Theorem C76_property_write_survives_refuted : exists c x o y l j z outs z' l', conf_ok c /\ MemReq_Spec.layout_ok (lay c) /\ reachable_device c x /\ op_ok c o /\ dstep c x o = Some (y, l) /\
  requested l startLoading /\ service startLoading = 0x3D7 /\ (j < Eeprom_Model.esize (ecf c) - 1)%nat /\ ~ begin_fixes c j /\ rd (eeData (mem x)) j <> 2 /\ rd (eeData (mem y)) j = 2 /\
  druns c [TxDone true; Loop (idle 30 1); Loop (idle 100000 1)] y = Some (z, outs) /\ connected z = false /\ rd (eeData (mem z)) j = 2 /\
  dstep c z (PowerUp 1 []) = Some (z', l') /\ rd (eeData (mem z')) j <> 2.
Proof.
  set (c := bcu2conf). set (x := there c). set (o := Loop (gotBusy c 20 startLoading)).
  assert (P : option_map (fun q => (rd (eeData (mem (fst q))) (Z.to_nat 0x371), executesb startLoading (snd q),
     option_map (fun p => (connected (fst p), rd (eeData (mem (fst p))) (Z.to_nat 0x371), option_map (fun u => rd (eeData (mem (fst u))) (Z.to_nat 0x371)) (dstep c (fst p) (PowerUp 1 [])))) (druns c [TxDone true; Loop (idle 30 1); Loop (idle 100000 1)] (fst q)))) (dstep c x o)
     = Some (2, true, Some (false, 2, Some 0))) by (vm_compute; reflexivity).
  destruct (dstep c x o) as [[y l]|] eqn:E; [|discriminate]. cbn [option_map fst snd] in P. destruct (druns c _ y) as [[z outs]|] eqn:D; [|discriminate]. cbn [option_map fst snd] in P.
  destruct (dstep c z (PowerUp 1 [])) as [[z' l']|] eqn:U; [|discriminate]. cbn [option_map fst snd] in P. injection P as P1 P2 P3 P4 P5.
  exists c, x, o, y, l, (Z.to_nat 0x371), z, outs, z', l'. split; [apply confs_ok|]. split; [apply devices_layout|]. split; [apply there_reachable|]. split; [apply gotBusy_ok; reflexivity|]. split; [exact E|].
  split; [apply executesb_ok; exact P2|].
  split; [vm_compute; reflexivity|]. split; [vm_compute; lia|]. split; [apply calm_load|]. split; [vm_compute; discriminate|]. split; [exact P1|]. split; [exact D|]. split; [exact P3|]. split; [exact P4|]. split; [exact U|]. rewrite P5. discriminate.
Qed.
Print Assumptions C76_property_write_survives_refuted.
