(** Devices and telegrams for the examples *)
From Verif Require Import Base Device_Model Device_Spec.
From Verif Require Eeprom_Model Eeprom_Spec Eeprom_Props.

Definition noMap : mcfg := mkM 200 20 false.
(** a BCU1 and a BCU2 with a programming pin; mask versions and addresses as in bcu1.h, bcu2.h *)
Definition bcu1conf : conf := mkConf Bcu1 (mkL 0x100 256 0 0x100 noMap 0x12) (Eeprom_Model.mkE (Z.to_nat 256) (Z.to_nat 256)) 0 [] true [1; 2; 3; 4; 5; 6] 0x4C 0x0426 1.
Definition bcu2conf : conf := mkConf Bcu2 (mkL 0x100 1024 0 0x100 noMap 0x20) (Eeprom_Model.mkE (Z.to_nat 1024) (Z.to_nat 1024)) 0 propertiesTab true [1; 2; 3; 4; 5; 6] 0x4C 0x0426 1.
Example confs_ok : conf_ok bcu1conf /\ conf_ok bcu2conf.
Proof.
  assert (F : Forall is_byte [1; 2; 3; 4; 5; 6]) by (repeat constructor; unfold is_byte; lia).
  split; (constructor; [vm_compute; reflexivity|reflexivity|reflexivity|split; [reflexivity|exact F]]).
Qed.
(** an empty flash sector *)
Definition blankSector : list Z := repeat 255 Eeprom_Model.FLASH_SECTOR_SIZE.
Definition nothing : device := mkDevice (init 0) (mkDev None [] false [] 0) [] 0 (Util_Model.deb_new 0 0) RNone false 0 false.
Definition fresh (c : conf) : device := match powerUp c blankSector None 1 [] with Some x => x | None => nothing end.
Lemma fresh_reachable c : conf_ok c -> Eeprom_Spec.ecfg_ok (ecf c) -> (if powerUp c blankSector None 1 [] then true else false) = true -> reachable_device c (fresh c).
Proof.
  intros K EC E. unfold fresh. destruct (powerUp c blankSector None 1 []) as [x|] eqn:P; [|discriminate]. eapply switched_on_with; [|exact P]. apply (Eeprom_Props.erased_sector_ok _ EC).
Qed.
Definition runTo (c : conf) (l : list dop) : device := match druns c l (fresh c) with Some (x, _) => x | None => nothing end.
Lemma runs_reachable c l : forall x x' outs, Forall (op_ok c) l -> reachable_device c x -> druns c l x = Some (x', outs) -> reachable_device c x'.
Proof.
  induction l as [|o l IH]; intros x x' outs F R; cbn [druns]; [now intros [= <- _]|]. inversion F as [|? ? F1 F2]; subst. destruct (dstep c x o) as [[x1 out]|] eqn:E; [|discriminate].
  destruct (druns c l x1) as [[x2 outs2]|] eqn:E2; [|discriminate]. intros [= <- _]. apply (IH _ _ _ F2 (after c x o x1 out R F1 E) E2).
Qed.
Lemma runTo_reachable c l : conf_ok c -> Eeprom_Spec.ecfg_ok (ecf c) -> (if powerUp c blankSector None 1 [] then true else false) = true -> Forall (op_ok c) l ->
  (if druns c l (fresh c) then true else false) = true -> reachable_device c (runTo c l).
Proof.
  intros K EC P F D. unfold runTo. destruct (druns c l (fresh c)) as [[x o]|] eqn:E; [|discriminate]. apply (runs_reachable _ _ _ _ _ F (fresh_reachable c K EC P) E).
Qed.
(** the com objects change nothing: the effect that gives the memories a fixed content is not used, group telegrams aside *)
Definition noEffect (c : conf) : effect := mkEffect (repeat 0 (Eeprom_Model.esize (ecf c))) false (repeat 0 (Z.to_nat (ramSize (lay c)) + 3)).
Lemma noEffect_ok c : effect_ok c (noEffect c).
Proof.
  assert (F : forall n, Forall is_byte (repeat 0 n)). { intros n. apply Forall_forall. intros z H. apply repeat_spec in H. subst. red. lia. }
  unfold effect_ok, noEffect. cbn [efEe efRam]. rewrite !repeat_length. auto.
Qed.
(** passes of the main loop: with a telegram, and idle *)
Definition got (c : conf) (n : Z) (t : list Z) : inputs := mkIn n (Some (mkRx t (Z.of_nat (length t)) [] (noEffect c))) false false false 1 [].
Definition idle (n : Z) (lv : Z) : inputs := mkIn n None false false false lv [].
Definition bytesb (l : list Z) : bool := forallb (fun b => (0 <=? b) && (b <? 256)) l.
Lemma bytesb_ok l : bytesb l = true -> Forall is_byte l.
Proof. intros H. apply Forall_forall. intros z Z. unfold bytesb in H. rewrite forallb_forall in H. specialize (H z Z). unfold is_byte. lia. Qed.
Lemma got_ok c n t : bytesb t = true -> op_ok c (Loop (got c n t)).
Proof. intros H r [= <-]. split; [apply bytesb_ok; exact H|apply noEffect_ok]. Qed.
Lemma idle_ok c n lv : op_ok c (Loop (idle n lv)).
Proof. intros r [=]. Qed.
Lemma ecfgs_ok : Eeprom_Spec.ecfg_ok (ecf bcu1conf) /\ Eeprom_Spec.ecfg_ok (ecf bcu2conf).
Proof. split; apply Eeprom_Props.layouts_ok. Qed.
(** broadcasts: write the individual address 1.2.52 in programming mode; write the address 1.3.7 by serial number 01 02 03 04 05 06 *)
Definition addressWrite : list Z := [0xB0; 0x11; 0x01; 0; 0; 0xE3; 0x00; 0xC0; 0x12; 0x34; 0].
Definition serialWrite : list Z := [0xB0; 0x11; 0x01; 0; 0; 0xED; 0x03; 0xDE; 1; 2; 3; 4; 5; 6; 0x13; 0x07; 0; 0; 0; 0; 0].
