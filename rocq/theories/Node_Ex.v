(** Two devices for the examples: a BCU1 with three objects (the tables of ComObj_Props.ex1) and a BCU2 with two *)
From Verif Require Import Base Telegram_Model Device_Model Device_Spec Device_Spec3 Device_Ex Node_Model Node_Spec.
From Verif Require ComObj_Model ComObj_Spec Eeprom_Model Eeprom_Spec Eeprom_Props.
Import ComObj_Spec.

(** BCU1: run error flags none, association table at 0x120, objects at 0x130, address table at 0x116: own address 1.1.7, groups 1/1/1, 1/1/2, 1/2/3 *)
Definition image1 : list Z := wr_range (wr_range (wr_range (wr (wr_range (repeat 0 256) 4 [0x4C; 0x04; 0x26; 1]) 0x0D 255) 0x11 [0x20; 0x30; 0; 0; 0; 4; 0x11; 0x07; 0x09; 0x01; 0x09; 0x02; 0x0A; 0x03])
  0x20 [5; 1; 0; 2; 1; 1; 2; 3; 0; 2; 2]) 0x30 [3; 0x60; 0x70; 0x5F; 0; 0x71; 0x57; 8; 0x73; 0x1F; 0].
(** BCU2: the tables loaded, at 0x116, 0x120 and 0x130; own address 1.1.8; object 0 a 2-byte value to 1/1/2, object 1 a switch listening to 1/1/1 *)
Definition image2 : list Z := wr_range (wr_range (wr_range (wr_range (wr_range (wr_range (repeat 0 (Z.to_nat 1024)) 4 [0x4C; 0x04; 0x26; 1; 0; 0; 0; 0; 0; 255]) 0x16 [3; 0x11; 0x08; 0x09; 0x01; 0x09; 0x02])
  0x20 [2; 1; 1; 2; 0]) 0x30 [2; 0x60; 0x00; 0x70; 0x00; 0x5F; 8; 0x72; 0x00; 0x5F; 0]) (Z.to_nat 0x371) [1; 1; 1]) (Z.to_nat 0x378) [0x16; 0x01; 0x20; 0x01; 0x30; 0x01; 0; 0; 0; 0; 0; 0; 0; 0; 0; 0; 0; 0; 1; 2; 3; 4; 5; 6; 0; 0; 0; 0; 0; 0; 0; 0; 0; 0; 0; 0; 0; 0; 0; 0; 0; 0; 2; 16].
Definition sectorOf (l : list Z) : list Z := l ++ repeat 255 (Eeprom_Model.FLASH_SECTOR_SIZE - length l).
Definition devOf (c : conf) (l : list Z) : device := match powerUp c (sectorOf l) None 1 [] with Some x => x | None => nothing end.
Definition tablesOf (c : conf) (l : list Z) : ComObj_Model.cfg :=
  ComObj_Model.mkCfg (match kind c with Bcu1 => false | Bcu2 => true end) true (skipn 0x16 l) (skipn 0x20 l) (skipn 0x30 l) (ramStart (lay c)) (ramSize (lay c)) (eeStart (lay c)) (eeSize (lay c)).
Definition node1 : node := nodeUp bcu1conf true (devOf bcu1conf image1) 0.
Definition node2 : node := nodeUp bcu2conf true (devOf bcu2conf image2) 0.
Definition g1 : ComObj_Model.cfg := tablesOf bcu1conf image1.
Definition g2 : ComObj_Model.cfg := tablesOf bcu2conf image2.

Lemma bytes_ok l : bytesb l = true -> Forall is_byte l.
Proof. apply bytesb_ok. Qed.
Lemma rd_rep v n i : (i < n)%nat -> rd (repeat v n) i = v.
Proof. unfold rd. revert i. induction n; intros i H; [lia|]. destruct i; [reflexivity|]. cbn [repeat nth]. apply IHn. lia. Qed.
Lemma sector_of c l : length l = Eeprom_Model.fsize (ecf c) -> Eeprom_Model.esize (ecf c) = Eeprom_Model.fsize (ecf c) -> (0 < Eeprom_Model.fsize (ecf c) <= Eeprom_Model.FLASH_SECTOR_SIZE)%nat -> Forall is_byte l ->
  Eeprom_Spec.sector_ok (ecf c) (sectorOf l).
Proof.
  intros L ES LE B. unfold sectorOf. split; [rewrite app_length, repeat_length; lia|]. split.
  - apply Forall_app. split; [exact B|]. apply Forall_forall. intros z H. apply repeat_spec in H. subst. unfold is_byte. lia.
  - intros p q _ (Q1 & Q2). left. intros i Hi. unfold Eeprom_Model.numEepromPages in Q2. rewrite ES in Hi. set (N := Eeprom_Model.FLASH_SECTOR_SIZE) in *. set (f := Eeprom_Model.fsize (ecf c)) in *. clearbody N f.
    assert (M : (S q * f <= N)%nat). { pose proof (Nat.mul_div_le N f ltac:(lia)). assert (S q * f <= (N / f) * f)%nat by (apply Nat.mul_le_mono_r; lia). lia. }
    assert (M2 : (1 * f <= q * f)%nat) by (apply Nat.mul_le_mono_r; lia). cbn [Nat.mul] in M, M2.
    unfold rd. rewrite app_nth2 by lia. apply rd_rep. lia.
Qed.
Lemma node1_found : node_found bcu1conf node1.
Proof.
  unfold node1, devOf. destruct (powerUp bcu1conf (sectorOf image1) None 1 []) as [d|] eqn:E; [|vm_compute in E; discriminate].
  apply (node_on bcu1conf (sectorOf image1) None 1 []); [|exact Logic.I|constructor|exact E]. apply sector_of; [vm_compute; reflexivity|reflexivity|split; apply Nat.ltb_lt || apply Nat.leb_le; vm_compute; reflexivity|apply bytes_ok; vm_compute; reflexivity].
Qed.
Lemma node2_found : node_found bcu2conf node2.
Proof.
  unfold node2, devOf. destruct (powerUp bcu2conf (sectorOf image2) None 1 []) as [d|] eqn:E; [|vm_compute in E; discriminate].
  apply (node_on bcu2conf (sectorOf image2) None 1 []); [|exact Logic.I|constructor|exact E]. apply sector_of; [vm_compute; reflexivity|reflexivity|split; apply Nat.ltb_lt || apply Nat.leb_le; vm_compute; reflexivity|apply bytes_ok; vm_compute; reflexivity].
Qed.
Lemma data1 : eeData (mem (ndev node1)) = image1. Proof. vm_compute. reflexivity. Qed.
Lemma data2 : eeData (mem (ndev node2)) = image2. Proof. vm_compute. reflexivity. Qed.
Lemma node1_installed : installed bcu1conf true (mem (ndev node1)) g1.
Proof.
  constructor; try reflexivity; [split; reflexivity|split; reflexivity|]. exists 0x116, 0x120, 0x130. unfold tables_at, in_eeprom, ee_byte. rewrite data1. repeat split; try (vm_compute; congruence); vm_compute; reflexivity.
Qed.
Lemma node2_installed : installed bcu2conf true (mem (ndev node2)) g2.
Proof.
  constructor; try reflexivity; [split; reflexivity|split; reflexivity|]. exists 0x116, 0x120, 0x130. unfold tables_at, in_eeprom, ee_byte. rewrite data2. repeat split; try (vm_compute; congruence); vm_compute; reflexivity.
Qed.
Lemma sizes_ok : sized bcu1conf /\ sized bcu2conf.
Proof. split; (split; [vm_compute; reflexivity|vm_compute; discriminate]). Qed.
Lemma tabs_ok : tables_ok bcu1conf /\ tables_ok bcu2conf.
Proof. split; [constructor|]. unfold tables_ok. cbn. repeat (apply Forall_cons; [repeat (apply Forall_cons; [red; cbn; lia|]); apply Forall_nil|]). apply Forall_nil. Qed.
(** the tables are in order *)
Lemma g1_n : num_objs g1 = 3%nat. Proof. vm_compute. reflexivity. Qed.
Lemma g2_n : num_objs g2 = 2%nat. Proof. vm_compute. reflexivity. Qed.
Lemma g1_cfg : cfg_ok g1.
Proof. split; try (vm_compute; intuition discriminate); apply bytes_ok; vm_compute; reflexivity. Qed.
Lemma g2_cfg : cfg_ok g2.
Proof. split; try (vm_compute; intuition discriminate); apply bytes_ok; vm_compute; reflexivity. Qed.
Lemma g1_objs : forall o, (o < 3)%nat -> (obj_typ g1 o <= 15) /\ obj_addr g1 o = nth o [0x70; 0x71; 0x73] 0 /\ obj_size g1 o = nth o [1; 2; 1]%nat 0%nat.
Proof. intros o H. destruct o as [|[|[|o]]]; [..|exfalso; lia]; vm_compute; intuition discriminate. Qed.
Lemma g2_objs : forall o, (o < 2)%nat -> (obj_typ g2 o <= 15) /\ obj_addr g2 o = nth o [0x70; 0x72] 0 /\ obj_size g2 o = nth o [2; 1]%nat 0%nat.
Proof. intros o H. destruct o as [|[|o]]; [..|exfalso; lia]; vm_compute; intuition discriminate. Qed.
Lemma g1_layout : layout_ok g1.
Proof.
  assert (F : flags_base g1 = 0x60) by (vm_compute; reflexivity).
  unfold layout_ok, flags_ok, obj_ok, in_obj, in_flags, in_area. rewrite g1_n, F. change (ComObj_Model.ramStart g1) with 0. change (ComObj_Model.ramSize g1) with 256. change (ComObj_Model.eepStart g1) with 256. change (ComObj_Model.eepSize g1) with 256.
  change ((Z.of_nat 3 + 1) / 2) with 2. repeat apply conj.
  - lia.
  - intros o H. destruct (g1_objs o H) as (A & B & C). rewrite B, C. split; auto. split; auto. destruct o as [|[|[|o]]]; cbn [nth]; lia.
  - intros o a H. destruct (g1_objs o H) as (A & B & C). rewrite B, C. destruct o as [|[|[|o]]]; cbn [nth]; lia.
  - intros o1 o2 a H1 H2. destruct (g1_objs o1 H1) as (A & B & C). destruct (g1_objs o2 H2) as (A2 & B2 & C2). rewrite B, C, B2, C2.
    destruct o1 as [|[|[|o1]]]; destruct o2 as [|[|[|o2]]]; cbn [nth]; lia.
Qed.
Lemma g2_layout : layout_ok g2.
Proof.
  assert (F : flags_base g2 = 0x60) by (vm_compute; reflexivity).
  unfold layout_ok, flags_ok, obj_ok, in_obj, in_flags, in_area. rewrite g2_n, F. change (ComObj_Model.ramStart g2) with 0. change (ComObj_Model.ramSize g2) with 256. change (ComObj_Model.eepStart g2) with 256. change (ComObj_Model.eepSize g2) with 1024.
  change ((Z.of_nat 2 + 1) / 2) with 1. repeat apply conj.
  - lia.
  - intros o H. destruct (g2_objs o H) as (A & B & C). rewrite B, C. split; auto. split; auto. destruct o as [|[|o]]; cbn [nth]; lia.
  - intros o a H. destruct (g2_objs o H) as (A & B & C). rewrite B, C. destruct o as [|[|o]]; cbn [nth]; lia.
  - intros o1 o2 a H1 H2. destruct (g2_objs o1 H1) as (A & B & C). destruct (g2_objs o2 H2) as (A2 & B2 & C2). rewrite B, C, B2, C2.
    destruct o1 as [|[|o1]]; destruct o2 as [|[|o2]]; cbn [nth]; lia.
Qed.
Lemma g1_pairs : forall k o, paired g1 k o -> (o < 3)%nat /\ (1 <= k < 4)%nat.
Proof.
  intros k o (i & H & A & B). replace (Z.to_nat (rd (ComObj_Model.assocTab g1) 0)) with 5%nat in H by (vm_compute; reflexivity). destruct i as [|[|[|[|[|i]]]]]; [..|exfalso; lia];
  match type of A with ?x = _ => let y := eval vm_compute in x in change x with y in A end;
  match type of B with ?x = _ => let y := eval vm_compute in x in change x with y in B end; lia.
Qed.
Lemma g2_pairs : forall k o, paired g2 k o -> (o < 2)%nat /\ (1 <= k < 3)%nat.
Proof.
  intros k o (i & H & A & B). replace (Z.to_nat (rd (ComObj_Model.assocTab g2) 0)) with 2%nat in H by (vm_compute; reflexivity). destruct i as [|[|i]]; [..|exfalso; lia];
  match type of A with ?x = _ => let y := eval vm_compute in x in change x with y in A end;
  match type of B with ?x = _ => let y := eval vm_compute in x in change x with y in B end; lia.
Qed.
Lemma g1_settled : settled g1.
Proof.
  constructor; [exact g1_cfg|exact g1_layout|intros k o H; rewrite g1_n; apply (g1_pairs k o H)|intros k o H; apply (g1_pairs k o H)|rewrite g1_n; lia|vm_compute; split; discriminate|].
  intros o H. rewrite g1_n in H. destruct (g1_objs o H) as (_ & B & C). unfold in_ram_area. rewrite B, C. change (ComObj_Model.ramStart g1) with 0. change (ComObj_Model.ramSize g1) with 256. destruct o as [|[|[|o]]]; cbn [nth]; lia.
Qed.
Lemma g2_settled : settled g2.
Proof.
  constructor; [exact g2_cfg|exact g2_layout|intros k o H; rewrite g2_n; apply (g2_pairs k o H)|intros k o H; apply (g2_pairs k o H)|rewrite g2_n; lia|vm_compute; split; discriminate|].
  intros o H. rewrite g2_n in H. destruct (g2_objs o H) as (_ & B & C). unfold in_ram_area. rewrite B, C. change (ComObj_Model.ramStart g2) with 0. change (ComObj_Model.ramSize g2) with 256. destruct o as [|[|o]]; cbn [nth]; lia.
Qed.
(** passes: idle, and with a telegram *)
Definition pass (t : Z) : ninputs := mkNIn (idle t 1) t t t [] [].
Definition hear (c : conf) (t : Z) (l : list Z) : ninputs := mkNIn (got c t l) t t t [] [].
Definition nodeAfter (c : conf) (l : list nop) (x : node) : node := match nruns c l x with Some (y, _) => y | None => x end.
Lemma after_found c l : forall x, node_found c x -> Forall nop_ok l -> (if nruns c l x then true else false) = true -> node_found c (nodeAfter c l x).
Proof.
  unfold nodeAfter. induction l as [|o r IH]; intros x F OK E; cbn [nruns] in *; [exact F|]. inversion OK as [|? ? OK1 OK2]; subst. destruct (nstep c x o) as [[y q]|] eqn:S; [|discriminate].
  specialize (IH y (node_then c x o y q F OK1 S) OK2). destruct (nruns c r y) as [[z qs]|]; [|discriminate]. apply IH. reflexivity.
Qed.
Lemma pass_ok t : nop_ok (NLoop (pass t)).
Proof. intros r [=]. Qed.
Lemma hear_ok c t l : bytesb l = true -> nop_ok (NLoop (hear c t l)).
Proof. intros B r [= <-]. apply bytesb_ok. exact B. Qed.
