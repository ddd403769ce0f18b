(** C32, C33: own address and status byte of a device *)
From Verif Require Import Base Bits Device_Model Device_Spec Device_TL Device_Status Device_Proofs Device_Wf Device_Steps Device_Save Device_Ex.
Import Eeprom_Model(esize, fsize, marked).
Import Eeprom_Spec(ecfg_ok, sector_ok).

(** ** C32 *)
Lemma loop_own c i x y l : op_ok c (Loop i) -> bcuLoop c i x = Some (y, l) ->
  own (tl y) = own (tl x) \/ exists r, rx i = Some r /\ sending1 i = false /\ Z.testbit (status (mem x)) 2 = true /\ address_order (kind c) (mem x) (rxTel r) (own (tl y)).
Proof.
  intros OK E. destruct (loop_parts _ _ _ _ _ E) as (s & o1 & x2 & o2 & x3 & o3 & x4 & o4 & P1 & P2 & P3 & P4 & _ & P6).
  destruct (step_hands _ _ _ _ P1) as (_ & O). specialize (O eq_refl).
  assert (E23 : own (tl x3) = own (tl x2)) by (destruct (button_frame _ _ _ _ _ _ P3) as (-> & _); reflexivity).
  assert (E34 : own (tl x4) = own (tl x3)) by (destruct (sending2 i); [destruct P4 as (-> & _); reflexivity|apply (restart_frame _ _ _ _ _ _ P4)]).
  assert (E4 : own (tl y) = own (tl x4)) by (destruct (_ || _) in P6; [now subst|destruct (flush_frame _ _ _ P6) as (-> & _); reflexivity]).
  rewrite E4, E34, E23. destruct (received_case _ _ _ _ _ P2) as [(r & o & R & S1 & T & V & _)|(_ & -> & _)]; [|left; exact O].
  destruct (receive_own _ _ _ _ _ _ (proj1 (OK r R)) V) as [H|H]; [left; rewrite H; exact O|right]. exists r. auto.
Qed.
(** the own address changes only when the device takes a telegram that orders exactly the new address *)
Theorem C32_only_by_order c x o x' l :
  op_ok c o -> is_power_up o = false -> dstep c x o = Some (x', l) -> own_address x' <> own_address x ->
  exists r, takes x o r /\ address_order (kind c) (mem x) (rxTel r) (own_address x').
Proof.
  intros OK NP. unfold dstep, own_address, takes. destruct o as [i|ok|b|g|buf w|lst junk]; [| | | | |discriminate]; (destruct (running x) eqn:R; [|intros [= <- _]; congruence]).
  - intros E N. destruct (loop_own _ _ _ _ _ OK E) as [H|(r & A & B & C & D)]; [congruence|]. exists r. split; [|exact D]. split; [reflexivity|]. exists i. auto.
  - destruct (step _ _) as [[s o]|] eqn:E; [|discriminate]. intros [= <- _] N. destruct (step_hands _ _ _ _ E) as (_ & O). elim N. apply O. reflexivity.
  - unfold setProgrammingMode. destruct (progPin c); [|intros [= <- _]; congruence]. destruct (negb _); intros [= <- _] NN; elim NN; reflexivity.
  - intros [= <- _] NN. elim NN. reflexivity.
  - destruct (step _ _) as [[s o]|] eqn:E; [|discriminate]. intros [= <- _] N. destruct (step_hands _ _ _ _ E) as (_ & O). elim N. apply O. reflexivity.
Qed.
Print Assumptions C32_only_by_order.
(** a BCU1 in programming mode that takes an address write; a BCU2 that takes a write by serial number *)
Example C32_only_by_order_example :
  let x := runTo bcu1conf [SetMode true] in let o := Loop (got bcu1conf 10 addressWrite) in
  op_ok bcu1conf o /\ is_power_up o = false /\ option_map (fun p => own_address (fst p)) (dstep bcu1conf x o) = Some 0x1234 /\ own_address x = 0xffff.
Proof. cbv zeta. split; [apply got_ok; reflexivity|]. split; [reflexivity|]. vm_compute. split; reflexivity. Qed.

(** over any history without a power-up: the address is the old one or the one ordered by some telegram taken in between *)
Theorem C32_history c l : forall x x' outs,
  Forall (op_ok c) l -> Forall (fun o => is_power_up o = false) l -> druns c l x = Some (x', outs) ->
  own_address x' = own_address x \/
  exists l1 o l2 x1 outs1 r, l = l1 ++ o :: l2 /\ druns c l1 x = Some (x1, outs1) /\ takes x1 o r /\ address_order (kind c) (mem x1) (rxTel r) (own_address x').
Proof.
  induction l as [|o l IH]; intros x x' outs F G; cbn [druns]. { intros [= <- _]. now left. }
  inversion F as [|? ? F1 F2]; subst. inversion G as [|? ? G1 G2]; subst. destruct (dstep c x o) as [[x1 out]|] eqn:E; [|discriminate].
  destruct (druns c l x1) as [[x2 outs2]|] eqn:E2; [|discriminate]. intros [= <- _]. destruct (IH _ _ _ F2 G2 E2) as [H|(l1 & o1 & l2 & x3 & outs3 & r & -> & D & T & A)].
  - destruct (Z.eq_dec (own_address x1) (own_address x)) as [Q|Q]; [left; congruence|right]. destruct (C32_only_by_order _ _ _ _ _ F1 G1 E Q) as (r & T & A).
    exists [], o, l, x, [], r. rewrite H. auto.
  - right. exists (o :: l1), o1, l2, x3, (out :: outs3), r. split; [reflexivity|]. split; [|auto]. cbn [druns]. rewrite E, D. reflexivity.
Qed.
Print Assumptions C32_history.
Example C32_history_example :
  let l := [SetMode true; Loop (got bcu2conf 10 addressWrite); SetMode false; Loop (got bcu2conf 20 addressWrite); Loop (got bcu2conf 30 serialWrite)] in
  Forall (op_ok bcu2conf) l /\ Forall (fun o => is_power_up o = false) l /\ option_map (fun p => own_address (fst p)) (druns bcu2conf l (fresh bcu2conf)) = Some 0x1307.
Proof. cbv zeta. split; [repeat (apply Forall_cons; [first [exact I|apply got_ok; reflexivity]|]); apply Forall_nil|]. split; [repeat constructor|]. vm_compute. reflexivity. Qed.

Lemma serial_true t d : (Z.to_nat 0x390 <= length (eeData d))%nat -> (forall i, (i < 6)%nat -> rd t (8 + i) = rd (eeData d) (Z.to_nat 0x38A + i)) -> sameSerial t d = true.
Proof.
  intros L H. unfold sameSerial, serial. destruct (list_eq_dec _ _ _) as [E|N]; [reflexivity|]. elim N. apply list_ext with (d := 0).
  - rewrite map_length, seq_length, firstn_length, skipn_length. unfold serialSize, serialOffset. lia.
  - intros i Hi. rewrite map_length, seq_length in Hi. transitivity (rd t (8 + i)); [|rewrite H by exact Hi; symmetry; apply rd_part; exact Hi].
    unfold serialSize in *. do 6 (destruct i as [|i]; [reflexivity|]). lia.
Qed.
Lemma receive_order c n r x y l a : conf_ok c -> wf c x -> Forall is_byte (rxTel r) -> address_order (kind c) (mem x) (rxTel r) a -> receive c n r x = Some (y, l) -> setOwnAddress c a x = Some y.
Proof.
  intros K W F A. pose proof (k_size c K) as SZ. unfold receive. cbv zeta. rewrite dest_field by auto.
  assert (D : destination (rxTel r) = 0) by (destruct A; auto). rewrite D. cbn [Z.eqb]. destruct (processBroadCastTelegram _ _ _ _) as [[z o]|] eqn:E; [|discriminate]. intros [= <- _].
  unfold processBroadCastTelegram in E. cbv zeta in E. unfold APCI_INDIVIDUALADDRESS_SERIALNUMBER_WRITE_PDU, APCI_INDIVIDUALADDRESS_SERIALNUMBER_READ_PDU in E. rewrite !command_long in E by auto.
  destruct A as [_ P S AE|KB _ S M AE]; rewrite S in E; subst a.
  - assert (E' : broadcastDefault c (rxTel r) (rxWaits r) x = Some (z, o)) by (destruct (kind c); exact E). clear E. unfold broadcastDefault in E'. cbv zeta in E'. rewrite programming_bit, P in E'. cbn [negb] in E'.
    unfold APCI_INDIVIDUAL_ADDRESS_WRITE_PDU in E'. rewrite command_long, S in E' by auto. cbn [Z.eqb Pos.eqb] in E'. rewrite two_word in E' by auto. apply (quiet_some _ _ _ E').
  - rewrite KB in E, SZ. cbn [Z.eqb Pos.eqb] in E. rewrite serial_true in E; [|destruct W as ((-> & _) & _); lia|exact M]. rewrite two_word in E by auto. apply (quiet_some _ _ _ E).
Qed.
(** where the address is kept *)
Lemma stored_two d : Forall is_byte (eeData d) -> storedAddress d = two (eeData d) (Z.to_nat 0x17).
Proof. intros F. apply (two_word (eeData d) (Z.to_nat 0x17) F). Qed.
Lemma memOwn_stored c a d d' N M : kind c = Bcu1 \/ rd (eeData d) (Z.to_nat 0x371) <> 2 -> mem_wf N M d -> (256 <= N)%nat -> 0 <= a < 65536 -> memOwnAddress c a d = Some d' ->
  two (eeData d') (Z.to_nat 0x17) = a /\ rd (eeData d') (Z.to_nat 0x371) = rd (eeData d) (Z.to_nat 0x371) /\ (a <> two (eeData d) (Z.to_nat 0x17) -> eeModified d' = true) /\ d' = storeOwnAddress a d.
Proof.
  intros NL W NN A. assert (SW : storeOwnAddress a d = (if a =? two (eeData d) (Z.to_nat 0x17) then d else touch (eeByte 0x18 (lowByte a) (eeByte 0x17 (HIGH_BYTE a) d)))).
  { unfold storeOwnAddress. rewrite stored_two by apply W. destruct (a =? _); reflexivity. }
  assert (L : rd (eeData (storeOwnAddress a d)) (Z.to_nat 0x371) = rd (eeData d) (Z.to_nat 0x371)).
  { rewrite SW. destruct (_ =? _); [reflexivity|]. cbn [eeData touch eeByte setEe]. rewrite !rd_wr_other by (vm_compute; discriminate). reflexivity. }
  assert (Q : two (eeData (storeOwnAddress a d)) (Z.to_nat 0x17) = a /\ (a <> two (eeData d) (Z.to_nat 0x17) -> eeModified (storeOwnAddress a d) = true)).
  { rewrite SW. destruct (Z.eqb_spec a (two (eeData d) (Z.to_nat 0x17))) as [->|Q]; [split; [reflexivity|congruence]|]. split; [|reflexivity]. unfold two. cbn [eeData touch eeByte setEe].
    change (S (Z.to_nat 0x17)) with (Z.to_nat 0x18). rewrite (rd_wr_other _ (Z.to_nat 0x18) (Z.to_nat 0x17)) by (vm_compute; discriminate).
    destruct W as (W & _). rewrite !rd_wr_same by (rewrite ?wr_length; lia). unfold lowByte, HIGH_BYTE. rewrite land_255, Z.shiftr_div_pow2 by lia. change (2 ^ 8) with 256.
    unfold u8. rewrite !Z.mod_mod by lia. rewrite (Z.mod_small (a / 256) 256) by (split; [apply Z.div_pos; lia|apply Z.div_lt_upper_bound; lia]).
    pose proof (Z.div_mod a 256 ltac:(lia)). lia. }
  unfold memOwnAddress. destruct (kind c) eqn:KC. { intros [= <-]. destruct Q as (Q1 & Q2). auto. }
  destruct NL as [NL|NL]; [discriminate|]. unfold loadState, loadStateOffset, OT_ADDR_TABLE, LS_LOADING. change (0x370 + 1) with 0x371. rewrite L. replace (_ =? 2) with false by lia.
  intros [= <-]. destruct Q as (Q1 & Q2). auto.
Qed.
(** the EEPROM up to its last byte *)
Definition same_low (c : conf) (x y : device) : Prop := forall i, (i < esize (ecf c) - 1)%nat -> rd (eeData (mem y)) i = rd (eeData (mem x)) i.
Lemma marked_low c d i : (i < esize (ecf c) - 1)%nat -> rd (marked (ecf c) d) i = rd d i.
Proof. intros H. unfold marked. apply rd_wr_other. lia. Qed.
Lemma flush_low c x y : conf_ok c -> wf c x -> flushUserMemory c x = Some y -> same_low c x y.
Proof. intros K W E i Hi. destruct (flush_wf c x y K W E) as (_ & -> & _). unfold flushed. destruct (eeModified _); [apply marked_low; exact Hi|reflexivity]. Qed.
Lemma button_ee c n lv x y l : progButton c n lv x = (y, l) -> eeData (mem y) = eeData (mem x) /\ eeModified (mem y) = eeModified (mem x).
Proof. intros E. destruct (button_frame _ _ _ _ _ _ E) as (_ & _ & [-> | ->] & _); split; reflexivity. Qed.
Lemma restart_low c n w x y l : conf_ok c -> wf c x -> checkRestart c n w x = Some (y, l) -> same_low c x y.
Proof.
  intros K W E. destruct (restart_case _ _ _ _ _ _ E) as [(_ & -> & _)|[(_ & _ & s & o & S & -> & _)|[(_ & _ & t & _ & -> & _)|(_ & _ & t & z & _ & F & -> & _)]]]; try (intros i _; reflexivity).
  assert (W1 : wf c (setRestart x (rType x) (rDisc x) t)) by exact W. apply (flush_low _ _ _ K W1 F).
Qed.
Lemma two_low c x y i : same_low c x y -> (S i < esize (ecf c) - 1)%nat -> two (eeData (mem y)) i = two (eeData (mem x)) i.
Proof. intros H L. unfold two. rewrite !H by lia. reflexivity. Qed.

(** a telegram the device takes and that orders an address makes exactly that address the own address, and it is stored in the EEPROM *)
Theorem C32_exactly c x o r a x' l :
  conf_ok c -> reachable_device c x -> op_ok c o -> takes x o r -> address_order (kind c) (mem x) (rxTel r) a -> dstep c x o = Some (x', l) ->
  own_address x' = a /\ (not_loading (kind c) (mem x) -> two (eeData (mem x')) (Z.to_nat 0x17) = a).
Proof.
  intros K RD OK (R & i & -> & RX & S1 & T) A E. pose proof (reachable_wf c x K RD) as W. unfold dstep in E. rewrite R in E. pose proof (esize_big c K) as BIG.
  assert (AR : 0 <= a < 65536) by (destruct (OK r RX) as (F & _); destruct A as [? ? ? -> | ? ? ? ? ->]; apply two_range; auto).
  destruct (loop_parts _ _ _ _ _ E) as (s & o1 & x2 & o2 & x3 & o3 & x4 & o4 & P1 & P2 & P3 & P4 & _ & P6).
  destruct (step_hands _ _ _ _ P1) as (_ & O). specialize (O eq_refl). assert (W1 : wf c (setTl x s)) by (apply wf_setTl; auto).
  destruct (received_case _ _ _ _ _ P2) as [(r' & o & R' & _ & _ & V & _)|([Q|[Q|Q]] & _)]; [|congruence|congruence|cbn [mem setTl] in Q; congruence].
  assert (r' = r) by congruence. subst r'. destruct (OK r RX) as (F & _).
  pose proof (receive_order c (now i) r (setTl x s) x2 o a K W1 F A V) as SO. pose proof (wf_setOwn c a _ _ AR W1 SO) as W2.
  pose proof (wf_button _ _ _ _ _ _ P3 W2) as W3. destruct (button_ee _ _ _ _ _ _ P3) as (B1 & _).
  assert (W4 : wf c x4 /\ same_low c x3 x4 /\ own (tl x4) = own (tl x3)).
  { destruct (sending2 i); [destruct P4 as (-> & _); split; auto; split; [intros ? ?|]; reflexivity|]. split; [apply (wf_restart _ _ _ _ _ _ K W3 P4)|]. split; [apply (restart_low _ _ _ _ _ _ K W3 P4)|apply (restart_frame _ _ _ _ _ _ P4)]. }
  destruct W4 as (W4 & L4 & O4). assert (Y : same_low c x4 x' /\ own (tl x') = own (tl x4)).
  { destruct (_ || _) in P6; [subst; split; [intros ? ?|]; reflexivity|]. split; [apply (flush_low _ _ _ K W4 P6)|destruct (flush_frame _ _ _ P6) as (-> & _); reflexivity]. }
  destruct Y as (LY & OY). split.
  - unfold own_address. rewrite OY, O4. destruct (button_frame _ _ _ _ _ _ P3) as (-> & _). apply (setOwn_own _ _ _ _ AR SO).
  - intros NL. rewrite (two_low _ _ _ _ LY), (two_low _ _ _ _ L4), B1 by lia. unfold setOwnAddress in SO. destruct (memOwnAddress _ _ _) as [d|] eqn:M; [|discriminate]. injection SO as <-.
    cbn [mem setTl setMem] in *. apply (memOwn_stored c a (mem x) d _ _ NL (proj1 W) BIG AR M).
Qed.
Print Assumptions C32_exactly.
Example C32_exactly_example :
  let x := fresh bcu2conf in let o := Loop (got bcu2conf 30 serialWrite) in
  conf_ok bcu2conf /\ reachable_device bcu2conf x /\ op_ok bcu2conf o /\ (exists r, takes x o r /\ address_order Bcu2 (mem x) (rxTel r) 0x1307) /\
  option_map (fun p => (own_address (fst p), two (eeData (mem (fst p))) (Z.to_nat 0x17))) (dstep bcu2conf x o) = Some (0x1307, 0x1307) /\ not_loading Bcu2 (mem x).
Proof.
  cbv zeta. split; [apply confs_ok|]. split; [apply fresh_reachable; [apply confs_ok|apply ecfgs_ok|vm_compute; reflexivity]|]. split; [apply got_ok; reflexivity|]. split.
  - eexists. split; [split; [vm_compute; reflexivity|]; eexists; split; [reflexivity|]; split; [reflexivity|]; split; [reflexivity|vm_compute; reflexivity]|].
    apply by_serial; [reflexivity|reflexivity|reflexivity| |reflexivity]. intros i Hi. do 6 (destruct i as [|i]; [vm_compute; reflexivity|]). lia.
  - split; [vm_compute; reflexivity|]. right. vm_compute. discriminate.
Qed.

(** and it survives a loss of power after that pass, unless a connection or a transmission puts off the save *)
Theorem C32_power_up c x i r a x' l lst junk :
  conf_ok c -> reachable_device c x -> op_ok c (Loop i) -> takes x (Loop i) r -> address_order (kind c) (mem x) (rxTel r) a -> dstep c x (Loop i) = Some (x', l) ->
  not_loading (kind c) (mem x) -> a <> 0 -> a <> two (eeData (mem x)) (Z.to_nat 0x17) -> sending3 i = false -> directConnection (tl x') = false ->
  exists x'', dstep c x' (PowerUp lst junk) = Some (x'', []) /\ own_address x'' = a.
Proof.
  intros K RD OK T A E NL NZ NA S3 NC. destruct (C32_exactly _ _ _ _ _ _ _ K RD OK T A E) as (_ & ST). specialize (ST NL).
  destruct T as (R & i' & [= <-] & RX & S1 & T). pose proof (reachable_wf c x K RD) as W. unfold dstep in E. rewrite R in E. pose proof (esize_big c K) as BIG.
  assert (AR : 0 <= a < 65536) by (destruct (OK r RX) as (F & _); destruct A as [? ? ? -> | ? ? ? ? ->]; apply two_range; auto).
  destruct (loop_parts _ _ _ _ _ E) as (s & o1 & x2 & o2 & x3 & o3 & x4 & o4 & P1 & P2 & P3 & P4 & P5 & P6).
  destruct (step_hands _ _ _ _ P1) as (_ & O). specialize (O eq_refl). assert (W1 : wf c (setTl x s)) by (apply wf_setTl; auto).
  pose proof (wf_received _ _ _ _ _ OK W1 P2) as W2.
  destruct (loop_saves _ _ _ _ _ _ _ _ _ _ _ _ _ K W2 R S3 NC P1 P2 P3 P4 P5 P6) as (WY & _ & LOW & SV).
  destruct (received_case _ _ _ _ _ P2) as [(r' & o & R' & _ & _ & V & _)|([Q|[Q|Q]] & _)]; [|congruence|congruence|cbn [mem setTl] in Q; congruence].
  assert (r' = r) by congruence. subst r'. destruct (OK r RX) as (F & _).
  pose proof (receive_order c (now i) r (setTl x s) x2 o a K W1 F A V) as SO. unfold setOwnAddress in SO. destruct (memOwnAddress _ _ _) as [d|] eqn:M; [|discriminate]. injection SO as <-.
  destruct (memOwn_stored c a (mem x) d _ _ NL (proj1 W) BIG AR M) as (_ & L2 & MD & _). specialize (MD NA). cbn [mem setTl setMem] in LOW, SV. rewrite MD in SV.
  destruct (powerUp_reads c (sector x') (memMapper (mem x')) lst junk (eeData (mem x')) a K (proj1 (proj2 WY))) as (x'' & P & OA & _).
  - rewrite <- SV. apply read_content; [exact K|apply WY].
  - destruct (kind c) eqn:KC; [now left|]. right. destruct NL as [NL|NL]; [discriminate|]. rewrite LOW, L2; [exact NL|]. pose proof (k_size c K) as SZ. rewrite KC in SZ. lia.
  - symmetry. exact ST.
  - exact NZ.
  - exists x''. unfold dstep. rewrite P. split; [reflexivity|exact OA].
Qed.
Print Assumptions C32_power_up.
Example C32_power_up_example :
  let x := runTo bcu1conf [SetMode true] in let i := got bcu1conf 10 addressWrite in
  reachable_device bcu1conf x /\ op_ok bcu1conf (Loop i) /\ (exists r, takes x (Loop i) r /\ address_order Bcu1 (mem x) (rxTel r) 0x1234) /\ not_loading Bcu1 (mem x) /\
  two (eeData (mem x)) (Z.to_nat 0x17) = 0xffff /\ sending3 i = false /\ option_map (fun p => directConnection (tl (fst p))) (dstep bcu1conf x (Loop i)) = Some false /\
  option_map (fun p => own_address (fst p)) (druns bcu1conf [Loop i; PowerUp 1 []] x) = Some 0x1234.
Proof.
  cbv zeta. split; [apply runTo_reachable; [apply confs_ok|apply ecfgs_ok|vm_compute; reflexivity|repeat constructor|vm_compute; reflexivity]|]. split; [apply got_ok; reflexivity|]. split.
  - eexists. split; [split; [vm_compute; reflexivity|]; eexists; split; [reflexivity|]; split; [reflexivity|]; split; [reflexivity|vm_compute; reflexivity]|].
    apply by_programming; [reflexivity|vm_compute; reflexivity|reflexivity|reflexivity].
  - split; [now left|]. repeat split; vm_compute; reflexivity.
Qed.

(** ** C33 *)
(** setProgrammingMode() makes the programming bit what is asked for; of the status byte only that bit and the parity bit change, together, and nothing else in the device changes.
    Without a programming pin it does nothing *)
Theorem C33_switch c x b x' l :
  running x = true -> dstep c x (SetMode b) = Some (x', l) ->
  (exists v, x' = setMem x (setStatus (mem x) v)) /\
  (progPin c = false -> x' = x /\ l = []) /\
  (progPin c = true -> Z.testbit (status (mem x')) 0 = b /\ l = [Pin (negb b)] /\
     (if Bool.eqb (Z.testbit (status (mem x)) 0) b then status (mem x') = status (mem x) else switched (status (mem x)) (status (mem x')))) /\
  parity (status (mem x')) = parity (status (mem x)).
Proof.
  intros R. unfold dstep, setProgrammingMode. rewrite R. assert (SAME : x = setMem x (setStatus (mem x) (status (mem x)))) by (destruct x as [? [] ? ? ? ? ? ? ?]; reflexivity).
  destruct (progPin c).
  - rewrite programming_bit. destruct (Z.testbit (status (mem x)) 0) eqn:B0, b; cbn [Bool.eqb negb]; intros [= <- <-].
    + rewrite programming_bit, B0. split; [eexists; exact SAME|]. split; [discriminate|]. auto.
    + rewrite programming_bit. cbn [mem setMem]. pose proof (toggled_switched (mem x)) as T. pose proof (T 0) as T0. rewrite B0 in T0. cbn [Z.eqb orb negb] in T0. rewrite T0.
      split; [eexists; reflexivity|]. split; [discriminate|]. split; [auto|]. apply switched_parity. exact T.
    + rewrite programming_bit. cbn [mem setMem]. pose proof (toggled_switched (mem x)) as T. pose proof (T 0) as T0. rewrite B0 in T0. cbn [Z.eqb orb negb] in T0. rewrite T0.
      split; [eexists; reflexivity|]. split; [discriminate|]. split; [auto|]. apply switched_parity. exact T.
    + rewrite programming_bit, B0. split; [eexists; exact SAME|]. split; [discriminate|]. auto.
  - intros [= <- <-]. split; [eexists; exact SAME|]. split; [auto|]. split; [discriminate|reflexivity].
Qed.
Print Assumptions C33_switch.
Example C33_switch_example :
  option_map (fun p => (status (mem (fst p)), snd p)) (druns bcu1conf [SetMode true; SetMode true; SetMode false] (fresh bcu1conf)) = Some (0x2E, [[Pin false]; [Pin false]; [Pin true]]) /\
  option_map (fun p => status (mem (fst p))) (dstep bcu1conf (fresh bcu1conf) (SetMode true)) = Some 0xAF.
Proof. vm_compute. split; reflexivity. Qed.

(** a pass of the main loop in which the button's debounced level falls switches the mode; a pass in which it does not fall and that takes no telegram leaves the status byte alone *)
Theorem C33_button c x i x' l :
  running x = true -> progPin c = true -> (rx i = None \/ sending1 i = true) -> dstep c x (Loop i) = Some (x', l) ->
  (if negb (Util_Model.d_valid (button x) =? 0) && (Util_Model.d_valid (button x') =? 0) then switched (status (mem x)) (status (mem x')) else status (mem x') = status (mem x)) /\
  In (Pin (negb (Z.testbit (status (mem x')) 0))) l.
Proof.
  intros R PP NR. unfold dstep. rewrite R. intros E. destruct (loop_parts _ _ _ _ _ E) as (s & o1 & x2 & o2 & x3 & o3 & x4 & o4 & P1 & P2 & P3 & P4 & P5 & P6).
  destruct (received_case _ _ _ _ _ P2) as [(r & o & RX & S1 & _)|(_ & -> & ->)]; [destruct NR; congruence|].
  assert (E4 : status (mem x4) = status (mem x3) /\ button x4 = button x3).
  { destruct (sending2 i); [destruct P4 as (-> & _); auto|]. split; [apply (restart_frame _ _ _ _ _ _ P4)|].
    destruct (restart_case _ _ _ _ _ _ P4) as [(_ & -> & _)|[(_ & _ & s' & o & S & -> & _)|[(_ & _ & t & _ & -> & _)|(_ & _ & t & z & _ & F & -> & _)]]]; try reflexivity.
    destruct (flush_frame _ _ _ F) as (_ & _ & _ & KP). cbn [button stop]. unfold kept in KP. destruct KP as (_ & KP & _). exact KP. }
  assert (EY : status (mem x') = status (mem x4) /\ button x' = button x4).
  { destruct (_ || _) in P6; [subst; auto|]. destruct (flush_frame _ _ _ P6) as (_ & Q & _ & KP). split; [exact Q|]. unfold kept in KP. destruct KP as (_ & KP & _). exact KP. }
  destruct E4 as (E4 & B4), EY as (EY & BY). rewrite EY, E4, BY, B4. subst l. unfold progButton in P3. rewrite PP in P3. cbn [button setTl mem] in P3.
  destruct (Util_Model.deb_debounce (u32 (now i)) (level i) 50 (button x)) as [b v] eqn:D.
  assert (V : Util_Model.d_valid b = v).
  { unfold Util_Model.deb_debounce in D. repeat match type of D with context [if ?q then _ else _] => destruct q end; congruence. }
  replace (negb (Util_Model.d_valid (button x) =? 0) && (Util_Model.d_valid (button x3) =? 0)) with ((v =? 0) && negb (Util_Model.d_valid (button x) =? 0)).
  2:{ assert (Q : button x3 = b) by (destruct (_ && _); injection P3 as <- _; reflexivity). rewrite Q, V. apply andb_comm. }
  destruct (_ && _); injection P3 as <- <-; cbn [mem setMem setButton setTl].
  - split; [apply toggled_switched|]. rewrite <- programming_bit. apply in_or_app. right. cbn. auto.
  - split; [reflexivity|]. rewrite <- programming_bit. apply in_or_app. right. cbn. auto.
Qed.
Print Assumptions C33_button.
(** the button pressed for 100 ms, then released; pressed again *)
Example C33_button_example :
  option_map (fun p => (status (mem (fst p)), snd p))
    (druns bcu1conf (map (fun p => Loop (idle (fst p) (snd p))) [(100, 0); (120, 0); (151, 0); (200, 0); (210, 1); (270, 1)]) (fresh bcu1conf)) =
  Some (0xAF, [[Pin true]; [Pin true]; [Pin false]; [Pin false]; [Pin false]; [Pin false]]) /\
  option_map (fun p => status (mem (fst p)))
    (druns bcu1conf (map (fun p => Loop (idle (fst p) (snd p))) [(100, 0); (151, 0); (210, 1); (270, 1); (300, 0); (360, 0)]) (fresh bcu1conf)) = Some 0x2E.
Proof. vm_compute. split; reflexivity. Qed.

(** whatever the device does: apart from power-up, the status byte changes only by switching the mode and by memory writes to address 0x60 *)
Theorem C33_step c x o x' l :
  conf_ok c -> op_ok c o -> is_power_up o = false -> dstep c x o = Some (x', l) ->
  exists v, (v = status (mem x) \/ exists r, takes x o r /\ stores_status (own_address x) (rxTel r) v) /\ (status (mem x') = v \/ switched v (status (mem x'))).
Proof.
  intros K OK NP. unfold dstep, takes. destruct o as [i|ok|b|g|buf w|lst junk]; [| | | | |discriminate]; (destruct (running x) eqn:R; [|intros [= <- _]; eauto]).
  - intros E. destruct (loop_parts _ _ _ _ _ E) as (s & o1 & x2 & o2 & x3 & o3 & x4 & o4 & P1 & P2 & P3 & P4 & _ & P6). destruct (step_hands _ _ _ _ P1) as (_ & O). specialize (O eq_refl).
    exists (status (mem x2)). split.
    + destruct (received_case _ _ _ _ _ P2) as [(r & o & RX & S1 & T & V & _)|(_ & -> & _)]; [|now left]. destruct (receive_status _ _ _ _ _ _ (k_ram c K) (proj1 (OK r RX)) V) as [H|H]; [left; exact H|right].
      exists r. split; [split; [reflexivity|exists i; auto]|]. cbn [tl setTl] in H. rewrite O in H. exact H.
    + assert (E4 : status (mem x') = status (mem x3)).
      { transitivity (status (mem x4)); [destruct (_ || _) in P6; [now subst|apply (flush_frame _ _ _ P6)]|]. destruct (sending2 i); [destruct P4 as (-> & _); auto|apply (restart_frame _ _ _ _ _ _ P4)]. }
      rewrite E4. destruct (button_frame _ _ _ _ _ _ P3) as (_ & _ & [-> | ->] & _); [now left|right; apply toggled_switched].
  - destruct (step _ _) as [[s o]|]; [|discriminate]. intros [= <- _]. eauto.
  - intros E. destruct (C33_switch c x b x' l R) as (_ & NPIN & PIN & _); [unfold dstep; rewrite R; exact E|]. exists (status (mem x)). split; [now left|].
    destruct (progPin c); [|destruct NPIN as (-> & _); auto]. destruct PIN as (_ & _ & Q); [reflexivity|]. destruct (Bool.eqb _ _); auto.
  - intros [= <- _]. eauto.
  - destruct (step _ _) as [[s o]|]; [|discriminate]. intros [= <- _]. eauto.
Qed.
Print Assumptions C33_step.
(** a memory write of one byte to 0x60, addressed to the device *)
Definition statusWrite (v : Z) : list Z := [0xB0; 0x11; 0x01; 0xff; 0xff; 0x64; 0x02; 0x81; 0x00; 0x60; v; 0].
Example C33_step_example :
  op_ok bcu1conf (Loop (got bcu1conf 10 (statusWrite 0xAF))) /\
  option_map (fun p => status (mem (fst p))) (dstep bcu1conf (fresh bcu1conf) (Loop (got bcu1conf 10 (statusWrite 0xAF)))) = Some 0xAF /\
  stores_status 0xffff (statusWrite 0xAF) 0xAF.
Proof. split; [apply got_ok; reflexivity|]. split; [vm_compute; reflexivity|]. unfold stores_status. repeat split; vm_compute; congruence. Qed.

Lemma begin_status c d a d' : begin c d = Some (a, d') -> status d' = 0x2E.
Proof.
  assert (B : forall d, status (beginDefault c d) = 0x2E) by reflexivity.
  assert (E2 : forall o d a d', beginBcu2 c o d = Some (a, d') -> status d' = status d).
  { intros o d0 a0 d1. unfold beginBcu2. cbv zeta. set (q := eeByte appTypeOffset 0 _). assert (Q : status q = status d0) by reflexivity. clearbody q.
    match goal with |- match ?m with Some _ => _ | None => _ end = _ -> _ => destruct m as [[o' q']|] eqn:M; [|discriminate] end.
    assert (Q' : status q' = status q). { destruct (_ =? _) in M; [|congruence]. destruct (addrTable _ _); [|discriminate]. destruct (peekWord _ _); [|discriminate].
      destruct (memOwnAddress _ _ _) eqn:MO; [|discriminate]. apply memOwn_status in MO. congruence. }
    intros E. rewrite <- Q, <- Q'. destruct (_ && _) in E; injection E as <- <-; reflexivity. }
  unfold begin. destruct (memOwnAddress _ _ _) as [d1|] eqn:M1; [|discriminate].
  destruct (match kind c with Bcu1 => _ | Bcu2 => _ end) as [[o d2]|] eqn:E; [|discriminate].
  assert (S2 : status d2 = 0x2E). { destruct (kind c); [injection E as _ <-; apply B|]. apply E2 in E. rewrite E. apply B. }
  destruct (o =? 0); [|intros [= _ <-]; exact S2]. destruct (memOwnAddress c PHY_ADDR_DEFAULT d2) eqn:M2; [|discriminate]. intros [= _ <-]. apply memOwn_status in M2. congruence.
Qed.
(** every history: while all memory writes to the status byte have even parity, the status byte has even parity *)
Theorem C33_parity_history c l : forall x x' outs,
  conf_ok c -> Forall (op_ok c) l -> Forall parity_kept l -> druns c l x = Some (x', outs) -> parity (status (mem x)) = false -> parity (status (mem x')) = false.
Proof.
  induction l as [|o l IH]; intros x x' outs K F G; cbn [druns]. { now intros [= <- _]. }
  inversion F as [|? ? F1 F2]; subst. inversion G as [|? ? G1 G2]; subst. destruct (dstep c x o) as [[x1 out]|] eqn:E; [|discriminate].
  destruct (druns c l x1) as [[x2 outs2]|] eqn:E2; [|discriminate]. intros [= <- _] P. apply (IH _ _ _ K F2 G2 E2). destruct (is_power_up o) eqn:PU.
  - destruct o; try discriminate. unfold dstep, option_map, powerUp in E. cbv zeta in E. destruct (begin _ _) as [[a d]|] eqn:B; [|discriminate]. injection E as <- _.
    cbn [mem]. rewrite (begin_status _ _ _ _ B). reflexivity.
  - destruct (C33_step _ _ _ _ _ K F1 PU E) as (v & V & S). assert (PV : parity v = false).
    { destruct V as [-> |(r & T & ST)]; [exact P|]. destruct T as (_ & i & -> & RX & _). apply (G1 r _ v RX ST). }
    destruct S as [-> | S]; [exact PV|]. rewrite (switched_parity _ _ S). exact PV.
Qed.
Print Assumptions C33_parity_history.
Example C33_parity_history_example :
  let l := [Loop (got bcu1conf 10 (statusWrite 0xAF)); SetMode false; Loop (idle 100 0); Loop (idle 160 0); PowerUp 1 []; SetMode true] in
  Forall (op_ok bcu1conf) l /\ Forall parity_kept l /\ parity (status (mem (fresh bcu1conf))) = false /\ option_map (fun p => status (mem (fst p))) (druns bcu1conf l (fresh bcu1conf)) = Some 0xAF.
Proof.
  cbv zeta. split; [repeat (apply Forall_cons; [first [exact I|apply got_ok; reflexivity|apply idle_ok]|]); apply Forall_nil|]. split; [|split; vm_compute; reflexivity].
  apply Forall_cons; [|repeat (apply Forall_cons; [first [exact I|intros ? ? ? [=]]|]); apply Forall_nil]. intros r a v [= <-] (_ & _ & _ & _ & _ & ->). vm_compute. reflexivity.
Qed.
(** and a device that was just switched on starts with even parity, outside programming mode *)
Theorem C33_power_up c sec m lst junk x : powerUp c sec m lst junk = Some x -> parity (status (mem x)) = false /\ Z.testbit (status (mem x)) 0 = false.
Proof. unfold powerUp. cbv zeta. destruct (begin _ _) as [[a d]|] eqn:B; [|discriminate]. intros [= <-]. cbn [mem]. rewrite (begin_status _ _ _ _ B). split; reflexivity. Qed.
Print Assumptions C33_power_up.
Example C33_power_up_example : option_map (fun x => status (mem x)) (powerUp bcu2conf blankSector None 1 []) = Some 0x2E.
Proof. vm_compute. reflexivity. Qed.
