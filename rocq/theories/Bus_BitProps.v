(** C73: bytes on the wire, bit by bit. *)
From Verif Require Import Base Bits Bus_Model Bus_Spec Bus_Frame Bus_Inv Bus_Recv Bus_Handle Bus_Handle2 Bus_Send Bus_Steps Bus_Hist Bus_Pos Bus_Live Bus_Ex Bus_Props Bus_BitSpec Bus_Bits Bus_Wave.

(** ** Sending *)
Lemma tick_sends L v b e i : inv L v b -> state b = SEND_START_BIT \/ state b = SEND_BIT_0 -> iCap i = false -> iMatch i = true -> exists b1 c, bstep L b (Irq e i) = Some (b1, [TxByte c]) /\ is_byte c.
Proof.
  intros (x & C & P) S Ci M. unfold phase in P.
  assert (Q : (x = O /\ ackTx v b []) \/ exists n, x = out n /\ frameTx L v b n /\ (n < sendTelegramLen b)%nat) by (destruct S as [S|S]; rewrite S in P; tauto). clear P.
  assert (G : forall z, sendAck z = sendAck b -> sendCur z = sendCur b -> nextByteIndex z = nextByteIndex b -> exists b1 c, sendBit0 i z = Some (b1, [TxByte c]) /\ is_byte c).
  { intros z Z1 Z2 Z3. unfold sendBit0, sendBits. rewrite M, Z1, Z2, Z3. cbn [negb]. destruct Q as [(_ & A1 & A2 & A3)|(n & _ & (A1 & A2 & A3 & f & F1 & F2 & F3 & _) & A4)].
    - rewrite A1. change (SB_BUS_ACK =? 0) with false. cbn [negb also option_map fst snd app]. eexists _, _. split; [reflexivity|]. unfold SB_BUS_ACK, is_byte. lia.
    - rewrite A1, F1. change (0 =? 0) with true. cbn [negb also option_map fst snd app]. eexists _, _. split; [reflexivity|]. destruct (job_bytes L v b x f C F1) as [Lf Bf]. rewrite A2. unfold rd.
      rewrite <- (firstn_skipn (Datatypes.S (size f)) f). rewrite app_nth1 by (rewrite firstn_length, Lf; pose proof (size_range f); unfold largest; lia). rewrite Forall_forall in Bf. apply Bf. apply nth_In. rewrite firstn_length, Lf. pose proof (size_range f). unfold largest. lia. }
  cbn [bstep]. unfold timerInterruptHandler. rewrite Ci. cbn [andb]. destruct S as [S|S]; rewrite S; [unfold sendStartBit; rewrite M; cbn [negb]|]; apply G; reflexivity.
Qed.
(** the timer runs out while the start bit is sent: a byte [c] is begun, and its low pulses begin exactly at the nominal times after the begin of the start pulse (mPwm) *)
Theorem C73_sends L junk l b v o ops : limits_ok L -> after L junk l b v -> state b = SEND_START_BIT -> tick o -> Forall tick ops -> length ops = 10%nat ->
  exists c, is_byte c /\ sent L b o ops (mPwm b) c.
Proof.
  intros LO A S (e & i & -> & C & M) F N. destruct (tick_sends L v b e i (after_inv L junk l b v LO A) (or_introl S) C M) as (b1 & c & E & B). exists c. split; [exact B|]. exists b1. split; [exact E|].
  apply (tick_sent L e i b b1 c ops (mPwm b)); auto. pose proof (after_startOk L junk l b v A S). change BIT_PULSE_TIME with 35. lia.
Qed.
Print Assumptions C73_sends.
(** an edge is seen on the line before: at or after the begin of the own start pulse nothing changes; a bit earlier (another device begins to send) the byte is timed from that edge *)
Theorem C73_sends_synchronised L junk l b v o o2 t ops : limits_ok L -> after L junk l b v -> state b = SEND_START_BIT -> edgeOp t o -> legal b o -> u32 (mPwm b - STARTBIT_OFFSET_MIN) <= t ->
  tick o2 -> Forall tick ops -> length ops = 10%nat ->
  exists b1 c, bstep L b o = Some (b1, []) /\ is_byte c /\ sent L b1 o2 ops (if t <? mPwm b then t else mPwm b) c.
Proof.
  intros LO A S (e & i & -> & Ev & C & M & Sp & T1 & T2) Lg Ht (e2 & i2 & -> & C2 & M2) F N. pose proof (after_startOk L junk l b v A S) as So.
  assert (E : exists b1, bstep L b (Irq e i) = Some (b1, []) /\ state b1 = SEND_BIT_0 /\ mTime b1 + 1 = (if t <? mPwm b then t else mPwm b) + 35).
  { cbn [bstep]. unfold timerInterruptHandler. rewrite Sp, andb_false_r, S. unfold sendStartBit. rewrite M, T1. cbn [negb]. destruct (Z.ltb_spec t (u32 (mPwm b - STARTBIT_OFFSET_MIN))); [lia|].
    eexists. split; [reflexivity|]. fields. split; [reflexivity|]. destruct (t <? mPwm b); fields; [change BIT_PULSE_TIME with 35|]; lia. }
  destruct E as (b1 & E & S1 & O). pose proof (step_good L v b (Irq e i) LO Lg (after_inv L junk l b v LO A)) as G. rewrite E in G. destruct G as [_ I1].
  destruct (tick_sends L _ b1 e2 i2 I1 (or_intror S1) C2 M2) as (b2 & c & E2 & B). exists b1, c. split; [exact E|]. split; [exact B|]. exists b2. split; [exact E2|].
  apply (tick_sent L e2 i2 b1 b2 c ops); auto.
Qed.
Print Assumptions C73_sends_synchronised.
(** a telegram is about to be sent; another device begins its start bit 10 us before ours *)
Example C73_sends_ex : let b := state_of (start ++ [Send 0x1105 toSend 8; Kick] ++ waits 1) in
  state b = SEND_START_BIT /\ sent limits1 b (Irq env1 timeout) (waits 10) (mPwm b) 0xBC /\ zeros (word 0xBC) = [0; 1; 6]%nat.
Proof. cbv zeta. split; [vm_compute; reflexivity|]. split; [|reflexivity]. eexists. split; [vm_compute; reflexivity|]. vm_compute. reflexivity. Qed.
Example C73_sends_synchronised_ex : let b := state_of (start ++ [Send 0x1105 toSend 8; Kick] ++ waits 1) in
  exists b1, bstep limits1 b (Irq env1 (edge (mPwm b - 6))) = Some (b1, []) /\ sent limits1 b1 (Irq env1 timeout) (waits 10) (mPwm b - 6) 0xBC.
Proof. cbv zeta. eexists. split; [vm_compute; reflexivity|]. eexists. split; [vm_compute; reflexivity|]. vm_compute. reflexivity. Qed.

(** ** Receiving *)
(** whatever nine bits are on the line, with pulses up to 35 us early and 68 us late: exactly these eight data bits are received, and the parity is judged right *)
Theorem C73_receives L w ops b : is_word w -> byteOps w ops -> state b = RECV_WAIT_FOR_STARTBIT_OR_TELEND ->
  exists b1, bruns L ops b = Some (b1, [RxByte (w mod 256) (evenWord w)]) /\ state b1 = RECV_WAIT_FOR_STARTBIT_OR_TELEND.
Proof. intros W O S. exact (proj2 (word_next L w ops b W O S)). Qed.
Print Assumptions C73_receives.
(** any single bit wrong is noticed, and the byte makes the whole frame unacceptable *)
Theorem C73_single_error L c k ops b : is_byte c -> (k <= 8)%nat -> byteOps (Z.lxor (word c) (2 ^ Z.of_nat k)) ops -> state b = RECV_WAIT_FOR_STARTBIT_OR_TELEND ->
  exists b1 d, bruns L ops b = Some (b1, [RxByte d false]) /\ forall v, ~ acceptable (heard (see v (RxByte d false))) (sound (see v (RxByte d false))).
Proof.
  intros B K O S. assert (X : forall k, (k <= 8)%nat -> forall c, is_byte c -> ((0 <=? Z.lxor (word c) (2 ^ Z.of_nat k)) && (Z.lxor (word c) (2 ^ Z.of_nat k) <? 512) && negb (evenWord (Z.lxor (word c) (2 ^ Z.of_nat k)))) = true).
  { clear. intros k Hk. do 9 (destruct k as [|k]; [apply byte_forall; vm_compute; reflexivity|]). lia. }
  specialize (X k K c B). set (w := Z.lxor (word c) (2 ^ Z.of_nat k)) in *. rewrite !andb_true_iff in X. destruct X as [[X1 X2] X3]. apply Z.leb_le in X1. apply Z.ltb_lt in X2. apply negb_true_iff in X3.
  destruct (C73_receives L w ops b) as (b1 & R & _); [split; assumption|exact O|exact S|]. rewrite X3 in R. exists b1, (w mod 256). split; [exact R|]. intros v (_ & P & _). cbn [see sound] in P. rewrite andb_false_r in P. discriminate.
Qed.
Print Assumptions C73_single_error.
Lemma words_of_bytes f : Forall is_byte f -> Forall is_word (map word f) /\ map rxWord (map word f) = map (fun c => RxByte c true) f.
Proof.
  induction 1 as [|c f B F IH]; cbn [map]; [split; [constructor|reflexivity]|]. destruct IH as [I1 I2]. destruct (word_byte c B) as (W1 & W2 & W3). split; [constructor; assumption|]. rewrite I2. unfold rxWord. rewrite W2, W3. reflexivity.
Qed.
(** the bytes of a frame are received as they are *)
Theorem C73_frame_heard L f ops b : Forall is_byte f -> f <> [] -> bytesOps f ops -> listening b ->
  exists b1, bruns L ops b = Some (b1, RxBegin [] :: map (fun c => RxByte c true) f) /\ state b1 = RECV_WAIT_FOR_STARTBIT_OR_TELEND.
Proof.
  intros B N O S. destruct (words_of_bytes f B) as [W E]. rewrite <- E. destruct f as [|c f]; [congruence|]. exact (proj2 (words_first L (word c) (map word f) ops b W O S)).
Qed.
Print Assumptions C73_frame_heard.
(** what one device sends another hears: the edges differ from the pulses sent by any delays between -35 and 68 us *)
Theorem C73_round_trip L1 b o ops origin c L2 r s t es ts x : is_byte c -> sent L1 b o ops origin c ->
  (exists b1 os, bstep L1 b o = Some (b1, os) /\ Forall2 (fun p t => -35 <= t - (p - origin) <= 68) (pulses L1 ops (mTime b + 1) b1) ts) ->
  state r = RECV_WAIT_FOR_STARTBIT_OR_TELEND -> edgeOp t s -> Forall2 edgeOp ts es -> quiet x ->
  exists r1, bruns L2 (s :: es ++ [x]) r = Some (r1, [RxByte c true]).
Proof.
  intros B (b1 & E & P) (b2 & os & E2 & F) S Es Ee Q. assert (b2 = b1) by congruence. subst b2. rewrite P in F. destruct (word_byte c B) as (W1 & W2 & W3).
  destruct (C73_receives L2 (word c) (s :: es ++ [x]) r W1) as (r1 & R & _); [|exact S|exists r1; rewrite R, W2, W3; reflexivity].
  exists s, t, es, ts, x. split; [reflexivity|]. split; [exact Es|]. split; [exact Ee|]. split; [|exact Q]. unfold encodes. clear - F. revert ts F. induction (zeros (word c)) as [|k ks IH]; intros ts F; inversion F; subst; constructor; auto. unfold onTime. lia.
Qed.
Print Assumptions C73_round_trip.
(** a valid frame for us on the wire: it is delivered and acknowledged *)
Theorem C73_delivered L junk l b v f ops e i : limits_ok L -> after L junk l b v -> listening b -> Forall is_byte f -> acceptable f true -> wellSized f -> forUs e f -> bytesOps f ops -> iCap i = false ->
  held v = None -> (forall t, latest v = Some t -> wellSized t /\ ~ repeats f t) -> Z.testbit (statusByte e) 1 = true ->
  exists b1, bruns L (ops ++ [Irq e i]) b = Some (b1, RxBegin [] :: map (fun c => RxByte c true) f ++ [RxEnd; Deliver f]) /\
    forall ts, Forall tick ts -> length ts = 9%nat -> exists b2, bruns L ts b1 = Some (b2, [TxBegin true; TxByte 0xCC; TxEnd true]).
Proof.
  intros LO A S B Ac Ws U O C Hd Lt Lk. destruct f as [|c f]; [destruct Ac as [Ac _]; cbn in Ac; lia|]. set (g := c :: f) in *. destruct (words_of_bytes g B) as [W E].
  destruct (words_first L (word c) (map word f) ops b W O S) as (Lg & b1 & R & S1). change (word c :: map word f) with (map word g) in R. pose proof (after_app L junk l ops b v b1 _ A Lg R) as A1.
  set (v1 := sees v _) in *. destruct (sees_words (map word g) (see v (RxBegin []))) as (H1 & H2 & H3 & H4). change (sees (see v (RxBegin [])) (map rxWord (map word g))) with v1 in *. cbn [see heard sound held latest app andb] in H1, H2, H3, H4.
  assert (Hh : heard v1 = g). { rewrite H1. clear - B. induction B as [|a q Ha Hq IH]; cbn [map]; [reflexivity|]. rewrite IH. f_equal. apply (word_byte a Ha). }
  assert (Hs : sound v1 = true). { rewrite H2. clear - B. induction B as [|a q Ha Hq IH]; cbn [map forallb]; [reflexivity|]. rewrite IH, andb_true_r. apply (word_byte a Ha). }
  destruct (C12_accepts L junk (l ++ ops) b1 v1 e i LO A1) as (b2 & E2 & T); rewrite ?Hh, ?Hs, ?H3, ?H4; auto; [split; assumption|]. rewrite Hh in E2.
  exists b2. split; [|exact T]. rewrite (bruns_app L ops [Irq e i] b b1 _ R), E. cbn [bruns]. rewrite E2. cbn [also option_map fst snd app]. reflexivity.
Qed.
Print Assumptions C73_delivered.
(** examples: all pulses late by [d] us *)
Definition lateByte (d w : Z) : list bop := irqs (edge 300 :: map (fun k => edge (nominal k + d)) (zeros w) ++ [timeout]).
Lemma edge_edgeOp t : 0 <= t -> edgeOp t (Irq env1 (edge t)).
Proof. intros H. exists env1, (edge t). split; [reflexivity|]. split; [apply env1_ok|]. cbn. auto. Qed.
Lemma lateByte_ok d w : -35 <= d <= 68 -> byteOps w (lateByte d w).
Proof.
  intros D. exists (Irq env1 (edge 300)), 300, (irqs (map (fun k => edge (nominal k + d)) (zeros w))), (map (fun k => nominal k + d) (zeros w)), (Irq env1 timeout).
  split; [unfold lateByte, irqs; cbn [map]; rewrite map_app; reflexivity|]. split; [apply edge_edgeOp; lia|]. split; [|split].
  - induction (zeros w) as [|k ks IH]; cbn [map irqs]; constructor; [|exact IH]. apply edge_edgeOp. unfold nominal. lia.
  - unfold encodes. induction (zeros w) as [|k ks IH]; cbn [map]; constructor; [|exact IH]. unfold onTime. lia.
  - exists env1, timeout. split; [reflexivity|]. split; [apply env1_ok|]. cbn. split; [lia|auto].
Qed.
(** a wrong parity bit *)
Example C73_receives_ex : is_word 0x1A5 /\ byteOps 0x1A5 (lateByte (-35) 0x1A5) /\ evenWord 0x1A5 = false /\ zeros 0x1A5 = [1; 3; 4; 6]%nat.
Proof. split; [split; lia|]. split; [apply lateByte_ok; lia|]. split; reflexivity. Qed.
Example C73_single_error_ex : byteOps (Z.lxor (word 0xA5) (2 ^ Z.of_nat 8)) (lateByte 68 0x1A5) /\ word 0xA5 = 0xA5.
Proof. split; [apply lateByte_ok; lia|reflexivity]. Qed.
(** the group telegram, each byte with another delay *)
Definition delays : list Z := [0; 68; -35; 3; 20; -10; 40; 68; -35].
Definition wireGroup1 : list bop := concat (map (fun p => lateByte (fst p) (word (snd p))) (combine delays group1)).
Lemma wireGroup1_ok : bytesOps group1 wireGroup1.
Proof. eexists. split; [|reflexivity]. unfold delays, group1, sum. cbn [app combine map fst snd]. repeat (apply Forall2_cons; [apply lateByte_ok; lia|]). apply Forall2_nil. Qed.
Example C73_frame_heard_ex : bytesOps group1 wireGroup1 /\ listening (state_of start) /\ option_map snd (bruns limits1 wireGroup1 (state_of start)) = Some (RxBegin [] :: map (fun c => RxByte c true) group1).
Proof. split; [apply wireGroup1_ok|]. split; [left; vm_compute; reflexivity|]. vm_compute. reflexivity. Qed.
Example C73_delivered_ex : after limits1 junk1 start (state_of start) (view_of start) /\ listening (state_of start) /\ acceptable group1 true /\ wellSized group1 /\ forUs env1 group1 /\ bytesOps group1 wireGroup1 /\
  held (view_of start) = None /\ latest (view_of start) = None /\ Z.testbit (statusByte env1) 1 = true.
Proof.
  split; [apply after_ex; [legalrun|vm_compute; discriminate]|]. split; [left; vm_compute; reflexivity|]. split; [split; [cbn; lia|]; split; [reflexivity|]; split; vm_compute; reflexivity|]. split; [reflexivity|].
  split; [left; split; [reflexivity|right; reflexivity]|]. split; [apply wireGroup1_ok|]. split; [vm_compute; reflexivity|]. split; vm_compute; reflexivity.
Qed.
(** the sender of the first example is heard by a receiver that has just taken a byte *)
Example C73_round_trip_ex : let b := state_of (start ++ [Send 0x1105 toSend 8; Kick] ++ waits 1) in let ts := [nominal 0 + 68; nominal 1 - 35; nominal 6 + 5] in
  sent limits1 b (Irq env1 timeout) (waits 10) (mPwm b) 0xBC /\
  (exists b1 os, bstep limits1 b (Irq env1 timeout) = Some (b1, os) /\ Forall2 (fun p t => -35 <= t - (p - mPwm b) <= 68) (pulses limits1 (waits 10) (mTime b + 1) b1) ts) /\
  Forall2 edgeOp ts (irqs (map edge ts)) /\ state (state_of (start ++ irqs (byteIrqs 0x55))) = RECV_WAIT_FOR_STARTBIT_OR_TELEND.
Proof.
  cbv zeta. split; [exact (proj1 (proj2 C73_sends_ex))|]. split; [|split; [|vm_compute; reflexivity]].
  - eexists _, _. split; [vm_compute; reflexivity|]. vm_compute. repeat (apply Forall2_cons; [split; discriminate|]). apply Forall2_nil.
  - unfold irqs. cbn [map]. repeat (apply Forall2_cons; [apply edge_edgeOp; unfold nominal; lia|]). apply Forall2_nil.
Qed.
