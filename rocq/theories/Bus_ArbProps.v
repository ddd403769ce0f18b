(** C92: two devices send at the same time. *)
From Verif Require Import Base Bits Bus_Model Bus_Spec Bus_Frame Bus_Inv Bus_Recv Bus_Handle Bus_Handle2 Bus_Send Bus_Steps Bus_Hist Bus_Pos Bus_Live Bus_Ex Bus_Props Bus_BitSpec Bus_Bits Bus_Wave Bus_BitProps Bus_ArbSpec Bus_Arb.

Lemma legal_run_split L l1 : forall l2 b b1 os, legal_run L (l1 ++ l2) b -> bruns L l1 b = Some (b1, os) -> legal_run L l1 b /\ legal_run L l2 b1.
Proof.
  induction l1 as [|o l1 IH]; intros l2 b b1 os Lr R; cbn [app legal_run bruns] in *; [split; [exact Logic.I|]; congruence|]. destruct Lr as [Lo Lr]. destruct (bstep L b o) as [[b2 o2]|] eqn:E; [|discriminate].
  destruct (bruns L l1 b2) as [[b3 o3]|] eqn:R2; cbn [also option_map fst snd] in R; [|discriminate]. assert (b3 = b1) by congruence. subst b3. destruct (IH l2 b2 b1 o3 (Lr b2 o2 eq_refl) R2) as [H1 H2].
  split; [|exact H2]. split; [exact Lo|]. intros b4 out E4. assert (b4 = b2) by congruence. subst. exact H1.
Qed.
Lemma next_unique v c1 c2 : next v c1 -> next v c2 -> c1 = c2.
Proof. intros [(A & ->)|(l & f & A & D & _ & ->)] [(B & ->)|(l2 & f2 & B & D2 & _ & ->)]; try congruence. Qed.
Lemma bit0_byte i b b1 c : iMatch i = true -> sendBit0 i b = Some (b1, [TxByte c]) -> c = if sendAck b =? 0 then match sendCur b with Some t => rd t (nextByteIndex b) | None => 0 end else sendAck b.
Proof.
  intros M. unfold sendBit0, sendBits. rewrite M. cbn [negb]. destruct (sendAck b =? 0); cbn [negb]; [destruct (sendCur b); [|discriminate]|]; cbn [also option_map fst snd app]; intros E; apply (f_equal (option_map snd)) in E; cbn [option_map snd] in E; congruence.
Qed.
Lemma tick_next L v b o : limits_ok L -> inv L v b -> starting b -> tick o -> exists b1 c m, bstep L b o = Some (b1, [TxByte c]) /\ is_byte c /\ next v c /\ sending (word c) 0 m b1.
Proof.
  intros LO I S (e & i & -> & C & M). destruct (tick_sends L v b e i I S C M) as (b1 & c & E & B). exists b1, c.
  pose proof E as E0. cbn [bstep] in E0. unfold timerInterruptHandler in E0. rewrite C in E0. cbn [andb] in E0.
  assert (X : exists z, b1 = sendNextBit z /\ state z = SEND_BITS_OF_BYTE /\ currentByte z = withParity c /\ bitMask z = 1).
  { destruct S as [S|S]; rewrite S in E0; [unfold sendStartBit in E0; rewrite M in E0; cbn [negb] in E0|]; eapply tick_bit0; eauto. }
  destruct X as (z & -> & Z1 & Z2 & Z3). rewrite withParity_word in Z2 by exact B. destruct (next_sending (word c) 0 z ltac:(lia) Z1 Z2 Z3) as (m & Sm). exists m. split; [exact E|]. split; [exact B|]. split; [|exact Sm].
  destruct I as (x & Co & P). unfold phase in P. assert (Q : (x = O /\ ackTx v b []) \/ exists n, x = out n /\ frameTx L v b n /\ (n < sendTelegramLen b)%nat) by (destruct S as [S|S]; rewrite S in P; tauto).
  assert (Ec : c = if sendAck b =? 0 then match sendCur b with Some t => rd t (nextByteIndex b) | None => 0 end else sendAck b).
  { destruct S as [S|S]; rewrite S in E0; [unfold sendStartBit in E0; rewrite M in E0; cbn [negb] in E0|]; apply (bit0_byte i _ _ c M) in E0; exact E0. }
  destruct Q as [(_ & A1 & A2 & A3)|(n & _ & (A1 & A2 & A3 & f & F1 & F2 & F3 & F4 & F5 & _) & A4)].
  - left. split; [exact A3|]. rewrite Ec, A1. reflexivity.
  - right. destruct (job_bytes L v b x f Co F1) as [Lf _]. pose proof (size_range f) as Rf. assert (Ln : length (firstn n f) = n) by (rewrite firstn_length, Lf; unfold largest; lia).
    exists (firstn n f), (firstn (Datatypes.S (size f)) f). split; [exact F4|]. split; [exact F5|]. rewrite Ln, firstn_length, Lf. split; [unfold largest; lia|]. clear - Ec A1 F1 A2 A4 F2 Lf Rf. rewrite A1, F1, A2 in Ec. change (0 =? 0) with true in Ec. cbv iota in Ec. unfold rd in Ec. rewrite Ec. clear Ec A1 F1 A2.
    rewrite <- (firstn_skipn (Datatypes.S (size f)) f) at 1. rewrite app_nth1; [reflexivity|]. rewrite firstn_length, Lf. unfold largest. lia.
Qed.
Lemma lows_seq w k : lows w 0 k = filter (fun j => negb (Z.testbit w (Z.of_nat j))) (seq 0 k).
Proof. unfold lows. now rewrite Nat.sub_0_r. Qed.

(** ** The winner *)
(** other devices pull the line low with us, 7 us before to 34 us after our own pulses, or the line rings up to 2 us after them: the byte is sent exactly as without them *)
Theorem C92_winner L junk l b v o ops c : limits_ok L -> after L junk l b v -> starting b -> tick o -> next v c -> shared 0 (zeros (word c)) ops ->
  exists b1, bruns L (o :: ops) b = Some (b1, [TxByte c]) /\ forall ts, Forall tick ts -> length ts = length (zeros (word c)) -> bruns L (o :: ts) b = Some (b1, [TxByte c]).
Proof.
  intros LO A S T N Sh. destruct (tick_next L v b o LO (after_inv L junk l b v LO A) S T) as (b1 & c1 & m & E & B & N1 & Sd). assert (c1 = c) by (eapply next_unique; eauto). subst c1.
  destruct (shared_run L (word c) 9 0 0 m b1 ops ltac:(lia) (le_n _) ltac:(intros j Hj; lia) Sd Sh) as (b2 & m2 & p2 & R & _ & _ & _ & _ & G).
  exists b2. cbn [bruns]. rewrite E, R. split; [reflexivity|]. intros ts F Lt. rewrite (G ts F Lt). reflexivity.
Qed.
Print Assumptions C92_winner.

(** ** The loser *)
Lemma lost_byte L junk l b v o ops c w k d : limits_ok L -> after L junk l b v -> starting b -> tick o -> next v c -> is_word w -> loses (word c) w k -> -7 <= d <= 32 -> beaten (word c) w k d ops -> legal_run L (o :: ops) b ->
  exists b1, bruns L (o :: ops) b = Some (b1, [TxByte c; RxBegin (sentSoFar v); rxWord w]) /\ state b1 = RECV_WAIT_FOR_STARTBIT_OR_TELEND.
Proof.
  intros LO A S T N W Ls Hd (ops1 & x & ts & es & y & -> & Sh & Ex & Et & Es & Q) Lr. pose proof (after_inv L junk l b v LO A) as I0. destruct (tick_next L v b o LO I0 S T) as (b1 & c1 & m & E & B & N1 & Sd).
  assert (c1 = c) by (eapply next_unique; eauto). subst c1. pose proof Ls as (K8 & Ag & Bc & Bw). rewrite lows_seq in Sh.
  destruct (shared_run L (word c) k 0 0 m b1 ops1 ltac:(lia) (le_n _) ltac:(intros j Hj; lia) Sd Sh) as (b2 & m2 & p2 & R & Sd2 & P2 & O2 & F2 & _). cbn [Nat.add] in P2, O2.
  assert (Ea : latestLow (lows (word c) 0 k) = p2) by (rewrite lows_seq; symmetry; exact F2). rewrite Ea in *.
  assert (R1 : bruns L (o :: ops1) b = Some (b2, [TxByte c])) by (cbn [bruns]; rewrite E, R; reflexivity).
  assert (Hm : (p2 <= k < m2)%nat). { destruct Sd2 as (_ & (M1 & M2 & M3) & _). split; [exact P2|]. destruct (Nat.lt_trichotomy m2 k) as [X|[X|X]]; [| |exact X]; exfalso.
    - assert (Z.testbit (word c) (Z.of_nat m2) = true) by (apply O2; lia). rewrite M3 in H by lia. discriminate.
    - subst m2. rewrite M3 in Bc by lia. discriminate. }
  rewrite app_comm_cons in Lr. destruct (legal_run_split L (o :: ops1) (x :: es ++ [y]) b b2 _ Lr R1) as [Lr1 _].
  destruct (bruns_inv L (o :: ops1) v b LO I0 Lr1) as (b3 & os3 & R3 & I3). assert (b3 = b2 /\ os3 = [TxByte c]) as [-> ->] by (rewrite R1 in R3; split; congruence).
  destruct (collided_step L (word c) w k p2 m2 b2 _ x d I3 Sd2 Hm Ls Ex Hd) as (b4 & E4 & S4 & M4 & G4).
  assert (Bf : before (sees v [TxByte c]) = sentSoFar v). { unfold before, sentSoFar, sees. cbn [fold_left see]. destruct N as [(On & _)|(l0 & f & On & _)]; rewrite On; cbn [on]; [reflexivity|]. apply removelast_last. }
  rewrite Bf in E4.
  destruct (rest_shifted L w (Datatypes.S k) (clock p2 d) ts es y b4 W ltac:(lia) S4 M4 G4 Es) as (_ & b5 & R5 & S5); [|exact Q|].
  { clear - Et. induction Et as [|j t js tl H F IH]; constructor; [|exact IH]. unfold onTime. unfold clock in *. unfold nominal in *. lia. }
  exists b5. split; [|exact S5]. change (o :: ops1 ++ x :: es ++ [y]) with ((o :: ops1) ++ x :: es ++ [y]). rewrite (bruns_app L (o :: ops1) _ b b2 _ R1). cbn [bruns]. rewrite E4, R5. reflexivity.
Qed.
(** a device whose telegram loses hears the winner's frame completely: what both have sent, the byte in which they differ, and the rest; its own telegram stays to be sent, as it was. The winner's pulse may be 32 us late *)
Theorem C92_loser_hears_partial L junk l b v o ops p c x r k d ops2 : limits_ok L -> after L junk l b v -> starting b -> tick o -> on v = Some (false, p) -> next v c ->
  Forall is_byte (x :: r) -> loses (word c) (word x) k -> -7 <= d <= 32 -> beaten (word c) (word x) k d ops -> legal_run L (o :: ops) b -> bytesOps r ops2 ->
  exists b1 os, bruns L ((o :: ops) ++ ops2) b = Some (b1, os) /\ state b1 = RECV_WAIT_FOR_STARTBIT_OR_TELEND /\ os = TxByte c :: RxBegin p :: map (fun q => RxByte q true) (x :: r) /\
    heard (sees v os) = p ++ x :: r /\ sound (sees v os) = true /\ job (sees v os) = job v /\ full (sees v os) = full v.
Proof.
  intros LO A S T On N B Ls Hd Be Lr O2. inversion B as [|? ? Bx Br]; subst. destruct (word_byte x Bx) as (W1 & W2 & W3).
  destruct (lost_byte L junk l b v o ops c (word x) k d LO A S T N W1 Ls Hd Be Lr) as (b1 & R1 & S1). assert (Ep : sentSoFar v = p) by (unfold sentSoFar; now rewrite On). rewrite Ep in R1. unfold rxWord in R1. rewrite W2, W3 in R1.
  destruct (words_of_bytes r Br) as [Wr Er]. destruct (words_next L (map word r) ops2 b1 Wr O2 S1) as (_ & b2 & R2 & S2). rewrite Er in R2.
  exists b2, (TxByte c :: RxBegin p :: map (fun q => RxByte q true) (x :: r)). split; [|split; [exact S2|]; split; [reflexivity|]].
  - rewrite (bruns_app L (o :: ops) ops2 b b1 _ R1), R2. reflexivity.
  - cbn [map]. unfold sees. cbn [fold_left]. set (v1 := see (see (see v (TxByte c)) (RxBegin p)) (RxByte x true)).
    assert (V1 : heard v1 = p ++ [x] /\ sound v1 = true /\ job v1 = job v /\ full v1 = full v) by (unfold v1; cbn [see]; rewrite On; cbn [heard sound job full]; auto). clearbody v1. clear - V1.
    assert (X : forall r v1, let v2 := fold_left see (map (fun q => RxByte q true) r) v1 in heard v2 = heard v1 ++ r /\ sound v2 = sound v1 /\ job v2 = job v1 /\ full v2 = full v1).
    { clear. induction r as [|a r IH]; intros v1; cbn [map fold_left]; [rewrite app_nil_r; auto|]. destruct (IH (see v1 (RxByte a true))) as (H1 & H2 & H3 & H4). rewrite H1, H2, H3, H4. cbn [see heard sound job full]. rewrite <- app_assoc, andb_true_r. auto. }
    destruct (X r v1) as (H1 & H2 & H3 & H4). destruct V1 as (V1 & V2 & V3 & V4). rewrite H1, H2, H3, H4, V1, V2, V3, V4. rewrite <- app_assoc. auto.
Qed.
Print Assumptions C92_loser_hears_partial.
(** and if the winner's frame is for it, it is delivered and acknowledged *)
Theorem C92_loser_delivers_partial L junk l b v o ops p c x r k d ops2 e i : limits_ok L -> after L junk l b v -> starting b -> tick o -> on v = Some (false, p) -> next v c ->
  Forall is_byte (x :: r) -> loses (word c) (word x) k -> -7 <= d <= 32 -> beaten (word c) (word x) k d ops -> legal_run L (o :: ops) b -> bytesOps r ops2 ->
  let f := p ++ x :: r in acceptable f true -> wellSized f -> forUs e f -> iCap i = false -> held v = None -> (forall t, latest v = Some t -> wellSized t /\ ~ repeats f t) -> Z.testbit (statusByte e) 1 = true ->
  exists b1, bruns L ((o :: ops) ++ ops2 ++ [Irq e i]) b = Some (b1, (TxByte c :: RxBegin p :: map (fun q => RxByte q true) (x :: r)) ++ [RxEnd; Deliver f]) /\
    forall ts, Forall tick ts -> length ts = 9%nat -> exists b2, bruns L ts b1 = Some (b2, [TxBegin true; TxByte 0xCC; TxEnd true]).
Proof.
  intros LO A S T On N B Ls Hd Be Lr O2 f Ac Ws U C Hd1 Lt Lk. destruct (C92_loser_hears_partial L junk l b v o ops p c x r k d ops2 LO A S T On N B Ls Hd Be Lr O2) as (b1 & os & R & S1 & Eo & H1 & H2 & _ & _).
  assert (Lr2 : legal_run L ((o :: ops) ++ ops2) b).
  { apply legal_run_app; [exact Lr|]. intros b3 os3 R3. inversion B as [|? ? Bx Br]; subst. destruct (words_of_bytes r Br) as [Wr _]. apply (words_next L (map word r) ops2 b3 Wr O2).
    destruct (word_byte x Bx) as (W1 & _). destruct (lost_byte L junk l b v o ops c (word x) k d LO A S T N W1 Ls Hd Be Lr) as (b4 & R4 & S4). assert (b4 = b3) by congruence. subst. exact S4. }
  pose proof (after_app L junk l _ b v b1 os A Lr2 R) as A1.
  assert (Hv : held (sees v os) = held v /\ latest (sees v os) = latest v).
  { rewrite Eo. unfold sees. clear. cbn [map fold_left].
    assert (X : forall r v1, let v2 := fold_left see (map (fun q => RxByte q true) r) v1 in held v2 = held v1 /\ latest v2 = latest v1) by (clear; induction r as [|a r IH]; intros v1; cbn [map fold_left]; [auto|]; destruct (IH (see v1 (RxByte a true))) as [H1 H2]; cbv zeta in *; rewrite H1, H2; auto).
    destruct (X r (see (see (see v (TxByte c)) (RxBegin p)) (RxByte x true))) as [H1 H2]. rewrite H1, H2. cbn [see]. destruct (on v) as [[? ?]|]; auto. }
  destruct Hv as [Hv1 Hv2]. change (p ++ x :: r) with f in H1.
  destruct (C12_accepts L junk _ b1 _ e i LO A1) as (b2 & E2 & Tk); rewrite ?H1, ?H2, ?Hv1, ?Hv2; auto; [split; assumption|]. rewrite H1 in E2.
  exists b2. split; [|exact Tk]. rewrite app_assoc, (bruns_app L _ [Irq e i] b b1 os R). cbn [bruns]. rewrite E2. cbn [also option_map fst snd app]. rewrite Eo. reflexivity.
Qed.
Print Assumptions C92_loser_delivers_partial.

(** ** A case: both have sent 0xBC 0x11, we send 0x05 next, the other device 0x01 *)
Definition out2 : list bop := start ++ [Send 0x1105 toSend 8; Kick] ++ waits 15.
Definition winning : list Z := sum [0xBC; 0x11; 0x01; 0x0A; 0x03; 0xE1; 0x00; 0x81].
Definition lostOps (d : Z) : list bop :=
  irqs ([edge (clock 0 (nominal 1 - 5)); timeout; edge (clock 2 (nominal 2 + d))] ++ map (fun j => edge (clock 2 (nominal j + d + 3))) (lows (word 1) 3 9) ++ [timeout]).
Definition restOps : list bop := concat (map (fun p => lateByte (fst p) (word (snd p))) (combine delays (skipn 3 winning))).
Lemma restOps_ok : bytesOps (skipn 3 winning) restOps.
Proof. eexists. split; [|reflexivity]. unfold delays, winning, sum. cbn [app skipn combine map fst snd]. repeat (apply Forall2_cons; [apply lateByte_ok; lia|]). apply Forall2_nil. Qed.
Lemma tick_ex : tick (Irq env1 timeout).
Proof. exists env1, timeout. auto. Qed.
Lemma quiet_ex : quiet (Irq env1 timeout).
Proof. exists env1, timeout. split; [reflexivity|]. split; [apply env1_ok|]. cbn. split; [lia|auto]. Qed.
Lemma lostOps_ok d : -7 <= d <= 34 -> beaten (word 5) (word 1) 2 d (lostOps d).
Proof.
  intros D. exists (irqs [edge (clock 0 (nominal 1 - 5)); timeout]), (Irq env1 (edge (clock 2 (nominal 2 + d)))), (map (fun j => clock 2 (nominal j + d + 3)) (lows (word 1) 3 9)), (irqs (map (fun j => edge (clock 2 (nominal j + d + 3))) (lows (word 1) 3 9))), (Irq env1 timeout).
  split; [unfold lostOps, irqs; cbn [map app]; rewrite map_app; reflexivity|]. change (latestLow (lows (word 5) 0 2)) with 2%nat. change (lows (word 5) 0 2) with [1%nat]. change (lows (word 1) 3 9) with [3; 4; 5; 6; 7]%nat. split; [|split; [|split; [|split; [|exact quiet_ex]]]].
  - cbn [shared]. exists [Irq env1 (edge (clock 0 (nominal 1 - 5)))], (Irq env1 timeout), []. split; [reflexivity|]. split; [|split; [exact tick_ex|reflexivity]]. constructor; [|constructor]. exists (clock 0 (nominal 1 - 5)). split; [apply edge_edgeOp; vm_compute; discriminate|]. right. exists (-5). split; [lia|]. reflexivity.
  - apply edge_edgeOp. unfold clock, nominal. lia.
  - cbn [map]. repeat (apply Forall2_cons; [unfold clock; lia|]). apply Forall2_nil.
  - unfold irqs. cbn [map]. repeat (apply Forall2_cons; [apply edge_edgeOp; unfold clock, nominal; lia|]). apply Forall2_nil.
Qed.
Lemma out2_facts : after limits1 junk1 out2 (state_of out2) (view_of out2) /\ starting (state_of out2) /\ on (view_of out2) = Some (false, [0xBC; 0x11]) /\ next (view_of out2) 5 /\ loses (word 5) (word 1) 2.
Proof.
  split; [apply after_ex; [legalrun|vm_compute; discriminate]|]. split; [left; vm_compute; reflexivity|]. split; [vm_compute; reflexivity|]. split.
  - right. exists [0xBC; 0x11], (wire 0x1105 toSend). split; [vm_compute; reflexivity|]. split; [vm_compute; reflexivity|]. split; [cbn; lia|reflexivity].
  - split; [lia|]. split; [|split; reflexivity]. intros j Hj. destruct j as [|[|j]]; [reflexivity|reflexivity|lia].
Qed.
Example C92_loser_ex : Forall is_byte (skipn 2 winning) /\ beaten (word 5) (word 1) 2 32 (lostOps 32) /\ legal_run limits1 (Irq env1 timeout :: lostOps 32) (state_of out2) /\ bytesOps (skipn 3 winning) restOps /\ winning = [0xBC; 0x11] ++ 0x01 :: skipn 3 winning /\
  acceptable winning true /\ wellSized winning /\ forUs env1 winning /\ held (view_of out2) = None /\ latest (view_of out2) = None /\ Z.testbit (statusByte env1) 1 = true /\
  option_map snd (bruns limits1 ((Irq env1 timeout :: lostOps 32) ++ restOps ++ [Irq env1 timeout]) (state_of out2)) = Some ((TxByte 5 :: RxBegin [0xBC; 0x11] :: map (fun q => RxByte q true) (skipn 2 winning)) ++ [RxEnd; Deliver winning]).
Proof.
  split; [unfold winning, sum, is_byte; cbn [app skipn]; repeat (apply Forall_cons; [vm_compute; split; congruence|]); apply Forall_nil|]. split; [apply lostOps_ok; lia|].
  split; [apply legal_runb_ok; [vm_compute; reflexivity|apply (irqs_ok (timeout :: _))]|]. split; [exact restOps_ok|]. split; [reflexivity|]. split; [split; [cbn; lia|]; split; [reflexivity|]; split; vm_compute; reflexivity|].
  split; [reflexivity|]. split; [left; split; [reflexivity|right; reflexivity]|]. split; [vm_compute; reflexivity|]. split; [vm_compute; reflexivity|]. split; vm_compute; reflexivity.
Qed.
(** the winner of that byte sends 0x01 with our pulses beside its own: bits 1 (5 us early) and 2 (20 us late), the line rings once *)
Definition toSend1 : list Z := toSend.
Definition out2w : list bop := start ++ [Send 0x1101 toSend1 8; Kick] ++ waits 15.
Definition wonOps : list bop := irqs ([edge 2; edge (clock 0 (nominal 1 - 5)); timeout; edge (clock 2 (nominal 2 + 20)); timeout] ++ repeat timeout 5).
Example C92_winner_ex : after limits1 junk1 out2w (state_of out2w) (view_of out2w) /\ starting (state_of out2w) /\ next (view_of out2w) 1 /\ shared 0 (zeros (word 1)) wonOps /\ legal_run limits1 (Irq env1 timeout :: wonOps) (state_of out2w).
Proof.
  split; [apply after_ex; [legalrun|vm_compute; discriminate]|]. split; [left; vm_compute; reflexivity|]. split; [|split].
  - right. exists [0xBC; 0x11], (wire 0x1101 toSend). split; [vm_compute; reflexivity|]. split; [vm_compute; reflexivity|]. split; [cbn; lia|reflexivity].
  - change (zeros (word 1)) with [1; 2; 3; 4; 5; 6; 7]%nat. cbn [shared]. exists (irqs [edge 2; edge (clock 0 (nominal 1 - 5))]), (Irq env1 timeout), (irqs ([edge (clock 2 (nominal 2 + 20)); timeout] ++ repeat timeout 5)). split; [reflexivity|]. split; [|split; [exact tick_ex|]].
    { constructor; [|constructor; [|constructor]]; eexists; (split; [apply edge_edgeOp; vm_compute; discriminate|]). - left. lia. - right. exists (-5). split; [lia|]. reflexivity. }
    exists (irqs [edge (clock 2 (nominal 2 + 20))]), (Irq env1 timeout), (irqs (repeat timeout 5)). split; [reflexivity|]. split; [|split; [exact tick_ex|]].
    { constructor; [|constructor]. eexists. split; [apply edge_edgeOp; vm_compute; discriminate|]. right. exists 20. split; [lia|]. reflexivity. }
    exists [], (Irq env1 timeout), (irqs (repeat timeout 4)). split; [reflexivity|]. split; [constructor|]. split; [exact tick_ex|].
    exists [], (Irq env1 timeout), (irqs (repeat timeout 3)). split; [reflexivity|]. split; [constructor|]. split; [exact tick_ex|].
    exists [], (Irq env1 timeout), (irqs (repeat timeout 2)). split; [reflexivity|]. split; [constructor|]. split; [exact tick_ex|].
    exists [], (Irq env1 timeout), (irqs (repeat timeout 1)). split; [reflexivity|]. split; [constructor|]. split; [exact tick_ex|].
    exists [], (Irq env1 timeout), (irqs (repeat timeout 0)). split; [reflexivity|]. split; [constructor|]. split; [exact tick_ex|]. reflexivity.
  - apply legal_runb_ok; [vm_compute; reflexivity|apply (irqs_ok (timeout :: _))].
Qed.
(** with a pulse 33 us late, which the constants still call in time (BIT_OFFSET_MAX), the loser counts one bit too many and hears its own byte instead of the winner's, with right parity *)
Theorem C92_late_refuted : exists l b v o ops, after limits1 junk1 l b v /\ starting b /\ tick o /\ next v 5 /\ loses (word 5) (word 1) 2 /\ beaten (word 5) (word 1) 2 33 ops /\ legal_run limits1 (o :: ops) b /\
  exists b1, bruns limits1 (o :: ops) b = Some (b1, [TxByte 5; RxBegin [0xBC; 0x11]; RxByte 5 true]).
Proof.
  exists out2, (state_of out2), (view_of out2), (Irq env1 timeout), (lostOps 33). destruct out2_facts as (F1 & F2 & _ & F4 & F5). split; [exact F1|]. split; [exact F2|]. split; [exact tick_ex|]. split; [exact F4|]. split; [exact F5|]. split; [apply lostOps_ok; lia|].
  split; [apply legal_runb_ok; [vm_compute; reflexivity|apply (irqs_ok (timeout :: _))]|]. eexists. vm_compute. reflexivity.
Qed.
Print Assumptions C92_late_refuted.
