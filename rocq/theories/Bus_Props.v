(** C11-C15: the link layer. *)
From Verif Require Import Base Bits Bus_Model Bus_Spec Bus_Frame Bus_Inv Bus_Recv Bus_Handle Bus_Handle2 Bus_Send Bus_Steps Bus_Hist Bus_Pos Bus_Live Bus_Ex.

(** ** Examples of histories *)
Ltac legalrun := apply legal_runb_ok; [vm_compute; reflexivity|repeat first [apply Forall_app; split|apply irqs_ok|apply Forall_cons; [exact I|]|apply Forall_nil]].
Definition state_of (l : list bop) : bus := match bruns limits1 l (begin junk1) with Some (b, _) => b | None => junk1 end.
Definition view_of (l : list bop) : view := match bruns limits1 l (begin junk1) with Some (_, os) => sees view0 os | None => view0 end.
Lemma after_ex l : legal_run limits1 l (begin junk1) -> bruns limits1 l (begin junk1) <> None -> after limits1 junk1 l (state_of l) (view_of l).
Proof. intros H N. split; [exact H|]. unfold state_of, view_of. destruct (bruns _ _ _) as [[b os]|]; [|congruence]. eauto. Qed.
Lemma limits1_ok : limits_ok limits1.
Proof. split; discriminate. Qed.

(** ** Nothing undefined happens, and only what [allowed] says *)
Theorem C11_C15_histories L junk l : limits_ok L -> legal_run L l (begin junk) ->
  exists b v, after L junk l b v /\ forall o, legal b o -> exists b1 os, bstep L b o = Some (b1, os) /\ permitted L (op_env o) v os.
Proof.
  intros LO H. destruct (after_runs L junk l LO H) as (b & os & E). assert (A : after L junk l b (sees view0 os)) by (split; eauto). exists b, (sees view0 os). split; [exact A|].
  intros o. now apply (after_step L junk l).
Qed.
Print Assumptions C11_C15_histories.
Example C11_C15_histories_ex : legal_run limits1 (start ++ hears group1 ++ [Send 0x1105 toSend 8; Discard] ++ waits 150) (begin junk1).
Proof. legalrun. Qed.

(** ** C11 *)
Lemma sees_job L e v os : permitted L e v os -> (forall own t, job v = Some (own, t) -> is_u16 own /\ tel_buffer t) -> forall own t, job (sees v os) = Some (own, t) -> is_u16 own /\ tel_buffer t.
Proof.
  revert v. induction os as [|o r IH]; intros v; cbn [permitted sees fold_left]; auto. intros [A P] H. apply (IH _ P). intros own t.
  destruct o; cbn [see job]; auto; try discriminate.
  - destruct (on v) as [[? ?]|]; cbn [job]; auto.
  - cbn in A. intros E. injection E as <- <-. tauto.
Qed.
Lemma permitted_app_l L e v a c : permitted L e v (a ++ c) -> permitted L e v a.
Proof. revert v. induction a as [|o r IH]; intros v; cbn; auto. intros [H1 H2]. eauto. Qed.
Lemma occurs_job L junk x v e own t : limits_ok L -> occurs L junk x v e -> job v = Some (own, t) -> is_u16 own /\ tel_buffer t.
Proof.
  intros LO (l & b & v0 & o & b1 & os1 & os2 & A & Lo & E & -> & ->). destruct (after_step L junk l b v0 o LO A Lo) as (b2 & os & E2 & P). rewrite E in E2. injection E2 as <- <-.
  apply permitted_app_l in P. apply (sees_job L _ _ _ P). intros own1 t1 Jv. destruct (after_inv L junk l b v0 LO A) as (x0 & (_ & _ & _ & _ & (_ & J) & _) & _). rewrite Jv in J.
  destruct (sendCur b); [|contradiction]. tauto.
Qed.
Lemma nth_wire own t i : length t = largest -> (3 <= i < size t)%nat -> nth i (wire own t) 0 = nth i t 0.
Proof.
  intros Lt H. pose proof (size_range t). unfold wire. rewrite app_nth1 by (rewrite body_length by auto; lia). unfold body. rewrite app_nth2 by (cbn [length]; lia). cbn [length].
  assert (X : forall (l : list Z) n k, (k < n)%nat -> nth k (firstn n l) 0 = nth k l 0). { clear. induction l as [|a l IH]; intros [|n] [|k] Hk; cbn; auto; try lia. apply IH. lia. }
  rewrite X by lia. rewrite <- (firstn_skipn 3 t) at 2. rewrite app_nth2; rewrite firstn_length, Lt; unfold largest; [|lia]. f_equal. 
Qed.
(** when a transmission is complete, exactly this frame was put on the wire since it began *)
Theorem C11_frame_on_wire L junk v e : limits_ok L -> occurs L junk (TxEnd false) v e ->
  exists own t f, job v = Some (own, t) /\ tel_buffer t /\ on v = Some (false, f) /\ length f = S (size t) /\ xor_all f = 255 /\ nth 1 f 0 = own / 256 /\ nth 2 f 0 = own mod 256 /\
    nth 0 f 0 = (if (full v =? 0)%nat then nth 0 t 0 else unflagged (nth 0 t 0)) /\ (forall i, (3 <= i < size t)%nat -> nth i f 0 = nth i t 0).
Proof.
  intros LO O. pose proof (occurs_allowed L junk _ v e LO O) as (f & D & On). unfold due in D. destruct (job v) as [[own t]|] eqn:J; [|discriminate]. injection D as <-.
  destruct (occurs_job L junk _ v e own t LO O J) as [U [Lt Bt]]. set (t1 := if (full v =? 0)%nat then t else repeated t) in *.
  assert (L1 : length t1 = largest) by (unfold t1; destruct (full v =? 0)%nat; rewrite ?repeated_length; exact Lt).
  assert (S1 : size t1 = size t) by (unfold t1; destruct (full v =? 0)%nat; rewrite ?size_repeated; reflexivity).
  exists own, t, (wire own t1). split; [reflexivity|]. split; [split; auto|]. split; [exact On|]. split; [rewrite wire_length by auto; now rewrite S1|]. split; [apply wire_xor|].
  split; [reflexivity|]. split; [reflexivity|]. split.
  - unfold t1. destruct (full v =? 0)%nat; [reflexivity|]. destruct t; [discriminate|reflexivity].
  - intros i Hi. rewrite nth_wire by (auto; lia). unfold t1. destruct (full v =? 0)%nat; [reflexivity|]. destruct t; [reflexivity|]. destruct i; [lia|]. reflexivity.
Qed.
Print Assumptions C11_frame_on_wire.
(** every single byte sent, also of a transmission that is cut short by a collision, belongs to that frame *)
Theorem C11_every_byte L junk v e c l : limits_ok L -> occurs L junk (TxByte c) v e -> on v = Some (false, l) ->
  exists own t, job v = Some (own, t) /\ (length l < length (wire own (if (full v =? 0)%nat then t else repeated t)))%nat /\ c = nth (length l) (wire own (if (full v =? 0)%nat then t else repeated t)) 0.
Proof.
  intros LO O On. pose proof (occurs_allowed L junk _ v e LO O) as A. cbn [allowed] in A. rewrite On in A. destruct A as (f & D & H). unfold due in D. destruct (job v) as [[own t]|]; [|discriminate]. injection D as <-. eauto.
Qed.
Print Assumptions C11_every_byte.
Lemma ex_occurs (l : list bop) o x os1 v e : legal_run limits1 l (begin junk1) -> legal (state_of l) o ->
  (option_map snd (bruns limits1 l (begin junk1)) <> None) -> (exists os2, option_map snd (bstep limits1 (state_of l) o) = Some (os1 ++ x :: os2)) -> v = sees (view_of l) os1 -> e = op_env o -> occurs limits1 junk1 x v e.
Proof.
  intros H Lo N (os2 & E) -> ->. destruct (bstep limits1 (state_of l) o) as [[b1 os]|] eqn:Es; [|discriminate]. cbn in E. injection E as ->. exists l, (state_of l), (view_of l), o, b1, os1, os2.
  split; [apply after_ex; [exact H|]; intro X; rewrite X in N; exact (N eq_refl)|]. auto.
Qed.
Ltac exocc l x os := apply (ex_occurs l (Irq env1 timeout) x os);
  [unfold l; legalrun|apply legalb_ok; [vm_compute; reflexivity|apply env1_ok]|vm_compute; discriminate|vm_compute; eexists; reflexivity|cbn [sees fold_left]; exact eq_refl|exact eq_refl].
Definition sending1 : list bop := start ++ [Send 0x1105 toSend 8; Kick] ++ waits 74.
(** the first transmission; and the second one, marked as a repetition *)
Example C11_frame_on_wire_ex : occurs limits1 junk1 (TxEnd false) (view_of sending1) (Some env1) /\ on (view_of sending1) = Some (false, [188; 17; 5; 10; 3; 225; 0; 128; 63]) /\ full (view_of sending1) = O.
Proof.
  split; [|split; vm_compute; reflexivity]. exocc sending1 (TxEnd false) (@nil bout).
Qed.
Definition sending0 : list bop := start ++ [Send 0x1105 toSend 8; Kick] ++ waits 1.
Example C11_every_byte_ex : occurs limits1 junk1 (TxByte 0xBC) (view_of sending0) (Some env1) /\ on (view_of sending0) = Some (false, []).
Proof. split; [|vm_compute; reflexivity]. exocc sending0 (TxByte 0xBC) (@nil bout). Qed.
Definition sending2 : list bop := start ++ [Send 0x1105 toSend 8; Kick] ++ waits 153.
Example C11_repetition_ex : on (view_of sending2) = Some (false, [156; 17; 5; 10; 3; 225; 0; 128; 31]) /\ full (view_of sending2) = 1%nat /\
  option_map snd (bstep limits1 (state_of sending2) (Irq env1 timeout)) = Some [TxEnd false] /\ legal_run limits1 sending2 (begin junk1).
Proof. split; [vm_compute; reflexivity|]. split; [vm_compute; reflexivity|]. split; [vm_compute; reflexivity|]. unfold sending2. legalrun. Qed.

(** ** C12 *)
(** Partial: the length of the frame is only required to be at least 8, and of a frame longer than 23 bytes only the first 23 are looked at. *)
Theorem C12_only_valid_partial L junk v e : limits_ok L ->
  (forall t, occurs L junk (Deliver t) v e -> acceptable (heard v) (sound v) /\ over v = true /\ t = firstn largest (heard v) /\ exists e0, e = Some e0 /\ forUs e0 t) /\
  (occurs L junk (TxBegin true) v e -> acceptable (heard v) (sound v) /\ over v = true) /\
  (forall c l, occurs L junk (TxByte c) v e -> on v = Some (true, l) -> l = [] /\ c = 0xCC).
Proof.
  intros LO. split; [|split].
  - intros t O. pose proof (occurs_allowed L junk _ v e LO O) as (H1 & H2 & H3 & H4 & H5 & H6). auto.
  - intros O. pose proof (occurs_allowed L junk _ v e LO O) as (H1 & H2 & H3). auto.
  - intros c l O On. pose proof (occurs_allowed L junk _ v e LO O) as A. cbn [allowed] in A. rewrite On in A. exact A.
Qed.
Print Assumptions C12_only_valid_partial.
Definition heard1 : list bop := start ++ irqs (flat_map byteIrqs group1).
Example C12_only_valid_partial_ex : occurs limits1 junk1 (Deliver group1) (sees (view_of heard1) [RxEnd]) (Some env1).
Proof.
  exocc heard1 (Deliver group1) ([RxEnd]).
Qed.
(** one wrong byte in a frame: the checksum is wrong, whatever byte it is *)
Lemma xor_all_split l i : (i < length l)%nat -> exists r, xor_all l = Z.lxor (nth i l 0) r /\ forall c, xor_all (firstn i l ++ c :: skipn (S i) l) = Z.lxor c r.
Proof.
  revert i. induction l as [|a l IH]; intros [|i] H; cbn [length] in H; try lia.
  - exists (xor_all l). split; reflexivity.
  - destruct (IH i ltac:(lia)) as (r & E1 & E2). exists (Z.lxor a r). cbn [nth firstn skipn app]. change (xor_all (a :: ?x)) with (Z.lxor a (xor_all x)). split.
    + rewrite E1, <- !Z.lxor_assoc. f_equal. apply Z.lxor_comm.
    + intros c. change (xor_all (a :: ?x)) with (Z.lxor a (xor_all x)). rewrite E2, <- !Z.lxor_assoc. f_equal. apply Z.lxor_comm.
Qed.
Theorem C12_single_byte f s i c s1 : acceptable f s -> (length f <= largest)%nat -> (i < length f)%nat -> c <> nth i f 0 -> ~ acceptable (firstn i f ++ c :: skipn (S i) f) s1.
Proof.
  intros (A1 & _ & A3 & _) Lf Hi N (_ & _ & B3 & _). assert (Lg : length (firstn i f ++ c :: skipn (S i) f) = length f) by (rewrite app_length, firstn_length; cbn [length]; rewrite skipn_length; lia).
  rewrite firstn_all2 in A3, B3 by lia. destruct (xor_all_split f i Hi) as (r & E1 & E2). rewrite E1 in A3. rewrite E2 in B3. apply N.
  assert (X : Z.lxor (Z.lxor c r) r = Z.lxor (Z.lxor (nth i f 0) r) r) by now rewrite A3, B3. rewrite !Z.lxor_assoc, Z.lxor_nilpotent, !Z.lxor_0_r in X. exact X.
Qed.
Print Assumptions C12_single_byte.
Example C12_single_byte_ex : acceptable group1 true /\ (length group1 <= largest)%nat.
Proof. vm_compute. repeat split; lia. Qed.
(** and a valid frame for us is delivered (unless it is a repetition) and acknowledged with 0xCC, whoever it comes from *)
Theorem C12_accepts L junk l b v e i : limits_ok L -> after L junk l b v -> silence b i -> acceptable (heard v) (sound v) -> wellSized (heard v) -> forUs e (heard v) ->
  held v = None -> (forall t, latest v = Some t -> wellSized t /\ ~ repeats (heard v) t) -> Z.testbit (statusByte e) 1 = true ->
  exists b1, bstep L b (Irq e i) = Some (b1, [RxEnd; Deliver (heard v)]) /\
    forall ts, Forall tick ts -> length ts = 9%nat -> exists b2, bruns L ts b1 = Some (b2, [TxBegin true; TxByte 0xCC; TxEnd true]).
Proof.
  intros LO A S Ac W U Hd Lt Lk. pose proof (after_inv L junk l b v LO A) as I. assert (Ll : (length (heard v) <= largest)%nat) by (rewrite W; pose proof (size_range (heard v)); unfold largest; lia).
  destruct (frame_end L e i v b I S Ac Ll U) as (b1 & E & Sb & Ab). destruct I as (x & C & P). pose proof C as (_ & _ & _ & _ & _ & (Hl & _)). rewrite Hd in Hl. rewrite Hl in *. cbn [Nat.ltb Nat.leb orb] in *. rewrite Lk in *. cbn [negb] in *.
  assert (Al : alreadyReceived (nextByteIndex b) (rxTel b) (telegram b) = false).
  { destruct (alreadyReceived _ _ _) eqn:Q; [|reflexivity]. exfalso. apply (already_iff L v b i) in Q; [|exists x; auto|auto..|intros t Ht; apply Lt; exact Ht]. destruct Q as (t & Ht & Rp). exact (proj2 (Lt t Ht) Rp). }
  rewrite Al in E. exists b1. split; [exact E|]. intros ts Ft Nt. destruct ts as [|o ts]; [discriminate|]. inversion Ft as [|? ? (e1 & i1 & -> & C1 & M1) Fr]; subst.
  cbn [bruns]. destruct (ack_start L e1 i1 b1 Sb C1) as (b2 & -> & S2 & A2). destruct (ack_sent L ts b2 S2) as (b3 & ->); [congruence|exact Fr|cbn in Nt; congruence|]. exists b3. reflexivity.
Qed.
Print Assumptions C12_accepts.
Ltac reach := apply after_ex; [legalrun|let X := fresh in let Y := fresh in intro X; match type of X with ?r = _ => assert (Y : option_map snd r = None) by (now rewrite X); vm_compute in Y; discriminate Y end].
Example C12_accepts_ex : after limits1 junk1 heard1 (state_of heard1) (view_of heard1) /\ silence (state_of heard1) timeout /\ acceptable (heard (view_of heard1)) (sound (view_of heard1)) /\ wellSized (heard (view_of heard1)) /\
  forUs env1 (heard (view_of heard1)) /\ held (view_of heard1) = None /\ latest (view_of heard1) = None /\ Z.testbit (statusByte env1) 1 = true.
Proof.
  split; [unfold heard1; reach|]. split; [vm_compute; auto|]. split; [vm_compute; repeat split; lia|]. split; [vm_compute; reflexivity|]. split; [left; vm_compute; auto|]. vm_compute. auto.
Qed.
(** The length is not checked: a frame whose length field says 12 bytes but that has 9 is delivered and acknowledged. *)
Definition misSized : list Z := sum [0xBC; 0x11; 0x09; 0x0A; 0x03; 0xE4; 0x00; 0x81].
Theorem C12_length_refuted : exists l, legal_run limits1 l (begin junk1) /\ (exists os, events l = Some (os ++ [RxEnd; Deliver misSized; TxBegin true; TxByte 0xCC; TxEnd true])) /\ ~ wellSized misSized.
Proof.
  exists (start ++ hears misSized ++ waits 9). split; [legalrun|]. split; [|vm_compute; discriminate]. eexists. transitivity (Some (RxBegin [] :: map (fun c => RxByte c true) misSized ++ [RxEnd; Deliver misSized; TxBegin true; TxByte 0xCC; TxEnd true])).
  - vm_compute. reflexivity.
  - rewrite app_comm_cons. reflexivity.
Qed.
Print Assumptions C12_length_refuted.
(** Of a frame longer than 23 bytes the rest is ignored: it is delivered although its checksum is wrong. *)
Definition tooLong : list Z := sum [0xBC; 0x11; 0x09; 0x0A; 0x03; 0xEF; 0x00; 0x81; 1; 2; 3; 4; 5; 6; 7; 8; 9; 10; 11; 12; 13; 14] ++ [1; 2; 3; 4].
Theorem C12_long_refuted : exists l, legal_run limits1 l (begin junk1) /\ (exists os, events l = Some (os ++ [RxEnd; Deliver (firstn 23 tooLong); TxBegin true; TxByte 0xCC; TxEnd true])) /\ xor_all tooLong <> 255 /\ heard (view_of l) = tooLong.
Proof.
  exists (start ++ hears tooLong ++ waits 9). split; [legalrun|]. split; [|split; [vm_compute; discriminate|vm_compute; reflexivity]]. eexists. transitivity (Some (RxBegin [] :: map (fun c => RxByte c true) tooLong ++ [RxEnd; Deliver (firstn 23 tooLong); TxBegin true; TxByte 0xCC; TxEnd true])).
  - vm_compute. reflexivity.
  - rewrite app_comm_cons. reflexivity.
Qed.
Print Assumptions C12_long_refuted.

(** ** C13 *)
(** a repetition of the last delivered telegram: acknowledged, not delivered *)
Theorem C13_repetition L junk l b v e i t : limits_ok L -> after L junk l b v -> silence b i -> acceptable (heard v) (sound v) -> (length (heard v) <= largest)%nat -> forUs e (heard v) ->
  held v = None -> latest v = Some t -> repeats (heard v) t -> Z.testbit (statusByte e) 1 = true ->
  exists b1, bstep L b (Irq e i) = Some (b1, [RxEnd]) /\ forall ts, Forall tick ts -> length ts = 9%nat -> exists b2, bruns L ts b1 = Some (b2, [TxBegin true; TxByte 0xCC; TxEnd true]).
Proof.
  intros LO A S Ac Ll U Hd Lt Rp Lk. pose proof (after_inv L junk l b v LO A) as I.
  destruct (frame_end L e i v b I S Ac Ll U) as (b1 & E & Sb & Ab). destruct (silent_receiving L v b i I S) as (C & R & _). pose proof C as (Lr & _ & _ & _ & _ & (Hl & _ & Hb)). rewrite Hd in Hl. rewrite Hl in *. cbn [Nat.ltb Nat.leb orb] in *. rewrite Lk in *. cbn [negb] in *.
  rewrite Lt in Hb. destruct Hb as [Ht Hb].
  assert (Al : alreadyReceived (nextByteIndex b) (rxTel b) (telegram b) = true).
  { destruct R as (R1 & R2 & R3 & R4 & R5). destruct Ac as (Ac & _). apply (repeats_already v b (conj R1 (conj R2 (conj R3 (conj R4 R5)))) t Lr); [unfold largest in *; lia|exact Hb|]. rewrite R4, firstn_all2 by exact Ll. exact Rp. }
  rewrite Al in E. exists b1. split; [exact E|]. intros ts Ft Nt. destruct ts as [|o ts]; [discriminate|]. inversion Ft as [|? ? (e1 & i1 & -> & C1 & M1) Fr]; subst.
  cbn [bruns]. destruct (ack_start L e1 i1 b1 Sb C1) as (b2 & -> & S2 & A2). destruct (ack_sent L ts b2 S2) as (b3 & ->); [congruence|exact Fr|cbn in Nt; congruence|]. exists b3. reflexivity.
Qed.
Print Assumptions C13_repetition.
Definition group1r : list Z := sum [0x9C; 0x11; 0x09; 0x0A; 0x03; 0xE1; 0x00; 0x81].
Definition heard2 : list bop := start ++ hears group1 ++ waits 10 ++ [Discard] ++ irqs (flat_map byteIrqs group1r).
Example C13_repetition_ex : after limits1 junk1 heard2 (state_of heard2) (view_of heard2) /\ silence (state_of heard2) timeout /\ acceptable (heard (view_of heard2)) (sound (view_of heard2)) /\
  forUs env1 (heard (view_of heard2)) /\ held (view_of heard2) = None /\ latest (view_of heard2) = Some group1 /\ repeats (heard (view_of heard2)) group1.
Proof.
  split; [unfold heard2; reach|]. split; [vm_compute; auto|]. split; [vm_compute; repeat split; lia|]. split; [left; vm_compute; auto|]. split; [vm_compute; reflexivity|]. split; [vm_compute; reflexivity|].
  assert (E : heard (view_of heard2) = group1r) by (vm_compute; reflexivity). rewrite E. repeat split. intros k Hk. change (length group1r) with 9%nat in Hk. do 9 (destruct k as [|k]; [try reflexivity; try lia|]). lia.
Qed.
(** no repetition is ever delivered, in any history *)
Theorem C13_no_duplicate L junk v e f t : limits_ok L -> occurs L junk (Deliver f) v e -> latest v = Some t -> ~ repeats f t.
Proof. intros LO O Lt. pose proof (occurs_allowed L junk _ v e LO O) as (_ & _ & _ & _ & _ & H). auto. Qed.
Print Assumptions C13_no_duplicate.
Definition heard3 : list bop := start ++ hears group1 ++ waits 10 ++ [Discard] ++ irqs (flat_map byteIrqs group1).
Example C13_no_duplicate_ex : occurs limits1 junk1 (Deliver group1) (sees (view_of heard3) [RxEnd]) (Some env1) /\ latest (sees (view_of heard3) [RxEnd]) = Some group1.
Proof.
  split; [|vm_compute; reflexivity]. exocc heard3 (Deliver group1) ([RxEnd]).
Qed.
(** Everything else is delivered: C12_accepts, for frames as long as their length field says. Without that: a valid frame of 8 bytes is taken
    for a repetition of one of 9 bytes. *)
Definition shortened : list Z := sum [0x9C; 0x11; 0x09; 0x0A; 0x03; 0xE1; 0x00].
Theorem C13_malformed_refuted : exists l, legal_run limits1 l (begin junk1) /\ heard (view_of l) = shortened /\ acceptable shortened (sound (view_of l)) /\ forUs env1 shortened /\ latest (view_of l) = Some group1 /\ ~ repeats shortened group1 /\
  held (view_of l) = None /\ silence (state_of l) timeout /\ option_map snd (bstep limits1 (state_of l) (Irq env1 timeout)) = Some [RxEnd].
Proof.
  exists (start ++ hears group1 ++ waits 10 ++ [Discard] ++ irqs (flat_map byteIrqs shortened)). split; [legalrun|]. split; [vm_compute; reflexivity|]. split; [vm_compute; repeat split; lia|]. split; [left; vm_compute; auto|].
  split; [vm_compute; reflexivity|]. split; [intros (X & _); vm_compute in X; discriminate X|]. split; [vm_compute; reflexivity|]. split; [split; vm_compute; reflexivity|]. vm_compute. reflexivity.
Qed.
Print Assumptions C13_malformed_refuted.

(** ** C14 *)
Theorem C14_buffer_kept L junk l b v t : limits_ok L -> after L junk l b v -> held v = Some t -> telegramReceived b = true /\ telegramLen b = length t /\ firstn (telegramLen b) (telegram b) = t.
Proof.
  intros LO A H. destruct (after_inv L junk l b v LO A) as (x & (_ & _ & _ & _ & _ & (H1 & H2 & H3)) & _). rewrite (H2 t H) in H3. rewrite H in H1. destruct H3 as [Ht H3]. unfold telegramReceived. rewrite H1.
  split; [|auto]. destruct (Nat.eqb_spec (length t) 0); [lia|reflexivity].
Qed.
Print Assumptions C14_buffer_kept.
Theorem C14_no_overwrite L junk v e : limits_ok L -> (forall t, occurs L junk (Deliver t) v e -> held v = None) /\ (occurs L junk (TxBegin true) v e -> heldThen v = false).
Proof.
  intros LO. split; [intros t O; pose proof (occurs_allowed L junk _ v e LO O) as (_ & _ & _ & H & _); exact H|]. intros O. pose proof (occurs_allowed L junk _ v e LO O) as (_ & _ & H). exact H.
Qed.
Print Assumptions C14_no_overwrite.
Definition acking : list bop := start ++ hears group1.
Example C14_no_overwrite_ex : occurs limits1 junk1 (TxBegin true) (view_of acking) (Some env1) /\ held (view_of acking) = Some group1 /\ heldThen (view_of acking) = false.
Proof. split; [|split; vm_compute; reflexivity]. exocc acking (TxBegin true) (@nil bout). Qed.
(** a second telegram while the first is held: not acknowledged, and the first is still there *)
Definition group2 : list Z := sum [0xBC; 0x11; 0x09; 0x0A; 0x03; 0xE1; 0x00; 0x80].
Definition heard4 : list bop := start ++ hears group1 ++ waits 10 ++ hears group2 ++ waits 10.
Example C14_buffer_kept_ex : after limits1 junk1 heard4 (state_of heard4) (view_of heard4) /\ held (view_of heard4) = Some group1 /\ heard (view_of heard4) = group2 /\ heldThen (view_of heard4) = true /\ over (view_of heard4) = true.
Proof. split; [unfold heard4; reach|]. vm_compute. auto. Qed.

(** ** C15 *)
Theorem C15_transmissions L junk l b v : limits_ok L -> after L junk l b v -> job v <> None ->
  Z.of_nat (full v) <= Z.max 1 (sendRetriesMax L + sendBusyRetriesMax L) /\ (tried v <= full v + 4)%nat.
Proof.
  intros LO A J. destruct (after_inv L junk l b v LO A) as (x & C & P). pose proof C as (_ & _ & _ & _ & (Cc & Jo) & _). destruct (job v) as [[own t]|]; [|congruence]. destruct (sendCur b) as [f|]; [|contradiction].
  destruct Jo as (_ & _ & _ & _ & _ & _ & _ & F & T & _). split; [lia|].
  assert (X : (x = O \/ (x = 1%nat /\ collisions b <= 3))).
  { unfold phase, frameTx in P. destruct (state b); try (left; tauto).
    - destruct P as (_ & _ & [(-> & _)|(n & -> & (_ & _ & Co & _) & _)]); [auto|]. destruct n; auto.
    - destruct P as (_ & _ & [(-> & _)|(n & -> & (_ & _ & Co & _) & _)]); [auto|]. destruct n; auto.
    - destruct P as (_ & _ & [(-> & _)|(n & -> & (_ & _ & Co & _))]); auto.
    - destruct P as (_ & [(-> & _)|(-> & (_ & _ & Co & _))]); auto. }
  rewrite T. destruct X as [-> | [-> Co]]; lia.
Qed.
Print Assumptions C15_transmissions.
Example C15_transmissions_ex : after limits1 junk1 sending2 (state_of sending2) (view_of sending2) /\ job (view_of sending2) <> None /\ tried (view_of sending2) = 2%nat.
Proof. split; [unfold sending2; reach|]. split; [vm_compute; discriminate|]. vm_compute. reflexivity. Qed.
(** the report: of a telegram taken, successful iff the last thing heard, right after a transmission, was an acknowledge *)
Theorem C15_report L junk v e ok : limits_ok L -> occurs L junk (Report ok) v e -> job v <> None /\ (ok = true <-> acked v).
Proof. intros LO O. exact (occurs_allowed L junk _ v e LO O). Qed.
Print Assumptions C15_report.
Definition answered : list bop := start ++ [Send 0x1105 toSend 8; Kick] ++ waits 76 ++ irqs (byteIrqs 0xCC).
Example C15_report_ex : occurs limits1 junk1 (Report true) (sees (view_of answered) [RxEnd]) (Some env1).
Proof.
  exocc answered (Report true) ([RxEnd]).
Qed.
(** and an acknowledge is reported at once *)
Theorem C15_acknowledged L junk l b v e i : limits_ok L -> after L junk l b v -> silence b i -> asked v = true -> heard v = [0xCC] -> sound v = true ->
  exists b1 os, bstep L b (Irq e i) = Some (b1, RxEnd :: Report true :: os).
Proof. intros LO A. apply acked_reported. now apply (after_inv L junk l). Qed.
Print Assumptions C15_acknowledged.
Example C15_acknowledged_ex : after limits1 junk1 answered (state_of answered) (view_of answered) /\ silence (state_of answered) timeout /\ asked (view_of answered) = true /\ heard (view_of answered) = [0xCC] /\ sound (view_of answered) = true.
Proof. split; [unfold answered; reach|]. split; [split; vm_compute; reflexivity|]. vm_compute. auto. Qed.
(** exactly one report for each telegram taken but the one in hand *)
Definition isTaken (x : bout) : bool := match x with Taken _ _ => true | _ => false end.
Definition isReport (x : bout) : bool := match x with Report _ => true | _ => false end.
Definition number (p : bout -> bool) (os : list bout) : nat := length (filter p os).
Definition pendingJob (v : view) : nat := match job v with None => 0 | Some _ => 1 end.
Lemma count_step L e v os : permitted L e v os -> (number isTaken os + pendingJob v = number isReport os + pendingJob (sees v os))%nat.
Proof.
  revert v. induction os as [|o r IH]; intros v; [reflexivity|]. cbn [permitted]. intros [A P]. apply IH in P. change (sees v (o :: r)) with (sees (see v o) r). unfold number in *. cbn [filter].
  destruct o; cbn [isTaken isReport]; cbv iota; cbn [length]; try exact P.
  - unfold see in *. destruct (on v) as [[? ?]|]; exact P.
  - destruct A as [A _]. unfold pendingJob in *. rewrite A. cbn [see job] in *. lia.
  - destruct A as [A _]. unfold pendingJob in *. cbn [see job] in *. destruct (job v); [lia|congruence].
Qed.
Theorem C15_one_report L junk l b os : limits_ok L -> legal_run L l (begin junk) -> bruns L l (begin junk) = Some (b, os) ->
  (number isTaken os = number isReport os + pendingJob (sees view0 os))%nat.
Proof.
  intros LO. assert (G : forall l v b0 b os, inv L v b0 -> legal_run L l b0 -> bruns L l b0 = Some (b, os) -> (number isTaken os + pendingJob v = number isReport os + pendingJob (sees v os))%nat).
  { clear l b os. induction l as [|o r IH]; intros v b0 b os I Lr E; cbn [bruns] in E; [injection E as <- <-; reflexivity|]. destruct Lr as [Lo Lr]. pose proof (step_good L v b0 o LO Lo I) as G. unfold good in G.
    destruct (bstep L b0 o) as [[b1 os1]|]; [|contradiction]. destruct G as [P I1]. specialize (Lr _ _ eq_refl). unfold also in E. destruct (bruns L r b1) as [[b2 os2]|] eqn:E2; [|discriminate]. cbn in E. injection E as <- <-.
    pose proof (count_step L _ v os1 P) as C1. pose proof (IH _ _ _ _ I1 Lr E2) as C2. unfold number in *. rewrite !filter_app, !app_length, sees_app. lia. }
  intros Lr E. pose proof (G l view0 _ _ _ (begin_inv L junk) Lr E) as H. unfold pendingJob at 1 in H. cbn [job view0] in H. lia.
Qed.
Print Assumptions C15_one_report.
Example C15_one_report_ex : legal_run limits1 (answered ++ waits 3 ++ [Send 0x1105 toSend 8; Kick] ++ waits 20) (begin junk1) /\
  option_map (fun p => (number isTaken (snd p), number isReport (snd p))) (bruns limits1 (answered ++ waits 3 ++ [Send 0x1105 toSend 8; Kick] ++ waits 20) (begin junk1)) = Some (2%nat, 1%nat).
Proof. split; [unfold answered; legalrun|]. vm_compute. reflexivity. Qed.
(** and on a bus that stays silent it comes: whatever the state, after sufficiently many timer interrupts ([Kick]: the end of sendTelegram) *)
Theorem C15_finishes L junk l b v : limits_ok L -> after L junk l b v -> job v <> None ->
  exists n, forall ts, Forall quiet ts -> (n <= length ts)%nat -> exists b1 os, bruns L (Kick :: ts) b = Some (b1, os) /\ reported os.
Proof.
  intros LO A J. pose proof (after_inv L junk l b v LO A) as I. pose proof (step_good L v b Kick LO Logic.I I) as G. cbn [bstep good] in G. destruct G as [_ I1].
  assert (K : bitsOk b). { destruct A as (_ & os & E & _). pose proof (bruns_bitsOk L l _ (begin_bitsOk junk)) as K. rewrite E in K. exact K. }
  pose proof (step_bitsOk L b Kick K) as K1. cbn [bstep okResult] in K1. cbn [bruns bstep]. set (b1 := match state b with IDLE => _ | _ => _ end) in *.
  assert (N : state b1 <> IDLE) by (unfold b1; destruct (state b) eqn:S; unfold startSendingImmediately; fields; rewrite ?S; discriminate).
  exists (S (measure L v b1)). intros ts Q Ln. destruct (ticks_report L LO (measure L v b1) v b1 (le_n _) I1 K1 J N ts Q ltac:(lia)) as (b2 & os & -> & R). exists b2, os. split; [reflexivity|exact R].
Qed.
Print Assumptions C15_finishes.
Example C15_finishes_ex : after limits1 junk1 sending2 (state_of sending2) (view_of sending2) /\ job (view_of sending2) <> None /\ Forall quiet (waits 1000) /\
  option_map (fun p => existsb isReport (snd p)) (bruns limits1 (Kick :: waits 1000) (state_of sending2)) = Some true.
Proof.
  split; [unfold sending2; reach|]. split; [vm_compute; discriminate|]. split; [|vm_compute; reflexivity].
  unfold waits, irqs. apply Forall_map, Forall_forall. intros x Hx. apply repeat_spec in Hx. subst x. exists env1, timeout. split; [reflexivity|]. split; [apply env1_ok|]. repeat split; discriminate.
Qed.
