(** Proofs for the Sensirion sensors *)
From Verif Require Import Base Bits I2c_Model I2c_Spec I2c_Proofs I2c_Props I2c_Det Sht_Model Sht_Spec.
From Verif Require CRC_Model CRC_Spec CRC_Proofs.

(** ** Checksum *)
Lemma crc_byte i b0 b1 : is_byte i -> is_byte b0 -> is_byte b1 -> is_byte (CRC_Model.sensirion_crc8 i [b0; b1]).
Proof. intros I A B. apply CRC_Proofs.sensirion_remainder; auto. Qed.
Lemma msb_inj x y : is_byte x -> is_byte y -> CRC_Spec.bits_msb 8 x = CRC_Spec.bits_msb 8 y -> x = y.
Proof. intros X Y E. unfold CRC_Spec.bits_msb in E. apply (f_equal (@rev bool)) in E. rewrite !rev_involutive in E. apply (CRC_Proofs.bits_inj 8); auto. Qed.
Lemma fits_iff i b0 b1 c : is_byte i -> is_byte b0 -> is_byte b1 -> is_byte c -> fits i b0 b1 c <-> c = CRC_Model.sensirion_crc8 i [b0; b1].
Proof.
  intros I A B C. destruct (CRC_Proofs.sensirion_remainder i [b0; b1] I ltac:(auto)) as (E & BY). unfold fits. rewrite <- E. split; [apply msb_inj; auto|intros ->; reflexivity].
Qed.
Definition sbit (c : Z) : Z := u8 (if Z.land c 0x80 =? 0 then Z.shiftl c 1 else Z.lxor (Z.shiftl c 1) 0x31).
Lemma sbits n c : CRC_Model.sensirionBits (Datatypes.S n) c = CRC_Model.sensirionBits n (sbit c).
Proof. reflexivity. Qed.
Lemma sbit_byte c : is_byte (sbit c).
Proof. unfold sbit, u8, is_byte. apply Z.mod_pos_bound. lia. Qed.
Lemma sbit_linear x y : is_byte x -> is_byte y -> sbit (Z.lxor x y) = Z.lxor (sbit x) (sbit y).
Proof.
  intros X Y. assert (H : forallb (fun x => forallb (fun y => sbit (Z.lxor x y) =? Z.lxor (sbit x) (sbit y)) bytes256) bytes256 = true) by (vm_compute; reflexivity).
  pose proof (byte_forall _ H x X) as H1. cbv beta in H1. pose proof (byte_forall _ H1 y Y) as H2. cbv beta in H2. apply Z.eqb_eq in H2. exact H2.
Qed.
Lemma sbits_linear n : forall x y, is_byte x -> is_byte y -> CRC_Model.sensirionBits n (Z.lxor x y) = Z.lxor (CRC_Model.sensirionBits n x) (CRC_Model.sensirionBits n y).
Proof. induction n as [|n IH]; intros x y X Y; [reflexivity|]. rewrite !sbits, sbit_linear by auto. apply IH; apply sbit_byte. Qed.
Lemma sbits_byte n : forall x, is_byte x -> is_byte (CRC_Model.sensirionBits n x).
Proof. induction n as [|n IH]; intros x X; [exact X|]. rewrite sbits. apply IH, sbit_byte. Qed.
Lemma crc_linear i a b a' b' : is_byte i -> is_byte a -> is_byte b -> is_byte a' -> is_byte b' ->
  Z.lxor (CRC_Model.sensirion_crc8 i [a; b]) (CRC_Model.sensirion_crc8 i [a'; b']) = CRC_Model.sensirionBits 8 (Z.lxor (CRC_Model.sensirionBits 8 (Z.lxor a a')) (Z.lxor b b')).
Proof.
  intros I A B A' B'. unfold CRC_Model.sensirion_crc8. cbn [fold_left]. assert (L : forall x y, is_byte x -> is_byte y -> is_byte (Z.lxor x y)) by (intros; apply lxor_byte; auto). pose proof (fun x X => sbits_byte 8 x X) as SB.
  rewrite <- sbits_linear by auto. f_equal. replace (Z.lxor a a') with (Z.lxor (Z.lxor i a) (Z.lxor i a')) by (apply Z.bits_inj; intros k; rewrite !Z.lxor_spec; destruct (Z.testbit i k), (Z.testbit a k), (Z.testbit a' k); reflexivity). rewrite (sbits_linear 8 (Z.lxor i a) (Z.lxor i a')) by auto.
  generalize (CRC_Model.sensirionBits 8 (Z.lxor i a)), (CRC_Model.sensirionBits 8 (Z.lxor i a')). intros p q. apply Z.bits_inj. intros k. rewrite !Z.lxor_spec. destruct (Z.testbit p k), (Z.testbit q k), (Z.testbit b k), (Z.testbit b' k); reflexivity.
Qed.
(** number of ones *)
Definition ones (z : Z) : nat := length (filter (Z.testbit z) [0; 1; 2; 3; 4; 5; 6; 7]).
Lemma differing_ones x y : differing x y = ones (Z.lxor x y).
Proof. unfold differing, ones. f_equal. apply filter_ext. intros i. rewrite Z.lxor_spec. reflexivity. Qed.
Lemma weight d1 d2 : is_byte d1 -> is_byte d2 -> (d1 = 0 /\ d2 = 0) \/ (4 <= ones d1 + ones d2 + ones (CRC_Model.sensirionBits 8 (Z.lxor (CRC_Model.sensirionBits 8 d1) d2)))%nat.
Proof.
  intros A B. assert (H : forallb (fun x => let t := CRC_Model.sensirionBits 8 x in forallb (fun y => ((x =? 0) && (y =? 0)) || (4 <=? ones x + ones y + ones (CRC_Model.sensirionBits 8 (Z.lxor t y)))%nat) bytes256) bytes256 = true) by (vm_compute; reflexivity).
  pose proof (byte_forall _ H d1 A) as H1. cbv beta zeta in H1. pose proof (byte_forall _ H1 d2 B) as H2. cbv beta in H2. apply orb_prop in H2. destruct H2 as [H2|H2]; [left; apply andb_prop in H2; lia|right; apply Nat.leb_le; exact H2].
Qed.

(** ** Transfers: politeness, bytes *)
Lemma polite_transfer a tx n tr o k l : transfer a tx n tr o k l -> Forall (polite a (fun b => In b tx)) tr.
Proof.
  assert (E : forall o, Forall (polite a (fun b => In b tx)) (ending o)) by (intros o'; destruct o'; cbn; repeat constructor).
  assert (W : forall l, incl l tx -> Forall (polite a (fun b => In b tx)) (map (fun c => Wr c Ack) l)) by (intros l0 I0; apply Forall_forall; intros e H; apply in_map_iff in H; destruct H as (c & <- & H); exact (I0 _ H)).
  assert (R : forall l, Forall (polite a (fun b => In b tx)) (map (fun c => Rd c true) l)) by (intros l0; apply Forall_forall; intros e H; apply in_map_iff in H; destruct H as (c & <- & H); exact Logic.I).
  assert (SD : forall tr o k, sending a tx tr o k -> Forall (polite a (fun b => In b tx)) tr).
  { intros tr' o' k' H. inversion H as [o1 NA|l1 b1 r1 o1 TE NA|]; subst; rewrite ?Forall_app.
    - repeat constructor.
    - split; [repeat constructor|]. split; [apply W; intros x; rewrite in_app_iff; auto|]. constructor; [|constructor]. cbn. rewrite in_app_iff. right. left. reflexivity.
    - split; [repeat constructor|]. apply W. intros x; auto. }
  assert (RC : forall tr o l, receiving a n tr o l -> Forall (polite a (fun b => In b tx)) tr).
  { intros tr' o' l' H. inversion H as [o1 NA|l1 lost L1|l1 b1 L1]; subst; rewrite ?Forall_app.
    - repeat constructor.
    - split; [repeat constructor|]. split; [apply R|repeat constructor].
    - split; [repeat constructor|]. split; [apply R|repeat constructor]. }
  intros T. inversion T; subst; rewrite ?Forall_app; eauto.
Qed.
Lemma polite_lost a tx rw j : Forall (polite a (fun b => In b tx)) (concat (repeat [Start; Addr a rw Lost] j)).
Proof. induction j as [|j IH]; [constructor|]. cbn [repeat concat app]. repeat (constructor; [cbn; auto|]). exact IH. Qed.
Lemma polite_mono a (p q : Z -> Prop) tr : (forall b, p b -> q b) -> Forall (polite a p) tr -> Forall (polite a q) tr.
Proof. intros PQ. apply Forall_impl. intros []; cbn; auto. Qed.
Lemma plays_bytes {S} (w : bus S) l : forall s r t, plays w s (map (fun b => Rd b true) l ++ r) t -> Forall is_byte l /\ exists s', plays w s' r t.
Proof.
  induction l as [|b l IH]; intros s r t P; [split; [constructor|exists s; exact P]|]. cbn [map app plays] in P. destruct P as (s1 & b0 & E & -> & P). destruct (IH _ _ _ P) as (F & s' & P'). split; [|exists s'; exact P']. constructor; [apply Z.mod_pos_bound; lia|exact F].
Qed.
Lemma receiving_bytes {S} (w : bus S) a n tr o l s r t : receiving a n tr o l -> plays w s (tr ++ r) t -> Forall is_byte l.
Proof.
  intros H P. inversion H as [o1 NA|l1 lost L1|l1 b1 L1]; subst; [constructor| |]; rewrite <- !app_assoc in P; cbn [app plays] in P; destruct P as (s1 & E & P); apply plays_bytes in P; destruct P as (F & s2 & P); [exact F|].
  cbn [app plays] in P. destruct P as (s3 & b0 & _ & -> & _). apply Forall_app. split; [exact F|]. constructor; [apply Z.mod_pos_bound; lia|constructor].
Qed.
Lemma transfer_bytes {S} (w : bus S) a tx n tr o k l s t : transfer a tx n tr o k l -> plays w s tr t -> Forall is_byte l.
Proof.
  intros T P. inversion T as [tr0 o0 l0 TX N RC|tr0 o0 k0 TX N SD|tr1 tr2 o0 k0 l0 TX N SD RC]; subst; [eapply receiving_bytes; eassumption|constructor|].
  destruct (sending_det w _ _ _ _ _ _ _ _ SD P) as (s' & _ & P'). eapply receiving_bytes; eassumption.
Qed.
Lemma lost_inv {S} (w : bus S) pre : forall s r t, plays w s (pre ++ r) t -> exists s', plays w s pre s' /\ plays w s' r t.
Proof.
  induction pre as [|e tr IH]; intros s r t P; [exists s; split; [reflexivity|exact P]|]. cbn [app plays] in *. destruct e; try (exact (IH _ _ _ P)).
  - destruct P as (s1 & E & P). destruct (IH _ _ _ P) as (s' & P1 & P2). exists s'. split; [exists s1; auto|exact P2].
  - destruct P as (s1 & E & P). destruct (IH _ _ _ P) as (s' & P1 & P2). exists s'. split; [exists s1; auto|exact P2].
  - destruct P as (s1 & b0 & E & EB & P). destruct (IH _ _ _ P) as (s' & P1 & P2). exists s'. split; [exists s1, b0; auto|exact P2].
  - destruct P as (s1 & E & P). destruct (IH _ _ _ P) as (s' & P1 & P2). exists s'. split; [exists s1; auto|exact P2].
Qed.

(** ** Calls *)
Lemma call_read {S} (w : bus S) m h a cmd size n : only_at_start w cmd -> idle h -> 0 <= a < 128 -> (0 < n <= size)%nat ->
  MasterWriteRead w m h a cmd size (Z.of_nat (length cmd)) (Z.of_nat n) = Hang \/
  exists pre tr o k l h', MasterWriteRead w m h a cmd size (Z.of_nat (length cmd)) (Z.of_nat n) = Done (h', Z.of_nat (length l), l) /\ (length l <= n)%nat /\ (o = Ack <-> length l = n) /\ log h' = log h ++ pre ++ tr /\
    plays w (world h) (pre ++ tr) (world h') /\ transfer a cmd n tr o k l /\ idle h' /\ Forall (polite a (fun b => In b cmd)) (pre ++ tr) /\ Forall is_byte l.
Proof.
  intros ST I A N. pose proof (C98_read_partial w m h a cmd size n ST I A N) as H. cbv zeta in H.
  assert (E : match cmd with [] => MasterRead w m h a size (Z.of_nat n) | [c] => MasterCmdRead w m h a c size (Z.of_nat n) | _ => MasterWriteRead w m h a cmd size (Z.of_nat (length cmd)) (Z.of_nat n) end = MasterWriteRead w m h a cmd size (Z.of_nat (length cmd)) (Z.of_nat n)) by (destruct cmd as [|c [|c2 r]]; reflexivity).
  rewrite E in H. clear E. destruct H as [H|(j & tr & o & k & l & h' & NL & H & LE & AK & J & L & P & T & I')]; [left; exact H|right].
  exists (concat (repeat [Start; Addr a match cmd with [] => true | _ => false end Lost] j)), tr, o, k, l, h'. split; [exact H|]. split; [exact LE|]. split; [exact AK|]. split; [exact L|]. split; [exact P|]. split; [exact T|]. split; [exact I'|]. split; [apply Forall_app; split; [apply polite_lost|eapply polite_transfer; exact T]|].
  destruct (lost_inv w _ _ _ _ P) as (s' & _ & P'). eapply transfer_bytes; eassumption.
Qed.
Lemma call_send {S} (w : bus S) m h a buff : only_at_start w buff -> idle h -> 0 <= a < 128 -> buff <> [] -> (length buff <= 255)%nat ->
  MasterSend w m h a buff (Z.of_nat (length buff)) = Hang \/
  exists pre tr o k h', o <> Lost /\ MasterSend w m h a buff (Z.of_nat (length buff)) = Done (h', Z.of_nat k) /\ log h' = log h ++ pre ++ tr /\
    plays w (world h) (pre ++ tr) (world h') /\ transfer a buff 0 tr o k [] /\ idle h' /\ Forall (polite a (fun b => In b buff)) (pre ++ tr).
Proof.
  intros ST I A NE LN. assert (LB : (0 < length buff)%nat) by (destruct buff; [destruct (NE eq_refl)|cbn; lia]).
  assert (F : firstn (Z.to_nat (Z.of_nat (length buff))) buff = buff) by (rewrite Nat2Z.id; apply firstn_all).
  pose proof (C98_send_partial w m h a buff (Z.of_nat (length buff))) as H. rewrite F in H. destruct (H ST I A ltac:(lia) ltac:(lia)) as [E|(j & tr & o & k & h' & NL & E & J & L & P & T & I')]; [left; exact E|right].
  exists (concat (repeat [Start; Addr a false Lost] j)), tr, o, k, h'. split; [exact NL|]. split; [exact E|]. split; [exact L|]. split; [exact P|]. split; [exact T|]. split; [exact I'|]. apply Forall_app; split; [apply polite_lost|eapply polite_transfer; exact T].
Qed.
Lemma oas {S} (w : bus S) b r tx : only_at_start w (b :: r) -> only_at_start w tx.
Proof. intros (A & B & C). split; [intros s a _; apply A; discriminate|split; assumption]. Qed.

(** ** Words and values *)
Lemma shl8 hi lo : is_byte hi -> is_byte lo -> Z.lor (Z.shiftl hi 8) lo = 256 * hi + lo.
Proof.
  intros H L. assert (X : forallb (fun hi => forallb (fun lo => Z.lor (Z.shiftl hi 8) lo =? 256 * hi + lo) bytes256) bytes256 = true) by (vm_compute; reflexivity).
  pose proof (byte_forall _ X hi H) as H1. cbv beta in H1. pose proof (byte_forall _ H1 lo L) as H2. cbv beta in H2. apply Z.eqb_eq in H2. exact H2.
Qed.
Lemma shl8_range hi : is_byte hi -> u16 (Z.shiftl hi 8) = Z.shiftl hi 8.
Proof. intros H. unfold is_byte in H. unfold u16. apply Z.mod_small. rewrite Z.shiftl_mul_pow2 by lia. change (2 ^ 8) with 256. lia. Qed.
Lemma word_val hi lo : is_byte hi -> is_byte lo -> word hi lo = 256 * hi + lo.
Proof. intros H L. unfold word. rewrite shl8_range, shl8 by auto. unfold is_byte, u16 in *. apply Z.mod_small. lia. Qed.
Lemma status_bits v b0 b1 : is_byte b0 -> is_byte b1 -> v = 256 * b0 + b1 -> Z.land v 0xFFFC = signal b0 b1 /\ (Z.land v 2 =? 0) = (b1 / 2 mod 2 =? 0).
Proof.
  intros A B ->. assert (X : forallb (fun b0 => forallb (fun b1 => (Z.land (256 * b0 + b1) 0xFFFC =? 256 * b0 + (b1 - b1 mod 4)) && Bool.eqb (Z.land (256 * b0 + b1) 2 =? 0) (b1 / 2 mod 2 =? 0)) bytes256) bytes256 = true) by (vm_compute; reflexivity).
  pose proof (byte_forall _ X b0 A) as H1. cbv beta in H1. pose proof (byte_forall _ H1 b1 B) as H2. cbv beta in H2. apply andb_prop in H2. destruct H2 as (H2 & H3). apply Z.eqb_eq in H2. apply eqb_prop in H3. split; assumption.
Qed.
Lemma signal_range b0 b1 : is_byte b0 -> is_byte b1 -> 0 <= signal b0 b1 <= 65532.
Proof. unfold is_byte, signal. intros A B. pose proof (Z.div_mod b1 4 ltac:(lia)). pose proof (Z.mod_pos_bound b1 4 ltac:(lia)). lia. Qed.
Lemma temperature_ok b0 b1 : is_byte b0 -> is_byte b1 -> 256 * b0 + b1 <> 0 -> ~ is_humidity b1 -> temperature_is b0 b1 (temperatureOf (256 * b0 + b1)).
Proof.
  intros A B NZ ST. unfold temperatureOf, temperature_is, is_humidity in *. destruct (status_bits _ b0 b1 A B eq_refl) as (-> & ->). pose proof (signal_range b0 b1 A B) as R. rewrite (proj2 (Z.eqb_neq _ _) NZ).
  assert (b1 / 2 mod 2 = 0) as -> by (pose proof (Z.mod_pos_bound (b1 / 2) 2 ltac:(lia)); lia). cbn [Z.eqb negb orb]. rewrite Z.quot_div_nonneg by lia. pose proof (Z.div_mod (17572 * signal b0 b1) 65536 ltac:(lia)). pose proof (Z.mod_pos_bound (17572 * signal b0 b1) 65536 ltac:(lia)). lia.
Qed.
Lemma humidity_ok b0 b1 : is_byte b0 -> is_byte b1 -> is_humidity b1 -> humidity_is b0 b1 (humidityOf (256 * b0 + b1)).
Proof.
  intros A B ST. unfold humidityOf, humidity_is, is_humidity in *. destruct (status_bits _ b0 b1 A B eq_refl) as (-> & ->). pose proof (signal_range b0 b1 A B) as R. rewrite ST. assert (256 * b0 + b1 <> 0) as NZ by (unfold is_byte in *; intros Z0; assert (b1 = 0) by lia; subst; discriminate). rewrite (proj2 (Z.eqb_neq _ _) NZ). cbn [Z.eqb orb].
  assert (U : u32 (12500 * signal b0 b1) = 12500 * signal b0 b1) by (unfold u32; apply Z.mod_small; lia). rewrite U. pose proof (Z.div_mod (12500 * signal b0 b1) 65536 ltac:(lia)). pose proof (Z.mod_pos_bound (12500 * signal b0 b1) 65536 ltac:(lia)).
  set (q := 12500 * signal b0 b1 / 65536) in *. assert (Q : 0 <= q <= 12499) by lia. assert (V : s32 (u32 (q - 600)) = q - 600) by (unfold s32, u32; rewrite Z.mod_mod by lia; destruct (Z.lt_ge_cases q 600); [replace (q - 600) with (q - 600 + 4294967296 + (-1) * 4294967296) by lia; rewrite Z.mod_add, Z.mod_small by lia; destruct (Z.ltb_spec (q - 600 + 4294967296) 2147483648); lia|rewrite Z.mod_small by lia; destruct (Z.ltb_spec (q - 600) 2147483648); lia]). rewrite V. lia.
Qed.
Lemma checked_ok b0 b1 c : is_byte b0 -> is_byte b1 -> is_byte c -> (fits 0 b0 b1 c /\ checked [b0; b1; c] = 256 * b0 + b1) \/ (~ fits 0 b0 b1 c /\ checked [b0; b1; c] = 0).
Proof.
  intros A B C. rewrite (fits_iff 0 b0 b1 c) by (auto; unfold is_byte; lia). unfold checked, rd. cbn [firstn nth]. destruct (Z.eqb_spec (CRC_Model.sensirion_crc8 0 [b0; b1]) c) as [E|E]; [left|right; split; [intros ->; auto|reflexivity]]. split; [auto|]. cbn [negb]. rewrite Z.shiftl_0_r, shl8 by auto. unfold u16, is_byte in *. apply Z.mod_small. lia.
Qed.
