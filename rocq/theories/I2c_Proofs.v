(** Proofs for C98 *)
From Verif Require Import Base Bits I2c_Model I2c_Spec.

Section P.
Context {S : Type}.
Variable w : bus S.
(** a new status, SI set *)
Definition fresh (k : bool) (c d : Z) (s : S) (lg : list ev) : hw S := mkHw false false true k true c d s lg.
(** SI cleared by the driver *)
Definition going (k : bool) (c d : Z) (s : S) (lg : list ev) : hw S := mkHw false false false k true c d s lg.
(** the driver has ended the transfer *)
Definition closed (o : answer) (c d : Z) (s : S) (lg : list ev) : hw S := mkHw false (match o with Lost => false | _ => true end) false false true c d s lg.
Definition handled (n : nat) (h : hw S) (x : xfer) : res (hw S * xfer) :=
  match handleMasterXferState h x with Done (h, x, _) => polling w n h x | Fault => Fault | Hang => Hang end.
Lemma polling_step n h x : xstatus x = BUSY -> polling w (Datatypes.S n) h x = if si (advance w h) then handled n (advance w h) x else polling w n (advance w h) x.
Proof. intros E. cbn [polling]. rewrite E. reflexivity. Qed.
Lemma polling_end n h x : xstatus x <> BUSY -> polling w n h x = Done (h, x).
Proof. intros E. destruct n; cbn [polling]; destruct (xstatus x); try reflexivity; destruct (E eq_refl). Qed.
Lemma plays_app s tr1 tr2 s1 s2 : plays w s tr1 s1 -> plays w s1 tr2 s2 -> plays w s (tr1 ++ tr2) s2.
Proof.
  revert s. induction tr1 as [|e tr1 IH]; intros s P1 P2; cbn [app plays] in *; [subst; exact P2|].
  destruct e; [apply IH; assumption| | | | |apply IH; assumption].
  - destruct P1 as (t & A & B). exists t. split; [exact A|]. apply IH; assumption.
  - destruct P1 as (t & A & B). exists t. split; [exact A|]. apply IH; assumption.
  - destruct P1 as (t & b0 & A & B & C). exists t, b0. split; [exact A|]. split; [exact B|]. apply IH; assumption.
  - destruct P1 as (t & A & B). exists t. split; [exact A|]. apply IH; assumption.
Qed.
(** the code of a failed byte *)
Definition failcode (o : answer) (c : Z) : Prop := match o with Nak => c = 0x20 \/ c = 0x30 \/ c = 0x48 | Lost => c = 0x38 | Error => c = 0x00 | Ack => False end.
Lemma handled_fail n o k c d s lg x : failcode o c -> xstatus x = BUSY -> handled n (fresh k c d s lg) x = Done (closed o c d s lg, setStatus x (outcome o)).
Proof.
  intros F B. unfold handled. destruct o; cbn [failcode] in F; [destruct F|destruct F as [-> |[-> | ->]]|subst c|subst c]; destruct k; (match goal with |- match ?t with _ => _ end = _ => let v := eval lazy in t in change t with v end); cbv iota; rewrite polling_end by discriminate; reflexivity.
Qed.
(** the wait for the STOP *)
Definition settle (h : hw S) (x : xfer) : res (hw S * xfer) := let h := if sto h then advance w h else h in if sto h then Hang else Done (h, x).
Lemma settle_ok o c d s lg x : (failcode o c \/ (o = Ack /\ (c = 0x18 \/ c = 0x28 \/ c = 0x58))) ->
  exists h', settle (closed o c d s lg) x = Done (h', x) /\ idle h' /\ log h' = lg ++ ending o /\ plays w s (ending o) (world h').
Proof.
  intros F. destruct o; cbn [failcode] in F.
  - destruct F as [[]|(_ & F)]. destruct F as [-> |[-> | ->]]; (eexists; split; [reflexivity|]; split; [left; reflexivity|]; split; reflexivity).
  - destruct F as [F|(F & _)]; [|discriminate]. destruct F as [-> |[-> | ->]]; (eexists; split; [reflexivity|]; split; [left; reflexivity|]; split; reflexivity).
  - destruct F as [-> |(F & _)]; [|discriminate]. eexists. split; [reflexivity|]. split; [right; reflexivity|]. cbn [log world ending]. rewrite app_nil_r. split; reflexivity.
  - destruct F as [-> |(F & _)]; [|discriminate]. eexists. split; [reflexivity|]. split; [left; reflexivity|]. cbn [log world ending]. rewrite app_nil_r. split; [cbn; rewrite app_nil_r; reflexivity|reflexivity].
Qed.

(** ** Steps *)
Definition addrByte (x : xfer) : Z := u8 (Z.lor (Z.shiftl (slaveAddr x) 1) (if txSz x =? 0 then 1 else 0)).
Lemma step_start n c d s lg x : xstatus x = BUSY -> c = 0xF8 \/ c = 0x38 -> polling w (Datatypes.S n) (mkHw true false false false true c d s lg) x = polling w n (going false 0x08 (addrByte x) (start w s) (lg ++ [Start])) x.
Proof. intros B C. rewrite polling_step by exact B. assert (E : advance w (mkHw true false false false true c d s lg) = mkHw true false true false true 0x08 d (start w s) (lg ++ [Start])) by (destruct C as [-> | ->]; reflexivity). rewrite E. cbn [si]. unfold handled, handleMasterXferState, finish. cbn -[addrByte polling]. rewrite B. cbn -[addrByte polling]. reflexivity. Qed.
Lemma step_again n c d s lg x : xstatus x = BUSY -> c = 0x18 \/ c = 0x28 -> polling w (Datatypes.S n) (mkHw true false false false true c d s lg) x = polling w n (going false 0x10 (addrByte x) (start w s) (lg ++ [Start])) x.
Proof. intros B C. rewrite polling_step by exact B. assert (E : advance w (mkHw true false false false true c d s lg) = mkHw true false true false true 0x10 d (start w s) (lg ++ [Start])) by (destruct C as [-> | ->]; reflexivity). rewrite E. cbn [si]. unfold handled, handleMasterXferState, finish. cbn -[addrByte polling]. rewrite B. cbn -[addrByte polling]. reflexivity. Qed.
(** an answer to the address or a byte sent *)
Definition answered (acked refused : Z) (o : answer) : Z := match o with Ack => acked | Nak => refused | Lost => 0x38 | Error => 0x00 end.
Lemma addr_byte a r : 0 <= a < 128 -> let d := u8 (Z.lor (Z.shiftl a 1) (if r : bool then 1 else 0)) in Z.shiftr d 1 = a /\ Z.testbit d 0 = r.
Proof.
  intros A. cbv zeta. assert (E : Z.lor (Z.shiftl a 1) (if r then 1 else 0) = 2 * a + (if r then 1 else 0)). { rewrite lor_shiftl_add by (destruct r; lia). lia. }
  rewrite E. unfold u8. rewrite Z.mod_small by (destruct r; lia). split.
  - rewrite Z.shiftr_div_pow2 by lia. change (2 ^ 1) with 2. destruct r; Z.div_mod_to_equations; lia.
  - destruct r; [apply Z.testbit_odd_0|rewrite Z.add_0_r; apply Z.testbit_even_0].
Qed.
Lemma step_addr n c s lg x : xstatus x = BUSY -> 0 <= slaveAddr x < 128 -> c = 0x08 \/ c = 0x10 -> let read := txSz x =? 0 in
  exists s1 o d, select w s (slaveAddr x) read = (s1, o) /\ polling w (Datatypes.S n) (going false c (addrByte x) s lg) x = handled n (fresh false (if read then answered 0x40 0x48 o else answered 0x18 0x20 o) d s1 (lg ++ [Addr (slaveAddr x) read o])) x.
Proof.
  intros B A C read. destruct (addr_byte (slaveAddr x) read A) as (A1 & A2). fold (addrByte x) in A1, A2. destruct (select w s (slaveAddr x) read) as (s1, o) eqn:E. exists s1, o, (addrByte x). split; [reflexivity|]. rewrite polling_step by exact B.
  assert (H : advance w (going false c (addrByte x) s lg) = fresh false (if read then answered 0x40 0x48 o else answered 0x18 0x20 o) (addrByte x) s1 (lg ++ [Addr (slaveAddr x) read o])).
  { unfold advance, going. cbn [si i2en orb negb stat]. replace ((c =? 0xF8) || (c =? 0x38)) with false by (destruct C as [-> | ->]; reflexivity). replace ((c =? 0x08) || (c =? 0x10)) with true by (destruct C as [-> | ->]; reflexivity). cbn [dat world]. cbv zeta. unfold addrByte in *. fold read in A1, A2 |- *. rewrite A1, A2. destruct read; rewrite E; cbn [fst snd]; destruct o; reflexivity. }
  rewrite H. reflexivity.
Qed.
(** ** Sending *)
Lemma handled_byte n c d s lg a b r sz rx rm rs : c = 0x18 \/ c = 0x28 -> sz <> 0 ->
  exists s1 o, accept w s b = (s1, o) /\ handled (Datatypes.S n) (fresh false c d s lg) (mkXfer a (b :: r) sz rx rm rs BUSY) =
    handled n (fresh false (answered 0x28 0x30 o) b s1 (lg ++ [Wr b o])) (mkXfer a r (sz - 1) rx rm rs BUSY).
Proof.
  intros C SZ. destruct (accept w s b) as (s1, o) eqn:E. exists s1, o. split; [reflexivity|]. apply Z.eqb_neq in SZ.
  assert (H : handleMasterXferState (fresh false c d s lg) (mkXfer a (b :: r) sz rx rm rs BUSY) = Done (going false c b s lg, mkXfer a r (sz - 1) rx rm rs BUSY, true)) by (unfold handleMasterXferState; cbn [txSz txBuff]; rewrite SZ; destruct C as [-> | ->]; reflexivity).
  unfold handled at 1. rewrite H. rewrite polling_step by reflexivity.
  assert (V : advance w (going false c b s lg) = fresh false (answered 0x28 0x30 o) b s1 (lg ++ [Wr b o])). { unfold advance, going. cbn [si i2en orb negb stat sto sta dat world]. destruct C as [-> | ->]; cbn [Z.eqb Pos.eqb orb]; cbv zeta; rewrite E; cbn [fst snd]; destruct o; reflexivity. }
  rewrite V. reflexivity.
Qed.
Lemma sends a e rx rm rs tx : forall n c d s lg, c = 0x18 \/ c = 0x28 ->
  exists tr c' d' s' o, plays w s tr s' /\
  ((o = Ack /\ tr = map (fun b => Wr b Ack) tx /\ (c' = 0x18 \/ c' = 0x28) /\
    handled (length tx + n) (fresh false c d s lg) (mkXfer a (tx ++ e) (Z.of_nat (length tx)) rx rm rs BUSY) = handled n (fresh false c' d' s' (lg ++ tr)) (mkXfer a e 0 rx rm rs BUSY)) \/
   (o <> Ack /\ failcode o c' /\ exists l b r, tx = l ++ b :: r /\ tr = map (fun c => Wr c Ack) l ++ [Wr b o] /\
    handled (length tx + n) (fresh false c d s lg) (mkXfer a (tx ++ e) (Z.of_nat (length tx)) rx rm rs BUSY) = Done (closed o c' d' s' (lg ++ tr), mkXfer a (r ++ e) (Z.of_nat (length r)) rx rm rs (outcome o)))).
Proof.
  induction tx as [|b tx IH]; intros n c d s lg C.
  - exists [], c, d, s, Ack. split; [reflexivity|]. left. split; [reflexivity|]. split; [reflexivity|]. split; [exact C|]. rewrite app_nil_r. reflexivity.
  - cbn [length app plus]. destruct (handled_byte (length tx + n) c d s lg a b (tx ++ e) (Z.of_nat (Datatypes.S (length tx))) rx rm rs C ltac:(lia)) as (s1 & o & E1 & E2). replace (Z.of_nat (Datatypes.S (length tx)) - 1) with (Z.of_nat (length tx)) in E2 by lia. destruct o; cbn [answered] in E2.
    + destruct (IH n 0x28 b s1 (lg ++ [Wr b Ack]) ltac:(auto)) as (tr & c' & d' & s' & o & P & R). exists (Wr b Ack :: tr), c', d', s', o. split; [exists s1; split; [exact E1|exact P]|].
      destruct R as [(-> & -> & C' & H)|(NO & F & l & b' & r & -> & -> & H)].
      * left. split; [reflexivity|]. split; [reflexivity|]. split; [exact C'|]. rewrite E2, H, <- app_assoc. reflexivity.
      * right. split; [exact NO|]. split; [exact F|]. exists (b :: l), b', r. split; [reflexivity|]. split; [reflexivity|]. rewrite E2, H, <- app_assoc. reflexivity.
    + exists [Wr b Nak], 0x30, b, s1, Nak. split; [exists s1; split; [exact E1|reflexivity]|]. right. split; [discriminate|]. split; [cbn; auto|]. exists [], b, tx. split; [reflexivity|]. split; [reflexivity|]. rewrite E2, (handled_fail _ Nak) by (cbn; auto). reflexivity.
    + exists [Wr b Lost], 0x38, b, s1, Lost. split; [exists s1; split; [exact E1|reflexivity]|]. right. split; [discriminate|]. split; [reflexivity|]. exists [], b, tx. split; [reflexivity|]. split; [reflexivity|]. rewrite E2, (handled_fail _ Lost) by (cbn; auto). reflexivity.
    + exists [Wr b Error], 0x00, b, s1, Error. split; [exists s1; split; [exact E1|reflexivity]|]. right. split; [discriminate|]. split; [reflexivity|]. exists [], b, tx. split; [reflexivity|]. split; [reflexivity|]. rewrite E2, (handled_fail _ Error) by (cbn; auto). reflexivity.
Qed.
(** ** Receiving *)
(** after a look at status 0x40 or 0x50 the next byte arrives *)
Lemma next_byte n c d s lg x : c = 0x40 \/ c = 0x50 -> xstatus x = BUSY -> let more := 1 <? rxSz x in
  exists s1 i, supply w s more = (s1, i) /\ polling w (Datatypes.S n) (mkHw false false false more true c d s lg) x =
   match i with
   | Byte b => handled n (fresh more (if more then 0x50 else 0x58) (u8 b) s1 (lg ++ [Rd (u8 b) more])) x
   | Trouble l => handled n (fresh more (if l then 0x38 else 0x00) d s1 (lg ++ [RdTrouble more l])) x
   end.
Proof.
  intros C B more. destruct (supply w s more) as (s1, i) eqn:E. exists s1, i. split; [reflexivity|]. rewrite polling_step by exact B.
  assert (V : advance w (mkHw false false false more true c d s lg) = match i with Byte b => fresh more (if more then 0x50 else 0x58) (u8 b) s1 (lg ++ [Rd (u8 b) more]) | Trouble l => fresh more (if l then 0x38 else 0x00) d s1 (lg ++ [RdTrouble more l]) end).
  { unfold advance. cbn [si i2en orb negb stat sto sta dat world aa]. destruct C as [-> | ->]; cbn [Z.eqb Pos.eqb orb]; cbv zeta; rewrite E; cbn [fst snd]; destruct i as [b|[|]]; reflexivity. }
  rewrite V. destruct i; reflexivity.
Qed.
Inductive reading (n : nat) : list ev -> answer -> list Z -> Prop :=
| rd_trouble l lost : (length l < n)%nat -> reading n (map (fun b => Rd b true) l ++ [RdTrouble (Datatypes.S (length l) <? n)%nat lost]) (if lost then Lost else Error) l
| rd_all l b : Datatypes.S (length l) = n -> reading n (map (fun b => Rd b true) l ++ [Rd b false]) Ack (l ++ [b]).
Lemma ltb_nat n m : (Z.of_nat n <? Z.of_nat m) = (n <? m)%nat.
Proof. destruct (Z.ltb_spec (Z.of_nat n) (Z.of_nat m)), (Nat.ltb_spec n m); lia. Qed.
Lemma reads_run a tb m : forall n c d s lg rx rm, c = 0x40 \/ c = 0x50 -> (Datatypes.S m <= rm)%nat ->
  exists tr o l c' d' s', plays w s tr s' /\ reading (Datatypes.S m) tr o l /\ (failcode o c' \/ o = Ack /\ c' = 0x58) /\
  polling w (Datatypes.S m + n) (mkHw false false false (1 <? Z.of_nat (Datatypes.S m)) true c d s lg) (mkXfer a tb 0 rx rm (Z.of_nat (Datatypes.S m)) BUSY) =
    Done (closed o c' d' s' (lg ++ tr), mkXfer a tb 0 (rx ++ l) (rm - length l) (Z.of_nat (Datatypes.S m) - Z.of_nat (length l)) (outcome o)).
Proof.
  induction m as [|m IH]; intros n c d s lg rx rm C R; cbn [plus]; (match goal with |- context [polling _ (Datatypes.S ?k) _ ?x] => destruct (next_byte k c d s lg x C eq_refl) as (s1 & i & E1 & E2) end); cbn [rxSz] in E1, E2.
  - change (1 <? Z.of_nat 1) with false in *. rewrite E2. destruct i as [b|lost].
    + exists [Rd (u8 b) false], Ack, [u8 b], 0x58, (u8 b), s1. split; [exists s1, b; repeat split; exact E1|]. split; [apply (rd_all 1 [] (u8 b)); reflexivity|]. split; [right; auto|]. destruct rm as [|rm]; [lia|]. unfold handled. assert (H : handleMasterXferState (fresh false 0x58 (u8 b) s1 (lg ++ [Rd (u8 b) false])) (mkXfer a tb 0 rx (Datatypes.S rm) (Z.of_nat 1) BUSY) = Done (closed Ack 0x58 (u8 b) s1 (lg ++ [Rd (u8 b) false]), mkXfer a tb 0 (rx ++ [u8 b]) rm 0 DONE, false)) by reflexivity. rewrite H, polling_end by discriminate. cbn [length]. replace (Datatypes.S rm - 1)%nat with rm by lia. reflexivity.
    + exists [RdTrouble false lost], (if lost then Lost else Error), [], (if lost then 0x38 else 0x00), d, s1. split; [exists s1; split; [exact E1|reflexivity]|]. split; [apply (rd_trouble 1 [] lost); cbn; lia|]. split; [left; destruct lost; reflexivity|]. rewrite (handled_fail _ (if lost then Lost else Error)) by (destruct lost; reflexivity). rewrite app_nil_r, Nat.sub_0_r. destruct lost; reflexivity.
  - replace (1 <? Z.of_nat (Datatypes.S (Datatypes.S m))) with true in * by (symmetry; apply Z.ltb_lt; lia). rewrite E2. destruct i as [b|lost].
    + destruct rm as [|rm]; [lia|].
      assert (H : handleMasterXferState (fresh true 0x50 (u8 b) s1 (lg ++ [Rd (u8 b) true])) (mkXfer a tb 0 rx (Datatypes.S rm) (Z.of_nat (Datatypes.S (Datatypes.S m))) BUSY) = Done (mkHw false false false (1 <? Z.of_nat (Datatypes.S m)) true 0x50 (u8 b) s1 (lg ++ [Rd (u8 b) true]), mkXfer a tb 0 (rx ++ [u8 b]) rm (Z.of_nat (Datatypes.S m)) BUSY, true)).
      { unfold handleMasterXferState, store. cbn [stat fresh room]. change (Z.land 80 0xF8) with 0x50. cbn [Z.eqb Pos.eqb orb]. cbn [rxSz]. replace (Z.of_nat (Datatypes.S (Datatypes.S m)) - 1) with (Z.of_nat (Datatypes.S m)) by lia. destruct (1 <? Z.of_nat (Datatypes.S m)); reflexivity. }
      destruct (IH n 0x50 (u8 b) s1 (lg ++ [Rd (u8 b) true]) (rx ++ [u8 b]) rm ltac:(auto) ltac:(lia)) as (tr & o & l & c' & d' & s' & P & RR & F & H2). exists (Rd (u8 b) true :: tr), o, (u8 b :: l), c', d', s'. split; [exists s1, b; repeat split; assumption|]. split.
      { inversion RR as [l0 lost L0 Q1 Q2 Q3|l0 b0 L0 Q1 Q2 Q3]; subst.
        - replace (Datatypes.S (length l) <? Datatypes.S m)%nat with (Datatypes.S (length (u8 b :: l)) <? Datatypes.S (Datatypes.S m))%nat by reflexivity. apply (rd_trouble _ (u8 b :: l) lost). cbn [length]. lia.
        - apply (rd_all _ (u8 b :: l0) b0). cbn [length]. lia. }
      split; [exact F|]. unfold handled. rewrite H. cbn [plus] in H2. rewrite H2. cbn [length]. rewrite <- !app_assoc. cbn [app]. do 3 f_equal. lia.
    + exists [RdTrouble true lost], (if lost then Lost else Error), [], (if lost then 0x38 else 0x00), d, s1. split; [exists s1; split; [exact E1|reflexivity]|]. split; [apply (rd_trouble (Datatypes.S (Datatypes.S m)) [] lost); cbn; lia|]. split; [left; destruct lost; reflexivity|]. rewrite (handled_fail _ (if lost then Lost else Error)) by (destruct lost; reflexivity). rewrite app_nil_r, Nat.sub_0_r. cbn [length]. rewrite Z.sub_0_r. destruct lost; reflexivity.
Qed.
(** from the address for reading on *)
Lemma reads_from a tb m : forall n c s lg rx rm, 0 <= a < 128 -> c = 0x08 \/ c = 0x10 -> (Datatypes.S m <= rm)%nat ->
  let x := mkXfer a tb 0 rx rm (Z.of_nat (Datatypes.S m)) BUSY in
  exists tr o l c' d' s', plays w s tr s' /\ receiving a (Datatypes.S m) (Start :: tr) o l /\ (failcode o c' \/ o = Ack /\ c' = 0x58) /\
  polling w (m + 2 + n) (going false c (addrByte x) s lg) x = Done (closed o c' d' s' (lg ++ tr), mkXfer a tb 0 (rx ++ l) (rm - length l) (Z.of_nat (Datatypes.S m) - Z.of_nat (length l)) (outcome o)).
Proof.
  intros n c s lg rx rm A C R x. replace (m + 2 + n)%nat with (Datatypes.S (Datatypes.S m + n)) by lia. destruct (step_addr (Datatypes.S m + n) c s lg x eq_refl A C) as (s1 & o & d & E1 & E2). cbn [txSz x Z.eqb slaveAddr] in E1, E2. rewrite E2. destruct o; cbn [answered].
  - assert (H : handleMasterXferState (fresh false 0x40 d s1 (lg ++ [Addr a true Ack])) x = Done (mkHw false false false (1 <? Z.of_nat (Datatypes.S m)) true 0x40 d s1 (lg ++ [Addr a true Ack]), x, true)).
    { unfold handleMasterXferState. cbn [stat fresh]. change (Z.land 64 0xF8) with 0x40. cbn [Z.eqb Pos.eqb orb]. cbn [rxSz x]. destruct (1 <? Z.of_nat (Datatypes.S m)); reflexivity. }
    unfold handled. rewrite H. destruct (reads_run a tb m n 0x40 d s1 (lg ++ [Addr a true Ack]) rx rm ltac:(auto) R) as (tr & o & l & c' & d' & s' & P & RR & F & H2). exists (Addr a true Ack :: tr), o, l, c', d', s'. split; [exists s1; split; assumption|]. split.
    { inversion RR as [l0 lost L0 Q1 Q2 Q3|l0 b0 L0 Q1 Q2 Q3]; subst; [apply disturbed; exact L0|apply all_received; exact L0]. }
    split; [exact F|]. unfold x. rewrite H2, <- app_assoc. reflexivity.
  - exists [Addr a true Nak], Nak, [], 0x48, d, s1. split; [exists s1; split; [exact E1|reflexivity]|]. split; [apply no_answer; discriminate|]. split; [left; cbn; auto|]. rewrite (handled_fail _ Nak) by (cbn; auto). rewrite app_nil_r, Nat.sub_0_r, Z.sub_0_r. reflexivity.
  - exists [Addr a true Lost], Lost, [], 0x38, d, s1. split; [exists s1; split; [exact E1|reflexivity]|]. split; [apply no_answer; discriminate|]. split; [left; cbn; auto|]. rewrite (handled_fail _ Lost) by (cbn; auto). rewrite app_nil_r, Nat.sub_0_r, Z.sub_0_r. reflexivity.
  - exists [Addr a true Error], Error, [], 0x00, d, s1. split; [exists s1; split; [exact E1|reflexivity]|]. split; [apply no_answer; discriminate|]. split; [left; cbn; auto|]. rewrite (handled_fail _ Error) by (cbn; auto). rewrite app_nil_r, Nat.sub_0_r, Z.sub_0_r. reflexivity.
Qed.
(** ** A whole transfer *)
Lemma started (h : hw S) : startMasterXfer h = mkHw true false false false true (stat h) (dat h) (world h) (log h).
Proof. destruct h as [a b c d e f g k l]. destruct a, b, c, d, e; reflexivity. Qed.
Lemma transfer_ok h a tx e rx rm n st : idle h -> 0 <= a < 128 -> tx <> [] \/ (0 < n)%nat -> (n <= rm)%nat ->
  exists tr o k l h', MasterTransfer w h (mkXfer a (tx ++ e) (Z.of_nat (length tx)) rx rm (Z.of_nat n) st) = Done (h', mkXfer a (skipn k tx ++ e) (Z.of_nat (length tx - k)) (rx ++ l) (rm - length l) (Z.of_nat n - Z.of_nat (length l)) (outcome o)) /\
  log h' = log h ++ tr /\ plays w (world h) tr (world h') /\ transfer a tx n tr o k l /\ idle h' /\ (k <= length tx)%nat.
Proof.
  intros I A NZ R. unfold MasterTransfer. cbn [txSz rxSz setStatus slaveAddr txBuff rxBuff room]. rewrite !Nat2Z.id, started.
  assert (Settle : forall q, match q with Done (h0, x) => let h1 := if sto h0 then advance w h0 else h0 in if sto h1 then Hang else Done (h1, x) | Fault => Fault | Hang => Hang end = match q with Done (h0, x) => settle h0 x | Fault => Fault | Hang => Hang end) by reflexivity. rewrite Settle. clear Settle.
  set (x := mkXfer a (tx ++ e) (Z.of_nat (length tx)) rx rm (Z.of_nat n) BUSY). replace (length tx + n + 6)%nat with (Datatypes.S (length tx + n + 5)) by lia. rewrite (step_start _ _ _ _ _ x eq_refl I). set (lg := log h ++ [Start]).
  assert (Fin : forall tr o k l c d s1 q, q = Done (closed o c d s1 (log h ++ tr), mkXfer a (skipn k tx ++ e) (Z.of_nat (length tx - k)) (rx ++ l) (rm - length l) (Z.of_nat n - Z.of_nat (length l)) (outcome o)) ->
    (failcode o c \/ o = Ack /\ (c = 0x18 \/ c = 0x28 \/ c = 0x58)) -> plays w (world h) tr s1 -> transfer a tx n (tr ++ ending o) o k l -> (k <= length tx)%nat ->
    exists tr o k l h', match q with Done (h0, x) => settle h0 x | Fault => Fault | Hang => Hang end = Done (h', mkXfer a (skipn k tx ++ e) (Z.of_nat (length tx - k)) (rx ++ l) (rm - length l) (Z.of_nat n - Z.of_nat (length l)) (outcome o)) /\
      log h' = log h ++ tr /\ plays w (world h) tr (world h') /\ transfer a tx n tr o k l /\ idle h' /\ (k <= length tx)%nat).
  { intros tr o k l c d s1 q -> F P T K. exists (tr ++ ending o), o, k, l. destruct (settle_ok o c d s1 (log h ++ tr) (mkXfer a (skipn k tx ++ e) (Z.of_nat (length tx - k)) (rx ++ l) (rm - length l) (Z.of_nat n - Z.of_nat (length l)) (outcome o)) F) as (h' & E1 & E2 & E3 & E4).
    exists h'. split; [exact E1|]. split; [rewrite E3, app_assoc; reflexivity|]. split; [apply (plays_app _ _ _ _ _ P E4)|]. auto. }
  assert (D : tx = [] \/ tx <> []) by (destruct tx; [left; reflexivity|right; discriminate]). destruct D as [-> |TN].
  - destruct n as [|m]; [destruct NZ as [NZ|NZ]; [destruct (NZ eq_refl)|lia]|]. destruct (reads_from a e m 4 0x08 (start w (world h)) lg rx rm A ltac:(auto) R) as (tr & o & l & c & d & s1 & P & RC & F & E). cbn [length plus].
    replace (m + 2 + 4)%nat with (Datatypes.S m + 5)%nat in E by lia. cbn [app length] in x. change (Z.of_nat 0) with 0 in x. cbn [plus] in E. fold x in E. eapply (Fin (Start :: tr) o 0%nat l c d s1); [rewrite E; cbn [skipn app length]; unfold lg; rewrite <- app_assoc; reflexivity| |exact P|apply reads; [reflexivity|lia|exact RC]|cbn; lia]. destruct F as [F|(F1 & F2)]; [left; exact F|right; auto].
  - assert (TL : (0 < length tx)%nat) by (clear - TN; destruct tx; [destruct (TN eq_refl)|cbn; lia]). clear NZ.
    replace (length tx + n + 5)%nat with (Datatypes.S (length tx + (n + 4))) by lia. destruct (step_addr (length tx + (n + 4)) 0x08 (start w (world h)) lg x eq_refl A ltac:(auto)) as (s1 & o & d & E1 & E2). cbn [x txSz slaveAddr] in E1, E2. replace (Z.of_nat (length tx) =? 0) with false in * by (symmetry; apply Z.eqb_neq; lia). fold x in E2. rewrite E2. clear E2.
    assert (Bad : o <> Ack -> forall nn, exists tr o' k l h', match handled nn (fresh false (answered 0x18 0x20 o) d s1 (lg ++ [Addr a false o])) x with Done (h0, x) => settle h0 x | Fault => Fault | Hang => Hang end = Done (h', mkXfer a (skipn k tx ++ e) (Z.of_nat (length tx - k)) (rx ++ l) (rm - length l) (Z.of_nat n - Z.of_nat (length l)) (outcome o')) /\
      log h' = log h ++ tr /\ plays w (world h) tr (world h') /\ transfer a tx n tr o' k l /\ idle h' /\ (k <= length tx)%nat).
    { intros NO nn. assert (FC : failcode o (answered 0x18 0x20 o)) by (destruct o; [destruct (NO eq_refl)|cbn; auto|cbn; auto|cbn; auto]). apply (Fin [Start; Addr a false o] o 0%nat [] (answered 0x18 0x20 o) d s1); [|left; exact FC|exists s1; split; [exact E1|reflexivity]| |lia].
      - rewrite (handled_fail nn o false _ d s1 _ x FC eq_refl). unfold lg. rewrite <- app_assoc. cbn [skipn length]. rewrite Nat.sub_0_r, Nat.sub_0_r, Z.sub_0_r, app_nil_r. reflexivity.
      - apply (writes a tx n [Start; Addr a false o] o 0%nat); [exact TN|left; exact NO|apply not_addressed; exact NO]. }
    destruct o; try (apply Bad; discriminate). clear Bad. cbn [answered].
    destruct (sends a e rx rm (Z.of_nat n) tx (n + 4) 0x18 d s1 (lg ++ [Addr a false Ack]) ltac:(auto)) as (tr & c' & d' & s' & o & P & [(-> & TR & C' & H)|(NO & F & l & b & r & TE & TR & H)]).
    + fold x in H. rewrite H. clear H. assert (LG : (lg ++ [Addr a false Ack]) ++ tr = log h ++ ([Start; Addr a false Ack] ++ tr)) by (unfold lg; rewrite <- !app_assoc; reflexivity).
      assert (PW : plays w (world h) ([Start; Addr a false Ack] ++ tr) s') by (exists s1; split; [exact E1|exact P]).
      assert (SD : sending a tx ([Start; Addr a false Ack] ++ tr) Ack (length tx)) by (rewrite TR; apply all_sent).
      destruct n as [|m].
      * assert (HH : handleMasterXferState (fresh false c' d' s' ((lg ++ [Addr a false Ack]) ++ tr)) (mkXfer a e 0 rx rm 0 BUSY) = Done (closed Ack c' d' s' ((lg ++ [Addr a false Ack]) ++ tr), mkXfer a e 0 rx rm 0 DONE, false)) by (destruct C' as [-> | ->]; reflexivity).
        apply (Fin ([Start; Addr a false Ack] ++ tr) Ack (length tx) [] c' d' s'); [|right; split; [reflexivity|tauto]|exact PW|apply writes; [exact TN|auto|exact SD]|lia]. unfold handled. change (Z.of_nat 0) with 0. rewrite HH, polling_end by discriminate. rewrite LG, skipn_all, Nat.sub_diag, app_nil_r. cbn [length]. rewrite Nat.sub_0_r. reflexivity.
      * assert (HH : handleMasterXferState (fresh false c' d' s' ((lg ++ [Addr a false Ack]) ++ tr)) (mkXfer a e 0 rx rm (Z.of_nat (Datatypes.S m)) BUSY) = Done (mkHw true false false false true c' d' s' ((lg ++ [Addr a false Ack]) ++ tr), mkXfer a e 0 rx rm (Z.of_nat (Datatypes.S m)) BUSY, true)) by (destruct C' as [-> | ->]; reflexivity).
        unfold handled. rewrite HH. replace (Datatypes.S m + 4)%nat with (Datatypes.S (m + 2 + 2)) by lia. rewrite step_again by (try reflexivity; exact C').
        destruct (reads_from a e m 2 0x10 (start w s') (((lg ++ [Addr a false Ack]) ++ tr) ++ [Start]) rx rm A ltac:(auto) R) as (tr2 & o & l & c2 & d2 & s2 & P2 & RC & F & E).
        apply (Fin (([Start; Addr a false Ack] ++ tr) ++ Start :: tr2) o (length tx) l c2 d2 s2); [| | | |lia].
        -- rewrite E, LG, skipn_all, Nat.sub_diag. do 3 f_equal. rewrite <- !app_assoc. reflexivity.
        -- destruct F as [F|(F1 & F2)]; [left; exact F|right; auto].
        -- apply (plays_app _ _ _ _ _ PW). exact P2.
        -- rewrite <- app_assoc. apply both; [exact TN|lia|exact SD|exact RC].
    + fold x in H. apply (Fin ([Start; Addr a false Ack] ++ tr) o (length l + 1)%nat [] c' d' s'); [|left; exact F|exists s1; split; [exact E1|exact P]| |rewrite TE, app_length; cbn [length]; lia].
      * rewrite H. do 2 f_equal; [f_equal; unfold lg; rewrite <- !app_assoc; reflexivity|]. f_equal; [|rewrite TE, app_length; cbn [length]; f_equal; lia|rewrite app_nil_r; reflexivity|cbn [length]; lia|cbn [length]; lia].
        f_equal. rewrite TE. replace (length l + 1)%nat with (length (l ++ [b])) by (rewrite app_length; reflexivity). replace (l ++ b :: r) with ((l ++ [b]) ++ r) by (rewrite <- app_assoc; reflexivity). rewrite skipn_app, skipn_all, Nat.sub_diag. reflexivity.
      * apply writes; [exact TN|left; exact NO|]. rewrite TR. apply (broken_off a tx l b r o TE NO).
Qed.
End P.
