(** C128: clocks of the serial port and the I2C bus; begin and end of the serial port *)
From Verif Require Export Baud_Model Baud_Spec.
Open Scope Z_scope.

Definition rate_of (pclk : Z) (p : port) : Z * Z := uart_rate pclk (dlm p) (dll p) (fdr p).
(** ordinary rates: all but the two for which the fractional divider is used *)
Definition ordinary (b : Z) : Prop := 0 < b < 2 ^ 31 /\ b <> 460800 /\ b <> 576000.
Lemma begin_ordinary clock ahbdiv b config arriving p : ordinary b -> 0 <= clock * ahbdiv < 2 ^ 32 ->
  begin clock ahbdiv b config arriving p = Some (mkPort true true true 3 config (u8 (clock * ahbdiv / (16 * b) / 256)) (u8 (clock * ahbdiv / (16 * b) mod 256)) (fdr p) 1 true (sent p) [] [] [] [] []).
Proof.
  intros (B & N1 & N2) P. unfold begin, divisor. rewrite (u32_id b) by (unfold is_u32; lia). rewrite (u32_id (clock * ahbdiv)) by (unfold is_u32; lia). destruct (Z.eqb_spec b 0); [lia|]. destruct (Z.eqb_spec b 460800); [contradiction|]. destruct (Z.eqb_spec b 576000); [contradiction|].
  rewrite Z.div_1_r, (Z.div_div (clock * ahbdiv) 16 b) by lia. assert (D : dropAll arriving = []) by (induction arriving; auto). rewrite D. reflexivity.
Qed.
Lemma bytes_back v : 0 <= v < 65536 -> 256 * u8 (v / 256) + u8 (v mod 256) = v.
Proof. intros V. assert (0 <= v / 256 < 256) by (split; [apply Z.div_pos; lia|apply Z.div_lt_upper_bound; lia]). pose proof (Z.mod_pos_bound v 256 ltac:(lia)). rewrite !u8_id by (unfold is_byte; lia). pose proof (Z.div_mod v 256). lia. Qed.

(** With the fractional divider as after a reset of the chip the rate is the lowest possible one not below the rate asked for, by less than a part of its divisor above, and exact if the clock allows it. The divider stays as it was. *)
Theorem C128_rate_partial clock ahbdiv b config arriving p : let pclk := clock * ahbdiv in
  fdr p = 0x10 -> ordinary b -> 0 <= pclk < 2 ^ 32 -> 1 <= pclk / (16 * b) <= 65535 ->
  exists p', begin clock ahbdiv b config arriving p = Some p' /\ fdr p' = 0x10 /\ rate_above (pclk / (16 * b)) b (rate_of pclk p') /\
    (forall d, 0 < d -> b * (16 * d) <= pclk -> d <= 256 * dlm p' + dll p') /\ ((16 * b | pclk) -> rate_exact b (rate_of pclk p')).
Proof.
  intros pclk F B P V. rewrite (begin_ordinary clock ahbdiv b config arriving p B P). fold pclk. eexists. split; [reflexivity|]. unfold rate_of. cbn [fdr dlm dll]. split; [exact F|]. rewrite F. unfold uart_rate. rewrite bytes_back by lia. change (16 mod 16) with 0. change (16 / 16 mod 16) with 1.
  destruct B as (B & _). pose proof (Z.mul_div_le pclk (16 * b) ltac:(lia)) as L. pose proof (Z.mul_succ_div_gt pclk (16 * b) ltac:(lia)) as G. set (v := pclk / (16 * b)) in *. clearbody v. clear - B V L G P.
  unfold rate_above, rate_exact. cbn [fst snd]. split; [split; [lia|split; nia]|]. split.
  - intros d D H. destruct (Z.le_gt_cases d v); [assumption|exfalso]. assert (16 * b * Z.succ v <= 16 * b * d) by (apply Z.mul_le_mono_nonneg_l; lia). lia.
  - intros (k & K). assert (k = v) by nia. subst k. split; nia.
Qed.
Print Assumptions C128_rate_partial.
(** The two rates with the fractional divider: right to 0.17 percent at 48 MHz, whatever was set before. *)
Theorem C128_fractional config arriving p : Forall (fun b => exists p', begin 48000000 1 b config arriving p = Some p' /\ rate_close 17 b (rate_of 48000000 p')) [460800; 576000].
Proof. repeat constructor; eexists; (split; [reflexivity|]); split; vm_compute; try reflexivity; discriminate. Qed.
Print Assumptions C128_fractional.
(** The usual rates at 48 MHz with the divider as after a reset: right to 0.17 percent. *)
Theorem C128_usual config arriving p : fdr p = 0x10 -> Forall (fun b => exists p', begin 48000000 1 b config arriving p = Some p' /\ rate_close 17 b (rate_of 48000000 p'))
  [300; 1200; 2400; 4800; 9600; 19200; 38400; 57600; 115200; 230400; 460800; 500000; 576000; 1000000; 1500000; 3000000].
Proof. intros F. repeat constructor; eexists; (split; [reflexivity|]); unfold rate_of; cbn [fdr dlm dll]; rewrite ?F; split; vm_compute; try reflexivity; discriminate. Qed.
Print Assumptions C128_usual.
Definition fresh : port := mkPort false false false 0 0 0 1 0x10 0 false [] [] [] [] [] [].
Example C128_rate_example : fdr fresh = 0x10 /\ ordinary 9600 /\ 48000000 / (16 * 9600) = 312 /\ ordinary 1500000 /\ (16 * 1500000 | 48000000).
Proof. unfold ordinary. repeat split; try lia; try reflexivity. exists 2. reflexivity. Qed.
(** Not so once 460800 (or 576000) was used: the divider is never set back; any port begun with 460800, ended and begun with 115200 runs at less than 89000. *)
Theorem C128_again_refuted config arriving p fuel : exists p1, begin 48000000 1 460800 config arriving p = Some p1 /\ exists p2, endPort fuel p1 = Some p2 /\
  exists p3, begin 48000000 1 115200 config arriving p2 = Some p3 /\ enabled p3 = true /\ fst (rate_of 48000000 p3) < 89000 * snd (rate_of 48000000 p3).
Proof. eexists. split; [reflexivity|]. eexists. split; [destruct fuel; reflexivity|]. eexists. split; [reflexivity|]. split; vm_compute; reflexivity. Qed.
Print Assumptions C128_again_refuted.
(** ... and rates near the clock are far off: 921600 becomes 1000000. *)
Theorem C128_fast_refuted config arriving p : fdr p = 0x10 -> exists p', begin 48000000 1 921600 config arriving p = Some p' /\ rate_exact 1000000 (rate_of 48000000 p').
Proof. intros F. eexists. split; [reflexivity|]. unfold rate_of. cbn [fdr]. rewrite F. split; vm_compute; reflexivity. Qed.
Print Assumptions C128_fast_refuted.

(** The format on the line is the one the name of the constant says (serial.h:47-73), the divisor latch is closed; nothing received earlier is read, nothing waiting is sent, the port is enabled with interrupts at the lowest priority. *)
Theorem C128_format clock ahbdiv b arriving p config data stop par : In (config, (data, stop, par))
  [(0x00, (5, 1, no_parity)); (0x01, (6, 1, no_parity)); (0x02, (7, 1, no_parity)); (0x03, (8, 1, no_parity)); (0x04, (5, 2, no_parity)); (0x05, (6, 2, no_parity)); (0x06, (7, 2, no_parity)); (0x07, (8, 2, no_parity));
   (0x08, (5, 1, odd)); (0x09, (6, 1, odd)); (0x0a, (7, 1, odd)); (0x0b, (8, 1, odd)); (0x0c, (5, 2, odd)); (0x0d, (6, 2, odd)); (0x0e, (7, 2, odd)); (0x0f, (8, 2, odd));
   (0x18, (5, 1, even)); (0x19, (6, 1, even)); (0x1a, (7, 1, even)); (0x1b, (8, 1, even)); (0x1c, (5, 2, even)); (0x1d, (6, 2, even)); (0x1e, (7, 2, even)); (0x1f, (8, 2, even))] ->
  0 < b < 2 ^ 31 -> exists p', begin clock ahbdiv b config arriving p = Some p' /\ line_format (lcr p') = Some (data, stop, par) /\ enabled p' = true /\ clocked p' = true /\ irq p' = true /\ rbrIrq p' = true /\ prio p' = 3 /\ input p' = [] /\ fifo p' = [] /\ output p' = [] /\ sent p' = sent p.
Proof.
  intros I B. assert (X : exists p', begin clock ahbdiv b config arriving p = Some p' /\ lcr p' = config /\ enabled p' = true /\ clocked p' = true /\ irq p' = true /\ rbrIrq p' = true /\ prio p' = 3 /\ input p' = [] /\ fifo p' = [] /\ output p' = [] /\ sent p' = sent p).
  { unfold begin, divisor. rewrite (u32_id b) by (unfold is_u32; lia). destruct (Z.eqb_spec b 0); [lia|]. assert (D : dropAll arriving = []) by (clear; induction arriving; auto). rewrite D. destruct (if b =? 460800 then _ else _) as [v f]. eexists. split; [reflexivity|]. repeat split. }
  destruct X as (p' & E & L & R). exists p'. split; [exact E|]. split; [|exact R]. rewrite L. clear - I. cbn [In] in I. repeat destruct I as [I|I]; try contradiction; injection I as <- <- <- <-; reflexivity.
Qed.
Print Assumptions C128_format.
Theorem C128_8N1 fuel clock ahbdiv b arriving p p' : begin8N1 fuel clock ahbdiv b arriving p = Some p' -> line_format (lcr p') = Some (8, 1, no_parity) /\ enabled p' = true.
Proof. unfold begin8N1. destruct (if enabled p then _ else _) as [q|]; [|discriminate]. unfold begin. destruct (divisor _ _ _ _) as [[v f]|]; [|discriminate]. intros [= <-]. split; reflexivity. Qed.
Print Assumptions C128_8N1.
Example C128_8N1_example : option_map lcr (begin8N1 5 48000000 1 115200 [1; 2] fresh) = Some 3 /\ option_map dll (begin8N1 5 48000000 1 115200 [] fresh) = Some 26.
Proof. split; reflexivity. Qed.

(** ** sending and ending *)
(** what a running port can look like: registers hold a byte each and are filled from the line backwards *)
Definition running (p : port) : Prop :=
  enabled p = true /\ clocked p = true /\ irq p = true /\ (length (shiftreg p) <= 1)%nat /\ (length (thr p) <= 1)%nat /\ (shiftreg p = [] -> thr p = []) /\ (thr p = [] -> output p = []).
Definition pending (p : port) : list Z := shiftreg p ++ thr p ++ output p.
Lemma tick_running p : running p -> running (tick p) /\ sent (tick p) ++ pending (tick p) = sent p ++ pending p /\ output (tick p) = skipn 1 (output p) /\ pending (tick p) = skipn (length (shiftreg p)) (pending p).
Proof.
  intros (E & C & I & S & T & ST & TO). unfold tick, pending. rewrite C. cbn [negb sent shiftreg thr output]. rewrite I. unfold running. cbn [enabled clocked irq shiftreg thr output].
  destruct (shiftreg p) as [|s [|]]; cbn in S; try lia.
  - rewrite (ST eq_refl) in *. rewrite (TO eq_refl). cbn. rewrite !app_nil_r. repeat split; auto; lia.
  - destruct (thr p) as [|t [|]]; cbn in T; try lia.
    + rewrite (TO eq_refl). cbn. rewrite <- !app_assoc. repeat split; auto; try lia.
    + destruct (output p) as [|o l]; cbn; rewrite <- !app_assoc; repeat split; auto; try lia; intros; discriminate.
Qed.
Lemma writeByte_running ch p : running p -> running (fst (writeByte ch p)) /\ snd (writeByte ch p) = 1 /\ sent (fst (writeByte ch p)) ++ pending (fst (writeByte ch p)) = sent p ++ pending p ++ [ch].
Proof.
  intros (E & C & I & S & T & ST & TO). unfold writeByte, pending. rewrite E. cbn [negb]. unfold running.
  destruct (output p) as [|o l] eqn:EO, (thr p) as [|t tl] eqn:ET; cbn [fst snd enabled clocked irq sent shiftreg thr output].
  - destruct (shiftreg p) as [|s sl]; cbn [fst snd enabled clocked irq sent shiftreg thr output app length] in *; repeat split; auto; try lia; try discriminate. rewrite !app_nil_r. reflexivity.
  - cbn [length app] in *. repeat split; auto; try lia; try discriminate. rewrite app_nil_r, <- !app_assoc. cbn. rewrite <- ?app_assoc. reflexivity.
  - specialize (TO eq_refl). discriminate.
  - cbn [length app] in *. repeat split; auto; try lia; try discriminate. rewrite <- !app_assoc. cbn. rewrite <- ?app_assoc. reflexivity.
Qed.
(** What is written goes to the line in order, completely, if the port is left running long enough. *)
Theorem C128_sent bytes p : running p -> let p' := writeBytes bytes p in running p' /\ forall n, (length (pending p') <= n)%nat -> sent (ticks n p') = sent p ++ pending p ++ bytes.
Proof.
  intros R. assert (W : forall bytes p, running p -> running (writeBytes bytes p) /\ sent (writeBytes bytes p) ++ pending (writeBytes bytes p) = sent p ++ pending p ++ bytes).
  { clear. induction bytes as [|c bytes IH]; intros p R; [cbn; rewrite app_nil_r; auto|]. cbn [writeBytes]. destruct (writeByte_running c p R) as (R1 & _ & E1). destruct (IH _ R1) as (R2 & E2). split; [exact R2|]. rewrite E2, app_assoc, E1, <- !app_assoc. reflexivity. }
  destruct (W bytes p R) as (R1 & E1). cbv zeta. split; [exact R1|]. set (q := writeBytes bytes p) in *. clearbody q. rewrite <- E1. clear - R1. intros n. revert q R1. induction n as [|n IH]; intros q R L; cbn [ticks].
  - destruct (pending q) eqn:P; [rewrite app_nil_r; reflexivity|cbn in L; lia].
  - destruct (tick_running q R) as (R2 & E2 & _ & P2). rewrite (IH _ R2); [exact E2|]. rewrite P2, skipn_length. destruct R as (_ & _ & _ & _ & _ & ST & TO). destruct (shiftreg q) as [|s l] eqn:SQ; cbn [length]; [|lia]. unfold pending. rewrite SQ, (ST eq_refl), (TO (ST eq_refl)). cbn. lia.
Qed.
Print Assumptions C128_sent.
Lemma wait_running fuel : forall p, running p -> (length (output p) <= fuel)%nat -> exists p', waitOutput fuel p = Some p' /\ running p' /\ output p' = [] /\ sent p' ++ pending p' = sent p ++ pending p /\ (pending p <> [] -> pending p' <> []).
Proof.
  induction fuel as [|fuel IH]; intros p R L.
  - destruct (output p) as [|o l] eqn:O; [|cbn in L; lia]. exists p. cbn. rewrite O. auto.
  - destruct (output p) as [|o l] eqn:O. { exists p. cbn. rewrite O. auto. } destruct (tick_running p R) as (R2 & E2 & O2 & P2). rewrite O in O2. cbn in O2, L.
    destruct (IH (tick p) R2 ltac:(rewrite O2; lia)) as (p' & W & R' & O' & S' & N). exists p'. split; [cbn [waitOutput]; rewrite O; exact W|]. split; [exact R'|]. split; [exact O'|]. split; [congruence|]. intros _. apply N. rewrite P2. destruct R as (_ & _ & _ & S1 & T1 & ST & TO). unfold pending. rewrite O. destruct (shiftreg p) as [|s [|]]; cbn in S1; try lia; [rewrite (TO (ST eq_refl)) in O; discriminate|]. cbn. destruct (thr p); discriminate.
Qed.
(** end() (and a change of the pins) sends all but the last two bytes, in order; flush() returns with at most two bytes under way. *)
Theorem C128_end_partial p : running p -> exists p' lost, endPort (length (output p)) p = Some p' /\ setPin (length (output p)) p = Some p' /\ enabled p' = false /\ (length lost <= 2)%nat /\ sent p' ++ lost = sent p ++ pending p.
Proof.
  intros R. destruct (wait_running _ p R (le_n _)) as (q & W & Q & O & S & _). unfold endPort, setPin, flush. assert (E : enabled p = true) by apply R. rewrite E, W. eexists. exists (pending q). split; [reflexivity|]. split; [unfold endPort, flush; rewrite E, W; reflexivity|]. split; [reflexivity|]. split; [|exact S]. destruct Q as (_ & _ & _ & S1 & T1 & _). unfold pending. rewrite O, !app_length. cbn. lia.
Qed.
Print Assumptions C128_end_partial.
(** Not all: flush() waits only for its buffer. Whenever anything is under way, end() cuts the clock of the UART before the last byte is out, and it never gets out. *)
Theorem C128_end_refuted p : running p -> pending p <> [] -> exists p', endPort (length (output p)) p = Some p' /\ exists lost, lost <> [] /\ forall n, sent (ticks n p') ++ lost = sent p ++ pending p.
Proof.
  intros R N. destruct (wait_running _ p R (le_n _)) as (q & W & Q & O & S & N2). unfold endPort, flush. assert (E : enabled p = true) by apply R. rewrite E, W. eexists. split; [reflexivity|]. exists (pending q). split; [exact (N2 N)|].
  intros n. set (x := mkPort _ _ _ _ _ _ _ _ _ _ _ _ _ _ _ _). assert (T : ticks n x = x) by (induction n as [|n IH]; [reflexivity|cbn [ticks]; exact IH]). rewrite T. exact S.
Qed.
Print Assumptions C128_end_refuted.
Example C128_end_example : match begin 48000000 1 9600 3 [] fresh with Some p => let p := writeBytes [72; 97; 108; 108; 111] p in (pending p, option_map (fun p => sent (ticks 9 p)) (endPort 5 p), sent (ticks 5 p)) | None => ([], None, []) end = ([72; 97; 108; 108; 111], Some [72; 97; 108], [72; 97; 108; 108; 111]).
Proof. reflexivity. Qed.
Example C128_running_example : match begin 48000000 1 9600 3 [] fresh with Some p => running p | None => False end.
Proof. unfold running. cbn. repeat split; auto; lia. Qed.

(** ** I2C *)
(** The clock of the bus is the lowest possible one not below the rate asked for, exact if the rate divides the clock; high and low phase differ by at most a cycle; what getClockRate says is what was set. *)
Theorem C128_i2c clock r : 0 < r -> 0 <= clock < 2 ^ 32 -> 8 <= clock / r <= 131070 -> exists h l, setClockRate clock r = Some (h, l) /\ 4 <= h <= 65535 /\ 4 <= l <= 65535 /\ (l = h \/ l = h + 1) /\
  r * (h + l) <= clock /\ (forall s, r * s <= clock -> s <= h + l) /\ exists g, getClockRate clock (h, l) = Some g /\ r <= g /\ ((r | clock) -> g = r /\ r * (h + l) = clock).
Proof.
  intros R C V. unfold setClockRate. destruct (Z.eqb_spec r 0); [lia|]. set (v := clock / r) in *. rewrite Z.shiftr_div_pow2 by lia. change (2 ^ 1) with 2. assert (D : v = 2 * (v / 2) + v mod 2) by (apply Z.div_mod; lia). pose proof (Z.mod_pos_bound v 2 ltac:(lia)) as M. set (h := v / 2) in *. set (m := v mod 2) in *.
  rewrite (u16_id h) by (unfold is_u16; lia). rewrite (u32_id (v - h)) by (unfold is_u32; lia). rewrite (u16_id (v - h)) by (unfold is_u16; lia). exists h, (v - h). split; [reflexivity|].
  pose proof (Z.mul_div_le clock r R) as L. pose proof (Z.mul_succ_div_gt clock r R) as G. fold v in L, G. split; [lia|]. split; [lia|]. split; [lia|]. replace (h + (v - h)) with v by ring. split; [exact L|]. split; [intros s Hs; destruct (Z.le_gt_cases s v); [assumption|exfalso; assert (r * Z.succ v <= r * s) by (apply Z.mul_le_mono_nonneg_l; lia); lia]|].
  unfold getClockRate. cbn [fst snd]. replace (h + (v - h)) with v by ring. destruct (Z.eqb_spec v 0); [lia|]. exists (clock / v). split; [reflexivity|]. split; [apply Z.div_le_lower_bound; lia|]. intros (k & K). assert (k = v) by (unfold v; rewrite K, Z.div_mul by lia; reflexivity). subst k. split; [rewrite K at 1; rewrite Z.mul_comm; apply Z.div_mul; lia|lia].
Qed.
Print Assumptions C128_i2c.
Example C128_i2c_example : setClockRate 48000000 100000 = Some (240, 240) /\ getClockRate 48000000 (240, 240) = Some 100000 /\ setClockRate 48000000 390000 = Some (61, 62) /\ getClockRate 48000000 (61, 62) = Some 390243.
Proof. repeat split; reflexivity. Qed.
