(** Loading a System B device: answers, checksums, property values *)
From Verif Require Import Base Bits Telegram_Model Mapper_Model Mapper_Spec MemReq_Model MemReq_Spec MemReq_Proofs Prop_Model Prop_Spec Prop_Proofs Prop_Load Prop_Write CRC_Spec CRC_Model CRC_Proofs SysB_Model SysB_Spec SysB_Proofs.

Lemma device_long L d : sysb_device L d -> long d /\ Forall is_byte (eeData d) /\ eeStart L = 0x3300.
Proof. intros (_ & HD & HS & HE). destruct (d_ee _ _ HD) as (A & B). split; [unfold long; lia|auto]. Qed.
Lemma device_only L d d' P : sysb_device L d -> only P d d' -> Forall is_byte (eeData d') -> sysb_device L d'.
Proof.
  intros (HL & HD & HS & HE) O F. split; auto. split; auto. destruct HD as [A B C D]. constructor.
  - rewrite (o_len _ _ _ O). split; [apply A|auto].
  - now rewrite (o_ram _ _ _ O).
  - now rewrite (o_status _ _ _ O).
  - now rewrite (o_map _ _ _ O).
Qed.

(** ** One allocation *)
Lemma allocate_step L static t n sb d b k : sysb_device L d -> request_fits (t, n, sb) -> is_table k -> allocates k (t, n, sb) = true -> fills (t, n, sb) = false ->
  used_from d b -> first_free + wanted (t, n, sb) <= b ->
  exists sb' d', processPropertyApciB L static propertiesTab t n sb d = Some (sb', d') /\ sysb_device L d' /\ load_state d' k = 2 /\
    value_answer sb' = Some (k, 5, f_count t, f_start t, [2]) /\ placed k (lowestTable d - wanted (t, n, sb)) (wanted (t, n, sb)) d d' /\ only low_part d d' /\ b <= lowestTable d.
Proof.
  intros HD (Ht & _ & Lb & _) Hk A NF U FIT. destruct (device_long L d HD) as (HL & HB & HS). unfold allocates in A. apply andb_true_iff in A as (E & A).
  assert (LE : b <= lowestTable d) by (now apply lowest_ok).
  assert (K6 : 0 <= k < 6) by (red in Hk; lia).
  assert (NA : absolute (t, n, []) = false). { unfold allocation in A. unfold absolute. change (event_control (t, n, [])) with (event_control (t, n, sb)). change (event_bytes (t, n, [])) with (event_bytes (t, n, sb)). lia. }
  assert (EX : exists s d1, loadPropertyB L static propertiesTab k (skipn 12 t) (n - 13) d = Some (s, d1)).
  { assert (FE : Forall is_byte (skipn 12 t)). { destruct Ht as (_ & Ft). rewrite <- (firstn_skipn 12 t) in Ft. now apply Forall_app in Ft as (_ & ?). }
    pose proof (fun i => rd_byte (skipn 12 t) i FE) as B. unfold allocation, event_control, event_length, event_bytes in A. rewrite !andb_true_iff, !Z.eqb_eq, !Z.leb_le in A. destruct A as (((A1 & A2) & A3) & A4).
    unfold loadPropertyB. assert ((11 <? n - 13) || (n - 13 <? 10) = false) as -> by lia. cbv zeta. unfold handleLoadStateMachine.
    change 7 with (Z.ones 3). rewrite Z.land_ones by lia. change (2 ^ 3) with 8. rewrite A3, A4. cbn [Z.eqb Pos.eqb negb LS_LOADED LS_UNLOADED LS_LOADCOMPLETING].
    set (off := if n - 13 =? 10 then 2%nat else 3%nat) in *.
    assert (EP : forall i, rd (skipn 12 t) (off + i) = event_arg (t, n, sb) i).
    { intros i. unfold event_arg. cbn [event_bytes]. f_equal. f_equal. unfold off, event_length. destruct (Z.eqb_spec (n - 13) 10); lia. }
    destruct (allocation_ok L k (fun i => rd (skipn 12 t) (off + i)) d HL HB) as (d1 & E1 & _); auto.
    - rewrite EP. unfold fills in NF. assert (0 <= event_arg (t, n, sb) 4) by (rewrite <- EP; apply B). lia.
    - rewrite (req_size (fun i => rd (skipn 12 t) (off + i))) by (intros i; apply B). rewrite !EP. unfold wanted, first_free in FIT. lia.
    - rewrite E1. eauto. }
  destruct EX as (s & d1 & EL). destruct (load_step L static k t n d s d1 HL HB Ht K6 NA) as (O & B1 & BS & C); auto.
  { intros _. split; auto. change (wanted (t, n, [])) with (wanted (t, n, sb)). lia. }
  change (allocation (t, n, [])) with (allocation (t, n, sb)) in C. change (wanted (t, n, [])) with (wanted (t, n, sb)) in C. destruct C as [(_ & _ & PL & ->)|(C & _)]; [|congruence].
  pose proof (event_processed L static t n sb d k Ht Lb K6 E) as EP. rewrite EL in EP. destruct (EP BS) as (sb' & P & V & _).
  assert (O' : only low_part d (eeByte (0x370 + k) 2 d1)) by (apply only_byte; auto; unfold low_part; lia).
  assert (L1 : long d1) by (eapply only_long; eauto).
  exists sb', (eeByte (0x370 + k) 2 d1). split; auto. split; [eapply device_only; eauto; now apply bytes_byte|]. split.
  { unfold load_state, eeByte, setEe. cbn [eeData]. rewrite rd_wr_same by (rewrite L1; lia). reflexivity. }
  split; auto. split; [|split; auto].
  pose proof (kept_byte (0x370 + k) 2 d1 L1 ltac:(unfold apart; lia)) as KB. destruct PL as (P1 & P2 & P3). destruct (KB k Hk) as (X1 & X2). split; [congruence|]. split; [congruence|].
  intros j Hj NJ. destruct (KB j Hj), (P3 j Hj NJ). split; congruence.
Qed.

(** ** Reading *)
Lemma read_defB tabs o id p d l count start sb : propertyDef tabs o id = Some (Some p) -> is_byte (control p) -> is_u16 (valAddr p) -> storage p d = Some l -> fits p l start count ->
  count * size_of p <= (if numeric p && (id =? 7) then 8 else 10) -> length sb = 23%nat ->
  let data := (if numeric p && (id =? 7) then [0; 0] else []) ++ shown p l start count in
  propertyValueReadB tabs o id count start sb d = Some (true, let sb1 := wr_range sb 12 data in wr sb1 5 (u8 (rd sb1 5 + Z.of_nat (length data)))).
Proof.
  intros HP Hc Hv S F L10 Lb data. unfold propertyValueReadB. rewrite HP. pose proof (size_range p) as SR.
  destruct (pointer_has p d l Hc Hv S) as (v & -> & V & V0). cbv zeta. rewrite size_field. rewrite (proj2 (Z.ltb_ge _ _)) by (destruct (_ && _); lia).
  pose proof (fits_nat p l start count F) as FN. pose proof (shown_length p l start count (proj1 (proj2 F)) FN) as SL. destruct F as (F1 & F2 & F3).
  assert (E : vget v ((start - 1) * size_of p) (Z.to_nat (count * size_of p)) d = Some (firstn (Z.to_nat (count * size_of p)) (skipn (Z.to_nat ((start - 1) * size_of p)) l))).
  { destruct (Z.to_nat (count * size_of p)) eqn:Z0; [apply V0|]. apply V; try lia. nia. }
  rewrite E. rewrite type_field. unfold PDT_CHAR_BLOCK, PID_TABLE_REFERENCE. change (type_of p <? 0x0c) with (numeric p).
  assert (LD : Z.of_nat (length data) = (if numeric p && (id =? 7) then 2 else 0) + count * size_of p) by (unfold data; rewrite app_length, SL; destruct (numeric p && (id =? 7)); cbn [length]; nia).
  unfold data in *. unfold shown in *. cbv zeta in *. destruct (numeric p && (id =? 7)) eqn:NI.
  - apply andb_true_iff in NI as (N & _). rewrite N in *. rewrite bput_ok by (rewrite SL, !wr_length; lia). cbn [app wr_range]. do 4 f_equal. cbn [app length] in LD |- *. lia.
  - rewrite bput_ok by (rewrite SL; lia). cbn [app] in *. rewrite LD. reflexivity.
Qed.
Lemma start_small t : telegram t -> f_start t < 256 -> startIndex t = f_start t.
Proof.
  intros Ht H. apply start_field; [apply Ht|]. unfold f_start in H. pose proof (Z.mod_pos_bound (rd t 10) 16 ltac:(lia)). pose proof (rd_byte t 11 (proj2 Ht)) as Y. red in Y. lia.
Qed.
Lemma read_answer L static tabs t n sb d p l : telegram t -> is_read t -> length sb = 23%nat -> has_property tabs (f_object t) p -> f_id t = pid p -> storage p d = Some l ->
  fits p l (f_start t) (f_count t) -> f_start t < 256 -> f_count t * size_of p <= (if numeric p && (pid p =? 7) then 8 else 10) -> f_count t <= 1 \/ numeric p = false ->
  exists sb', processPropertyApciB L static tabs t n sb d = Some (sb', d) /\
    value_answer sb' = Some (f_object t, f_id t, f_count t, f_start t, shown_value p (f_id t) l (f_start t) (f_count t)) /\ telegram_bytes sb' <= 23.
Proof.
  intros Ht HR Lb HP Hi S F S256 L10 HN. pose proof (def_has _ _ _ HP) as E. destruct HP as (_ & Hc & Hv & _).
  rewrite process_readB by auto. rewrite start_small by auto. rewrite Hi.
  pose proof (fits_nat p l _ _ F) as FN. pose proof (shown_length p l _ _ (proj1 (proj2 F)) FN) as SL. pose proof (size_range p) as SR.
  rewrite (read_defB tabs _ _ p d l) by (auto; now rewrite header_length). eexists. split; [reflexivity|]. unfold shown_value. rewrite <- shown_elements by (destruct F as (F1 & F2 & _); auto).
  destruct (answer_with t sb ((if numeric p && (pid p =? 7) then [0; 0] else []) ++ shown p l (f_start t) (f_count t)) Lb (proj2 Ht)) as (V & _ & T & _).
  { rewrite app_length, SL. destruct (numeric p && (pid p =? 7)); cbn [length]; destruct F; lia. }
  rewrite <- Hi in *. split; [exact V|exact T].
Qed.

(** ** Checksums *)
Lemma ee_rd d a : 0x3300 <= a -> rd (eeData d) (Z.to_nat (a - 0x3300)) = ee d a. Proof. reflexivity. Qed.
Lemma two_bytes l i : 0 <= i -> (Z.to_nat i + 2 <= length l)%nat -> zget l i 2 = Some [rd l (Z.to_nat i); rd l (Z.to_nat i + 1)].
Proof.
  intros H1 H2. rewrite zget_ok by auto. f_equal. apply list_ext with (d := 0); [now rewrite sub_length|]. intros j Hj. rewrite sub_length in Hj by auto.
  change (rd (firstn 2 (skipn (Z.to_nat i) l)) j = rd [rd l (Z.to_nat i); rd l (Z.to_nat i + 1)] j). rewrite rd_sub by auto. destruct j as [|[|j]]; [|reflexivity|lia]. cbn. f_equal. lia.
Qed.
Lemma pointers_of k : 1 <= k <= 4 -> pointerOf propertiesTab k PID_TABLE_REFERENCE = Some (VEe (reference_at k - 0x3300)) /\ pointerOf propertiesTab k PID_MCB_TABLE = Some (VEe (block_at k - 0x3300)).
Proof.
  intros H. assert (K : k = 1 \/ k = 2 \/ k = 3 \/ k = 4) by lia. destruct K as [-> |[-> |[-> | ->]]]; split; reflexivity.
Qed.
Lemma reference_range k : 0x3678 <= reference_at k <= 0x3682.
Proof. unfold reference_at. repeat (destruct (_ =? _); [lia|]). lia. Qed.
Lemma crc_stored L k d : long d -> Forall is_byte (eeData d) -> eeStart L = 0x3300 -> 1 <= k <= 4 ->
  block_size d k = 0 \/ (0x3300 <= reference d k /\ reference d k + block_size d k <= 0x3f00) ->
  let c := systemb_crc16 (memory d (reference d k) (Z.to_nat (block_size d k))) in
  storeCrc L propertiesTab k d = Some (eeByte (block_at k - 0x3300 + 7) (u8 c) (eeByte (block_at k - 0x3300 + 6) (u8 (Z.shiftr c 8)) d)).
Proof.
  intros HL HB HS Hk HR c. destruct (pointers_of k Hk) as (P1 & P2). pose proof (reference_range k) as RR. unfold storeCrc. rewrite P1. cbn [vget]. rewrite two_bytes by (unfold long in HL; lia). cbv zeta. rewrite P2. cbn [vget].
  assert (BA : 0x36a4 <= block_at k <= 0x36bc) by (unfold block_at; lia). rewrite two_bytes by (unfold long in HL; lia).
  pose proof (ee_is_byte d (reference_at k) HB) as R0. pose proof (ee_is_byte d (reference_at k + 1) HB) as R1.
  pose proof (ee_is_byte d (block_at k + 2) HB) as B2. pose proof (ee_is_byte d (block_at k + 3) HB) as B3. red in R0, R1, B2, B3.
  assert (ER : u16 (Z.shiftl (rd [rd (eeData d) (Z.to_nat (reference_at k - 0x3300 + 0)); rd (eeData d) (Z.to_nat (reference_at k - 0x3300 + 0) + 1)] 1) 8 +
     rd [rd (eeData d) (Z.to_nat (reference_at k - 0x3300 + 0)); rd (eeData d) (Z.to_nat (reference_at k - 0x3300 + 0) + 1)] 0) = reference d k).
  { cbn [rd nth]. replace (Z.to_nat (reference_at k - 0x3300 + 0)) with (Z.to_nat (reference_at k - 0x3300)) by (f_equal; lia). replace (Z.to_nat (reference_at k - 0x3300) + 1)%nat with (Z.to_nat (reference_at k + 1 - 0x3300)) by lia.
    change (rd (eeData d) (Z.to_nat (reference_at k - 0x3300))) with (ee d (reference_at k)). change (rd (eeData d) (Z.to_nat (reference_at k + 1 - 0x3300))) with (ee d (reference_at k + 1)).
    unfold rd. cbn [nth]. rewrite Z.shiftl_mul_pow2 by lia. change (2 ^ 8) with 256. unfold reference. rewrite u16_id; [lia|]. red. lia. }
  rewrite ER.
  assert (EB : u16 (Z.shiftl (rd [rd (eeData d) (Z.to_nat (block_at k - 0x3300 + 2)); rd (eeData d) (Z.to_nat (block_at k - 0x3300 + 2) + 1)] 0) 8 +
     rd [rd (eeData d) (Z.to_nat (block_at k - 0x3300 + 2)); rd (eeData d) (Z.to_nat (block_at k - 0x3300 + 2) + 1)] 1) = block_size d k).
  { replace (Z.to_nat (block_at k - 0x3300 + 2) + 1)%nat with (Z.to_nat (block_at k + 3 - 0x3300)) by lia. replace (Z.to_nat (block_at k - 0x3300 + 2)) with (Z.to_nat (block_at k + 2 - 0x3300)) by lia.
    change (rd (eeData d) (Z.to_nat (block_at k + 2 - 0x3300))) with (ee d (block_at k + 2)). change (rd (eeData d) (Z.to_nat (block_at k + 3 - 0x3300))) with (ee d (block_at k + 3)).
    unfold rd. cbn [nth]. rewrite Z.shiftl_mul_pow2 by lia. change (2 ^ 8) with 256. unfold block_size. rewrite u16_id; [lia|]. red. lia. }
  rewrite EB, HS.
  assert (EM : zget (eeData d) (reference d k - 0x3300) (Z.to_nat (block_size d k)) = Some (memory d (reference d k) (Z.to_nat (block_size d k)))).
  { unfold memory. destruct HR as [-> |(H1 & H2)]; [reflexivity|]. apply zget_ok; [lia|]. rewrite HL. assert (0 <= block_size d k) by (unfold block_size; lia). lia. }
  rewrite EM. fold c. cbn [vput]. rewrite zput_ok by (cbn [length]; unfold long in HL; lia). cbn [wr_range]. f_equal.
  unfold eeByte, setEe. cbn [memMapper eeData eeModified ramData status]. rewrite !(u8_id (u8 _)) by apply u8_byte. do 2 f_equal. lia.
Qed.
