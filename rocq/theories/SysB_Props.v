(** Loading a System B device: the theorems (C84-C87) *)
From Verif Require Import Base Bits Telegram_Model Mapper_Model Mapper_Spec MemReq_Model MemReq_Spec MemReq_Proofs MemReq_Props Prop_Model Prop_Spec Prop_Proofs Prop_Load Prop_Write Prop_Props
  CRC_Spec CRC_Model CRC_Proofs SysB_Model SysB_Spec SysB_Proofs SysB_Answer.

(** ** C84 *)
(** A relative allocation for which there is room and that does not fill: the table gets the memory asked for, below every table there is and above the device's own data; the other tables,
    and every byte in the memory for tables, stay as they are; the event is answered with "loading" *)
Theorem C84_allocate L static t n sb d b k : sysb_device L d -> request_fits (t, n, sb) -> is_table k -> allocates k (t, n, sb) = true -> fills (t, n, sb) = false ->
  used_from d b -> first_free + wanted (t, n, sb) <= b ->
  exists sb' d', processPropertyApciB L static propertiesTab t n sb d = Some (sb', d') /\ sysb_device L d' /\ load_state d' k = 2 /\ value_answer sb' = Some (k, 5, f_count t, f_start t, [2]) /\
    table_size d' k = wanted (t, n, sb) /\ b - wanted (t, n, sb) <= table_start d' k /\ table_start d' k + wanted (t, n, sb) <= end_free /\
    (forall j, is_table j -> table_start d j <> 0 -> table_start d' k + wanted (t, n, sb) <= table_start d j) /\
    (forall j, is_table j -> j <> k -> table_start d' j = table_start d j /\ table_size d' j = table_size d j) /\
    (forall a, first_free <= a -> ee d' a = ee d a).
Proof.
  intros HD RF Hk A NF U FIT. destruct (allocate_step L static t n sb d b k HD RF Hk A NF U FIT) as (sb' & d' & E & D' & LS & V & (P1 & P2 & P3) & O & LE).
  destruct (lowest_ok d (proj1 (proj2 (device_long L d HD)))) as (L1 & L2 & _).
  exists sb', d'. do 4 (split; [assumption|]). split; [assumption|]. rewrite P1. split; [lia|]. split; [lia|]. split; [intros j Hj N; specialize (L2 j Hj N); lia|]. split; [assumption|].
  intros a Ha. now apply only_high.
Qed.
Print Assumptions C84_allocate.
(** Partial: without filling, without absolute addresses, while the room suffices. After any history of load events and reads the tables lie in the memory for tables and no two share a byte;
    no byte in that memory has changed *)
Theorem C84_tables_disjoint_partial L static l d b out d' : sysb_device L d -> tidy d -> used_from d b -> Forall request_fits l -> Forall plain l -> first_free + total l <= b ->
  propRequestsB L static propertiesTab l d = Some (out, d') ->
  tidy d' /\ used_from d' (b - total l) /\ forall a, first_free <= a -> ee d' a = ee d a.
Proof.
  intros HD T U RF P FIT H. destruct (device_long L d HD) as (HL & HB & _). destruct (SysB_Proofs.history L static l d b out d') as (G & O); auto; [now constructor|].
  split; [apply G|]. split; [apply G|]. intros a Ha. now apply only_high.
Qed.
Print Assumptions C84_tables_disjoint_partial.
(** a System B device without tables *)
Definition sysb : layout := mkL 0x3300 3072 0x5FC 0x304 cfg0 0x7B0.
Definition fresh : dev := mkDev None (repeat 0 (Z.to_nat 3072)) false (repeat 9 (Z.to_nat 0x307)) 0x2e.
Lemma fresh_ok : sysb_device sysb fresh.
Proof.
  split; [repeat split; cbn; lia|]. split; [|split; reflexivity]. constructor; cbn [fresh eeData ramData status memMapper].
  - rewrite repeat_length. split; [reflexivity|]. apply blank_bytes. red; lia.
  - rewrite repeat_length. split; [reflexivity|]. apply blank_bytes. red; lia.
  - red; lia.
  - discriminate.
Qed.
Lemma fresh_start k : table_start fresh k = 0.
Proof. unfold table_start, ee, fresh. cbn [eeData]. unfold rd. now rewrite !nth_repeat. Qed.
Lemma fresh_tidy : tidy fresh /\ used_from fresh end_free.
Proof.
  split; [split|split; [lia|]].
  - intros k a _ (N & _). now rewrite fresh_start in N.
  - intros j k a _ _ (N & _). now rewrite fresh_start in N.
  - intros k _ N. now rewrite fresh_start in N.
Qed.
(** five tables of 0x20, 0x30, 0x100, 8 and 16 bytes; the association table is unloaded and allocated again *)
Definition alloc (o hi lo : Z) : request := event o [3; 11; 0; 0; hi; lo; 0; 0].
Definition downloadB : list request :=
  [event 1 [4]; event 1 [1]; alloc 1 0 0x20; event 1 [2]; event 2 [1]; alloc 2 0 0x30; (preq 0x3d5 2 7 1 1 [], 13, empty23); event 2 [4]; alloc 2 0 0x30; event 2 [2];
   alloc 3 1 0; event 3 [2]; alloc 4 0 8; alloc 5 0 16].
Example C84_hypotheses : sysb_device sysb fresh /\ tidy fresh /\ used_from fresh end_free /\ Forall request_fits downloadB /\ Forall plain downloadB /\ first_free + total downloadB <= end_free /\
  (let '(t, n, sb) := alloc 3 1 0 in allocates 3 (t, n, sb) = true /\ fills (t, n, sb) = false /\ wanted (t, n, sb) = 256) /\
  option_map (fun x => map (fun k => (table_start (snd x) k, table_size (snd x) k)) [1; 2; 3; 4; 5]) (propRequestsB sysb 0 propertiesTab downloadB fresh) =
    Some [(0x3a7e, 0x20); (0x3a1e, 0x30); (0x391e, 0x100); (0x3916, 8); (0x3906, 16)].
Proof.
  split; [apply fresh_ok|]. split; [apply fresh_tidy|]. split; [apply fresh_tidy|]. split.
  { unfold downloadB. repeat (apply Forall_cons; [split; [telegram_is_ok|split; [vm_compute; split; discriminate|telegram_is_ok]]|]). apply Forall_nil. }
  split.
  { assert (X : forall o data, 0 <= o < 6 -> event_for o (event o data) = true -> absolute (event o data) = false -> fills (event o data) = false -> plain (event o data)).
    { intros o data H1 H2 H3 H4. right. right. exists o. auto. }
    unfold downloadB, alloc. repeat (apply Forall_cons; [first [apply X; [lia|reflexivity|reflexivity|reflexivity]|left; reflexivity]|]). apply Forall_nil. }
  split; [vm_compute; discriminate|]. split; [cbn [alloc event]; repeat split|]. vm_compute. reflexivity.
Qed.
(** Refuted as stated: with fill, the bytes of the table above are overwritten, not those of the new one *)
Definition with_first : dev := match propRequestsB sysb 0 propertiesTab [alloc 1 0 0x20] fresh with Some (_, d) => d | None => fresh end.
Definition one_byte (a v : Z) (d : dev) : dev := eeByte (a - 0x3300) v d.
Theorem C84_fill_refuted : let d := one_byte 0x3a80 0x77 with_first in let '(t, n, sb) := event 2 [3; 11; 0; 0; 0; 0x10; 1; 0xaa] in
  area d 1 0x3a80 /\ ee d 0x3a80 = 0x77 /\
  option_map (fun x => (table_start (snd x) 2, table_size (snd x) 2, ee (snd x) 0x3a80, ee (snd x) 0x3a6e)) (processPropertyApciB sysb 0 propertiesTab t n sb d) = Some (0x3a6e, 0x10, 0xaa, 0).
Proof. cbn [event]. cbv zeta. split; [vm_compute; split; [discriminate|split; [discriminate|reflexivity]]|]. split; vm_compute; reflexivity. Qed.
Print Assumptions C84_fill_refuted.
(** Refuted as stated: there is no check that memory is left. An allocation of 1088 bytes is accepted although the table then covers the load states (0x3670) and the place of its own address;
    one of 2000 bytes although it starts below the EEPROM *)
Theorem C84_exhausted_refuted : let f := fun hi lo => let '(t, n, sb) := alloc 3 hi lo in
    option_map (fun x => (value_answer (fst x), table_start (snd x) 3, table_size (snd x) 3)) (processPropertyApciB sysb 0 propertiesTab t n sb fresh) in
  f 4 0x40 = Some (Some (3, 5, 1, 1, [2]), 0x365e, 0x440) /\ f 8 0 = Some (Some (3, 5, 1, 1, [2]), 0x329e, 0x800).
Proof. vm_compute. split; reflexivity. Qed.
Print Assumptions C84_exhausted_refuted.

(** ** C85 *)
Lemma reference_property k : 3 <= k <= 5 -> exists p, has_property propertiesTab k p /\ pid p = 7 /\ size_of p = 2 /\ numeric p = true /\ forall d, storage p d = Some (skipn (Z.to_nat (start_at k - 0x3300)) (eeData d)).
Proof.
  intros H. assert (K : k = 3 \/ k = 4 \/ k = 5) by lia.
  assert (G : forall o pre p post, nth_error propertiesTab (Z.to_nat o) = Some (pre ++ p :: post) -> 0 <= o < 6 -> is_byte (control p) -> is_u16 (valAddr p) -> pid p <> 0 ->
     forallb (fun q => negb (pid q =? 0) && negb (pid q =? pid p)) pre = true -> has_property propertiesTab o p).
  { intros o pre p post E Ho B W NZ F. split; [auto|]. split; [auto|]. split; [auto|]. split; [auto|]. exists pre, post. split; auto. apply Forall_forall. intros q I.
    rewrite forallb_forall in F. specialize (F q I). rewrite andb_true_iff, !negb_true_iff, !Z.eqb_neq in F. exact F. }
  destruct K as [-> |[-> | ->]].
  - exists (mkP 7 0x64 (eePtr commsTabAddrOffset)). split; [|repeat split]. apply (G 3 (firstn 4 appObjectProps) _ (skipn 5 appObjectProps)); try reflexivity; try (vm_compute; split; [discriminate|reflexivity]). discriminate.
  - exists (mkP 7 0x64 (eePtr eibObjAddrOffset)). split; [|repeat split]. apply (G 4 (firstn 2 interfaceObjectProps) _ (skipn 3 interfaceObjectProps)); try reflexivity; try (vm_compute; split; [discriminate|reflexivity]). discriminate.
  - exists (mkP 7 0x64 (eePtr commsSeg0AddrOffset)). split; [|repeat split]. apply (G 5 (firstn 2 knxAssocTabObjectProps) _ (skipn 3 knxAssocTabObjectProps)); try reflexivity; try (vm_compute; split; [discriminate|reflexivity]). discriminate.
Qed.
(** Partial: communication objects, interface objects and the second program only. A read of the table reference shows the address of the table, as four bytes *)
Theorem C85_reference_partial L static r n sb d k : sysb_device L d -> telegram r -> is_read r -> length sb = 23%nat -> 3 <= k <= 5 -> f_object r = k -> f_id r = 7 -> f_count r = 1 -> f_start r = 1 ->
  exists sb', processPropertyApciB L static propertiesTab r n sb d = Some (sb', d) /\ value_answer sb' = Some (k, 7, 1, 1, [0; 0; table_start d k / 256; table_start d k mod 256]).
Proof.
  intros HD Hr HR Lb Hk Ro Ri Rc Rs. destruct (device_long L d HD) as (HL & HB & _). destruct (reference_property k Hk) as (p & HP & P7 & PS & PN & ST).
  assert (SA : 0x367c <= start_at k <= 0x3682) by (assert (K3 : k = 3 \/ k = 4 \/ k = 5) by lia; destruct K3 as [-> |[-> | ->]]; unfold start_at; cbn; lia).
  destruct (read_answer L static propertiesTab r n sb d p (skipn (Z.to_nat (start_at k - 0x3300)) (eeData d))) as (sb' & E & V & _); auto; try lia.
  { now rewrite Ro. } { unfold fits. rewrite Rs, Rc, PS. split; [lia|]. split; [lia|]. rewrite skipn_length, HL. lia. } { rewrite PN, P7, Rc, PS. cbn. lia. }
  exists sb'. split; auto. rewrite V, Ro, Ri, Rc, Rs. repeat f_equal. unfold shown_value. rewrite PN. change (true && (7 =? 7)) with true. cbv iota. unfold elements. change (Z.to_nat 1) with 1%nat. cbn [seq map concat].
  unfold element. cbv zeta. rewrite PN, PS. change (Z.to_nat ((1 + Z.of_nat 0 - 1) * 2)) with 0%nat. change (Z.to_nat 2) with 2%nat. cbn [skipn].
  assert (X : firstn 2 (skipn (Z.to_nat (start_at k - 0x3300)) (eeData d)) = [ee d (start_at k); ee d (start_at k + 1)]).
  { apply list_ext with (d := 0); [rewrite sub_length by (rewrite HL; lia); reflexivity|]. intros j Hj. rewrite sub_length in Hj by (rewrite HL; lia).
    change (rd (firstn 2 (skipn (Z.to_nat (start_at k - 0x3300)) (eeData d))) j = rd [ee d (start_at k); ee d (start_at k + 1)] j). rewrite rd_sub by auto.
    destruct j as [|[|j]]; [| |lia]; unfold ee; cbn [rd nth]; f_equal; lia. }
  rewrite X. cbn [rev app]. unfold table_start. pose proof (ee_is_byte d (start_at k) HB) as B0. pose proof (ee_is_byte d (start_at k + 1) HB) as B1. red in B0, B1.
  rewrite (Z.mul_comm 256), Z.div_add, Z.mod_add, Z.div_small, Z.mod_small by lia. reflexivity.
Qed.
Print Assumptions C85_reference_partial.
Example C85_hypotheses : let r := preq 0x3d5 3 7 1 1 [] in telegram r /\ is_read r /\ f_object r = 3 /\ f_id r = 7 /\ f_count r = 1 /\ f_start r = 1 /\
  option_map (fun x => option_map (fun y => value_answer (fst y)) (processPropertyApciB sysb 0 propertiesTab r 13 empty23 (snd x))) (propRequestsB sysb 0 propertiesTab [alloc 3 1 0] fresh) =
    Some (Some (Some (3, 7, 1, 1, [0; 0; 0x39; 0x9e]))).
Proof. cbv zeta. split; [telegram_is_ok|]. do 5 (split; [reflexivity|]). vm_compute. reflexivity. Qed.
(** Refuted for the address and the association table: memory is allocated at 0x3a7e, the property shows no address *)
Theorem C85_reference_refuted : Forall (fun k => option_map (fun x => (table_start (snd x) k, option_map (fun y => value_answer (fst y)) (processPropertyApciB sysb 0 propertiesTab (preq 0x3d5 k 7 1 1 []) 13 empty23 (snd x))))
    (propRequestsB sysb 0 propertiesTab [alloc k 0 0x20] fresh) = Some (0x3a7e, Some (Some (k, 7, 1, 1, [0; 0; 0; 0])))) [1; 2].
Proof. repeat (apply Forall_cons; [vm_compute; reflexivity|]). apply Forall_nil. Qed.
Print Assumptions C85_reference_refuted.

(** ** C86 *)
(** Partial: the memory is the one of the property table reference, its size that of the property memory control block. "Load completed" for one of the first four tables stores the CRC of that memory in the
    last two bytes of the memory control block, is answered with "loaded" and changes nothing else but the load state *)
Theorem C86_crc_partial L static t n sb d k : sysb_device L d -> request_fits (t, n, sb) -> 1 <= k <= 4 -> completes k (t, n, sb) ->
  block_size d k = 0 \/ (0x3300 <= reference d k /\ reference d k + block_size d k <= 0x3f00) ->
  exists sb' d' c, processPropertyApciB L static propertiesTab t n sb d = Some (sb', d') /\ sysb_device L d' /\ load_state d' k = 1 /\ value_answer sb' = Some (k, 5, f_count t, f_start t, [1]) /\
    is_u16 c /\ bits_msb 16 c = crc_of (memory d (reference d k) (Z.to_nat (block_size d k))) /\ block d' k = firstn 6 (block d k) ++ [c / 256; c mod 256] /\
    ramData d' = ramData d /\ (forall a, 0x3300 <= a -> a <> 0x3670 + k -> ~ block_at k + 6 <= a <= block_at k + 7 -> ee d' a = ee d a).
Proof.
  intros HD (Ht & _ & Lb & _) Hk (E & W & C) HR. destruct (device_long L d HD) as (HL & HB & HS).
  set (m := memory d (reference d k) (Z.to_nat (block_size d k))) in *.
  assert (FM : Forall is_byte m). { unfold m, memory. pose proof HB as F. rewrite <- (firstn_skipn (Z.to_nat (reference d k - 0x3300)) (eeData d)) in F. apply Forall_app in F as (_ & F).
    rewrite <- (firstn_skipn (Z.to_nat (block_size d k))) in F. now apply Forall_app in F as (F & _). }
  destruct (systemb_remainder m FM) as (CB & CU). set (c := systemb_crc16 m) in *.
  assert (EL : loadPropertyB L static propertiesTab k (skipn 12 t) (n - 13) d = Some (1, eeByte (block_at k - 0x3300 + 7) (u8 c) (eeByte (block_at k - 0x3300 + 6) (u8 (Z.shiftr c 8)) d))).
  { unfold loadPropertyB. unfold event_well_sized, event_length in W. assert ((11 <? n - 13) || (n - 13 <? 10) = false) as -> by lia. cbv zeta. unfold handleLoadStateMachine.
    change 7 with (Z.ones 3). rewrite Z.land_ones by lia. change (2 ^ 3) with 8. unfold event_control in C. cbn [event_bytes] in C. rewrite C. change (2 =? 1) with false. change (2 =? 2) with true. cbv iota.
    change (LS_LOADED =? LS_LOADED) with true. cbv iota. rewrite (crc_stored L k d HL HB HS Hk HR). reflexivity. }
  pose proof (event_processed L static t n sb d k Ht Lb ltac:(lia) E) as EP. rewrite EL in EP. destruct (EP ltac:(red; lia)) as (sb' & P & V & _). clear EP.
  set (d1 := eeByte (block_at k - 0x3300 + 7) (u8 c) (eeByte (block_at k - 0x3300 + 6) (u8 (Z.shiftr c 8)) d)) in *.
  assert (BA : 0x36a4 <= block_at k <= 0x36bc) by (unfold block_at; lia).
  assert (L1 : long d1) by (now do 2 apply long_byte).
  assert (EE : forall a, 0x3300 <= a -> ee (eeByte (0x370 + k) 1 d1) a = if a =? 0x3670 + k then 1 else if a =? block_at k + 7 then c mod 256 else if a =? block_at k + 6 then c / 256 else ee d a).
  { intros a Ha. rewrite ee_byte by (auto; lia). unfold d1. rewrite !ee_byte by (try apply long_byte; auto; lia). rewrite !(u8_id (u8 _)) by apply u8_byte.
    replace (a - 0x3300 =? 0x370 + k) with (a =? 0x3670 + k) by lia. replace (a - 0x3300 =? block_at k - 0x3300 + 7) with (a =? block_at k + 7) by lia.
    replace (a - 0x3300 =? block_at k - 0x3300 + 6) with (a =? block_at k + 6) by lia. red in CU.
    replace (u8 c) with (c mod 256) by reflexivity. replace (u8 (Z.shiftr c 8)) with (c / 256); [reflexivity|]. rewrite Z.shiftr_div_pow2 by lia. change (2 ^ 8) with 256. symmetry. apply u8_id. red. split; [apply Z.div_pos; lia|apply Z.div_lt_upper_bound; lia]. }
  assert (O : only low_part d (eeByte (0x370 + k) 1 d1)). { unfold d1. do 3 (apply only_byte; [|unfold low_part; lia]). apply only_refl. }
  exists sb', (eeByte (0x370 + k) 1 d1), c. split; auto. split. { eapply device_only; eauto. unfold d1. now do 3 apply bytes_byte. }
  split. { unfold load_state, eeByte, setEe. cbn [eeData]. rewrite rd_wr_same by (rewrite L1; lia). reflexivity. }
  split; auto. split; auto. split; [exact CB|]. split; [|split; [apply (o_ram _ _ _ O)|]].
  - assert (LE : forall x, long x -> length (block x k) = 8%nat) by (intros x HX; unfold block, memory; apply sub_length; rewrite HX; lia).
    assert (RB : forall x i, (i < 8)%nat -> rd (block x k) i = ee x (block_at k + Z.of_nat i)) by (intros x i Hi; unfold block, memory; rewrite rd_sub by auto; unfold ee; f_equal; lia).
    assert (L3 : long (eeByte (0x370 + k) 1 d1)) by (now apply long_byte).
    apply list_ext with (d := 0). { rewrite LE by auto. rewrite app_length, firstn_length, LE by auto. reflexivity. }
    intros i Hi. rewrite LE in Hi by auto. change (rd (block (eeByte (0x370 + k) 1 d1) k) i = nth i (firstn 6 (block d k) ++ [c / 256; c mod 256]) 0). rewrite RB by auto. rewrite EE by lia.
    rewrite (proj2 (Z.eqb_neq _ (0x3670 + k))) by (unfold block_at in *; lia).
    destruct (Nat.ltb_spec i 6) as [I6|I6].
    + rewrite !(proj2 (Z.eqb_neq _ _)) by lia. rewrite app_nth1 by (rewrite firstn_length, LE by auto; lia). rewrite nth_firstn by auto. symmetry. now apply RB.
    + rewrite app_nth2 by (rewrite firstn_length, LE by auto; lia). rewrite firstn_length, LE by auto. assert (Q : i = 6%nat \/ i = 7%nat) by lia. destruct Q as [-> | ->].
      * change (Z.of_nat 6) with 6. rewrite (proj2 (Z.eqb_neq _ _)) by lia. now rewrite Z.eqb_refl.
      * change (Z.of_nat 7) with 7. now rewrite Z.eqb_refl.
  - intros a H1 H2 H3. rewrite EE by auto. rewrite !(proj2 (Z.eqb_neq _ _)) by lia. reflexivity.
Qed.
Print Assumptions C86_crc_partial.
(** the communication object table is allocated, the size is written to the memory control block property, then the load is completed *)
Definition loaded3 : dev :=
  match propRequestsB sysb 0 propertiesTab [alloc 3 0 9; (preq 0x3d7 3 27 1 1 [0; 0; 0; 9; 0; 0xff; 0; 0], 21, empty23)] fresh with
  | Some (_, d) => setEe d (wr_range (eeData d) (Z.to_nat (0x3a95 - 0x3300)) [0x31; 0x32; 0x33; 0x34; 0x35; 0x36; 0x37; 0x38; 0x39])
  | None => fresh
  end.
Lemma loaded3_ok : sysb_device sysb loaded3.
Proof.
  destruct fresh_ok as (A & _ & B & C). split; auto. split; [|split; reflexivity].
  assert (E1 : length (eeData loaded3) = Z.to_nat 3072) by (vm_compute; reflexivity).
  assert (E2 : forallb (fun x => (0 <=? x) && (x <? 256)) (eeData loaded3) = true) by (vm_compute; reflexivity).
  assert (E3 : ramData loaded3 = ramData fresh) by (vm_compute; reflexivity). assert (E4 : status loaded3 = 0x2e) by (vm_compute; reflexivity). assert (E5 : memMapper loaded3 = None) by (vm_compute; reflexivity).
  constructor.
  - rewrite E1. split; [reflexivity|]. apply Forall_forall. intros x I. rewrite forallb_forall in E2. specialize (E2 x I). red. lia.
  - rewrite E3. cbn [fresh ramData]. rewrite repeat_length. split; [reflexivity|]. apply blank_bytes. red; lia.
  - rewrite E4. red; lia.
  - rewrite E5. discriminate.
Qed.
Example C86_hypotheses : let '(t, n, sb) := event 3 [2] in sysb_device sysb loaded3 /\ request_fits (t, n, sb) /\ completes 3 (t, n, sb) /\ block_size loaded3 3 = 9 /\ reference loaded3 3 = 0x3a95 /\
  option_map (fun x => block (snd x) 3) (processPropertyApciB sysb 0 propertiesTab t n sb loaded3) = Some [0; 0; 0; 9; 0; 0xff; 0xe5; 0xcc].
Proof.
  cbn [event]. split; [apply loaded3_ok|]. split; [split; [telegram_is_ok|split; [vm_compute; split; discriminate|telegram_is_ok]]|].
  split; [split; [reflexivity|split; [left; reflexivity|reflexivity]]|]. split; [vm_compute; reflexivity|]. split; vm_compute; reflexivity.
Qed.
(** Refuted as stated: an allocation does not set the size in the memory control block property, so without a write to it the CRC is that of no byte (0x1d0f), not that of the nine bytes allocated *)
Definition loaded3' : dev :=
  match propRequestsB sysb 0 propertiesTab [alloc 3 0 9] fresh with
  | Some (_, d) => setEe d (wr_range (eeData d) (Z.to_nat (0x3a95 - 0x3300)) [0x31; 0x32; 0x33; 0x34; 0x35; 0x36; 0x37; 0x38; 0x39])
  | None => fresh
  end.
Theorem C86_allocated_refuted : let '(t, n, sb) := event 3 [2] in table_start loaded3' 3 = 0x3a95 /\ table_size loaded3' 3 = 9 /\ crc_of (memory loaded3' 0x3a95 9) = bits_msb 16 0xe5cc /\
  option_map (fun x => (load_state (snd x) 3, block (snd x) 3)) (processPropertyApciB sysb 0 propertiesTab t n sb loaded3') = Some (1, [0; 0; 0; 0; 0; 0; 0x1d; 0x0f]).
Proof. cbn [event]. repeat split; vm_compute; reflexivity. Qed.
Print Assumptions C86_allocated_refuted.
(** Refuted as stated: "load completed" for the device object or the second program, and "unload" for the device object, use a null pointer; so does an allocation for the device object use an array outside its bounds *)
Theorem C86_unanswered_refuted : Forall (fun q => let '(t, n, sb) := q in request_fits q /\ processPropertyApciB sysb 0 propertiesTab t n sb fresh = None) [event 0 [2]; event 5 [2]; event 0 [4]; alloc 0 0 1].
Proof. repeat (apply Forall_cons; [split; [split; [telegram_is_ok|split; [vm_compute; split; discriminate|telegram_is_ok]]|vm_compute; reflexivity]|]). apply Forall_nil. Qed.
Print Assumptions C86_unanswered_refuted.

(** ** C87 *)
(** Partial: at most ten bytes (eight of table references), elements that exist, one element of numbers, start below 256. A property is answered with its value in a telegram that is no longer than 23 bytes; nothing changes *)
Theorem C87_read_partial L static tabs t n sb d p l : telegram t -> is_read t -> length sb = 23%nat -> has_property tabs (f_object t) p -> f_id t = pid p -> storage p d = Some l ->
  fits p l (f_start t) (f_count t) -> f_start t < 256 -> f_count t * size_of p <= (if numeric p && (pid p =? 7) then 8 else 10) -> f_count t <= 1 \/ numeric p = false ->
  exists sb', processPropertyApciB L static tabs t n sb d = Some (sb', d) /\
    value_answer sb' = Some (f_object t, f_id t, f_count t, f_start t, shown_value p (f_id t) l (f_start t) (f_count t)) /\ telegram_bytes sb' <= 23.
Proof. apply read_answer. Qed.
Print Assumptions C87_read_partial.
Definition serial_number : pdef := mkP 11 0x36 (eePtr serialOffset).
Example C87_read_hypotheses : let t := preq 0x3d5 0 11 1 1 [] in telegram t /\ is_read t /\ has_property propertiesTab (f_object t) serial_number /\ f_id t = pid serial_number /\
  storage serial_number fresh = Some (skipn (Z.to_nat 0x38a) (eeData fresh)) /\ fits serial_number (skipn (Z.to_nat 0x38a) (eeData fresh)) (f_start t) (f_count t) /\ f_start t = 1 /\
  f_count t * size_of serial_number = 6 /\ numeric serial_number = false.
Proof.
  cbv zeta. split; [telegram_is_ok|]. split; [reflexivity|]. split.
  { split; [vm_compute; split; [discriminate|reflexivity]|]. split; [vm_compute; split; [discriminate|reflexivity]|]. split; [vm_compute; split; [discriminate|reflexivity]|]. split; [discriminate|].
    exists (firstn 5 deviceObjectProps), (skipn 6 deviceObjectProps). split; [reflexivity|]. repeat (apply Forall_cons; [split; discriminate|]). apply Forall_nil. }
  split; [reflexivity|]. split; [reflexivity|]. split; [split; [vm_compute; discriminate|split; vm_compute; discriminate]|]. repeat split.
Qed.
(** Refuted as stated: eleven bytes are answered with a length that does not fit its four bits; twelve bytes, or five table references, are written beyond the response buffer of 23 bytes *)
Theorem C87_long_refuted :
  option_map (fun x => (rd (fst x) 5, value_answer (fst x))) (processPropertyApciB sysb 0 propertiesTab (preq 0x3d5 0 17 11 1 []) 13 empty23 fresh) = Some (0x70, None) /\
  Forall (fun t => telegram t /\ is_read t /\ processPropertyApciB sysb 0 propertiesTab t 13 empty23 fresh = None) [preq 0x3d5 0 11 2 1 []; preq 0x3d5 3 7 5 1 []].
Proof. split; [vm_compute; reflexivity|]. repeat (apply Forall_cons; [split; [telegram_is_ok|split; vm_compute; reflexivity]|]). apply Forall_nil. Qed.
Print Assumptions C87_long_refuted.
(** A memory control block that is written is confirmed, kept byte for byte, marked for saving and read back *)
Theorem C87_block_written L static t n sb d k r m sb2 : sysb_device L d -> telegram t -> is_write t -> length sb = 23%nat -> 1 <= k <= 4 -> f_object t = k -> f_id t = 27 -> f_count t = 1 -> f_start t = 1 ->
  telegram r -> is_read r -> f_object r = k -> f_id r = 27 -> f_count r = 1 -> f_start r = 1 -> length sb2 = 23%nat ->
  let data := firstn 8 (skipn 12 t) in
  exists sb' d' sb2', processPropertyApciB L static propertiesTab t n sb d = Some (sb', d') /\ value_answer sb' = Some (k, 27, 1, 1, data) /\ block d' k = data /\ eeModified d' = true /\ ramData d' = ramData d /\
    (forall a, 0x3300 <= a -> ~ block_at k <= a < block_at k + 8 -> ee d' a = ee d a) /\
    processPropertyApciB L static propertiesTab r m sb2 d' = Some (sb2', d') /\ value_answer sb2' = Some (k, 27, 1, 1, data).
Proof.
  intros HD Ht HW Lb Hk To Ti Tc Ts Hr HR Ro Ri Rc Rs Lb2 data. destruct (device_long L d HD) as (HL & HB & HS).
  assert (LD : length data = 8%nat) by (unfold data; apply sub_length; rewrite (proj1 Ht); lia).
  assert (BA : 0x36a4 <= block_at k <= 0x36bc) by (unfold block_at; lia).
  set (q := Z.to_nat (block_at k - 0x3300)). set (d' := touch (setEe d (wr_range (eeData d) q data))).
  assert (L' : length (eeData d') = Z.to_nat 3072) by (unfold d', touch, setEe; cbn [eeData]; now rewrite wr_range_length).
  assert (RD : forall j, rd (eeData d') j = if (Nat.leb q j && Nat.ltb j (q + 8))%bool then rd data (j - q) else rd (eeData d) j).
  { intros j. unfold d', touch, setEe. cbn [eeData]. rewrite rd_wr_range by (rewrite LD, HL; unfold q; lia). now rewrite LD. }
  assert (BK : firstn 8 (skipn q (eeData d')) = data).
  { apply list_ext with (d := 0). { rewrite sub_length by (rewrite L'; unfold q; lia). now rewrite LD. }
    intros i Hi. rewrite sub_length in Hi by (rewrite L'; unfold q; lia). change (rd (firstn 8 (skipn q (eeData d'))) i = rd data i). rewrite rd_sub by auto. rewrite RD.
    rewrite (proj2 (Nat.leb_le _ _)), (proj2 (Nat.ltb_lt _ _)) by lia. cbn [andb]. f_equal. lia. }
  assert (PD : exists p, propertyDef propertiesTab k 27 = Some (Some p) /\ control p = 0xb8 /\ valuePointer p = Some (VEe (block_at k - 0x3300)) /\ isEepromPointer p = true).
  { assert (K : k = 1 \/ k = 2 \/ k = 3 \/ k = 4) by lia. destruct K as [-> |[-> |[-> | ->]]]; eexists; repeat split. }
  destruct PD as (p & PD & PC & PV & PE).
  assert (PT : ptype p = 0x18) by (unfold ptype; now rewrite PC). assert (PZ : psize p = 8) by (unfold psize; now rewrite PC).
  destruct (answer_with t sb data Lb (proj2 Ht) ltac:(lia)) as (V & _). destruct (answer_with r sb2 data Lb2 (proj2 Hr) ltac:(lia)) as (V2 & _). cbv zeta in V, V2. rewrite LD in V, V2.
  eexists _, d', _. split; [|split; [rewrite To, Ti, Tc, Ts in V; exact V|]].
  - rewrite process_writeB by auto. rewrite start_small by (auto; lia). rewrite To, Ti, Tc, Ts. unfold propertyValueWriteB. rewrite PD, PC. change (Z.land 0xb8 PC_WRITABLE =? 0) with false. cbv iota. rewrite PV, PT, PZ.
    change (0x18 =? PDT_CONTROL) with false. cbv iota zeta. change (Z.to_nat (1 * 8)) with 8%nat. change ((1 - 1) * 8) with 0. rewrite bget_ok by (rewrite (proj1 Ht); lia). fold data. unfold PID_MCB_TABLE. change (27 =? 27) with true. cbv iota.
    cbn [vput]. rewrite Z.add_0_r. rewrite zput_ok by (rewrite ?LD, ?HL; lia). fold q. cbn [vget]. rewrite Z.add_0_r. rewrite zget_ok by (cbn [setEe eeData]; rewrite ?wr_range_length, ?HL; lia). fold q.
    change (eeData (setEe d (wr_range (eeData d) q data))) with (eeData d'). rewrite BK. rewrite bput_ok by (rewrite header_length; lia). rewrite PE. reflexivity.
  - split; [exact BK|]. split; [reflexivity|]. split; [reflexivity|]. split.
    { intros a H1 H2. unfold ee. rewrite RD. assert ((Nat.leb q (Z.to_nat (a - 13056)) && Nat.ltb (Z.to_nat (a - 13056)) (q + 8))%bool = false) as -> by (unfold q; lia). reflexivity. }
    split; [|rewrite Ro, Ri, Rc, Rs in V2; exact V2].
    rewrite process_readB by auto. rewrite start_small by (auto; lia). rewrite Ro, Ri, Rc, Rs. unfold propertyValueReadB. rewrite PD, PV, PT, PZ. cbv zeta. change (12 <? 1 * 8) with false. cbv iota.
    change (Z.to_nat (1 * 8)) with 8%nat. change ((1 - 1) * 8) with 0. cbn [vget]. rewrite Z.add_0_r. rewrite zget_ok by (rewrite ?L'; lia). fold q. rewrite BK.
    change (0x18 <? PDT_CHAR_BLOCK) with false. cbn [andb]. rewrite bput_ok by (rewrite header_length; lia). reflexivity.
Qed.
Print Assumptions C87_block_written.
Example C87_block_hypotheses : let t := preq 0x3d7 3 27 1 1 [0; 0; 0; 9; 1; 0xff; 2; 3] in let r := preq 0x3d5 3 27 1 1 [] in telegram t /\ is_write t /\ f_object t = 3 /\ f_id t = 27 /\ f_count t = 1 /\ f_start t = 1 /\
  telegram r /\ is_read r /\ f_object r = 3 /\ f_id r = 27 /\ f_count r = 1 /\ f_start r = 1 /\ firstn 8 (skipn 12 t) = [0; 0; 0; 9; 1; 0xff; 2; 3].
Proof. cbv zeta. split; [telegram_is_ok|]. do 5 (split; [reflexivity|]). split; [telegram_is_ok|]. repeat split. Qed.
