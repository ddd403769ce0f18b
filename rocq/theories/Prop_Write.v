(** Interface object properties: writing, and the properties of a BCU 2 *)
From Verif Require Import Base Bits Telegram_Model Mapper_Model Mapper_Spec Mapper_Proofs MemReq_Model MemReq_Spec MemReq_Proofs MemReq_Op Prop_Model Prop_Spec Prop_Proofs Prop_Load.

Lemma splice_wr (l bs : list Z) pos : (pos + length bs <= length l)%nat -> wr_range l pos bs = splice l pos bs.
Proof.
  intros H. unfold splice. apply list_ext with (d := 0).
  - rewrite wr_range_length, !app_length, firstn_length, skipn_length. lia.
  - intros i _. change (rd (wr_range l pos bs) i = nth i (firstn pos l ++ bs ++ skipn (pos + length bs) l) 0). rewrite rd_wr_range by auto.
    destruct (Nat.ltb_spec i pos) as [A|A].
    + rewrite app_nth1 by (rewrite firstn_length; lia). rewrite nth_firstn by auto. assert ((Nat.leb pos i && Nat.ltb i (pos + length bs))%bool = false) as -> by lia. reflexivity.
    + rewrite app_nth2 by (rewrite firstn_length; lia). rewrite firstn_length, Nat.min_l by lia. destruct (Nat.ltb_spec i (pos + length bs)) as [B|B].
      * rewrite (proj2 (Nat.leb_le _ _)) by lia. cbn [andb]. rewrite app_nth1 by lia. reflexivity.
      * rewrite andb_false_r. rewrite app_nth2 by lia. rewrite nth_skipn. unfold rd. f_equal. lia.
Qed.
Lemma skipn_wr (l bs : list Z) o k : (o + k + length bs <= length l)%nat -> skipn o (wr_range l (o + k) bs) = wr_range (skipn o l) k bs.
Proof.
  intros H. apply list_ext with (d := 0); [now rewrite skipn_length, !wr_range_length, skipn_length|]. intros i _. rewrite nth_skipn.
  change (rd (wr_range l (o + k) bs) (o + i) = rd (wr_range (skipn o l) k bs) i). rewrite !rd_wr_range by (rewrite ?skipn_length; lia).
  replace (Nat.leb (o + k) (o + i) && Nat.ltb (o + i) (o + k + length bs))%bool with (Nat.leb k i && Nat.ltb i (k + length bs))%bool by lia.
  destruct (_ && _)%bool eqn:E; [f_equal; lia|]. unfold rd. now rewrite nth_skipn.
Qed.
Lemma zput_ok l i bs : 0 <= i -> (Z.to_nat i + length bs <= length l)%nat -> zput l i bs = Some (wr_range l (Z.to_nat i) bs).
Proof.
  intros H1 H2. unfold zput. destruct bs as [|b bs]; [reflexivity|]. cbn [length Nat.eqb]. rewrite (proj2 (Z.ltb_ge _ _)) by lia. now apply bput_ok.
Qed.
Lemma eeprom_flag p : in_eeprom p -> isEepromPointer p = true.
Proof.
  intros (_ & E). unfold isEepromPointer, PPT_USER_EEPROM. change 0x4000 with (2 ^ 14). rewrite land_bit, negb_involutive by lia.
  assert (M : Z.testbit (Z.land (valAddr p) PPT_MASK) 14 = true) by (rewrite mask_field, E; reflexivity). rewrite Z.land_spec in M. now apply andb_true_iff in M.
Qed.
Lemma ram_flag p : in_ram p -> isEepromPointer p = false.
Proof.
  intros (_ & E). unfold isEepromPointer, PPT_USER_EEPROM. change 0x4000 with (2 ^ 14). rewrite land_bit, negb_involutive by lia.
  assert (M : Z.testbit (Z.land (valAddr p) PPT_MASK) 14 = false) by (rewrite mask_field, E; reflexivity). rewrite Z.land_spec in M. apply andb_false_iff in M as [M|M]; [auto|discriminate].
Qed.
Lemma write_def L static tabs t n o id p d l count start sb :
  propertyDef tabs o id = Some (Some p) -> is_byte (control p) -> is_u16 (valAddr p) -> writable p = true -> type_of p <> 0 -> in_ram p \/ in_eeprom p ->
  storage p d = Some l -> fits p l start count -> count * size_of p <= 10 -> length sb = 23%nat -> length t = 23%nat ->
  let bs := firstn (Z.to_nat (count * size_of p)) (skipn 12 t) in
  exists d', propertyValueWrite L static tabs t n o id count start sb d =
      Some (true, (let sb1 := wr_range sb 12 bs in wr sb1 5 (u8 (rd sb1 5 + count * size_of p))), d') /\
    written p start (rev bs) d d' /\ storage p d' = Some (wr_range l (Z.to_nat ((start - 1) * size_of p)) (rev bs)).
Proof.
  intros HP Hc Hv HW HT HM S F L10 Lb Lt bs. pose proof (size_range p) as SR. pose proof (fits_nat p l start count F) as FN. destruct F as (F1 & F2 & F3).
  assert (LB : length bs = Z.to_nat (count * size_of p)) by (unfold bs; apply sub_length; lia).
  set (k := (start - 1) * size_of p) in *. assert (K0 : 0 <= k) by (unfold k; nia).
  unfold propertyValueWrite. rewrite HP, writable_field, HW. cbn [negb]. rewrite type_field. unfold PDT_CONTROL. rewrite (proj2 (Z.eqb_neq _ _) HT), size_field. cbv zeta. fold k.
  rewrite bget_ok by lia. fold bs.
  assert (PUT : exists d1, (exists v, valuePointer p = Some v /\ vput v k (rev bs) d = Some d1) /\ storage p d1 = Some (wr_range l (Z.to_nat k) (rev bs)) /\
     memMapper d1 = memMapper d /\ status d1 = status d /\ eeModified d1 = eeModified d /\
     ((in_ram p /\ ramData d1 = splice (ramData d) (where_ p start) (rev bs) /\ eeData d1 = eeData d) \/ (in_eeprom p /\ eeData d1 = splice (eeData d) (where_ p start) (rev bs) /\ ramData d1 = ramData d))).
  { pose proof (Z.mod_pos_bound (valAddr p) 4096 ltac:(lia)) as O. set (o' := valAddr p mod 4096) in *.
    unfold valuePointer. rewrite pointer_field, negb_involutive, mask_field, offset_field. unfold storage in *. cbv zeta in *. fold o' in S |- *.
    destruct HM as [(T & E)|(T & E)]; rewrite T, E in *; cbn [Z.eqb Z.mul Pos.mul Pos.eqb PPT_USER_RAM PPT_USER_EEPROM] in *; injection S as <-; rewrite skipn_length in FN.
    - destruct (Nat.eq_dec (length bs) 0) as [Z0|NZ].
      + destruct bs; [|discriminate]. exists d. split; [eexists; split; [reflexivity|]; cbn [vput rev]; unfold zput; cbn [length Nat.eqb]; destruct d; reflexivity|]. cbn [rev wr_range].
        split; [reflexivity|]. do 3 (split; [reflexivity|]). left. split; [split; auto|]. split; [|reflexivity]. unfold splice. cbn [app length]. rewrite Nat.add_0_r. symmetry. apply firstn_skipn.
      + exists (setRam d (wr_range (ramData d) (where_ p start) (rev bs))).
        assert (W : (where_ p start + length (rev bs) <= length (ramData d))%nat) by (rewrite rev_length; unfold where_; fold k o'; lia).
        split; [eexists; split; [reflexivity|]; cbn [vput]; rewrite zput_ok by (try rewrite Z2Nat.inj_add by lia; unfold where_ in W; fold k o' in W; lia); rewrite Z2Nat.inj_add by lia; reflexivity|].
        cbn [setRam ramData eeData memMapper status eeModified]. split; [unfold where_; fold k o'; rewrite skipn_wr; [reflexivity|unfold where_ in W; fold k o' in W; lia]|].
        do 3 (split; [reflexivity|]). left. split; [split; auto|]. split; [|reflexivity]. now apply splice_wr.
    - destruct (Nat.eq_dec (length bs) 0) as [Z0|NZ].
      + destruct bs; [|discriminate]. exists d. split; [eexists; split; [reflexivity|]; cbn [vput rev]; unfold zput; cbn [length Nat.eqb]; destruct d; reflexivity|]. cbn [rev wr_range].
        split; [reflexivity|]. do 3 (split; [reflexivity|]). right. split; [split; auto|]. split; [|reflexivity]. unfold splice. cbn [app length]. rewrite Nat.add_0_r. symmetry. apply firstn_skipn.
      + exists (setEe d (wr_range (eeData d) (where_ p start) (rev bs))).
        assert (W : (where_ p start + length (rev bs) <= length (eeData d))%nat) by (rewrite rev_length; unfold where_; fold k o'; lia).
        split; [eexists; split; [reflexivity|]; cbn [vput]; rewrite zput_ok by (try rewrite Z2Nat.inj_add by lia; unfold where_ in W; fold k o' in W; lia); rewrite Z2Nat.inj_add by lia; reflexivity|].
        cbn [setEe ramData eeData memMapper status eeModified]. split; [unfold where_; fold k o'; rewrite skipn_wr; [reflexivity|unfold where_ in W; fold k o' in W; lia]|].
        do 3 (split; [reflexivity|]). right. split; [split; auto|]. split; [|reflexivity]. now apply splice_wr. }
  destruct PUT as (d1 & (v & PV & PP) & S1 & M1 & T1 & Q1 & CASE). rewrite PV, PP.
  destruct (pointer_has p d1 _ Hc Hv S1) as (v' & PV' & V & V0). rewrite PV in PV'. injection PV' as <-.
  assert (G : vget v k (Z.to_nat (count * size_of p)) d1 = Some (rev bs)).
  { rewrite <- LB. destruct (Nat.eq_dec (length bs) 0) as [Z0|NZ]; [rewrite Z0; destruct bs; [apply V0|discriminate]|].
    rewrite V by (rewrite ?wr_range_length; lia). f_equal. apply list_ext with (d := 0). { rewrite sub_length by (rewrite wr_range_length; lia). now rewrite rev_length. }
    intros i Hi. rewrite sub_length in Hi by (rewrite wr_range_length; lia). change (rd (firstn (length bs) (skipn (Z.to_nat k) (wr_range l (Z.to_nat k) (rev bs)))) i = rd (rev bs) i).
    rewrite rd_sub by auto. rewrite rd_wr_range by (rewrite rev_length; lia). rewrite rev_length. rewrite (proj2 (Nat.leb_le _ _)), (proj2 (Nat.ltb_lt _ _)) by lia. cbn [andb]. f_equal. lia. }
  rewrite G, rev_involutive. rewrite bput_ok by lia. eexists. split; [reflexivity|]. destruct CASE as [(I & A & B)|(I & A & B)].
  - rewrite (ram_flag p I). split; auto. split; auto. split; auto.
  - rewrite (eeprom_flag p I). cbn [touch memMapper status eeData ramData eeModified]. split; [split; [auto|split; [auto|right; auto]]|]. exact S1.
Qed.

(** ** The properties of a BCU 2 *)
Definition matches (e : Z * Z * Z * Z * nat * bool) : bool :=
  let '(o, id, mem, v, n, msb) := e in
  match propertyDef propertiesTab o id with
  | Some (Some p) =>
      (0 <=? control p) && (control p <? 256) && (0 <=? valAddr p) && (valAddr p <? 65536) && (size_of p =? Z.of_nat n) && eqb (numeric p) msb && (1 <=? Z.of_nat n) && (Z.of_nat n <=? 10) &&
      (if mem =? 2 then negb (Z.testbit (control p) 5) && (Z.of_nat n <=? 2) && ((valAddr p =? v) || ((n =? 1)%nat && (valAddr p mod 256 =? v mod 256)))
       else Z.testbit (control p) 5 && ((valAddr p / 4096) mod 8 =? (if mem =? 0 then 0 else 4)) && (valAddr p mod 4096 =? v) && (0 <=? v) && (v + Z.of_nat n <=? (if mem =? 0 then 0x100 else 1024)))
  | _ => false
  end.
Lemma all_match : forallb matches bcu2_values = true.
Proof. vm_compute. reflexivity. Qed.
Lemma bcu2_read L static d t sb o id mem v n msb : 1024 <= Z.of_nat (length (eeData d)) -> 0x100 <= Z.of_nat (length (ramData d)) -> In (o, id, mem, v, n, msb) bcu2_values -> telegram t -> is_read t -> f_object t = o -> f_id t = id ->
  f_count t = 1 -> f_start t = 1 -> length sb = 23%nat ->
  exists sb', (forall k, processPropertyApci L static propertiesTab t k sb d = Some (sb', d)) /\ value_answer sb' = Some (o, id, 1, 1, bcu2_value mem v n msb d).
Proof.
  intros LE LR I Ht HR Ho Hi Hc Hs Lb. pose proof (proj1 (forallb_forall _ _) all_match _ I) as M. unfold matches in M.
  destruct (propertyDef propertiesTab o id) as [[p|]|] eqn:EP; try discriminate.
  rewrite !andb_true_iff in M. destruct M as ((((((((M1 & M2) & M3) & M4) & M5) & M6) & M7) & M8) & M9). apply eqb_prop in M6.
  assert (C : is_byte (control p)) by (red; lia). assert (V : is_u16 (valAddr p)) by (red; lia).
  assert (ST : exists l, storage p d = Some l /\ Z.of_nat n <= Z.of_nat (length l) /\ (if numeric p then rev (firstn n l) else firstn n l) = bcu2_value mem v n msb d).
  { unfold storage, bcu2_value. rewrite M6. destruct (mem =? 2).
    - rewrite !andb_true_iff in M9. destruct M9 as ((B1 & B2) & B3). apply negb_true_iff in B1. rewrite B1. eexists. split; [reflexivity|]. split; [cbn [length]; lia|].
      assert (firstn n [valAddr p mod 256; valAddr p / 256] = firstn n [v mod 256; v / 256]) as ->; [|reflexivity].
      destruct (Z.eqb_spec (valAddr p) v) as [-> |]; [reflexivity|]. cbn [orb] in B3. apply andb_true_iff in B3 as (B3 & B4). apply Nat.eqb_eq in B3. subst n. cbn [firstn]. f_equal. lia.
    - rewrite !andb_true_iff in M9. destruct M9 as ((((B1 & B2) & B3) & B4) & B5). rewrite B1. cbv zeta. apply Z.eqb_eq in B2, B3. rewrite B2, B3. destruct (mem =? 0); cbn [Z.eqb].
      + eexists. split; [reflexivity|]. split; [rewrite skipn_length; lia|reflexivity].
      + eexists. split; [reflexivity|]. split; [rewrite skipn_length; lia|reflexivity]. }
  destruct ST as (l & S & LN & EV). assert (T10 : rd t 10 mod 16 = 0 /\ rd t 11 = 1).
  { unfold f_start in Hs. pose proof (Z.mod_pos_bound (rd t 10) 16 ltac:(lia)). pose proof (rd_byte t 11 (proj2 Ht)) as X. red in X. lia. }
  assert (SZ : size_of p = Z.of_nat n) by lia.
  assert (F : fits p l 1 1) by (split; [lia|split; [lia|lia]]).
  assert (RD : forall k, processPropertyApci L static propertiesTab t k sb d = Some (let sb1 := wr_range (header t sb) 12 (shown p l 1 1) in wr sb1 5 (u8 (rd sb1 5 + 1 * size_of p)), d)).
  { intros k. rewrite process_read by auto. rewrite start_field by (try apply Ht; lia). rewrite Hs, Hc, Ho, Hi. rewrite (read_def propertiesTab o id p d l 1 1) ; auto; [lia|now rewrite header_length]. }
  eexists. split; [exact RD|]. pose proof (shown_length p l 1 1 ltac:(lia) (fits_nat _ _ _ _ F)) as SL.
  destruct (answer_with t sb (shown p l 1 1) Lb (proj2 Ht)) as (A & _); [rewrite SL; lia|]. cbv zeta in A |- *. rewrite SL in A. rewrite Z2Nat.id in A by lia.
  rewrite A. rewrite Hs, Hc, Ho, Hi. repeat f_equal. unfold shown. cbv zeta. rewrite <- EV. replace (Z.to_nat (1 * size_of p)) with n by lia. replace (Z.to_nat ((1 - 1) * size_of p)) with 0%nat by lia. reflexivity.
Qed.

(** ** What additional load controls leave *)
Lemma byte_rd d o v j : 0 <= o < Z.of_nat (length (eeData d)) -> is_byte v -> rd (eeData (eeByte o v d)) j = if (Z.of_nat j =? o) then v else rd (eeData d) j.
Proof.
  intros H B. unfold eeByte, setEe. cbn [eeData]. rewrite u8_id by auto. destruct (Z.eqb_spec (Z.of_nat j) o) as [E|E].
  - replace (Z.to_nat o) with j by lia. apply rd_wr_same. lia.
  - apply rd_wr_other. lia.
Qed.
Lemma byte_len o v d : length (eeData (eeByte o v d)) = length (eeData d).
Proof. unfold eeByte, setEe. cbn [eeData]. apply wr_length. Qed.
Lemma word_len o v d : length (eeData (eeWord o v d)) = length (eeData d).
Proof. unfold eeWord. now rewrite !byte_len. Qed.
Lemma word_rd d o v j : 0 <= o -> o + 1 < Z.of_nat (length (eeData d)) -> is_u16 v ->
  rd (eeData (eeWord o v d)) j = if (Z.of_nat j =? o) then v mod 256 else if (Z.of_nat j =? o + 1) then v / 256 else rd (eeData d) j.
Proof.
  intros H1 H2 V. pose proof (word_fields v V) as W. injection W as W1 W2. unfold eeWord. rewrite W1, W2. red in V.
  pose proof (Z.div_mod v 256 ltac:(lia)). pose proof (Z.mod_pos_bound v 256 ltac:(lia)).
  rewrite byte_rd by (rewrite ?byte_len; red || idtac; lia). rewrite byte_rd by (red || idtac; lia). destruct (Z.eqb_spec (Z.of_nat j) o), (Z.eqb_spec (Z.of_nat j) (o + 1)); auto; lia.
Qed.
Lemma sub_map (l : list Z) : forall n pos, (pos + n <= length l)%nat -> firstn n (skipn pos l) = map (rd l) (seq pos n).
Proof.
  intros n pos H. apply list_ext with (d := 0). { now rewrite sub_length, map_length, seq_length. }
  intros i Hi. rewrite sub_length in Hi by auto. change (rd (firstn n (skipn pos l)) i = nth i (map (rd l) (seq pos n)) 0). rewrite rd_sub by auto.
  rewrite (nth_indep _ 0 (rd l 0)) by (rewrite map_length, seq_length; auto). rewrite map_nth, seq_nth by auto. reflexivity.
Qed.
Lemma additional_dev L static o t n sb d : let q := (t, n, sb) in event_well_sized q -> event_control q = 3 ->
  snd (loadProperty L static o (skipn 12 t) (n - 13) d) =
    (if rd (event_bytes q) 1 =? 2 then snd (handleAllocAbsTaskSegment o (event_arg q) 8 d)
     else if rd (event_bytes q) 1 =? 4 then handleTaskCtrl1 (event_arg q) d
     else if rd (event_bytes q) 1 =? 5 then handleTaskCtrl2 static (event_arg q) d else d).
Proof.
  intros q W C. assert (N : n = 23 \/ n = 24) by (unfold event_well_sized, event_length, q in W; lia).
  assert (H : handleLoadStateMachine (rd (skipn 12 t) 0) = LS_LOADCOMPLETING).
  { unfold handleLoadStateMachine. change 7 with (Z.ones 3). rewrite Z.land_ones by lia. change (2 ^ 3) with 8. unfold event_control, event_bytes, q in C. rewrite C. reflexivity. }
  unfold loadProperty. rewrite H. change (negb (LS_LOADCOMPLETING =? LS_LOADCOMPLETING)) with false. unfold q, event_bytes. set (seg := rd (skipn 12 t) 1).
  destruct N as [-> | ->]; cbn [Z.sub Z.add Z.opp Z.pos_sub Pos.pred_double Z.double Z.succ_double Z.pred_double Z.ltb Z.compare Pos.compare Pos.compare_cont orb Z.eqb Pos.eqb]; cbv zeta iota.
  all: destruct (Z.eqb_spec seg 0) as [E|E]; [rewrite E; reflexivity|].
  all: destruct (Z.eqb_spec seg 1) as [E1|E1]; [rewrite E1; reflexivity|].
  all: destruct (Z.eqb_spec seg 2) as [E2|E2]; [reflexivity|].
  all: destruct (Z.eqb_spec seg 3) as [E3|E3]; [rewrite E3; reflexivity|].
  all: destruct (Z.eqb_spec seg 4) as [E4|E4]; [reflexivity|].
  all: destruct (Z.eqb_spec seg 5) as [E5|E5]; [reflexivity|].
  all: destruct (seg =? 10), (seg =? 11); reflexivity.
Qed.
Lemma div_word a b : is_byte a -> is_byte b -> (256 * a + b) mod 256 = b /\ (256 * a + b) / 256 = a.
Proof. intros A B. red in A, B. split; [rewrite Z.add_comm, Z.mul_comm, Z.mod_add by lia; apply Z.mod_small; lia|]. rewrite Z.add_comm, Z.mul_comm, Z.div_add by lia. rewrite Z.div_small; lia. Qed.
Lemma allocated_bytes L static o t n sb d s o' id' bs : half L d -> Forall is_byte t -> is_u16 static -> 0 <= o < 6 -> is_byte s -> let q := (t, n, sb) in event_well_sized q -> event_control q = 3 ->
  In (o', id', bs) (allocated static o q) ->
  let d' := eeByte (loadStateOffset + o) s (snd (loadProperty L static o (skipn 12 t) (n - 13) d)) in
  exists v k msb, In (o', id', 1, v, k, msb) bcu2_values /\ bcu2_value 1 v k msb d' = bs.
Proof.
  intros HD Ft HS Ho HB q W C I d'. destruct HD as (_ & _ & LE & E1024). unfold d'. rewrite (additional_dev L static o t n sb d W C). fold q.
  assert (A : forall i, is_byte (event_arg q i)). { intros i. unfold event_arg. apply rd_byte. unfold event_bytes, q. rewrite <- (firstn_skipn 12 t) in Ft. now apply Forall_app in Ft as (_ & ?). }
  assert (U : forall i j, is_u16 (256 * event_arg q i + event_arg q j)) by (intros i j; pose proof (A i) as X; pose proof (A j) as Y; red in X, Y |- *; lia).
  assert (ONE : forall (dd : dev) v, 0 <= v -> v + 1 < Z.of_nat (length (eeData dd)) -> v <> 0x370 + o -> v + 1 <> 0x370 + o -> length (eeData dd) = length (eeData d) ->
     bcu2_value 1 v 2 true (eeByte (loadStateOffset + o) s dd) = [rd (eeData dd) (Z.to_nat (v + 1)); rd (eeData dd) (Z.to_nat v)]).
  { intros dd v H1 H2 H3 H4 H5. unfold bcu2_value. cbn [Z.eqb Pos.eqb]. rewrite sub_map by (rewrite byte_len; lia). cbn [seq map rev app]. unfold loadStateOffset.
    rewrite !byte_rd by (auto; lia). rewrite !(proj2 (Z.eqb_neq _ _)) by lia. do 2 f_equal. lia. }
  unfold allocated in I. cbv zeta in I. set (seg := rd (event_bytes q) 1) in *.
  destruct (seg =? 2).
  { unfold handleAllocAbsTaskSegment. change (8 <? 7) with false. cbv zeta iota. unfold OT_ADDR_TABLE, OT_ASSOC_TABLE, OT_APPLICATION.
    destruct (o =? 1) eqn:O1; [|destruct (o =? 2) eqn:O2; [|destruct (o =? 3) eqn:O3; [|contradiction]]].
    - destruct I as [[= <- <- <-]|[]]. exists 0x378, 2%nat, true. split; [cbn [bcu2_values In]; tauto|]. cbn [snd]. unfold addrTabAddrOffset.
      rewrite ONE by (rewrite ?word_len; lia). rewrite makeWord_bytes by auto. rewrite !word_rd by (auto; lia). destruct (div_word _ _ (A 0%nat) (A 1%nat)) as (D1 & D2).
      rewrite D1, D2. rewrite !Z2Nat.id by lia. reflexivity.
    - destruct I as [[= <- <- <-]|[]]. exists 0x37a, 2%nat, true. split; [cbn [bcu2_values In]; tauto|]. cbn [snd]. unfold assocTabAddrOffset.
      rewrite ONE by (rewrite ?word_len; lia). rewrite makeWord_bytes by auto. rewrite !word_rd by (auto; lia). destruct (div_word _ _ (A 0%nat) (A 1%nat)) as (D1 & D2).
      rewrite D1, D2. rewrite !Z2Nat.id by lia. reflexivity.
    - destruct I as [[= <- <- <-]|[]]. exists 3, 5%nat, false. split; [cbn [bcu2_values In]; tauto|]. cbn [snd]. unfold bcu2_value. cbn [Z.eqb Pos.eqb].
      rewrite sub_map by (rewrite !byte_len; lia). change (seq (Z.to_nat 3) 5) with [3; 4; 5; 6; 7]%nat. cbn [map]. unfold loadStateOffset, versionOffset, deviceTypeHOffset, manufacturerHOffset, appPeiTypeOffset.
      rewrite !byte_rd by (rewrite ?byte_len; auto; lia). rewrite !(proj2 (Z.eqb_neq _ (0x370 + o))) by lia. reflexivity. }
  destruct (seg =? 4).
  { destruct I as [[= <- <- <-]|[]]. exists 0x382, 2%nat, true. split; [cbn [bcu2_values In]; tauto|]. unfold handleTaskCtrl1, eibObjAddrOffset, eibObjCountOffset.
    rewrite ONE by (rewrite ?byte_len, ?word_len; lia). rewrite makeWord_bytes by auto. rewrite !byte_rd by (rewrite ?word_len; auto; lia). rewrite !word_rd by (auto; lia).
    destruct (div_word _ _ (A 0%nat) (A 1%nat)) as (D1 & D2). rewrite D1, D2. rewrite !Z2Nat.id by lia. reflexivity. }
  destruct (seg =? 5); [|contradiction]. unfold handleTaskCtrl2. cbv zeta. unfold commsTabAddrOffset, commsSeg0AddrOffset, commsSeg1AddrOffset. rewrite !makeWord_bytes by auto.
  assert (UT : is_u16 (if static =? 0 then 256 * event_arg q 2 + event_arg q 3 else static)) by (destruct (static =? 0); auto).
  destruct I as [[= <- <- <-]|[[= <- <- <-]|[]]].
  - exists 0x37c, 2%nat, true. split; [cbn [bcu2_values In]; tauto|]. rewrite ONE by (rewrite ?word_len; lia). rewrite !word_rd by (rewrite ?word_len; auto; lia). rewrite !Z2Nat.id by lia. cbn [Z.eqb Pos.eqb Z.add Pos.add Pos.succ].
    destruct (static =? 0); [|reflexivity]. destruct (div_word _ _ (A 2%nat) (A 3%nat)) as (D1 & D2). rewrite D1, D2. reflexivity.
  - exists 0x37e, 2%nat, true. split; [cbn [bcu2_values In]; tauto|]. rewrite ONE by (rewrite ?word_len; lia). rewrite !word_rd by (rewrite ?word_len; auto; lia). rewrite !Z2Nat.id by lia. cbn [Z.eqb Pos.eqb Z.add Pos.add Pos.succ].
    destruct (div_word _ _ (A 4%nat) (A 5%nat)) as (D1 & D2). rewrite D1, D2. reflexivity.
Qed.
