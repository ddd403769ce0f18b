(** Loading a System B device: what an event does to the tables *)
From Verif Require Import Base Bits Telegram_Model Mapper_Model Mapper_Spec MemReq_Model MemReq_Spec MemReq_Proofs Prop_Model Prop_Spec Prop_Proofs Prop_Load CRC_Spec CRC_Model SysB_Model SysB_Spec.

(** ** EEPROM bytes *)
Definition long (d : dev) : Prop := length (eeData d) = Z.to_nat 3072.
Definition low_part (j : nat) : Prop := (j < Z.to_nat 0x3d6)%nat.
Lemma ee_byte o v d a : long d -> 0 <= o < 3072 -> 0x3300 <= a -> ee (eeByte o v d) a = if a - 0x3300 =? o then u8 v else ee d a.
Proof.
  intros HL Ho Ha. unfold ee, eeByte, setEe. cbn [eeData]. destruct (Z.eqb_spec (a - 0x3300) o) as [-> |N]; [apply rd_wr_same; rewrite HL; lia|apply rd_wr_other; lia].
Qed.
Lemma long_byte o v d : long d -> long (eeByte o v d).
Proof. intros H. unfold long, eeByte, setEe. cbn [eeData]. now rewrite wr_length. Qed.
Lemma long_word o v d : long d -> long (eeWord o v d).
Proof. intros H. unfold eeWord. now do 2 apply long_byte. Qed.
Lemma ee_word o v d a : long d -> 0 <= o < 3071 -> 0x3300 <= a -> is_u16 v ->
  ee (eeWord o v d) a = if a - 0x3300 =? o + 1 then v / 256 else if a - 0x3300 =? o then v mod 256 else ee d a.
Proof.
  intros HL Ho Ha Hv. unfold eeWord. rewrite ee_byte by (try apply long_byte; auto; lia). rewrite ee_byte by (auto; lia).
  pose proof (word_fields v Hv) as W. injection W as W1 W2. rewrite W1, W2. red in Hv.
  rewrite !u8_id; auto; red; [apply Z.mod_pos_bound; lia|]. split; [apply Z.div_pos; lia|apply Z.div_lt_upper_bound; lia].
Qed.
Lemma ee_is_byte d a : Forall is_byte (eeData d) -> is_byte (ee d a).
Proof. intros H. now apply rd_byte. Qed.
Lemma bytes_byte o v d : Forall is_byte (eeData d) -> Forall is_byte (eeData (eeByte o v d)).
Proof. intros H. unfold eeByte, setEe. cbn [eeData]. apply Forall_wr; auto. unfold u8, is_byte. apply Z.mod_pos_bound. lia. Qed.

(** ** Tables *)
Lemma five k : is_table k -> k = 1 \/ k = 2 \/ k = 3 \/ k = 4 \/ k = 5.
Proof. unfold is_table. lia. Qed.
Ltac each_table H := apply five in H; destruct H as [-> |[-> |[-> |[-> | ->]]]].
Definition kept (d d' : dev) : Prop := forall k, is_table k -> table_start d' k = table_start d k /\ table_size d' k = table_size d k.
(** [o] is none of the places where the tables are described *)
Definition apart (o : Z) : Prop := 0 <= o < 3072 /\ ~ 0x21 <= o <= 0x24 /\ ~ 0x4d <= o <= 0x70 /\ ~ 0x37c <= o <= 0x37f /\ ~ 0x382 <= o <= 0x383.
Lemma kept_refl d : kept d d. Proof. split; auto. Qed.
Lemma kept_trans d1 d2 d3 : kept d1 d2 -> kept d2 d3 -> kept d1 d3.
Proof. intros A B k Hk. destruct (A k Hk), (B k Hk). split; congruence. Qed.
Lemma kept_ee d d' : (forall a, 0x3300 <= a -> ~ apart (a - 0x3300) -> a < 0x3f00 -> ee d' a = ee d a) -> kept d d'.
Proof.
  intros H k Hk. unfold table_start, table_size, start_at, size_at.
  each_table Hk; cbn [Z.eqb Pos.eqb]; rewrite !H by (unfold apart; lia); auto.
Qed.
Lemma kept_byte o v d : long d -> apart o -> kept d (eeByte o v d).
Proof. intros HL HA. apply kept_ee. intros a H1 H2 H3. rewrite ee_byte by (auto; destruct HA; lia). destruct (Z.eqb_spec (a - 0x3300) o); [congruence|auto]. Qed.
Lemma start_u16 d k : Forall is_byte (eeData d) -> is_u16 (table_start d k).
Proof. intros H. unfold table_start. pose proof (ee_is_byte d (start_at k) H) as A. pose proof (ee_is_byte d (start_at k + 1) H) as B. red in A, B. red. lia. Qed.
Lemma size_nonneg d k : Forall is_byte (eeData d) -> 0 <= table_size d k.
Proof.
  intros H. unfold table_size. pose proof (ee_is_byte d (size_at k) H) as A. pose proof (ee_is_byte d (size_at k + 1) H) as B.
  pose proof (ee_is_byte d (size_at k + 2) H) as C. pose proof (ee_is_byte d (size_at k + 3) H) as D. red in A, B, C, D. lia.
Qed.

(** ** The lowest address in use *)
Lemma word_is o d : Forall is_byte (eeData d) -> eeWordAt o d = ee d (0x3300 + o) + 256 * ee d (0x3300 + o + 1).
Proof.
  intros HB. unfold eeWordAt, ee. replace (0x3300 + o - 0x3300) with o by lia. replace (0x3300 + o + 1 - 0x3300) with (o + 1) by lia.
  pose proof (rd_byte _ (Z.to_nat o) HB) as X. red in X. rewrite lor_shiftl_add by lia. lia.
Qed.
Lemma word_at d k : Forall is_byte (eeData d) -> is_table k -> eeWordAt (nth (Z.to_nat (k - 1)) tableAddress 0) d = table_start d k.
Proof. intros HB Hk. rewrite word_is by auto. each_table Hk; reflexivity. Qed.
Lemma lowest_ok d : Forall is_byte (eeData d) ->
  lowestTable d <= end_free /\ (forall k, is_table k -> table_start d k <> 0 -> lowestTable d <= table_start d k) /\
  (forall b, used_from d b -> b <= lowestTable d).
Proof.
  intros HB. pose proof (word_at d 1 HB ltac:(red; lia)) as W1. pose proof (word_at d 2 HB ltac:(red; lia)) as W2. pose proof (word_at d 3 HB ltac:(red; lia)) as W3.
  pose proof (word_at d 4 HB ltac:(red; lia)) as W4. pose proof (word_at d 5 HB ltac:(red; lia)) as W5.
  change (Z.to_nat (1 - 1)) with 0%nat in W1. change (Z.to_nat (2 - 1)) with 1%nat in W2. change (Z.to_nat (3 - 1)) with 2%nat in W3.
  change (Z.to_nat (4 - 1)) with 3%nat in W4. change (Z.to_nat (5 - 1)) with 4%nat in W5. cbn [nth tableAddress] in W1, W2, W3, W4, W5.
  unfold lowestTable. unfold tableAddress. cbn [fold_left]. cbv zeta. rewrite W1, W2, W3, W4, W5. unfold end_free.
  assert (G : forall w v, let r := if negb (w =? 0) && (w <? v) then w else v in r <= v /\ (w <> 0 -> r <= w) /\ (r = v \/ r = w /\ w <> 0)).
  { intros w v r. subst r. destruct (Z.eqb_spec w 0); cbn [negb andb]; [lia|]. destruct (Z.ltb_spec w v); lia. }
  set (v1 := if negb (table_start d 1 =? 0) && (table_start d 1 <? 15006) then table_start d 1 else 15006).
  set (v2 := if negb (table_start d 2 =? 0) && (table_start d 2 <? v1) then table_start d 2 else v1).
  set (v3 := if negb (table_start d 3 =? 0) && (table_start d 3 <? v2) then table_start d 3 else v2).
  set (v4 := if negb (table_start d 4 =? 0) && (table_start d 4 <? v3) then table_start d 4 else v3).
  set (v5 := if negb (table_start d 5 =? 0) && (table_start d 5 <? v4) then table_start d 5 else v4).
  destruct (G (table_start d 1) 15006) as (A1 & B1 & C1). fold v1 in A1, B1, C1. destruct (G (table_start d 2) v1) as (A2 & B2 & C2). fold v2 in A2, B2, C2.
  destruct (G (table_start d 3) v2) as (A3 & B3 & C3). fold v3 in A3, B3, C3. destruct (G (table_start d 4) v3) as (A4 & B4 & C4). fold v4 in A4, B4, C4.
  destruct (G (table_start d 5) v4) as (A5 & B5 & C5). fold v5 in A5, B5, C5. clearbody v1 v2 v3 v4 v5.
  split; [clear - A1 A2 A3 A4 A5; lia|]. split; [clear - A1 A2 A3 A4 A5 B1 B2 B3 B4 B5; intros k Hk N; each_table Hk; [specialize (B1 N)|specialize (B2 N)|specialize (B3 N)|specialize (B4 N)|specialize (B5 N)]; lia|].
  clear A1 A2 A3 A4 A5 B1 B2 B3 B4 B5. intros b (E & U). unfold end_free in E.
  pose proof (U 1 ltac:(red; lia)). pose proof (U 2 ltac:(red; lia)). pose proof (U 3 ltac:(red; lia)). pose proof (U 4 ltac:(red; lia)). pose proof (U 5 ltac:(red; lia)).
  destruct C5 as [-> |[-> ?]]; [|lia]. destruct C4 as [-> |[-> ?]]; [|lia]. destruct C3 as [-> |[-> ?]]; [|lia]. destruct C2 as [-> |[-> ?]]; [|lia]. destruct C1 as [-> |[-> ?]]; lia.
Qed.

(** ** Allocation *)
Lemma req_size p : (forall i, is_byte (p i)) -> reqMemSize p = 2 ^ 24 * p 0%nat + 2 ^ 16 * p 1%nat + 256 * p 2%nat + p 3%nat.
Proof.
  intros H. pose proof (H 0%nat) as A. pose proof (H 1%nat) as B. pose proof (H 2%nat) as C. pose proof (H 3%nat) as D. red in A, B, C, D. unfold reqMemSize.
  rewrite u32_id by (red; rewrite Z.shiftl_mul_pow2 by lia; lia).
  replace (Z.shiftl (p 0%nat) 24) with (Z.shiftl (Z.shiftl (p 0%nat) 8) 16) by now rewrite Z.shiftl_shiftl by lia.
  replace (Z.shiftl (p 1%nat) 16) with (Z.shiftl (p 1%nat) 16) by auto. rewrite <- Z.shiftl_lor. rewrite (lor_shiftl_add (p 0%nat)) by lia.
  change (Z.shiftl (p 2%nat) 8) with (Z.shiftl (p 2%nat) 8). set (w := p 0%nat * 2 ^ 8 + p 1%nat).
  replace (Z.shiftl w 16) with (Z.shiftl (Z.shiftl w 8) 8) by now rewrite Z.shiftl_shiftl by lia. rewrite <- Z.shiftl_lor. rewrite (lor_shiftl_add w) by lia.
  rewrite lor_shiftl_add by lia. unfold w. lia.
Qed.
(** table [o] is now at [w] and [n] bytes long, the other tables are as before *)
Definition placed (o w n : Z) (d d' : dev) : Prop :=
  table_start d' o = w /\ table_size d' o = n /\ (forall k, is_table k -> k <> o -> table_start d' k = table_start d k /\ table_size d' k = table_size d k).
Lemma allocation_ok L o p d : long d -> Forall is_byte (eeData d) -> (forall i, is_byte (p i)) -> is_table o -> p 4%nat = 0 -> 0 <= lowestTable d - reqMemSize p ->
  exists d', handleDataRelativeAllocation L o p d = Some (LS_LOADING, d') /\ placed o (lowestTable d - reqMemSize p) (reqMemSize p) d d' /\
    only low_part d d' /\ Forall is_byte (eeData d').
Proof.
  intros HL HB HP Ho H4 HR. pose proof (req_size p HP) as RS. destruct (lowest_ok d HB) as (LE & _ & _). unfold end_free in LE.
  unfold handleDataRelativeAllocation. rewrite H4. assert ((o <? 1) || (5 <? o) = false) as -> by (red in Ho; lia). cbv zeta. change (0 <? 0) with false. cbv iota.
  set (w := lowestTable d - reqMemSize p) in *. assert (UW : is_u16 w). { red. unfold w in *. pose proof (HP 0%nat) as A; pose proof (HP 1%nat) as B; pose proof (HP 2%nat) as C; pose proof (HP 3%nat) as D; red in A, B, C, D; lia. }
  rewrite (u16_id w UW).
  assert (BD : forall i, u8 (p i) = p i) by (intros i; apply u8_id, HP).
  eexists. split; [reflexivity|].
  pose proof (Z.div_mod w 256 ltac:(lia)) as DM.
  split; [|split].
  - assert (EE : forall a, 0x3300 <= a -> forall ta ts, 0 <= ta < 3071 -> 0 <= ts < 3069 ->
      ee (eeByte (ts + 3) (p 3%nat) (eeByte (ts + 2) (p 2%nat) (eeByte (ts + 1) (p 1%nat) (eeByte ts (p 0%nat) (eeWord ta w d))))) a =
      if a - 0x3300 =? ts + 3 then p 3%nat else if a - 0x3300 =? ts + 2 then p 2%nat else if a - 0x3300 =? ts + 1 then p 1%nat else if a - 0x3300 =? ts then p 0%nat else
      if a - 0x3300 =? ta + 1 then w / 256 else if a - 0x3300 =? ta then w mod 256 else ee d a).
    { intros a Ha ta ts H1 H2. rewrite !ee_byte by (repeat apply long_byte; try apply long_word; auto; lia). rewrite ee_word by auto. now rewrite !BD. }
    rewrite RS. unfold placed, table_start, table_size, start_at, size_at.
    assert (K : forall k, is_table k -> k = 1 \/ k = 2 \/ k = 3 \/ k = 4 \/ k = 5) by apply five.
    each_table Ho; (split; [|split; [|intros k Hk Nk; each_table Hk; try (now contradiction Nk)]]).
    all: cbn [Z.eqb Pos.eqb].
    all: change (Z.to_nat (1 - 1)) with 0%nat; change (Z.to_nat (2 - 1)) with 1%nat; change (Z.to_nat (3 - 1)) with 2%nat; change (Z.to_nat (4 - 1)) with 3%nat; change (Z.to_nat (5 - 1)) with 4%nat.
    all: cbn [nth tableAddress tableSize]; unfold commsTabAddrOffset, eibObjAddrOffset, commsSeg0AddrOffset.
    all: rewrite !EE by lia; try split; first [reflexivity|change (w mod 256 + 256 * (w / 256) = w); lia].
  - pose proof Ho as Ho'. each_table Ho'; do 4 (apply only_byte; [|unfold low_part; vm_compute; lia]); (apply only_word; [apply only_refl|unfold low_part; vm_compute; lia|unfold low_part; vm_compute; lia]).
  - do 4 apply bytes_byte. unfold eeWord. now do 2 apply bytes_byte.
Qed.

(** ** One event *)
Lemma put_two m k a b d d1 : vput (VEe m) k [a; b] d = Some d1 -> is_byte a -> is_byte b -> 0 <= m + k -> d1 = eeByte (m + k + 1) b (eeByte (m + k) a d).
Proof.
  intros H A B Hm. cbn [vput] in H. unfold zput in H. cbn [length Nat.eqb] in H. rewrite (proj2 (Z.ltb_ge _ _)) in H by lia. unfold bput in H.
  destruct (Nat.leb (Z.to_nat (m + k) + length [a; b]) (length (eeData d))); [|discriminate]. injection H as <-. cbn [wr_range].
  unfold eeByte, setEe. cbn [memMapper eeData eeModified ramData status]. rewrite !u8_id by auto. do 2 f_equal. lia.
Qed.
Definition pointers : list (Z * Z) := [(1, 0x378); (2, 0x37a); (3, 0x37c); (4, 0x382); (5, 0x37e)].
Lemma reference_pointer o v : 0 <= o < 6 -> pointerOf propertiesTab o PID_TABLE_REFERENCE = Some v -> exists a, In (o, a) pointers /\ v = VEe a.
Proof.
  intros Ho. assert (K : o = 0 \/ o = 1 \/ o = 2 \/ o = 3 \/ o = 4 \/ o = 5) by lia.
  repeat (destruct K as [-> |K]; [intros H; vm_compute in H; first [discriminate H|injection H as <-; eexists; split; [|reflexivity]; cbn; auto 10]|]).
  subst o. intros H. vm_compute in H. injection H as <-. eexists. split; [|reflexivity]. cbn. auto 10.
Qed.
Lemma control_block_at o v : 0 <= o < 6 -> pointerOf propertiesTab o PID_MCB_TABLE = Some v -> 1 <= o <= 4 /\ v = VEe (0x39c + 8 * o).
Proof.
  intros Ho. assert (K : o = 0 \/ o = 1 \/ o = 2 \/ o = 3 \/ o = 4 \/ o = 5) by lia.
  repeat (destruct K as [-> |K]; [intros H; vm_compute in H; first [discriminate H|injection H as <-; split; [lia|reflexivity]]|]).
  subst o. intros H. vm_compute in H. discriminate H.
Qed.
Lemma u8_byte z : is_byte (u8 z).
Proof. unfold u8, is_byte. apply Z.mod_pos_bound. lia. Qed.
Lemma zero_byte : is_byte 0. Proof. red. lia. Qed.
(** nothing happened to the tables, except that one may be gone *)
Definition gone (d d' : dev) : Prop := forall k, is_table k -> (table_start d' k = table_start d k \/ table_start d' k = 0) /\ table_size d' k = table_size d k.
Lemma kept_gone d d' : kept d d' -> gone d d'.
Proof. intros H k Hk. destruct (H k Hk). auto. Qed.
Lemma cleared a o d : long d -> In (o, a) pointers -> gone d (eeByte (a + 1) 0 (eeByte a 0 d)).
Proof.
  intros HL HI k Hk. unfold table_start, table_size, start_at, size_at.
  cbn [pointers In] in HI. repeat (destruct HI as [HI|HI]; [injection HI as <- <-|]); try contradiction.
  all: each_table Hk; cbn [Z.eqb Pos.eqb]; rewrite !ee_byte by (repeat apply long_byte; auto; lia).
  all: cbn -[ee Z.mul]; split; auto.
Qed.
Lemma load_step L static o t n d s d1 : long d -> Forall is_byte (eeData d) -> telegram t -> 0 <= o < 6 ->
  let q := (t, n, @nil Z) in absolute q = false -> (allocation q = true -> fills q = false /\ first_free + wanted q <= lowestTable d) ->
  loadPropertyB L static propertiesTab o (skipn 12 t) (n - 13) d = Some (s, d1) ->
  only low_part d d1 /\ Forall is_byte (eeData d1) /\ is_byte s /\
  ((allocation q = true /\ is_table o /\ placed o (lowestTable d - wanted q) (wanted q) d d1 /\ s = 2) \/ (allocation q = false /\ gone d d1)).
Proof.
  intros HL HB (Lt & Ft) Ho q NA AL H.
  assert (FE : Forall is_byte (skipn 12 t)). { rewrite <- (firstn_skipn 12 t) in Ft. now apply Forall_app in Ft as (_ & ?). }
  pose proof (fun i => rd_byte (skipn 12 t) i FE) as B. set (e := skipn 12 t) in *.
  assert (SAME : allocation q = false -> is_byte s -> d1 = d -> only low_part d d1 /\ Forall is_byte (eeData d1) /\ is_byte s /\
    ((allocation q = true /\ is_table o /\ placed o (lowestTable d - wanted q) (wanted q) d d1 /\ s = 2) \/ (allocation q = false /\ gone d d1))).
  { intros A BS ->. split; [apply only_refl|]. split; auto. split; auto. right. split; auto. apply kept_gone, kept_refl. }
  assert (AQ : allocation q = (10 <=? n - 13) && (n - 13 <=? 11) && (rd e 0 mod 8 =? 3) && (rd e 1 =? 11)) by reflexivity.
  assert (B03 : forall z, 0 <= z <= 3 -> is_byte z) by (intros z Hz; red; lia).
  unfold loadPropertyB in H. destruct ((11 <? n - 13) || (n - 13 <? 10)) eqn:EL.
  { injection H as <- <-. apply SAME; auto; [rewrite AQ; lia|unfold LS_ERROR; apply B03; lia]. }
  cbv zeta in H. unfold handleLoadStateMachine in H. change 7 with (Z.ones 3) in H. rewrite Z.land_ones in H by lia. change (2 ^ 3) with 8 in H.
  unfold LS_LOADING, LS_LOADED, LS_LOADCOMPLETING, LS_UNLOADED, LS_ERROR in H.
  destruct (Z.eqb_spec (rd e 0 mod 8) 1) as [C1|C1].
  { cbn [Z.eqb Pos.eqb negb] in H. injection H as <- <-. apply SAME; auto; [rewrite AQ, C1; cbn; now rewrite andb_false_r|apply B03; lia]. }
  destruct (Z.eqb_spec (rd e 0 mod 8) 2) as [C2|C2].
  { cbn [Z.eqb Pos.eqb negb] in H. destruct (storeCrc L propertiesTab o d) as [d2|] eqn:ES; [|discriminate]. injection H as <- <-.
    unfold storeCrc in ES. destruct (pointerOf propertiesTab o PID_TABLE_REFERENCE) as [ref|]; [|discriminate]. destruct (vget ref 0 2 d) as [w|]; [|discriminate]. cbv zeta in ES.
    destruct (pointerOf propertiesTab o PID_MCB_TABLE) as [mcb|] eqn:EM; [|discriminate]. apply control_block_at in EM as (Ho4 & ->); auto.
    destruct (vget _ 2 2 d) as [z|]; [|discriminate]. destruct (zget _ _ _) as [mem|]; [|discriminate]. apply put_two in ES; try apply u8_byte; [|lia]. subst d2.
    split. { apply only_byte; [apply only_byte; [apply only_refl|unfold low_part; lia]|unfold low_part; lia]. }
    split; [now do 2 apply bytes_byte|]. split; [apply B03; lia|]. right. split; [rewrite AQ, C2; cbn; now rewrite andb_false_r|].
    apply kept_gone. eapply kept_trans; [|apply kept_byte; [now apply long_byte|unfold apart; lia]]. apply kept_byte; [auto|unfold apart; lia]. }
  destruct (Z.eqb_spec (rd e 0 mod 8) 3) as [C3|C3].
  2:{ assert (A0 : allocation q = false) by (rewrite AQ; destruct (Z.eqb_spec (rd e 0 mod 8) 3); [contradiction|now rewrite andb_false_r]).
      destruct (Z.eqb_spec (rd e 0 mod 8) 4) as [C4|C4]; cbn [Z.eqb Pos.eqb negb] in H.
      - destruct (pointerOf propertiesTab o PID_TABLE_REFERENCE) as [ref|] eqn:EP; [|discriminate]. apply reference_pointer in EP as (a & HI & ->); auto.
        destruct (vput _ _ _ d) as [d2|] eqn:EV; [|discriminate]. injection H as <- <-.
        assert (RA : 0x378 <= a <= 0x382). { cbn [pointers In] in HI. repeat (destruct HI as [HI|HI]; [injection HI as <- <-; lia|]). contradiction. }
        apply put_two in EV; try apply zero_byte; [|lia]. rewrite Z.add_0_r in EV. subst d2.
        split. { apply only_byte; [apply only_byte; [apply only_refl|unfold low_part; lia]|unfold low_part; lia]. }
        split; [now do 2 apply bytes_byte|]. split; [apply B03; lia|]. right. split; auto. now apply (cleared a o).
      - injection H as <- <-. apply SAME; auto. apply B03; lia. }
  cbn [Z.eqb Pos.eqb negb] in H.
  set (off := if n - 13 =? 10 then 2%nat else 3%nat) in *. set (p := fun i => rd e (off + i)) in *.
  assert (EP : forall i, p i = event_arg q i).
  { intros i. unfold p, event_arg. change (event_bytes q) with e. f_equal. f_equal. unfold off, event_length, q. destruct (Z.eqb_spec (n - 13) 10); lia. }
  assert (BP : forall i, is_byte (p i)) by (intros i; apply B).
  assert (A1 : allocation q = (rd e 1 =? 11)) by (rewrite AQ; assert ((10 <=? n - 13) && (n - 13 <=? 11) = true) as -> by lia; reflexivity).
  assert (W : wanted q = reqMemSize p) by (rewrite (req_size p BP); unfold wanted; now rewrite <- !EP).
  assert (N2 : rd e 1 <> 2). { unfold absolute, event_control in NA. change (event_bytes q) with e in NA. rewrite C3 in NA. change (3 =? 3) with true in NA. cbn [andb] in NA. lia. }
  destruct (Z.eqb_spec (rd e 1) 0) as [S|_]; [injection H as <- <-; apply SAME; auto; [rewrite A1, S; reflexivity|]; unfold handleAllocAbsDataSegmentB, LS_LOADING, LS_ERROR; match goal with |- is_byte (if ?c then _ else _) => destruct c end; apply B03; lia|].
  destruct (Z.eqb_spec (rd e 1) 1) as [S|_]; [injection H as <- <-; apply SAME; auto; [rewrite A1, S; reflexivity|apply B03; lia]|].
  destruct (Z.eqb_spec (rd e 1) 2) as [S|_]; [contradiction|].
  destruct (Z.eqb_spec (rd e 1) 3) as [S|_]; [injection H as <- <-; apply SAME; auto; [rewrite A1, S; reflexivity|apply B03; lia]|].
  destruct (Z.eqb_spec (rd e 1) 0x0A) as [S|_]; [injection H as <- <-; apply SAME; auto; [rewrite A1, S; reflexivity|apply B03; lia]|].
  destruct (Z.eqb_spec (rd e 1) 0x0B) as [S|S].
  - destruct (AL ltac:(rewrite A1; auto)) as (NF & FIT). unfold first_free in FIT.
    assert (P4 : p 4%nat = 0). { unfold fills in NF. rewrite <- EP in NF. pose proof (BP 4%nat) as X. red in X. lia. }
    destruct (Z_le_gt_dec 1 o) as [O1|O1].
    2:{ unfold handleDataRelativeAllocation in H. rewrite (proj2 (Z.ltb_lt o 1)) in H by lia. discriminate. }
    destruct (allocation_ok L o p d HL HB BP ltac:(red; lia) P4 ltac:(lia)) as (d2 & E2 & PL & O2 & F2). rewrite E2 in H. injection H as <- <-.
    split; auto. split; auto. split; [unfold LS_LOADING; apply B03; lia|]. left. split; [exact A1|]. split; [red; lia|]. rewrite W. auto.
  - injection H as <- <-. apply SAME; auto. apply B03; lia.
Qed.

(** ** Requests *)
Lemma process_readB L static tabs t n sb d : telegram t -> is_read t ->
  processPropertyApciB L static tabs t n sb d =
    match propertyValueReadB tabs (f_object t) (f_id t) (f_count t) (startIndex t) (header t sb) d with
    | None => None | Some (found, sb1) => Some (if found then sb1 else wr sb1 10 0, d) end.
Proof.
  intros (Lt & Ft) C. unfold processPropertyApciB. rewrite (command_is t 0x3d5 Ft C) by lia. cbv zeta. change (0x3d5 =? APCI_PROPERTY_VALUE_READ_PDU) with true. cbn [orb].
  rewrite count_field. fold (header t sb). unfold f_object, f_id. destruct (propertyValueReadB _ _ _ _ _ _ _) as [(f & s)|]; reflexivity.
Qed.
Lemma process_writeB L static tabs t n sb d : telegram t -> is_write t ->
  processPropertyApciB L static tabs t n sb d =
    match propertyValueWriteB L static tabs t n (f_object t) (f_id t) (f_count t) (startIndex t) (header t sb) d with
    | None => None | Some (found, sb1, d1) => Some (if found then sb1 else wr sb1 10 0, d1) end.
Proof.
  intros (Lt & Ft) C. unfold processPropertyApciB. rewrite (command_is t 0x3d7 Ft C) by lia. cbv zeta.
  change (0x3d7 =? APCI_PROPERTY_VALUE_READ_PDU) with false. change (0x3d7 =? APCI_PROPERTY_VALUE_WRITE_PDU) with true. cbn [orb].
  rewrite count_field. fold (header t sb). unfold f_object, f_id. reflexivity.
Qed.
Lemma process_describeB L static tabs t n sb d sb' d' : telegram t -> is_describe t -> processPropertyApciB L static tabs t n sb d = Some (sb', d') -> d' = d.
Proof.
  intros (Lt & Ft) C. unfold processPropertyApciB, processPropertyApci. rewrite (command_is t 0x3d8 Ft C) by lia. cbv zeta.
  change (0x3d8 =? APCI_PROPERTY_VALUE_READ_PDU) with false. change (0x3d8 =? APCI_PROPERTY_VALUE_WRITE_PDU) with false. change (0x3d8 =? APCI_PROPERTY_DESCRIPTION_READ_PDU) with true. cbn [orb].
  cbv iota. destruct (propertyDescRead _ _ _ _ _ _) as [(f & s)|]; [|discriminate]. now intros [= _ <-].
Qed.
Lemma event_fields o t n sb : event_for o (t, n, sb) = true -> is_write t /\ f_object t = o /\ f_id t = 5.
Proof. unfold event_for, is_write. rewrite !andb_true_iff, !Z.eqb_eq. tauto. Qed.
Lemma event_processed L static t n sb d o : telegram t -> length sb = 23%nat -> 0 <= o < 6 -> event_for o (t, n, sb) = true ->
  match loadPropertyB L static propertiesTab o (skipn 12 t) (n - 13) d with
  | None => processPropertyApciB L static propertiesTab t n sb d = None
  | Some (s, d1) => is_byte s -> exists sb', processPropertyApciB L static propertiesTab t n sb d = Some (sb', eeByte (0x370 + o) s d1) /\
      value_answer sb' = Some (o, 5, f_count t, f_start t, [s]) /\ length sb' = 23%nat
  end.
Proof.
  intros Ht Lb Ho E. apply event_fields in E as (HW & EO & EI). rewrite process_writeB by auto. rewrite EO, EI.
  destruct (control_property _ Ho) as (p & PD & PW & PT & PV). unfold propertyValueWriteB. rewrite PD, writable_field, PW. cbn [negb]. rewrite PV, type_field, PT.
  change (0 =? PDT_CONTROL) with true. cbv iota. destruct (loadPropertyB _ _ _ _ _ _ _) as [(s & d1)|]; [|reflexivity]. intros BS.
  eexists. split; [reflexivity|]. rewrite u8_id by auto.
  destruct (answer_with t sb [s] Lb (proj2 Ht) ltac:(cbn; lia)) as (V & L2 & _). cbn [wr_range] in V, L2. change (Z.of_nat (length [s])) with 1 in V, L2.
  rewrite <- EI at 1. rewrite <- EO at 1. split; [exact V|exact L2].
Qed.
(** the state of the tables during a history *)
Record good (d : dev) (b : Z) : Prop := { g_long : long d; g_bytes : Forall is_byte (eeData d); g_tidy : tidy d; g_used : used_from d b }.
Lemma good_gone d d' b : good d b -> gone d d' -> long d' -> Forall is_byte (eeData d') -> good d' b.
Proof.
  intros [L B (T1 & T2) (U1 & U2)] G L' B'. constructor; auto.
  - assert (AR : forall k a, is_table k -> area d' k a -> area d k a).
    { intros k a Hk (N & A). destruct (G k Hk) as ([E|E] & S); [|contradiction]. unfold area. rewrite E, S in A. rewrite E in N. auto. }
    split; [intros k a Hk A; apply (T1 k); auto|]. intros j k a Hj Hk A1 A2. apply (T2 j k a); auto.
  - split; auto. intros k Hk N. destruct (G k Hk) as ([E|E] & S); [|contradiction]. rewrite E, S. rewrite E in N. auto.
Qed.
Lemma good_placed d d' b o w n : good d b -> is_table o -> placed o w n d d' -> w + n = lowestTable d -> 0 <= n -> first_free <= b - n -> long d' -> Forall is_byte (eeData d') -> good d' (b - n).
Proof.
  intros [L B (T1 & T2) (U1 & U2)] Ho (P1 & P2 & P3) W N F L' B'. destruct (lowest_ok d B) as (LE & LK & LB). specialize (LB b (conj U1 U2)).
  assert (OLD : forall k a, is_table k -> k <> o -> area d' k a -> area d k a /\ lowestTable d <= a).
  { intros k a Hk Nk (NZ & A). destruct (P3 k Hk Nk) as (E & S). rewrite E in NZ, A. rewrite S in A. split; [split; auto|]. pose proof (LK k Hk NZ). lia. }
  assert (NEW : forall a, area d' o a -> w <= a < lowestTable d). { intros a (_ & A). rewrite P1, P2 in A. lia. }
  unfold first_free, end_free in *.
  constructor; auto; split.
  - intros k a Hk A. destruct (Z.eq_dec k o) as [-> |Nk]; [apply NEW in A; unfold first_free, end_free; lia|]. destruct (OLD k a Hk Nk A) as (A1 & _). apply (T1 k); auto.
  - intros j k a Hj Hk A1 A2. destruct (Z.eq_dec j o) as [-> |Nj], (Z.eq_dec k o) as [-> |Nk]; auto.
    + apply NEW in A1. apply OLD in A2; auto. lia.
    + apply NEW in A2. apply OLD in A1; auto. lia.
    + apply OLD in A1, A2; auto. apply (T2 j k a); tauto.
  - unfold end_free. lia.
  - intros k Hk NZ. destruct (Z.eq_dec k o) as [-> |Nk]; [rewrite P1, P2; unfold end_free; lia|]. destruct (P3 k Hk Nk) as (E & S). rewrite E in *. rewrite S. specialize (U2 k Hk NZ). unfold end_free. lia.
Qed.
Lemma only_high d d' a : only low_part d d' -> first_free <= a -> ee d' a = ee d a.
Proof. intros O H. unfold ee. apply (o_rd _ _ _ O). unfold low_part, first_free in *. lia. Qed.
Lemma only_long P d d' : only P d d' -> long d -> long d'.
Proof. intros O H. unfold long. now rewrite (o_len _ _ _ O). Qed.
Lemma asks_event o t n sb : is_table o -> event_for o (t, n, sb) = true -> asks (t, n, sb) = if allocation (t, n, sb) then wanted (t, n, sb) else 0.
Proof.
  intros Ho E. unfold asks, allocates. destruct (allocation (t, n, sb)).
  - assert (existsb (fun k => event_for k (t, n, sb) && true) [1; 2; 3; 4; 5] = true) as ->; auto. apply existsb_exists. exists o. rewrite E. split; auto. each_table Ho; cbn; auto 10.
  - assert (existsb (fun k => event_for k (t, n, sb) && false) [1; 2; 3; 4; 5] = false) as ->; auto. cbn [existsb]. now rewrite !andb_false_r.
Qed.
Lemma wanted_nonneg t n sb : Forall is_byte t -> 0 <= wanted (t, n, sb).
Proof.
  intros Ft. assert (FE : Forall is_byte (skipn 12 t)). { rewrite <- (firstn_skipn 12 t) in Ft. now apply Forall_app in Ft as (_ & ?). }
  pose proof (fun i => rd_byte (skipn 12 t) i FE) as B. unfold wanted, event_arg. cbn [event_bytes].
  match goal with |- 0 <= _ * rd _ ?a + _ * rd _ ?b + _ * rd _ ?c + rd _ ?d => pose proof (B a) as X; pose proof (B b) as Y; pose proof (B c) as Z; pose proof (B d) as V end.
  red in X, Y, Z, V. lia.
Qed.
Lemma asks_nonneg t n sb : Forall is_byte t -> 0 <= asks (t, n, sb).
Proof. intros F. unfold asks. destruct (existsb _ _); [now apply wanted_nonneg|lia]. Qed.
Lemma allocation_zero t n sb d L static s d1 : event_for 0 (t, n, sb) = true -> allocation (t, n, sb) = true -> loadPropertyB L static propertiesTab 0 (skipn 12 t) (n - 13) d = Some (s, d1) -> False.
Proof.
  intros _ A H. unfold allocation, event_control, event_length, event_bytes in A. rewrite !andb_true_iff, !Z.eqb_eq, !Z.leb_le in A. destruct A as (((A1 & A2) & A3) & A4).
  unfold loadPropertyB in H. assert ((11 <? n - 13) || (n - 13 <? 10) = false) as X by lia. rewrite X in H. cbv zeta in H. unfold handleLoadStateMachine in H.
  change 7 with (Z.ones 3) in H. rewrite Z.land_ones in H by lia. change (2 ^ 3) with 8 in H. rewrite A3, A4 in H. cbn in H. discriminate H.
Qed.
Lemma request_step L static t n sb d b sb' d' : good d b -> request_fits (t, n, sb) -> plain (t, n, sb) -> first_free + asks (t, n, sb) <= b ->
  processPropertyApciB L static propertiesTab t n sb d = Some (sb', d') ->
  good d' (b - asks (t, n, sb)) /\ only low_part d d'.
Proof.
  intros G (Ht & _ & Lb & _) PL FIT H. pose proof (asks_nonneg t n sb (proj2 Ht)) as AN.
  assert (LOW : good d (b - asks (t, n, sb))). { destruct G as [A B C (D1 & D2)]. constructor; auto. split; [lia|]. intros k Hk N. specialize (D2 k Hk N). lia. }
  destruct PL as [R|[R|(o & Ho & E & NA & NF)]].
  - rewrite process_readB in H by auto. destruct (propertyValueReadB _ _ _ _ _ _ _) as [(f & s)|]; [|discriminate]. injection H as _ <-. split; [auto|apply only_refl].
  - apply process_describeB in H; auto. subst d'. split; [auto|apply only_refl].
  - pose proof (event_processed L static t n sb d o Ht Lb Ho E) as EP.
    destruct (loadPropertyB L static propertiesTab o (skipn 12 t) (n - 13) d) as [(s & d1)|] eqn:EL; [|rewrite EP in H; discriminate].
    assert (LE : b <= lowestTable d) by (apply lowest_ok; destruct G; auto).
    assert (AA : allocation (t, n, sb) = true -> is_table o /\ asks (t, n, sb) = wanted (t, n, sb)).
    { intros A. destruct (Z.eq_dec o 0) as [-> |NO]; [exfalso; eapply allocation_zero; eauto|]. assert (IT : is_table o) by (red; lia). rewrite (asks_event o) by auto. now rewrite A. }
    destruct (load_step L static o t n d s d1 (g_long _ _ G) (g_bytes _ _ G) Ht Ho NA) as (O & B1 & BS & C); auto.
    { intros A. split; [now apply NF|]. destruct (AA A) as (_ & Q). change (wanted (t, n, [])) with (wanted (t, n, sb)). lia. }
    specialize (EP BS) as (sb1 & EP & _). rewrite EP in H. injection H as _ <-.
    assert (L1 : long d1) by (eapply only_long; eauto; apply G).
    assert (K : kept d1 (eeByte (0x370 + o) s d1)) by (apply kept_byte; auto; unfold apart; lia).
    split; [|apply only_byte; auto; unfold low_part; lia].
    eapply good_gone; [|apply kept_gone; exact K|now apply long_byte|now apply bytes_byte].
    destruct C as [(A & IT & PL & _)|(A & GO)].
    + destruct (AA A) as (_ & Q). rewrite Q in *. change (wanted (t, n, [])) with (wanted (t, n, sb)) in PL. eapply good_placed; eauto; lia.
    + eapply good_gone; eauto.
Qed.
Lemma history L static l : forall d b out d', good d b -> Forall request_fits l -> Forall plain l -> first_free + total l <= b ->
  propRequestsB L static propertiesTab l d = Some (out, d') -> good d' (b - total l) /\ only low_part d d'.
Proof.
  induction l as [|((t & n) & sb) l IH]; intros d b out d' G F P FIT H; cbn [propRequestsB] in H.
  - injection H as _ <-. cbn [total fold_right]. rewrite Z.sub_0_r. split; [auto|apply only_refl].
  - apply Forall_cons_iff in F as (F1 & F2). apply Forall_cons_iff in P as (P1 & P2). cbn [total fold_right] in FIT |- *. fold (total l) in FIT |- *.
    assert (TN : 0 <= total l). { clear - F2. induction F2 as [|((t & n) & sb) l X Y IH]; [cbn; lia|]. cbn [total fold_right]. fold (total l). pose proof (asks_nonneg t n sb (proj2 (proj1 X))). lia. }
    destruct (processPropertyApciB L static propertiesTab t n sb d) as [(sb' & d1)|] eqn:E; [|discriminate].
    destruct (propRequestsB L static propertiesTab l d1) as [(out' & d2)|] eqn:E2; [|discriminate]. injection H as _ <-.
    destruct (request_step L static t n sb d b sb' d1 G F1 P1 ltac:(lia) E) as (G1 & O1).
    destruct (IH d1 _ out' d2 G1 F2 P2 ltac:(lia) E2) as (G2 & O2). split; [|eapply only_trans; eauto]. replace (b - (asks (t, n, sb) + total l)) with (b - asks (t, n, sb) - total l) by lia. auto.
Qed.
