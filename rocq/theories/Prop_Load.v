(** Interface object properties: load control *)
From Verif Require Import Base Bits Telegram_Model Mapper_Model Mapper_Spec Mapper_Proofs MemReq_Model MemReq_Spec MemReq_Proofs MemReq_Op Prop_Model Prop_Spec Prop_Proofs.

(** ** Changes of the EEPROM *)
(** only EEPROM bytes at places in [P] differ *)
Record only (P : nat -> Prop) (d d' : dev) : Prop := {
  o_map : memMapper d' = memMapper d; o_ram : ramData d' = ramData d; o_status : status d' = status d; o_mod : eeModified d' = eeModified d;
  o_len : length (eeData d') = length (eeData d); o_rd : forall j, ~ P j -> rd (eeData d') j = rd (eeData d) j }.
Lemma only_refl P d : only P d d.
Proof. constructor; auto. Qed.
Lemma only_trans P d d1 d2 : only P d d1 -> only P d1 d2 -> only P d d2.
Proof. intros [A1 A2 A3 A4 A5 A6] [B1 B2 B3 B4 B5 B6]. constructor; try congruence. intros j Hj. rewrite B6, A6; auto. Qed.
Lemma only_byte (P : nat -> Prop) o v d d0 : only P d0 d -> P (Z.to_nat o) -> only P d0 (eeByte o v d).
Proof.
  intros H HP. apply (only_trans _ _ d); auto. constructor; try reflexivity; unfold eeByte, setEe; cbn [eeData]; [apply wr_length|].
  intros j Hj. apply rd_wr_other. intros <-. auto.
Qed.
Lemma only_word (P : nat -> Prop) o v d d0 : only P d0 d -> P (Z.to_nat o) -> P (Z.to_nat (o + 1)) -> only P d0 (eeWord o v d).
Proof. intros H A B. unfold eeWord. apply only_byte; auto. apply only_byte; auto. Qed.
(** the places load controls write to besides the load state *)
Definition tables_at (j : nat) : Prop := (3 <= j <= 9)%nat \/ (Z.to_nat 0x378 <= j <= Z.to_nat 0x384)%nat.
Ltac at_table := first [left; vm_compute; lia | right; vm_compute; lia].
Lemma makeWord_bytes a b : is_byte a -> is_byte b -> makeWord a b = 256 * a + b.
Proof.
  intros A B. red in A, B. unfold makeWord. rewrite lor_shiftl_add by lia. change (2 ^ 8) with 256. rewrite u16_id; [lia|]. red. lia.
Qed.
(** what of the device matters here *)
Definition half L d : Prop := layout_ok L /\ (forall m, memMapper d = Some m -> exists hi, core (mapCfg L) m hi) /\ Z.of_nat (length (eeData d)) = eeSize L /\ 1024 <= eeSize L.
Lemma device_half L d : bcu2_device L d -> half L d.
Proof.
  intros (HL & HD & He & _). split; [auto|]. split; [|split; [apply (d_ee _ _ HD)|auto]]. intros m EM. destruct (g_map _ _ (dev_good L d HL HD) m EM) as (K & _). exact K.
Qed.
Lemma reachable_hosts L d a : half L d -> -1 <= a < 131072 -> (reachable L (u32 a) d = true <-> hosts L d a).
Proof.
  intros (HL & HM & _) Ha. unfold reachable, hosts, inside, inRange1. destruct (l_ee _ HL) as (E1 & E2 & E3). destruct (l_ram _ HL) as (R1 & R2 & R3).
  assert (M : (match memMapper d with Some m => isMapped (mapCfg L) (s32 (u32 a)) m | None => false end) = true <->
              exists m, memMapper d = Some m /\ (autoAddPage (mapCfg L) = true \/ mapper_array m a <> None)).
  { assert (S : s32 (u32 a) = a).
    { destruct (Z.eq_dec a (-1)) as [-> |N]; [reflexivity|]. rewrite u32_id by (red; lia). apply s32_small. lia. }
    rewrite S. destruct (memMapper d) as [m|] eqn:EM; [|split; [discriminate|intros (m & X & _); discriminate]].
    destruct (HM m eq_refl) as (hi & K). destruct (autoAddPage (mapCfg L)) eqn:A.
    - unfold isMapped. rewrite A. split; [intros _; exists m; auto|auto].
    - rewrite (isMapped_view _ m hi a K A). split.
      + intros H. exists m. split; auto. right. intros C. rewrite C in H. discriminate.
      + intros (m' & Em & [X|X]); [discriminate|]. injection Em as <-. destruct (mapper_array m a); congruence. }
  rewrite !orb_true_iff, !andb_true_iff, M, !Z.leb_le, !Z.ltb_lt.
  assert (U : u32 a = if a =? -1 then 4294967295 else a).
  { destruct (Z.eqb_spec a (-1)) as [-> |N]; [reflexivity|]. apply u32_id. red. lia. }
  rewrite U. destruct (Z.eqb_spec a (-1)) as [-> |N].
  - split; [intros [[[H|H]|H]|H]; try lia; auto|]. intros [H|[H|[H|H]]]; try lia; auto.
  - split; [intros [[[H|H]|H]|H]; [left|right; left|right; right; left|right; right; right]; auto; lia|].
    intros [H|[H|[H|H]]]; [left; left; left; lia|left; left; right; lia|left; right; auto|right; lia].
Qed.

(** ** One event *)
Lemma event_state L static o t n d : half L d -> telegram t ->
  let q := (t, n, @nil Z) in let r := loadProperty L static o (skipn 12 t) (n - 13) d in
  only tables_at d (snd r) /\ (no_operation q -> fst r = 3) /\ (~ no_operation q -> forall s, prescribed L d o q s (fst r)) /\ is_byte (fst r).
Proof.
  intros HD (Lt & Ft) q r.
  assert (FE : Forall is_byte (skipn 12 t)). { rewrite <- (firstn_skipn 12 t) in Ft. now apply Forall_app in Ft as (_ & ?). }
  pose proof (fun i => rd_byte (skipn 12 t) i FE) as B.
  unfold r, loadProperty. destruct ((11 <? n - 13) || (n - 13 <? 10)) eqn:EL.
  { cbn [fst snd]. assert (~ event_well_sized q) by (unfold event_well_sized, event_length, q; lia).
    split; [apply only_refl|]. split; [intros (A & _); contradiction|]. split; [intros _ s; left; auto|]. unfold LS_ERROR. red. lia. }
  assert (W : event_well_sized q) by (unfold event_well_sized, event_length, q; lia).
  set (e := skipn 12 t) in *. assert (EC : event_control q = rd e 0 mod 8) by reflexivity. cbv zeta.
  unfold handleLoadStateMachine. change 7 with (Z.ones 3). rewrite Z.land_ones by lia. change (2 ^ 3) with 8. rewrite <- EC.
  pose proof (Z.mod_pos_bound (rd e 0) 8 ltac:(lia)) as CB. rewrite <- EC in CB.
  unfold LS_LOADING, LS_LOADED, LS_LOADCOMPLETING, LS_UNLOADED, LS_ERROR.
  destruct (Z.eqb_spec (event_control q) 1) as [C|C].
  { cbn [negb Z.eqb Pos.eqb fst snd]. split; [apply only_refl|]. split; [intros (_ & A); lia|]. split; [intros _ s; right; split; auto; tauto|red; lia]. }
  destruct (Z.eqb_spec (event_control q) 2) as [C2|C2].
  { cbn [negb Z.eqb Pos.eqb fst snd]. split; [apply only_refl|]. split; [intros (_ & A); lia|]. split; [intros _ s; right; split; auto; tauto|red; lia]. }
  destruct (Z.eqb_spec (event_control q) 3) as [C3|C3].
  2:{ destruct (Z.eqb_spec (event_control q) 4) as [C4|C4]; cbn [negb Z.eqb Pos.eqb fst snd].
      - split; [apply only_refl|]. split; [intros (_ & A); lia|]. split; [intros _ s; right; split; auto; tauto|red; lia].
      - split; [apply only_refl|]. split; [auto|]. split; [|red; lia]. intros NO s. right. split; auto. do 6 right. split; auto.
        assert (event_control q <> 0) by (intros X; apply NO; split; auto). lia. }
  cbn [negb Z.eqb Pos.eqb].
  set (off := if n - 13 =? 10 then 2%nat else 3%nat). set (p := fun i => rd e (off + i)).
  assert (EP : forall i, p i = event_arg q i).
  { intros i. unfold p, event_arg. change (event_bytes q) with e. f_equal. f_equal. unfold off, event_length, q. destruct (Z.eqb_spec (n - 13) 10); lia. }
  assert (BP : forall i, is_byte (p i)) by (intros i; apply B).
  assert (EO : n - 13 - Z.of_nat off = 8). { unfold off. destruct (Z.eqb_spec (n - 13) 10); lia. }
  rewrite EO.
  assert (FIN : forall s d1 (A : Prop), only tables_at d d1 -> (s = 2 /\ A \/ s = 3 /\ ~ A) -> (A <-> acceptable L d o q) ->
     only tables_at d (snd (s, d1)) /\ (no_operation q -> fst (s, d1) = 3) /\ (~ no_operation q -> forall s0, prescribed L d o q s0 (fst (s, d1))) /\ is_byte (fst (s, d1))).
  { intros s d1 A O V I. cbn [fst snd]. split; auto. split; [intros (_ & X); lia|]. split; [|red; lia]. intros _ s0. right. split; auto. destruct V as [(V & X)|(V & X)]; tauto. }
  assert (NIL : forall x, In x [1; 3; 4; 5; 10; 11] <-> x = 1 \/ x = 3 \/ x = 4 \/ x = 5 \/ x = 10 \/ x = 11) by (intros x; cbn [In]; intuition lia).
  assert (ACC : forall k, rd e 1 = k -> In k [1; 3; 4; 5; 10; 11] -> (True <-> acceptable L d o q)).
  { intros k E I. split; auto. intros _. unfold acceptable. cbv zeta. change (event_bytes q) with e. rewrite E. auto. }
  destruct (Z.eqb_spec (rd e 1) 0) as [S0|S0].
  { unfold handleAllocAbsDataSegment. cbv zeta. rewrite !makeWord_bytes by auto.
    set (first := 256 * p 0%nat + p 1%nat). set (len := 256 * p 2%nat + p 3%nat).
    assert (RF : 0 <= first < 65536) by (pose proof (BP 0%nat) as X; pose proof (BP 1%nat) as Y; unfold first; red in X, Y; lia).
    assert (RL : 0 <= len < 65536) by (pose proof (BP 2%nat) as X; pose proof (BP 3%nat) as Y; unfold len; red in X, Y; lia).
    pose proof (reachable_hosts L d first HD ltac:(lia)) as H1. rewrite u32_id in H1 by (red; lia).
    pose proof (reachable_hosts L d (first + len - 1) HD ltac:(lia)) as H2.
    change (Z.land (p 5%nat) 0x07) with (Z.land (p 5%nat) (Z.ones 3)). rewrite Z.land_ones by lia. change (2 ^ 3) with 8.
    unfold LS_LOADING, LS_ERROR.
    assert (AC : acceptable L d o q <-> 1 <= p 5%nat mod 8 <= 3 /\ hosts L d first /\ hosts L d (first + len - 1)).
    { unfold acceptable. cbv zeta. change (event_bytes q) with e. rewrite NIL, <- !EP. fold first len. split; [|tauto]. intros [X|[X|X]]; [tauto|lia|lia]. }
    apply (FIN _ _ (acceptable L d o q)); [apply only_refl| |tauto]. rewrite AC, <- H1, <- H2.
    pose proof (Z.mod_pos_bound (p 5%nat) 8 ltac:(lia)) as M5. set (m5 := p 5%nat mod 8) in *.
    destruct (reachable L first d), (reachable L (u32 (first + len - 1)) d); rewrite ?andb_false_r, ?andb_true_r; clear - M5;
      destruct (Z.eqb_spec m5 1), (Z.eqb_spec m5 2), (Z.eqb_spec m5 3); cbn [orb]; first [left; split; [reflexivity|]; split; [lia|split; reflexivity] | right; split; [reflexivity|]; intros (? & ? & ?); first [discriminate|lia]]. }
  destruct (Z.eqb_spec (rd e 1) 1) as [S1|S1]; [apply (FIN _ _ True); [apply only_refl|auto|apply (ACC 1); auto; cbn; auto]|].
  destruct (Z.eqb_spec (rd e 1) 2) as [S2|S2].
  { unfold handleAllocAbsTaskSegment. change (8 <? 7) with false. cbv zeta iota. unfold OT_ADDR_TABLE, OT_ASSOC_TABLE, OT_APPLICATION, LS_LOADING, LS_ERROR.
    assert (AC : (1 <= o <= 3) <-> acceptable L d o q).
    { unfold acceptable. cbv zeta. change (event_bytes q) with e. rewrite NIL. split; [tauto|]. intros [X|[X|X]]; lia. }
    destruct (Z.eqb_spec o 1); [|destruct (Z.eqb_spec o 2); [|destruct (Z.eqb_spec o 3)]]; (apply (FIN _ _ (1 <= o <= 3)); [|lia|apply AC]).
    - apply only_word; [apply only_refl|at_table|at_table].
    - apply only_word; [apply only_refl|at_table|at_table].
    - do 6 (apply only_byte; [|at_table]). apply only_refl.
    - apply only_refl. }
  destruct (Z.eqb_spec (rd e 1) 3) as [S3|S3]; [apply (FIN _ _ True); [apply only_refl|auto|apply (ACC 3); auto; cbn; auto]|].
  destruct (Z.eqb_spec (rd e 1) 4) as [S4|S4].
  { apply (FIN _ _ True); [|auto|apply (ACC 4); auto; cbn; auto]. unfold handleTaskCtrl1. apply only_byte; [|at_table]. apply only_word; [apply only_refl|at_table|at_table]. }
  destruct (Z.eqb_spec (rd e 1) 5) as [S5|S5].
  { apply (FIN _ _ True); [|auto|apply (ACC 5); auto; cbn; auto]. unfold handleTaskCtrl2. cbv zeta. do 3 (apply only_word; [|at_table|at_table]). apply only_refl. }
  destruct (Z.eqb_spec (rd e 1) 0x0A) as [S6|S6]; [apply (FIN _ _ True); [apply only_refl|auto|apply (ACC 10); auto; cbn; auto 10]|].
  destruct (Z.eqb_spec (rd e 1) 0x0B) as [S7|S7]; [apply (FIN _ _ True); [apply only_refl|auto|apply (ACC 11); auto; cbn; auto 10]|].
  apply (FIN _ _ False); [apply only_refl|auto|]. unfold acceptable. cbv zeta. change (event_bytes q) with e. rewrite NIL. split; [contradiction|lia].
Qed.

(** every object has a writable load-control property *)
Lemma control_property o : 0 <= o < 6 ->
  exists p, propertyDef propertiesTab o 5 = Some (Some p) /\ writable p = true /\ type_of p = 0 /\ valuePointer p = Some (VEe (0x370 + o)).
Proof.
  intros H. assert (K : o = 0 \/ o = 1 \/ o = 2 \/ o = 3 \/ o = 4 \/ o = 5) by lia.
  repeat (destruct K as [-> |K]; [eexists; split; [reflexivity|repeat split]|]). subst o. eexists. split; [reflexivity|repeat split].
Qed.
Definition states_at (o : Z) (j : nat) : Prop := tables_at j \/ j = Z.to_nat (0x370 + o).
Lemma load_event L static t n sb d : half L d -> telegram t -> length sb = 23%nat -> is_write t -> f_id t = 5 -> 0 <= f_object t < 6 ->
  exists sb' d' s, processPropertyApci L static propertiesTab t n sb d = Some (sb', d') /\
    (no_operation (t, n, sb) -> s = 3) /\ (~ no_operation (t, n, sb) -> forall s0, prescribed L d (f_object t) (t, n, sb) s0 s) /\
    load_state d' (f_object t) = s /\ only (states_at (f_object t)) d d' /\
    value_answer sb' = Some (f_object t, 5, f_count t, f_start t, [s]) /\ length sb' = 23%nat /\ is_byte s /\ d' = eeByte (loadStateOffset + f_object t) s (snd (loadProperty L static (f_object t) (skipn 12 t) (n - 13) d)).
Proof.
  intros HD Ht Lb HW Hid Ho. rewrite process_write by auto. rewrite Hid.
  destruct (control_property _ Ho) as (p & PD & PW & PT & PV). unfold propertyValueWrite. rewrite PD, writable_field, PW. cbn [negb]. rewrite PV, type_field, PT.
  change (0 =? PDT_CONTROL) with true. cbv iota. set (o := f_object t) in *.
  pose proof (event_state L static o t n d HD Ht) as EV. cbv zeta in EV. destruct (loadProperty L static o (skipn 12 t) (n - 13) d) as (s & d1) eqn:E. cbn [fst snd] in EV.
  destruct EV as (O & N1 & N2 & BS). eexists _, _, s. split; [reflexivity|]. split; [exact N1|]. split; [exact N2|].
  assert (LE : Z.of_nat (length (eeData d1)) = eeSize L). { rewrite (o_len _ _ _ O). apply HD. }
  destruct HD as (_ & _ & _ & He).
  unfold loadStateOffset. split.
  { unfold load_state, eeByte, setEe. cbn [eeData]. rewrite rd_wr_same by lia. now apply u8_id. }
  split. { apply only_byte; [|right; reflexivity]. destruct O as [A1 A2 A3 A4 A5 A6]. constructor; auto. intros j Hj. apply A6. intros X. apply Hj. left. exact X. }
  rewrite u8_id by auto. destruct (answer_with t sb [s] Lb (proj2 Ht) ltac:(cbn; lia)) as (V & L2 & _). cbn [wr_range] in V, L2. change (Z.of_nat (length [s])) with 1 in V, L2.
  rewrite <- Hid at 1. split; [exact V|]. split; [exact L2|]. split; auto.
Qed.

(** ** Other writes do not touch the load states *)
Lemma find_in id l p : findProperty id l = Some (Some p) -> In p l.
Proof.
  induction l as [|q l IH]; cbn [findProperty]; [discriminate|]. destruct (pid q =? 0); [discriminate|]. destruct (pid q =? id); [intros [= <-]; now left|]. intros H. right. auto.
Qed.
Lemma def_in tabs o id p : propertyDef tabs o id = Some (Some p) -> In p (concat tabs).
Proof.
  unfold propertyDef. destruct (NUM_PROP_OBJECTS <=? o); [discriminate|]. intros H. apply find_in in H. apply in_concat. eexists. split; [|exact H].
  destruct (nth_in_or_default (Z.to_nat o) tabs []) as [I|I]; auto. rewrite I in H. contradiction.
Qed.
(** written at or above the offset minus one element: behind the load states *)
Definition harmless (p : pdef) : bool :=
  negb (writable p) || (type_of p =? 0) || match valuePointer p with Some (VEe o) => (0x376 <=? o - size_of p) | Some (VRam _) => true | Some (VDef _) => true | None => false end.
Lemma all_harmless p : In p (concat propertiesTab) -> harmless p = true.
Proof. intros H. assert (K : forallb harmless (concat propertiesTab) = true) by (vm_compute; reflexivity). now apply (proj1 (forallb_forall _ _) K). Qed.
Lemma bput_frame l pos bs l' : bput l pos bs = Some l' -> length l' = length l /\ forall j, (j < pos)%nat -> rd l' j = rd l j.
Proof.
  unfold bput. destruct (Nat.leb_spec (pos + length bs) (length l)); [|discriminate]. intros [= <-]. split; [apply wr_range_length|]. intros j Hj.
  rewrite rd_wr_range by auto. assert ((Nat.leb pos j && Nat.ltb j (pos + length bs))%bool = false) as -> by lia. reflexivity.
Qed.
Lemma zput_frame l i bs l' : zput l i bs = Some l' -> length l' = length l /\ forall j, Z.of_nat j < i -> rd l' j = rd l j.
Proof.
  unfold zput. destruct (Nat.eqb (length bs) 0); [intros [= <-]; auto|]. destruct (Z.ltb_spec i 0); [discriminate|]. intros H1. apply bput_frame in H1 as (A & B).
  split; auto. intros j Hj. apply B. lia.
Qed.
Lemma vput_frame v k bs d d' lo : vput v k bs d = Some d' -> (forall o, v = VEe o -> lo <= o + k) ->
  memMapper d' = memMapper d /\ length (eeData d') = length (eeData d) /\ forall j, Z.of_nat j < lo -> rd (eeData d') j = rd (eeData d) j.
Proof.
  intros H HO. destruct v as [o|o|w]; cbn [vput] in H.
  - destruct (zput _ _ _); [|discriminate]. injection H as <-. auto.
  - destruct (zput (eeData d) (o + k) bs) as [l|] eqn:E; [|discriminate]. injection H as <-. cbn [setEe memMapper eeData]. apply zput_frame in E as (A & B).
    split; auto. split; auto. intros j Hj. apply B. specialize (HO o eq_refl). lia.
  - destruct (Nat.eqb (length bs) 0); [|discriminate]. injection H as <-. auto.
Qed.
Lemma start_nonneg t : Forall is_byte t -> 0 <= startIndex t.
Proof.
  intros F. unfold startIndex. pose proof (rd_byte t 11 F) as B. red in B. apply Z.lor_nonneg. split; [|lia]. apply Z.shiftl_nonneg. apply Z.land_nonneg. right. lia.
Qed.
Lemma other_write L static t n o id count start sb d f sb' d' : 0 <= start ->
  propertyValueWrite L static propertiesTab t n o id count start sb d = Some (f, sb', d') ->
  (memMapper d' = memMapper d /\ length (eeData d') = length (eeData d) /\ (forall j, Z.of_nat j < 0x376 -> rd (eeData d') j = rd (eeData d) j)) \/
  (exists p, propertyDef propertiesTab o id = Some (Some p) /\ type_of p = 0).
Proof.
  intros Hs. unfold propertyValueWrite. destruct (propertyDef propertiesTab o id) as [[p|]|] eqn:EP; [|intros [= <- <- <-]; left; auto|discriminate].
  pose proof (all_harmless p (def_in _ _ _ _ EP)) as HH. unfold harmless in HH. rewrite writable_field. destruct (writable p); cbn [negb orb] in *; [|intros [= <- <- <-]; left; auto].
  destruct (valuePointer p) as [v|]; [|discriminate]. rewrite type_field. unfold PDT_CONTROL. destruct (Z.eqb_spec (type_of p) 0) as [E|E]; [intros _; right; eauto|].
  cbn [orb] in HH. cbv zeta. destruct (bget t 12 _) as [bs|]; [|discriminate]. destruct (vput v _ (rev bs) d) as [d1|] eqn:EV; [|discriminate].
  destruct (vget v _ _ d1) as [bs1|]; [|discriminate]. destruct (bput sb 12 (rev bs1)); [|discriminate]. intros [= <- <- <-]. left.
  rewrite size_field in EV. pose proof (size_range p). destruct (vput_frame v _ _ _ _ 0x376 EV) as (A & B & C).
  { intros o' ->. nia. }
  destruct (isEepromPointer p); cbn [touch memMapper eeData]; auto.
Qed.
(** type 0 (control) is the type of the load-control properties only *)
Lemma control_only o id p : propertyDef propertiesTab o id = Some (Some p) -> type_of p = 0 -> 0 <= o -> o < 6 /\ id = 5.
Proof.
  intros H T Ho. destruct (Z_lt_dec o 6) as [L6|L6]. 2:{ unfold propertyDef, NUM_PROP_OBJECTS in H. rewrite (proj2 (Z.leb_le _ _)) in H by lia. discriminate. }
  split; auto. assert (PI : pid p = id /\ In p (concat propertiesTab)).
  { split; [|now apply (def_in _ _ _ _ H)]. unfold propertyDef in H. destruct (NUM_PROP_OBJECTS <=? o); [discriminate|]. revert H. generalize (nth (Z.to_nat o) propertiesTab []).
    intros l. induction l as [|q l IH]; cbn [findProperty]; [discriminate|]. destruct (pid q =? 0); [discriminate|]. destruct (Z.eqb_spec (pid q) id) as [E|E]; [intros [= <-]; auto|auto]. }
  destruct PI as (<- & I). assert (K : forallb (fun p => negb (type_of p =? 0) || (pid p =? 5) || (pid p =? 0)) (concat propertiesTab) = true) by (vm_compute; reflexivity).
  pose proof (proj1 (forallb_forall _ _) K p I) as Q. cbn beta in Q. rewrite T in Q. cbn [Z.eqb negb orb] in Q.
  assert (NZ : pid p <> 0). { intros C. unfold propertyDef in H. rewrite C in H. destruct (NUM_PROP_OBJECTS <=? o); [discriminate|]. revert H. generalize (nth (Z.to_nat o) propertiesTab []).
    intros l. induction l as [|q l IH]; cbn [findProperty]; [discriminate|]. destruct (pid q =? 0); [discriminate|auto]. }
  lia.
Qed.
(** one request of any kind *)
Definition same_family (d d' : dev) : Prop := memMapper d' = memMapper d /\ length (eeData d') = length (eeData d).
Lemma hosts_family L d d' a : same_family d d' -> hosts L d a -> hosts L d' a.
Proof. intros (M & _). unfold hosts. now rewrite M. Qed.
Lemma family_sym d d' : same_family d d' -> same_family d' d.
Proof. intros (A & B). split; auto. Qed.
Lemma acceptable_family L d d' o q : same_family d d' -> acceptable L d o q <-> acceptable L d' o q.
Proof.
  intros F. unfold acceptable. cbv zeta. split; intros [(A & B & C & D)|H]; auto; left; (split; [auto|]; split; [auto|]; split).
  - apply (hosts_family _ _ _ _ F C).
  - apply (hosts_family _ _ _ _ F D).
  - apply (hosts_family _ _ _ _ (family_sym _ _ F) C).
  - apply (hosts_family _ _ _ _ (family_sym _ _ F) D).
Qed.
Lemma prescribed_family L d d' o q s s' : same_family d d' -> prescribed L d o q s s' -> prescribed L d' o q s s'.
Proof. intros F. unfold prescribed. rewrite (acceptable_family L d d' o q F). auto. Qed.

Lemma half_family L d d' : same_family d d' -> half L d -> half L d'.
Proof. intros (M & E) (A & B & C & D). split; auto. rewrite M, E. auto. Qed.
Lemma only_family P d d' : only P d d' -> same_family d d'.
Proof. intros H. split; [apply (o_map _ _ _ H)|apply (o_len _ _ _ H)]. Qed.
Lemma command_cases L static tabs t n sb d r : telegram t -> processPropertyApci L static tabs t n sb d = Some r -> is_read t \/ is_write t \/ is_describe t.
Proof.
  intros (Lt & Ft) H. unfold processPropertyApci in H. cbv zeta in H.
  assert (E : apciCommand t = 0x3d5 \/ apciCommand t = 0x3d7 \/ apciCommand t = 0x3d8 -> apciCommand t = f_command t).
  { unfold apciCommand. cbv zeta. rewrite command_field by auto. match goal with |- context [if ?b then _ else _] => destruct b end; auto. intros X. exfalso.
    assert (Y : Z.testbit (Z.land (f_command t) APCI_GROUP_MASK) 4 = false) by (rewrite Z.land_spec; apply andb_false_r). destruct X as [X|[X|X]]; rewrite X in Y; discriminate. }
  unfold is_read, is_write, is_describe, APCI_PROPERTY_VALUE_READ_PDU, APCI_PROPERTY_VALUE_WRITE_PDU, APCI_PROPERTY_DESCRIPTION_READ_PDU in *.
  destruct (Z.eqb_spec (apciCommand t) 0x3d5) as [C|C]; [left; rewrite <- E; auto|]. destruct (Z.eqb_spec (apciCommand t) 0x3d7) as [C1|C1]; [right; left; rewrite <- E; auto|].
  cbn [orb] in H. destruct (Z.eqb_spec (apciCommand t) 0x3d8) as [C2|C2]; [right; right; rewrite <- E; auto|discriminate].
Qed.
Lemma describe_same L static tabs t n sb d sb' d' : telegram t -> is_describe t -> processPropertyApci L static tabs t n sb d = Some (sb', d') -> d' = d.
Proof.
  intros (Lt & Ft) C. unfold processPropertyApci. rewrite (command_is t 0x3d8 Ft C) by lia. cbv zeta. change ((0x3d8 =? APCI_PROPERTY_VALUE_READ_PDU) || (0x3d8 =? APCI_PROPERTY_VALUE_WRITE_PDU)) with false.
  change (0x3d8 =? APCI_PROPERTY_DESCRIPTION_READ_PDU) with true. cbv iota. destruct (propertyDescRead _ _ _ _ _ _); cbn [option_map]; congruence.
Qed.
(** the load states after one request *)
Lemma any_request L static t n sb d sb' d' : half L d -> telegram t -> length sb = 23%nat -> processPropertyApci L static propertiesTab t n sb d = Some (sb', d') ->
  same_family d d' /\ forall o, 0 <= o < 6 ->
    if event_for o (t, n, sb) then (no_operation (t, n, sb) -> load_state d' o = 3) /\ (~ no_operation (t, n, sb) -> forall s, prescribed L d o (t, n, sb) s (load_state d' o))
    else load_state d' o = load_state d o.
Proof.
  intros HD Ht Lb H. destruct (command_cases _ _ _ _ _ _ _ _ Ht H) as [C|[C|C]].
  - rewrite process_read in H by auto. destruct (propertyValueRead _ _ _ _ _ _ _) as [(f & s)|]; [|discriminate]. injection H as _ <-. split; [split; auto|]. intros o Ho.
    unfold event_for. rewrite C. reflexivity.
  - assert (NE : forall o, event_for o (t, n, sb) = (f_object t =? o) && (f_id t =? 5)) by (intros o; unfold event_for; rewrite C; reflexivity).
    destruct (Z_lt_dec (f_object t) 6) as [O6|O6]; [destruct (Z.eq_dec (f_id t) 5) as [I5|I5]|].
    + assert (OB : 0 <= f_object t) by (pose proof (rd_byte t 8 (proj2 Ht)) as X; red in X; unfold f_object; lia).
      destruct (load_event L static t n sb d HD Ht Lb C I5 ltac:(lia)) as (sb1 & d1 & s & E & N1 & N2 & LS & O & _). rewrite E in H. injection H as <- <-.
      split; [apply (only_family _ _ _ O)|]. intros o Ho. rewrite NE, I5. change (5 =? 5) with true. rewrite andb_true_r. destruct (Z.eqb_spec (f_object t) o) as [<- |N].
      * rewrite LS. auto.
      * unfold load_state. apply (o_rd _ _ _ O). unfold states_at, tables_at. lia.
    + rewrite process_write in H by auto. destruct (propertyValueWrite _ _ _ _ _ _ _ _ _ _ _) as [((f & s) & d1)|] eqn:E; [|discriminate]. injection H as _ <-.
      destruct (other_write _ _ _ _ _ _ _ _ _ _ _ _ _ (start_nonneg t (proj2 Ht)) E) as [(A & B & K)|(p & P1 & P2)].
      * split; [split; auto|]. intros o Ho. rewrite NE. rewrite (proj2 (Z.eqb_neq (f_id t) 5)) by auto. rewrite andb_false_r. unfold load_state. apply K. lia.
      * exfalso. destruct (control_only _ _ _ P1 P2) as (_ & X); [|auto]. pose proof (rd_byte t 8 (proj2 Ht)) as X. red in X. unfold f_object. lia.
    + rewrite process_write in H by auto. unfold propertyValueWrite, propertyDef, NUM_PROP_OBJECTS in H. rewrite (proj2 (Z.leb_le _ _)) in H by lia. injection H as _ <-.
      split; [split; auto|]. intros o Ho. rewrite NE. rewrite (proj2 (Z.eqb_neq (f_object t) o)) by lia. reflexivity.
  - rewrite (describe_same _ _ _ _ _ _ _ _ _ Ht C H). split; [split; auto|]. intros o Ho. unfold event_for. rewrite C. reflexivity.
Qed.
Lemma history_states L static : forall l d out d', half L d -> Forall request_fits l -> Forall (fun q => forall o, event_for o q = true -> ~ no_operation q) l -> propRequests L static propertiesTab l d = Some (out, d') ->
  forall d0 o, same_family d d0 -> 0 <= o < 6 -> after L d0 o l (load_state d o) (load_state d' o).
Proof.
  induction l as [|((t & n) & sb) l IH]; intros d out d' HD F N H d0 o SF Ho; cbn [propRequests after] in *; [injection H as _ <-; reflexivity|].
  inversion F as [|? ? F1 F']; subst. cbn [request_fits] in F1. destruct F1 as (Ht & _ & Lb & _). inversion N as [|? ? N1 N']; subst.
  destruct (processPropertyApci L static propertiesTab t n sb d) as [(sb1 & d1)|] eqn:E; [|discriminate].
  destruct (propRequests L static propertiesTab l d1) as [(out1 & d2)|] eqn:E2; [|discriminate]. injection H as _ <-.
  destruct (any_request L static t n sb d sb1 d1 HD Ht Lb E) as (SF1 & S). exists (load_state d1 o). split.
  - specialize (S o Ho). destruct (event_for o (t, n, sb)) eqn:EF; auto. apply (prescribed_family L d d0); auto. apply S. now apply (N1 o).
  - eapply (IH d1 out1 d2); eauto using half_family. destruct SF, SF1. split; congruence.
Qed.
(** an object is loaded only if that was the last event *)
Definition completes (q : request) : Prop := event_well_sized q /\ event_control q = 2.
Lemma history_loaded L static : forall l d out d', half L d -> Forall request_fits l -> propRequests L static propertiesTab l d = Some (out, d') ->
  forall o, 0 <= o < 6 -> match last_event o l with Some q => load_state d' o = 1 <-> completes q | None => load_state d' o = load_state d o end.
Proof.
  induction l as [|((t & n) & sb) l IH]; intros d out d' HD F H o Ho; cbn [propRequests last_event] in *; [injection H as _ <-; reflexivity|].
  inversion F as [|? ? F1 F']; subst. cbn [request_fits] in F1. destruct F1 as (Ht & _ & Lb & _).
  destruct (processPropertyApci L static propertiesTab t n sb d) as [(sb1 & d1)|] eqn:E; [|discriminate].
  destruct (propRequests L static propertiesTab l d1) as [(out1 & d2)|] eqn:E2; [|discriminate]. injection H as _ <-.
  destruct (any_request L static t n sb d sb1 d1 HD Ht Lb E) as (SF1 & S). specialize (IH d1 out1 d2 (half_family _ _ _ SF1 HD) F' E2 o Ho).
  destruct (last_event o l) as [q|]; [auto|]. specialize (S o Ho). rewrite IH. destruct (event_for o (t, n, sb)) eqn:EF; [|auto]. destruct S as (S1 & S2).
  unfold completes. assert (D : no_operation (t, n, sb) \/ ~ no_operation (t, n, sb)).
  { unfold no_operation, event_well_sized. destruct (Z.eq_dec (event_length (t, n, sb)) 10), (Z.eq_dec (event_length (t, n, sb)) 11), (Z.eq_dec (event_control (t, n, sb)) 0); tauto. }
  destruct D as [D|D].
  - rewrite S1 by auto. destruct D as (_ & D). split; [lia|intros (_ & X); lia].
  - specialize (S2 D (-1)). destruct S2 as [(A & B)|(A & B)].
    + split; [lia|tauto].
    + split; [intros X; split; auto; lia|]. intros (_ & X). lia.
Qed.
