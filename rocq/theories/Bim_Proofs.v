(** Proofs for loading a BIM112 device through its memory services *)
From Verif Require Import Base Bits Mapper_Spec Mapper_Proofs MemReq_Spec MemReq_Proofs MemReq_Op Bim_Model.
From Verif Require Import Bim_Spec.

(** ** Storing bytes in the EEPROM *)
Definition eePut (d : dev) (s : Z * Z) : dev := eeByte (fst s) (snd s) d.
Definition slot (L : layout) (s : Z * Z) : Prop := 0 <= fst s < eeSize L /\ is_byte (snd s).
Lemma put_good L d s : good L d -> no_auto L d -> slot L s -> good L (eePut d s) /\ no_auto L (eePut d s).
Proof.
  intros G N (K & V). split; [|exact N]. unfold eePut, eeByte, setEe. rewrite u8_id by auto.
  apply good_local; try apply G; auto. - rewrite wr_length. split; auto. apply Forall_wr; auto. apply G. - split; auto. apply G.
Qed.
Lemma put_array L d s x : layout_ok L -> good L d -> no_auto L d -> slot L s -> array L (eePut d s) x = putEe L (array L d) s x.
Proof.
  intros HL G N Sl. destruct (put_good L d s G N Sl) as (G' & N'). destruct Sl as (K & V). unfold putEe, store.
  pose proof (g_ee _ _ G) as (Le & _).
  destruct (Z.eqb_spec x (eeStart L + fst s)) as [->|Nx].
  - rewrite array_local by (auto; left; unfold inside; lia). rewrite local_ee by (unfold inside; lia). unfold eePut, eeByte, setEe. cbn [eeData].
    replace (eeStart L + fst s - eeStart L) with (fst s) by lia. rewrite rd_wr_same by lia. now rewrite u8_id.
  - apply array_swap; auto. unfold local_array. cbn [eePut eeByte setEe eeData ramData status].
    destruct ((eeStart L <=? x) && (x <? eeStart L + eeSize L)) eqn:E; auto.
    unfold eePut, eeByte, setEe. cbn [eeData]. f_equal. apply rd_wr_other. lia.
Qed.
Lemma put_ext L f g s : (forall x, f x = g x) -> forall x, putEe L f s x = putEe L g s x.
Proof. intros H x. unfold putEe, store. now rewrite H. Qed.
Lemma puts_ext L l : forall f g, (forall x, f x = g x) -> forall x, fold_left (putEe L) l f x = fold_left (putEe L) l g x.
Proof. induction l as [|s l IH]; intros f g H x; cbn [fold_left]; auto. apply IH. now apply put_ext. Qed.
Lemma puts_spec L l : layout_ok L -> Forall (slot L) l -> forall d, good L d -> no_auto L d ->
  good L (fold_left eePut l d) /\ no_auto L (fold_left eePut l d) /\ forall x, array L (fold_left eePut l d) x = fold_left (putEe L) l (array L d) x.
Proof.
  intros HL H. induction H as [|s l Hs H IH]; intros d G N; cbn [fold_left]; auto.
  destruct (put_good L d s G N Hs) as (G1 & N1). destruct (IH _ G1 N1) as (G2 & N2 & A). split; auto. split; auto.
  intros x. rewrite A. apply puts_ext. intros y. now apply put_array.
Qed.
Lemma word_puts o v d : is_u16 v -> eeWord o v d = fold_left eePut (wordAt o v) d.
Proof.
  intros V. red in V. unfold eeWord, wordAt. cbn [fold_left]. unfold eePut. cbn [fst snd]. unfold lowByte, HIGH_BYTE. rewrite land_255, Z.shiftr_div_pow2 by lia.
  change (2 ^ 8) with 256. unfold eeByte at 1 3. f_equal. f_equal. unfold u8. rewrite ?Z.mod_mod by lia. reflexivity.
Qed.
Lemma word_slots L o v : is_u16 v -> 0 <= o -> o + 1 < eeSize L -> Forall (slot L) (wordAt o v).
Proof.
  intros V H1 H2. red in V. unfold wordAt. pose proof (Z.mod_pos_bound v 256 ltac:(lia)).
  assert (0 <= v / 256 < 256) by (split; [apply Z.div_pos; lia|apply Z.div_lt_upper_bound; lia]).
  repeat constructor; cbn [fst snd]; lia.
Qed.

(** ** Which addresses have memory *)
Lemma reach_spec L a d : layout_ok L -> good L d -> no_auto L d -> -1 <= a < 131072 -> reachableB L (u32 a) d = hasMemory (array L d) a.
Proof.
  intros HL G N Ha. pose proof (l_ee _ HL). pose proof (l_ram _ HL). unfold hasMemory.
  assert (SA : s32 (u32 a) = a).
  { destruct (Z.eq_dec a (-1)) as [->|]; [reflexivity|]. unfold u32. rewrite Z.mod_small by lia. apply s32_small. lia. }
  assert (R : forall s z, 0 <= s -> s + z <= 65536 -> inRange1 s z (u32 a) = (s <=? a) && (a <? s + z)).
  { intros s z Hs Hz. unfold inRange1. destruct (Z.eq_dec a (-1)) as [->|].
    - change (u32 (-1)) with 4294967295. lia.
    - unfold u32. rewrite Z.mod_small by lia. lia. }
  unfold reachableB. rewrite SA, !R by lia. rewrite array_eq by auto.
  assert (LA : match local_array L d a with Some _ => true | None => false end = ((ramStart L <=? a) && (a <? ramStart L + ramSize L)) || ((eeStart L <=? a) && (a <? eeStart L + eeSize L))).
  { unfold local_array. destruct ((eeStart L <=? a) && _); [now rewrite orb_true_r|]. now destruct ((ramStart L <=? a) && _). }
  rewrite <- LA. destruct (memMapper d) as [m|] eqn:E.
  - destruct (g_map _ _ G m E) as ((hi & K) & _). rewrite (isMapped_view _ m hi a K (no_auto_some L d m N E)).
    destruct (mapper_array m a); [apply orb_true_r|apply orb_false_r].
  - apply orb_false_r.
Qed.
Lemma has_ext f g a : (forall x, f x = g x) -> hasMemory f a = hasMemory g a.
Proof. intros H. unfold hasMemory. now rewrite H. Qed.
Lemma allocated_ext f g data : (forall x, f x = g x) -> allocated f data = allocated g data.
Proof. intros H. unfold allocated. cbv zeta. now rewrite (has_ext f g (parameterWord data 0)), (has_ext f g (parameterWord data 0 + parameterWord data 2 - 1)) by auto. Qed.
Lemma outcome_ext f g o data : (forall x, f x = g x) -> outcome f o data = outcome g o data.
Proof. intros H. unfold outcome. now rewrite (allocated_ext f g). Qed.
Lemma control_ext L static o data f g : (forall x, f x = g x) -> forall x, loadControl L static o data f x = loadControl L static o data g x.
Proof. intros H. unfold loadControl. rewrite (outcome_ext f g) by auto. now apply puts_ext. Qed.

(** ** Case distinctions on bytes *)
Lemma type3 (A : Type) (b : Z) (x y : A) : 0 <= b < 8 -> match b with 1 | 2 | 3 => x | _ => y end = if (b =? 1) || (b =? 2) || (b =? 3) then x else y.
Proof. intros H. assert (b = 0 \/ b = 1 \/ b = 2 \/ b = 3 \/ b = 4 \/ b = 5 \/ b = 6 \/ b = 7) as C by lia. repeat (destruct C as [->|C]; [reflexivity|]). subst. reflexivity. Qed.
Lemma by_object (A : Type) (o : Z) (w x y z : A) : match o with 1 => w | 2 => x | 3 => y | _ => z end = if o =? 1 then w else if o =? 2 then x else if o =? 3 then y else z.
Proof. destruct o as [|p|p]; try reflexivity. destruct p as [[p|p|]|[p|p|]|]; reflexivity. Qed.
Lemma by_event (A : Type) (e : Z) (x1 x2 x3 x4 x0 : A) :
  match e with 1 => x1 | 2 => x2 | 4 => x4 | 3 => x3 | _ => x0 end = if e =? 1 then x1 else if e =? 2 then x2 else if e =? 3 then x3 else if e =? 4 then x4 else x0.
Proof. destruct e as [|p|p]; try reflexivity. destruct p as [[p|p|]|[[p|p|]|[p|p|]|]|]; reflexivity. Qed.
Lemma by_segment (A : Type) (s : Z) (x0 x2 x x' : A) :
  match s with 0 => x0 | 2 => x2 | 1 | 3 | 4 | 5 | 10 | 11 => x | _ => x' end =
  if s =? 0 then x0 else if s =? 1 then x else if s =? 2 then x2 else if s =? 3 then x else if s =? 4 then x else if s =? 5 then x else if s =? 10 then x else if s =? 11 then x else x'.
Proof. destruct s as [|p|p]; try reflexivity. do 4 (try (destruct p as [p|p|]; try reflexivity)). Qed.
Lemma by_variables (A : Type) (e s o : Z) (x1 x2 x3 y z w : A) :
  match e, s, o with 3, 2, 1 => x1 | 3, 2, 2 => x2 | 3, 2, 3 => x3 | 3, 4, _ => y | 3, 5, _ => z | _, _, _ => w end =
  if e =? 3 then if s =? 2 then if o =? 1 then x1 else if o =? 2 then x2 else if o =? 3 then x3 else w else if s =? 4 then y else if s =? 5 then z else w else w.
Proof.
  destruct e as [|p|p]; try reflexivity. destruct p as [[p|p|]|[p|p|]|]; try reflexivity.
  destruct s as [|q|q]; try reflexivity. do 3 (try (destruct q as [q|q|]; try reflexivity)).
  destruct o as [|r|r]; try reflexivity. destruct r as [[r|r|]|[r|r|]|]; reflexivity.
Qed.
Lemma own_or static v : ownOr static v = if static =? 0 then v else static.
Proof. destruct static; reflexivity. Qed.

(** ** A load control *)
Lemma land_7 v : Z.land v 7 = v mod 8.
Proof. change 7 with (Z.ones 3). rewrite Z.land_ones by lia. reflexivity. Qed.
Lemma word_of h l : is_byte h -> is_byte l -> makeWord h l = 256 * h + l.
Proof. intros H1 H2. red in H1, H2. unfold makeWord. rewrite word_bytes by auto. rewrite u16_id by (red; lia). lia. Qed.
(** the load procedures do to the EEPROM what the spec says *)
Lemma loadProperty_spec L static o buf n d f : bim_ok L -> good L d -> no_auto L d -> is_u16 static -> Forall is_byte buf -> (n <= length buf)%nat -> (forall x, array L d x = f x) ->
  loadProperty0701 L static o buf (Z.of_nat n) d = (outcome f o (firstn n buf), fold_left eePut (variables static o (firstn n buf)) d).
Proof.
  intros (HL & HE) G N HS HB Hn Hf. unfold loadProperty0701, outcome, variables. set (data := firstn n buf).
  assert (Ld : length data = n) by (apply firstn_length_le; auto).
  assert (P : proper data = negb ((11 <? Z.of_nat n) || (Z.of_nat n <? 10))).
  { unfold proper. rewrite Ld. destruct (Nat.eqb_spec n 10) as [->|]; [reflexivity|]. destruct (Nat.eqb_spec n 11) as [->|]; [reflexivity|]. cbn [orb]. lia. }
  rewrite P. destruct ((11 <? Z.of_nat n) || (Z.of_nat n <? 10)) eqn:E; cbn [negb]; [reflexivity|].
  assert (R : forall i, (i < n)%nat -> rd buf i = nth i data 0) by (intros i Hi; unfold data; rewrite nth_firstn by auto; reflexivity).
  assert (O : (if Z.of_nat n =? 10 then 2%nat else 3%nat) = (n - 8)%nat) by (destruct (Z.eqb_spec (Z.of_nat n) 10); lia).
  rewrite O. rewrite (R 0%nat), (R 1%nat) by lia. fold (segment data).
  assert (Q : forall i, (i < 8)%nat -> rd buf (n - 8 + i) = parameter data i) by (intros i Hi; unfold parameter; rewrite Ld; apply R; lia).
  assert (QB : forall i, (i < 8)%nat -> is_byte (parameter data i)) by (intros i Hi; rewrite <- Q by auto; now apply rd_byte).
  assert (QW : forall i, (S i < 8)%nat -> makeWord (rd buf (n - 8 + i)) (rd buf (n - 8 + S i)) = parameterWord data i).
  { intros i Hi. rewrite !Q by lia. apply word_of; apply QB; lia. }
  assert (QU : forall i, (S i < 8)%nat -> is_u16 (parameterWord data i)).
  { intros i Hi. pose proof (QB i ltac:(lia)) as B1. pose proof (QB (S i) Hi) as B2. unfold is_byte, is_u16, parameterWord in *. lia. }
  assert (OW : forall v, is_u16 v -> is_u16 (ownOr static v)) by (intros v V; rewrite own_or; destruct (static =? 0); auto).
  unfold handleLoadStateMachine. cbv zeta. rewrite land_7. fold (loadEvent data). rewrite by_event, by_segment, by_variables, by_object.
  unfold LS_LOADING, LS_LOADED, LS_LOADCOMPLETING, LS_UNLOADED, LS_ERROR, loading, loaded, unloaded, failed in *.
  destruct (loadEvent data =? 1) eqn:E1; [replace (loadEvent data =? 3) with false by lia; reflexivity|].
  destruct (loadEvent data =? 2) eqn:E2; [replace (loadEvent data =? 3) with false by lia; reflexivity|].
  destruct (loadEvent data =? 3) eqn:E3; [|destruct (loadEvent data =? 4); reflexivity].
  cbv iota. change (negb (5 =? 5)) with false. cbv iota.
  replace (segment data =? 0x0A) with (segment data =? 10) by reflexivity. replace (segment data =? 0x0B) with (segment data =? 11) by reflexivity.
  destruct (segment data =? 0) eqn:S0.
  { replace (segment data =? 2) with false by lia. replace (segment data =? 4) with false by lia. replace (segment data =? 5) with false by lia. cbn [fold_left]. f_equal.
    unfold handleAllocAbsDataSegmentB. cbv zeta. rewrite (QW 0%nat), (QW 2%nat) by lia. rewrite (Q 5%nat) by lia. rewrite land_7.
    pose proof (QU 0%nat ltac:(lia)) as U0. pose proof (QU 2%nat ltac:(lia)) as U2. red in U0, U2.
    replace (reachableB L (parameterWord data 0) d) with (reachableB L (u32 (parameterWord data 0)) d) by (unfold u32; rewrite Z.mod_small by lia; reflexivity).
    rewrite !reach_spec by (auto; lia). rewrite (has_ext _ f (parameterWord data 0)), (has_ext _ f (parameterWord data 0 + parameterWord data 2 - 1)) by auto. unfold allocated. cbv zeta. rewrite type3 by (apply Z.mod_pos_bound; lia).
    destruct ((parameter data 5 mod 8 =? 1) || (parameter data 5 mod 8 =? 2) || (parameter data 5 mod 8 =? 3)); reflexivity. }
  destruct (segment data =? 1) eqn:S1. { replace (segment data =? 2) with false by lia. replace (segment data =? 4) with false by lia. now replace (segment data =? 5) with false by lia. }
  destruct (segment data =? 2) eqn:S2.
  { unfold handleAllocAbsTaskSegment0701. replace (Z.of_nat n - Z.of_nat (n - 8) <? 7) with false by lia. cbv zeta. rewrite (QW 0%nat) by lia.
    unfold OT_ADDR_TABLE, OT_ASSOC_TABLE, OT_APPLICATION, LS_LOADING, LS_ERROR.
    destruct (o =? 1) eqn:O1; [f_equal; apply word_puts; apply QU; lia|].
    destruct (o =? 2) eqn:O2; [f_equal; apply word_puts; apply QU; lia|].
    destruct (o =? 3) eqn:O3; [|reflexivity]. f_equal. rewrite !Q by lia. rewrite <- own_or. rewrite word_puts by (apply OW; apply QU; lia). rewrite fold_left_app. reflexivity. }
  destruct (segment data =? 3) eqn:S3. { replace (segment data =? 4) with false by lia. now replace (segment data =? 5) with false by lia. }
  destruct (segment data =? 4) eqn:S4. { f_equal. unfold handleTaskCtrl1. rewrite (QW 0%nat) by lia. rewrite word_puts by (apply QU; lia). rewrite fold_left_app, (Q 2%nat) by lia. reflexivity. }
  destruct (segment data =? 5) eqn:S5.
  { f_equal. unfold handleTaskCtrl2. cbv zeta. rewrite (QW 2%nat), (QW 4%nat), (QW 6%nat) by lia. rewrite <- own_or.
    rewrite (word_puts commsTabAddrOffset) by (apply OW; apply QU; lia). rewrite (word_puts commsSeg0AddrOffset), (word_puts commsSeg1AddrOffset) by (apply QU; lia).
    rewrite !fold_left_app. reflexivity. }
  destruct (segment data =? 10); [reflexivity|]. destruct (segment data =? 11); reflexivity.
Qed.
Lemma outcome_byte f o data : is_byte (outcome f o data).
Proof.
  unfold outcome. destruct (negb (proper data)); [red; unfold failed; lia|]. rewrite by_event, by_segment, by_object.
  repeat match goal with |- is_byte (if ?b then _ else _) => destruct b end; red; unfold loading, loaded, unloaded, failed; lia.
Qed.
Lemma variables_slots L static o data : bim_ok L -> is_u16 static -> Forall is_byte data -> Forall (slot L) (variables static o data).
Proof.
  intros (HL & HE) HS HB. unfold variables. destruct (negb (proper data)); [constructor|].
  assert (QB : forall i, is_byte (parameter data i)) by (intros i; unfold parameter; exact (rd_byte data _ HB)).
  assert (QU : forall i, is_u16 (parameterWord data i)).
  { intros i. pose proof (QB i) as B1. pose proof (QB (S i)) as B2. unfold is_byte, is_u16, parameterWord in *. lia. }
  assert (OW : forall v, is_u16 v -> is_u16 (ownOr static v)) by (intros v V; rewrite own_or; destruct (static =? 0); auto).
  assert (W : forall k v, is_u16 v -> 0 <= k <= 0x384 -> Forall (slot L) (wordAt k v)) by (intros k v V Hk; apply word_slots; auto; lia).
  assert (B : forall k i, 0 <= k <= 0x384 -> slot L (k, parameter data i)) by (intros k i Hk; split; cbn [fst snd]; [lia|apply QB]).
  rewrite by_variables. repeat match goal with |- Forall _ (if ?b then _ else _) => destruct b end; try apply Forall_nil;
    repeat (apply Forall_app; split); try (apply W; [auto|lia]); repeat (apply Forall_cons; [apply B; lia|]); apply Forall_nil.
Qed.
Lemma touch_same L d : good L d -> no_auto L d -> good L (touch d) /\ no_auto L (touch d) /\ forall x, array L (touch d) x = array L d x.
Proof. intros G N. split; [|split; [exact N|reflexivity]]. unfold touch. apply good_local; try apply G; split; auto; apply G. Qed.
(** a write to the load control address *)
Lemma control_spec L static t n d f : bim_ok L -> good L d -> no_auto L d -> is_u16 static -> Forall is_byte t -> length t = 23%nat -> (n <= 12)%nat -> (forall x, array L d x = f x) ->
  rd t 10 / 16 < 8 ->
  exists d', memoryWritePDU0701 L static 0x104 (Z.of_nat n) t d = Some (true, d') /\ good L d' /\ no_auto L d' /\ eeModified d' = true /\
    forall x, array L d' x = loadControl L static (rd t 10 / 16) (firstn n (skipn 10 t)) f x.
Proof.
  intros HB G N HS B Lt Hn Hf Ho. pose proof (rd_byte t 10 B) as B10. red in B10.
  assert (O0 : 0 <= rd t 10 / 16) by (apply Z.div_pos; lia).
  unfold memoryWritePDU0701. change (0x104 =? LOAD_CONTROL_ADDR) with true. cbv iota zeta. rewrite Z.shiftr_div_pow2 by lia. change (2 ^ 4) with 16.
  set (o := rd t 10 / 16) in *. unfold INTERFACE_OBJECT_COUNT. replace (o <? 8) with true by lia.
  assert (BS : Forall is_byte (skipn 10 t)) by (rewrite <- (firstn_skipn 10 t) in B; apply Forall_app in B; apply B).
  rewrite (loadProperty_spec L static o (skipn 10 t) n d f HB G N HS BS) by (auto; rewrite skipn_length; lia).
  set (data := firstn n (skipn 10 t)). set (d1 := fold_left eePut (variables static o data) d).
  assert (E : eeByte (loadStateOffset + o) (outcome f o data) d1 = fold_left eePut (variables static o data ++ [(states + o, outcome f o data)]) d) by (rewrite fold_left_app; reflexivity).
  rewrite E. clear E. destruct HB as (HL & HE).
  destruct (puts_spec L (variables static o data ++ [(states + o, outcome f o data)]) HL) with (d := d) as (G1 & N1 & A1); auto.
  { apply Forall_app. split. - apply variables_slots; auto. + split; auto. + apply Forall_sub. exact B. - constructor; [|constructor]. split; [cbn [fst]; unfold states; lia|apply outcome_byte]. }
  destruct (touch_same L _ G1 N1) as (G2 & N2 & A2). eexists. split; [reflexivity|]. split; auto. split; auto. split; [reflexivity|].
  intros x. rewrite A2, A1. unfold loadControl. now apply puts_ext.
Qed.
(** a write elsewhere *)
Lemma write_spec L t n a d f : layout_ok L -> good L d -> no_auto L d -> Forall is_byte t -> length t = 23%nat -> (n <= 12)%nat -> 0 <= a < 65536 -> (forall x, array L d x = f x) ->
  let w := match n with O => (false, f) | S _ => write_bytes (place L a n f) (firstn n (skipn 10 t)) f end in
  exists b' d1, processApciMemoryOperation L a 10 (Z.of_nat n) false t d = Some (fst w, b', d1) /\ good L d1 /\ no_auto L d1 /\ forall x, array L d1 x = snd w x.
Proof.
  intros HL G N B Lt Hn Ha Hf w. destruct n as [|n'] eqn:En. { exists t, d. split; [reflexivity|]. auto. }
  rewrite <- En in *. assert (Ew : w = write_bytes (place L a n f) (firstn n (skipn 10 t)) f) by (unfold w; rewrite En; reflexivity). clearbody w. subst w.
  destruct (op_spec L a n 10 false t d HL G N (fun _ => B) Ha ltac:(lia) ltac:(lia)) as (k & b & b' & d1 & E & V & Hk & Hb & Hs).
  rewrite (place_ext L a n _ f Hf) in V, Hs. set (a' := place L a n f) in *.
  assert (LQ : length (firstn n (skipn 10 t)) = n) by (apply sub_length; lia).
  destruct (write_bytes_spec (firstn n (skipn 10 t)) a' f k) as (W1 & W2).
  { lia. } { intros i Hi. rewrite <- Hf. now apply (v_known _ _ _ _ _ _ _ _ _ V). } { intros Q. rewrite <- Hf. apply Hs. lia. }
  exists b', d1. rewrite W1, LQ, <- Hb. split; auto. split; [apply V|]. split; [apply V|].
  intros x. rewrite W2, (v_arr _ _ _ _ _ _ _ _ _ V). cbn [negb andb]. rewrite Hf. destruct ((a' <=? x) && (x <? a' + Z.of_nat k)) eqn:T; auto.
  f_equal. rewrite rd_sub by lia. reflexivity.
Qed.
(** a read; the memories stay as they are *)
Lemma read_spec L n a sb d f : bim_ok L -> good L d -> no_auto L d -> length sb = 23%nat -> (n <= 12)%nat -> 0 <= a < 65536 -> (forall x, array L d x = f x) ->
  exists sb' d', memoryRead0701 L (Z.of_nat n) a sb d = Some (true, sb', d') /\ good L d' /\ no_auto L d' /\ (forall x, array L d' x = f x) /\
    decode_response sb' = Some (bim_answer L a n f).
Proof.
  intros (HL & HE) G N Hl Hn Ha Hf. unfold bim_answer. destruct (inWindow a) eqn:W.
  - unfold memoryRead0701, memoryReadPDU0701. change ((LOAD_STATE_ADDR <=? a) && (a <? LOAD_STATE_ADDR + INTERFACE_OBJECT_COUNT)) with (inWindow a). rewrite W.
    unfold inWindow, objects in W. pose proof (g_ee _ _ G) as (Le & Be). unfold LOAD_STATE_ADDR, loadStateOffset, states. set (k := a - 0xb6e9) in *.
    assert (Hk : 0 <= k < 8) by (unfold k; lia). rewrite Nat2Z.id. rewrite bget_ok by lia.
    set (bs := firstn n (skipn (Z.to_nat (0x370 + k)) (eeData d))). assert (Lb : length bs = n) by (apply sub_length; lia).
    rewrite bput_ok by lia. do 2 eexists. split; [reflexivity|]. split; auto. split; auto. split; auto.
    assert (L1 : length (wr_range sb 10 bs) = 23%nat) by (rewrite wr_range_length; auto).
    pose proof (answer_fields (wr_range sb 10 bs) (Z.of_nat n) a L1 ltac:(lia) Ha) as Q. cbv zeta in Q. cbv zeta. rewrite Q. rewrite Nat2Z.id.
    assert (I : forall i, (i < n)%nat -> f (eeStart L + 0x370 + k + Z.of_nat i) = Some (rd bs i)).
    { intros i Hi. rewrite <- Hf. assert (inside (eeStart L) (eeSize L) (eeStart L + 0x370 + k + Z.of_nat i)) by (unfold inside; lia). rewrite array_local by auto. rewrite local_ee by auto.
      f_equal. unfold bs. rewrite rd_sub by auto. f_equal. lia. }
    rewrite read_bytes_known by (intros i Hi; rewrite I by auto; discriminate).
    assert (EL : firstn n (skipn 10 (wr_range sb 10 bs)) = map (fun i => val (f (eeStart L + 0x370 + k + Z.of_nat i))) (seq 0 n)); [|now rewrite EL].
    apply list_ext with (d := 0). { rewrite sub_length by lia. now rewrite map_length, seq_length. }
    intros i Hi. rewrite sub_length in Hi by lia. change (rd (firstn n (skipn 10 (wr_range sb 10 bs))) i = nth i (map (fun i => val (f (eeStart L + 0x370 + k + Z.of_nat i))) (seq 0 n)) 0).
    rewrite rd_sub by auto. rewrite rd_wr_range by lia. replace (Nat.leb 10 (10 + i) && Nat.ltb (10 + i) (10 + length bs))%bool with true by lia.
    rewrite nth_indep with (d' := (fun i => val (f (eeStart L + 0x370 + k + Z.of_nat i))) O) by (rewrite map_length, seq_length; auto).
    rewrite map_nth with (f := fun i => val (f (eeStart L + 0x370 + k + Z.of_nat i))). rewrite seq_nth by auto. cbn [Nat.add]. rewrite I by auto. cbn [val]. f_equal. lia.
  - unfold memoryRead0701, memoryReadPDU0701. change ((LOAD_STATE_ADDR <=? a) && (a <? LOAD_STATE_ADDR + INTERFACE_OBJECT_COUNT)) with (inWindow a). rewrite W.
    exact (memoryRead_spec L n a sb d f HL G N Hl Hn Ha Hf).
Qed.
Lemma bim_request_spec L static t sb d f : bim_ok L -> is_u16 static -> good L d -> no_auto L d -> request_ok t -> (q_count t <= 12)%nat -> length sb = 23%nat -> (forall x, array L d x = f x) ->
  exists ans sb' d', processMemoryApci0701 L static t sb d = Some (ans, sb', d') /\ good L d' /\ no_auto L d' /\ (forall x, array L d' x = snd (bim_request L static t f) x) /\
    (if ans : bool then Some (decode_response sb') else None) = option_map Some (fst (bim_request L static t f)).
Proof.
  intros HB HS G N HT Hn Hl Hf. pose proof (proj1 HB) as HL. pose proof (request_command t HT) as HC. destruct HT as (LT & B & H). destruct (request_fields t B) as (_ & F1 & F2 & F3 & F4).
  unfold processMemoryApci0701. cbv zeta. rewrite HC, F1, F2. unfold bim_request. cbv zeta. set (n := q_count t) in *. set (a := q_address t) in *.
  destruct H as [H|H]; rewrite H.
  - change (0x200 =? APCI_MEMORY_READ_PDU) with true. change (0x200 =? 0x200) with true. cbv iota.
    destruct (read_spec L n a sb d f HB G N Hl Hn F4 Hf) as (sb' & d' & -> & G' & N' & A' & D). exists true, sb', d'. cbn [fst snd option_map]. rewrite D. auto.
  - change (0x280 =? APCI_MEMORY_READ_PDU) with false. change (0x280 =? APCI_MEMORY_WRITE_PDU) with true. change (0x280 =? 0x200) with false. cbv iota.
    set (w := if a =? 0x104 then _ else _).
    assert (W : exists d1, memoryWritePDU0701 L static a (Z.of_nat n) t d = Some (fst w, d1) /\ good L d1 /\ no_auto L d1 /\ forall x, array L d1 x = snd w x).
    { unfold w. destruct (Z.eqb_spec a 0x104) as [Ea|Na].
      - rewrite Ea. unfold objects. destruct (Z.ltb_spec (rd t 10 / 16) 8) as [Ho|Ho].
        + destruct (control_spec L static t n d f HB G N HS B LT Hn Hf Ho) as (d1 & E & G1 & N1 & _ & A1). exists d1. auto.
        + exists d. unfold memoryWritePDU0701. change (0x104 =? LOAD_CONTROL_ADDR) with true. cbv iota zeta. rewrite Z.shiftr_div_pow2 by lia. change (2 ^ 4) with 16.
          unfold INTERFACE_OBJECT_COUNT. replace (rd t 10 / 16 <? 8) with false by lia. auto.
      - unfold memoryWritePDU0701. unfold LOAD_CONTROL_ADDR. replace (a =? 0x104) with false by lia.
        destruct (write_spec L t n a d f HL G N B LT Hn F4 Hf) as (b' & d1 & -> & G1 & N1 & A1). exists d1. auto. }
    destruct W as (d1 & -> & G1 & N1 & W2). clearbody w. destruct w as (ok, g). cbn [fst snd] in *.
    pose proof (device_control L d1 _ HL G1 N1 (W2 _)) as DC. rewrite DC. rewrite bit2.
    replace (ok && ((0x1F <? maskVersion L) && Z.testbit (deviceControl d1) 2)) with (ok && (0x1F <? maskVersion L) && Z.testbit (deviceControl d1) 2) by (now rewrite andb_assoc).
    destruct (ok && (0x1F <? maskVersion L) && Z.testbit (deviceControl d1) 2).
    + destruct (read_spec L n a sb d1 g HB G1 N1 Hl Hn F4 W2) as (sb' & d' & -> & G' & N' & A' & D). exists true, sb', d'. cbn [fst snd option_map]. rewrite D. auto.
    + exists false, sb, d1. cbn [fst snd option_map]. auto.
Qed.
Lemma bim_requests_spec L static l : bim_ok L -> is_u16 static -> Forall (fun q => request_ok (fst q) /\ (q_count (fst q) <= 12)%nat /\ length (snd q) = 23%nat) l ->
  forall d f, good L d -> no_auto L d -> (forall x, array L d x = f x) ->
  exists out d', requests0701 L static l d = Some (out, d') /\ map (option_map decode_response) out = map (option_map Some) (fst (bim_requests L static (map fst l) f)) /\
    (forall x, array L d' x = snd (bim_requests L static (map fst l) f) x) /\ good L d' /\ no_auto L d'.
Proof.
  intros HB HS H. induction H as [|(t, sb) l (H1 & H2 & H3) H IH]; intros d f G N Hf; cbn [requests0701 map fst bim_requests].
  - exists [], d. auto.
  - cbn [fst snd] in H1, H2, H3. destruct (bim_request_spec L static t sb d f HB HS G N H1 H2 H3 Hf) as (ans & sb' & d1 & -> & G1 & N1 & A1 & D1).
    destruct (bim_request L static t f) as (an, g). cbn [fst snd] in A1, D1. destruct (IH d1 g G1 N1 A1) as (out & d2 & -> & O & A2 & G2 & N2).
    destruct (bim_requests L static (map fst l) g) as (outs, h). cbn [fst snd] in O, A2. do 2 eexists. split; [reflexivity|]. cbn [map fst snd]. split; auto. f_equal; auto.
    destruct ans; auto.
Qed.
