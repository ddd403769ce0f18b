(** Memory requests: the moves between memories and buffers, and the loop over the memories *)
From Verif Require Import Base Bits Mapper_Model Mapper_Spec Mapper_Proofs MemReq_Model MemReq_Spec.

(** ** Buffers *)
Lemma bget_ok l pos n : (pos + n <= length l)%nat -> bget l pos n = Some (firstn n (skipn pos l)).
Proof. intros H. unfold bget. now rewrite (proj2 (Nat.leb_le _ _) H). Qed.
Lemma bput_ok l pos bs : (pos + length bs <= length l)%nat -> bput l pos bs = Some (wr_range l pos bs).
Proof. intros H. unfold bput. now rewrite (proj2 (Nat.leb_le _ _) H). Qed.
Lemma nth_skipn (l : list Z) : forall p i, nth i (skipn p l) 0 = nth (p + i) l 0.
Proof. induction l as [|x l IH]; intros [|p] i; cbn [skipn]; auto. destruct i; reflexivity. apply IH. Qed.
Lemma nth_firstn (l : list Z) : forall n i, (i < n)%nat -> nth i (firstn n l) 0 = nth i l 0.
Proof. induction l as [|x l IH]; intros [|n] [|i] H; cbn [firstn nth]; auto; try lia. apply IH. lia. Qed.
Lemma rd_sub l pos n i : (i < n)%nat -> rd (firstn n (skipn pos l)) i = rd l (pos + i).
Proof. intros H. unfold rd. now rewrite nth_firstn, nth_skipn. Qed.
Lemma sub_length (l : list Z) pos n : (pos + n <= length l)%nat -> length (firstn n (skipn pos l)) = n.
Proof. intros H. rewrite firstn_length, skipn_length. lia. Qed.
Lemma rd_wr_range l pos bs j : (pos + length bs <= length l)%nat -> rd (wr_range l pos bs) j = if (Nat.leb pos j && Nat.ltb j (pos + length bs))%bool then rd bs (j - pos) else rd l j.
Proof. intros H. unfold rd. now apply nth_wr_range. Qed.
Lemma Forall_sub (P : Z -> Prop) l pos n : Forall P l -> Forall P (firstn n (skipn pos l)).
Proof. intros H. rewrite <- (firstn_skipn pos l) in H. apply Forall_app in H as (_ & H). rewrite <- (firstn_skipn n (skipn pos l)) in H. now apply Forall_app in H as (H & _). Qed.
Lemma Forall_wr_range (P : Z -> Prop) bs : forall l pos, Forall P l -> Forall P bs -> Forall P (wr_range l pos bs).
Proof. induction bs as [|b bs IH]; intros l pos H1 H2; cbn [wr_range]; auto. inversion H2; subst. apply IH; auto. now apply Forall_wr. Qed.
Lemma s32_small z : 0 <= z < 2147483648 -> s32 z = z.
Proof. intros H. unfold s32. cbv zeta. rewrite u32_id by (red; lia). destruct (Z.ltb_spec z 2147483648); lia. Qed.

(** ** The mapper, several bytes at a time *)
Lemma mapper_array_view m : mapper_array m = view m.
Proof. reflexivity. Qed.
Lemma isMapped_view c m hi a : core c m hi -> autoAddPage c = false -> isMapped c a m = match mapper_array m a with Some _ => true | None => false end.
Proof.
  intros K A. unfold isMapped. rewrite A, (getPage c m hi a K), mapper_array_view. cbn [orb]. destruct (in_space a) eqn:E.
  - pose proof (entry_byte c m hi (Z.to_nat (a / 256)) K) as EB. red in EB. destruct (view_mapped c m hi a K E) as (V1 & V2).
    unfold MEM_MAPPER_INVALID_ADDRESS. destruct (view m a).
    + assert (rd (allocTable m) (Z.to_nat (a / 256)) <> 255) by (intros Q; apply V2 in Q; discriminate). lia.
    + rewrite V1 by auto. reflexivity.
  - unfold view, decode. rewrite E. reflexivity.
Qed.
(** addresses of one page are mapped together *)
Lemma mapper_array_page m a b : a / 256 = b / 256 -> mapper_array m a <> None -> mapper_array m b <> None.
Proof.
  intros E. unfold mapper_array, decode. destruct (in_space a) eqn:Ea; [|contradiction].
  destruct (in_space_page a Ea) as (P & _). rewrite (same_page_space b (a / 256)) by auto. rewrite <- E. cbv zeta. destruct (_ =? 255); intros H; congruence.
Qed.
Lemma mapper_array_between m a b x : a <= x <= b -> b - a <= 256 -> mapper_array m a <> None -> mapper_array m b <> None -> mapper_array m x <> None.
Proof.
  intros Hx Hl Ha Hb. pose proof (Z.div_mod a 256 ltac:(lia)). pose proof (Z.mod_pos_bound a 256 ltac:(lia)).
  pose proof (Z.div_mod b 256 ltac:(lia)). pose proof (Z.mod_pos_bound b 256 ltac:(lia)). pose proof (Z.div_mod x 256 ltac:(lia)). pose proof (Z.mod_pos_bound x 256 ltac:(lia)).
  assert (D : a / 256 = x / 256 \/ b / 256 = x / 256) by lia. destruct D as [D|D]; [apply (mapper_array_page m a)|apply (mapper_array_page m b)]; auto.
Qed.
Lemma readMemPtr_spec c n : mcfg_ok c -> forall a m x hi, rel c m x hi -> (forall i, (i < n)%nat -> mem x (a + Z.of_nat i) <> None) ->
  exists bs m', readMemPtr c a n false m = Some (0, bs, m') /\ rel c m' x hi /\ length bs = n /\ forall i, (i < n)%nat -> mem x (a + Z.of_nat i) = Some (rd bs i).
Proof.
  intros Hc. induction n as [|n IH]; intros a m x hi R H; cbn [readMemPtr].
  - exists [], m. split; [reflexivity|]. split; [auto|]. split; [reflexivity|]. intros i Hi. lia.
  - destruct (mem x a) as [v|] eqn:E. 2:{ exfalso. apply (H O); [lia|]. now rewrite Z.add_0_r. }
    destruct (read_mapped c m x hi a false v Hc R E) as (m1 & -> & R1). unfold MEM_MAPPER_SUCCESS. cbn [Z.eqb].
    destruct (IH (a + 1) m1 x hi R1) as (bs & m2 & -> & R2 & L & B).
    { intros i Hi. replace (a + 1 + Z.of_nat i) with (a + Z.of_nat (S i)) by lia. apply H. lia. }
    exists (v :: bs), m2. split; auto. split; auto. cbn [length]. split; [lia|]. intros [|i] Hi; [now rewrite Z.add_0_r|].
    replace (a + Z.of_nat (S i)) with (a + 1 + Z.of_nat i) by lia. rewrite B by lia. reflexivity.
Qed.
Lemma writeMemPtr_spec c bs : mcfg_ok c -> Forall is_byte bs -> forall a m x hi, rel c m x hi -> (forall i, (i < length bs)%nat -> mem x (a + Z.of_nat i) <> None) ->
  exists m' y hi', writeMemPtr c a bs m = Some (0, m') /\ rel c m' y hi' /\
    forall b, mem y b = if (a <=? b) && (b <? a + Z.of_nat (length bs)) then Some (rd bs (Z.to_nat (b - a))) else mem x b.
Proof.
  intros Hc Hb. induction Hb as [|v bs Hv Hb IH]; intros a m x hi R H; cbn [writeMemPtr].
  - exists m, x, hi. split; [reflexivity|]. split; [auto|]. intros b. cbn [length]. destruct ((a <=? b) && (b <? a + Z.of_nat 0)) eqn:E; auto. lia.
  - destruct (mem x a) as [u|] eqn:E. 2:{ exfalso. apply (H O); [cbn [length]; lia|]. now rewrite Z.add_0_r. }
    destruct (write_mapped c m x hi a v u Hc Hv R E) as (m1 & hi1 & -> & R1). unfold MEM_MAPPER_SUCCESS. cbn [Z.eqb].
    destruct (IH (a + 1) m1 _ hi1 R1) as (m2 & y & hi2 & -> & R2 & M2).
    { intros i Hi. cbn [mem]. unfold put. replace (a + 1 + Z.of_nat i) with (a + Z.of_nat (S i)) by lia. destruct (_ =? a); [discriminate|]. apply H. cbn [length]. lia. }
    exists m2, y, hi2. split; auto. split; auto. intros b. rewrite M2. cbn [mem length]. unfold put.
    destruct (Z.eqb_spec b a) as [->|N].
    + replace ((a <=? a) && (a <? a + Z.of_nat (S (length bs)))) with true by lia. replace ((a + 1 <=? a) && (a <? a + 1 + Z.of_nat (length bs))) with false by lia.
      now replace (Z.to_nat (a - a)) with O by lia.
    + replace ((a <=? b) && (b <? a + Z.of_nat (S (length bs)))) with ((a + 1 <=? b) && (b <? a + 1 + Z.of_nat (length bs))) by lia.
      destruct ((a + 1 <=? b) && _) eqn:Q; auto. replace (Z.to_nat (b - a)) with (S (Z.to_nat (b - (a + 1)))) by lia. reflexivity.
Qed.

(** ** Devices *)
Record good (L : layout) (d : dev) : Prop := {
  g_ee : Z.of_nat (length (eeData d)) = eeSize L /\ Forall is_byte (eeData d);
  g_ram : Z.of_nat (length (ramData d)) = ramSize L + 3 /\ Forall is_byte (ramData d);
  g_status : is_byte (status d);
  g_map : forall m, memMapper d = Some m ->
    (exists hi, core (mapCfg L) m hi) /\ forall a, mapper_array m a <> None -> ~ inside (eeStart L) (eeSize L) a /\ ~ inside (ramStart L) (ramSize L) a }.
Lemma dev_good L d : layout_ok L -> dev_ok L d -> good L d.
Proof.
  intros HL [A B D E]. constructor; auto. intros m Hm. destruct (E m Hm) as ((f & junk & hi & l & out & B1 & J & F & R) & S). split; auto.
  destruct (new_spec (mapCfg L) f junk hi (l_map _ HL) B1 J) as (K & _). destruct (run_core (mapCfg L) l (l_map _ HL) F _ hi K) as (out' & m' & hi' & E' & K').
  rewrite R in E'. injection E' as <- <-. now exists hi'.
Qed.
Lemma no_auto_some L d m : no_auto L d -> memMapper d = Some m -> autoAddPage (mapCfg L) = false.
Proof. intros H E. apply H. congruence. Qed.
Lemma array_eq L d a : no_auto L d -> array L d a = match memMapper d with None => local_array L d a | Some m => match mapper_array m a with Some v => Some v | None => local_array L d a end end.
Proof. intros N. unfold array. destruct (memMapper d) as [m|] eqn:E; auto. now rewrite (no_auto_some L d m N E). Qed.
(** addresses of EEPROM and RAM are not mapped *)
Lemma array_local L d a : good L d -> no_auto L d -> inside (eeStart L) (eeSize L) a \/ inside (ramStart L) (ramSize L) a -> array L d a = local_array L d a.
Proof.
  intros G N H. rewrite array_eq by auto. destruct (memMapper d) as [m|] eqn:E; auto. destruct (mapper_array m a) eqn:M; auto.
  exfalso. destruct (g_map _ _ G m E) as (_ & S). destruct (S a); [congruence|]. tauto.
Qed.
Lemma local_none L d a : local_array L d a = None <-> ~ inside (eeStart L) (eeSize L) a /\ ~ inside (ramStart L) (ramSize L) a.
Proof.
  unfold local_array, inside. destruct ((eeStart L <=? a) && _) eqn:E; [split; [discriminate|lia]|].
  destruct ((ramStart L <=? a) && _) eqn:E2; [split; [discriminate|lia]|]. split; auto. lia.
Qed.
Definition val (o : option Z) : Z := match o with Some v => v | None => 0 end.
(** [k] bytes were moved between the memory at [a] and the buffer at [pos] *)
Record moved (L : layout) (r : bool) (a : Z) (k pos : nat) (buf : list Z) (d : dev) (buf' : list Z) (d' : dev) : Prop := {
  v_good : good L d';
  v_auto : no_auto L d';
  v_known : forall i, (i < k)%nat -> array L d (a + Z.of_nat i) <> None;
  v_len : length buf' = length buf;
  v_buf : forall j, rd buf' j = if r && (Nat.leb pos j && Nat.ltb j (pos + k)) then val (array L d (a + Z.of_nat (j - pos))) else rd buf j;
  v_arr : forall x, array L d' x = if negb r && ((a <=? x) && (x <? a + Z.of_nat k)) then Some (rd buf (pos + Z.to_nat (x - a))) else array L d x }.
Lemma moved_zero L r a pos buf d : good L d -> no_auto L d -> moved L r a 0 pos buf d buf d.
Proof.
  intros G N. constructor; auto.
  - intros i Hi. lia.
  - intros j. destruct (r && _) eqn:E; auto. lia.
  - intros x. destruct (negb r && _) eqn:E; auto. lia.
Qed.
Lemma moved_iff L r a k pos buf d b1 d1 x : moved L r a k pos buf d b1 d1 -> (array L d1 x = None <-> array L d x = None).
Proof.
  intros M. rewrite (v_arr _ _ _ _ _ _ _ _ _ M). destruct (negb r && _) eqn:E; [|tauto]. split; [discriminate|]. intros Q. exfalso.
  apply (v_known _ _ _ _ _ _ _ _ _ M (Z.to_nat (x - a))); [lia|]. now replace (a + Z.of_nat (Z.to_nat (x - a))) with x by lia.
Qed.
Lemma moved_trans L r a k l pos buf d b1 d1 b2 d2 : moved L r a k pos buf d b1 d1 -> moved L r (a + Z.of_nat k) l (pos + k) b1 d1 b2 d2 -> moved L r a (k + l) pos buf d b2 d2.
Proof.
  intros M N. constructor.
  - apply N.
  - apply N.
  - intros i Hi. destruct (Nat.lt_ge_cases i k) as [Q|Q]; [now apply (v_known _ _ _ _ _ _ _ _ _ M)|].
    rewrite <- (moved_iff _ _ _ _ _ _ _ _ _ _ M). replace (a + Z.of_nat i) with (a + Z.of_nat k + Z.of_nat (i - k)) by lia. apply (v_known _ _ _ _ _ _ _ _ _ N). lia.
  - rewrite (v_len _ _ _ _ _ _ _ _ _ N). apply M.
  - intros j. rewrite (v_buf _ _ _ _ _ _ _ _ _ N), (v_buf _ _ _ _ _ _ _ _ _ M). destruct r; cbn [andb]; auto.
    destruct (Nat.leb_spec (pos + k) j), (Nat.ltb_spec j (pos + k + l)), (Nat.leb_spec pos j), (Nat.ltb_spec j (pos + k)), (Nat.ltb_spec j (pos + (k + l))); cbn [andb]; auto; try lia.
    rewrite (v_arr _ _ _ _ _ _ _ _ _ M). cbn [negb andb]. f_equal. f_equal. lia.
  - intros x. rewrite (v_arr _ _ _ _ _ _ _ _ _ N). destruct r; cbn [negb andb].
    + now rewrite (v_arr _ _ _ _ _ _ _ _ _ M).
    + rewrite (v_arr _ _ _ _ _ _ _ _ _ M). cbn [negb andb]. rewrite (v_buf _ _ _ _ _ _ _ _ _ M). cbn [andb].
      destruct ((a + Z.of_nat k <=? x) && (x <? a + Z.of_nat k + Z.of_nat l)) eqn:E.
      * replace ((a <=? x) && (x <? a + Z.of_nat (k + l))) with true by lia. f_equal. f_equal. lia.
      * destruct ((a <=? x) && (x <? a + Z.of_nat k)) eqn:E1.
        { now replace ((a <=? x) && (x <? a + Z.of_nat (k + l))) with true by lia. }
        { now replace ((a <=? x) && (x <? a + Z.of_nat (k + l))) with false by lia. }
Qed.

(** ** Moves *)
Lemma mapMove_spec L r a n pos buf m d : layout_ok L -> good L d -> no_auto L d -> memMapper d = Some m -> (r = false -> Forall is_byte buf) -> (pos + n <= length buf)%nat ->
  (forall i, (i < n)%nat -> mapper_array m (a + Z.of_nat i) <> None) ->
  exists b d', mapMove L r a n pos buf m d = Some (true, b, d') /\ moved L r a n pos buf d b d'.
Proof.
  intros HL G N E HB Hp Hm. destruct (g_map _ _ G m E) as ((hi & K) & S). pose proof (rel_any _ m hi K) as R. pose proof (no_auto_some L d m N E) as NA.
  set (x := mkIdeal _ _) in R.
  assert (AM : forall m', forall b, array L (setMapper d m') b = match mapper_array m' b with Some v => Some v | None => local_array L d b end).
  { intros m' b. unfold array. cbn [setMapper memMapper]. rewrite NA. reflexivity. }
  assert (AD : forall b, array L d b = match mapper_array m b with Some v => Some v | None => local_array L d b end) by (intros b; unfold array; rewrite E, NA; reflexivity).
  assert (GM : forall m' hi', core (mapCfg L) m' hi' -> (forall b, mapper_array m' b <> None -> mapper_array m b <> None) -> good L (setMapper d m')).
  { intros m' hi' K' Q. destruct G as [G1 G2 G3 G4]. constructor; cbn [setMapper eeData ramData status memMapper]; auto. intros m'' [= <-]. split; [now exists hi'|]. auto. }
  unfold mapMove. destruct r.
  - destruct (readMemPtr_spec (mapCfg L) n (l_map _ HL) a m x hi R Hm) as (bs & m' & -> & R' & Lb & B).
    rewrite bput_ok by lia. do 2 eexists. split; [reflexivity|]. 
    assert (V : forall b, mapper_array m' b = mapper_array m b) by (intros b; rewrite !mapper_array_view; rewrite <- (r_mem _ _ _ _ R'); reflexivity).
    constructor.
    + apply (GM m' hi). { apply R'. } intros b. now rewrite V.
    + intros _. exact NA.
    + intros i Hi. rewrite AD. specialize (Hm i Hi). destruct (mapper_array m (a + Z.of_nat i)); congruence.
    + apply wr_range_length.
    + intros j. rewrite rd_wr_range by lia. rewrite Lb. cbn [andb]. destruct (Nat.leb_spec pos j), (Nat.ltb_spec j (pos + n)); cbn [andb]; auto.
      rewrite AD. specialize (B (j - pos)%nat ltac:(lia)). cbn [x mem] in B. change (view m) with (mapper_array m) in B. rewrite B. reflexivity.
    + intros b. rewrite AM, AD, V. reflexivity.
  - rewrite bget_ok by lia. set (bs := firstn n (skipn pos buf)). assert (Lb : length bs = n) by (apply sub_length; lia).
    destruct (writeMemPtr_spec (mapCfg L) bs (l_map _ HL) (Forall_sub _ _ _ _ (HB eq_refl)) a m x hi R) as (m' & y & hi' & -> & R' & M').
    { rewrite Lb. exact Hm. }
    do 2 eexists. split; [reflexivity|].
    assert (V : forall b, mapper_array m' b = if (a <=? b) && (b <? a + Z.of_nat n) then Some (rd bs (Z.to_nat (b - a))) else mapper_array m b).
    { intros b. rewrite !mapper_array_view, <- (r_mem _ _ _ _ R'), M', Lb. reflexivity. }
    constructor.
    + apply (GM m' hi'). { apply R'. } intros b. rewrite V. destruct ((a <=? b) && (b <? a + Z.of_nat n)) eqn:Q; auto. intros _.
      replace b with (a + Z.of_nat (Z.to_nat (b - a))) by lia. apply Hm. lia.
    + intros _. exact NA.
    + intros i Hi. rewrite AD. specialize (Hm i Hi). destruct (mapper_array m (a + Z.of_nat i)); congruence.
    + reflexivity.
    + intros j. reflexivity.
    + intros b. rewrite AM, AD, V. cbn [negb andb]. destruct ((a <=? b) && (b <? a + Z.of_nat n)) eqn:Q; auto. unfold bs. rewrite rd_sub by lia. reflexivity.
Qed.
Lemma local_ee L d a : inside (eeStart L) (eeSize L) a -> local_array L d a = Some (rd (eeData d) (Z.to_nat (a - eeStart L))).
Proof. intros H. unfold local_array, inside in *. now replace ((eeStart L <=? a) && (a <? eeStart L + eeSize L)) with true by lia. Qed.
Lemma local_ram L d a : layout_ok L -> inside (ramStart L) (ramSize L) a ->
  local_array L d a = Some (if a =? ramStart L + 0x60 then status d else rd (ramData d) (Z.to_nat (a - ramStart L))).
Proof.
  intros HL H. pose proof (l_sep _ HL). unfold local_array, inside in *. replace ((eeStart L <=? a) && (a <? eeStart L + eeSize L)) with false by lia.
  now replace ((ramStart L <=? a) && (a <? ramStart L + ramSize L)) with true by lia.
Qed.
(** changing only EEPROM and RAM: what the array becomes *)
Lemma good_local L d ee em rm stt : good L d -> (length ee = length (eeData d) /\ Forall is_byte ee) -> (length rm = length (ramData d) /\ Forall is_byte rm) -> is_byte stt ->
  good L (mkDev (memMapper d) ee em rm stt).
Proof. intros [G1 G2 G3 G4] (A & B) (C & D) S. constructor; cbn [eeData ramData status memMapper]; auto. - split; auto. rewrite A. apply G1. - split; auto. rewrite C. apply G2. Qed.
Lemma array_swap L d d' a : no_auto L d -> memMapper d' = memMapper d -> local_array L d' a = local_array L d a -> array L d' a = array L d a.
Proof. intros N E H. assert (no_auto L d') by (red; rewrite E; apply N). rewrite !array_eq by auto. rewrite E, H. reflexivity. Qed.
Lemma eeMove_spec L r a n pos buf d : layout_ok L -> good L d -> no_auto L d -> (r = false -> Forall is_byte buf) -> (pos + n <= length buf)%nat -> (0 < n)%nat ->
  eeStart L <= a -> a + Z.of_nat n <= eeStart L + eeSize L ->
  exists b d', eeMove L r a n pos buf d = Some (b, d') /\ moved L r a n pos buf d b d'.
Proof.
  intros HL G N HB Hp Hn Ha1 Ha2. destruct (l_ee _ HL) as (Q1 & Q2 & Q3). destruct (g_ee _ _ G) as (LE & BE).
  unfold eeMove. cbv zeta. rewrite u32_id by (red; lia). set (i0 := Z.to_nat (a - eeStart L)).
  assert (KN : forall i, (i < n)%nat -> array L d (a + Z.of_nat i) = Some (rd (eeData d) (i0 + i))).
  { intros i Hi. rewrite array_local; auto; [|left; unfold inside; lia]. rewrite local_ee by (unfold inside; lia). f_equal. f_equal. unfold i0. lia. }
  destruct r.
  - rewrite bget_ok by (unfold i0; lia). set (bs := firstn n _). assert (Lb : length bs = n) by (apply sub_length; unfold i0; lia). rewrite bput_ok by lia.
    do 2 eexists. split; [reflexivity|]. constructor; auto.
    + intros i Hi. rewrite KN by auto. discriminate.
    + apply wr_range_length.
    + intros j. rewrite rd_wr_range by lia. rewrite Lb. cbn [andb]. destruct (Nat.leb_spec pos j), (Nat.ltb_spec j (pos + n)); cbn [andb]; auto.
      rewrite KN by lia. cbn [val]. unfold bs. apply rd_sub. lia.
  - rewrite bget_ok by lia. set (bs := firstn n _). assert (Lb : length bs = n) by (apply sub_length; lia). rewrite bput_ok by (unfold i0; lia).
    do 2 eexists. split; [reflexivity|].
    assert (G' : good L (mkDev (memMapper d) (wr_range (eeData d) i0 bs) true (ramData d) (status d))).
    { apply good_local; auto. - split; [apply wr_range_length|]. apply Forall_wr_range; auto. apply Forall_sub. auto. - split; auto. apply G. - apply G. }
    constructor; auto.
    + intros i Hi. rewrite KN by auto. discriminate.
    + intros x. cbn [negb andb]. destruct (Z_lt_dec x (eeStart L)) as [X|X]; [|destruct (Z_lt_dec x (eeStart L + eeSize L)) as [Y|Y]].
      * replace ((a <=? x) && (x <? a + Z.of_nat n)) with false by lia. apply array_swap; auto. unfold local_array.
        replace ((eeStart L <=? x) && (x <? eeStart L + eeSize L)) with false by lia. reflexivity.
      * rewrite array_local; auto; [|left; unfold inside; lia]. rewrite local_ee by (unfold inside; lia). cbn [eeData]. rewrite rd_wr_range by (unfold i0; lia). rewrite Lb.
        destruct ((a <=? x) && (x <? a + Z.of_nat n)) eqn:T.
        { replace (Nat.leb i0 (Z.to_nat (x - eeStart L)) && Nat.ltb (Z.to_nat (x - eeStart L)) (i0 + n))%bool with true by (unfold i0; lia). f_equal.
          unfold bs. rewrite rd_sub by (unfold i0; lia). f_equal. unfold i0. lia. }
        { replace (Nat.leb i0 (Z.to_nat (x - eeStart L)) && Nat.ltb (Z.to_nat (x - eeStart L)) (i0 + n))%bool with false by (unfold i0; lia).
          rewrite array_local; auto; [|left; unfold inside; lia]. now rewrite local_ee by (unfold inside; lia). }
      * replace ((a <=? x) && (x <? a + Z.of_nat n)) with false by lia. apply array_swap; auto. unfold local_array.
        replace ((eeStart L <=? x) && (x <? eeStart L + eeSize L)) with false by lia. reflexivity.
Qed.

(** the RAM with the status byte in it *)
Definition cell (d : dev) (i : Z) : Z := if i =? statusOffset then status d else rd (ramData d) (Z.to_nat i).
(** only RAM and status changed *)
Record ram_upd (d d' : dev) (i : Z) (bs : list Z) : Prop := {
  u_same : memMapper d' = memMapper d /\ eeData d' = eeData d;
  u_len : length (ramData d') = length (ramData d);
  u_bytes : Forall is_byte (ramData d) -> is_byte (status d) -> Forall is_byte bs -> Forall is_byte (ramData d') /\ is_byte (status d');
  u_cell : forall j, 0 <= j < Z.of_nat (length (ramData d)) -> cell d' j = if (i <=? j) && (j <? i + Z.of_nat (length bs)) then rd bs (Z.to_nat (j - i)) else cell d j }.
Lemma ramPutLoop_spec bs : forall i d, 0 <= i -> i + Z.of_nat (length bs) <= Z.of_nat (length (ramData d)) -> Z.of_nat (length (ramData d)) < 65600 ->
  exists d', ramPutLoop i bs d = Some d' /\ ram_upd d d' i bs.
Proof.
  induction bs as [|b bs IH]; intros i d Hi Hl Hs; cbn [ramPutLoop].
  - exists d. split; auto. constructor; auto. intros j Hj. cbn [length]. destruct ((i <=? j) && _) eqn:E; auto. lia.
  - cbn [length] in Hl. rewrite u32_id by (red; lia).
    assert (X : exists d1, (if i =? statusOffset then ramPutLoop (i + 1) bs (mkDev (memMapper d) (eeData d) (eeModified d) (ramData d) b)
        else match bput (ramData d) (Z.to_nat i) [b] with None => None | Some l => ramPutLoop (i + 1) bs (mkDev (memMapper d) (eeData d) (eeModified d) l (status d)) end) = ramPutLoop (i + 1) bs d1 /\
        ram_upd d d1 i [b]).
    { destruct (Z.eqb_spec i statusOffset) as [Q|Q].
      - eexists. split; [reflexivity|]. constructor; cbn [memMapper eeData ramData status]; auto.
        { intros F1 F2 F. split; auto. inversion F; auto. }
        intros j Hj. cbn [length]. unfold cell. cbn [status ramData]. destruct (Z.eqb_spec j statusOffset).
        + replace ((i <=? j) && (j <? i + Z.of_nat 1)) with true by lia. now replace (Z.to_nat (j - i)) with O by lia.
        + now replace ((i <=? j) && (j <? i + Z.of_nat 1)) with false by lia.
      - rewrite bput_ok by (cbn [length]; lia). eexists. split; [reflexivity|]. constructor; cbn [memMapper eeData ramData status]; auto.
        { apply wr_range_length. }
        { intros F F2 F3. split; auto. apply Forall_wr_range; auto. }
        intros j Hj. cbn [length]. unfold cell. cbn [status ramData]. destruct (Z.eqb_spec j statusOffset).
        + now replace ((i <=? j) && (j <? i + Z.of_nat 1)) with false by lia.
        + rewrite rd_wr_range by (cbn [length]; lia). cbn [length]. destruct ((i <=? j) && (j <? i + Z.of_nat 1)) eqn:T.
          * replace (Nat.leb (Z.to_nat i) (Z.to_nat j) && Nat.ltb (Z.to_nat j) (Z.to_nat i + 1))%bool with true by lia. f_equal. lia.
          * now replace (Nat.leb (Z.to_nat i) (Z.to_nat j) && Nat.ltb (Z.to_nat j) (Z.to_nat i + 1))%bool with false by lia. }
    destruct X as (d1 & -> & U1). destruct (IH (i + 1) d1) as (d2 & -> & U2).
    { lia. } { rewrite (u_len _ _ _ _ U1). lia. } { rewrite (u_len _ _ _ _ U1). lia. }
    exists d2. split; auto. destruct U1 as [(A1 & A2) A3 A4 A5], U2 as [(B1 & B2) B3 B4 B5]. constructor.
    + split; congruence.
    + congruence.
    + intros F F2 F3. inversion F3; subst. destruct (A4 F F2) as (C1 & C2); auto.
    + intros j Hj. rewrite B5 by lia. rewrite A5 by lia. cbn [length].
      destruct ((i + 1 <=? j) && (j <? i + 1 + Z.of_nat (length bs))) eqn:T.
      * replace ((i <=? j) && (j <? i + Z.of_nat (S (length bs)))) with true by lia. replace (Z.to_nat (j - i)) with (S (Z.to_nat (j - (i + 1)))) by lia. reflexivity.
      * destruct ((i <=? j) && (j <? i + Z.of_nat 1)) eqn:T1.
        { replace ((i <=? j) && (j <? i + Z.of_nat (S (length bs)))) with true by lia. now replace (Z.to_nat (j - i)) with O by lia. }
        { now replace ((i <=? j) && (j <? i + Z.of_nat (S (length bs)))) with false by lia. }
Qed.
Lemma cpyTo_spec L a bs d : layout_ok L -> good L d -> (0 < length bs)%nat -> ramStart L <= a -> a + Z.of_nat (length bs) <= ramStart L + ramSize L ->
  exists d', cpyToUserRam L a bs d = Some d' /\ ram_upd d d' (a - ramStart L) bs.
Proof.
  intros HL G Hn Ha1 Ha2. destruct (l_ram _ HL) as (Q1 & Q2 & Q3). destruct (g_ram _ _ G) as (LR & BR). unfold cpyToUserRam.
  destruct ((a =? statusOffset) && Nat.eqb (length bs) 1) eqn:E.
  - unfold statusOffset in E. destruct bs as [|b [|c bs]]; cbn [length] in *; try lia. eexists. split; [reflexivity|]. constructor; cbn [memMapper eeData ramData status]; auto.
    { intros F1 F2 F. split; auto. inversion F; auto. }
    intros j Hj. cbn [length]. unfold cell. cbn [status ramData]. unfold statusOffset. destruct (Z.eqb_spec j 0x60).
    + replace ((a - ramStart L <=? j) && (j <? a - ramStart L + Z.of_nat 1)) with true by lia. now replace (Z.to_nat (j - (a - ramStart L))) with O by lia.
    + now replace ((a - ramStart L <=? j) && (j <? a - ramStart L + Z.of_nat 1)) with false by lia.
  - clear E. cbv zeta. rewrite u32_id by (red; lia). rewrite u32_id by (red; lia). set (i := a - ramStart L) in *.
    destruct ((statusOffset <? i) || (i + Z.of_nat (length bs) <? statusOffset)) eqn:E.
    + rewrite bput_ok by lia. eexists. split; [reflexivity|]. constructor; cbn [memMapper eeData ramData status]; auto.
      { apply wr_range_length. }
      { intros F F2 F3. split; auto. apply Forall_wr_range; auto. }
      intros j Hj. unfold cell. cbn [status ramData]. destruct (Z.eqb_spec j statusOffset).
      * now replace ((i <=? j) && (j <? i + Z.of_nat (length bs))) with false by lia.
      * rewrite rd_wr_range by lia. destruct ((i <=? j) && (j <? i + Z.of_nat (length bs))) eqn:T.
        { replace (Nat.leb (Z.to_nat i) (Z.to_nat j) && Nat.ltb (Z.to_nat j) (Z.to_nat i + length bs))%bool with true by lia. f_equal. lia. }
        { now replace (Nat.leb (Z.to_nat i) (Z.to_nat j) && Nat.ltb (Z.to_nat j) (Z.to_nat i + length bs))%bool with false by lia. }
    + apply ramPutLoop_spec; lia.
Qed.
Lemma ramGetLoop_spec n : forall i d, 0 <= i -> i + Z.of_nat n <= Z.of_nat (length (ramData d)) -> Z.of_nat (length (ramData d)) < 65600 ->
  exists bs, ramGetLoop i n d = Some bs /\ length bs = n /\ forall j, (j < n)%nat -> rd bs j = cell d (i + Z.of_nat j).
Proof.
  induction n as [|n IH]; intros i d Hi Hl Hs; cbn [ramGetLoop].
  - exists []. split; auto. split; auto. lia.
  - rewrite u32_id by (red; lia). destruct (IH (i + 1) d) as (bs & -> & Lb & B); try lia.
    assert (X : (if i =? statusOffset then Some [status d] else bget (ramData d) (Z.to_nat i) 1) = Some [cell d i]).
    { unfold cell. destruct (i =? statusOffset); auto. rewrite bget_ok by lia. f_equal. apply list_ext with (d := 0). { rewrite sub_length by lia. reflexivity. }
      intros k Hk. rewrite sub_length in Hk by lia. replace k with O by lia. change (rd (firstn 1 (skipn (Z.to_nat i) (ramData d))) 0 = rd (ramData d) (Z.to_nat i)). rewrite rd_sub by lia. f_equal. lia. }
    rewrite X. exists (cell d i :: bs). split; auto. cbn [length]. split; [lia|]. intros [|j] Hj. { now rewrite Z.add_0_r. }
    replace (i + Z.of_nat (S j)) with (i + 1 + Z.of_nat j) by lia. rewrite <- B by lia. reflexivity.
Qed.
Lemma cpyFrom_spec L a n d : layout_ok L -> good L d -> (0 < n)%nat -> ramStart L <= a -> a + Z.of_nat n <= ramStart L + ramSize L ->
  exists bs, cpyFromUserRam L a n d = Some bs /\ length bs = n /\ forall j, (j < n)%nat -> rd bs j = cell d (a - ramStart L + Z.of_nat j).
Proof.
  intros HL G Hn Ha1 Ha2. destruct (l_ram _ HL) as (Q1 & Q2 & Q3). destruct (g_ram _ _ G) as (LR & BR). unfold cpyFromUserRam.
  destruct ((a =? statusOffset) && Nat.eqb n 1) eqn:E.
  - unfold statusOffset in E. eexists. split; [reflexivity|]. split; [cbn [length]; lia|]. intros j Hj. replace j with O by lia. unfold cell, statusOffset.
    replace (a - ramStart L + Z.of_nat 0 =? 0x60) with true by lia. reflexivity.
  - clear E. cbv zeta. rewrite u32_id by (red; lia). rewrite u32_id by (red; lia). set (i := a - ramStart L) in *.
    destruct ((statusOffset <? i) || (i + Z.of_nat n <? statusOffset)) eqn:E.
    + rewrite bget_ok by lia. eexists. split; [reflexivity|]. split; [apply sub_length; lia|]. intros j Hj. rewrite rd_sub by lia. unfold cell.
      replace (i + Z.of_nat j =? statusOffset) with false by lia. f_equal. lia.
    + apply ramGetLoop_spec; lia.
Qed.
Lemma local_cell L d a : layout_ok L -> inside (ramStart L) (ramSize L) a -> local_array L d a = Some (cell d (a - ramStart L)).
Proof. intros HL H. rewrite local_ram by auto. f_equal. unfold cell, statusOffset. destruct (Z.eqb_spec a (ramStart L + 0x60)), (Z.eqb_spec (a - ramStart L) 0x60); auto; lia. Qed.
Lemma good_ram L d d' i bs : good L d -> Forall is_byte bs -> ram_upd d d' i bs -> good L d'.
Proof.
  intros [G1 G2 G3 G4] F [(A1 & A2) A3 A4 A5]. destruct G2 as (G2 & G2'). destruct (A4 G2' G3 F). constructor; auto. - now rewrite A2. - split; auto. now rewrite A3. - now rewrite A1.
Qed.
(** a change of the RAM as the array shows it *)
Lemma array_ram L d d' i bs x : layout_ok L -> good L d -> no_auto L d -> Forall is_byte bs -> ram_upd d d' i bs -> 0 <= i -> i + Z.of_nat (length bs) <= ramSize L ->
  array L d' x = if (ramStart L + i <=? x) && (x <? ramStart L + i + Z.of_nat (length bs)) then Some (rd bs (Z.to_nat (x - (ramStart L + i)))) else array L d x.
Proof.
  intros HL G N F U Hi Hl. destruct (l_ram _ HL) as (Q1 & Q2 & Q3). destruct (g_ram _ _ G) as (LR & BR). pose proof (good_ram _ _ _ _ _ G F U) as G'.
  destruct U as [(A1 & A2) A3 A4 A5]. assert (N' : no_auto L d') by (red; rewrite A1; apply N).
  destruct (Z_lt_dec x (ramStart L)) as [X|X]; [|destruct (Z_lt_dec x (ramStart L + ramSize L)) as [Y|Y]].
  - replace ((ramStart L + i <=? x) && (x <? ramStart L + i + Z.of_nat (length bs))) with false by lia. apply array_swap; auto. unfold local_array. rewrite A2.
    replace ((ramStart L <=? x) && (x <? ramStart L + ramSize L)) with false by lia. reflexivity.
  - rewrite array_local by (auto; right; unfold inside; lia). rewrite local_cell by (auto; unfold inside; lia). rewrite A5 by lia.
    rewrite array_local by (auto; right; unfold inside; lia). rewrite local_cell by (auto; unfold inside; lia).
    replace ((ramStart L + i <=? x) && (x <? ramStart L + i + Z.of_nat (length bs))) with ((i <=? x - ramStart L) && (x - ramStart L <? i + Z.of_nat (length bs))) by lia.
    destruct ((i <=? x - ramStart L) && _); auto. do 3 f_equal. lia.
  - replace ((ramStart L + i <=? x) && (x <? ramStart L + i + Z.of_nat (length bs))) with false by lia. apply array_swap; auto. unfold local_array. rewrite A2.
    replace ((ramStart L <=? x) && (x <? ramStart L + ramSize L)) with false by lia. reflexivity.
Qed.
Lemma ramMove_spec L r a n pos buf d : layout_ok L -> good L d -> no_auto L d -> (r = false -> Forall is_byte buf) -> (pos + n <= length buf)%nat -> (0 < n)%nat ->
  ramStart L <= a -> a + Z.of_nat n <= ramStart L + ramSize L ->
  exists b d', ramMove L r a n pos buf d = Some (b, d') /\ moved L r a n pos buf d b d'.
Proof.
  intros HL G N HB Hp Hn Ha1 Ha2.
  assert (KN : forall i, (i < n)%nat -> array L d (a + Z.of_nat i) = Some (cell d (a - ramStart L + Z.of_nat i))).
  { intros i Hi. rewrite array_local; auto; [|right; unfold inside; lia]. rewrite local_cell by (auto; unfold inside; lia). f_equal. f_equal. lia. }
  unfold ramMove. destruct r.
  - destruct (cpyFrom_spec L a n d HL G Hn Ha1 Ha2) as (bs & -> & Lb & B). rewrite bput_ok by lia. do 2 eexists. split; [reflexivity|]. constructor; auto.
    + intros i Hi. rewrite KN by auto. discriminate.
    + apply wr_range_length.
    + intros j. rewrite rd_wr_range by lia. rewrite Lb. cbn [andb]. destruct (Nat.leb_spec pos j), (Nat.ltb_spec j (pos + n)); cbn [andb]; auto.
      rewrite KN by lia. cbn [val]. apply B. lia.
  - rewrite bget_ok by lia. set (bs := firstn n _). assert (Lb : length bs = n) by (apply sub_length; lia). assert (F : Forall is_byte bs) by (apply Forall_sub; auto).
    destruct (cpyTo_spec L a bs d HL G) as (d' & -> & U); try lia. do 2 eexists. split; [reflexivity|]. constructor; auto.
    + apply (good_ram _ _ _ _ _ G F U).
    + destruct (u_same _ _ _ _ U) as (A1 & _). red. rewrite A1. apply N.
    + intros i Hi. rewrite KN by auto. discriminate.
    + intros x. cbn [negb andb]. rewrite (array_ram L d d' _ bs x HL G N F U) by lia. rewrite Lb. replace (ramStart L + (a - ramStart L)) with a by lia.
      destruct ((a <=? x) && (x <? a + Z.of_nat n)) eqn:T; auto. f_equal. unfold bs. rewrite rd_sub by lia. reflexivity.
Qed.

(** ** The stages *)
Definition mp (d : dev) (x : Z) : option Z := match memMapper d with Some m => mapper_array m x | None => None end.
Lemma mp_array L d x : no_auto L d -> mp d x <> None -> array L d x <> None.
Proof. intros N H. rewrite array_eq by auto. unfold mp in H. destruct (memMapper d); [|contradiction]. destruct (mapper_array m x); [discriminate|contradiction]. Qed.
Lemma mp_outside L d x : good L d -> mp d x <> None -> ~ inside (eeStart L) (eeSize L) x /\ ~ inside (ramStart L) (ramSize L) x.
Proof. intros G H. unfold mp in H. destruct (memMapper d) as [m|] eqn:E; [|contradiction]. apply (g_map _ _ G m E). auto. Qed.
Lemma array_none L d x : no_auto L d -> mp d x = None -> ~ inside (eeStart L) (eeSize L) x -> ~ inside (ramStart L) (ramSize L) x -> array L d x = None.
Proof.
  intros N M A B. rewrite array_eq by auto. assert (Q : local_array L d x = None) by (apply local_none; auto). unfold mp in M. destruct (memMapper d); auto. now rewrite M.
Qed.
Lemma array_some L d x : no_auto L d -> array L d x <> None -> mp d x <> None \/ inside (eeStart L) (eeSize L) x \/ inside (ramStart L) (ramSize L) x.
Proof.
  intros N H. destruct (mp d x) eqn:E; [left; discriminate|]. right.
  destruct ((eeStart L <=? x) && (x <? eeStart L + eeSize L)) eqn:E1; [left; unfold inside; lia|].
  destruct ((ramStart L <=? x) && (x <? ramStart L + ramSize L)) eqn:E2; [right; unfold inside; lia|]. exfalso. apply H. apply array_none; auto; unfold inside; lia.
Qed.
Lemma moved_bytes L a k pos buf d b d' : moved L false a k pos buf d b d' -> Forall is_byte buf -> Forall is_byte b.
Proof.
  intros V H. rewrite Forall_forall. intros z Iz. destruct (In_nth _ _ 0 Iz) as (j & _ & <-). change (is_byte (rd b j)).
  rewrite (v_buf _ _ _ _ _ _ _ _ _ V). cbn [andb]. now apply rd_byte.
Qed.
Lemma mapLoop_spec L r n : layout_ok L -> forall s, good L (sdev s) -> no_auto L (sdev s) -> (r = false -> Forall is_byte (sbuf s)) -> (spos s + n <= length (sbuf s))%nat ->
  0 <= sa s -> sa s + Z.of_nat n < 2147483648 ->
  exists k s', mapLoop L r n s = Some s' /\ (k <= n)%nat /\ sa s' = sa s + Z.of_nat k /\ (spos s' = spos s + k)%nat /\ snf s' = (snf s && Nat.eqb k 0)%bool /\
    moved L r (sa s) k (spos s) (sbuf s) (sdev s) (sbuf s') (sdev s') /\ (k = n \/ mp (sdev s') (sa s') = None) /\
    (forall i, (i < k)%nat -> ~ inside (eeStart L) (eeSize L) (sa s + Z.of_nat i) /\ ~ inside (ramStart L) (ramSize L) (sa s + Z.of_nat i)).
Proof.
  intros HL. induction n as [|n IH]; intros s G N HB Hp H0 H1; cbn [mapLoop].
  - exists O, s. split; auto. split; [lia|]. split; [lia|]. split; [lia|]. split; [cbn; now rewrite andb_true_r|]. split; [now apply moved_zero|]. split; auto. intros; lia.
  - assert (STOP : mp (sdev s) (sa s) = None -> exists k s', Some s = Some s' /\ (k <= S n)%nat /\ sa s' = sa s + Z.of_nat k /\ (spos s' = spos s + k)%nat /\ snf s' = (snf s && Nat.eqb k 0)%bool /\
      moved L r (sa s) k (spos s) (sbuf s) (sdev s) (sbuf s') (sdev s') /\ (k = S n \/ mp (sdev s') (sa s') = None) /\
      (forall i, (i < k)%nat -> ~ inside (eeStart L) (eeSize L) (sa s + Z.of_nat i) /\ ~ inside (ramStart L) (ramSize L) (sa s + Z.of_nat i))).
    { intros Q. exists O, s. split; auto. split; [lia|]. split; [lia|]. split; [lia|]. split; [cbn; now rewrite andb_true_r|]. split; [now apply moved_zero|]. split; auto. intros; lia. }
    destruct (memMapper (sdev s)) as [m|] eqn:E. 2:{ apply STOP. unfold mp. now rewrite E. }
    destruct (g_map _ _ G m E) as ((hi & K) & S). rewrite s32_small by lia. rewrite (isMapped_view _ m hi (sa s) K (no_auto_some L _ m N E)).
    destruct (mapper_array m (sa s)) eqn:M. 2:{ apply STOP. unfold mp. now rewrite E. }
    assert (MN : mapper_array m (sa s) <> None) by (rewrite M; discriminate). clear STOP.
    destruct (mapMove_spec L r (sa s) 1 (spos s) (sbuf s) m (sdev s) HL G N E HB) as (b & d & -> & V).
    { lia. } { intros i Hi. replace (sa s + Z.of_nat i) with (sa s) by lia. auto. }
    unfold advance. rewrite u32_id by (red; lia).
    destruct (IH (mkSt (sa s + Z.of_nat 1) (spos s + 1) false b d)) as (k & s' & R1 & R2 & R3 & R4 & R5 & R6 & R7 & R8); cbn [sa spos snf sbuf sdev] in *; try lia.
    { apply V. } { apply V. }
    { intros ->. apply (moved_bytes _ _ _ _ _ _ _ _ V). auto. }
    { rewrite (v_len _ _ _ _ _ _ _ _ _ V). lia. }
    exists (Datatypes.S k), s'. split; auto. split; [lia|]. split; [lia|]. split; [lia|]. split. { rewrite R5. cbn. now rewrite andb_false_r. }
    split. { replace (Datatypes.S k) with (1 + k)%nat by lia. eapply moved_trans; eauto. }
    split. { destruct R7; [left; lia|right; auto]. }
    intros [|i] Hi. { rewrite Z.add_0_r. auto. } replace (sa s + Z.of_nat (Datatypes.S i)) with (sa s + Z.of_nat 1 + Z.of_nat i) by lia. apply R8. lia.
Qed.
(** what a stage may do *)
Definition stage_ok (L : layout) (r : bool) (len : nat) (s : st) (x : res) (stop : dev -> Z -> Prop) : Prop :=
  (exists b d, x = Return true b d /\ moved L r (sa s) len (spos s) (sbuf s) (sdev s) b d) \/
  (exists k s', x = Go s' /\ (k < len)%nat /\ sa s' = sa s + Z.of_nat k /\ (spos s' = spos s + k)%nat /\ snf s' = (snf s && Nat.eqb k 0)%bool /\
    moved L r (sa s) k (spos s) (sbuf s) (sdev s) (sbuf s') (sdev s') /\ stop (sdev s') (sa s') /\ (k = O -> s' = s)).
Record ready (L : layout) (r : bool) (aEnd : Z) (len : nat) (s : st) : Prop := {
  y_good : good L (sdev s); y_auto : no_auto L (sdev s); y_bytes : r = false -> Forall is_byte (sbuf s); y_pos : (spos s + len <= length (sbuf s))%nat;
  y_range : 0 <= sa s /\ aEnd < 2147483647 /\ Z.of_nat len = aEnd - sa s + 1 /\ (0 < len)%nat /\ Z.of_nat len <= 257 }.
Lemma ready_step L r aEnd len s k s' : ready L r aEnd len s -> (k < len)%nat -> sa s' = sa s + Z.of_nat k -> (spos s' = spos s + k)%nat ->
  moved L r (sa s) k (spos s) (sbuf s) (sdev s) (sbuf s') (sdev s') -> ready L r aEnd (len - k) s'.
Proof.
  intros [Y1 Y2 Y3 Y4 Y5] Hk Ha Hs V. constructor.
  - apply V.
  - apply V.
  - intros ->. apply (moved_bytes _ _ _ _ _ _ _ _ V). auto.
  - rewrite (v_len _ _ _ _ _ _ _ _ _ V). lia.
  - lia.
Qed.
Lemma moved_same L r s s' : sa s' = sa s -> sbuf s' = sbuf s -> sdev s' = sdev s -> good L (sdev s) -> no_auto L (sdev s) ->
  moved L r (sa s) 0 (spos s) (sbuf s) (sdev s) (sbuf s') (sdev s').
Proof. intros _ -> -> G N. now apply moved_zero. Qed.
Lemma stage_stay L r len s (stop : dev -> Z -> Prop) : ready L r (sa s + Z.of_nat len - 1) len s -> stop (sdev s) (sa s) -> stage_ok L r len s (Go s) stop.
Proof.
  intros [Y1 Y2 Y3 Y4 Y5] H. right. exists O, s. split; auto. split; [lia|]. split; [lia|]. split; [lia|]. split; [cbn; now rewrite andb_true_r|]. split; [now apply moved_zero|]. auto.
Qed.
Lemma mapStage_spec L r aEnd len s : layout_ok L -> ready L r aEnd len s -> stage_ok L r len s (mapStage L r aEnd (Z.of_nat len) s) (fun d x => mp d x = None).
Proof.
  intros HL Y. assert (Ea : aEnd = sa s + Z.of_nat len - 1) by (destruct Y; lia). pose proof Y as Y'. rewrite Ea in Y'. destruct Y as [G N HB Hp (H0 & H1 & H2 & H3 & H4)].
  unfold mapStage. destruct (memMapper (sdev s)) as [m|] eqn:E.
  2:{ apply stage_stay; auto. unfold mp. now rewrite E. }
  destruct (g_map _ _ G m E) as ((hi & K) & S). pose proof (no_auto_some L _ m N E) as NA. cbv zeta. rewrite !s32_small by lia.
  rewrite !(isMapped_view _ m hi _ K NA). destruct (mapper_array m (sa s)) eqn:M1; cbn [andb].
  2:{ apply stage_stay; auto. unfold mp. now rewrite E. }
  rewrite Nat2Z.id. destruct (mapper_array m aEnd) eqn:M2.
  - left. destruct (mapMove_spec L r (sa s) len (spos s) (sbuf s) m (sdev s) HL G N E HB Hp) as (b & d & -> & V).
    { intros i Hi. apply (mapper_array_between m (sa s) aEnd); try lia; congruence. }
    exists b, d. auto.
  - right. destruct (mapLoop_spec L r len HL s G N HB Hp H0 ltac:(lia)) as (k & s' & -> & R2 & R3 & R4 & R5 & R6 & R7 & R8).
    assert (KL : (k < len)%nat).
    { destruct (Nat.eq_dec k len) as [->|]; [|lia]. exfalso. destruct (R8 (len - 1)%nat ltac:(lia)) as (A & B). replace (sa s + Z.of_nat (len - 1)) with aEnd in A, B by lia.
      apply (v_known _ _ _ _ _ _ _ _ _ R6 (len - 1)%nat); [lia|]. replace (sa s + Z.of_nat (len - 1)) with aEnd by lia. apply array_none; auto. unfold mp. now rewrite E. }
    exists k, s'. split; auto. split; auto. split; auto. split; auto. split; auto. split; auto. split. { destruct R7; auto. lia. }
    intros ->. exfalso. destruct R7 as [|R7]; [lia|]. rewrite R3, Z.add_0_r in R7.
    assert (Q : array L (sdev s') (sa s) <> None).
    { rewrite (moved_iff _ _ _ _ _ _ _ _ _ _ R6). apply mp_array; auto. unfold mp. rewrite E. congruence. }
    apply Q. apply array_none; auto. { apply R6. } { apply (S (sa s)). congruence. } { apply (S (sa s)). congruence. }
Qed.
Lemma eeStage_spec L r aEnd len s : layout_ok L -> ready L r aEnd len s -> stage_ok L r len s (eeStage L r aEnd s) (fun d x => ~ inside (eeStart L) (eeSize L) x).
Proof.
  intros HL Y. assert (Ea : aEnd = sa s + Z.of_nat len - 1) by (destruct Y; lia). pose proof Y as Y'. rewrite Ea in Y'. destruct Y as [G N HB Hp (H0 & H1 & H2 & H3 & H4)].
  pose proof (l_ee _ HL). unfold eeStage, inRange2, inRange1. destruct ((sa s <=? aEnd) && (eeStart L <=? sa s) && (aEnd <=? eeStart L + eeSize L - 1)) eqn:E.
  - left. destruct (eeMove_spec L r (sa s) len (spos s) (sbuf s) (sdev s) HL G N HB Hp) as (b & d & Q & V); try lia.
    replace (Z.to_nat (aEnd - sa s + 1)) with len by lia. rewrite Q. exists b, d. auto.
  - destruct ((eeStart L <=? sa s) && (sa s <=? eeStart L + eeSize L - 1)) eqn:E1.
    + cbv zeta. set (k := Z.to_nat (eeStart L + eeSize L - 1 - sa s + 1)).
      destruct (eeMove_spec L r (sa s) k (spos s) (sbuf s) (sdev s) HL G N HB) as (b & d & Q & V); try (unfold k; lia).
      rewrite Q. right. exists k. eexists. split; [reflexivity|]. unfold advance. cbn [sa spos snf sbuf sdev]. rewrite u32_id by (red; unfold k; lia).
      split; [unfold k; lia|]. split; [lia|]. split; [lia|]. split. { replace (Nat.eqb k 0) with false by (unfold k; lia). now rewrite andb_false_r. }
      split; auto. split; [unfold inside, k; lia|unfold k; lia].
    + apply stage_stay; auto. unfold inside. lia.
Qed.
Lemma ramStage_spec L r aEnd len s : layout_ok L -> ready L r aEnd len s -> (sa s = 0x60 -> aEnd = 0x60 -> inside (ramStart L) (ramSize L) 0x60) ->
  stage_ok L r len s (ramStage L r aEnd s) (fun d x => ~ inside (ramStart L) (ramSize L) x).
Proof.
  intros HL Y AL. assert (Ea : aEnd = sa s + Z.of_nat len - 1) by (destruct Y; lia). pose proof Y as Y'. rewrite Ea in Y'. destruct Y as [G N HB Hp (H0 & H1 & H2 & H3 & H4)].
  pose proof (l_ram _ HL). unfold ramStage, inRange2, inRange1, isStatusAddress, statusOffset.
  destruct ((sa s <=? aEnd) && (ramStart L <=? sa s) && (aEnd <=? ramStart L + ramSize L - 1) || (sa s =? 96) && (aEnd =? 96)) eqn:E.
  - assert (ramStart L <= sa s /\ aEnd <= ramStart L + ramSize L - 1).
    { destruct ((sa s =? 96) && (aEnd =? 96)) eqn:T; [|clear - E; lia]. unfold inside in AL. assert (sa s = 96 /\ aEnd = 96) as (T1 & T2) by (clear - T; lia). rewrite T1, T2 in *. specialize (AL eq_refl eq_refl). clear - AL. lia. }
    left. destruct (ramMove_spec L r (sa s) len (spos s) (sbuf s) (sdev s) HL G N HB Hp) as (b & d & Q & V); try lia.
    replace (Z.to_nat (aEnd - sa s + 1)) with len by lia. rewrite Q. exists b, d. auto.
  - destruct ((ramStart L <=? sa s) && (sa s <=? ramStart L + ramSize L - 1)) eqn:E1.
    + cbv zeta. set (k := Z.to_nat (ramStart L + ramSize L - 1 - sa s + 1)).
      destruct (ramMove_spec L r (sa s) k (spos s) (sbuf s) (sdev s) HL G N HB) as (b & d & Q & V); try (unfold k; lia).
      rewrite Q. right. exists k. eexists. split; [reflexivity|]. unfold advance. cbn [sa spos snf sbuf sdev]. rewrite u32_id by (red; unfold k; lia).
      split; [unfold k; lia|]. split; [lia|]. split; [lia|]. split. { replace (Nat.eqb k 0) with false by (unfold k; lia). now rewrite andb_false_r. }
      split; auto. split; [unfold inside, k; lia|unfold k; lia].
    + apply stage_stay; auto. unfold inside. lia.
Qed.
Lemma stage_then L r len s x f (stop1 stop2 : dev -> Z -> Prop) : stage_ok L r len s x stop1 ->
  (forall k s', x = Go s' -> (k < len)%nat -> sa s' = sa s + Z.of_nat k -> (spos s' = spos s + k)%nat -> moved L r (sa s) k (spos s) (sbuf s) (sdev s) (sbuf s') (sdev s') -> stop1 (sdev s') (sa s') -> (k = O -> s' = s) ->
     stage_ok L r (len - k) s' (f s') stop2) ->
  (exists b d, andThen x f = Return true b d /\ moved L r (sa s) len (spos s) (sbuf s) (sdev s) b d) \/
  (exists k s', andThen x f = Go s' /\ (k < len)%nat /\ sa s' = sa s + Z.of_nat k /\ (spos s' = spos s + k)%nat /\ snf s' = (snf s && Nat.eqb k 0)%bool /\
    moved L r (sa s) k (spos s) (sbuf s) (sdev s) (sbuf s') (sdev s') /\ stop2 (sdev s') (sa s') /\ (k = O -> s' = s /\ stop1 (sdev s) (sa s))).
Proof.
  intros [(b & d & -> & V)|(k & s' & -> & R1 & R2 & R3 & R4 & R5 & R6 & R7)] H; cbn [andThen].
  - left. exists b, d. auto.
  - destruct (H k s' eq_refl R1 R2 R3 R5 R6 R7) as [(b & d & -> & V)|(l & s'' & -> & T1 & T2 & T3 & T4 & T5 & T6 & T7)].
    + left. exists b, d. split; auto. replace len with (k + (len - k))%nat by lia. eapply moved_trans; eauto. rewrite <- R2, <- R3. auto.
    + right. exists (k + l)%nat, s''. split; auto. split; [lia|]. split; [lia|]. split; [lia|]. split. { rewrite T4, R4. destruct (snf s), k, l; reflexivity. }
      split. { eapply moved_trans; eauto. rewrite <- R2, <- R3. auto. }
      split; auto. intros Q. assert (k = O /\ l = O) as (-> & ->) by lia. rewrite (T7 eq_refl), (R7 eq_refl). split; auto. rewrite <- (R7 eq_refl). auto.
Qed.
(** knowing location 0x5F means knowing location 0x60 *)
Lemma known_5f L d : layout_ok L -> good L d -> no_auto L d -> array L d 0x5F <> None -> array L d 0x60 <> None.
Proof.
  intros HL G N H. pose proof (l_ee _ HL). pose proof (l_ram _ HL). destruct (array_some L d _ N H) as [A|[A|A]].
  - apply mp_array; auto. unfold mp in *. destruct (memMapper d); auto. apply (mapper_array_page m 0x5F 0x60); auto.
  - unfold inside in A. lia.
  - unfold inside in A. rewrite array_local; auto; [|right; unfold inside; lia]. rewrite local_none. unfold inside. lia.
Qed.
(** one pass *)
Lemma pass_spec L r aEnd len s : layout_ok L -> ready L r aEnd len s -> snf s = true -> (sa s = 0x60 -> aEnd = 0x60 -> array L (sdev s) 0x60 <> None) ->
  let x := andThen (andThen (mapStage L r aEnd (Z.of_nat len) s) (eeStage L r aEnd)) (ramStage L r aEnd) in
  (exists b d, x = Return true b d /\ moved L r (sa s) len (spos s) (sbuf s) (sdev s) b d) \/
  (exists k s', x = Go s' /\ (k < len)%nat /\ sa s' = sa s + Z.of_nat k /\ (spos s' = spos s + k)%nat /\ snf s' = Nat.eqb k 0 /\
    moved L r (sa s) k (spos s) (sbuf s) (sdev s) (sbuf s') (sdev s') /\ (k = O -> array L (sdev s) (sa s) = None)).
Proof.
  intros HL Y SN AL. cbv zeta.
  assert (S1 : stage_ok L r len s (andThen (mapStage L r aEnd (Z.of_nat len) s) (eeStage L r aEnd))
     (fun d x => ~ inside (eeStart L) (eeSize L) x /\ (sa s <= x) /\ (x = sa s -> d = sdev s /\ mp (sdev s) (sa s) = None) /\ (sa s < x -> mp d x = None \/ inside (eeStart L) (eeSize L) (x - 1)))).
  { destruct (mapStage_spec L r aEnd len s HL Y) as [(b & d & -> & V)|(k & s' & -> & R1 & R2 & R3 & R4 & R5 & R6 & R7)]; cbn [andThen].
    - left. exists b, d. auto.
    - pose proof (ready_step _ _ _ _ _ _ _ Y R1 R2 R3 R5) as Y1. pose proof (eeStage_spec L r aEnd (len - k) s' HL Y1) as X.
      destruct X as [(b & d & -> & V)|(l & s'' & E & T1 & T2 & T3 & T4 & T5 & T6 & T7)].
      + left. exists b, d. split; auto. replace len with (k + (len - k))%nat by lia. eapply moved_trans; eauto. rewrite <- R2, <- R3. auto.
      + rewrite E. right. exists (k + l)%nat, s''. split; auto. split; [lia|]. split; [lia|]. split; [lia|]. split. { rewrite T4, R4. destruct (snf s), k, l; reflexivity. }
        split. { eapply moved_trans; eauto. rewrite <- R2, <- R3. auto. }
        split.
        * split; auto. split; [lia|]. split.
          { intros Q. assert (k = O /\ l = O) as (-> & ->) by lia. rewrite (T7 eq_refl), (R7 eq_refl) in *. auto. }
          { intros Q. destruct l as [|l]. { left. rewrite (T7 eq_refl). auto. } right.
            unfold eeStage, inRange1, inRange2 in E. destruct ((sa s' <=? aEnd) && (eeStart L <=? sa s') && (aEnd <=? eeStart L + eeSize L - 1)) eqn:E1.
            { destruct (eeMove L r (sa s') (Z.to_nat (aEnd - sa s' + 1)) (spos s') (sbuf s') (sdev s')) as [(b, d)|]; discriminate. }
            destruct ((eeStart L <=? sa s') && (sa s' <=? eeStart L + eeSize L - 1)) eqn:E2.
            - cbv zeta in E. destruct (eeMove L r (sa s') (Z.to_nat (eeStart L + eeSize L - 1 - sa s' + 1)) (spos s') (sbuf s') (sdev s')) as [(b, d)|]; [|discriminate].
              injection E as <-. cbn [advance sa] in *. pose proof (l_ee _ HL) as LE. rewrite u32_id in T2 by (red; lia). rewrite u32_id by (red; lia). unfold inside. lia.
            - injection E as <-. lia. }
        * intros Q. assert (k = O /\ l = O) as (-> & ->) by lia. rewrite (T7 eq_refl). auto. }
  assert (S2 := stage_then L r len s _ (ramStage L r aEnd) _ (fun d x => ~ inside (ramStart L) (ramSize L) x) S1).
  destruct S2 as [A|(k & s' & E & T1 & T2 & T3 & T4 & T5 & T6 & T7)].
  - intros k s' _ Hk Ha Hs V (B1 & B2 & B3 & B4) _. apply ramStage_spec; auto. { now apply (ready_step L r aEnd len s). }
    intros Q1 Q2. assert (N' : no_auto L (sdev s')) by apply V. assert (G' : good L (sdev s')) by apply V.
    destruct k as [|k].
    + destruct (B3 ltac:(lia)) as (D & M). assert (sa s = 0x60) by lia. specialize (AL ltac:(auto) Q2).
      destruct (array_some L _ _ (y_auto _ _ _ _ _ Y) AL) as [A|[A|A]]; auto.
      * exfalso. apply A. congruence.
      * exfalso. apply B1. now rewrite Q1.
    + destruct (B4 ltac:(lia)) as [A|A].
      * assert (K5 : array L (sdev s') 0x5F <> None).
        { rewrite (moved_iff _ _ _ _ _ _ _ _ _ _ V). replace 0x5F with (sa s + Z.of_nat k) by lia. apply (v_known _ _ _ _ _ _ _ _ _ V). lia. }
        rewrite Q1 in A. pose proof (known_5f L _ HL G' N' K5) as K6. destruct (array_some L _ _ N' K6) as [C|[C|C]]; auto.
        { contradiction. } { exfalso. apply B1. now rewrite Q1. }
      * unfold inside in A. pose proof (l_ee _ HL). lia.
  - left. auto.
  - right. exists k, s'. split; auto. split; auto. split; auto. split; auto. split. { now rewrite T4, SN. } split; auto.
    intros Q. destruct (T7 Q) as (-> & B1 & B2 & B3 & B4). subst k. apply array_none; auto. { apply Y. } { apply B3. reflexivity. }
Qed.
Lemma opLoop_spec L r aEnd : layout_ok L -> forall fuel len s, ready L r aEnd len s -> snf s = false -> (len < fuel)%nat -> (sa s = 0x60 -> aEnd = 0x60 -> array L (sdev s) 0x60 <> None) ->
  exists k b buf d, opLoop fuel L r aEnd (Z.of_nat len) s = Some (b, buf, d) /\ moved L r (sa s) k (spos s) (sbuf s) (sdev s) buf d /\ (k <= len)%nat /\ b = Nat.eqb k len /\
    ((k < len)%nat -> array L (sdev s) (sa s + Z.of_nat k) = None).
Proof.
  intros HL. induction fuel as [|fuel IH]; intros len s Y SN HF AL; [lia|]. cbn [opLoop].
  pose proof (y_range _ _ _ _ _ Y) as HR. rewrite SN. replace (sa s <=? aEnd) with true by lia. cbn [negb andb].
  set (s0 := mkSt (sa s) (spos s) true (sbuf s) (sdev s)).
  assert (Y0 : ready L r aEnd len s0) by (destruct Y; constructor; auto).
  destruct (pass_spec L r aEnd len s0 HL Y0 eq_refl AL) as [(b & d & -> & V)|(k & s' & -> & R1 & R2 & R3 & R4 & R5 & R6)].
  - exists len, true, b, d. split; auto. split; auto. split; auto. split; [now rewrite Nat.eqb_refl|]. lia.
  - cbn [s0 sa spos sbuf sdev] in *. pose proof (ready_step _ _ _ _ _ _ _ Y R1 R2 R3 R5) as Y1. pose proof (y_range _ _ _ _ _ Y1) as HR1. rewrite u32_id by (red; lia).
    replace (aEnd - sa s' + 1) with (Z.of_nat (len - k)) by lia. destruct k as [|k].
    + destruct fuel; [lia|]. cbn [opLoop]. rewrite R4. cbn [Nat.eqb negb andb]. exists O, false, (sbuf s'), (sdev s'). split. { do 3 f_equal. lia. }
      split; auto. split; [lia|]. split; [lia|]. intros _. rewrite Z.add_0_r. auto.
    + destruct (IH (len - S k)%nat s' Y1) as (l & b & buf & d & -> & T1 & T2 & T3 & T4).
      { now rewrite R4. } { lia. }
      { intros Q1 Q2. rewrite (moved_iff _ _ _ _ _ _ _ _ _ _ R5). apply known_5f; auto; try apply Y. replace 0x5F with (sa s + Z.of_nat k) by lia. apply (v_known _ _ _ _ _ _ _ _ _ R5). lia. }
      exists (S k + l)%nat, b, buf, d. split; auto. split. { eapply moved_trans; eauto. rewrite <- R2, <- R3. auto. }
      split; [lia|]. split. { rewrite T3. lia. }
      intros Q. specialize (T4 ltac:(lia)). rewrite (moved_iff _ _ _ _ _ _ _ _ _ _ R5) in T4. replace (sa s + Z.of_nat (S k + l)) with (sa s' + Z.of_nat l) by lia. auto.
Qed.
