(** Properties C24 and C25: memory requests from the bus *)
From Verif Require Import Base Bits Telegram_Model Mapper_Model Mapper_Spec Mapper_Proofs MemReq_Model MemReq_Spec MemReq_Proofs MemReq_Op MemReq_Buf.

(** ** C24: the memory behaves like an array *)
(** Any sequence of read and write requests of up to 12 bytes gives the answers of a partial array of bytes: the bytes written are read back, bytes outside the range keep
    their values, and a request that leaves the known areas fails (a write then keeps the bytes before the first unknown one; a read answers zero bytes).
    Partial: a mapper with autoAddPage is excluded, see below; the status byte has two addresses where the RAM does not start at 0, see [place] and C24_status_alias_refuted. *)
Theorem C24_like_an_array_partial L d l : layout_ok L -> dev_ok L d -> no_auto L d ->
  Forall (fun q => request_ok (fst q) /\ (q_count (fst q) <= 12)%nat /\ length (snd q) = 23%nat) l ->
  exists out d', requests L l d = Some (out, d') /\
    map (option_map decode_response) out = map (option_map Some) (fst (ideal_requests L (map fst l) (array L d))) /\
    forall x, array L d' x = snd (ideal_requests L (map fst l) (array L d)) x.
Proof.
  intros HL HD HN HF. destruct (requests_spec L l HL HF d (array L d) (dev_good L d HL HD) HN (fun x => eq_refl)) as (out & d' & A & B & C & _). eauto.
Qed.
Print Assumptions C24_like_an_array_partial.

(** One write and a following read of the same range, in words: *)
Theorem C24_write_read_back L d w r sb1 sb2 : layout_ok L -> dev_ok L d -> no_auto L d ->
  request_ok w -> request_ok r -> q_command w = 0x280 -> q_command r = 0x200 -> q_address r = q_address w -> q_count r = q_count w -> (1 <= q_count w <= 12)%nat ->
  length sb1 = 23%nat -> length sb2 = 23%nat ->
  (forall i, (i < q_count w)%nat -> array L d (q_address w + Z.of_nat i) <> None) ->
  exists ans1 sb1' d1 sb2' d2, processMemoryApci L w sb1 d = Some (ans1, sb1', d1) /\ processMemoryApci L r sb2 d1 = Some (true, sb2', d2) /\
    (forall x, array L d1 x = if (q_address w <=? x) && (x <? q_address w + Z.of_nat (q_count w)) then Some (rd w (10 + Z.to_nat (x - q_address w))) else array L d x) /\
    (forall x, array L d2 x = array L d1 x) /\
    decode_response sb2' = Some (Z.of_nat (q_count w), q_address w, firstn (q_count w) (skipn 10 w)).
Proof.
  intros HL HD HN Hw Hr Cw Cr EA EC Hn L1 L2 HK. pose proof (dev_good L d HL HD) as G.
  assert (P : forall f, f 0x60 <> None \/ q_address w <> 0x60 -> place L (q_address w) (q_count w) f = q_address w).
  { intros f H. unfold place. destruct (Nat.eqb (q_count w) 1 && (q_address w =? 0x60))%bool eqn:E; auto. destruct (f 0x60) eqn:F; auto. exfalso. destruct H; [auto|lia]. }
  assert (P0 : forall f, (forall i, (i < q_count w)%nat -> f (q_address w + Z.of_nat i) <> None) -> place L (q_address w) (q_count w) f = q_address w).
  { intros f H. apply P. destruct (Z.eq_dec (q_address w) 0x60) as [E|]; auto. left. specialize (H O ltac:(lia)). rewrite Z.add_0_r, E in H. auto. }
  destruct (request_spec L w sb1 d _ HL G HN Hw ltac:(lia) L1 (fun x => eq_refl)) as (ans1 & sb1' & d1 & E1 & G1 & N1 & A1 & _).
  assert (LQ : length (q_data w) = q_count w) by (apply sub_length; destruct Hw; lia).
  assert (A1' : forall x, array L d1 x = if (q_address w <=? x) && (x <? q_address w + Z.of_nat (q_count w)) then Some (rd w (10 + Z.to_nat (x - q_address w))) else array L d x).
  { intros x. rewrite A1. unfold ideal_request. cbv zeta. rewrite Cw. change (0x280 =? 0x200) with false. cbv iota.
    destruct (q_count w) as [|n] eqn:En; [lia|]. rewrite <- En in *. rewrite P0 by auto.
    destruct (write_bytes_spec (q_data w) (q_address w) (array L d) (q_count w)) as (_ & W); try lia; auto. destruct (write_bytes _ _ _) as (ok, g). cbn [fst snd] in *. rewrite W.
    destruct ((q_address w <=? x) && _) eqn:T; auto. f_equal. unfold q_data. apply rd_sub. lia. }
  destruct (request_spec L r sb2 d1 _ HL G1 N1 Hr ltac:(lia) L2 (fun x => eq_refl)) as (ans2 & sb2' & d2 & E2 & G2 & N2 & A2 & D2).
  unfold ideal_request in A2, D2. cbv zeta in A2, D2. rewrite Cr in A2, D2. change (0x200 =? 0x200) with true in A2, D2. cbv iota in A2, D2. cbn [fst snd option_map] in A2, D2.
  destruct ans2; [|discriminate]. injection D2 as D2. exists ans1, sb1', d1, sb2', d2. split; auto. split; auto. split; auto. split; auto. rewrite D2. rewrite EA, EC.
  assert (K1 : forall i, (i < q_count w)%nat -> array L d1 (q_address w + Z.of_nat i) <> None).
  { intros i Hi. rewrite A1'. destruct ((q_address w <=? _) && _); [discriminate|auto]. }
  assert (IA : ideal_answer L (q_address w) (q_count w) (array L d1) =
     match read_bytes (place L (q_address w) (q_count w) (array L d1)) (q_count w) (array L d1) with Some bs => (Z.of_nat (q_count w), q_address w, bs) | None => (0, q_address w, []) end).
  { unfold ideal_answer. destruct (q_count w); [lia|reflexivity]. }
  rewrite IA. rewrite P0 by auto. rewrite read_bytes_known by auto.
  assert (EL : map (fun i => val (array L d1 (q_address w + Z.of_nat i))) (seq 0 (q_count w)) = firstn (q_count w) (skipn 10 w)); [|now rewrite EL].
  apply list_ext with (d := 0). { rewrite map_length, seq_length. symmetry. exact LQ. }
  intros i Hi. rewrite map_length, seq_length in Hi. rewrite nth_indep with (d' := (fun i => val (array L d1 (q_address w + Z.of_nat i))) O) by (rewrite map_length, seq_length; auto).
  rewrite map_nth with (f := fun i => val (array L d1 (q_address w + Z.of_nat i))). rewrite seq_nth by auto. cbv beta. rewrite A1'.
  replace ((q_address w <=? q_address w + Z.of_nat (0 + i)) && (q_address w + Z.of_nat (0 + i) <? q_address w + Z.of_nat (q_count w))) with true by lia. cbn [val].
  change (nth i (firstn (q_count w) (skipn 10 w)) 0) with (rd (firstn (q_count w) (skipn 10 w)) i). rewrite rd_sub by auto. f_equal. lia.
Qed.
Print Assumptions C24_write_read_back.

(** With autoAddPage the mapper takes every request; a mapped range is written and read back all the same *)
Theorem C24_auto_map_read_back L d m a n buf pos : layout_ok L -> dev_ok L d -> memMapper d = Some m -> autoAddPage (mapCfg L) = true ->
  0 <= a < 65536 -> (1 <= n <= 257)%nat -> (pos + n <= length buf)%nat -> Forall is_byte buf -> (forall i, (i < n)%nat -> mapper_array m (a + Z.of_nat i) <> None) ->
  exists m', processApciMemoryOperation L a pos (Z.of_nat n) false buf d = Some (true, buf, setMapper d m') /\
    (forall x, mapper_array m' x = if (a <=? x) && (x <? a + Z.of_nat n) then Some (rd buf (pos + Z.to_nat (x - a))) else mapper_array m x) /\
    forall buf2, (pos + n <= length buf2)%nat -> exists buf3 m'', processApciMemoryOperation L a pos (Z.of_nat n) true buf2 (setMapper d m') = Some (true, buf3, setMapper d m'') /\
      (forall x, mapper_array m'' x = mapper_array m' x) /\ firstn n (skipn pos buf3) = firstn n (skipn pos buf).
Proof.
  intros HL HD Em A Ha Hn Hp HB HM. destruct (g_map _ _ (dev_good L d HL HD) m Em) as ((hi & K) & _).
  destruct (auto_op L a n pos false buf d m HL Em (ex_intro _ hi K) A (fun _ => HB) Ha ltac:(lia) Hp) as (b & b' & m' & E & K' & Lb & MV). specialize (MV ltac:(lia)).
  unfold mapMove in MV. rewrite bget_ok in MV by auto. set (bs := firstn n (skipn pos buf)) in *. assert (LQ : length bs = n) by (apply sub_length; lia).
  destruct (writeMemPtr_spec (mapCfg L) bs (l_map _ HL) (Forall_sub _ _ _ _ HB) a m _ hi (rel_any _ m hi K)) as (m1 & y & hi' & W & R' & M').
  { rewrite LQ. exact HM. }
  rewrite W in MV. cbn [Z.eqb MEM_MAPPER_SUCCESS] in MV. injection MV as <- <- <-. exists m1. split; auto.
  assert (V : forall x, mapper_array m1 x = if (a <=? x) && (x <? a + Z.of_nat n) then Some (rd buf (pos + Z.to_nat (x - a))) else mapper_array m x).
  { intros x. rewrite !mapper_array_view, <- (r_mem _ _ _ _ R'), M', LQ. cbn [mem]. destruct ((a <=? x) && _) eqn:T; auto. f_equal. unfold bs. apply rd_sub. lia. }
  split; auto. intros buf2 Hp2.
  destruct (auto_op L a n pos true buf2 (setMapper d m1) m1 HL eq_refl (ex_intro _ hi' (r_core _ _ _ _ R')) A ltac:(discriminate) Ha ltac:(lia) Hp2) as (b & b3 & m2 & E2 & _ & L3 & MV). specialize (MV ltac:(lia)).
  unfold mapMove in MV. destruct (readMemPtr_spec (mapCfg L) n (l_map _ HL) a m1 y hi' R') as (bs2 & m3 & RM & R3 & L2 & B2).
  { intros i Hi. rewrite (r_mem _ _ _ _ R'). change (view m1) with (mapper_array m1). rewrite V. destruct ((a <=? _) && _); [discriminate|auto]. }
  rewrite RM in MV. rewrite bput_ok in MV by lia. cbn [Z.eqb MEM_MAPPER_SUCCESS] in MV. injection MV as <- <- <-. exists (wr_range buf2 pos bs2), m3. split; auto. split.
  - intros x. rewrite !mapper_array_view, <- (r_mem _ _ _ _ R3), <- (r_mem _ _ _ _ R'). reflexivity.
  - apply list_ext with (d := 0). { rewrite !sub_length; auto. now rewrite wr_range_length. }
    intros i Hi. rewrite sub_length in Hi by (rewrite wr_range_length; auto). change (rd (firstn n (skipn pos (wr_range buf2 pos bs2))) i = rd (firstn n (skipn pos buf)) i).
    rewrite !rd_sub by auto. rewrite rd_wr_range by lia. replace (Nat.leb pos (pos + i) && Nat.ltb (pos + i) (pos + length bs2))%bool with true by lia. replace (pos + i - pos)%nat with i by lia.
    specialize (B2 i Hi). rewrite (r_mem _ _ _ _ R') in B2. change (view m1) with (mapper_array m1) in B2. rewrite V in B2.
    replace ((a <=? a + Z.of_nat i) && (a + Z.of_nat i <? a + Z.of_nat n)) with true in B2 by lia. injection B2 as <-. f_equal. lia.
Qed.
Print Assumptions C24_auto_map_read_back.

(** ** Concrete devices *)
Definition cfg0 : mcfg := mkM 200 20 false.
(** mask 0705 with its RAM at 0x5FC, a BCU2 with its RAM at 0 *)
Definition mask0705 : layout := mkL 0x3f00 3072 0x5FC 0x304 cfg0 0x705.
Definition bcu2 : layout := mkL 0x100 1024 0 0x100 cfg0 0x20.
(** the same with a mapper that adds pages by itself *)
Definition bcu2auto : layout := mkL 0x100 1024 0 0x100 (mkM 200 20 true) 0x20.
Definition blank (L : layout) (m : option mapper) : dev := mkDev m (repeat 7 (Z.to_nat (eeSize L))) false (repeat 9 (Z.to_nat (ramSize L + 3))) 0x2e.
Lemma layouts_ok : layout_ok mask0705 /\ layout_ok bcu2 /\ layout_ok bcu2auto.
Proof. repeat split; cbn; lia. Qed.
Definition blankMapper (c : mcfg) : mapper := newMapper c (fun _ => repeat 255 FLASH_PAGE_SIZE) (repeat 0 FLASH_PAGE_SIZE).
Lemma blank_boots c : mcfg_ok c -> boots c (fun _ => repeat 255 FLASH_PAGE_SIZE) (flashBasePage c).
Proof.
  intros Hc. split; [intros; apply page_blank|]. rewrite (table_kept c (repeat 255 FLASH_PAGE_SIZE) (flashBasePage c)) by (now apply table_blank). now apply table_blank.
Qed.
Lemma blankMapper_ok c : mcfg_ok c -> mapper_ok c (blankMapper c).
Proof.
  intros Hc. exists (fun _ => repeat 255 FLASH_PAGE_SIZE), (repeat 0 FLASH_PAGE_SIZE), (flashBasePage c), [], []. split; [now apply blank_boots|]. split; [apply page_zero|]. split; [constructor|]. reflexivity.
Qed.
Lemma blank_none c a : mcfg_ok c -> mapper_array (blankMapper c) a = None.
Proof.
  intros Hc. destruct (new_spec c _ (repeat 0 FLASH_PAGE_SIZE) _ Hc (blank_boots c Hc) page_zero) as (_ & V & _). rewrite mapper_array_view. unfold blankMapper. rewrite V.
  unfold stored_array. rewrite (table_kept c _ (flashBasePage c)) by (now apply table_blank). unfold decode. destruct (in_space a) eqn:E; auto. cbv zeta. destruct (in_space_page a E) as (_ & P). rewrite rd_repeat by auto. reflexivity.
Qed.
Lemma blank_bytes v n : is_byte v -> Forall is_byte (repeat v n).
Proof. intros H. apply Forall_forall. intros x I. apply repeat_spec in I. now subst. Qed.
Lemma blank_ok L m : layout_ok L -> (m = None \/ m = Some (blankMapper (mapCfg L))) -> dev_ok L (blank L m).
Proof.
  intros HL Hm. pose proof (l_ee _ HL). pose proof (l_ram _ HL). constructor; cbn [blank eeData ramData status memMapper].
  - rewrite repeat_length. split; [lia|]. apply blank_bytes. red; lia.
  - rewrite repeat_length. split; [destruct (l_ram _ HL) as (? & ? & [?|?]); lia|]. apply blank_bytes. red; lia.
  - red; lia.
  - intros m' E. destruct Hm as [-> | ->]; [discriminate|]. injection E as <-. split; [apply blankMapper_ok; apply HL|]. intros a Ha. rewrite blank_none in Ha by apply HL. contradiction.
Qed.
(** a memory request; unused bytes are 0 *)
Definition req (cmd a : Z) (n : Z) (data : list Z) : list Z :=
  firstn 23 ([0xb0; 0x11; 0x01; 0x11; 0x02; 0x60 + 3 + n; cmd / 256; cmd mod 256 + n; a / 256; a mod 256] ++ data ++ repeat 0 23).
Ltac request_is_ok := split; [reflexivity|split; [vm_compute; repeat (apply Forall_cons; [split; [discriminate|reflexivity]|]); apply Forall_nil|vm_compute; first [left; reflexivity|right; reflexivity]]].
Definition empty23 : list Z := repeat 0 23.

(** a read of 4 bytes over the end of the RAM into the EEPROM of a BCU2, after a write there; a write that leaves the EEPROM; reads of unknown memory; the status byte *)
Definition history : list (list Z * list Z) :=
  [ (req 0x280 0xfe 4 [1; 2; 3; 4], empty23); (req 0x200 0xfe 4 [], empty23); (req 0x280 0x4fe 4 [5; 6; 7; 8], empty23); (req 0x200 0x4fe 2 [], empty23);
    (req 0x200 0x500 1 [], empty23); (req 0x280 0x60 1 [0x2f], empty23); (req 0x200 0x5f 3 [], empty23) ].
Example C24_hypotheses : layout_ok bcu2 /\ dev_ok bcu2 (blank bcu2 None) /\ no_auto bcu2 (blank bcu2 None) /\
  Forall (fun q => request_ok (fst q) /\ (q_count (fst q) <= 12)%nat /\ length (snd q) = 23%nat) history.
Proof.
  split; [apply layouts_ok|]. split; [apply blank_ok; [apply layouts_ok|auto]|]. split; [intros _; reflexivity|].
  unfold history. do 7 (apply Forall_cons; [split; [request_is_ok|split; [vm_compute; lia|reflexivity]]|]). apply Forall_nil.
Qed.
Example C24_history : option_map (fun x => map (option_map decode_response) (fst x)) (requests bcu2 history (blank bcu2 None)) =
  Some [None; Some (Some (4, 0xfe, [1; 2; 3; 4])); None; Some (Some (2, 0x4fe, [5; 6])); Some (Some (0, 0x500, [])); None; Some (Some (3, 0x5f, [9; 0x2f; 9]))].
Proof. vm_compute. reflexivity. Qed.

(** Refuted as stated: where the RAM does not start at 0 (masks 0701, 0705, System B), a write to the RAM address 0x65C changes what is read at address 0x60, the system status *)
Theorem C24_status_alias_refuted : exists L d w r, layout_ok L /\ dev_ok L d /\ no_auto L d /\ request_ok w /\ request_ok r /\
  q_command w = 0x280 /\ q_command r = 0x200 /\ q_count w = 1%nat /\ q_count r = 1%nat /\ q_address w <> q_address r /\
  array L d (q_address w) <> None /\
  option_map (fun x => decode_response (snd (fst x))) (processMemoryApci L r empty23 d) = Some (Some (1, 0x60, [0x2e])) /\
  option_map (fun x => option_map (fun y => decode_response (snd (fst y))) (processMemoryApci L r empty23 (snd x))) (processMemoryApci L w empty23 d) = Some (Some (Some (1, 0x60, [0x55]))).
Proof.
  exists mask0705, (blank mask0705 None), (req 0x280 0x65c 1 [0x55]), (req 0x200 0x60 1 []).
  split; [apply layouts_ok|]. split; [apply blank_ok; [apply layouts_ok|auto]|]. split; [intros _; reflexivity|].
  split; [request_is_ok|].
  split; [request_is_ok|].
  split; [reflexivity|]. split; [reflexivity|]. split; [reflexivity|]. split; [reflexivity|]. split; [vm_compute; discriminate|]. split; [vm_compute; discriminate|].
  split; vm_compute; reflexivity.
Qed.
Print Assumptions C24_status_alias_refuted.

(** Refuted as stated: with a mapper that adds pages by itself a write to an address of the RAM succeeds but does not reach the RAM *)
Theorem C24_auto_map_hides_ram_refuted : exists L d w, layout_ok L /\ dev_ok L d /\ request_ok w /\ q_command w = 0x280 /\
  inside (ramStart L) (ramSize L) (q_address w) /\ q_count w = 1%nat /\
  option_map (fun x => (ramData (snd x), status (snd x))) (processMemoryApci L w empty23 d) = Some (ramData d, status d) /\
  option_map (fun x => fst (fst x)) (processApciMemoryOperation L (q_address w) 10 1 false w d) = Some true /\ local_array L d (q_address w) <> Some (rd w 10).
Proof.
  exists bcu2auto, (blank bcu2auto (Some (blankMapper (mapCfg bcu2auto)))), (req 0x280 0x10 1 [0x55]).
  split; [apply layouts_ok|]. split; [apply blank_ok; [apply layouts_ok|auto]|].
  split; [request_is_ok|].
  split; [reflexivity|]. split; [vm_compute; first [reflexivity|split; [discriminate|reflexivity]]|]. split; [reflexivity|]. split; [vm_compute; reflexivity|]. split; [vm_compute; reflexivity|]. vm_compute. discriminate.
Qed.
Print Assumptions C24_auto_map_hides_ram_refuted.
(** The hypotheses of C24_auto_map_read_back for a range over a page border, and those of C24_write_read_back *)
Definition two_pages (t : list Z) : bool := forallb (fun p => (rd t (Z.to_nat p) =? 255) || (p =? 0x60) || (p =? 0x61)) bytes256.
Example C24_auto_hypotheses : exists m, let d := blank bcu2auto (Some m) in dev_ok bcu2auto d /\ memMapper d = Some m /\ autoAddPage (mapCfg bcu2auto) = true /\
  forall i, (i < 12)%nat -> mapper_array m (0x60f8 + Z.of_nat i) <> None.
Proof.
  set (c := mapCfg bcu2auto). destruct (mruns c [AddRange 0x6000 0x200] (blankMapper c)) as [(out, m)|] eqn:E.
  2:{ assert (X : option_map fst (mruns c [AddRange 0x6000 0x200] (blankMapper c)) = Some [(0, 0)]) by (vm_compute; reflexivity). rewrite E in X. discriminate. }
  exists m. cbv zeta.
  assert (X : option_map (fun x => (two_pages (allocTable (snd x)) && negb (rd (allocTable (snd x)) 0x60 =? 255) && negb (rd (allocTable (snd x)) 0x61 =? 255))%bool)
     (mruns c [AddRange 0x6000 0x200] (blankMapper c)) = Some true) by (vm_compute; reflexivity).
  rewrite E in X. cbn [option_map snd] in X. apply (f_equal (fun o => match o with Some b => b | None => false end)) in X. apply andb_true_iff in X. destruct X as (X & X61). apply andb_true_iff in X. destruct X as (X & X60).
  assert (HC : mcfg_ok c) by apply (l_map _ (proj2 (proj2 layouts_ok))).
  split; [|split; [reflexivity|split; [reflexivity|]]].
  - constructor; try apply (blank_ok bcu2auto None); try apply layouts_ok; auto. cbn [blank memMapper]. intros m' [= <-]. split.
    + exists (fun _ => repeat 255 FLASH_PAGE_SIZE), (repeat 0 FLASH_PAGE_SIZE), (flashBasePage c), [AddRange 0x6000 0x200], out. split; [now apply blank_boots|]. split; [apply page_zero|]. split; [|exact E].
      apply Forall_cons; [|apply Forall_nil]. cbn [event_ok]. intros _. vm_compute. discriminate.
    + intros a H. unfold mapper_array, decode in H. destruct (in_space a) eqn:I; [|contradiction]. cbv zeta in H. destruct (in_space_page a I) as (P & _).
      pose proof (byte_forall _ X (a / 256) P) as Y. cbv beta in Y. destruct (Z.eqb_spec (rd (allocTable m) (Z.to_nat (a / 256))) 255) as [|]; [contradiction|]. unfold inside. cbn [eeStart eeSize ramStart ramSize bcu2auto].
      assert (a / 256 = 0x60 \/ a / 256 = 0x61) by lia. pose proof (Z.div_mod a 256). pose proof (Z.mod_pos_bound a 256). lia.
  - intros i Hi. unfold mapper_array, decode. replace (in_space (0x60f8 + Z.of_nat i)) with true by (unfold in_space; lia). cbv zeta.
    assert (Q : (0x60f8 + Z.of_nat i) / 256 = 0x60 \/ (0x60f8 + Z.of_nat i) / 256 = 0x61).
    { assert (C : 0x60f8 + Z.of_nat i < 0x6100 \/ 0x6100 <= 0x60f8 + Z.of_nat i) by lia. destruct C; [left|right]; symmetry; [apply Z.div_unique with (r := 0xf8 + Z.of_nat i)|apply Z.div_unique with (r := Z.of_nat i - 8)]; lia. }
    destruct Q as [-> | ->]; [change (Z.to_nat 0x60) with 0x60%nat; destruct (rd (allocTable m) 0x60 =? 255)|change (Z.to_nat 0x61) with 0x61%nat; destruct (rd (allocTable m) 0x61 =? 255)]; discriminate.
Qed.
Example C24_write_read_back_hypotheses : let w := req 0x280 0xfc 12 [1; 2; 3; 4; 5; 6; 7; 8; 9; 10; 11; 12] in let r := req 0x200 0xfc 12 [] in
  request_ok w /\ request_ok r /\ q_command w = 0x280 /\ q_command r = 0x200 /\ q_address r = q_address w /\ q_count r = q_count w /\ q_count w = 12%nat /\
  forall i, (i < q_count w)%nat -> array bcu2 (blank bcu2 None) (q_address w + Z.of_nat i) <> None.
Proof.
  cbv zeta. split; [request_is_ok|]. split; [request_is_ok|]. split; [reflexivity|]. split; [reflexivity|]. split; [reflexivity|]. split; [reflexivity|]. split; [reflexivity|].
  change (q_count _) with 12%nat. intros i Hi. do 12 (destruct i as [|i]; [vm_compute; discriminate|]). lia.
Qed.

(** ** C25: only bytes of the telegram buffers are accessed *)
(** Whatever follows the two buffers of 23 bytes in memory ([x] behind the request, [y] behind the response): it is not changed and has no influence.
    Partial: counts of 14 and 15 do leave the buffers, see C25_long_counts_refuted *)
Theorem C25_inside_buffers_partial L d t sb : layout_ok L -> dev_ok L d -> request_ok t -> (q_count t <= 13)%nat -> length sb = 23%nat ->
  exists ans sb' d', length sb' = 23%nat /\ forall x y, processMemoryApci L (t ++ x) (sb ++ y) d = Some (ans, sb' ++ y, d').
Proof.
  intros HL HD HT Hn Hl. pose proof (dev_good L d HL HD) as G. pose proof (request_command t HT) as HC. destruct HT as (LT & B & H). destruct (request_fields t B) as (F0 & F1 & F2 & F3 & F4).
  (* fit devices *)
  set (fit := fun d => (good L d /\ no_auto L d) \/ (exists m hi, memMapper d = Some m /\ core (mapCfg L) m hi /\ autoAddPage (mapCfg L) = true)).
  assert (FD : fit d).
  { unfold fit. destruct (memMapper d) as [m|] eqn:E. 2:{ left. split; auto. intros Q. congruence. }
    destruct (autoAddPage (mapCfg L)) eqn:A. 2:{ left. split; auto. intros _. auto. } right. destruct (g_map _ _ G m E) as ((hi & K) & _). now exists m, hi. }
  assert (OP : forall d r buf, fit d -> (r = false -> Forall is_byte buf) -> length buf = 23%nat ->
     exists ok buf' d', processApciMemoryOperation L (q_address t) 10 (Z.of_nat (q_count t)) r buf d = Some (ok, buf', d') /\ fit d' /\ length buf' = 23%nat).
  { clear - HL F4 Hn. intros d r buf [(G & N)|(m & hi & E & K & A)] HB HLb.
    - destruct (q_count t) as [|n] eqn:En. { exists false, buf, d. split; [reflexivity|]. split; auto. now left. }
      destruct (op_spec L (q_address t) (S n) 10 r buf d HL G N HB F4 ltac:(lia) ltac:(lia)) as (k & b & buf' & d' & Q & V & _). exists b, buf', d'. split; auto. split; [left; split; apply V|].
      rewrite (v_len _ _ _ _ _ _ _ _ _ V). auto.
    - destruct (auto_op L (q_address t) (q_count t) 10 r buf d m HL E (ex_intro _ hi K) A HB F4 ltac:(lia) ltac:(lia)) as (b & buf' & m' & Q & (hi' & K') & Lb & _).
      exists b, buf', (setMapper d m'). split; auto. split; [|congruence]. right. exists m', hi'. auto. }
  assert (RD : forall d, fit d -> exists ans sb' d', length sb' = 23%nat /\ forall y, memoryRead L (Z.of_nat (q_count t)) (q_address t) (sb ++ y) d = Some (ans, sb' ++ y, d')).
  { clear - OP Hl. intros d FD. destruct (OP d true sb FD ltac:(discriminate) Hl) as (ok & sb1 & d1 & Q & F1 & L1).
    assert (X : exists ans sb' d', memoryRead L (Z.of_nat (q_count t)) (q_address t) sb d = Some (ans, sb', d')) by (unfold memoryRead; rewrite Q; do 3 eexists; reflexivity).
    destruct X as (ans & sb' & d' & X). exists ans, sb', d'.
    assert (Y : forall y, memoryRead L (Z.of_nat (q_count t)) (q_address t) (sb ++ y) d = Some (ans, sb' ++ y, d') /\ length sb' = length sb).
    { intros y. apply read_app; auto; [lia|]. intros ok2 sb2 d2 E2. rewrite Q in E2. injection E2 as <- <- <-. congruence. }
    split; [destruct (Y []); congruence|]. intros y. apply Y. }
  assert (HX : forall x y dd, processMemoryApci L (t ++ x) (sb ++ y) dd =
     if q_command t =? 0x200 then memoryRead L (Z.of_nat (q_count t)) (q_address t) (sb ++ y) dd
     else match processApciMemoryOperation L (q_address t) 10 (Z.of_nat (q_count t)) false (t ++ x) dd with
          | None => None
          | Some (ok, _, d1) => if ok && ((0x1F <? maskVersion L) && negb (Z.land (deviceControl d1) DEVCTRL_MEM_AUTO_RESPONSE =? 0)) then memoryRead L (Z.of_nat (q_count t)) (q_address t) (sb ++ y) d1 else Some (false, sb ++ y, d1)
          end).
  { intros x y dd. unfold processMemoryApci. cbv zeta. rewrite !rd_app by lia. rewrite F1, F2.
    assert (EC : apciCommand (t ++ x) = q_command t) by (rewrite <- HC; unfold apciCommand; cbv zeta; rewrite !rd_app by lia; reflexivity). rewrite EC.
    destruct H as [H|H]; rewrite H; reflexivity. }
  destruct H as [H|H]; rewrite H in HX.
  - destruct (RD d FD) as (ans & sb' & d' & L1 & R). exists ans, sb', d'. split; auto. intros x y. rewrite HX. apply R.
  - destruct (OP d false t FD (fun _ => B) LT) as (ok & t' & d1 & Q & F5 & _).
    destruct (ok && ((0x1F <? maskVersion L) && negb (Z.land (deviceControl d1) DEVCTRL_MEM_AUTO_RESPONSE =? 0))) eqn:E.
    + destruct (RD d1 F5) as (ans & sb' & d' & L1 & R). exists ans, sb', d'. split; auto. intros x y. rewrite HX. rewrite (op_app _ _ _ _ _ _ x _ _ _ _ Q). change (0x280 =? 0x200) with false. cbv iota. rewrite E. apply R.
    + exists false, sb, d1. split; auto. intros x y. rewrite HX. rewrite (op_app _ _ _ _ _ _ x _ _ _ _ Q). change (0x280 =? 0x200) with false. cbv iota. now rewrite E.
Qed.
Print Assumptions C25_inside_buffers_partial.
Example C25_hypotheses : layout_ok bcu2 /\ dev_ok bcu2 (blank bcu2 None) /\ request_ok (req 0x200 0x100 13 []) /\ q_count (req 0x200 0x100 13 []) = 13%nat.
Proof.
  split; [apply layouts_ok|]. split; [apply blank_ok; [apply layouts_ok|auto]|].
  split; [request_is_ok|]. reflexivity.
Qed.
(** Refuted as stated: a read request with count 15 overwrites the two bytes behind the response buffer, a write request with count 15 stores the two bytes behind the received telegram *)
Theorem C25_long_counts_refuted : exists L d r w, layout_ok L /\ dev_ok L d /\ request_ok r /\ request_ok w /\
  (exists sb', option_map (fun x => snd (fst x)) (processMemoryApci L r (empty23 ++ [0xaa; 0xbb]) d) = Some sb' /\ rd sb' 23 <> 0xaa /\ rd sb' 24 <> 0xbb) /\
  (exists e1 e2, option_map (fun x => eeData (snd x)) (processMemoryApci L (w ++ [1; 1]) empty23 d) = Some e1 /\
     option_map (fun x => eeData (snd x)) (processMemoryApci L (w ++ [2; 2]) empty23 d) = Some e2 /\ e1 <> e2).
Proof.
  exists bcu2, (blank bcu2 None), (req 0x200 0x100 15 []), (req 0x280 0x100 15 []).
  split; [apply layouts_ok|]. split; [apply blank_ok; [apply layouts_ok|auto]|].
  split; [request_is_ok|].
  split; [request_is_ok|].
  split.
  - eexists. split; [vm_compute; reflexivity|]. split; vm_compute; discriminate.
  - do 2 eexists. split; [vm_compute; reflexivity|]. split; [vm_compute; reflexivity|]. discriminate.
Qed.
Print Assumptions C25_long_counts_refuted.
(** and a count of 13 makes the length field of the answer 0 and its routing field 7 *)
Example C25_count_13 : option_map (fun x => rd (snd (fst x)) 5) (processMemoryApci bcu2 (req 0x200 0x100 13 []) empty23 (blank bcu2 None)) = Some 0x70.
Proof. vm_compute. reflexivity. Qed.
