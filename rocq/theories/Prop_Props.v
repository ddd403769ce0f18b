(** Interface object properties: the theorems (C34, C35, C69-C72) *)
From Verif Require Import Base Bits Telegram_Model Mapper_Model Mapper_Spec Mapper_Proofs MemReq_Model MemReq_Spec MemReq_Proofs MemReq_Op MemReq_Props Prop_Model Prop_Spec Prop_Proofs Prop_Load Prop_Write.

(** ** C34 *)
(** Partial: an event "no operation" is not covered (see below). A load-control event for one of the six objects is always answered, with the new state; that state is the prescribed one,
    and no other load state, no RAM byte and nothing of the mapper changes *)
Theorem C34_load_event_partial L static t n sb d : bcu2_device L d -> telegram t -> length sb = 23%nat -> is_write t -> f_id t = 5 -> 0 <= f_object t < 6 -> ~ no_operation (t, n, sb) ->
  exists sb' d', processPropertyApci L static propertiesTab t n sb d = Some (sb', d') /\
    prescribed L d (f_object t) (t, n, sb) (load_state d (f_object t)) (load_state d' (f_object t)) /\
    value_answer sb' = Some (f_object t, 5, f_count t, f_start t, [load_state d' (f_object t)]) /\
    (forall o, 0 <= o < 6 -> o <> f_object t -> load_state d' o = load_state d o) /\ ramData d' = ramData d /\ status d' = status d /\ memMapper d' = memMapper d.
Proof.
  intros HD Ht Lb HW Hi Ho NO. destruct (load_event L static t n sb d (device_half _ _ HD) Ht Lb HW Hi Ho) as (sb' & d' & s & E & _ & P & LS & O & V & _).
  exists sb', d'. rewrite LS. split; auto. split; [now apply P|]. split; auto. split; [|split; [apply (o_ram _ _ _ O)|split; [apply (o_status _ _ _ O)|apply (o_map _ _ _ O)]]].
  intros o H1 H2. unfold load_state. apply (o_rd _ _ _ O). unfold states_at, tables_at. lia.
Qed.
Print Assumptions C34_load_event_partial.
(** Partial: without "no operation" events. Any sequence of property requests (values and descriptions, read or written): every load state is the one its load-control events lead to.
    No other property request changes one. Memory requests that write to the load states are not part of such a sequence *)
Theorem C34_load_states_partial L static l d out d' : bcu2_device L d -> Forall request_fits l -> Forall (fun q => forall o, event_for o q = true -> ~ no_operation q) l ->
  propRequests L static propertiesTab l d = Some (out, d') -> forall o, 0 <= o < 6 -> after L d o l (load_state d o) (load_state d' o).
Proof. intros HD F N H o Ho. apply (history_states L static l d out d' (device_half _ _ HD) F N H d o); auto. split; auto. Qed.
Print Assumptions C34_load_states_partial.
(** The application of a device that had not all three parts loaded is reported running only if it is enabled, the run state is 1 and the last load-control event of each part that was not
    loaded before was a well-formed "load completed"; a part without event was loaded before *)
Theorem C34_running L static l d out d' enabled runState : bcu2_device L d -> Forall request_fits l -> propRequests L static propertiesTab l d = Some (out, d') ->
  (applicationRunning enabled runState d' = true <->
   enabled = true /\ runState = 1 /\
   forall o, 1 <= o <= 3 -> match last_event o l with Some q => event_well_sized q /\ event_control q = 2 | None => load_state d o = 1 end).
Proof.
  intros HD F H. pose proof (history_loaded L static l d out d' (device_half _ _ HD) F H) as K.
  assert (LO : forall o, 1 <= o <= 3 -> (load_state d' o = 1 <-> match last_event o l with Some q => event_well_sized q /\ event_control q = 2 | None => load_state d o = 1 end)).
  { intros o Ho. specialize (K o ltac:(lia)). destruct (last_event o l) as [q|]; [exact K|]. now rewrite K. }
  unfold applicationRunning. destruct enabled; cbn [negb]; [|split; [discriminate|intros (X & _); discriminate]].
  change (Prop_Model.loadState d') with (load_state d'). unfold OT_ADDR_TABLE, OT_ASSOC_TABLE, OT_APPLICATION, LS_LOADED. rewrite !andb_true_iff, !Z.eqb_eq. split.
  - intros (((A & B) & C) & D). split; auto. split; auto. intros o Ho. apply LO; auto. assert (Q : o = 1 \/ o = 2 \/ o = 3) by lia. destruct Q as [-> |[-> | ->]]; auto.
  - intros (_ & A & B). split; [split; [split; [auto|]|]|]; apply LO; try lia; apply B; lia.
Qed.
Print Assumptions C34_running.
(** a telegram: command, object, property, count, start, data *)
Definition preq (cmd o id count start : Z) (data : list Z) : list Z :=
  let l := [0xb0; 0x11; 0x01; 0x11; 0x05; 0x60 + 5 + Z.of_nat (length data); cmd / 256; cmd mod 256; o; id; 16 * count + start / 256; start mod 256] ++ data in l ++ repeat 0 (23 - length l).
(** a load-control event and its request *)
Definition event (o : Z) (data : list Z) : request := (preq 0x3d7 o 5 1 1 (data ++ repeat 0 (10 - length data)), 23, empty23).
Definition dev2 : dev := blank bcu2 None.
Ltac telegram_is_ok := split; [reflexivity|vm_compute; repeat (apply Forall_cons; [split; [discriminate|reflexivity]|]); apply Forall_nil].
Lemma dev2_ok : bcu2_device bcu2 dev2.
Proof. split; [apply layouts_ok|]. split; [apply blank_ok; [apply layouts_ok|auto]|]. split; vm_compute; discriminate. Qed.
(** a download: unload, load, allocate and complete the three parts, with a value read in between *)
Definition download : list request :=
  [event 1 [4]; event 1 [1]; event 1 [3; 2; 0x01; 0x16]; event 1 [2]; event 2 [1]; event 2 [3; 2; 0x02; 0x00]; event 2 [3; 0; 0x01; 0x16; 0; 0x20; 0; 3];
   (preq 0x3d5 1 7 1 1 [], 13, empty23); event 2 [2]; event 3 [1]; event 3 [3; 2; 0; 0; 0; 0; 0x4c; 0x20; 0x60; 0x12]; event 3 [2]].
Example C34_hypotheses : bcu2_device bcu2 dev2 /\ Forall request_fits download /\ Forall (fun q => forall o, event_for o q = true -> ~ no_operation q) download /\
  (exists out d', propRequests bcu2 0 propertiesTab download dev2 = Some (out, d')) /\ ~ no_operation (event 1 [1]).
Proof.
  split; [apply dev2_ok|]. split.
  { unfold download. repeat (apply Forall_cons; [split; [telegram_is_ok|split; [vm_compute; split; discriminate|telegram_is_ok]]|]). apply Forall_nil. }
  split. { unfold download. repeat (apply Forall_cons; [intros o EV (X1 & X); first [vm_compute in X; discriminate|discriminate EV]|]). apply Forall_nil. }
  split; [|intros (_ & X); vm_compute in X; discriminate].
  destruct (propRequests bcu2 0 propertiesTab download dev2) as [(out & d')|] eqn:E; [eauto|]. exfalso.
  assert (X : match propRequests bcu2 0 propertiesTab download dev2 with Some _ => true | None => false end = true) by (vm_compute; reflexivity). rewrite E in X. discriminate.
Qed.
Example C34_download : option_map (fun x => (map value_answer (fst x), map (load_state (snd x)) [0; 1; 2; 3; 4; 5], applicationRunning true 1 (snd x))) (propRequests bcu2 0 propertiesTab download dev2) =
  Some ([Some (1, 5, 1, 1, [0]); Some (1, 5, 1, 1, [2]); Some (1, 5, 1, 1, [2]); Some (1, 5, 1, 1, [1]); Some (2, 5, 1, 1, [2]); Some (2, 5, 1, 1, [2]); Some (2, 5, 1, 1, [2]);
         Some (1, 7, 1, 1, [0x01; 0x16]); Some (2, 5, 1, 1, [1]); Some (3, 5, 1, 1, [2]); Some (3, 5, 1, 1, [2]); Some (3, 5, 1, 1, [1])], [7; 1; 1; 1; 7; 7], true).
Proof. vm_compute. reflexivity. Qed.
(** Refuted as stated: "no operation" does not keep the state but leads to the error state; a running application stops *)
Theorem C34_no_operation_refuted : exists t n sb d sb' d', bcu2_device bcu2 d /\ request_fits (t, n, sb) /\ is_write t /\ f_id t = 5 /\ f_object t = 1 /\ no_operation (t, n, sb) /\
  applicationRunning true 1 d = true /\ processPropertyApci bcu2 0 propertiesTab t n sb d = Some (sb', d') /\ load_state d 1 = 1 /\ load_state d' 1 = 3 /\ applicationRunning true 1 d' = false.
Proof.
  set (d := mkDev None (repeat 1 (Z.to_nat 1024)) false (repeat 9 (Z.to_nat 0x103)) 0x2e).
  assert (D : bcu2_device bcu2 d).
  { split; [apply layouts_ok|]. split; [|split; vm_compute; discriminate]. constructor.
    - split; [reflexivity|]. apply blank_bytes. red. lia.
    - split; [reflexivity|]. apply blank_bytes. red. lia.
    - red. cbn. lia.
    - discriminate. }
  destruct (processPropertyApci bcu2 0 propertiesTab (fst (fst (event 1 [0]))) 23 empty23 d) as [(sb' & d')|] eqn:E.
  - exists (fst (fst (event 1 [0]))), 23, empty23, d, sb', d'. split; [exact D|]. split; [split; [telegram_is_ok|split; [vm_compute; split; discriminate|telegram_is_ok]]|].
    split; [reflexivity|]. split; [reflexivity|]. split; [reflexivity|]. split; [split; [left; reflexivity|reflexivity]|]. split; [vm_compute; reflexivity|]. split; [exact E|].
    split; [vm_compute; reflexivity|].
    assert (X : option_map (fun x => (load_state (snd x) 1, applicationRunning true 1 (snd x))) (processPropertyApci bcu2 0 propertiesTab (fst (fst (event 1 [0]))) 23 empty23 d) = Some (3, false)) by (vm_compute; reflexivity).
    rewrite E in X. cbn [option_map snd] in X. injection X as X1 X2. auto.
  - exfalso. assert (X : match processPropertyApci bcu2 0 propertiesTab (fst (fst (event 1 [0]))) 23 empty23 d with Some _ => true | None => false end = true) by (vm_compute; reflexivity).
    rewrite E in X. discriminate.
Qed.
Print Assumptions C34_no_operation_refuted.

(** ** C35 *)
Lemma zget_length l i n bs : zget l i n = Some bs -> length bs = n.
Proof.
  unfold zget, bget. destruct (Nat.eqb_spec n 0); [intros [= <-]; auto|]. destruct (i <? 0); [discriminate|].
  destruct (Nat.leb_spec (Z.to_nat i + n) (length l)); [|discriminate]. intros [= <-]. now apply sub_length.
Qed.
Lemma vget_length v k n d bs : vget v k n d = Some bs -> length bs = n.
Proof. destruct v; cbn [vget]; apply zget_length. Qed.
(** For every table and request: a read changes no memory, writes only to the bytes 5 to 21 of the response buffer, and the response is a telegram of at most 23 bytes. It either shows a property
    the object has (count and start as asked for, count*size bytes, at most 10) or says "no elements" *)
Theorem C35_never_exceeds L static tabs t n sb d sb' d' : telegram t -> is_read t -> length sb = 23%nat -> processPropertyApci L static tabs t n sb d = Some (sb', d') ->
  d' = d /\ length sb' = 23%nat /\ telegram_bytes sb' <= 23 /\ (forall j, (j < 5 \/ 22 <= j)%nat -> rd sb' j = rd sb j) /\
  ((value_answer sb' = Some (f_object t, f_id t, 0, rd t 11, []) /\ forall j, (12 <= j)%nat -> rd sb' j = rd sb j) \/
   exists tab p data, nth_error tabs (Z.to_nat (f_object t)) = Some tab /\ In p tab /\ pid p = f_id t /\ value_answer sb' = Some (f_object t, f_id t, f_count t, f_start t, data) /\
     Z.of_nat (length data) = f_count t * size_of p /\ f_count t * size_of p <= 10).
Proof.
  intros Ht HR Lb. rewrite process_read by auto. unfold propertyValueRead. pose proof (answer_refused t sb Lb (proj2 Ht)) as NO. cbv zeta in NO.
  assert (OB : is_byte (f_object t)) by (apply rd_byte, Ht).
  destruct (propertyDef tabs (f_object t) (f_id t)) as [[p|]|] eqn:EP; [| |discriminate].
  2:{ intros [= <- <-]. destruct NO as (A & B & C & D). split; auto. split; auto. split; auto. split; [intros j Hj; apply D; lia|]. left. split; auto. }
  destruct (valuePointer p) as [v|]; [|discriminate]. rewrite size_field. cbv zeta. destruct (Z.ltb_spec 10 (f_count t * size_of p)) as [H10|H10].
  { intros [= <- <-]. destruct NO as (A & B & C & D). split; auto. split; auto. split; auto. split; [intros j Hj; apply D; lia|]. left. split; auto. }
  destruct (vget v _ _ d) as [bs|] eqn:EV; [|discriminate]. apply vget_length in EV.
  assert (C0 : 0 <= f_count t) by (pose proof (rd_byte t 10 (proj2 Ht)) as X; red in X; unfold f_count; apply Z.div_pos; lia). pose proof (size_range p) as SR.
  set (data := if ptype p <? PDT_CHAR_BLOCK then rev bs else bs). assert (LD : length data = Z.to_nat (f_count t * size_of p)) by (unfold data; destruct (ptype p <? _); rewrite ?rev_length; auto).
  rewrite bput_ok by (rewrite header_length; lia). intros [= <- <-]. destruct (answer_with t sb data Lb (proj2 Ht) ltac:(lia)) as (A & B & C & D). cbv zeta in A, B, C, D.
  rewrite LD in A, B, C, D. rewrite Z2Nat.id in A, B, C, D by nia.
  split; auto. split; [exact B|]. split; [exact C|]. split; [intros j Hj; apply D; lia|]. right.
  unfold propertyDef in EP. destruct (NUM_PROP_OBJECTS <=? f_object t); [discriminate|].
  destruct (nth_error tabs (Z.to_nat (f_object t))) as [tab|] eqn:ET.
  - rewrite (nth_error_nth _ _ _ ET) in EP. exists tab, p, data. split; auto. split; [now apply (find_in _ _ _ EP)|]. split.
    { clear - EP. induction tab as [|q l IH]; cbn [findProperty] in EP; [discriminate|]. destruct (pid q =? 0); [discriminate|]. destruct (Z.eqb_spec (pid q) (f_id t)) as [E|E]; [injection EP as <-; auto|auto]. }
    split; [exact A|]. split; [|auto]. rewrite LD. rewrite Z2Nat.id by nia. reflexivity.
  - rewrite (nth_overflow tabs) in EP by (now apply nth_error_None). discriminate.
Qed.
Print Assumptions C35_never_exceeds.
(** Partial: for elements that exist, start indices below 256, and at most one element of a numeric type. The elements asked for are shown as they are stored *)
Theorem C35_value_read_partial L static tabs t n sb d p l : telegram t -> is_read t -> length sb = 23%nat -> has_property tabs (f_object t) p -> f_id t = pid p -> storage p d = Some l ->
  fits p l (f_start t) (f_count t) -> f_count t * size_of p <= 10 -> f_start t < 256 -> f_count t <= 1 \/ numeric p = false ->
  exists sb', processPropertyApci L static tabs t n sb d = Some (sb', d) /\
    value_answer sb' = Some (f_object t, f_id t, f_count t, f_start t, elements p l (f_start t) (f_count t)).
Proof.
  intros Ht HR Lb HP Hi S F L10 S256 HN. rewrite process_read by auto.
  assert (M : rd t 10 mod 16 = 0). { unfold f_start in S256. pose proof (Z.mod_pos_bound (rd t 10) 16 ltac:(lia)). pose proof (rd_byte t 11 (proj2 Ht)) as X. red in X. lia. }
  rewrite start_field by (auto; apply Ht). rewrite Hi. rewrite (read_value tabs (f_object t) p d l) by (auto; now rewrite header_length).
  eexists. split; [reflexivity|]. pose proof (shown_length p l (f_start t) (f_count t) (proj1 (proj2 F)) (fits_nat _ _ _ _ F)) as SL. pose proof (size_range p). destruct F as (F1 & F2 & F3).
  destruct (answer_with t sb (shown p l (f_start t) (f_count t)) Lb (proj2 Ht)) as (A & _); [rewrite SL; lia|]. cbv zeta in A |- *. rewrite SL in A. rewrite Z2Nat.id in A by nia.
  rewrite A, Hi. rewrite shown_elements by auto. reflexivity.
Qed.
Print Assumptions C35_value_read_partial.
(** On a BCU 2 every property (but the association table's property 23, see below) is shown with the bytes kept at its place *)
Theorem C35_bcu2_values L static d t k sb o id mem v n msb : bcu2_device L d -> In (o, id, mem, v, n, msb) bcu2_values -> telegram t -> is_read t -> f_object t = o -> f_id t = id ->
  f_count t = 1 -> f_start t = 1 -> length sb = 23%nat ->
  exists sb', processPropertyApci L static propertiesTab t k sb d = Some (sb', d) /\ value_answer sb' = Some (o, id, 1, 1, bcu2_value mem v n msb d).
Proof.
  intros (HL & HD & He & Hr) I Ht HR Ho Hi Hc Hs Lb. pose proof (d_ee _ _ HD) as (LE & _). pose proof (d_ram _ _ HD) as (LR & _).
  destruct (bcu2_read L static d t sb o id mem v n msb ltac:(lia) ltac:(lia) I Ht HR Ho Hi Hc Hs Lb) as (sb' & A & B). exists sb'. auto.
Qed.
Print Assumptions C35_bcu2_values.
Definition counting : dev := mkDev None (map (fun k => k mod 256) (range_Z (Z.to_nat 1024))) false (map (fun k => k mod 256) (range_Z (Z.to_nat 0x103))) 0x2e.
Lemma range_bytes n : Forall is_byte (map (fun k => k mod 256) (range_Z n)).
Proof. apply Forall_forall. intros x H. apply in_map_iff in H as (k & <- & _). apply Z.mod_pos_bound. lia. Qed.
Lemma counting_ok : bcu2_device bcu2 counting.
Proof.
  split; [apply layouts_ok|]. split; [|split; vm_compute; discriminate]. constructor.
  - split; [vm_compute; reflexivity|]. apply range_bytes.
  - split; [vm_compute; reflexivity|]. apply range_bytes.
  - red. cbn. lia.
  - discriminate.
Qed.
Definition rread (o id count start : Z) : list Z := preq 0x3d5 o id count start [].
Example C35_hypotheses : let t := rread 0 11 1 1 in bcu2_device bcu2 counting /\ telegram t /\ is_read t /\ f_object t = 0 /\ f_id t = 11 /\ f_count t = 1 /\ f_start t = 1 /\ length empty23 = 23%nat /\
  In (0, 11, 1, 0x38a, 6%nat, false) bcu2_values.
Proof. split; [apply counting_ok|]. split; [telegram_is_ok|]. repeat (split; [reflexivity|]). cbn; tauto. Qed.
(** serial number, a table reference (high byte first), the firmware revision and an unknown property *)
Example C35_example : map (fun t => option_map (fun x => value_answer (fst x)) (processPropertyApci bcu2 0 propertiesTab t 13 empty23 counting)) [rread 0 11 1 1; rread 1 7 1 1; rread 0 9 1 1; rread 1 99 1 1] =
  [Some (Some (0, 11, 1, 1, [0x8a; 0x8b; 0x8c; 0x8d; 0x8e; 0x8f])); Some (Some (1, 7, 1, 1, [0x79; 0x78])); Some (Some (0, 9, 1, 1, [0x10])); Some (Some (1, 99, 0, 1, []))].
Proof. vm_compute. reflexivity. Qed.
(** the hypotheses of C35_value_read_partial: two elements of a generic type *)
Definition service_control : pdef := mkP 8 0xa4 0x4386.
Definition pei_type : pdef := mkP 16 0x22 0x63.
Definition manufacturer : pdef := mkP 12 0x32 0x4003.
Example C35_read_hypotheses : let t := rread 0 12 3 2 in telegram t /\ is_read t /\ has_property propertiesTab (f_object t) manufacturer /\ f_id t = pid manufacturer /\
  storage manufacturer counting = Some (skipn 3 (eeData counting)) /\ fits manufacturer (skipn 3 (eeData counting)) (f_start t) (f_count t) /\ f_count t * size_of manufacturer <= 10 /\ f_start t < 256 /\
  (f_count t <= 1 \/ numeric manufacturer = false) /\ elements manufacturer (skipn 3 (eeData counting)) (f_start t) (f_count t) = [5; 6; 7; 8; 9; 10].
Proof.
  split; [telegram_is_ok|]. split; [reflexivity|]. split.
  { split; [vm_compute; split; [discriminate|reflexivity]|]. split; [vm_compute; split; [discriminate|reflexivity]|]. split; [vm_compute; split; [discriminate|reflexivity]|]. split; [discriminate|].
    eexists [_; _; _; _; _; _], _. split; [reflexivity|]. repeat (apply Forall_cons; [split; discriminate|]). apply Forall_nil. }
  split; [reflexivity|]. split; [reflexivity|]. split; [split; [vm_compute; discriminate|split; vm_compute; discriminate]|]. split; [vm_compute; discriminate|]. split; [reflexivity|].
  split; [right; reflexivity|vm_compute; reflexivity].
Qed.
(** Refuted as stated: several elements of a numeric type come in reversed order (the words 0x8786 and 0x8988 come as 0x8988, 0x8786) *)
Theorem C35_reversed_elements_refuted : exists t p l, telegram t /\ is_read t /\ has_property propertiesTab (f_object t) p /\ f_id t = pid p /\ bcu2_device bcu2 counting /\ storage p counting = Some l /\
  fits p l (f_start t) (f_count t) /\ f_count t * size_of p <= 10 /\ f_start t < 256 /\
  option_map (fun x => value_answer (fst x)) (processPropertyApci bcu2 0 propertiesTab t 13 empty23 counting) = Some (Some (f_object t, f_id t, f_count t, f_start t, [0x89; 0x88; 0x87; 0x86])) /\
  elements p l (f_start t) (f_count t) = [0x87; 0x86; 0x89; 0x88].
Proof.
  exists (rread 0 8 2 1), service_control, (skipn (Z.to_nat 0x386) (eeData counting)). split; [telegram_is_ok|]. split; [reflexivity|]. split.
  { split; [vm_compute; split; [discriminate|reflexivity]|]. split; [vm_compute; split; [discriminate|reflexivity]|]. split; [vm_compute; split; [discriminate|reflexivity]|]. split; [discriminate|].
    eexists [_; _; _], _. split; [reflexivity|]. repeat (apply Forall_cons; [split; discriminate|]). apply Forall_nil. }
  split; [reflexivity|]. split; [apply counting_ok|]. split; [reflexivity|]. split; [split; [vm_compute; discriminate|split; vm_compute; discriminate]|]. split; [vm_compute; discriminate|]. split; [reflexivity|].
  split; vm_compute; reflexivity.
Qed.
Print Assumptions C35_reversed_elements_refuted.
(** Refuted as stated: the start index is not checked, so the answer may show bytes of something else (start 0 of the hardware type is the serial number), its upper four bits are shifted to the
    wrong place (start 0x100 is answered with element 0x10), and reading property 23 of the association table or far beyond the EEPROM leaves the memory *)
Theorem C35_start_refuted : bcu2_device bcu2 counting /\
  Forall (fun t => telegram t /\ is_read t) [rread 0 78 1 0; rread 0 17 1 0x100; rread 2 23 1 1; rread 1 27 1 255] /\
  map (fun t => option_map (fun x => value_answer (fst x)) (processPropertyApci bcu2 0 propertiesTab t 13 empty23 counting)) [rread 0 78 1 0; rread 0 17 1 0x100; rread 2 23 1 1; rread 1 27 1 255] =
    [Some (Some (0, 78, 1, 0, [0x8a; 0x8b; 0x8c; 0x8d; 0x8e; 0x8f])); Some (Some (0, 17, 1, 0x100, [0x1b])); None; None].
Proof.
  split; [apply counting_ok|]. split; [repeat (apply Forall_cons; [split; [telegram_is_ok|reflexivity]|]); apply Forall_nil|]. vm_compute. reflexivity.
Qed.
Print Assumptions C35_start_refuted.

(** ** C69 *)
(** Partial: all value writes but load-control events. If a property request changes the EEPROM, the EEPROM is marked for saving *)
Theorem C69_changes_are_saved_partial L static tabs t n sb d sb' d' : telegram t -> length sb = 23%nat ->
  (forall p, propertyDef tabs (f_object t) (f_id t) = Some (Some p) -> type_of p <> 0) ->
  processPropertyApci L static tabs t n sb d = Some (sb', d') -> eeData d' <> eeData d -> eeModified d' = true.
Proof.
  intros Ht Lb NC H NE. destruct (command_cases _ _ _ _ _ _ _ _ Ht H) as [C|[C|C]].
  - rewrite process_read in H by auto. destruct (propertyValueRead _ _ _ _ _ _ _) as [(f & s)|]; [|discriminate]. injection H as _ <-. contradiction.
  - rewrite process_write in H by auto. unfold propertyValueWrite in H. destruct (propertyDef tabs (f_object t) (f_id t)) as [[p|]|] eqn:EP; [| |discriminate].
    2:{ injection H as _ <-. contradiction. }
    destruct (Z.land (control p) PC_WRITABLE =? 0); [injection H as _ <-; contradiction|]. destruct (valuePointer p) as [v|] eqn:EV; [|discriminate].
    rewrite type_field in H. unfold PDT_CONTROL in H. rewrite (proj2 (Z.eqb_neq _ _) (NC p eq_refl)) in H. cbv zeta in H.
    destruct (bget t 12 _) as [bs|]; [|discriminate]. destruct (vput v _ (rev bs) d) as [d1|] eqn:EW; [|discriminate].
    destruct (vget v _ _ d1) as [bs1|]; [|discriminate]. destruct (bput _ 12 _); [|discriminate]. injection H as _ <-.
    assert (IE : isEepromPointer p = true).
    { destruct v as [o|o|w]; cbn [vput] in EW.
      - exfalso. apply NE. destruct (zput _ _ _); [|discriminate]. injection EW as <-. destruct (isEepromPointer p); reflexivity.
      - apply eeprom_flag. unfold valuePointer in EV. rewrite pointer_field, negb_involutive, mask_field in EV. unfold in_eeprom. destruct (Z.testbit (control p) 5); [|discriminate]. split; auto.
        unfold PPT_USER_RAM, PPT_USER_EEPROM in EV. cbv zeta in EV. pose proof (Z.mod_pos_bound (valAddr p / 4096) 8 ltac:(lia)). destruct (Z.eqb_spec (4096 * ((valAddr p / 4096) mod 8)) 0); [discriminate|].
        destruct (Z.eqb_spec (4096 * ((valAddr p / 4096) mod 8)) 0x4000); [lia|discriminate].
      - exfalso. apply NE. destruct (Nat.eqb _ 0); [|discriminate]. injection EW as <-. destruct (isEepromPointer p); reflexivity. }
    rewrite IE. reflexivity.
  - rewrite (describe_same _ _ _ _ _ _ _ _ _ Ht C H) in NE. contradiction.
Qed.
Print Assumptions C69_changes_are_saved_partial.
Definition wwrite (o id count start : Z) (data : list Z) : list Z := preq 0x3d7 o id count start data.
Example C69_hypotheses : let t := wwrite 0 8 1 1 [0x12; 0x34] in telegram t /\ (forall p, propertyDef propertiesTab (f_object t) (f_id t) = Some (Some p) -> type_of p <> 0) /\
  option_map (fun x => (rd (eeData (snd x)) (Z.to_nat 0x386), rd (eeData (snd x)) (Z.to_nat 0x387), eeModified (snd x))) (processPropertyApci bcu2 0 propertiesTab t 15 empty23 counting) = Some (0x34, 0x12, true).
Proof. split; [telegram_is_ok|]. split; [intros p [= <-]; discriminate|]. vm_compute. reflexivity. Qed.
(** Refuted as stated: a load-control event changes the EEPROM (load state, table addresses) without marking it *)
Theorem C69_load_state_refuted : bcu2_device bcu2 counting /\ (let '(t, n, sb) := event 1 [3; 2; 0x01; 0x16] in request_fits (t, n, sb) /\ eeModified counting = false /\
  option_map (fun x => (load_state (snd x) 1, rd (eeData (snd x)) (Z.to_nat 0x378), rd (eeData (snd x)) (Z.to_nat 0x379), eeModified (snd x))) (processPropertyApci bcu2 0 propertiesTab t n sb counting) =
    Some (2, 0x16, 0x01, false)).
Proof. split; [apply counting_ok|]. cbn [event]. split; [split; [telegram_is_ok|split; [vm_compute; split; discriminate|telegram_is_ok]]|]. split; [reflexivity|]. vm_compute. reflexivity. Qed.
Print Assumptions C69_load_state_refuted.

(** ** C70 *)
Lemma access_byte c : is_byte c -> Z.land c (Z.lor PC_TYPE_MASK PC_WRITABLE) mod 64 = c mod 32 /\ Z.testbit (Z.land c (Z.lor PC_TYPE_MASK PC_WRITABLE)) 7 = Z.testbit c 7.
Proof.
  intros B. assert (K : forallb (fun c => (Z.land c (Z.lor PC_TYPE_MASK PC_WRITABLE) mod 64 =? c mod 32) && eqb (Z.testbit (Z.land c (Z.lor PC_TYPE_MASK PC_WRITABLE)) 7) (Z.testbit c 7)) bytes256 = true) by (vm_compute; reflexivity).
  pose proof (byte_forall _ K c B) as H. cbn beta in H. apply andb_true_iff in H as (H1 & H2). apply eqb_prop in H2. split; [lia|auto].
Qed.
(** the number of elements a description shows: one, or for arrays the first byte of the property *)
Definition element_count (p : pdef) (l : list Z) : Z := if Z.testbit (control p) 5 && Z.testbit (control p) 6 then rd l 0 else 1.
Lemma array_field p : (Z.land (control p) PC_ARRAY_POINTER =? PC_ARRAY_POINTER) = Z.testbit (control p) 5 && Z.testbit (control p) 6.
Proof.
  unfold PC_ARRAY_POINTER. assert (B : forall k, Z.testbit (Z.land (control p) 0x60) k = Z.testbit (control p) k && Z.testbit 0x60 k) by (intros; apply Z.land_spec).
  destruct (Z.eqb_spec (Z.land (control p) 0x60) 0x60) as [E|E].
  - pose proof (B 5) as B5. pose proof (B 6) as B6. rewrite E in B5, B6. change (Z.testbit 0x60 5) with true in *. change (Z.testbit 0x60 6) with true in *. rewrite andb_true_r in B5, B6. now rewrite <- B5, <- B6.
  - destruct (Z.testbit (control p) 5) eqn:E5, (Z.testbit (control p) 6) eqn:E6; auto. exfalso. apply E. apply Z.bits_inj'. intros k Hk. rewrite B.
    destruct (Z.eq_dec k 5) as [-> |]; [now rewrite E5|]. destruct (Z.eq_dec k 6) as [-> |]; [now rewrite E6|].
    assert (Z.testbit 0x60 k = false) as ->; [|apply andb_false_r]. destruct (Z_lt_dec k 7); [|apply Z.bits_above_log2; [lia|cbn; lia]].
    assert (Q : k = 0 \/ k = 1 \/ k = 2 \/ k = 3 \/ k = 4) by lia. destruct Q as [-> |[-> |[-> |[-> | ->]]]]; reflexivity.
Qed.
(** A description read by id, or by index in the object's table, shows the property's id, type and write access *)
Theorem C70_description L static tabs t n sb d p l : telegram t -> is_describe t -> length sb = 23%nat -> Forall is_byte l -> (0 < length l)%nat -> is_byte (pid p) ->
  is_byte (control p) -> is_u16 (valAddr p) -> pid p <> 0 -> storage p d = Some l ->
  (has_property tabs (f_object t) p /\ f_id t = pid p) \/ (f_id t = 0 /\ exists tab, nth_error tabs (Z.to_nat (f_object t)) = Some tab /\ nth_error tab (Z.to_nat (rd t 10)) = Some p) ->
  exists sb', processPropertyApci L static tabs t n sb d = Some (sb', d) /\
    description sb' = Some (f_object t, pid p, rd t 10, type_of p, writable p, element_count p l).
Proof.
  intros (Lt & Ft) C Lb Fl Ln Bp Hc Hv NZ S HP. unfold processPropertyApci. rewrite (command_is t 0x3d8 Ft C) by lia. cbv zeta.
  change ((0x3d8 =? APCI_PROPERTY_VALUE_READ_PDU) || (0x3d8 =? APCI_PROPERTY_VALUE_WRITE_PDU)) with false. change (0x3d8 =? APCI_PROPERTY_DESCRIPTION_READ_PDU) with true. cbv iota.
  fold (f_object t) (f_id t). unfold propertyDescRead. cbv zeta.
  assert (DEF : (if f_id t =? 0 then match nth_error tabs (Z.to_nat (f_object t)) with Some tab => match nth_error tab (Z.to_nat (rd t 10)) with Some p => Some (Some p) | None => None end | None => None end
                 else propertyDef tabs (f_object t) (f_id t)) = Some (Some p)).
  { destruct HP as [(HP & Hi)|(Hi & tab & H1 & H2)].
    - rewrite Hi, (proj2 (Z.eqb_neq _ _) NZ). now apply def_has.
    - rewrite Hi. change (0 =? 0) with true. cbv iota. now rewrite H1, H2. }
  rewrite DEF. rewrite (proj2 (Z.eqb_neq _ _) NZ). rewrite array_field.
  destruct (pointer_has p d l Hc Hv S) as (v & PV & V & _).
  assert (NE : (if Z.testbit (control p) 5 && Z.testbit (control p) 6 then match valuePointer p with Some v0 => option_map (fun l0 => rd l0 0) (vget v0 0 1 d) | None => None end else Some 1) = Some (element_count p l)).
  { unfold element_count. destruct (_ && _); auto. rewrite PV, V by (change (Z.to_nat 0) with 0%nat; lia). destruct l; [cbn in Ln; lia|]. reflexivity. }
  rewrite NE. cbn [option_map snd]. eexists. split; [reflexivity|].
  assert (EC : is_byte (element_count p l)). { unfold element_count. destruct (_ && _); [now apply rd_byte|red; lia]. }
  pose proof (access_byte (control p) Hc) as (A1 & A2).
  set (e := element_count p l) in *. set (c := Z.land (control p) _) in *. set (x := if negb (Z.land (control p) PC_WRITABLE =? 0) then 0xf1 else 0x50).
  assert (G : forall (l : list Z) i x k, length l = 23%nat -> (i < 23)%nat -> rd (wr l i x) k = if Nat.eqb i k then x else rd l k).
  { intros l0 i x0 k Hl Hi. destruct (Nat.eqb_spec i k) as [-> |N]; [apply rd_wr_same; lia|now apply rd_wr_other]. }
  unfold description, f_command, setApciCommand. cbv zeta.
  repeat (rewrite G by (rewrite ?wr_length; auto; lia)). cbn [Nat.eqb].
  change (0x68 =? 0x68) with true. change (256 * (HIGH_BYTE APCI_PROPERTY_DESCRIPTION_RESPONSE_PDU mod 4) + Z.lor (lowByte APCI_PROPERTY_DESCRIPTION_RESPONSE_PDU) 0 =? 0x3d9) with true. cbn [andb].
  rewrite A1, A2. rewrite u8_id by (apply rd_byte; auto). rewrite (u8_id e) by auto. red in EC.
  assert (Z.land (Z.shiftr e 8) 15 = 0) as ->. { rewrite Z.shiftr_div_pow2 by lia. change (2 ^ 8) with 256. rewrite Z.div_small by lia. reflexivity. }
  reflexivity.
Qed.
Print Assumptions C70_description.
(** and the write access is the one that is enforced: a write to a property that is not writable is refused and changes nothing, a write to a writable one that is answered is not refused *)
Theorem C70_access L static tabs t n sb d p : telegram t -> is_write t -> length sb = 23%nat -> has_property tabs (f_object t) p -> f_id t = pid p ->
  (writable p = false ->
     exists sb', processPropertyApci L static tabs t n sb d = Some (sb', d) /\ value_answer sb' = Some (f_object t, f_id t, 0, rd t 11, [])) /\
  (writable p = true -> forall sb' d', processPropertyApci L static tabs t n sb d = Some (sb', d') -> f_count sb' = f_count t).
Proof.
  intros Ht HW Lb HP Hi. rewrite process_write by auto. unfold propertyValueWrite. rewrite Hi, (def_has _ _ _ HP). rewrite writable_field. split.
  - intros W. rewrite W. cbn [negb]. eexists. split; [reflexivity|]. rewrite <- Hi. apply (answer_refused t sb Lb (proj2 Ht)).
  - intros W sb' d'. rewrite W. cbn [negb]. destruct (valuePointer p) as [v|]; [|discriminate]. destruct (ptype p =? PDT_CONTROL).
    + destruct (loadProperty _ _ _ _ _ _) as (s & d1). cbv zeta. intros [= <- <-]. unfold f_count. rewrite !rd_wr_other by lia. now rewrite header_rd.
    + cbv zeta. destruct (bget t 12 _); [|discriminate]. destruct (vput v _ _ d) as [d1|]; [|discriminate]. destruct (vget v _ _ d1) as [b1|]; [|discriminate].
      destruct (bput (header t sb) 12 (rev b1)) as [s1|] eqn:EB; [|discriminate]. intros [= <- <-]. unfold f_count. rewrite rd_wr_other by lia.
      apply bput_frame in EB as (_ & EB). rewrite EB by lia. now rewrite header_rd.
Qed.
Print Assumptions C70_access.
Definition describe (o id index : Z) : list Z := [0xb0; 0x11; 0x01; 0x11; 0x05; 0x64; 3; 0xd8; o; id; index] ++ repeat 0 12.
(** hypotheses: the service control property, by id and by index; its description, and that of the (read-only) serial number *)
Example C70_hypotheses : telegram (describe 0 8 0) /\ is_describe (describe 0 8 0) /\ telegram (describe 0 0 3) /\ has_property propertiesTab 0 service_control /\
  storage service_control counting = Some (skipn (Z.to_nat 0x386) (eeData counting)) /\ (0 < length (skipn (Z.to_nat 0x386) (eeData counting)))%nat /\
  nth_error deviceObjectProps (Z.to_nat (rd (describe 0 0 3) 10)) = Some service_control /\ writable service_control = true /\ writable (mkP 11 0x36 (eePtr serialOffset)) = false.
Proof.
  split; [telegram_is_ok|]. split; [reflexivity|]. split; [telegram_is_ok|]. split.
  { split; [vm_compute; split; [discriminate|reflexivity]|]. split; [vm_compute; split; [discriminate|reflexivity]|]. split; [vm_compute; split; [discriminate|reflexivity]|]. split; [discriminate|].
    eexists [_; _; _], _. split; [reflexivity|]. repeat (apply Forall_cons; [split; discriminate|]). apply Forall_nil. }
  split; [reflexivity|]. split; [vm_compute; lia|]. repeat split.
Qed.
Example C70_example : map (fun t => option_map (fun x => description (fst x)) (processPropertyApci bcu2 0 propertiesTab t 12 empty23 counting)) [describe 0 8 0; describe 0 0 3; describe 0 11 0; describe 1 7 0] =
    [Some (Some (0, 8, 0, 4, true, 1)); Some (Some (0, 8, 3, 4, true, 1)); Some (Some (0, 11, 0, 0x16, false, 1)); Some (Some (1, 7, 0, 4, false, 0x78))] /\
  option_map (fun x => value_answer (fst x)) (processPropertyApci bcu2 0 propertiesTab (wwrite 0 11 1 1 [1; 2; 3; 4; 5; 6]) 19 empty23 counting) = Some (Some (0, 11, 0, 1, [])).
Proof. vm_compute. split; reflexivity. Qed.
(** Refuted for unknown objects and indices: by index, an object above 5 or an index behind the table is read from outside the tables *)
Theorem C70_outside_refuted : Forall (fun t => telegram t /\ is_describe t /\ processPropertyApci bcu2 0 propertiesTab t 12 empty23 counting = None) [describe 6 0 0; describe 1 0 5].
Proof. repeat (apply Forall_cons; [split; [telegram_is_ok|split; vm_compute; reflexivity]|]). apply Forall_nil. Qed.
Print Assumptions C70_outside_refuted.

(** ** C71 *)
(** An additional load control for a table or the application is followed by reads that show what it allocated *)
Theorem C71_allocations_readable L static t n sb d r k sb2 o' id' bs : bcu2_device L d -> is_u16 static -> telegram t -> length sb = 23%nat -> is_write t -> f_id t = 5 -> 0 <= f_object t < 6 ->
  event_well_sized (t, n, sb) -> event_control (t, n, sb) = 3 -> In (o', id', bs) (allocated static (f_object t) (t, n, sb)) ->
  telegram r -> is_read r -> f_object r = o' -> f_id r = id' -> f_count r = 1 -> f_start r = 1 -> length sb2 = 23%nat ->
  exists sb' d' sb2', processPropertyApci L static propertiesTab t n sb d = Some (sb', d') /\
    processPropertyApci L static propertiesTab r k sb2 d' = Some (sb2', d') /\ value_answer sb2' = Some (o', id', 1, 1, bs).
Proof.
  intros HD HS Ht Lb HW Hi Ho WS C3 I Hr HR Ro Ri Rc Rs Lb2. pose proof (device_half _ _ HD) as HH.
  destruct (load_event L static t n sb d HH Ht Lb HW Hi Ho) as (sb' & d' & s & E & _ & _ & _ & O & _ & _ & BS & ED).
  destruct (allocated_bytes L static (f_object t) t n sb d s o' id' bs HH (proj2 Ht) HS Ho BS WS C3 I) as (v & m & msb & IV & EV). rewrite <- ED in EV.
  destruct HD as (HL & HD & He & Hram). pose proof (d_ee _ _ HD) as (LE & _). pose proof (d_ram _ _ HD) as (LR & _).
  destruct (bcu2_read L static d' r sb2 o' id' 1 v m msb) as (sb2' & A & B); auto.
  - rewrite (o_len _ _ _ O). lia.
  - rewrite (o_ram _ _ _ O). lia.
  - exists sb', d', sb2'. split; auto. split; auto. now rewrite B, EV.
Qed.
Print Assumptions C71_allocations_readable.
Example C71_hypotheses : let '(t, n, sb) := event 3 [3; 5; 9; 9; 0x40; 0x12; 0x50; 0x34; 0x60; 0x56] in telegram t /\ is_write t /\ f_id t = 5 /\ f_object t = 3 /\ event_well_sized (t, n, sb) /\
  event_control (t, n, sb) = 3 /\ allocated 0 3 (t, n, sb) = [(3, 7, [0x40; 0x12]); (5, 7, [0x50; 0x34])] /\
  (let '(t1, n1, sb1) := event 3 [3; 2; 0; 0; 0; 0; 0x4c; 0x20; 0x60; 0x12] in allocated 0 3 (t1, n1, sb1) = [(3, 13, [0; 0x4c; 0x20; 0x60; 0x12])]).
Proof. cbn [event]. split; [telegram_is_ok|]. split; [reflexivity|]. split; [reflexivity|]. split; [reflexivity|]. split; [left; reflexivity|]. split; [reflexivity|]. split; vm_compute; reflexivity. Qed.

(** ** C72 *)
(** Partial: numeric types (or a single byte), elements that exist, start below 256. A value written is confirmed, stored in exactly its place, marked for saving if that is the EEPROM, and read back *)
Theorem C72_written_value_partial L static tabs t n sb d p l r k sb2 : telegram t -> is_write t -> length sb = 23%nat -> has_property tabs (f_object t) p -> f_id t = pid p -> writable p = true -> type_of p <> 0 ->
  in_ram p \/ in_eeprom p -> storage p d = Some l -> fits p l (f_start t) (f_count t) -> f_count t * size_of p <= 10 -> f_start t < 256 -> numeric p = true \/ f_count t * size_of p <= 1 ->
  telegram r -> is_read r -> f_object r = f_object t -> f_id r = f_id t -> f_count r = f_count t -> f_start r = f_start t -> length sb2 = 23%nat ->
  let data := firstn (Z.to_nat (f_count t * size_of p)) (skipn 12 t) in
  exists sb' d' sb2', processPropertyApci L static tabs t n sb d = Some (sb', d') /\ written p (f_start t) (rev data) d d' /\
    value_answer sb' = Some (f_object t, f_id t, f_count t, f_start t, data) /\
    processPropertyApci L static tabs r k sb2 d' = Some (sb2', d') /\ value_answer sb2' = Some (f_object t, f_id t, f_count t, f_start t, data).
Proof.
  intros Ht HW Lb HP Hi W T0 HM S F L10 S256 HN Hr HR Ro Ri Rc Rs Lb2 data.
  assert (M : forall x, telegram x -> f_start x < 256 -> rd x 10 mod 16 = 0). { intros x Hx X. unfold f_start in X. pose proof (Z.mod_pos_bound (rd x 10) 16 ltac:(lia)). pose proof (rd_byte x 11 (proj2 Hx)) as Y. red in Y. lia. }
  pose proof (size_range p) as SR. pose proof (fits_nat _ _ _ _ F) as FN. pose proof HP as (_ & Hc & Hv & _).
  assert (LD : length data = Z.to_nat (f_count t * size_of p)) by (unfold data; apply sub_length; rewrite (proj1 Ht); lia).
  destruct (write_def L static tabs t n (f_object t) (pid p) p d l (f_count t) (f_start t) (header t sb)) as (d' & E & WR & S'); auto.
  { now apply def_has. } { now rewrite header_length. } { apply Ht. }
  fold data in E, WR, S'. rewrite process_write by auto. rewrite start_field by (auto; apply Ht). rewrite Hi, E.
  destruct (answer_with t sb data Lb (proj2 Ht) ltac:(lia)) as (A & _). cbv zeta in A. rewrite LD in A. destruct F as (F1 & F2 & F3). rewrite Z2Nat.id in A by nia. rewrite Hi in A.
  assert (F' : fits p (wr_range l (Z.to_nat ((f_start t - 1) * size_of p)) (rev data)) (f_start t) (f_count t)) by (split; [auto|split; [auto|rewrite wr_range_length; auto]]).
  eexists _, d', _. split; [reflexivity|]. split; [auto|]. split; [exact A|].
  rewrite process_read by auto. rewrite start_field by (auto; try apply Hr; apply M; auto; lia). rewrite Ro, Ri, Rc, Rs, Hi.
  rewrite (read_value tabs (f_object t) p d' (wr_range l (Z.to_nat ((f_start t - 1) * size_of p)) (rev data)) (f_count t) (f_start t)) by (auto; now rewrite header_length).
  split; [reflexivity|].
  assert (SH : shown p (wr_range l (Z.to_nat ((f_start t - 1) * size_of p)) (rev data)) (f_start t) (f_count t) = data).
  { unfold shown. cbv zeta. rewrite <- LD. set (q := Z.to_nat ((f_start t - 1) * size_of p)) in *.
    assert (X : firstn (length data) (skipn q (wr_range l q (rev data))) = rev data).
    { apply list_ext with (d := 0). { rewrite sub_length by (rewrite wr_range_length; lia). now rewrite rev_length. }
      intros i Hi'. rewrite sub_length in Hi' by (rewrite wr_range_length; lia). change (rd (firstn (length data) (skipn q (wr_range l q (rev data)))) i = rd (rev data) i).
      rewrite rd_sub by auto. rewrite rd_wr_range by (rewrite rev_length; lia). rewrite rev_length. rewrite (proj2 (Nat.leb_le _ _)), (proj2 (Nat.ltb_lt _ _)) by lia. cbn [andb]. f_equal. lia. }
    rewrite X. destruct (numeric p) eqn:N; [apply rev_involutive|]. destruct HN as [HN|HN]; [discriminate|].
    destruct data as [|x [|y data']]; [reflexivity|reflexivity|]. cbn [length] in LD. lia. }
  destruct (answer_with r sb2 data Lb2 (proj2 Hr) ltac:(lia)) as (B & _). cbv zeta in B |- *. rewrite SH. rewrite LD, Z2Nat.id in B by nia. rewrite B, Ro, Ri, Rc, Rs, Hi. reflexivity.
Qed.
Print Assumptions C72_written_value_partial.
Example C72_hypotheses : let t := wwrite 0 8 1 1 [0x12; 0x34] in telegram t /\ is_write t /\ has_property propertiesTab (f_object t) service_control /\ f_id t = pid service_control /\ writable service_control = true /\
  type_of service_control <> 0 /\ in_eeprom service_control /\ storage service_control counting = Some (skipn (Z.to_nat 0x386) (eeData counting)) /\
  fits service_control (skipn (Z.to_nat 0x386) (eeData counting)) (f_start t) (f_count t) /\ f_count t * size_of service_control = 2 /\ f_start t = 1 /\ numeric service_control = true.
Proof.
  split; [telegram_is_ok|]. split; [reflexivity|]. split.
  { split; [vm_compute; split; [discriminate|reflexivity]|]. split; [vm_compute; split; [discriminate|reflexivity]|]. split; [vm_compute; split; [discriminate|reflexivity]|]. split; [discriminate|].
    eexists [_; _; _], _. split; [reflexivity|]. repeat (apply Forall_cons; [split; discriminate|]). apply Forall_nil. }
  split; [reflexivity|]. split; [reflexivity|]. split; [discriminate|]. split; [split; reflexivity|]. split; [reflexivity|].
  split; [split; [vm_compute; discriminate|split; vm_compute; discriminate]|]. repeat split.
Qed.
(** Refuted as stated: a value of a generic type is confirmed as written but stored, and read back, with its bytes reversed (here the hardware type) *)
Theorem C72_generic_refuted : bcu2_device bcu2 counting /\ (let t := wwrite 0 78 1 1 [1; 2; 3; 4; 5; 6] in telegram t /\ is_write t /\
  option_map (fun x => (value_answer (fst x), option_map (fun y => value_answer (fst y)) (processPropertyApci bcu2 0 propertiesTab (rread 0 78 1 1) 13 empty23 (snd x))))
    (processPropertyApci bcu2 0 propertiesTab t 19 empty23 counting) = Some (Some (0, 78, 1, 1, [1; 2; 3; 4; 5; 6]), Some (Some (0, 78, 1, 1, [6; 5; 4; 3; 2; 1])))).
Proof. split; [apply counting_ok|]. split; [telegram_is_ok|]. split; [reflexivity|]. vm_compute. reflexivity. Qed.
Print Assumptions C72_generic_refuted.
(** Refuted as stated: the start index is not checked, so a write to the hardware type overwrites the serial number, which is not writable *)
Theorem C72_read_only_refuted : bcu2_device bcu2 counting /\ (let t := wwrite 0 78 1 0 [1; 2; 3; 4; 5; 6] in telegram t /\ is_write t /\
  option_map (fun x => option_map (fun y => value_answer (fst y)) (processPropertyApci bcu2 0 propertiesTab (rread 0 11 1 1) 13 empty23 (snd x)))
    (processPropertyApci bcu2 0 propertiesTab t 19 empty23 counting) = Some (Some (Some (0, 11, 1, 1, [6; 5; 4; 3; 2; 1])))).
Proof. split; [apply counting_ok|]. split; [telegram_is_ok|]. split; [reflexivity|]. vm_compute. reflexivity. Qed.
Print Assumptions C72_read_only_refuted.
