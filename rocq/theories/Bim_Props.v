(** Property C94: loading a BIM112 device (masks 0x701, 0x705) through its memory *)
From Verif Require Import Base Bits Mapper_Spec MemReq_Spec MemReq_Proofs MemReq_Op MemReq_Props Bim_Model Bim_Spec Bim_Proofs.

(** ** C94: every history of memory requests *)
(** Answers and memory are those of the memory of C24 extended by the load control port at 0x104 and the window on the load states at 0xb6e9, whatever the requests and the content.
    Partial: requests for 13 to 15 bytes are excluded (they leave the buffer, see C25), and a mapper with autoAddPage (see C24). *)
Theorem C94_requests_partial L static d l : bim_ok L -> is_u16 static -> dev_ok L d -> no_auto L d ->
  Forall (fun q => request_ok (fst q) /\ (q_count (fst q) <= 12)%nat /\ length (snd q) = 23%nat) l ->
  exists out d', requests0701 L static l d = Some (out, d') /\
    map (option_map decode_response) out = map (option_map Some) (fst (bim_requests L static (map fst l) (array L d))) /\
    forall a, array L d' a = snd (bim_requests L static (map fst l) (array L d)) a.
Proof.
  intros HB HS D N H. destruct (bim_requests_spec L static l HB HS H d (array L d) (dev_good L d (proj1 HB) D) N (fun _ => eq_refl)) as (out & d' & E & A & B & _). eauto.
Qed.
Print Assumptions C94_requests_partial.

(** a load control telegram for object [o] *)
Definition controls (w : list Z) (o : Z) : Prop := request_ok w /\ q_command w = 0x280 /\ q_address w = 0x104 /\ (q_count w <= 12)%nat /\ rd w 10 / 16 = o.
Definition reads (q : list Z * list Z) : Prop := (request_ok (fst q) /\ (q_count (fst q) <= 12)%nat /\ length (snd q) = 23%nat) /\ q_command (fst q) = 0x200.
Lemma bim_reads L static l f : Forall reads l -> snd (bim_requests L static (map fst l) f) = f.
Proof.
  intros H. induction H as [|(t, sb) l (_ & C) H IH]; cbn [map fst bim_requests]; auto. cbn [fst] in C. unfold bim_request. rewrite C. change (0x200 =? 0x200) with true. cbv iota.
  destruct (bim_requests L static (map fst l) f) as (out, h). exact IH.
Qed.
Lemma bim_app L static l1 : forall l2 f, bim_requests L static (l1 ++ l2) f =
  (fst (bim_requests L static l1 f) ++ fst (bim_requests L static l2 (snd (bim_requests L static l1 f))), snd (bim_requests L static l2 (snd (bim_requests L static l1 f)))).
Proof.
  induction l1 as [|t l1 IH]; intros l2 f; cbn [app bim_requests].
  - cbn [fst snd app]. now destruct (bim_requests L static l2 f).
  - destruct (bim_request L static t f) as (a, g). rewrite IH. now destruct (bim_requests L static l1 g).
Qed.
Lemma bim_cons L static t l f : bim_requests L static (t :: l) f =
  (fst (bim_request L static t f) :: fst (bim_requests L static l (snd (bim_request L static t f))), snd (bim_requests L static l (snd (bim_request L static t f)))).
Proof. cbn [bim_requests]. destruct (bim_request L static t f) as (a, g). cbn [fst snd]. now destruct (bim_requests L static l g). Qed.
Lemma control_request L static w o f : q_command w = 0x280 -> q_address w = 0x104 -> rd w 10 / 16 = o -> o < 8 -> snd (bim_request L static w f) = loadControl L static o (q_data w) f.
Proof.
  intros W2 W3 W5 Ho. unfold bim_request. rewrite W2, W3, W5. change (0x280 =? 0x200) with false. change (0x104 =? 0x104) with true. unfold objects. replace (o <? 8) with true by lia. reflexivity.
Qed.
Lemma read_request L static r f : q_command r = 0x200 -> bim_request L static r f = (Some (bim_answer L (q_address r) (q_count r) f), f).
Proof. intros H. unfold bim_request. rewrite H. reflexivity. Qed.
Lemma puts_other L l a : Forall (fun s => eeStart L + fst s <> a) l -> forall f, fold_left (putEe L) l f a = f a.
Proof. intros H. induction H as [|s l Hs H IH]; intros f; cbn [fold_left]; auto. rewrite IH. unfold putEe, store. now replace (a =? eeStart L + fst s) with false by lia. Qed.
Lemma control_states L static o data f o' : 0 <= o' < 8 -> loadControl L static o data f (eeStart L + states + o') = if o' =? o then Some (outcome f o data) else f (eeStart L + states + o').
Proof.
  intros H. unfold loadControl. rewrite fold_left_app. cbn [fold_left]. unfold putEe at 1, store. cbn [fst snd].
  replace (eeStart L + states + o' =? eeStart L + (states + o)) with (o' =? o) by lia. destruct (o' =? o); auto.
  apply puts_other. unfold variables. destruct (negb (proper data)); [constructor|]. rewrite by_variables.
  repeat match goal with |- Forall _ (if ?b then _ else _) => destruct b end; unfold wordAt; repeat constructor; cbn [fst]; unfold states; lia.
Qed.
(** ** The load states *)
(** After a load control for [o] - and any reads - the state of [o] is read as the outcome of the control, that of any other object as it was before. *)
Theorem C94_state_read_back L static d w sb o l r sb' o' : bim_ok L -> is_u16 static -> dev_ok L d -> no_auto L d -> controls w o -> o < 8 -> length sb = 23%nat -> Forall reads l ->
  reads (r, sb') -> q_count r = 1%nat -> q_address r = 0xb6e9 + o' -> 0 <= o' < 8 ->
  exists out d', requests0701 L static ((w, sb) :: l ++ [(r, sb')]) d = Some (out, d') /\
    option_map decode_response (List.last out None) =
    Some (Some (1, 0xb6e9 + o', [if o' =? o then outcome (array L d) o (q_data w) else rd (eeData d) (Z.to_nat (0x370 + o'))])).
Proof.
  intros HB HS D N (W1 & W2 & W3 & W4 & W5) Ho Hs Hl Hr Hc Ha Ho'.
  destruct (C94_requests_partial L static d ((w, sb) :: l ++ [(r, sb')]) HB HS D N) as (out & d' & E & A & _).
  { constructor; [auto|]. apply Forall_app. split; [|constructor; [apply Hr|constructor]]. revert Hl. apply Forall_impl. intros q Hq. apply Hq. }
  exists out, d'. split; auto. cbn [map fst] in A. rewrite map_app in A. cbn [map fst] in A. rewrite bim_cons, bim_app, (control_request L static w o) in A by auto.
  set (g := loadControl L static o (q_data w) (array L d)) in *. cbn [fst snd] in A. rewrite bim_reads in A by auto.
  destruct Hr as (_ & Hr). cbn [fst] in Hr. rewrite bim_cons, (read_request L static r) in A by auto. rewrite Hc, Ha in A. cbn [fst snd bim_requests] in A.
  assert (BA : bim_answer L (0xb6e9 + o') 1 g = (1, 0xb6e9 + o', [if o' =? o then outcome (array L d) o (q_data w) else rd (eeData d) (Z.to_nat (0x370 + o'))])).
  { unfold bim_answer, inWindow, objects. replace ((0xb6e9 <=? 0xb6e9 + o') && (0xb6e9 + o' <? 0xb6e9 + 8)) with true by lia. cbn [read_bytes].
    replace (0xb6e9 + o' - 0xb6e9) with o' by lia. unfold g. rewrite control_states by auto. destruct (o' =? o) eqn:Eo; [reflexivity|].
    pose proof HB as (HL & HE). assert (I : inside (eeStart L) (eeSize L) (eeStart L + states + o')) by (unfold inside, states; lia).
    rewrite array_local by (auto; now apply dev_good). rewrite local_ee by auto. replace (eeStart L + states + o' - eeStart L) with (0x370 + o') by (unfold states; lia). reflexivity. }
  rewrite BA in A. rewrite app_comm_cons, map_app in A. cbn [map option_map] in A.
  destruct out as [|x0 out0] using rev_ind. { symmetry in A. apply app_eq_nil in A. destruct A as (_ & A). discriminate. }
  rewrite map_app in A. cbn [map] in A. apply app_inj_tail in A. destruct A as (_ & A). rewrite last_last. exact A.
Qed.
Print Assumptions C94_state_read_back.

(** ** Saving *)
(** reading leaves the mark of the EEPROM alone *)
Lemma mapLoop_mark L n : forall s s', mapLoop L true n s = Some s' -> eeModified (sdev s') = eeModified (sdev s).
Proof.
  induction n as [|n IH]; intros s s'; cbn [mapLoop]; [congruence|]. destruct (memMapper (sdev s)) as [m|]; [|congruence]. destruct (isMapped _ _ m); [|congruence].
  unfold mapMove. destruct (readMemPtr _ _ _ _ m) as [((rc, bs), m')|]; [|discriminate]. destruct (bput _ _ bs) as [b|]; [|discriminate].
  destruct (rc =? MEM_MAPPER_SUCCESS).
  - intros H. apply IH in H. exact H.
  - intros [= <-]. reflexivity.
Qed.
Definition res_mark (m : bool) (x : res) : Prop := match x with Crash => True | Return _ _ d => eeModified d = m | Go s => eeModified (sdev s) = m end.
Lemma mapStage_mark L aEnd len s : res_mark (eeModified (sdev s)) (mapStage L true aEnd len s).
Proof.
  unfold mapStage. destruct (memMapper (sdev s)) as [m|]; [|reflexivity]. destruct (isMapped _ (s32 (sa s)) m && isMapped _ (s32 aEnd) m).
  - unfold mapMove. destruct (readMemPtr _ _ _ _ m) as [((rc, bs), m')|]; [|exact I]. destruct (bput _ _ bs) as [b|]; [reflexivity|exact I].
  - destruct (isMapped _ (s32 (sa s)) m); [|reflexivity]. destruct (mapLoop L true (Z.to_nat len) s) as [s'|] eqn:E; [|exact I]. exact (mapLoop_mark L _ s s' E).
Qed.
Lemma eeStage_mark L aEnd s : res_mark (eeModified (sdev s)) (eeStage L true aEnd s).
Proof.
  unfold eeStage, eeMove. destruct (inRange2 _ _ _ _); [|destruct (inRange1 _ _ _); [|reflexivity]];
    (destruct (bget _ _ _) as [bs|]; [|exact I]); (destruct (bput _ _ bs); [reflexivity|exact I]).
Qed.
Lemma ramStage_mark L aEnd s : res_mark (eeModified (sdev s)) (ramStage L true aEnd s).
Proof.
  unfold ramStage, ramMove. destruct (inRange2 _ _ _ _ || _); [|destruct (inRange1 _ _ _); [|reflexivity]];
    (destruct (cpyFromUserRam _ _ _ _) as [bs|]; [|exact I]); (destruct (bput _ _ bs); [reflexivity|exact I]).
Qed.
Lemma andThen_mark m x g : res_mark m x -> (forall s, res_mark (eeModified (sdev s)) (g s)) -> res_mark m (andThen x g).
Proof. intros H Hg. destruct x as [|b bf d|s]; auto. cbn [andThen]. specialize (Hg s). cbn in H. now rewrite H in Hg. Qed.
Lemma opLoop_mark L aEnd fuel : forall len s b buf d, opLoop fuel L true aEnd len s = Some (b, buf, d) -> eeModified d = eeModified (sdev s).
Proof.
  induction fuel as [|k IH]; intros len s b buf d; cbn [opLoop]; [discriminate|]. destruct (negb (snf s) && (sa s <=? aEnd)); [|congruence].
  set (s0 := mkSt (sa s) (spos s) true (sbuf s) (sdev s)).
  assert (M : res_mark (eeModified (sdev s0)) (andThen (andThen (mapStage L true aEnd len s0) (eeStage L true aEnd)) (ramStage L true aEnd))).
  { apply andThen_mark; [apply andThen_mark; [apply mapStage_mark|]|]; intros x; [apply eeStage_mark|apply ramStage_mark]. }
  destruct (andThen _ _) as [|b1 bf d1|s1]; [discriminate| |].
  - intros [= <- <- <-]. exact M.
  - intros H. apply IH in H. rewrite H. exact M.
Qed.
Lemma read_mark L n a sb d ans sb' d' : memoryRead0701 L n a sb d = Some (ans, sb', d') -> eeModified d' = eeModified d.
Proof.
  unfold memoryRead0701. destruct (memoryReadPDU0701 L a n sb d) as [((ok, sb1), d1)|] eqn:E; [|discriminate]. intros H. assert (d1 = d') as <- by congruence. clear H. revert E.
  unfold memoryReadPDU0701. destruct (_ && _).
  - destruct (bget _ _ _) as [bs|]; [|discriminate]. destruct (bput _ _ bs); [|discriminate]. congruence.
  - unfold processApciMemoryOperation. destruct (n =? 0); [congruence|]. cbv zeta. destruct (_ <? a); [congruence|]. intros E. apply opLoop_mark in E. exact E.
Qed.
(** A load control for one of the eight objects marks the EEPROM as changed (so that it is written to flash); one for another object changes nothing and is not answered. *)
Theorem C94_saved L static d w sb o : bim_ok L -> is_u16 static -> dev_ok L d -> no_auto L d -> controls w o -> length sb = 23%nat ->
  (o < 8 -> exists ans sb' d', processMemoryApci0701 L static w sb d = Some (ans, sb', d') /\ eeModified d' = true) /\
  (8 <= o -> processMemoryApci0701 L static w sb d = Some (false, sb, d)).
Proof.
  intros HB HS D N (W1 & W2 & W3 & W4 & W5) Hs. pose proof (proj1 HB) as HL. pose proof (request_command w W1) as HC. destruct W1 as (LT & B & _). destruct (request_fields w B) as (_ & F1 & F2 & _ & _).
  split; intros Ho; unfold processMemoryApci0701; cbv zeta; rewrite HC, F1, F2, W2, W3; change (0x280 =? APCI_MEMORY_READ_PDU) with false; change (0x280 =? APCI_MEMORY_WRITE_PDU) with true; cbv iota.
  - rewrite <- W5 in Ho. destruct (control_spec L static w (q_count w) d (array L d) HB (dev_good L d HL D) N HS B LT W4 (fun _ => eq_refl) Ho) as (d1 & -> & G1 & N1 & M & A1).
    destruct (true && _).
    + destruct (read_spec L (q_count w) 0x104 sb d1 _ HB G1 N1 Hs W4 ltac:(lia) (fun _ => eq_refl)) as (sb' & d' & E & _). rewrite E. do 3 eexists. split; [reflexivity|].
      rewrite (read_mark _ _ _ _ _ _ _ _ E). exact M.
    + do 3 eexists. split; [reflexivity|]. auto.
  - unfold memoryWritePDU0701. change (0x104 =? LOAD_CONTROL_ADDR) with true. cbv iota zeta. rewrite Z.shiftr_div_pow2 by lia. change (2 ^ 4) with 16. rewrite W5.
    unfold INTERFACE_OBJECT_COUNT. replace (o <? 8) with false by lia. reflexivity.
Qed.
Print Assumptions C94_saved.

(** ** The two ways to load *)
(** The same load control written to the load state property of the object gives the same load state and the same memory as the one written to 0x104. *)
Theorem C94_services_agree L static d w o t telLen : bim_ok L -> is_u16 static -> dev_ok L d -> no_auto L d -> controls w o -> o < 8 ->
  Forall is_byte t -> telLen = Z.of_nat (q_count w) + 13 -> (12 + q_count w <= length t)%nat -> firstn (q_count w) (skipn 12 t) = q_data w ->
  exists d1, memoryWritePDU0701 L static 0x104 (Z.of_nat (q_count w)) w d = Some (true, d1) /\
    let (state, d2) := loadControlProperty0701 L static o t telLen d in
    state = outcome (array L d) o (q_data w) /\ (forall a, array L d2 a = array L d1 a) /\ array L d2 (eeStart L + 0x370 + o) = Some state.
Proof.
  intros HB HS D N (W1 & W2 & W3 & W4 & W5) Ho Bt -> Lt Et. pose proof HB as (HL & HE). destruct W1 as (LT & B & _). pose proof (dev_good L d HL D) as G. pose proof (rd_byte w 10 B) as B10. red in B10.
  assert (O0 : 0 <= o) by (rewrite <- W5; apply Z.div_pos; lia).
  destruct (control_spec L static w (q_count w) d (array L d) HB G N HS B LT W4 (fun _ => eq_refl) ltac:(lia)) as (d1 & -> & G1 & N1 & M & A1). exists d1. split; auto.
  unfold loadControlProperty0701. replace (Z.of_nat (q_count w) + 13 - 13) with (Z.of_nat (q_count w)) by lia.
  assert (BS : Forall is_byte (skipn 12 t)) by (rewrite <- (firstn_skipn 12 t) in Bt; apply Forall_app in Bt; apply Bt).
  rewrite (loadProperty_spec L static o (skipn 12 t) (q_count w) d (array L d) HB G N HS BS) by (auto; rewrite skipn_length; lia).
  rewrite Et. set (data := q_data w) in *. split; auto.
  assert (A2 : forall a, array L (eeByte (loadStateOffset + o) (outcome (array L d) o data) (fold_left eePut (variables static o data) d)) a = loadControl L static o data (array L d) a).
  { intros a. change (eeByte (loadStateOffset + o) (outcome (array L d) o data) (fold_left eePut (variables static o data) d)) with
      (fold_left eePut [(states + o, outcome (array L d) o data)] (fold_left eePut (variables static o data) d)). rewrite <- fold_left_app.
    unfold loadControl. refine (proj2 (proj2 (puts_spec L _ HL _ d G N)) a). apply Forall_app. split.
    - apply variables_slots; auto. apply Forall_sub. exact B.
    - constructor; [|constructor]. split; [cbn [fst]; unfold states; lia|apply outcome_byte]. }
  split.
  - intros a. rewrite A2, A1, W5. reflexivity.
  - rewrite A2. pose proof (control_states L static o data (array L d) o ltac:(lia)) as C. rewrite Z.eqb_refl in C. exact C.
Qed.
Print Assumptions C94_services_agree.

(** ** Concrete cases *)
Lemma mask0705_bim : bim_ok mask0705.
Proof. split; [apply layouts_ok|cbn; lia]. Qed.
Definition ctl (o e : Z) (rest : list Z) : list Z := req 0x280 0x104 10 ((16 * o + e) :: rest).
(** loading the application: unload, start, a task segment with address 0x4000 and the application's ids, completed; then the state and the ids are read, object 9 is refused *)
Definition download : list (list Z * list Z) :=
  [ (ctl 3 4 [], empty23); (ctl 3 1 [], empty23); (ctl 3 3 [2; 0x40; 0x00; 1; 0x00; 0x83; 0x12; 0x34; 0x05], empty23); (req 0x200 0xb6ec 1 [], empty23); (ctl 3 2 [], empty23);
    (req 0x200 0xb6ec 1 [], empty23); (req 0x200 0xb6ed 1 [], empty23); (req 0x200 0x3f03 5 [], empty23); (req 0x200 0x427c 2 [], empty23); (ctl 9 2 [], empty23) ].
Ltac requests_are_ok := repeat (apply Forall_cons; [split; [request_is_ok|split; [vm_compute; lia|reflexivity]]|]); apply Forall_nil.
Example C94_requests_ex : bim_ok mask0705 /\ is_u16 0 /\ dev_ok mask0705 (blank mask0705 None) /\ no_auto mask0705 (blank mask0705 None) /\
  Forall (fun q => request_ok (fst q) /\ (q_count (fst q) <= 12)%nat /\ length (snd q) = 23%nat) download /\
  option_map (fun x => map (option_map decode_response) (fst x)) (requests0701 mask0705 0 download (blank mask0705 None)) =
  Some [None; None; None; Some (Some (1, 0xb6ec, [2])); None; Some (Some (1, 0xb6ec, [1])); Some (Some (1, 0xb6ed, [7])); Some (Some (5, 0x3f03, [0; 0x83; 0x12; 0x34; 5]));
        Some (Some (2, 0x427c, [0x00; 0x40])); None].
Proof.
  split; [apply mask0705_bim|]. split; [red; lia|]. split; [apply blank_ok; [apply layouts_ok|auto]|]. split; [intros _; reflexivity|]. split; [unfold download; requests_are_ok|].
  vm_compute. reflexivity.
Qed.
Ltac control_is_ok := split; [request_is_ok|split; [reflexivity|split; [reflexivity|split; [vm_compute; lia|reflexivity]]]].
Example C94_state_read_back_ex : let w := ctl 2 3 [0; 0x40; 0; 0; 16; 0; 3] in controls w 2 /\ reads (req 0x200 0x3f00 12 [], empty23) /\ reads (req 0x200 0xb6eb 1 [], empty23) /\
  q_count (req 0x200 0xb6eb 1 []) = 1%nat /\ q_address (req 0x200 0xb6eb 1 []) = 0xb6e9 + 2 /\
  option_map (fun x => map (option_map decode_response) (fst x)) (requests0701 mask0705 0 [(w, empty23); (req 0x200 0xb6eb 1 [], empty23)] (blank mask0705 None)) = Some [None; Some (Some (1, 0xb6eb, [2]))].
Proof.
  cbv zeta. split; [control_is_ok|]. split; [split; [split; [request_is_ok|split; [vm_compute; lia|reflexivity]]|reflexivity]|].
  split; [split; [split; [request_is_ok|split; [vm_compute; lia|reflexivity]]|reflexivity]|]. split; [reflexivity|]. split; [reflexivity|]. vm_compute. reflexivity.
Qed.
Example C94_saved_ex : controls (ctl 1 1 []) 1 /\ controls (ctl 9 1 []) 9 /\ eeModified (blank mask0705 None) = false /\
  option_map (fun x => eeModified (snd x)) (processMemoryApci0701 mask0705 0 (ctl 1 1 []) empty23 (blank mask0705 None)) = Some true /\
  option_map (fun x => eeModified (snd x)) (processMemoryApci0701 mask0705 0 (ctl 9 1 []) empty23 (blank mask0705 None)) = Some false.
Proof. split; [control_is_ok|]. split; [control_is_ok|]. split; [reflexivity|]. split; vm_compute; reflexivity. Qed.
Example C94_services_agree_ex : let w := ctl 3 3 [5; 0; 0; 1; 2; 3; 4; 5; 6] in let t := [0xb0; 0x11; 0x01; 0x11; 0x02; 0x6f; 3; 0xd7; 3; 5; 0x10; 1] ++ q_data w in
  controls w 3 /\ Forall is_byte t /\ 23 = Z.of_nat (q_count w) + 13 /\ (12 + q_count w <= length t)%nat /\ firstn (q_count w) (skipn 12 t) = q_data w /\
  fst (loadControlProperty0701 mask0705 0x4444 3 t 23 (blank mask0705 None)) = 2 /\
  firstn 6 (skipn (Z.to_nat 0x37C) (eeData (snd (loadControlProperty0701 mask0705 0x4444 3 t 23 (blank mask0705 None))))) = [0x44; 0x44; 4; 3; 6; 5].
Proof.
  cbv zeta. split; [control_is_ok|]. split; [vm_compute; repeat (apply Forall_cons; [split; [discriminate|reflexivity]|]); apply Forall_nil|]. split; [reflexivity|]. split; [vm_compute; lia|].
  split; [reflexivity|]. split; vm_compute; reflexivity.
Qed.

(** ** What does not hold *)
Definition start0 : dev := blank mask0705 None.
Lemma start0_ok : dev_ok mask0705 start0 /\ no_auto mask0705 start0.
Proof. split; [apply blank_ok; [apply layouts_ok|auto]|intros _; reflexivity]. Qed.
(** A data segment is accepted although there is no memory at an address inside it: only its first and last address are looked at. *)
Theorem C94_segment_memory_refuted : exists L d w o a, bim_ok L /\ dev_ok L d /\ no_auto L d /\ controls w o /\ o < 8 /\ loadEvent (q_data w) = 3 /\ segment (q_data w) = 0 /\
  parameterWord (q_data w) 0 <= a < parameterWord (q_data w) 0 + parameterWord (q_data w) 2 /\ array L d a = None /\
  option_map (fun x => rd (eeData (snd x)) (Z.to_nat (0x370 + o))) (processMemoryApci0701 L 0 w empty23 d) = Some loading.
Proof.
  exists mask0705, start0, (ctl 3 3 [0; 0x07; 0x00; 0x40; 0x00; 0; 3; 0; 0]), 3, 0x2000. split; [apply mask0705_bim|]. split; [apply start0_ok|]. split; [apply start0_ok|].
  split; [control_is_ok|]. split; [lia|]. split; [reflexivity|]. split; [reflexivity|]. split; [vm_compute; split; [discriminate|reflexivity]|]. split; vm_compute; reflexivity.
Qed.
Print Assumptions C94_segment_memory_refuted.
(** A write of no bytes at 0x104 is not ignored: it puts an object in the error state, which one depends on the byte behind the end of the telegram. *)
Theorem C94_empty_write_refuted : exists L d w w', bim_ok L /\ dev_ok L d /\ no_auto L d /\ request_ok w /\ request_ok w' /\ q_address w = 0x104 /\ q_command w = 0x280 /\ q_count w = 0%nat /\
  firstn 10 w = firstn 10 w' /\
  option_map (fun x => firstn 8 (skipn (Z.to_nat 0x370) (eeData (snd x)))) (processMemoryApci0701 L 0 w empty23 d) = Some [7; 3; 7; 7; 7; 7; 7; 7] /\
  option_map (fun x => firstn 8 (skipn (Z.to_nat 0x370) (eeData (snd x)))) (processMemoryApci0701 L 0 w' empty23 d) = Some [7; 7; 7; 3; 7; 7; 7; 7].
Proof.
  exists mask0705, start0, (req 0x280 0x104 0 [0x10]), (req 0x280 0x104 0 [0x30]). split; [apply mask0705_bim|]. split; [apply start0_ok|]. split; [apply start0_ok|].
  split; [request_is_ok|]. split; [request_is_ok|]. split; [reflexivity|]. split; [reflexivity|]. split; [reflexivity|]. split; [reflexivity|]. split; vm_compute; reflexivity.
Qed.
Print Assumptions C94_empty_write_refuted.
(** The window has no end: a read that starts in it and goes past the eighth state is answered with the variables that follow, here the address of the address table. *)
Theorem C94_window_end_refuted : exists L d r, bim_ok L /\ dev_ok L d /\ no_auto L d /\ request_ok r /\ q_command r = 0x200 /\ q_address r = 0xb6e9 + 7 /\ q_count r = 3%nat /\
  array L d (0xb6e9 + 8) = None /\
  option_map (fun x => decode_response (snd (fst x))) (processMemoryApci0701 L 0 r empty23 d) =
  Some (Some (3, 0xb6e9 + 7, [rd (eeData d) (Z.to_nat 0x377); rd (eeData d) (Z.to_nat 0x378); rd (eeData d) (Z.to_nat 0x379)])).
Proof.
  exists mask0705, start0, (req 0x200 0xb6f0 3 []). split; [apply mask0705_bim|]. split; [apply start0_ok|]. split; [apply start0_ok|]. split; [request_is_ok|].
  split; [reflexivity|]. split; [reflexivity|]. split; [reflexivity|]. split; vm_compute; reflexivity.
Qed.
Print Assumptions C94_window_end_refuted.
(** In verify mode a successful load control is answered like a failed write, with no bytes: the load control address cannot be read. *)
Theorem C94_verify_mode_refuted : exists L d w o, bim_ok L /\ dev_ok L d /\ no_auto L d /\ controls w o /\ o < 8 /\ Z.testbit (deviceControl d) 2 = true /\
  option_map (fun x => (decode_response (snd (fst x)), rd (eeData (snd x)) (Z.to_nat (0x370 + o)))) (processMemoryApci0701 L 0 w empty23 d) = Some (Some (0, 0x104, []), loading).
Proof.
  exists mask0705, (mkDev None (repeat 7 (Z.to_nat 3072)) false (repeat 4 (Z.to_nat (0x304 + 3))) 0x2e), (ctl 1 1 []), 1. split; [apply mask0705_bim|].
  split. { constructor; cbn [eeData ramData status memMapper].
    - split; [rewrite repeat_length; reflexivity|]. apply Forall_forall. intros x Hx. apply repeat_spec in Hx. subst x. red. lia.
    - split; [rewrite repeat_length; reflexivity|]. apply Forall_forall. intros x Hx. apply repeat_spec in Hx. subst x. red. lia.
    - red. lia.
    - discriminate. }
  split; [intros _; reflexivity|]. split; [control_is_ok|]. split; [lia|]. split; vm_compute; reflexivity.
Qed.
Print Assumptions C94_verify_mode_refuted.
(** A load control by property, unlike one at 0x104, does not mark the EEPROM as changed. *)
Theorem C94_property_saved_refuted : exists L d o t telLen, bim_ok L /\ dev_ok L d /\ no_auto L d /\ 0 <= o < 8 /\ Forall is_byte t /\
  let (state, d') := loadControlProperty0701 L 0 o t telLen d in state = loading /\ rd (eeData d') (Z.to_nat (0x370 + o)) <> rd (eeData d) (Z.to_nat (0x370 + o)) /\ eeModified d' = false.
Proof.
  exists mask0705, start0, 1, ([0xb0; 0x11; 0x01; 0x11; 0x02; 0x6f; 3; 0xd7; 1; 5; 0x10; 1] ++ [1; 0; 0; 0; 0; 0; 0; 0; 0; 0]), 23.
  split; [apply mask0705_bim|]. split; [apply start0_ok|]. split; [apply start0_ok|]. split; [lia|].
  split; [vm_compute; repeat (apply Forall_cons; [split; [discriminate|reflexivity]|]); apply Forall_nil|]. vm_compute. split; [reflexivity|]. split; [discriminate|reflexivity].
Qed.
Print Assumptions C94_property_saved_refuted.
