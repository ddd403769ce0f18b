(** C82, C83: two devices on one bus *)
From Verif Require Import Base Telegram_Model Device_Model Device_Spec Device_Spec3 Device_Ex Node_Model Node_Spec Node_Ex Net_Spec.
From Verif Require ComObj_Model ComObj_Spec ComObj_Next ComObj_Values ComObj_Props Bus_Model Bus_Spec Bus_Bits Bus_BitProps Node_Proofs Node_Pass Node_Hist Node_Props Net_Proofs.
Import ComObj_Spec.

(** ** C82 *)
(** The telegram with which device A serves object [p] carries the value of [p] to every other device: on the wire, in the first transmission and in repetitions, it is a valid frame
    for all devices knowing the group; a device B that takes it gives exactly its listening objects the value, and marks them as updated.
    [own]: the sender address the link layer fills in. *)
Theorem C82_same_value : forall cA gA x i y l p, stands cA gA x -> nop_ok (NLoop i) -> group_only gA i x -> nstep cA x (NLoop i) = Some (y, l) -> served cA gA p i x y l ->
  (p < num_objs gA)%nat -> sendable gA p -> wants_read gA (contents cA x) p = false -> short_ok gA (contents cA y) p ->
  exists ts t a, app_telegrams l = ts ++ [t] /\ sending_addr gA p a /\ forall own rep, is_u16 own -> valid a (frame own rep t) /\
    forall cB gB i' x' y' l', no_stray gB a -> hears cB gB (frame own rep t) i' x' y' l' ->
      app_telegrams l' = [] /\
      (forall q, listens gB a q -> obj_typ gB q = obj_typ gA p ->
         value gB (contents cB y') q = value gA (contents cA y) p /\ updated gB (contents cB y') q /\ ComObj_Model.objectRead gB q (contents cB y') = ComObj_Model.objectRead gA p (contents cA y)) /\
      (forall q, (q < num_objs gB)%nat -> ~ listens gB a q -> same_object gB (contents cB x') (contents cB y') q).
Proof.
  intros cA gA x i y l p ST OK GO E SV P (TE & a' & SA' & NZ) WR SO. destruct (Net_Proofs.served_tel _ _ _ _ _ _ _ ST OK GO E SV P) as (ts & t & a & TS & PR & SA & _ & TEL). rewrite WR in TEL. specialize (TEL SO).
  rewrite (ComObj_Next.sending_addr_unique gA p a' a SA' SA) in *. exists ts, t, a. split; [exact TS|]. split; [exact SA|]. intros own rep OW. pose proof TEL as (GF & _).
  split; [apply (Net_Proofs.frame_valid own rep t a _ _ OW PR GF)|]. intros cB gB i' x' y' l' NS H.
  destruct (Net_Proofs.frame_fields own rep t a _ _ OW PR GF) as (FB & _ & _ & _ & _ & FD & F7 & _). pose proof (s_cfg gA (st_settled _ _ _ ST)) as CA. pose proof (proj1 (proj2 (s_layout gA (st_settled _ _ _ ST))) p P) as OA.
  pose proof (Net_Proofs.next_ok _ _ _ _ _ _ ST OK GO E) as MA.
  destruct (Net_Proofs.frame_decode gA (contents cA y) p a 128 own rep t CA MA OA SO (ComObj_Props.sending_u16 gA p a CA SA) (or_introl eq_refl) TEL OW PR) as (FC & FP).
  destruct (Net_Proofs.value_taken _ _ _ _ _ _ _ a H FB FD NZ F7 NS (or_introl FC)) as (A1 & A2 & A3). split; [exact A1|]. split; [|exact A3]. intros q LQ TQ. destruct (A2 q LQ) as (V & U). rewrite TQ, FP in V.
  split; [exact V|]. split; [exact U|]. rewrite <- FD in NZ, NS. destruct (Net_Proofs.hears_proper _ _ _ _ _ _ _ H FB (conj NZ F7) NS) as (_ & MB). pose proof (st_settled _ _ _ (proj1 H)) as SB.
  rewrite !ComObj_Values.objectRead_num; auto; [rewrite V; reflexivity|apply (s_cfg gB SB)|apply (proj1 (proj2 (s_layout gB SB))); apply (Net_Proofs.listens_num gB a q SB LQ)].
Qed.
Print Assumptions C82_same_value.
(** From the call of the application at A to what the application at B reads: [v] is written to object [p], which is next in turn; the pass sends it, and B takes it. *)
Theorem C82_written : forall cA gA x0 l0 x i y l p v, stands cA gA x0 -> (p < num_objs gA)%nat -> (obj_size gA p <= 4)%nat -> sendable gA p -> (short_type (obj_typ gA p) -> v mod 256 < 64) ->
  nstep cA x0 (NApp (AWrite p v)) = Some (x, l0) -> nop_ok (NLoop i) -> heard i x = None -> nstep cA x (NLoop i) = Some (y, l) -> may_send cA i x y ->
  (let idx := Z.to_nat (nnext x mod Z.of_nat (num_objs gA)) in (idx <= p)%nat /\ forall j, (idx <= j < p)%nat -> ~ wants gA (contents cA x) j) ->
  exists t a, app_telegrams l = [t] /\ sending_addr gA p a /\ forall own rep, is_u16 own -> valid a (frame own rep t) /\
    forall cB gB i' x' y' l', no_stray gB a -> hears cB gB (frame own rep t) i' x' y' l' ->
      (forall q, listens gB a q -> obj_typ gB q = obj_typ gA p -> ComObj_Model.objectRead gB q (contents cB y') = v mod 256 ^ Z.of_nat (obj_size gA p) /\ updated gB (contents cB y') q) /\
      (forall q, (q < num_objs gB)%nat -> ~ listens gB a q -> same_object gB (contents cB x') (contents cB y') q).
Proof.
  intros cA gA x0 l0 x i y l p v ST P SI SE SH EA OK HN E MS (IX & TURN). pose proof ST as [K T SZ SG F R I]. pose proof (s_cfg gA SG) as CA. pose proof (s_layout gA SG) as LA.
  destruct (Node_Hist.app_does cA K SZ gA SG (AWrite p v) x0 x l0 (Node_Proofs.node_good cA K T SZ x0 F) I R P EA) as (CX & _ & _ & RX & _ & _ & LE & _ & _ & EE & _). cbn [callMem fst] in CX.
  assert (SX : stands cA gA x).
  { split; auto; [apply (node_then cA x0 (NApp (AWrite p v)) x l0); auto; exact Logic.I|]. rewrite LE. apply (Node_Pass.installed_same _ _ (mem (ndev x0))); assumption. }
  pose proof (Net_Proofs.stands_ok _ _ _ ST) as M0. unfold ComObj_Model.objectWrite in CX.
  destruct (ComObj_Props.C19_store_and_read gA (contents cA x0) p v ComObj_Model.COMFLAG_TRANSREQ CA M0 LA P SI ltac:(unfold ComObj_Model.COMFLAG_TRANSREQ; lia)) as (RD & FL & _). rewrite <- CX in RD, FL.
  assert (GO : group_only gA i x) by (intros t Q; rewrite HN in Q; discriminate).
  destruct (Node_Props.C79_pass cA gA x i y l K T SZ SG (st_found _ _ _ SX) RX (st_inst _ _ _ SX) OK GO E) as (m & ts1 & ts2 & RE & TS & S & _). specialize (S MS). rewrite HN in RE. destruct RE as (-> & SAME).
  assert (WP : wants gA m p). { split; [exact SE|]. unfold pending. destruct (SAME p P) as (_ & ->). rewrite FL. reflexivity. }
  destruct S as [(o & t & O1 & O2 & O3 & -> & O5)|(NO & _)]; [|destruct (NO p ltac:(lia) WP)].
  assert (Q : o = p).
  { destruct (Nat.lt_trichotomy o p) as [L|[L|L]]; [exfalso|exact L|exfalso; apply (O3 p); [lia|exact WP]]. apply (TURN o ltac:(lia)). destruct O2 as (A & B). split; [exact A|]. unfold pending in *. destruct (SAME o (proj2 O1)) as (_ & <-). exact B. }
  subst o. assert (SV : served cA gA p i x y l). { exists m, [], t. rewrite HN. split; [split; [reflexivity|exact SAME]|]. split; [exact TS|exact O5]. }
  assert (VY : value gA (contents cA y) p = value gA (contents cA x) p). { destruct O5 as (_ & _ & _ & _ & -> & _). apply (SAME p P). }
  assert (WR : wants_read gA (contents cA x) p = false) by (unfold wants_read; rewrite FL; reflexivity).
  pose proof (proj1 (proj2 LA) p P) as OA. pose proof (Net_Proofs.stands_ok _ _ _ SX) as MX. pose proof (Net_Proofs.next_ok _ _ _ _ _ _ SX OK GO E) as MY.
  assert (RY : ComObj_Model.objectRead gA p (contents cA y) = v mod 256 ^ Z.of_nat (obj_size gA p)). { rewrite <- RD. rewrite !ComObj_Values.objectRead_num by auto. rewrite VY. reflexivity. }
  assert (SO : short_ok gA (contents cA y) p).
  { intros STY. specialize (SH STY). rewrite VY, CX. destruct LA as (LF & LO & LD & _).
    destruct (ComObj_Values.objectWrite_effect gA (contents cA x0) p v ComObj_Model.COMFLAG_TRANSREQ CA M0 LF (LO p P) (fun b => LD p b P) ltac:(unfold ComObj_Model.COMFLAG_TRANSREQ; lia)) as (_ & B & _). rewrite B.
    rewrite (ComObj_Next.short_one gA p) by (unfold short_type in STY; lia). constructor; [exact SH|constructor]. }
  destruct (C82_same_value cA gA x i y l p SX OK GO E SV P SE WR SO) as (ts & t' & a & TT & SA & REST). exists t', a. rewrite TT in TS. cbn [app] in TS. apply app_inj_tail in TS || idtac.
  assert (ts = [] /\ t' = t) as (-> & ->). { destruct ts as [|u ts]; [cbn in TS; split; congruence|]. destruct ts; discriminate. }
  split; [exact TT|]. split; [exact SA|]. intros own rep OW. destruct (REST own rep OW) as (V & B). split; [exact V|]. intros cB gB i' x' y' l' NS H. destruct (B cB gB i' x' y' l' NS H) as (_ & B1 & B2). split; [|exact B2].
  intros q LQ TQ. destruct (B1 q LQ TQ) as (_ & U & RR). split; [rewrite RR; exact RY|exact U].
Qed.
Print Assumptions C82_written.
(** In between: the frame does not depend on what else the transmission buffer of A contains, and the link layer of a device at rest that knows the group delivers it to [C82_same_value]'s pass and acknowledges it. *)
Theorem C82_buffer : forall own rep t buffer, holds buffer t -> length t = Bus_Spec.size t -> frame own rep buffer = frame own rep t.
Proof.
  intros own rep t b H S. unfold frame. destruct rep; [|apply Net_Proofs.wire_prefix; assumption]. apply Net_Proofs.wire_prefix; [apply Net_Proofs.holds_repeated; exact H|]. rewrite Bus_Frame.repeated_length, Bus_Frame.size_repeated. exact S.
Qed.
Print Assumptions C82_buffer.
Theorem C82_delivered : forall a f L junk l b v ops e i, valid a f -> Bus_Spec.limits_ok L -> Bus_Spec.after L junk l b v -> Bus_BitSpec.listening b -> Bus_Model.knownGroup e a = true ->
  Bus_BitSpec.bytesOps f ops -> Bus_Model.iCap i = false -> Bus_Spec.held v = None -> (forall t, Bus_Spec.latest v = Some t -> Bus_Spec.wellSized t /\ ~ Bus_Spec.repeats f t) -> Z.testbit (Bus_Model.statusByte e) 1 = true ->
  exists b1, Bus_Model.bruns L (ops ++ [Bus_Model.Irq e i]) b = Some (b1, Bus_Model.RxBegin [] :: map (fun c => Bus_Model.RxByte c true) f ++ [Bus_Model.RxEnd; Bus_Model.Deliver f]) /\
    forall ts, Forall Bus_Spec.tick ts -> length ts = 9%nat -> exists b2, Bus_Model.bruns L ts b1 = Some (b2, [Bus_Model.TxBegin true; Bus_Model.TxByte 0xCC; Bus_Model.TxEnd true]).
Proof. intros a f L junk l b v ops e i (FB & AC & WS & FU) LO A LI KG BO IC H LT SB. apply (Bus_BitProps.C73_delivered L junk l b v f ops e i); auto. Qed.
Print Assumptions C82_delivered.
(** node1 sends 0x1234 to 1/1/2, node2 hears it *)
Definition wrote1 : node := nodeAfter bcu1conf [NApp (AWrite 1 0x1234)] node1.
Definition tel1 : list Z := [188; 0; 0; 9; 2; 227; 0; 128; 0x12; 0x34].
Definition wire1 (rep : bool) : list Z := frame 0x1107 rep tel1.
Lemma stands1 : stands bcu1conf g1 node1.
Proof. constructor; [apply confs_ok|apply tabs_ok|apply sizes_ok|exact g1_settled|exact node1_found|vm_compute; reflexivity|exact node1_installed]. Qed.
Lemma stands2 : stands bcu2conf g2 node2.
Proof. constructor; [apply confs_ok|apply tabs_ok|apply sizes_ok|exact g2_settled|exact node2_found|vm_compute; reflexivity|exact node2_installed]. Qed.
Lemma idle2 q : (q < num_objs g2)%nat -> ~ pending g2 (contents bcu2conf node2) q.
Proof. rewrite g2_n. intros Q. destruct q as [|[|q]]; [..|lia]; vm_compute; discriminate. Qed.
Lemma g1_send1 : sendable g1 1.
Proof.
  split; [split; vm_compute; reflexivity|]. exists 0x902. split; [|discriminate]. exists 1%nat. split; [vm_compute; lia|]. split; [vm_compute; reflexivity|]. split; [|vm_compute; reflexivity].
  intros j J. destruct j as [|j]; [vm_compute; discriminate|lia].
Qed.
Lemma first2 : first_entry g2 0x902 2.
Proof. split; [vm_compute; lia|]. split; [vm_compute; reflexivity|]. intros j J. assert (j = 1%nat) by lia. subst j. vm_compute. discriminate. Qed.
Lemma listens2 : listens g2 0x902 0.
Proof. split; [|split; vm_compute; reflexivity]. exists 2%nat. split; [exact first2|]. exists 1%nat. split; [vm_compute; lia|]. split; vm_compute; reflexivity. Qed.
Lemma stray2 : no_stray g2 0x902.
Proof. intros _ H. vm_compute in H. discriminate. Qed.
Example C82_example : stands bcu1conf g1 node1 /\ (1 < num_objs g1)%nat /\ (obj_size g1 1 <= 4)%nat /\ sendable g1 1 /\ (short_type (obj_typ g1 1) -> 0x1234 mod 256 < 64) /\
  nstep bcu1conf node1 (NApp (AWrite 1 0x1234)) = Some (wrote1, []) /\ heard (pass 900) wrote1 = None /\ nop_ok (NLoop (pass 900)) /\
  (exists y l, nstep bcu1conf wrote1 (NLoop (pass 900)) = Some (y, l) /\ may_send bcu1conf (pass 900) wrote1 y /\ app_telegrams l = [tel1]) /\
  (let idx := Z.to_nat (nnext wrote1 mod Z.of_nat (num_objs g1)) in (idx <= 1)%nat /\ forall j, (idx <= j < 1)%nat -> ~ wants g1 (contents bcu1conf wrote1) j) /\
  wire1 false = [188; 0x11; 0x07; 9; 2; 227; 0; 128; 0x12; 0x34; 27] /\ wire1 true = [156; 0x11; 0x07; 9; 2; 227; 0; 128; 0x12; 0x34; 59] /\
  no_stray g2 0x902 /\ listens g2 0x902 0 /\ obj_typ g2 0 = obj_typ g1 1 /\
  forall rep, exists y l, hears bcu2conf g2 (wire1 rep) (hear bcu2conf 1000 (wire1 rep)) node2 y l /\ ComObj_Model.objectRead g2 0 (contents bcu2conf y) = 0x1234.
Proof.
  split; [exact stands1|]. split; [rewrite g1_n; lia|]. split; [vm_compute; lia|]. split; [exact g1_send1|]. split; [intros (_ & H); vm_compute in H; discriminate|].
  split. { unfold wrote1, nodeAfter. cbn [nruns]. assert (V : option_map snd (nstep bcu1conf node1 (NApp (AWrite 1 0x1234))) = Some []) by (vm_compute; reflexivity). destruct (nstep _ _ _) as [[y l]|]; [|discriminate]. cbn in V |- *. congruence. }
  split; [reflexivity|]. split; [apply pass_ok|]. split.
  { set (r := nstep bcu1conf wrote1 (NLoop (pass 900))). assert (V : option_map (fun p => (app_telegrams (snd p), Node_Props.may_sendb bcu1conf (pass 900) wrote1 (fst p))) r = Some ([tel1], true)) by (vm_compute; reflexivity).
    destruct (Node_Props.look _ _ _ _ _ V) as ((y & l) & -> & Q). exists y, l. cbn [fst snd] in Q. destruct (Node_Props.pair_inv _ _ _ _ _ _ Q) as (Q1 & Q2). split; [reflexivity|]. split; [apply Node_Props.may_sendb_ok; exact Q2|exact Q1]. }
  split. { split; [vm_compute; lia|]. intros j (_ & J). assert (j = 0%nat) by lia. subst j. intros (_ & Q). vm_compute in Q. discriminate. }
  split; [vm_compute; reflexivity|]. split; [vm_compute; reflexivity|]. split; [exact stray2|]. split; [exact listens2|]. split; [vm_compute; reflexivity|]. intros rep.
  set (r := nstep bcu2conf node2 (NLoop (hear bcu2conf 1000 (wire1 rep)))). assert (V : option_map (fun p => ComObj_Model.objectRead g2 0 (contents bcu2conf (fst p))) r = Some 0x1234) by (destruct rep; vm_compute; reflexivity).
  destruct (Node_Props.look _ _ _ _ _ V) as ((y & l) & Q & O). exists y, l. split; [|exact O]. split; [exact stands2|]. split; [destruct rep; vm_compute; reflexivity|]. split; [exact Q|]. right. exact idle2.
Qed.

(** ** C83 *)
(** A read request: device A asks for the value of object [p], device B has one object [q] that answers, and what B holds ends up at A, marked as updated. *)
Theorem C83_value_read : forall cA gA x i y l p, stands cA gA x -> nop_ok (NLoop i) -> group_only gA i x -> nstep cA x (NLoop i) = Some (y, l) -> served cA gA p i x y l ->
  (p < num_objs gA)%nat -> sendable gA p -> wants_read gA (contents cA x) p = true ->
  exists ts t a, app_telegrams l = ts ++ [t] /\ sending_addr gA p a /\ request gA (contents cA y) p = 1 /\ forall own rep, is_u16 own -> valid a (frame own rep t) /\
    forall cB gB iB xB yB lB k q, hears cB gB (frame own rep t) iB xB yB lB -> first_entry gB a k -> responders gB k = [q] -> short_ok gB (contents cB xB) q ->
      exists r, app_telegrams lB = [r] /\ forall ownB repB, is_u16 ownB -> valid a (frame ownB repB r) /\
        forall i2 x2 y2 l2, no_stray gA a -> hears cA gA (frame ownB repB r) i2 x2 y2 l2 -> listens gA a p -> obj_typ gA p = obj_typ gB q ->
          app_telegrams l2 = [] /\ value gA (contents cA y2) p = value gB (contents cB xB) q /\ updated gA (contents cA y2) p /\ ComObj_Model.objectRead gA p (contents cA y2) = ComObj_Model.objectRead gB q (contents cB xB).
Proof.
  intros cA gA x i y l p ST OK GO E SV P (TE & a' & SA' & NZ) WR. destruct (Net_Proofs.served_tel _ _ _ _ _ _ _ ST OK GO E SV P) as (ts & t & a & TS & PR & SA & RQ & GF). rewrite WR in GF.
  rewrite (ComObj_Next.sending_addr_unique gA p a' a SA' SA) in *. exists ts, t, a. split; [exact TS|]. split; [exact SA|]. split; [exact RQ|]. intros own rep OW.
  split; [apply (Net_Proofs.frame_valid own rep t a _ _ OW PR GF)|]. intros cB gB iB xB yB lB k q H FE RS SO. pose proof (ComObj_Props.sending_u16 gA p a (s_cfg gA (st_settled _ _ _ ST)) SA) as UA.
  destruct (Net_Proofs.frame_fields own rep t a _ _ OW PR GF) as (FB & _ & _ & _ & _ & FD & F7 & _). pose proof (Net_Proofs.read_decode own rep t a OW PR GF) as CM.
  assert (NS : no_stray gB (dest (frame own rep t))). { rewrite FD. intros _ _. exists k. split; apply FE. }
  assert (IG : is_group (frame own rep t)) by (split; [rewrite FD; exact NZ|exact F7]).
  pose proof (Net_Proofs.hears_does _ _ _ _ _ _ _ H FB IG NS) as R. destruct (Net_Proofs.hears_proper _ _ _ _ _ _ _ H FB IG NS) as (PB & _). unfold reacts in R. rewrite CM in R. cbn [Z.eqb] in R. rewrite FD in R || idtac.
  unfold answers in R. rewrite FD in R. destruct R as [(NK & _)|(k' & FE' & LE & CA & _)]; [destruct NK; exists k; split; apply FE|].
  assert (K' : k' = k). { destruct FE as (B1 & B2 & B3), FE' as (D1 & D2 & D3). destruct (Nat.lt_trichotomy k k') as [L|[L|L]]; [exfalso; apply (D3 k); [lia|exact B2]|auto|exfalso; apply (B3 k'); [lia|exact D2]]. }
  subst k'. rewrite RS in LE, CA. destruct (app_telegrams lB) as [|r [|r' rs]] eqn:TB; try discriminate LE. exists r. split; [reflexivity|]. intros ownB repB OWB.
  specialize (CA 0%nat q r eq_refl eq_refl (or_introl eq_refl) SO). assert (PRr : Net_Proofs.proper r) by (inversion PB; assumption). pose proof CA as (GR & _).
  split; [apply (Net_Proofs.frame_valid ownB repB r a _ _ OWB PRr GR)|]. intros i2 x2 y2 l2 NSA H2 LI TY. pose proof (st_settled _ _ _ (proj1 H)) as SB. pose proof (s_cfg gB SB) as CB.
  assert (Q : (q < num_objs gB)%nat). { apply (s_assoc gB SB k). apply (Net_Proofs.responder_paired gB k q CB). rewrite RS. left. reflexivity. } pose proof (proj1 (proj2 (s_layout gB SB)) q Q) as OB.
  pose proof (Net_Proofs.stands_ok _ _ _ (proj1 H)) as MB.
  destruct (Net_Proofs.frame_decode gB (contents cB xB) q a 64 ownB repB r CB MB OB SO UA (or_intror eq_refl) CA OWB PRr) as (FC & FP).
  destruct (Net_Proofs.frame_fields ownB repB r a _ _ OWB PRr GR) as (FB2 & _ & _ & _ & _ & FD2 & F72 & _).
  destruct (Net_Proofs.value_taken _ _ _ _ _ _ _ a H2 FB2 FD2 NZ F72 NSA (or_intror FC)) as (A1 & A2 & _). split; [exact A1|]. destruct (A2 p LI) as (V & U). rewrite TY, FP in V. split; [exact V|]. split; [exact U|].
  assert (IG2 : is_group (frame ownB repB r)) by (split; [rewrite FD2; exact NZ|exact F72]). rewrite <- FD2 in NSA. destruct (Net_Proofs.hears_proper _ _ _ _ _ _ _ H2 FB2 IG2 NSA) as (_ & MA2).
  rewrite !ComObj_Values.objectRead_num; auto; [rewrite V; reflexivity|apply (s_cfg gA (st_settled _ _ _ ST))|apply (proj1 (proj2 (s_layout gA (st_settled _ _ _ ST)))); exact P].
Qed.
Print Assumptions C83_value_read.
(** node1 asks for 1/1/2, node2 holds 0x5678 *)
Definition asks1 : node := nodeAfter bcu1conf [NApp (ARequestRead 1)] node1.
Definition asked1 : node := nodeAfter bcu1conf [NLoop (pass 900); NTxDone true] asks1.
Definition holder2 : node := nodeAfter bcu2conf [NApp (ASet 0 0x5678)] node2.
Definition ask : list Z := frame 0x1107 false [188; 0; 0; 9; 2; 225; 0; 0].
Definition answer (rep : bool) : list Z := frame 0x1108 rep [188; 0; 0; 9; 2; 227; 0; 64; 0x56; 0x78].
Lemma stands_after c g l x : stands c g x -> Forall nop_ok l -> (match nruns c l x with Some (y, _) => running (ndev y) && Bool.eqb (nle y) (nle x) | None => false end = true) ->
  eeData (mem (ndev (nodeAfter c l x))) = eeData (mem (ndev x)) -> stands c g (nodeAfter c l x).
Proof.
  intros [K T SZ SG F R I] OK E EE. assert (FY : node_found c (nodeAfter c l x)) by (apply after_found; auto; destruct (nruns c l x); [reflexivity|discriminate]). unfold nodeAfter in *. destruct (nruns c l x) as [[y o]|]; [|discriminate].
  apply andb_true_iff in E. destruct E as (E1 & E2). apply Bool.eqb_prop in E2. constructor; auto. rewrite E2. apply (Node_Pass.installed_same _ _ (mem (ndev x))); assumption.
Qed.
Example C83_example : stands bcu1conf g1 asks1 /\ nop_ok (NLoop (pass 900)) /\ group_only g1 (pass 900) asks1 /\ (1 < num_objs g1)%nat /\ sendable g1 1 /\ wants_read g1 (contents bcu1conf asks1) 1 = true /\
  (exists y l, nstep bcu1conf asks1 (NLoop (pass 900)) = Some (y, l) /\ served bcu1conf g1 1 (pass 900) asks1 y l /\ app_telegrams l = [[188; 0; 0; 9; 2; 225; 0; 0]]) /\
  first_entry g2 0x902 2 /\ responders g2 2 = [0%nat] /\ short_ok g2 (contents bcu2conf holder2) 0 /\ obj_typ g1 1 = obj_typ g2 0 /\ listens g1 0x902 1 /\ no_stray g1 0x902 /\
  (exists y l, hears bcu2conf g2 ask (hear bcu2conf 1000 ask) holder2 y l /\ app_telegrams l = [[188; 0; 0; 9; 2; 227; 0; 64; 0x56; 0x78]]) /\
  forall rep, exists y l, hears bcu1conf g1 (answer rep) (hear bcu1conf 1000 (answer rep)) asked1 y l /\ ComObj_Model.objectRead g1 1 (contents bcu1conf y) = 0x5678.
Proof.
  assert (SA : stands bcu1conf g1 asks1) by (apply stands_after; [exact stands1|repeat constructor|vm_compute; reflexivity|vm_compute; reflexivity]).
  assert (SB : stands bcu2conf g2 holder2) by (apply stands_after; [exact stands2|repeat constructor|vm_compute; reflexivity|vm_compute; reflexivity]).
  assert (SC : stands bcu1conf g1 asked1) by (apply stands_after; [exact SA|constructor; [apply pass_ok|repeat constructor]|vm_compute; reflexivity|vm_compute; reflexivity]).
  assert (GO : group_only g1 (pass 900) asks1) by (intros t [=]).
  split; [exact SA|]. split; [apply pass_ok|]. split; [exact GO|]. split; [rewrite g1_n; lia|]. split; [exact g1_send1|]. split; [vm_compute; reflexivity|]. split.
  { set (r := nstep bcu1conf asks1 (NLoop (pass 900))). assert (V : option_map (fun p => (app_telegrams (snd p), Node_Props.may_sendb bcu1conf (pass 900) asks1 (fst p))) r = Some ([[188; 0; 0; 9; 2; 225; 0; 0]], true)) by (vm_compute; reflexivity).
    destruct (Node_Props.look _ _ _ _ _ V) as ((y & l) & E & Q). exists y, l. split; [exact E|]. cbn [fst snd] in Q. destruct (Node_Props.pair_inv _ _ _ _ _ _ Q) as (Q1 & Q2). split; [|exact Q1].
    pose proof SA as [K T SZ SG F R I]. destruct (Node_Props.C79_pass _ _ _ _ _ _ K T SZ SG F R I (pass_ok 900) GO E) as (m & ts1 & ts2 & RE & TS & S & _). specialize (S (Node_Props.may_sendb_ok _ _ _ _ Q2)). destruct RE as (-> & SAME).
    rewrite Q1 in TS. destruct S as [(o & t & O1 & (_ & O2) & _ & -> & O5)|(_ & -> & _)]; [|discriminate TS]. exists m, [], t. split; [split; [reflexivity|exact SAME]|]. split; [rewrite Q1, TS; reflexivity|].
    assert (o = 1%nat); [|subst o; exact O5]. destruct O1 as (_ & O1). unfold pending in O2. destruct (SAME o O1) as (_ & FE). rewrite FE in O2. rewrite g1_n in O1. clear - O1 O2. assert (N0 : flags g1 (contents bcu1conf asks1) 0 mod 4 = 0) by (vm_compute; reflexivity). assert (N2 : flags g1 (contents bcu1conf asks1) 2 mod 4 = 0) by (vm_compute; reflexivity).
    destruct o as [|[|[|o]]]; [exfalso; rewrite N0 in O2; discriminate O2|reflexivity|exfalso; rewrite N2 in O2; discriminate O2|exfalso; clear - O1; lia]. }
  split; [exact first2|]. split; [vm_compute; reflexivity|]. split; [intros (_ & H); vm_compute in H; discriminate|]. split; [vm_compute; reflexivity|]. split.
  { split; [|split; vm_compute; reflexivity]. exists 2%nat. split; [|exists 1%nat; split; [vm_compute; lia|split; vm_compute; reflexivity]]. split; [vm_compute; lia|]. split; [vm_compute; reflexivity|]. intros j J. assert (j = 1%nat) by lia. subst j. vm_compute. discriminate. }
  split; [intros _ H; vm_compute in H; discriminate|]. split.
  - set (r := nstep bcu2conf holder2 (NLoop (hear bcu2conf 1000 ask))). assert (V : option_map (fun p => app_telegrams (snd p)) r = Some [[188; 0; 0; 9; 2; 227; 0; 64; 0x56; 0x78]]) by (vm_compute; reflexivity).
    destruct (Node_Props.look _ _ _ _ _ V) as ((y & l) & Q & O). exists y, l. split; [|exact O]. split; [exact SB|]. split; [vm_compute; reflexivity|]. split; [exact Q|]. right. rewrite g2_n. intros q H. destruct q as [|[|q]]; [..|lia]; vm_compute; discriminate.
  - intros rep. set (r := nstep bcu1conf asked1 (NLoop (hear bcu1conf 1000 (answer rep)))). assert (V : option_map (fun p => ComObj_Model.objectRead g1 1 (contents bcu1conf (fst p))) r = Some 0x5678) by (destruct rep; vm_compute; reflexivity).
    destruct (Node_Props.look _ _ _ _ _ V) as ((y & l) & Q & O). exists y, l. split; [|exact O]. split; [exact SC|]. split; [destruct rep; vm_compute; reflexivity|]. split; [exact Q|]. right. rewrite g1_n. intros q H. destruct q as [|[|[|q]]]; [..|lia]; vm_compute; discriminate.
Qed.
