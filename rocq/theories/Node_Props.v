(** C79-C81: a device with its communication objects *)
From Verif Require Import Base Telegram_Model Device_Model Device_Spec Device_Spec3 Device_Ex Node_Model Node_Spec Node_Ex.
From Verif Require ComObj_Model ComObj_Spec Rate_Model Rate_Spec Rate_Props Node_Proofs Node_Pass Node_Pass2 Node_Hist Node_Rate.
Import ComObj_Spec.

(** ** C79 *)
(** One pass of the main loop: a group telegram that came in is handled, then at most one object is served; [m]: the memory in between. *)
Theorem C79_pass : forall c g x i y l, conf_ok c -> tables_ok c -> sized c -> settled g -> node_found c x -> running (ndev x) = true -> installed c (nle x) (mem (ndev x)) g ->
  nop_ok (NLoop i) -> group_only g i x -> nstep c x (NLoop i) = Some (y, l) ->
  exists m ts1 ts2, reacts g (heard i x) (contents c x) m ts1 /\ app_telegrams l = ts1 ++ ts2 /\
    (may_send c i x y -> serves_first g (nnext x) m (contents c y) ts2) /\ (~ may_send c i x y -> ts2 = [] /\ same_objects g m (contents c y)).
Proof.
  intros c g x i y l K T SZ SG F R I OK GO E. unfold nstep in E. rewrite R in E. destruct (nodeLoop c i x) as [[z o]|] eqn:NL; [|discriminate]. injection E as <- <-.
  destruct (Node_Pass2.pass_does c K T SZ g SG _ _ _ _ (Node_Proofs.node_good c K T SZ x F) I OK GO NL) as (m & ts1 & ts2 & RE & TS & CASES & _). cbn [fst snd]. exists m, ts1, ts2. split; [exact RE|]. split; [exact TS|].
  destruct CASES as [(MS & S)|(MS & S1 & S2 & _)]; (split; [|]); intros M; try contradiction; [|split; assumption].
  destruct S as [(q & t & Q1 & Q2 & Q3 & Q4 & Q5 & _)|(Q1 & Q2 & Q3 & _)]; [left; exists q, t; auto|right; auto].
Qed.
Print Assumptions C79_pass.
(** The pass leaves the address and, if nothing is waiting to be saved, the EEPROM with the tables as they are. *)
Theorem C79_tables_stay : forall c g x i y l, conf_ok c -> tables_ok c -> sized c -> settled g -> node_found c x -> running (ndev x) = true -> installed c (nle x) (mem (ndev x)) g ->
  nop_ok (NLoop i) -> group_only g i x -> eeModified (mem (ndev x)) = false -> nstep c x (NLoop i) = Some (y, l) ->
  own (tl (ndev y)) = own (tl (ndev x)) /\ eeData (mem (ndev y)) = eeData (mem (ndev x)) /\ eeModified (mem (ndev y)) = false /\ installed c (nle y) (mem (ndev y)) g.
Proof.
  intros c g x i y l K T SZ SG F R I OK GO M E. unfold nstep in E. rewrite R in E. destruct (nodeLoop c i x) as [[z o]|] eqn:NL; [|discriminate]. injection E as <- <-.
  destruct (Node_Pass2.pass_does c K T SZ g SG _ _ _ _ (Node_Proofs.node_good c K T SZ x F) I OK GO NL) as (m & ts1 & ts2 & _ & _ & _ & OW & LE & _ & EE & _). cbn [fst snd]. destruct (EE M) as (E1 & E2).
  split; [exact OW|]. split; [exact E1|]. split; [exact E2|]. rewrite LE. apply (Node_Pass.installed_same _ _ (mem (ndev x))); assumption.
Qed.
Print Assumptions C79_tables_stay.
(** for the examples *)
Lemma look A B (f : A -> B) r v : option_map f r = Some v -> exists a, r = Some a /\ f a = v.
Proof. destruct r as [a|]; [|discriminate]. intros H. exists a. split; [reflexivity|]. cbn in H. congruence. Qed.
Lemma pair_inv A B (a c : A) (b d : B) : (a, b) = (c, d) -> a = c /\ b = d.
Proof. intros H. split; congruence. Qed.
Definition may_sendb (c : conf) (i : ninputs) (x y : node) : bool :=
  running (ndev y) && negb (sending3 (base i)) && ngroup x && applicationRunning c (ndev y) && (Rate_Model.groupTelWaitMillis (nrate x) <=? (t1 i - Rate_Model.groupTelSent (nrate x)) mod 2 ^ 32).
Lemma may_sendb_ok c i x y : may_sendb c i x y = true -> may_send c i x y.
Proof.
  unfold may_sendb. intros H. apply andb_true_iff in H. destruct H as (H & H5). apply andb_true_iff in H. destruct H as (H & H4). apply andb_true_iff in H. destruct H as (H & H3). apply andb_true_iff in H. destruct H as (H1 & H2).
  split; [exact H1|]. split; [apply negb_true_iff; exact H2|]. split; [exact H3|]. split; [apply Node_Pass.app_runs; exact H4|]. apply Z.leb_le. exact H5.
Qed.
(** node1: the application has set object 0, then a value for 1/1/2 comes in; object 1 takes it and is reported, and object 0 is sent to 1/1/1 *)
Definition asked1 : node := nodeAfter bcu1conf [NApp (AWrite 0 1)] node1.
Definition value1 : list Z := [0xBC; 0x11; 0x08; 0x09; 0x02; 0xE3; 0x00; 0x80; 0x12; 0x34; 0x00].
Lemma asked1_found : node_found bcu1conf asked1.
Proof. apply after_found; [exact node1_found|repeat constructor|vm_compute; reflexivity]. Qed.
Lemma hears_value n : group_only g1 (hear bcu1conf 1000 value1) n.
Proof.
  intros t H. assert (Q : t = value1). { unfold heard in H. cbn [rx base hear got sending1] in H. destruct (_ && _); [injection H as <-; reflexivity|discriminate]. } subst t.
  split; [split; [vm_compute; discriminate|reflexivity]|]. intros _ Q. vm_compute in Q. discriminate.
Qed.
Example C79_example : conf_ok bcu1conf /\ tables_ok bcu1conf /\ sized bcu1conf /\ settled g1 /\ node_found bcu1conf asked1 /\ running (ndev asked1) = true /\ installed bcu1conf (nle asked1) (mem (ndev asked1)) g1 /\
  nop_ok (NLoop (hear bcu1conf 1000 value1)) /\ group_only g1 (hear bcu1conf 1000 value1) asked1 /\ eeModified (mem (ndev asked1)) = false /\ heard (hear bcu1conf 1000 value1) asked1 = Some value1 /\
  exists y l, nstep bcu1conf asked1 (NLoop (hear bcu1conf 1000 value1)) = Some (y, l) /\ may_send bcu1conf (hear bcu1conf 1000 value1) asked1 y /\
    app_telegrams l = [[188; 0; 0; 9; 1; 225; 0; 129]] /\ map (value g1 (contents bcu1conf y)) [0; 1; 2]%nat = [[1]; [0x34; 0x12]; [1]] /\ map (flags g1 (contents bcu1conf y)) [0; 1; 2]%nat = [1; 8; 8].
Proof.
  split; [apply confs_ok|]. split; [apply tabs_ok|]. split; [apply sizes_ok|]. split; [exact g1_settled|]. split; [exact asked1_found|]. split; [vm_compute; reflexivity|].
  assert (EE : eeData (mem (ndev asked1)) = eeData (mem (ndev node1))) by (vm_compute; reflexivity).
  split; [apply (Node_Pass.installed_same _ _ (mem (ndev node1))); [exact EE|exact node1_installed]|]. split; [apply hear_ok; reflexivity|]. split; [apply hears_value|]. split; [vm_compute; reflexivity|]. split; [vm_compute; reflexivity|].
  set (r := nstep bcu1conf asked1 (NLoop (hear bcu1conf 1000 value1))).
  assert (V : option_map (fun p => (app_telegrams (snd p), (map (value g1 (contents bcu1conf (fst p))) [0; 1; 2]%nat, (map (flags g1 (contents bcu1conf (fst p))) [0; 1; 2]%nat, may_sendb bcu1conf (hear bcu1conf 1000 value1) asked1 (fst p))))) r
     = Some ([[188; 0; 0; 9; 1; 225; 0; 129]], ([[1]; [0x34; 0x12]; [1]], ([1; 8; 8], true)))) by (vm_compute; reflexivity).
  destruct (look _ _ _ _ _ V) as ((y & l) & -> & Q). clear V. exists y, l. cbn [fst snd] in Q. destruct (pair_inv _ _ _ _ _ _ Q) as (Q1 & Q'). destruct (pair_inv _ _ _ _ _ _ Q') as (Q2 & Q''). destruct (pair_inv _ _ _ _ _ _ Q'') as (Q3 & Q4).
  split; [reflexivity|]. split; [apply may_sendb_ok; exact Q4|]. auto.
Qed.

(** ** C80 *)
(** An object with a pending request is served by one of the next passes that may send, as many of them as there are objects ([ks]: their positions in the history). *)
Theorem C80_served : forall c g p x ops y outs ks, conf_ok c -> tables_ok c -> sized c -> settled g -> node_found c x -> installed c (nle x) (mem (ndev x)) g -> eeModified (mem (ndev x)) = false ->
  (p < num_objs g)%nat -> wants g (contents c x) p -> nruns c ops x = Some (y, outs) -> Forall nop_ok ops ->
  (forall k o z, nth_error ops k = Some o -> nth_error (states c x ops) k = Some z -> calm g p z o) ->
  NoDup ks -> (num_objs g <= length ks)%nat ->
  (forall k, In k ks -> exists i z z', nth_error ops k = Some (NLoop i) /\ nth_error (states c x ops) k = Some z /\ nth_error (states c x ops) (S k) = Some z' /\ may_send c i z z') ->
  exists k i z z' l, nth_error ops k = Some (NLoop i) /\ nth_error (states c x ops) k = Some z /\ nth_error (states c x ops) (S k) = Some z' /\ nth_error outs k = Some l /\ served c g p i z z' l.
Proof.
  intros c g p x ops y outs ks K T SZ SG F I M P (SE & PE) E OK CA ND LE CH.
  apply (Node_Hist.served_at c K T SZ g SG p P SE ops x y outs ks); auto.
  - split; [apply (Node_Proofs.node_good c K T SZ x F)|]. auto.
  - unfold Node_Hist.wait_of. eapply Nat.le_trans; [|exact LE]. apply Node_Hist.delay_at; assumption.
Qed.
Print Assumptions C80_served.
(** node1: objects 0 and 1 are to be sent; between the passes the application writes object 0 again, a value for 1/1/2 comes in, and the rate limit is changed *)
Definition both1 : node := nodeAfter bcu1conf [NApp (AWrite 0 1); NApp (AWrite 1 0x1234)] node1.
Definition busy : list nop := [NLoop (pass 900); NTxDone true; NApp (AWrite 0 0); NLoop (pass 910); NLimit 10; NLoop (hear bcu1conf 1000 value1); NTxDone true; NApp ANext; NLoop (pass 1100); NLoop (pass 1200)].
Example C80_example : conf_ok bcu1conf /\ tables_ok bcu1conf /\ sized bcu1conf /\ settled g1 /\ node_found bcu1conf both1 /\ installed bcu1conf (nle both1) (mem (ndev both1)) g1 /\ eeModified (mem (ndev both1)) = false /\
  (1 < num_objs g1)%nat /\ wants g1 (contents bcu1conf both1) 1 /\ Forall nop_ok busy /\ (forall k o z, nth_error busy k = Some o -> nth_error (states bcu1conf both1 busy) k = Some z -> calm g1 1 z o) /\
  NoDup [0; 5; 8]%nat /\ (num_objs g1 <= length [0; 5; 8]%nat)%nat /\
  (forall k, In k [0; 5; 8]%nat -> exists i z z', nth_error busy k = Some (NLoop i) /\ nth_error (states bcu1conf both1 busy) k = Some z /\ nth_error (states bcu1conf both1 busy) (S k) = Some z' /\ may_send bcu1conf i z z') /\
  option_map (fun p => map app_telegrams (snd p)) (nruns bcu1conf busy both1) =
    Some [[[188; 0; 0; 9; 1; 225; 0; 129]]; []; []; []; []; [[188; 0; 0; 9; 2; 227; 0; 128; 0x12; 0x34]]; []; []; []; [[188; 0; 0; 9; 1; 225; 0; 128]]].
Proof.
  split; [apply confs_ok|]. split; [apply tabs_ok|]. split; [apply sizes_ok|]. split; [exact g1_settled|]. split; [apply after_found; [exact node1_found|repeat constructor|vm_compute; reflexivity]|].
  assert (EE : eeData (mem (ndev both1)) = eeData (mem (ndev node1))) by (vm_compute; reflexivity).
  split; [apply (Node_Pass.installed_same _ _ (mem (ndev node1))); [exact EE|exact node1_installed]|]. split; [vm_compute; reflexivity|]. split; [rewrite g1_n; lia|]. split.
  { split; [|vm_compute; reflexivity]. split; [split; vm_compute; reflexivity|]. exists 0x902. split; [|discriminate]. exists 1%nat. split; [vm_compute; lia|]. split; [vm_compute; reflexivity|]. split; [|vm_compute; reflexivity].
    intros j J. destruct j as [|j]; [vm_compute; discriminate|lia]. }
  split. { unfold busy. repeat (apply Forall_cons; [first [exact Logic.I | apply pass_ok | apply hear_ok; reflexivity]|]). apply Forall_nil. }
  split. { intros k o z N _. assert (PO : forall t, group_only g1 (pass t) z) by (intros t u H; discriminate). do 10 (destruct k as [|k]; [injection N as <-; first [exact Logic.I | apply PO | apply hears_value | cbn; rewrite g1_n; lia]|]). destruct k; discriminate. }
  split. { repeat constructor; cbn; intuition discriminate. } split; [rewrite g1_n; cbn; lia|]. split.
  { assert (H : forall k i, nth_error busy k = Some (NLoop i) ->
      match nth_error (states bcu1conf both1 busy) k, nth_error (states bcu1conf both1 busy) (S k) with Some z, Some z' => may_sendb bcu1conf i z z' | _, _ => false end = true ->
      exists i z z', nth_error busy k = Some (NLoop i) /\ nth_error (states bcu1conf both1 busy) k = Some z /\ nth_error (states bcu1conf both1 busy) (S k) = Some z' /\ may_send bcu1conf i z z').
    { intros k i N. destruct (nth_error _ k) as [z|] eqn:Q1 in |- *; [|discriminate]. destruct (nth_error _ (S k)) as [z'|] eqn:Q2; [|discriminate]. intros MS. exists i, z, z'. split; [exact N|]. split; [reflexivity|]. split; [reflexivity|]. apply may_sendb_ok. exact MS. }
    intros k [<-|[<-|[<-|[]]]]; (eapply H; [reflexivity|vm_compute; reflexivity]). }
  vm_compute. reflexivity.
Qed.

(** ** C81 *)
(** Whatever the device contains and whatever comes in: between two telegrams it sends of its own accord there are at least 1000/L ms, L the limit in force. *)
Theorem C81_distance : forall c le d t0 ops y outs j k i1 i2 out1 out2, timed t0 ops -> Forall nop_ok ops -> nruns c ops (nodeUp c le d t0) = Some (y, outs) -> (j < k)%nat ->
  nth_error ops j = Some (NLoop i1) -> nth_error outs j = Some out1 -> unasked i1 -> app_telegrams out1 <> [] ->
  nth_error ops k = Some (NLoop i2) -> nth_error outs k = Some out2 -> unasked i2 -> app_telegrams out2 <> [] -> t2 i1 + Rate_Spec.spacing (limit_in 28 ops k) <= t1 i2.
Proof.
  intros c le d t0 ops y outs j k i1 i2 out1 out2 TM OK E LT N1 M1 U1 X1 N2 M2 U2 X2.
  apply (Node_Rate.apart_sends c ops (nodeUp c le d t0) y outs t0 t0 28 j k i1 i2 out1 out2 TM eq_refl (Z.le_refl _) eq_refl OK E LT N1 M1 U1 X1 N2 M2 U2 X2).
Qed.
Print Assumptions C81_distance.
(** Nor does it send one earlier than that after the start. *)
Theorem C81_first : forall c le d t0 ops y outs k i out, timed t0 ops -> Forall nop_ok ops -> nruns c ops (nodeUp c le d t0) = Some (y, outs) ->
  nth_error ops k = Some (NLoop i) -> nth_error outs k = Some out -> unasked i -> app_telegrams out <> [] -> t0 + Rate_Spec.spacing (limit_in 28 ops k) <= t1 i.
Proof. intros c le d t0 ops y outs k i out TM OK E N M U X. apply (Node_Rate.not_early c ops (nodeUp c le d t0) y outs t0 t0 28 k i out TM eq_refl (Z.le_refl _) eq_refl OK E N M U X). Qed.
Print Assumptions C81_first.
(** And in one pass never more than one. *)
Theorem C81_one : forall c x ops y outs k i out, Forall nop_ok ops -> nruns c ops x = Some (y, outs) -> nth_error ops k = Some (NLoop i) -> nth_error outs k = Some out -> unasked i -> (length (app_telegrams out) <= 1)%nat.
Proof. intros c x ops y outs k i out OK E. apply (Node_Rate.one_each c ops x y outs k i out OK E). Qed.
Print Assumptions C81_one.
(** the history of C80 seen from the start: telegrams at 900 and 1000 (the pass at 910 sends nothing although object 1 waits), limit 10 from then on, the next one at 1200 *)
Definition start1 : list nop := [NApp (AWrite 0 1); NApp (AWrite 1 0x1234)] ++ busy.
Example C81_example : timed 0 start1 /\ Forall nop_ok start1 /\ nodeUp bcu1conf true (devOf bcu1conf image1) 0 = node1 /\
  option_map (fun p => map (fun o => length (app_telegrams o)) (snd p)) (nruns bcu1conf start1 node1) = Some [0; 0; 1; 0; 0; 0; 0; 1; 0; 0; 0; 1]%nat /\
  unasked (pass 900) /\ unasked (hear bcu1conf 1000 value1) /\ unasked (pass 1200) /\ map (fun k => Rate_Spec.spacing (limit_in 28 start1 k)) [2; 5; 7; 11]%nat = [35; 35; 100; 100].
Proof.
  split; [vm_compute; intuition discriminate|]. split. { unfold start1, busy. cbn [app]. repeat (apply Forall_cons; [first [exact Logic.I | apply pass_ok | apply hear_ok; reflexivity]|]). apply Forall_nil. }
  split; [reflexivity|]. split; [vm_compute; reflexivity|]. split; [intros r [=]|]. split; [|split; [intros r [=]|reflexivity]].
  intros r [= <-]. split; [split; [vm_compute; discriminate|reflexivity]|vm_compute; discriminate].
Qed.
