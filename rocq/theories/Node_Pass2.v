(** A device with communication objects: one pass as a whole, calls of the application *)
From Verif Require Import Base Bits Telegram_Model Device_Model Device_Spec Device_Spec3 Device_TL Device_Status Device_Proofs Device_Wf Device_Steps Device_Bytes Device_Refine Device_Refine2 Device_Client Device_Restart Device_Answer.
From Verif Require Import Node_Model Node_Spec Node_Proofs Node_Pass.
From Verif Require ComObj_Model ComObj_Spec ComObj_Next ComObj_Proofs ComObj_Values ComObj_Props Rate_Model TL4_Spec Node_Com Device_Props.

Lemma flush_low c x y : conf_ok c -> wf c x -> flushUserMemory c x = Some y -> low_same c x y.
Proof. intros K W F i Hi. apply (Device_Props.flush_low _ _ _ K W F). lia. Qed.
Lemma restart_rest c n w x y l : conf_ok c -> wf c x -> checkRestart c n w x = Some (y, l) ->
  apps (flat_map (fun e => match e with Bus o => [o] | _ => [] end) l) = [] /\ app_telegrams (map NOut l) = [] /\ ramData (mem y) = ramData (mem x) /\ status (mem y) = status (mem x) /\ own (tl y) = own (tl x) /\ runState y = runState x /\
  low_same c x y /\ (running y = true -> mem y = mem x) /\ (eeModified (mem x) = false -> eeData (mem y) = eeData (mem x) /\ eeModified (mem y) = false).
Proof.
  intros K W E. destruct (restart_frame _ _ _ _ _ _ E) as (O & S). destruct (restart_case _ _ _ _ _ _ E) as [(_ & -> & ->)|[(_ & _ & s' & o & Q & -> & ->)|[(_ & _ & t & _ & -> & ->)|(_ & _ & t & z & _ & F & -> & ->)]]].
  - repeat split; auto; intros i _; reflexivity.
  - pose proof (silent_step _ (OpDisconnect w) _ _ eq_refl Q) as SI. split; [change (apps (bus_events (map Bus o)) = []); rewrite bus_map; exact SI|]. split; [rewrite telegrams_bus; exact SI|]. repeat split; auto; intros i _; reflexivity.
  - repeat split; auto; intros i _; reflexivity.
  - destruct (flush_frame _ _ _ F) as (Ft & Fs & Fr & Fk). assert (W1 : wf c (setRestart x (rType x) (rDisc x) t)) by exact W. destruct (flush_wf _ _ _ K W1 F) as (WZ & EE & MM & _). split; [reflexivity|]. split; [reflexivity|]. split; [exact Fr|]. split; [exact S|]. split; [exact O|].
    split; [apply Fk|]. split; [apply (flush_low _ _ _ K W1 F)|]. split; [discriminate|]. intros N. cbn [mem stop]. split; [|exact MM]. rewrite EE. unfold flushed. cbn [mem setRestart]. rewrite N. reflexivity.
Qed.
Lemma contents_user c x : contents c x = userMem c (mem (ndev x)).
Proof. reflexivity. Qed.
Section Pass.
Variable c : conf.
Hypothesis K : conf_ok c.
Hypothesis T : tables_ok c.
Hypothesis SZ : sized c.
Variable g : ComObj_Model.cfg.
Hypothesis SG : settled g.
(** what a pass that may send does: [m] the memory after the reception *)
Definition sends_one (n : Z) (m m' : ComObj_Model.mem) (ts : list (list Z)) (n' : Z) : Prop :=
  let idx := Z.to_nat (n mod Z.of_nat (ComObj_Spec.num_objs g)) in
  (exists o t, (idx <= o < ComObj_Spec.num_objs g)%nat /\ wants g m o /\ (forall j, (idx <= j < o)%nat -> ~ wants g m j) /\ ts = [t] /\ ComObj_Spec.serves g o m m' t /\ n' = Z.of_nat o + 1) \/
  ((forall j, (idx <= j < ComObj_Spec.num_objs g)%nat -> ~ wants g m j) /\ ts = [] /\ same_objects g m m' /\ n' = Z.of_nat idx + 1).
Lemma button_rest n lv x y l : progButton c n lv x = (y, l) -> app_telegrams (map NOut l) = [] /\ ramData (mem y) = ramData (mem x) /\ eeData (mem y) = eeData (mem x) /\ eeModified (mem y) = eeModified (mem x) /\
  own (tl y) = own (tl x) /\ tl y = tl x.
Proof.
  intros E. destruct (button_frame _ _ _ _ _ _ E) as (F1 & _ & F3 & _ & _ & _ & _ & F4). split; [apply telegrams_pin; exact F4|]. rewrite F1. destruct F3 as [-> | ->]; auto 10.
Qed.
Lemma user_ram m d : ramData d = ramData m -> ComObj_Model.ram (userMem c d) = ComObj_Model.ram (userMem c m).
Proof. intros E. unfold userMem. cbn [ComObj_Model.ram]. rewrite E. reflexivity. Qed.
Lemma pass_does i x y l : ngood c x -> installed c (nle x) (mem (ndev x)) g -> nop_ok (NLoop i) -> group_only g i x -> nodeLoop c i x = Some (y, l) ->
  exists m ts1 ts2, reacts g (heard i x) (contents c x) m ts1 /\ app_telegrams (map NOut l) = ts1 ++ ts2 /\
    ((may_send c i x y /\ sends_one (nnext x) m (contents c y) ts2 (nnext y)) \/ (~ may_send c i x y /\ ts2 = [] /\ same_objects g m (contents c y) /\ nnext y = nnext x)) /\
    own (tl (ndev y)) = own (tl (ndev x)) /\ nle y = nle x /\ ngroup y = ngroup x /\
    (eeModified (mem (ndev x)) = false -> eeData (mem (ndev y)) = eeData (mem (ndev x)) /\ eeModified (mem (ndev y)) = false) /\
    (ts2 <> [] -> snd (Rate_Model.loop (t1 i) (t2 i) (t3 i) true (nrate x)) = nrate y) /\ (ts2 = [] -> snd (Rate_Model.loop (t1 i) (t2 i) (t3 i) false (nrate x)) = nrate y \/ nrate y = nrate x).
Proof.
  intros (H & N) I OK GO E. pose proof (installed_tables c _ _ _ K (proj1 (proj1 H)) I (s_cfg g SG)) as TB.
  destruct (parts _ _ _ _ _ E) as (s & o1 & x2 & o2 & x3 & o3 & x4 & o4 & P1 & P2 & P3 & P4 & P5).
  pose proof (loop_step_ok c _ _ _ _ H P1) as H1. pose proof (silent_step _ (OpLoop (now (base i))) _ _ eq_refl P1) as Q1. destruct (step_hands _ _ _ _ P1) as (_ & OW1). specialize (OW1 eq_refl).
  pose proof (received_ok c T SZ _ _ _ _ _ OK H1 P2) as H2. destruct (received_reacts c SZ g SG _ _ _ _ _ H1 TB OK GO P2) as (RE & EE2 & ST2).
  pose proof (button_ok c _ _ _ _ _ H2 P3) as H3. destruct (button_rest _ _ _ _ _ P3) as (Q3 & RA3 & EE3 & MO3 & OW3 & TL3).
  assert (R4 : healthy c x4 /\ app_telegrams (map NOut o4) = [] /\ ramData (mem x4) = ramData (mem x3) /\ status (mem x4) = status (mem x3) /\ own (tl x4) = own (tl x3) /\ (running x4 = true -> mem x4 = mem x3) /\
     (eeModified (mem x3) = false -> eeData (mem x4) = eeData (mem x3) /\ eeModified (mem x4) = false)).
  { destruct (sending2 (base i)). { destruct P4 as (-> & ->). auto 10. } destruct (restart_rest _ _ _ _ _ _ K (proj1 (proj1 H3)) P4) as (_ & A1 & A2 & A3 & A4 & A5 & A6 & A7 & A8). split; [apply (restart_ok c K _ _ _ _ _ H3 P4)|]. auto 10. }
  destruct R4 as (H4 & Q4 & RA4 & SA4 & OW4 & ME4 & MO4). destruct ST2 as (OW2 & _ & _ & SS2 & MM2 & _). cbn [tl setTl mem] in OW2, SS2, MM2.
  assert (TEL : app_telegrams (map NOut (map Bus o1 ++ o2 ++ o3 ++ o4)) = app_telegrams (map NOut o2)).
  { rewrite !map_app, !telegrams_app, telegrams_bus, Q1, Q3, Q4. cbn [app]. rewrite app_nil_r. reflexivity. }
  assert (OW : own (tl x4) = own (tl (ndev x))) by congruence.
  assert (SAME : same_objects g (userMem c (mem x2)) (userMem c (mem x4))) by (apply (ram_same g SG); apply user_ram; congruence).
  assert (MOD : eeModified (mem (ndev x)) = false -> eeData (mem x4) = eeData (mem (ndev x)) /\ eeModified (mem x4) = false).
  { intros M. destruct MO4 as (A & B); [congruence|]. split; [congruence|exact B]. }
  exists (userMem c (mem x4)), (app_telegrams (map NOut o2)).
  assert (RE4 : reacts g (heard i x) (contents c x) (userMem c (mem x4)) (app_telegrams (map NOut o2))) by (apply (reacts_same g SG _ _ _ _ _ SAME RE)).
  destruct (negb (running x4) || sending3 (base i)) eqn:STOP.
  { destruct P5 as (-> & ->). exists []. rewrite TEL, app_nil_r. split; [exact RE4|]. split; [reflexivity|]. split.
    { right. split. { intros (M1 & M2 & _). cbn [ndev setDev] in M1. rewrite M1, M2 in STOP. discriminate. } split; [reflexivity|]. split; [apply same_refl|reflexivity]. }
    split; [exact OW|]. split; [reflexivity|]. split; [reflexivity|]. split; [exact MOD|]. split; [congruence|]. right. reflexivity. }
  apply orb_false_iff in STOP. destruct STOP as (RUN & S3). apply negb_false_iff in RUN. destruct P5 as (z & og & GP & -> & Y).
  assert (N4 : ngood c (setDev x x4)) by (split; assumption). destruct (groupPart_ok c SZ _ _ _ _ N4 GP) as (NZ & (OWZ & KZ & _ & SSZ & MMZ & _) & GZ & LZ). cbn [ndev setDev] in *.
  assert (EX4 : eeData (mem x4) = eeData (mem (ndev x))) by (rewrite (ME4 RUN); congruence).
  assert (TB4 : tables c (nle x) (mem x4) = Some g).
  { apply (installed_tables c _ _ _ K (proj1 (proj1 H4))); [|apply (s_cfg g SG)]. apply (installed_same _ _ (mem (ndev x))); [exact EX4|exact I]. }
  (* the flush *)
  assert (FL : tl (ndev y) = tl (ndev z) /\ nnext y = nnext z /\ nrate y = nrate z /\ ngroup y = ngroup z /\ nle y = nle z /\ ramData (mem (ndev y)) = ramData (mem (ndev z)) /\ status (mem (ndev y)) = status (mem (ndev z)) /\ runState (ndev y) = runState (ndev z) /\
    running (ndev y) = running (ndev z) /\ low_same c (ndev z) (ndev y) /\ (eeModified (mem (ndev z)) = false -> eeData (mem (ndev y)) = eeData (mem (ndev z)) /\ eeModified (mem (ndev y)) = false)).
  { destruct (eeModified (mem (ndev z)) && negb (directConnection (tl (ndev z)))) eqn:FB. 2:{ subst y. repeat split; auto. }
    destruct Y as (d & F & ->). cbn [setDev ndev nnext nrate ngroup nle]. destruct (flush_frame _ _ _ F) as (Ft & Fs & Fr & Fk). split; [exact Ft|]. split; [reflexivity|]. split; [reflexivity|]. split; [reflexivity|]. split; [reflexivity|].
    split; [exact Fr|]. split; [exact Fs|]. split; [apply Fk|]. split; [apply Fk|]. split; [apply (flush_low _ _ _ K (proj1 (proj1 (proj1 NZ))) F)|]. intros M. rewrite M in FB. discriminate. }
  destruct FL as (F1 & F2 & F2' & F3 & F4 & F5 & F6 & F7 & F8 & F9 & F10).
  assert (CY : same_objects g (userMem c (mem (ndev z))) (contents c y)) by (rewrite contents_user; apply (ram_same g SG); apply user_ram; exact F5).
  rewrite map_app, telegrams_app, TEL, telegrams_bus. exists (apps og). split; [exact RE4|]. split; [reflexivity|].
  (* the group part *)
  unfold groupPart in GP. cbn [ngroup nrate nle nnext ndev setDev] in GP.
  assert (RUNS : eeData (mem (ndev z)) = eeData (mem x4) -> runs c (ndev y) <-> applicationRunning c x4 = true).
  { intros EZ. rewrite app_runs. rewrite (runs_same c (ndev z) (ndev y) K F7 F6 F9). apply runs_same; [exact K|apply KZ|exact SSZ|]. intros j _. rewrite EZ. reflexivity. }
  assert (RY : running (ndev y) = true) by (rewrite F8; destruct KZ as (_ & _ & _ & _ & _ & ->); exact RUN).
  assert (REST : (Rate_Model.groupTelWaitMillis (nrate x) <=? Rate_Model.elapsed (t1 i) (Rate_Model.groupTelSent (nrate x))) = true <-> rested x (t1 i)).
  { unfold rested. rewrite Z.leb_le. unfold Rate_Model.elapsed, Rate_Model.millis, u32. rewrite Zminus_mod_idemp_l. exact (iff_refl _). }
  assert (LIFT : forall n' ts, sends_one (nnext x) (userMem c (mem x4)) (userMem c (mem (ndev z))) ts n' -> sends_one (nnext x) (userMem c (mem x4)) (contents c y) ts n').
  { intros n' ts [(o & t & A1 & A2 & A3 & A4 & A5 & A6)|(A1 & A2 & A3 & A4)]; [left|right].
    - exists o, t. split; [exact A1|]. split; [exact A2|]. split; [exact A3|]. split; [exact A4|]. split; [|exact A6]. apply (serves_same g _ _ _ _ _ (proj2 A1) CY A5).
    - split; [exact A1|]. split; [exact A2|]. split; [|exact A4]. apply (same_trans g _ _ _ A3 CY). }
  assert (MODY : eeData (mem (ndev z)) = eeData (mem x4) -> eeModified (mem (ndev x)) = false -> eeData (mem (ndev y)) = eeData (mem (ndev x)) /\ eeModified (mem (ndev y)) = false).
  { intros EZ M. destruct (MOD M) as (A & B). destruct F10 as (C1 & C2); [congruence|]. split; [congruence|exact C2]. }
  destruct (ngroup x && applicationRunning c x4) eqn:EN.
  - apply andb_true_iff in EN. destruct EN as (NG & AR). destruct (_ <=? _) eqn:RT.
    + destruct (sendNext _ _ _ _ _) as [[[[b n] d] o]|] eqn:SN; [|discriminate]. injection GP as <- <-. destruct (send_does c SZ g SG _ _ _ _ _ _ _ _ H4 TB4 N SN) as (EZ & CASES). cbn [ndev nnext nrate ngroup nle] in *.
      assert (MS : may_send c i x y). { split; [exact RY|]. split; [exact S3|]. split; [exact NG|]. split; [apply RUNS; auto|exact (proj1 REST eq_refl)]. }
      split. { left. split; [exact MS|]. apply LIFT. rewrite F2. cbn [ndev].
               destruct CASES as [(q & t & C1 & C2 & C3 & C4 & C5 & C6 & _)|(C1 & C2 & C3 & C4 & _)]; [left; exists q, t; auto 10|right]. subst d o. split; [exact C1|]. split; [reflexivity|]. split; [apply same_refl|exact C4]. }
      split; [rewrite F1; congruence|]. split; [congruence|]. split; [congruence|]. split; [apply MODY; exact EZ|]. rewrite F2'.
      destruct CASES as [(q & t & C1 & C2 & C3 & C4 & C5 & C6 & ->)|(C1 & C2 & C3 & C4 & ->)]; [split; [reflexivity|rewrite C4; discriminate]|subst o; split; [intros Q; destruct (Q eq_refl)|intros _; left; reflexivity]].
    + injection GP as <- <-. cbn [ndev nnext nrate ngroup nle] in *. split. { right. split. { intros (_ & _ & _ & _ & R). apply (proj2 REST) in R. discriminate. } split; [reflexivity|]. split; [exact CY|congruence]. }
      split; [rewrite F1; congruence|]. split; [congruence|]. split; [congruence|]. split; [apply MODY; reflexivity|]. rewrite F2'. split; [intros Q; destruct (Q eq_refl)|auto].
  - injection GP as <- <-. cbn [ndev nnext nrate ngroup nle setDev] in *. split. { right. split. { intros (_ & _ & M1 & M2 & _). apply RUNS in M2; [|reflexivity]. rewrite M1, M2 in EN. discriminate. } split; [reflexivity|]. split; [exact CY|congruence]. }
    split; [rewrite F1; congruence|]. split; [congruence|]. split; [congruence|]. split; [apply MODY; reflexivity|]. split; [intros Q; destruct (Q eq_refl)|auto].
Qed.
End Pass.
