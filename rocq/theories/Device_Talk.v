(** The talk of C95 is what the transport layer's observer of C07 sees *)
From Verif Require Import Base Bits Telegram_Model Device_Model Device_Spec Device_Spec2 Device_Spec3 Device_Spec5 Device_TL Device_Status Device_Proofs Device_Wf Device_Steps Device_Bytes Device_Refine Device_Refine2 Device_Client Device_Restart Device_Keep Device_Answer Device_Conn Device_Spec6.
From Verif Require MemReq_Spec TL4_Spec TL4_Proofs TL4_Inv TL4_Step TL4_Loop TL4_Props.
Import TL4_Spec(app_buffer, steps, run, peer, exec, observe, execs, responses).
Import Eeprom_Model(esize, fsize, marked).
Import MemReq_Spec(layout_ok).

Definition answers (d : list Z * (Z * list Z)) (m : list Z * list Z) : Prop := fst d = fst m /\ body (snd m) (snd d).
Record same (g : talk) (h : TL4_Spec.session) : Prop := {
  m_sent : sent g = TL4_Spec.groups h;
  m_open : open g = TL4_Spec.waiting h;
  m_crowd : crowd g = TL4_Spec.crowded h;
  m_active : active g = TL4_Spec.last h;
  m_due : Forall2 answers (due g) (TL4_Spec.made h) }.
Lemma same_settled g h : same g h -> settled g = TL4_Spec.acked h.
Proof. intros [S O _ _ _]. unfold settled, TL4_Spec.acked. rewrite S, O. reflexivity. Qed.
Lemma same_length g h : same g h -> length (due g) = length (TL4_Spec.made h).
Proof. intros [_ _ _ _ D]. induction D; cbn [length]; congruence. Qed.
Lemma same_sends n l : forall g h, same g h -> same (fold_left (sends n) l g) (TL4_Spec.note_responses h n l).
Proof.
  unfold TL4_Spec.note_responses. induction l as [|f l IH]; intros g h S; cbn [fold_left]; [exact S|]. apply IH. destruct S as [S O C A D]. constructor; cbn; auto. unfold TL4_Spec.add_copy. rewrite S, O. reflexivity.
Qed.
Lemma same_hears own p n g h t : peer h = p -> same g h -> same (hears own p n g t) (TL4_Spec.note_rx h own n t).
Proof.
  intros P S. unfold hears, TL4_Spec.note_rx, from_client, TL4_Spec.matching_ack. destruct S as [S O C A D]. rewrite P, S, O.
  destruct (_ && (TL4_Spec.src t =? p)) ; [constructor; cbn; auto|]. destruct (_ && _); [constructor; cbn; auto|constructor; auto].
Qed.
Lemma same_executes c d app t g h : told (fst app) (snd app) (reply c d t) -> same g h -> same (executes_request c d g t) (TL4_Spec.note_exec h app t).
Proof.
  intros T S. pose proof (same_settled _ _ S) as Q. pose proof (same_length _ _ S) as L. destruct S as [S O C A D]. unfold executes_request, TL4_Spec.note_exec. constructor; cbn; auto.
  - unfold TL4_Spec.outstanding. rewrite C, Q, L. reflexivity.
  - destruct (reply c d t) as [a|]; cbn [told] in T; [|rewrite T, app_nil_r; exact D]. destruct T as (-> & T). apply Forall2_app; [exact D|]. constructor; [|constructor]. split; [reflexivity|exact T].
Qed.
Lemma rx_execs s n t a w s' l : step s (OpRx n t a w) = Some (s', l) -> execs l = [] \/ (execs l = [t] /\ executes s t = true).
Proof.
  intros E. destruct (step_hands _ _ _ _ E) as (H & _). rewrite execs_handed, H. cbn [handover]. destruct (_ =? 0); [left; reflexivity|]. destruct (negb _); [left; reflexivity|]. destruct (executes s t); [|left; reflexivity].
  destruct (_ =? 0); [left; reflexivity|right; split; reflexivity].
Qed.
(** what an operation adds *)
Definition adds (c : conf) (d : dev) (own p n : Z) (l : list out) (ts : list (list Z)) (g : talk) : talk :=
  fold_left (executes_request c d) (execs l) (fold_left (hears own p n) ts (fold_left (sends n) (responses l) g)).
Lemma rx_same c x n s g h t app w s' l : Forall is_byte t -> (executes s t = true -> covered c x t -> told (fst app) (snd app) (reply c (mem x) t)) -> Forall (covered c x) (execs l) ->
  step s (OpRx n t app w) = Some (s', l) -> same g h -> same (adds c (mem x) (own s) (peer h) n l [t] g) (TL4_Spec.extend h (own s) (OpRx n t app w) l).
Proof.
  intros F TO CV E S. unfold adds, TL4_Spec.extend. cbn [fold_left TL4_Spec.op_time].
  assert (X : forall g' h', same g' h' -> same (fold_left (executes_request c (mem x)) (execs l) g') (fold_left (fun g t => TL4_Spec.note_exec g app t) (execs l) h')).
  { intros g' h' S'. destruct (rx_execs _ _ _ _ _ _ _ E) as [-> |(Q & XS)]; [exact S'|]. rewrite Q in *. cbn [fold_left]. apply same_executes; [|exact S']. apply TO; [exact XS|]. inversion CV; assumption. }
  destruct (rx_resp _ _ _ _ _ _ _ F E) as [R|(N & A & Q)].
  - rewrite R. cbn [fold_left TL4_Spec.note_responses]. apply X. apply same_hears; [reflexivity|exact S].
  - rewrite Q. cbn [fold_left]. assert (NR : TL4_Spec.note_rx h (own s) n t = h). { unfold TL4_Spec.note_rx, TL4_Spec.matching_ack. rewrite N, A, !andb_false_r. reflexivity. }
    assert (NH : forall g', hears (own s) (peer h) n g' t = g'). { intros g'. unfold hears, from_client. rewrite N, A, !andb_false_r. reflexivity. }
    rewrite NR, NH. apply same_sends. exact S.
Qed.
Lemma other_same c x n s g h o s' l : is_rx o = false -> match o with OpLoop m => m = n | _ => True end -> step s o = Some (s', l) -> same g h -> same (adds c (mem x) (own s) (peer h) n l [] g) (TL4_Spec.extend h (own s) o l).
Proof.
  intros R M E S. unfold adds. rewrite (no_execs _ _ _ _ R E). cbn [fold_left].
  assert (Q : TL4_Spec.extend h (own s) o l = TL4_Spec.note_responses h (TL4_Spec.op_time o) (responses l)) by (destruct o; try discriminate; reflexivity).
  rewrite Q. destruct (passive o) eqn:P.
  - destruct (passive_resp _ _ _ _ P E) as (-> & _). exact S.
  - destruct o; try discriminate. subst now. cbn [TL4_Spec.op_time]. apply same_sends. exact S.
Qed.
Lemma passive_steps ops : Forall (fun o => passive o = true) ops -> forall s s' l, steps s ops = Some (s', l) -> responses l = [] /\ execs l = [] /\ received_in ops = [].
Proof.
  induction 1 as [|o r P R IH]; intros s s' l; cbn [steps]; [intros [= _ <-]; auto|]. destruct (step s o) as [[s1 l1]|] eqn:E; [|discriminate]. destruct (steps s1 r) as [[s2 l2]|] eqn:E2; [|discriminate]. intros [= _ <-].
  destruct (passive_resp _ _ _ _ P E) as (A & B). destruct (IH _ _ _ E2) as (A2 & B2 & C2). rewrite resp_app, TL4_Step.execs_app, A, B, A2, B2. split; [reflexivity|]. split; [reflexivity|].
  change (received_in (o :: r)) with (received_in ([o] ++ r)). rewrite received_app, C2. destruct o; try discriminate; reflexivity.
Qed.
Lemma passive_same (c : conf) (x : device) (n : Z) ops : Forall (fun o => passive o = true) ops -> forall a s g h s' l, TL4_Spec.reachable a s (Some h) -> Forall TL4_Spec.op_ok ops -> steps s ops = Some (s', l) -> directConnection s' = true -> same g h ->
  exists h', run s (Some h) ops = Some (s', Some h') /\ same g h' /\ peer h' = peer h.
Proof.
  intros F. induction F as [|o r P R IH]; intros a s g h s' l RE OK; cbn [steps run]; [intros [= <- _] _ S; exists h; auto|]. inversion OK as [|? ? OK1 OK2]; subst. destruct (step s o) as [[s1 l1]|] eqn:E; [|discriminate]. destruct (steps s1 r) as [[s2 l2]|] eqn:E2; [|discriminate]. intros [= <- _] D S.
  assert (RX : is_rx o = false) by (destruct o; try reflexivity; discriminate). destruct (passive_steps r R _ _ _ E2) as (_ & _ & RN).
  assert (D1 : directConnection s1 = true). { destruct (directConnection s1) eqn:D1; [reflexivity|]. rewrite (stays_closed _ _ _ _ RN D1 E2) in D. discriminate. }
  pose proof (reach_step _ _ _ _ _ _ RE OK1 E) as RE1. rewrite D1 in *. cbn [observe] in *. destruct (passive_resp _ _ _ _ P E) as (QR & QE).
  assert (M : match o with OpLoop m => m = n | _ => True end) by (destruct o; try exact Logic.I; discriminate).
  pose proof (other_same c x n s g h o s1 l1 RX M E S) as S1. unfold adds in S1. rewrite QR, QE in S1. cbn [fold_left] in S1. destruct (IH a s1 g _ s2 l2 RE1 OK2 E2 D S1) as (h' & H1 & H2 & H3). exists h'. split; [exact H1|]. split; [exact H2|].
  rewrite H3. apply (extend_keeps s h o s1 l1 E).
Qed.
Lemma ops_same c x n ops : forall a s g h s' l, TL4_Spec.reachable a s (Some h) -> Forall TL4_Spec.op_ok ops -> course c x n s ops -> Forall (covered c x) (execs l) -> early ops -> steps s ops = Some (s', l) ->
  directConnection s' = true -> ~ says_disconnect l -> same g h ->
  exists h', run s (Some h) ops = Some (s', Some h') /\ same (adds c (mem x) (own s) (peer h) n l (received_in ops) g) h' /\ peer h' = peer h.
Proof.
  induction ops as [|o r IH]; intros a s g h s' l RE OK; cbn [steps run course early].
  { intros _ _ _ [= <- <-] _ _ S. exists h. auto. }
  inversion OK as [|? ? OK1 OK2]; subst. destruct (step s o) as [[s1 l1]|] eqn:E; [|intros; discriminate]. destruct (steps s1 r) as [[s2 l2]|] eqn:E2; [|intros; discriminate]. intros (CO & CR) CV (EA & EB) [= <- <-] D ND S.
  specialize (CR _ _ eq_refl). rewrite TL4_Step.execs_app in CV. apply Forall_app in CV. destruct CV as (CV1 & CV2).
  pose proof (TL4_Step.reachable_inv _ _ _ RE) as I. assert (D0 : directConnection s = true) by apply (TL4_Step.directConnection_cur _ _ I).
  change (received_in (o :: r)) with (received_in ([o] ++ r)). rewrite received_app. destruct (extend_keeps s h o s1 l1 E) as (PK & _). cbv zeta in PK.
  destruct (is_rx o) eqn:R.
  - destruct o as [m t app w| | | | |]; try discriminate. destruct CO as (-> & F & TO & PS). destruct (passive_steps r PS _ _ _ E2) as (Q1 & Q2 & Q3). rewrite Q3, app_nil_r.
    assert (D1 : directConnection s1 = true). { destruct (directConnection s1) eqn:D1; [reflexivity|]. rewrite (stays_closed _ _ _ _ Q3 D1 E2) in D. discriminate. }
    pose proof (reach_step _ _ _ _ _ _ RE OK1 E) as RE1. rewrite D1 in *. cbn [observe] in *.
    pose proof (rx_same c x n s g h t app w s1 l1 F TO CV1 E S) as S1. destruct (passive_same c x n r PS a s1 _ _ s2 l2 RE1 OK2 E2 D S1) as (h' & H1 & H2 & H3). exists h'. split; [exact H1|]. split; [|congruence].
    unfold adds in *. rewrite resp_app, TL4_Step.execs_app, Q1, Q2, !app_nil_r. exact H2.
  - assert (D1 : directConnection s1 = true). { destruct (directConnection s1) eqn:D1; [reflexivity|]. exfalso. destruct (step_closes _ _ _ _ _ I R D0 E D1) as (k & f & Hin & Hf). apply ND. exists k, f. split; [apply in_or_app; left; exact Hin|exact Hf]. }
    pose proof (reach_step _ _ _ _ _ _ RE OK1 E) as RE1. rewrite D1 in *. cbn [observe] in *.
    assert (M : match o with OpLoop m => m = n | _ => True end) by (destruct o; try exact Logic.I; exact CO).
    pose proof (other_same c x n s g h o s1 l1 R M E S) as S1. assert (ND2 : ~ says_disconnect l2). { intros (k & f & Hin & Hf). apply ND. exists k, f. split; [apply in_or_app; right; exact Hin|exact Hf]. }
    destruct (IH a s1 _ _ s2 l2 RE1 OK2 CR CV2 EB E2 D ND2 S1) as (h' & H1 & H2 & H3). exists h'. split; [exact H1|]. split; [|congruence].
    assert (No : received_in [o] = []) by (destruct o; try reflexivity; discriminate R). rewrite No. cbn [app]. pose proof (no_execs _ _ _ _ R E) as NE.
    unfold adds in *. rewrite resp_app, TL4_Step.execs_app, NE. cbn [app]. rewrite NE in H2. cbn [fold_left] in H2. rewrite fold_left_app. rewrite PK in H2.
    destruct (is_set o) eqn:SO; [rewrite (EA eq_refl) in *; exact H2|]. destruct (step_hands _ _ _ _ E) as (_ & O). rewrite (O SO) in H2. exact H2.
Qed.
(** ** Histories *)
Section Device.
Variable c : conf.
Hypothesis K : conf_ok c.
Hypothesis T : tables_ok c.
Hypothesis MV : 0 <= maskVersion (lay c) < 65536.
Hypothesis HL : layout_ok (lay c).
Hypothesis EE : Z.of_nat (esize (ecf c)) = eeSize (lay c).
Lemma talk_history a l : forall x g h x' outs, good_dev c x -> TL4_Spec.reachable a (tl x) (Some h) -> Forall (input_ok c) l -> stays_connected c x l -> all_covered c x l -> druns c l x = Some (x', outs) -> same g h ->
  exists h', TL4_Spec.reachable a (tl x') (Some h') /\ peer h' = peer h /\ same (talk_after c (peer h) x l g) h'.
Proof.
  induction l as [|o l IH]; intros x g h x' outs G RE F ST AC; cbn [druns talk_after]; [intros [= <- <-] S; exists h; auto|].
  inversion F as [|? ? F1 F2]; subst. destruct (dstep c x o) as [[y lo]|] eqn:E; [|discriminate]. destruct (druns c l y) as [[x2 outs2]|] eqn:E2; [|discriminate]. intros [= <- <-] S.
  cbn [stays_connected] in ST. destruct ST as (PU & ST). destruct (ST y lo E) as (C & ND & ST'). cbn [all_covered] in AC. destruct (AC y lo E) as (CV & AC'). assert (SO : sound (tl x)) by (exists (Some h); apply (TL4_Step.reachable_inv _ _ _ RE)).
  destruct (step_does c x o y lo K T SO G F1 PU E) as (_ & _ & B').
  destruct (step_course c K T MV HL EE x o y lo SO G F1 PU E) as (ops & (D1 & D2 & D3 & D4) & CO). rewrite executed_bus in CV.
  destruct (ops_same c x (time_of o) ops a (tl x) g h (tl y) (bus_events lo) RE D1 CO CV D4 D2 C (no_disconnect _ ND) S) as (h1 & R1 & S1 & P1).
  pose proof (reach_run _ _ _ _ _ _ RE D1 R1) as RE1. pose proof (wf_step c x o y lo K (proj1 F1) (proj1 G) E) as W'. rewrite D3 in S1. unfold adds in S1. rewrite <- executed_bus in S1.
  destruct (IH y _ h1 x2 outs2 (conj W' B') RE1 F2 ST' AC' E2 S1) as (h' & H1 & H2 & H3). exists h'. split; [exact H1|]. split; [congruence|]. rewrite P1 in H3. exact H3.
Qed.
Lemma passive_open ops : Forall (fun o => passive o = true) ops -> forall a s h s' l, TL4_Spec.reachable a s (Some h) -> Forall TL4_Spec.op_ok ops -> steps s ops = Some (s', l) -> directConnection s' = true -> run s (Some h) ops = Some (s', Some h).
Proof.
  intros F. induction F as [|o r P R IH]; intros a s h s' l RE OK; cbn [steps run]; [intros [= <- _] _; reflexivity|]. inversion OK as [|? ? OK1 OK2]; subst. destruct (step s o) as [[s1 l1]|] eqn:E; [|discriminate]. destruct (steps s1 r) as [[s2 l2]|] eqn:E2; [|discriminate]. intros [= <- _] D.
  destruct (passive_steps r R _ _ _ E2) as (_ & _ & RN). assert (D1 : directConnection s1 = true). { destruct (directConnection s1) eqn:D1; [reflexivity|]. rewrite (stays_closed _ _ _ _ RN D1 E2) in D. discriminate. }
  pose proof (reach_step _ _ _ _ _ _ RE OK1 E) as RE1. rewrite D1 in *. cbn [observe] in *. destruct (passive_resp _ _ _ _ P E) as (QR & QE).
  assert (X : TL4_Spec.extend h (own s) o l1 = h). { unfold TL4_Spec.extend. rewrite QR. destruct o; try discriminate; reflexivity. }
  rewrite X in *. apply (IH a s1 h s2 l2 RE1 OK2 E2 D).
Qed.
Lemma course_open x n ops : forall a s s' l, TL4_Spec.reachable a s None -> Forall TL4_Spec.op_ok ops -> course c x n s ops -> steps s ops = Some (s', l) -> directConnection s' = true ->
  exists h, run s None ops = Some (s', Some h) /\ h = TL4_Spec.mkSession (peer h) [] [] [] [] false n 0 false.
Proof.
  induction ops as [|o r IH]; intros a s s' l RE OK; cbn [steps run course].
  { intros _ [= <- <-] D. pose proof (TL4_Step.reachable_inv _ _ _ RE) as I. rewrite (TL4_Step.directConnection_cur _ _ I) in D. discriminate. }
  inversion OK as [|? ? OK1 OK2]; subst. destruct (step s o) as [[s1 l1]|] eqn:E; [|intros; discriminate]. destruct (steps s1 r) as [[s2 l2]|] eqn:E2; [|intros; discriminate]. intros (CO & CR) [= <- <-] D. specialize (CR _ _ eq_refl).
  pose proof (TL4_Step.reachable_inv _ _ _ RE) as I. pose proof (TL4_Step.directConnection_cur _ _ I) as D0. cbv iota in D0.
  pose proof (reach_step _ _ _ _ _ _ RE OK1 E) as RE1. destruct (directConnection s1) eqn:D1; cbn [observe] in *; [|apply (IH a s1 s2 l2 RE1 OK2 CR E2 D)].
  assert (R : is_rx o = true) by (destruct (is_rx o) eqn:R; [reflexivity|]; rewrite (step_opens _ _ _ _ R D0 E) in D1; discriminate).
  destruct o as [m t app w| | | | |]; try discriminate. destruct CO as (-> & _ & _ & PS). cbn [TL4_Spec.op_time] in *. eexists. split; [apply (passive_open r PS a s1 _ s2 l2 RE1 OK2 E2 D)|]. reflexivity.
Qed.
Lemma talk_opens x o y lo : found c x -> connected x = false -> input_ok c o -> dstep c x o = Some (y, lo) -> connected y = true ->
  exists a h, TL4_Spec.reachable a (tl y) (Some h) /\ peer h = partner y /\ good_dev c y /\ same (opened (time_of o)) h.
Proof.
  intros H C0 OK E C1. destruct (found_good _ _ K T H) as (G & a & cur & RE). pose proof (TL4_Step.reachable_inv _ _ _ RE) as I. unfold connected in *.
  assert (cur = None) as -> by (rewrite (TL4_Step.directConnection_cur _ _ I) in C0; destruct cur; [discriminate|reflexivity]).
  assert (PU : is_power_up o = false).
  { destruct o as [| | | | |lst junk]; try reflexivity. cbn [dstep] in E. unfold option_map in E. destruct (powerUp _ _ _ _ _) as [z|] eqn:P; [|discriminate]. injection E as <- _.
    destruct (on_good _ _ _ _ _ _ K (proj1 (proj2 (proj1 G))) (dev_flash _ (proj2 G)) (proj2 OK) P) as (_ & b & Q). rewrite Q in C1. discriminate. }
  assert (S : sound (tl x)) by (exists None; exact I). destruct (step_does c x o y lo K T S G OK PU E) as (_ & _ & B'). destruct (step_course c K T MV HL EE x o y lo S G OK PU E) as (ops & (D1 & D2 & D3 & D4) & CO).
  destruct (course_open x (time_of o) ops a (tl x) (tl y) _ RE D1 CO D2 C1) as (h & R & Q). pose proof (reach_run _ _ _ _ _ _ RE D1 R) as RE1. exists a, h. split; [exact RE1|].
  pose proof (TL4_Step.reachable_inv _ _ _ RE1) as (_ & _ & _ & _ & _ & _ & I7). split.
  - unfold partner, connectedTo. rewrite C1. symmetry. apply (TL4_Inv.i_peer _ _ _ _ _ _ _ _ _ _ _ _ I7).
  - split; [split; [apply (wf_step c x o y lo K (proj1 OK) (proj1 G) E)|exact B']|]. rewrite Q. constructor; cbn; auto.
Qed.
(** a telegram is sent in the first part of a pass *)
Lemma pass_sends i x y l : running x = true -> dstep c x (Loop i) = Some (y, l) -> exists s o1 rest, step (tl x) (OpLoop (now i)) = Some (s, o1) /\ l = map Bus o1 ++ rest.
Proof.
  intros R E. unfold dstep in E. rewrite R in E. destruct (loop_parts _ _ _ _ _ E) as (s & o1 & x2 & o2 & x3 & o3 & x4 & o4 & P1 & _ & _ & _ & -> & _). exists s, o1, (o2 ++ o3 ++ o4). auto.
Qed.
Lemma answers_of x o x1 l1 l x2 outs : found c x -> connected x = false -> input_ok c o -> dstep c x o = Some (x1, l1) -> connected x1 = true ->
  Forall (input_ok c) l -> stays_connected c x1 l -> all_covered c x1 l -> druns c l x1 = Some (x2, outs) ->
  let g := talk_after c (partner x1) x1 l (opened (time_of o)) in crowd g = false ->
  (length (sent g) <= length (due g))%nat /\
  (forall i f, (i < length (sent g))%nat -> In f (nth i (sent g) []) -> exists t a, nth_error (due g) i = Some (t, a) /\ numbered_answer (partner x1) (Z.of_nat i mod 16) t a f) /\
  (open g = false -> forall t a, nth_error (due g) (length (sent g)) = Some (t, a) -> txs (tl x2) = FREE -> running x2 = true ->
     forall i y lo, 0 <= now i - active g < 6000 -> dstep c x2 (Loop i) = Some (y, lo) -> exists f, In (Bus (Tx KResp f)) lo /\ numbered_answer (partner x1) (Z.of_nat (length (sent g)) mod 16) t a f).
Proof.
  intros H C0 OK E C1 F ST AC D g CR. destruct (talk_opens x o x1 l1 H C0 OK E C1) as (a & h & RE & P & G & S).
  destruct (talk_history a l x1 (opened (time_of o)) h x2 outs G RE F ST AC D S) as (h' & RE' & P' & S'). rewrite P in S', P'. fold g in S'. clearbody g. pose proof (same_length _ _ S') as L. pose proof S' as [M1 M2 M3 M4 M5].
  destruct (TL4_Props.C07_no_response_lost_partial _ _ _ RE' (eq_trans (eq_sym M3) CR)) as (A1 & A2 & A3).
  assert (NT : forall i, (i < length (due g))%nat -> exists t q, nth_error (due g) i = Some (t, q) /\ fst (nth i (TL4_Spec.made h') ([], [])) = t /\ body (snd (nth i (TL4_Spec.made h') ([], []))) q).
  { clear - M5. induction M5 as [|d m ds ms (Q1 & Q2) R IH]; intros i Hi; cbn [length] in Hi; [lia|]. destruct i as [|i]; [exists (fst d), (snd d); cbn; rewrite <- surjective_pairing; auto|]. apply (IH i). lia. }
  pose proof (fun i => Z.mod_pos_bound (Z.of_nat i) 16 ltac:(lia)) as MB.
  split; [rewrite M1, L; exact A1|]. split.
  - intros i f Hi Hf. rewrite M1 in *. destruct (NT i ltac:(lia)) as (t & q & N1 & N2 & N3). exists t, q. split; [exact N1|]. specialize (A2 i f Hi Hf). rewrite N2, P' in A2. apply (answer_frame _ _ _ _ _ _ (MB i) A2 N3).
  - intros OP t q N TX R i y lo HN Ey. rewrite M1 in *. destruct (pass_sends i x2 y lo R Ey) as (s & o1 & rest & P1 & ->).
    assert (LT : (length (TL4_Spec.groups h') < length (due g))%nat) by (apply nth_error_Some; congruence). destruct (NT _ LT) as (t' & q' & N1 & N2 & N3). rewrite N in N1. injection N1 as <- <-.
    rewrite M2 in OP. rewrite M4 in HN. rewrite L in LT. destruct (A3 OP LT TX (now i) s o1 HN P1) as (f & RS & CA). exists f. split.
    + assert (Q : In f (responses o1)) by (rewrite RS; left; reflexivity). apply in_or_app. left. apply in_map_iff. unfold responses in Q. apply in_flat_map in Q. destruct Q as (e & Q1 & Q2). destruct e as [k f'| | | |]; try contradiction. destruct k; try contradiction. destruct Q2 as [<-|[]]. eexists. split; [reflexivity|exact Q1].
    + rewrite N2, P' in CA. apply (answer_frame _ _ _ _ _ _ (MB _) CA N3).
Qed.
End Device.
