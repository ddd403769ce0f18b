(** The invariant that links the transport layer state to what the observer has seen. *)
From Verif Require Import Base Bits Telegram_Model Telegram_Spec Telegram_Proofs TL4_Model TL4_Spec TL4_Proofs.

Definition mod16 (n : nat) : Z := Z.of_nat n mod 16.
Lemma mod16_range n : 0 <= mod16 n < 16. Proof. apply Z.mod_pos_bound; lia. Qed.
Lemma mod16_S n : Z.land (mod16 n + 1) 0x0F = mod16 (S n).
Proof.
  rewrite land_15. unfold mod16. rewrite Nat2Z.inj_succ, <- Z.add_1_r.
  rewrite Z.add_mod_idemp_l by lia. reflexivity.
Qed.

(** ** in_order *)
Lemma in_order_app l : forall n t,
  in_order n (l ++ [t]) =
  in_order n l ++ (if seqno t =? (n + Z.of_nat (length (in_order n l))) mod 16 then [t] else []).
Proof.
  induction l as [|x l IH]; intros n t; simpl.
  - rewrite Z.add_0_r. reflexivity.
  - destruct (seqno x =? n mod 16); simpl; rewrite IH; auto.
    do 2 f_equal. rewrite Nat2Z.inj_succ. replace (n + 1 + Z.of_nat (length (in_order (n + 1) l))) with (n + Z.succ (Z.of_nat (length (in_order (n + 1) l)))) by lia.
    reflexivity.
Qed.
Lemma in_order_numbers l : forall n,
  map seqno (in_order n l) = map (fun i => (n + Z.of_nat i) mod 16) (seq 0 (length (in_order n l))).
Proof.
  induction l as [|x l IH]; intros n; simpl; auto.
  destruct (Z.eqb_spec (seqno x) (n mod 16)); auto. simpl. f_equal.
  - rewrite Z.add_0_r. auto.
  - rewrite IH. rewrite <- seq_shift, map_map. apply map_ext. intros. f_equal. lia.
Qed.

Lemma in_order_repeat t k l n : seqno t = n mod 16 ->
  in_order (n + 1) (repeat t k ++ l) = in_order (n + 1) l.
Proof.
  intros H. induction k; simpl; auto.
  destruct (Z.eqb_spec (seqno t) ((n + 1) mod 16)); auto.
  exfalso. rewrite H in e. pose proof (Z.div_mod n 16). pose proof (Z.div_mod (n+1) 16). lia.
Qed.
Lemma in_order_stutter reqs l : stutter reqs l -> forall n, numbered_from n reqs -> in_order n l = reqs.
Proof.
  induction 1 as [|t k reqs l H IH]; intros n N; simpl; auto.
  pose proof (N O ltac:(simpl; lia)) as N0. simpl in N0. rewrite Z.add_0_r in N0.
  rewrite N0, Z.eqb_refl. f_equal. rewrite in_order_repeat by auto. apply IH.
  intros i Hi. specialize (N (S i) ltac:(simpl; lia)). simpl in N. rewrite N. f_equal. lia.
Qed.

(** ** Invariant of an open connection *)
Definition queue (g : session) (s1 s2 : bufstate) (b1 b2 : list Z) : list (list Z) :=
  map (fun c => hd [] c) (groups g) ++ (match s1 with ACQUIRED => [frame b1] | _ => [] end)
  ++ (match s2 with ACQUIRED => [frame b2] | _ => [] end).

Record InvO (st : tlstate) (caddr seqS seqR repC ctime stime : Z) (b1 : list Z) (s1 : bufstate) (b2 : list Z) (s2 : bufstate)
            (g : session) : Prop := {
  i_open : st <> CLOSED;
  i_peer : caddr = peer g;
  i_peer16 : is_u16 (peer g);
  i_exec : exec g = in_order 0 (rx g);
  i_seqR : seqR = mod16 (length (exec g));
  i_seqS : seqS = mod16 (acked g);
  i_time : ctime = u32 (last g);
  i_stime : waiting g = true -> stime = u32 (sent_at g);
  i_made : forall p, In p (made g) -> In (fst p) (exec g);
  i_wait : waiting g = true <-> st = OPEN_WAIT;
  i_nonempty : waiting g = true -> groups g <> [];
  i_sending : waiting g = true -> s1 = SENDING /\ 0 <= repC <= 3 /\
              List.last (groups g) [] = repeat (frame b1) (S (Z.to_nat repC));
  i_idle : waiting g = false -> s1 <> SENDING;
  i_groups : forall i, (i < length (groups g))%nat -> exists f k req resp,
     nth i (groups g) [] = repeat f (S k) /\ (k <= 3)%nat /\ In (req, resp) (made g) /\
     carries (peer g) (mod16 i) req resp f;
  i_b1 : s1 = ACQUIRED -> exists req resp, In (req, resp) (made g) /\ carries (peer g) (mod16 (acked g)) req resp (frame b1);
  i_b2 : s2 <> FREE -> s2 = ACQUIRED /\ s1 <> FREE /\ exists req resp, In (req, resp) (made g) /\
         carries (peer g) (mod16 (S (acked g))) req resp (frame b2);
  i_fifo : crowded g = false -> length (queue g s1 s2 b1 b2) = length (made g) /\
     forall i, (i < length (made g))%nat ->
       carries (peer g) (mod16 i) (fst (nth i (made g) ([],[]))) (snd (nth i (made g) ([],[])))
               (nth i (queue g s1 s2 b1 b2) [])
}.

Definition Inv (s : tl4) (cur : option session) : Prop :=
  WFtx s /\ app_buffer (txb s) /\ app_buffer (b1 s) /\ app_buffer (b2 s) /\ is_u16 (own s) /\ is_u16 (caddr s) /\
  match cur with
  | None => st s = CLOSED /\ s1 s = FREE /\ s2 s = FREE
  | Some g => InvO (st s) (caddr s) (seqS s) (seqR s) (repC s) (ctime s) (stime s) (b1 s) (s1 s) (b2 s) (s2 s) g
  end.

Lemma acked_waiting g : waiting g = true -> groups g <> [] -> length (groups g) = S (acked g).
Proof. intros H N. unfold acked. rewrite H. destruct (groups g); simpl; congruence. Qed.
Lemma acked_idle g : waiting g = false -> length (groups g) = acked g.
Proof. intros H. unfold acked. rewrite H. auto. Qed.

(** number of responses in the two buffers and on the way *)
Lemma made_length st ca sS sR rC ct sm b1 s1 b2 s2 g : InvO st ca sS sR rC ct sm b1 s1 b2 s2 g -> crowded g = false ->
  length (made g) = (length (groups g) + (match s1 with ACQUIRED => 1 | _ => 0 end) + (match s2 with ACQUIRED => 1 | _ => 0 end))%nat.
Proof.
  intros I C. destruct (i_fifo _ _ _ _ _ _ _ _ _ _ _ _ I C) as [L _]. rewrite <- L. unfold queue.
  rewrite !app_length, map_length. destruct s1, s2; simpl; lia.
Qed.

Lemma not_crowded_room st ca sS sR rC ct sm b1 s1 b2 s2 g : InvO st ca sS sR rC ct sm b1 s1 b2 s2 g ->
  (crowded g || (2 <=? Z.of_nat (outstanding g)))%bool = false ->
  crowded g = false /\ s2 = FREE /\
  (s1 = FREE -> length (made g) = acked g) /\ (s1 <> FREE -> length (made g) = S (acked g)).
Proof.
  intros I H. apply orb_false_iff in H as [C O]. split; auto.
  pose proof (made_length _ _ _ _ _ _ _ _ _ _ _ _ I C) as ML. unfold outstanding in O.
  destruct (waiting g) eqn:W.
  - pose proof (acked_waiting g W (i_nonempty _ _ _ _ _ _ _ _ _ _ _ _ I W)).
    destruct (i_sending _ _ _ _ _ _ _ _ _ _ _ _ I W) as [-> _].
    destruct s2.
    + repeat split; auto; try congruence. intros; lia.
    + lia.
    + destruct (i_b2 _ _ _ _ _ _ _ _ _ _ _ _ I ltac:(congruence)) as [X _]. discriminate.
  - pose proof (acked_idle g W). pose proof (i_idle _ _ _ _ _ _ _ _ _ _ _ _ I W).
    destruct s2.
    + repeat split; auto; intros; destruct s1; try congruence; lia.
    + destruct (i_b2 _ _ _ _ _ _ _ _ _ _ _ _ I ltac:(congruence)) as (_ & X & _).
      destruct s1; try congruence. lia.
    + destruct (i_b2 _ _ _ _ _ _ _ _ _ _ _ _ I ltac:(congruence)) as [X _]. discriminate.
Qed.

(** *** Transitions *)
Definition g_rx g t now := mkSession (peer g) (rx g ++ [t]) (exec g) (made g) (groups g) (waiting g) now (sent_at g) (crowded g).
Definition g_ack g now := mkSession (peer g) (rx g) (exec g) (made g) (groups g) false now (sent_at g) (crowded g).
Definition g_tx g now f := mkSession (peer g) (rx g) (exec g) (made g) (add_copy (groups g) (waiting g) f) true now now (crowded g).

Lemma T_rx st ca sS sR rC ct sm b1 s1 b2 s2 g t now : InvO st ca sS sR rC ct sm b1 s1 b2 s2 g ->
  seqno t <> sR -> InvO st ca sS sR rC (u32 now) sm b1 s1 b2 s2 (g_rx g t now).
Proof.
  intros I N. destruct I. constructor; simpl; auto.
  rewrite in_order_app, <- i_exec0, Z.add_0_l. fold (mod16 (length (exec g))). rewrite <- i_seqR0.
  destruct (Z.eqb_spec (seqno t) sR); try easy. rewrite app_nil_r. auto.
Qed.

Lemma exec_rx st ca sS sR rC ct sm b1 s1 b2 s2 g t : InvO st ca sS sR rC ct sm b1 s1 b2 s2 g -> seqno t = sR ->
  exec g ++ [t] = in_order 0 (rx g ++ [t]).
Proof.
  intros I N. rewrite in_order_app, Z.add_0_l, <- (i_exec _ _ _ _ _ _ _ _ _ _ _ _ I).
  fold (mod16 (length (exec g))). rewrite <- (i_seqR _ _ _ _ _ _ _ _ _ _ _ _ I).
  destruct (Z.eqb_spec (seqno t) sR); easy.
Qed.

Lemma T_exec1_resp st ca sS sR rC ct sm b1 b2 s2 g t now resp : InvO st ca sS sR rC ct sm b1 FREE b2 s2 g ->
  seqno t = sR -> app_buffer resp ->
  InvO st ca sS (Z.land (sR + 1) 0x0F) rC (u32 now) sm (finishResponse t resp ca sS) ACQUIRED b2 s2
       (note_exec (g_rx g t now) (true, resp) t).
Proof.
  intros I N A. pose proof (exec_rx _ _ _ _ _ _ _ _ _ _ _ _ t I N) as EX.
  assert (W : waiting g = false).
  { destruct (waiting g) eqn:W; auto. destruct (i_sending _ _ _ _ _ _ _ _ _ _ _ _ I W); discriminate. }
  assert (S2 : s2 = FREE).
  { destruct s2; auto; destruct (i_b2 _ _ _ _ _ _ _ _ _ _ _ _ I ltac:(congruence)) as (_ & X & _); congruence. }
  assert (CAR : carries (peer g) (mod16 (acked g)) t resp (frame (finishResponse t resp ca sS))).
  { rewrite (i_seqS _ _ _ _ _ _ _ _ _ _ _ _ I), (i_peer _ _ _ _ _ _ _ _ _ _ _ _ I).
    apply carries_finish; auto using mod16_range. apply (i_peer16 _ _ _ _ _ _ _ _ _ _ _ _ I). }
  pose proof (fun H => not_crowded_room _ _ _ _ _ _ _ _ _ _ _ _ I H) as NC.
  pose proof I as I'. destruct I. constructor; simpl; auto; try congruence.
  - rewrite i_seqR0, mod16_S. rewrite app_length. simpl. f_equal. lia.
  - intros p. rewrite !in_app_iff. intros [H|[<-|[]]]; simpl; auto.
  - intros. destruct (i_groups0 i H) as (f & k & req & r & G1 & G2 & G3 & G4).
    exists f, k, req, r. rewrite in_app_iff. auto.
  - intros _. exists t, resp. rewrite in_app_iff. simpl. unfold acked in *. simpl. auto.
  - intros C. destruct (NC C) as (C1 & _ & L1 & _). specialize (L1 eq_refl).
    destruct (i_fifo0 C1) as [Q1 Q2].
    assert (QE : queue (note_exec (g_rx g t now) (true, resp) t) ACQUIRED s2 (finishResponse t resp ca sS) b2
                 = queue g FREE s2 b1 b2 ++ [frame (finishResponse t resp ca sS)]).
    { unfold queue. simpl. rewrite S2. simpl. rewrite !app_nil_r. reflexivity. }
    rewrite QE, !app_length, Q1. simpl. split; auto. intros i Hi.
    destruct (Nat.lt_ge_cases i (length (made g))).
    + rewrite !app_nth1 by lia. apply Q2; auto.
    + assert (i = length (made g)) by lia. subst i.
      rewrite !app_nth2 by lia. rewrite Q1, Nat.sub_diag. simpl. rewrite L1. auto.
Qed.

Lemma T_exec2_resp st ca sS sR rC ct sm b1 s1 b2 s2 g t now resp : InvO st ca sS sR rC ct sm b1 s1 b2 s2 g ->
  s1 <> FREE -> seqno t = sR -> app_buffer resp ->
  InvO st ca sS (Z.land (sR + 1) 0x0F) rC (u32 now) sm b1 s1 (finishResponse t resp ca (Z.land (sS + 1) 0x0F)) ACQUIRED
       (note_exec (g_rx g t now) (true, resp) t).
Proof.
  intros I F N A. pose proof (exec_rx _ _ _ _ _ _ _ _ _ _ _ _ t I N) as EX.
  assert (CAR : carries (peer g) (mod16 (S (acked g))) t resp (frame (finishResponse t resp ca (Z.land (sS + 1) 0x0F)))).
  { rewrite (i_seqS _ _ _ _ _ _ _ _ _ _ _ _ I), mod16_S, (i_peer _ _ _ _ _ _ _ _ _ _ _ _ I).
    apply carries_finish; auto using mod16_range. apply (i_peer16 _ _ _ _ _ _ _ _ _ _ _ _ I). }
  pose proof (fun H => not_crowded_room _ _ _ _ _ _ _ _ _ _ _ _ I H) as NC.
  pose proof I as I'. destruct I. constructor; simpl; auto; try congruence.
  - rewrite i_seqR0, mod16_S. rewrite app_length. simpl. f_equal. lia.
  - intros p. rewrite !in_app_iff. intros [H|[<-|[]]]; simpl; auto.
  - intros. destruct (i_groups0 i H) as (f & k & req & r & G1 & G2 & G3 & G4).
    exists f, k, req, r. rewrite in_app_iff. auto.
  - intros. destruct (i_b3 H) as (req & r & G1 & G2). exists req, r. rewrite in_app_iff. auto.
  - intros _. split; auto. split; auto. exists t, resp. rewrite in_app_iff. simpl. auto.
  - intros C. destruct (NC C) as (C1 & S2 & _ & L1). specialize (L1 F).
    destruct (i_fifo0 C1) as [Q1 Q2].
    assert (QE : queue (note_exec (g_rx g t now) (true, resp) t) s1 ACQUIRED b1 (finishResponse t resp ca (Z.land (sS + 1) 0x0F))
                 = queue g s1 s2 b1 b2 ++ [frame (finishResponse t resp ca (Z.land (sS + 1) 0x0F))]).
    { unfold queue. simpl. rewrite S2. simpl. rewrite !app_nil_r, <- app_assoc. reflexivity. }
    rewrite QE, !app_length, Q1. simpl. split; auto. intros i Hi.
    destruct (Nat.lt_ge_cases i (length (made g))).
    + rewrite !app_nth1 by lia. apply Q2; auto.
    + assert (i = length (made g)) by lia. subst i.
      rewrite !app_nth2 by lia. rewrite Q1, Nat.sub_diag. simpl. rewrite L1. auto.
Qed.

Lemma T_exec1_none st ca sS sR rC ct sm b1 b2 s2 g t now resp : InvO st ca sS sR rC ct sm b1 FREE b2 s2 g ->
  seqno t = sR ->
  InvO st ca sS (Z.land (sR + 1) 0x0F) rC (u32 now) sm resp FREE b2 s2 (note_exec (g_rx g t now) (false, resp) t).
Proof.
  intros I N. pose proof (exec_rx _ _ _ _ _ _ _ _ _ _ _ _ t I N) as EX.
  assert (W : waiting g = false).
  { destruct (waiting g) eqn:W; auto. destruct (i_sending _ _ _ _ _ _ _ _ _ _ _ _ I W); discriminate. }
  destruct I. constructor; simpl; auto; try congruence.
  - rewrite i_seqR0, mod16_S. rewrite app_length. simpl. f_equal. lia.
  - intros p H. rewrite in_app_iff. auto.
  - intros C. apply orb_false_iff in C as [C _]. apply i_fifo0; auto.
Qed.

Lemma T_exec2_none st ca sS sR rC ct sm b1 s1 b2 s2 g t now resp : InvO st ca sS sR rC ct sm b1 s1 b2 s2 g ->
  s1 <> FREE -> seqno t = sR ->
  InvO st ca sS (Z.land (sR + 1) 0x0F) rC (u32 now) sm b1 s1 resp FREE (note_exec (g_rx g t now) (false, resp) t).
Proof.
  intros I F N. pose proof (exec_rx _ _ _ _ _ _ _ _ _ _ _ _ t I N) as EX.
  pose proof (fun H => not_crowded_room _ _ _ _ _ _ _ _ _ _ _ _ I H) as NC.
  destruct I. constructor; simpl; auto; try congruence.
  - rewrite i_seqR0, mod16_S. rewrite app_length. simpl. f_equal. lia.
  - intros p H. rewrite in_app_iff. auto.
  - intros C. destruct (NC C) as (C1 & S2 & _). specialize (i_fifo0 C1). subst s2.
    unfold queue in *. simpl in *. auto.
Qed.

Lemma T_ack ca sS sR rC ct sm b1 s1 b2 s2 g now st : InvO st ca sS sR rC ct sm b1 s1 b2 s2 g ->
  waiting g = true -> app_buffer b1 -> app_buffer b2 ->
  InvO OPEN_IDLE ca (Z.land (sS + 1) 0x0F) sR rC (u32 now) sm
       (match s2 with FREE => b1 | _ => blit b1 b2 (telegramSize b2) end) s2 b2 FREE (g_ack g now).
Proof.
  intros I W A1 A2. pose proof (acked_waiting g W (i_nonempty _ _ _ _ _ _ _ _ _ _ _ _ I W)) as AW.
  assert (AK : acked (g_ack g now) = S (acked g)) by (unfold acked at 1; simpl; auto).
  destruct (i_sending _ _ _ _ _ _ _ _ _ _ _ _ I W) as (S1 & _).
  destruct I. constructor; simpl; auto; try congruence.
  - rewrite i_seqS0, mod16_S, AK. auto.
  - split; congruence.
  - intros _ X. destruct s2; try congruence. destruct (i_b4 ltac:(congruence)) as [Y _]. congruence.
  - intros X. subst s2. destruct (i_b4 ltac:(congruence)) as (_ & _ & req & r & G1 & G2).
    exists req, r. split; auto. rewrite AK, frame_blit; auto.
  - intros C. specialize (i_fifo0 C). destruct i_fifo0 as [Q1 Q2]. subst s1.
    assert (QE : queue (g_ack g now) s2 FREE (match s2 with FREE => b1 | _ => blit b1 b2 (telegramSize b2) end) b2
                 = queue g SENDING s2 b1 b2).
    { unfold queue. simpl. destruct s2; simpl; auto. rewrite frame_blit; auto. }
    rewrite QE. auto.
Qed.

Lemma repeat_snoc A (x : A) n : repeat x n ++ [x] = repeat x (S n).
Proof. induction n; simpl; auto. f_equal. auto. Qed.

Lemma T_rep ca sS sR rC ct sm b1 s1 b2 s2 g now st : InvO st ca sS sR rC ct sm b1 s1 b2 s2 g ->
  waiting g = true -> rC < 3 ->
  InvO st ca sS sR (rC + 1) (u32 now) (u32 now) b1 s1 b2 s2 (g_tx g now (frame b1)).
Proof.
  intros I W R. pose proof (i_nonempty _ _ _ _ _ _ _ _ _ _ _ _ I W) as NE.
  destruct (i_sending _ _ _ _ _ _ _ _ _ _ _ _ I W) as (S1 & R0 & LST).
  pose proof (app_removelast_last [] NE) as SPL.
  set (gs := removelast (groups g)) in *. rewrite LST in SPL.
  assert (NG : groups (g_tx g now (frame b1)) = gs ++ [repeat (frame b1) (S (S (Z.to_nat rC)))]).
  { simpl. unfold add_copy. rewrite W. fold gs. rewrite LST, repeat_snoc. auto. }
  assert (LEN : length (groups (g_tx g now (frame b1))) = length (groups g)).
  { rewrite NG, SPL, !app_length. auto. }
  assert (AK : acked (g_tx g now (frame b1)) = acked g).
  { unfold acked. simpl waiting. rewrite W, LEN. auto. }
  destruct I. constructor; auto; simpl waiting in *; try (simpl; auto; fail).
  - rewrite AK. auto.
  - split; auto. intros. apply i_wait0, W.
  - intros _. rewrite NG. destruct gs; discriminate.
  - intros _. split; auto. split; [lia|]. rewrite NG, last_last.
    replace (Z.to_nat (rC + 1)) with (S (Z.to_nat rC)) by lia. auto.
  - congruence.
  - intros i Hi. rewrite LEN in Hi. destruct (i_groups0 i Hi) as (f & k & req & r & G1 & G2 & G3 & G4).
    rewrite NG. destruct (Nat.lt_ge_cases i (length gs)).
    + rewrite app_nth1 by lia. rewrite SPL, app_nth1 in G1 by lia. exists f, k, req, r. auto.
    + assert (i = length gs) by (rewrite SPL, app_length in Hi; simpl in Hi; lia). subst i.
      rewrite app_nth2, Nat.sub_diag by lia. rewrite SPL, app_nth2, Nat.sub_diag in G1 by lia. simpl in G1.
      inversion G1; subst f. exists (frame b1), (S (Z.to_nat rC)), req, r.
      split; [auto|split; [lia|split; auto]].
  - rewrite AK. auto.
  - rewrite AK. auto.
  - intros C. specialize (i_fifo0 C). unfold queue in *. rewrite NG. rewrite SPL in i_fifo0.
    rewrite !map_app in *. exact i_fifo0.
Qed.

Lemma T_send ca sS sR rC ct sm b1 b2 s2 g now st : InvO st ca sS sR rC ct sm b1 ACQUIRED b2 s2 g ->
  InvO OPEN_WAIT ca sS sR 0 (u32 now) (u32 now) b1 SENDING b2 s2 (g_tx g now (frame b1)).
Proof.
  intros I.
  assert (W : waiting g = false).
  { destruct (waiting g) eqn:W; auto. destruct (i_sending _ _ _ _ _ _ _ _ _ _ _ _ I W); discriminate. }
  assert (NG : groups (g_tx g now (frame b1)) = groups g ++ [[frame b1]]).
  { simpl. unfold add_copy. rewrite W. auto. }
  assert (AK : acked (g_tx g now (frame b1)) = acked g).
  { unfold acked. simpl waiting. rewrite W, NG, app_length. simpl. lia. }
  pose proof (acked_idle g W) as AI.
  destruct I. constructor; auto; simpl waiting in *; try (simpl; auto; congruence).
  - split; auto.
  - intros _. rewrite NG. destruct (groups g); discriminate.
  - intros _. split; auto. split; [lia|]. rewrite NG, last_last. reflexivity.
  - intros i Hi. rewrite NG in *. rewrite app_length in Hi. simpl in Hi.
    destruct (Nat.lt_ge_cases i (length (groups g))).
    + rewrite app_nth1 by lia. apply i_groups0; auto.
    + assert (i = length (groups g)) by lia. subst i.
      rewrite app_nth2, Nat.sub_diag by lia. destruct (i_b3 eq_refl) as (req & r & G1 & G2).
      exists (frame b1), 0%nat, req, r. rewrite AI. split; [auto|split; [lia|split; auto]].
  - rewrite AK. intros X. destruct (i_b4 X) as (Y1 & Y2 & Y3). repeat split; auto. congruence.
  - intros C. specialize (i_fifo0 C). unfold queue in *. rewrite NG, map_app, <- app_assoc. exact i_fifo0.
Qed.

Lemma T_connect a now rC sm b1 b2 : is_u16 a ->
  InvO OPEN_IDLE a 0 0 rC (u32 now) sm b1 FREE b2 FREE (mkSession a [] [] [] [] false now 0 false).
Proof.
  intros H. constructor; simpl; auto; try congruence; try (intros; lia).
  split; congruence.
  intros _. split; auto. intros; lia.
Qed.
