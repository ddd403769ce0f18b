(** Receiving keeps the invariant. *)
From Verif Require Import Base Bits Bus_Model Bus_Spec Bus_Frame Bus_Inv.

Lemma highBits_form n time b : exists m t p c, highBits n time b = set_bitMask m (set_bitTime t (set_parity p (set_currentByte c b))).
Proof.
  revert b. induction n as [|n IH]; intros b; cbn [highBits].
  - exists (bitMask b), (bitTime b), (parity b), (currentByte b). destruct b; reflexivity.
  - destruct (_ && _).
    + match goal with |- context [highBits n time ?x] => destruct (IH x) as (m & t & p & c & ->) end. exists m, t, p, c. reflexivity.
    + exists (bitMask b), (bitTime b), (parity b), (currentByte b). destruct b; reflexivity.
Qed.
Lemma findBit_form time b : exists m t p c, findBit time b = set_bitMask m (set_bitTime t (set_parity p (set_currentByte c b))).
Proof.
  unfold findBit. destruct (_ <=? _).
  - match goal with |- context [highBits ?n time ?x] => destruct (highBits_form n time x) as (m & t & p & c & ->) end. exists (2 * m), t, p, c. reflexivity.
  - exists (bitMask b), (bitTime b), (parity b), (currentByte b). destruct b; reflexivity.
Qed.

(** a reception begins *)
Lemma initRx_good L e o i v b : core L v b 0 -> iCap i = true -> good L o v (initRx L e i b).
Proof.
  intros C H. unfold initRx, recvWait. rewrite H. cbn [negb]. apply good_also; [cbn; auto|]. unfold good. fields. split; [exact I|].
  exists O. split.
  - eapply core_same; [exact C|fields; try reflexivity..]. intros [A _]. discriminate A.
  - unfold phase, receiving. fields. repeat split; auto; constructor.
Qed.
Lemma land_byte c : is_byte (Z.land c 255).
Proof. rewrite land_255. unfold is_byte. apply Z.mod_pos_bound. lia. Qed.
Lemma endOfByte_good L o v b : core L v b 0 -> receiving v b -> good L o v (Some (endOfByte b)).
Proof.
  intros C (R1 & R2 & R3 & R4 & R5 & R6 & R7 & R8). pose proof C as (Lr & _). unfold endOfByte, good. cbv zeta. fields. split; [exact (conj I I)|].
  set (c := Z.land (currentByte b) 0xff). assert (Bc : is_byte c) by apply land_byte.
  destruct (nextByteIndex b <? maxTelegramSize)%nat eqn:N; fields; exists O; split.
  - unfold core in *. fields. rewrite wr_length. unfold job_ok, held_ok in *. fields. destruct C as (C1 & C2 & C3 & C4 & (C5 & C6) & C7).
    repeat (split; [assumption|]). split; [|exact C7]. split; [exact C5|]. destruct (job v) as [[own t]|]; destruct (sendCur b); auto.
    destruct C6 as (D1 & D2 & D3 & D4 & D5 & D6 & D7 & D8 & D9 & D10). repeat (split; [assumption|]). unfold acked. fields. rewrite R1. intros (_ & X & _). discriminate X.
  - unfold phase, receiving. fields. apply Nat.ltb_lt in N. unfold maxTelegramSize in N. unfold largest in *.
    assert (Hl : (length (heard v) < 23)%nat) by lia. rewrite R3 in *. rewrite Nat.min_l in * by lia.
    assert (F : firstn 23 (heard v ++ [c]) = heard v ++ [c]) by (apply firstn_all2; rewrite app_length; cbn; lia).
    assert (F0 : firstn 23 (heard v) = heard v) by (apply firstn_all2; lia). rewrite F0 in *. rewrite F.
    split; [reflexivity|]. split; [|exists (heard v); split; [reflexivity|]; intros X; rewrite (R7 X); reflexivity].
    repeat (split; [assumption|]). split; [rewrite app_length; cbn; lia|]. split; [rewrite firstn_wr by lia; now rewrite R4|].
    split; [rewrite R5, xor_all_app; cbn [xor_all fold_right]; now rewrite Z.lxor_0_r, Z.lxor_assoc|]. split; [now rewrite R6|].
    split; [intros X; now destruct (heard v)|]. apply Forall_app. split; auto.
  - eapply core_same; [exact C|fields; try reflexivity..]. unfold acked. fields. rewrite R1. intros (_ & X & _). discriminate X.
  - unfold phase, receiving. fields. apply Nat.ltb_ge in N. unfold maxTelegramSize in N. unfold largest in *.
    assert (Hl : (23 <= length (heard v))%nat) by lia. rewrite R3 in *. rewrite Nat.min_r in * by lia.
    assert (F : firstn 23 (heard v ++ [c]) = firstn 23 (heard v)) by (rewrite firstn_app; replace (23 - length (heard v))%nat with O by lia; cbn [firstn]; now rewrite app_nil_r).
    rewrite F. split; [reflexivity|]. split; [|exists (heard v); split; [reflexivity|]; intros X; rewrite X in Hl; cbn in Hl; lia].
    repeat (split; [assumption|]). split; [rewrite app_length; cbn; lia|]. repeat (split; [assumption|]). split; [now rewrite R6|].
    split; [intros X; now destruct (heard v)|]. apply Forall_app. split; auto.
Qed.
Lemma recvBits_good L o i v b : core L v b 0 -> receiving v b -> state b = RECV_BITS_OF_BYTE -> good L o v (Some (recvBits i b)).
Proof.
  intros C R S. unfold recvBits. match goal with |- context [findBit ?t b] => destruct (findBit_form t b) as (m & t0 & p & c & ->) end.
  destruct (iMatch i).
  - apply endOfByte_good; [eapply core_same; [exact C|fields; try reflexivity..]; auto|]. unfold receiving in *. fields. exact R.
  - unfold good. fields. split; [exact I|]. exists O. split; [eapply core_same; [exact C|fields; try reflexivity..]; auto|].
    unfold phase, receiving in *. fields. rewrite S. split; auto.
Qed.

(** the completion report *)
Lemma finish_good L e v b :
  length (rxTel b) = largest -> length (telegram b) = largest -> asked v = false -> held_ok v b -> (sendCur b = None <-> job v = None) -> env_ok e ->
  (sendCur b <> None -> (Z.land (txError b) TX_RETRY_ERROR = 0 <-> acked v)) ->
  exists s os, finishSendingTelegram e b = (prepareForSending (set_sendCur s b), os) /\ permitted L (Some e) v os /\ core L (sees v os) (prepareForSending (set_sendCur s b)) 0 /\
               heard (sees v os) = heard v /\ over (sees v os) = over v /\ asked (sees v os) = false.
Proof.
  intros Lr Lt A H J [U E] K. unfold finishSendingTelegram. destruct (sendCur b) as [f|] eqn:SC.
  - assert (Jn : job v <> None) by (intro X; apply J in X; discriminate). specialize (K ltac:(discriminate)).
    assert (P : allowed L (Some e) v (Report (Z.land (txError b) TX_RETRY_ERROR =? 0))) by (cbn; split; [exact Jn|]; now rewrite Z.eqb_eq).
    destruct (sendsAgain e _) as [t|] eqn:SA.
    + eexists _, _. split; [reflexivity|]. split; [cbn [permitted]; split; [exact P|]; split; [cbn; split; [reflexivity|]; split; [exact U|exact (E _ _ SA)]|exact I]|]. fields. split; [|auto].
      pose proof (E _ _ SA) as [T1 T2].
      unfold core, prepareForSending, job_ok, held_ok in *. fields. split; [exact Lr|]. split; [exact Lt|]. split; [reflexivity|]. split; [exact A|]. split; [|exact H]. split; [lia|].
      rewrite size_eq. split; [split; auto|]. split; [exact U|]. split; [left; apply prepare_ok; [exact U|split; auto]|]. split; [lia|]. split; [lia|]. split; [auto|]. split; [congruence|].
      split; [lia|]. split; [reflexivity|]. intros (X & _). discriminate X.
    + eexists _, _. split; [reflexivity|]. split; [cbn [permitted]; split; [exact P|exact I]|]. fields. split; [|auto].
      unfold core, prepareForSending, job_ok, held_ok in *. fields. split; [exact Lr|]. split; [exact Lt|]. split; [reflexivity|]. split; [exact A|]. split; [|exact H]. split; [lia|]. auto.
  - exists None, []. split; [destruct b; cbn in *; now subst|]. split; [exact I|]. fields. split; [|auto].
    assert (Jn : job v = None) by now apply J.
    unfold core, prepareForSending, job_ok, held_ok in *. fields. split; [exact Lr|]. split; [exact Lt|]. split; [reflexivity|]. split; [exact A|]. split; [|exact H]. split; [lia|]. rewrite Jn. auto.
Qed.
