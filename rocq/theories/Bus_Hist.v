(** Histories of the link layer. *)
From Verif Require Import Base Bits Bus_Model Bus_Spec Bus_Frame Bus_Inv Bus_Recv Bus_Handle Bus_Handle2 Bus_Send Bus_Steps.

Lemma begin_inv L junk : inv L view0 (begin junk).
Proof.
  exists O. unfold begin, prepareForSending, initState. split.
  - unfold core, job_ok, held_ok, view0. fields. repeat split; try discriminate; auto; cbn; lia.
  - unfold phase. fields. auto.
Qed.
Lemma bruns_inv L l v b : limits_ok L -> inv L v b -> legal_run L l b -> exists b1 os, bruns L l b = Some (b1, os) /\ inv L (sees v os) b1.
Proof.
  intros LO. revert v b. induction l as [|o r IH]; intros v b I Lr; cbn [bruns].
  - exists b, []. auto.
  - destruct Lr as [Lo Lr]. pose proof (step_good L v b o LO Lo I) as G. unfold good in G. destruct (bstep L b o) as [[b1 os]|]; [|contradiction]. destruct G as [_ I1].
    destruct (IH _ _ I1 (Lr _ _ eq_refl)) as (b2 & os2 & E & I2). exists b2, (os ++ os2). rewrite E. split; [reflexivity|]. now rewrite sees_app.
Qed.
Lemma after_inv L junk l b v : limits_ok L -> after L junk l b v -> inv L v b.
Proof.
  intros LO (Lr & os & E & ->). destruct (bruns_inv L l view0 (begin junk) LO (begin_inv L junk) Lr) as (b1 & os1 & E1 & I1). rewrite E in E1. now injection E1 as <- <-.
Qed.
Lemma after_runs L junk l : limits_ok L -> legal_run L l (begin junk) -> exists b os, bruns L l (begin junk) = Some (b, os).
Proof. intros LO Lr. destruct (bruns_inv L l view0 (begin junk) LO (begin_inv L junk) Lr) as (b1 & os1 & E1 & _). eauto. Qed.
Lemma after_step L junk l b v o : limits_ok L -> after L junk l b v -> legal b o -> exists b1 os, bstep L b o = Some (b1, os) /\ permitted L (op_env o) v os.
Proof.
  intros LO A Lo. pose proof (step_good L v b o LO Lo (after_inv L junk l b v LO A)) as G. unfold good in G. destruct (bstep L b o) as [[b1 os]|]; [|contradiction]. destruct G. eauto.
Qed.
Lemma permitted_at L e v os1 x os2 : permitted L e v (os1 ++ x :: os2) -> allowed L e (sees v os1) x.
Proof. revert v. induction os1 as [|o r IH]; intros v; cbn; [tauto|]. intros [_ H]. now apply IH in H. Qed.
(** every event of every history is an allowed one *)
Lemma occurs_allowed L junk x v e : limits_ok L -> occurs L junk x v e -> allowed L e v x.
Proof.
  intros LO (l & b & v0 & o & b1 & os1 & os2 & A & Lo & E & -> & ->). destruct (after_step L junk l b v0 o LO A Lo) as (b2 & os & E2 & P). rewrite E in E2. injection E2 as <- <-. now apply permitted_at in P.
Qed.
