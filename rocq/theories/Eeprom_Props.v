(** C26-C28: the user EEPROM *)
From Verif Require Import Base Bits Eeprom_Model Eeprom_Spec Eeprom_Proofs.

(** the device and its idealised view agree *)
Definition agrees (c : ecfg) (e : eeprom) (x : ideal) : Prop :=
  sector_ok c (sector e) /\ content c (sector e) (stored x) /\ data e = now x /\ isModified e = dirty x /\ length (data e) = esize c /\ Forall is_byte (data e).

Lemma step_agrees c ev e x : ecfg_ok c -> event_ok ev -> agrees c e x -> exists e', estep c ev e = Some e' /\ agrees c e' (ideal_step ev x).
Proof.
  intros Hc Hev (S & C & D & M & L & B). destruct ev as [i v|b| |].
  - eexists. split; [reflexivity|]. unfold agrees, store, ideal_step. cbn [sector data isModified stored now dirty].
    split; auto. split; auto. split. { now rewrite D. } split; auto. split. { now rewrite wr_length. } apply Forall_wr; auto.
  - eexists. split; [reflexivity|]. unfold agrees, modified, ideal_step. cbn [sector data isModified stored now dirty]. auto 10.
  - cbn [estep ideal_step]. rewrite <- M. destruct (isModified e) eqn:E.
    + destruct (save_spec c e Hc S L B E) as (s' & W & S' & F & P). rewrite W. eexists. split; [reflexivity|].
      unfold agrees. cbn [sector data isModified stored now dirty]. rewrite <- D, <- (marked_without_last c) by auto.
      split; auto. split. { apply (found_content _ _ _ _ F P). } split; auto. split; auto.
      split. { now rewrite marked_length. } now apply marked_bytes.
    + unfold writeUserEeprom. rewrite E. eexists. split; [reflexivity|]. unfold agrees. rewrite E. auto 10.
  - eexists. split; [reflexivity|]. pose proof (read_content c e Hc (proj1 S)) as R.
    assert (Q : data (readUserEeprom c e) = stored x) by apply (content_unique _ _ _ _ R C).
    destruct (content_shape c (sector e) (stored x) (proj1 (proj2 S)) C) as (L' & B').
    unfold agrees. rewrite Q. cbn [readUserEeprom sector isModified ideal_step stored now dirty]. auto 10.
Qed.
Lemma run_agrees c l : ecfg_ok c -> Forall event_ok l -> forall e x, agrees c e x -> exists e', eruns c l e = Some e' /\ agrees c e' (ideal_run l x).
Proof.
  intros Hc Hl. induction Hl as [|ev l Hev Hl IH]; intros e x A.
  - exists e. split; auto.
  - destruct (step_agrees c ev e x Hc Hev A) as (e1 & S1 & A1). cbn [eruns]. rewrite S1. apply (IH e1 _ A1).
Qed.
Lemma on_agrees c s old : ecfg_ok c -> sector_ok c s -> content c s old -> agrees c (switched_on c s) (mkIdeal old old false).
Proof.
  intros Hc S C. pose proof (read_content c (mkEep s [] false) Hc (proj1 S)) as R.
  assert (Q : data (switched_on c s) = old) by apply (content_unique _ _ _ _ R C).
  destruct (content_shape c s old (proj1 (proj2 S)) C) as (L & B).
  unfold agrees. rewrite Q. cbn [switched_on readUserEeprom sector isModified stored now dirty]. auto 10.
Qed.

(** C26: whatever is stored, marked, saved and restarted in whatever order, the device never gets stuck in fatalError() and its EEPROM content always is
    that of the idealised EEPROM; in particular a restart after a save reads back what was saved, the last byte excepted *)
Theorem C26_content_survives c l s old :
  ecfg_ok c -> sector_ok c s -> content c s old -> Forall event_ok l ->
  exists e, eruns c l (switched_on c s) = Some e /\ data e = now (ideal_run l (mkIdeal old old false)) /\ isModified e = dirty (ideal_run l (mkIdeal old old false)).
Proof.
  intros Hc S C Hl. destruct (run_agrees c l Hc Hl _ _ (on_agrees c s old Hc S C)) as (e & R & _ & _ & D & M & _).
  exists e. auto.
Qed.
Print Assumptions C26_content_survives.

(** C26, the case a user cares about: everything up to the last byte survives a save followed by a restart, however many saves came before *)
Theorem C26_save_restart c l s old e e' :
  ecfg_ok c -> sector_ok c s -> content c s old -> Forall event_ok l ->
  eruns c l (switched_on c s) = Some e -> eruns c [Modified true; Save; Restart] e = Some e' ->
  length (data e') = esize c /\ (forall i, (i < esize c - 1)%nat -> rd (data e') i = rd (data e) i) /\ rd (data e') (esize c - 1) = 0.
Proof.
  intros Hc S C Hl R R'. destruct (run_agrees c l Hc Hl _ _ (on_agrees c s old Hc S C)) as (e1 & R1 & A).
  assert (e1 = e) by congruence. subst e1.
  destruct (run_agrees c [Modified true; Save; Restart] Hc) with (e := e) (x := ideal_run l (mkIdeal old old false)) as (e2 & R2 & A2); auto.
  { repeat (apply Forall_cons; [exact I|]). apply Forall_nil. }
  assert (e2 = e') by congruence. subst e2. destruct A as (_ & _ & D & _ & L & B). destruct A2 as (_ & _ & D' & _ & L' & _).
  split; auto. unfold ideal_run in D'. cbn [fold_left ideal_step now stored dirty] in D'. fold (ideal_run l (mkIdeal old old false)) in D'.
  rewrite <- D, <- (marked_without_last c) in D' by auto. rewrite D'. split.
  - intros i Hi. unfold marked. apply rd_wr_other. lia.
  - now apply rd_marked_last.
Qed.
Print Assumptions C26_save_restart.

(** C28: in every save of every history the flash is programmed only where it is erased, and no save fails *)
Theorem C28_programs_erased_only c l s old e :
  ecfg_ok c -> sector_ok c s -> content c s old -> Forall event_ok l -> eruns c l (switched_on c s) = Some e ->
  programs_erased (saveOps c e) (sector e) /\ writeUserEeprom c e <> None.
Proof.
  intros Hc S C Hl R. destruct (run_agrees c l Hc Hl _ _ (on_agrees c s old Hc S C)) as (e1 & R1 & A).
  assert (e1 = e) by congruence. subst e1. pose proof A as A0. destruct A as (S' & _ & _ & _ & L & B).
  split.
  - pose proof (nextPage_range c (sector e) Hc) as N. destruct (prepared_ok c (sector e) Hc S') as (P1 & P2 & P3).
    assert (L' : length (marked c (data e)) = esize c) by (now rewrite marked_length).
    pose proof (progOps_erased c (prepared c (sector e)) (marked c (data e)) (nextPage c (sector e)) Hc P1 L' (marked_bytes c _ B) N (P3 _ (conj (le_n _) N))) as P.
    unfold saveOps. unfold prepared in P. destruct (Nat.eqb (nextPage c (sector e)) 0); auto.
    split; auto. intros s' E. cbn [doOp] in E. assert (s' = repeat 255 FLASH_SECTOR_SIZE) by congruence. now subst.
  - destruct (step_agrees c Save e _ Hc I A0) as (e2 & E & _). cbn [estep] in E. rewrite E. discriminate.
Qed.
Print Assumptions C28_programs_erased_only.

(** C27, the part that holds: if the save need not erase the sector, power loss at any point leaves the old or the new content.
    Missing: saves that start over at the first page (see below); the flash is assumed to be programmed in address order, so the marker comes last *)
Theorem C27_power_loss_partial c l s old e s' d :
  ecfg_ok c -> sector_ok c s -> content c s old -> Forall event_ok l -> eruns c l (switched_on c s) = Some e ->
  ~ starts_over (saveOps c e) -> power_lost (saveOps c e) (sector e) s' -> content c s' d ->
  content c (sector e) d \/ d = without_last (data e).
Proof.
  intros Hc S C Hl R NS P Cd. destruct (run_agrees c l Hc Hl _ _ (on_agrees c s old Hc S C)) as (e1 & R1 & A).
  assert (e1 = e) by congruence. subst e1. destruct A as (S' & C' & _ & _ & L & B).
  pose proof (nextPage_range c (sector e) Hc) as N. destruct (prepared_ok c (sector e) Hc S') as (P1 & P2 & P3).
  assert (L' : length (marked c (data e)) = esize c) by (now rewrite marked_length).
  assert (N0 : nextPage c (sector e) <> 0%nat).
  { intros E. apply NS. unfold saveOps. rewrite E. cbn [Nat.eqb app]. eexists; reflexivity. }
  unfold prepared in P1, P2, P3. unfold saveOps in P. apply Nat.eqb_neq in N0. rewrite N0 in P1, P2, P3, P. cbn [app] in P. apply Nat.eqb_neq in N0.
  set (p := nextPage c (sector e)) in *. rewrite <- (marked_without_last c) by auto.
  destruct (progOps_lost c (sector e) (marked c (data e)) p Hc P1 L' (marked_bytes c _ B) N (P3 _ (conj (le_n _) N)) s' P) as (n & Hn & F).
  assert (E1 : (1 <= esize c)%nat) by (destruct Hc as ((? & ?) & _); lia).
  destruct (Nat.eq_dec n (esize c)) as [->|Nn].
  - right. destruct (saved_page c (sector e) p (marked c (data e)) s' Hc P1 P2 L' (marked_bytes c _ B) (rd_marked_last c _ Hc L) N) as (_ & Fi & Pc); auto.
    { intros q Hq. apply P3. lia. }
    apply (content_unique c s' _ _ Cd). apply (found_content _ _ _ _ Fi Pc).
  - left. assert (SM : forall q, (q < numEepromPages c)%nat -> rd s' (q * fsize c + (esize c - 1)) = rd (sector e) (q * fsize c + (esize c - 1))).
    { intros q Hq. destruct (Nat.eq_dec p q) as [<-|Npq].
      - apply (filled_not_yet _ _ _ _ _ _ _ F). lia.
      - apply (filled_other c (sector e) p (marked c (data e)) n s' q); auto. lia. }
    assert (US : forall q, used c s' q <-> used c (sector e) q).
    { intros q. unfold used. split; intros (U & V); (split; [auto|]); [rewrite <- SM by auto|rewrite SM by auto]; auto. }
    assert (NU : ~ used c (sector e) p) by (intros (_ & V); apply V; apply (P3 p); lia).
    destruct Cd as [(q & U & Hi & ->)|(Hn0 & ->)].
    + left. exists q. split. { now apply US. } split. { intros r Hr Ur. apply (Hi r Hr). now apply US. }
      unfold page_content. apply map_ext_in. intros i I. apply in_seq in I.
      apply (filled_other c (sector e) p (marked c (data e)) n s' q); auto; [|lia]. intros <-. apply NU. now apply US.
    + right. split; auto. intros q U. apply (Hn0 q). now apply US.
Qed.
Print Assumptions C27_power_loss_partial.

(** C27 is false when the save has to erase the sector: in every such save, losing power after the erase loses the whole content, old and new *)
Theorem C27_erasing_save_refuted c e :
  ecfg_ok c -> starts_over (saveOps c e) ->
  exists s', power_lost (saveOps c e) (sector e) s' /\ content c s' (repeat 0 (esize c)).
Proof.
  intros Hc (r & E). rewrite E. exists (repeat 255 FLASH_SECTOR_SIZE). split.
  - eapply lost_later; [reflexivity|]. apply lost_here.
  - right. split; auto. intros q (U & V). apply V. apply rd_ff. apply page_in; auto. destruct Hc as ((? & ?) & _); lia.
Qed.
Print Assumptions C27_erasing_save_refuted.

(** with the one-page layouts (masks 0701, 0705 and SystemB) every save is such a save *)
Theorem C27_one_page_always_erases c e : ecfg_ok c -> numEepromPages c = 1%nat -> starts_over (saveOps c e).
Proof.
  intros Hc E. pose proof (nextPage_range c (sector e) Hc) as N. assert (nextPage c (sector e) = 0%nat) as Z by lia.
  unfold saveOps. rewrite Z. eexists; reflexivity.
Qed.
Print Assumptions C27_one_page_always_erases.

Lemma findPage_ext c s s' n : (forall q, (q < n)%nat -> rd s' (q * fsize c + (esize c - 1)) = rd s (q * fsize c + (esize c - 1))) -> findPage c s' n = findPage c s n.
Proof. induction n; intros H; auto. cbn [findPage]. rewrite H by lia. rewrite IHn; auto. Qed.
Lemma progOps_first c p d : ecfg_ok c -> exists r, progOps c p d = Prog (p * fsize c) (firstn CHUNK d) :: r.
Proof.
  intros Hc. destruct (chunk_count c Hc) as (A & B). unfold progOps. destruct ((esize c + CHUNK - 1) / CHUNK)%nat as [|m] eqn:E.
  - exfalso. destruct Hc as ((? & ?) & _). lia.
  - cbn [seq map]. rewrite Nat.mul_0_r, Nat.add_0_r. cbn [skipn]. eexists; reflexivity.
Qed.
(** C28 does not survive a power loss: if power fails after the first byte of a page (here a 0) has been programmed, every later save of content with
    another first byte ends in fatalError(), restart or not, since the half-written page is never recognised *)
Theorem C28_after_power_loss_refuted c e :
  ecfg_ok c -> (2 <= esize c)%nat -> sector_ok c (sector e) -> length (data e) = esize c -> Forall is_byte (data e) ->
  ~ starts_over (saveOps c e) -> rd (data e) 0 = 0 ->
  exists s', power_lost (saveOps c e) (sector e) s' /\
    forall d, length d = esize c -> rd d 0 <> 0 -> writeUserEeprom c (mkEep s' d true) = None.
Proof.
  intros Hc E2 S L B NS Z0. pose proof (nextPage_range c (sector e) Hc) as N. sz.
  assert (N0 : nextPage c (sector e) <> 0%nat).
  { intros E. apply NS. unfold saveOps. rewrite E. cbn [Nat.eqb app]. eexists; reflexivity. }
  pose proof (page_fits c _ Hc N) as PF. set (p := nextPage c (sector e)) in *.
  exists (program (sector e) (p * fsize c) (firstn 1 (firstn CHUNK (marked c (data e))))).
  assert (L1 : length (firstn 1 (firstn CHUNK (marked c (data e)))) = 1%nat) by (rewrite !firstn_length, marked_length; lia).
  assert (LS : length (sector e) = FLASH_SECTOR_SIZE) by apply S.
  assert (ES : (esize c <= fsize c)%nat) by (destruct Hc as ((? & ?) & _); lia).
  assert (Z1 : rd (marked c (data e)) 0 = 0) by (unfold marked; rewrite rd_wr_other by lia; auto).
  split.
  - unfold saveOps. fold p. apply Nat.eqb_neq in N0. rewrite N0. cbn [app]. destruct (progOps_first c p (marked c (data e)) Hc) as (r & ->). apply lost_programming.
  - intros d Ld Nd. set (s' := program _ _ _) in *. assert (Ls' : length s' = FLASH_SECTOR_SIZE) by (unfold s'; now rewrite program_length).
    assert (R0 : rd s' (p * fsize c) = 0).
    { unfold s'. rewrite rd_program by (rewrite LS, L1; lia). rewrite L1. destruct (_ && _)%bool eqn:E; [|lia].
      rewrite Nat.sub_diag, !rd_firstn by lia. rewrite Z1. apply Z.land_0_r. }
    assert (NP : nextPage c s' = p).
    { unfold p, nextPage, findValidPage. rewrite (findPage_ext c (sector e) s'); auto. intros q Hq.
      unfold s'. rewrite rd_program by (rewrite LS, L1; lia). rewrite L1. destruct (_ && _)%bool eqn:E; auto. exfalso.
      destruct (Nat.eq_dec p q) as [<-|Npq]; [lia|]. pose proof (pages_apart c p q (esize c - 1) Hc Npq ltac:(lia)). lia. }
    unfold writeUserEeprom. cbn [isModified data sector]. rewrite saveOps_run. cbn [data sector]. unfold prepared. rewrite NP.
    apply Nat.eqb_neq in N0. rewrite N0. destruct (progOps_first c p (marked c d) Hc) as (r & ->). cbn [doOps doOp].
    destruct (progAllowed _ _); auto. cbv zeta.
    destruct (list_eq_dec _ _ _) as [Q|Q]; auto. exfalso.
    assert (LP : length (firstn CHUNK (marked c d)) = Nat.min CHUNK (esize c)) by (rewrite firstn_length, marked_length; lia).
    assert (X : rd (firstn (length (firstn CHUNK (marked c d))) (skipn (p * fsize c) (program s' (p * fsize c) (firstn CHUNK (marked c d))))) 0 = rd (firstn CHUNK (marked c d)) 0) by now rewrite Q.
    rewrite !rd_firstn, rd_skipn, Nat.add_0_r in X by lia. rewrite rd_program in X by lia.
    destruct (_ && _)%bool eqn:E in X; [|lia]. rewrite R0, Z.land_0_l in X. unfold marked in X. rewrite rd_wr_other in X by lia. lia.
Qed.
Print Assumptions C28_after_power_loss_refuted.

(** ** Examples *)
Definition bcu1 : ecfg := mkE (Z.to_nat 256) (Z.to_nat 256).
Definition bcu2 : ecfg := mkE (Z.to_nat 1024) (Z.to_nat 1024).
Definition systemb : ecfg := mkE (Z.to_nat 3072) (Z.to_nat 4096).
Example layouts_ok : ecfg_ok bcu1 /\ ecfg_ok bcu2 /\ ecfg_ok systemb.
Proof. sz. unfold ecfg_ok, bcu1, bcu2, systemb. cbn [esize fsize]. repeat apply conj; try lia; try reflexivity; auto. Qed.
Example erased_sector_ok c : ecfg_ok c -> sector_ok c (repeat 255 FLASH_SECTOR_SIZE) /\ content c (repeat 255 FLASH_SECTOR_SIZE) (repeat 0 (esize c)).
Proof.
  intros Hc. assert (H : forall q, ~ used c (repeat 255 FLASH_SECTOR_SIZE) q).
  { intros q (U & V). apply V. apply rd_ff. apply page_in; auto. destruct Hc as ((? & ?) & _); lia. }
  split. - split. { apply repeat_length. } split. { apply bytes_repeat. } intros p q U. destruct (H p U).
  - right. auto.
Qed.
(** two values saved one after the other, each found after the restart; an unsaved third one is lost *)
Example C26_example :
  option_map (fun e => firstn 3 (data e)) (eruns bcu1 [Store 0 17; Modified true; Save; Store 1 34; Modified true; Save; Store 2 51; Modified true; Restart] (switched_on bcu1 (repeat 255 FLASH_SECTOR_SIZE)))
  = Some [17; 34; 0].
Proof. vm_compute. reflexivity. Qed.
Example C26_save_restart_example :
  option_map (fun e => firstn 2 (data e)) (eruns bcu2 ([Store 0 17; Modified true; Save] ++ [Modified true; Save; Restart]) (switched_on bcu2 (repeat 255 FLASH_SECTOR_SIZE))) = Some [17; 0].
Proof. vm_compute. reflexivity. Qed.
(** a device in the middle of its life: page 0 in use, the next save goes to page 1 without erasing *)
Example C27_C28_example :
  option_map (fun e => (length (saveOps bcu1 e), match saveOps bcu1 e with Prog a bs :: _ => (Z.of_nat a, firstn 2 bs) | _ => (0, []) end))
    (eruns bcu1 [Store 1 17; Modified true; Save; Store 1 18; Modified true] (switched_on bcu1 (repeat 255 FLASH_SECTOR_SIZE))) = Some (1%nat, (256, [0; 18])).
Proof. vm_compute. reflexivity. Qed.
(** the 17th save of a BCU1 erases the sector *)
Example C27_erasing_example :
  option_map (fun e => match saveOps bcu1 e with Erase :: _ => true | _ => false end)
    (eruns bcu1 (concat (repeat [Modified true; Save] 16)) (switched_on bcu1 (repeat 255 FLASH_SECTOR_SIZE))) = Some true.
Proof. vm_compute. reflexivity. Qed.
Example C27_one_page_example : numEepromPages systemb = 1%nat.
Proof. reflexivity. Qed.
