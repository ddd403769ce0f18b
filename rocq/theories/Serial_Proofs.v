(** Proofs for C47, C61 *)
From Verif Require Import Base Serial_Model Serial_Spec.

(** ** Ring buffers *)
Definition queue (h t : Z) (buf : list Z) : list Z :=
  map (fun i => rd buf (Z.to_nat ((h + Z.of_nat i) mod 128))) (seq 0 (Z.to_nat ((t - h) mod 128))).
Lemma mask_mod x : Z.land x BUFFER_SIZE_MASK = x mod 128.
Proof. unfold BUFFER_SIZE_MASK. change 127 with (Z.ones 7). rewrite Z.land_ones by lia. reflexivity. Qed.
Lemma queue_length h t buf : Z.of_nat (length (queue h t buf)) = (t - h) mod 128.
Proof. unfold queue. rewrite map_length, seq_length. rewrite Z2Nat.id; auto. apply Z.mod_pos_bound. lia. Qed.
Lemma queue_nil h t buf : 0 <= h < 128 -> 0 <= t < 128 -> (queue h t buf = [] <-> h = t).
Proof.
  intros Hh Ht. pose proof (queue_length h t buf) as L. split; intros H.
  - rewrite H in L. cbn [length] in L. Z.div_mod_to_equations; lia.
  - subst. destruct (queue t t buf) eqn:E; auto. cbn [length] in L. replace (t - t) with 0 in L by lia. change (0 mod 128) with 0 in L. lia.
Qed.
Lemma queue_push h t buf b : 0 <= h < 128 -> 0 <= t < 128 -> length buf = 128%nat -> (t - h) mod 128 < 127 ->
  queue h ((t + 1) mod 128) (wr buf (Z.to_nat t) b) = queue h t buf ++ [b].
Proof.
  intros Hh Ht Hl Hf. unfold queue.
  replace (Z.to_nat (((t + 1) mod 128 - h) mod 128)) with (S (Z.to_nat ((t - h) mod 128))).
  2:{ assert (((t + 1) mod 128 - h) mod 128 = (t - h) mod 128 + 1) as -> by (Z.div_mod_to_equations; lia).
      pose proof (Z.mod_pos_bound (t - h) 128). lia. }
  rewrite seq_S, map_app. f_equal.
  - apply map_ext_in. intros i Hi. apply in_seq in Hi. rewrite rd_wr_other; auto. Z.div_mod_to_equations; lia.
  - cbn [map]. f_equal. replace (Z.to_nat ((h + Z.of_nat (0 + Z.to_nat ((t - h) mod 128))) mod 128)) with (Z.to_nat t).
    + rewrite rd_wr_same; auto. lia.
    + cbn [Nat.add]. rewrite Z2Nat.id by (apply Z.mod_pos_bound; lia). f_equal. Z.div_mod_to_equations; lia.
Qed.
Lemma queue_pop h t buf : 0 <= h < 128 -> 0 <= t < 128 -> h <> t ->
  queue h t buf = rd buf (Z.to_nat h) :: queue ((h + 1) mod 128) t buf.
Proof.
  intros Hh Ht N. unfold queue.
  replace (Z.to_nat ((t - h) mod 128)) with (S (Z.to_nat ((t - (h + 1) mod 128) mod 128))).
  2:{ assert ((t - h) mod 128 = (t - (h + 1) mod 128) mod 128 + 1) as -> by (Z.div_mod_to_equations; lia).
      pose proof (Z.mod_pos_bound (t - (h + 1) mod 128) 128). lia. }
  cbn [seq map]. f_equal.
  - f_equal. f_equal. rewrite Z.mod_small; lia.
  - rewrite <- seq_shift, map_map. apply map_ext. intros i. f_equal. f_equal. Z.div_mod_to_equations; lia.
Qed.
Lemma full_iff h t buf : 0 <= h < 128 -> 0 <= t < 128 -> ((t + 1) mod 128 =? h) = true <-> length (queue h t buf) = 127%nat.
Proof.
  intros Hh Ht. pose proof (queue_length h t buf). split; intros H0.
  - apply Z.eqb_eq in H0. Z.div_mod_to_equations; lia.
  - apply Z.eqb_eq. Z.div_mod_to_equations; lia.
Qed.
Lemma queue_bound h t buf : (length (queue h t buf) <= 127)%nat.
Proof. pose proof (queue_length h t buf). pose proof (Z.mod_pos_bound (t - h) 128). lia. Qed.
Lemma queue_wr_out h t buf b : 0 <= h < 128 -> 0 <= t < 128 -> queue h t (wr buf (Z.to_nat t) b) = queue h t buf.
Proof.
  intros Hh Ht. unfold queue. apply map_ext_in. intros i Hi. apply in_seq in Hi. rewrite rd_wr_other; auto. Z.div_mod_to_equations; lia.
Qed.

(** ** Invariant: [w] waits to be read, [q] waits to be sent *)
Definition pc_ok (s : state) (w q : list Z) : Prop :=
  match s_pc s with
  | R_Load _ => w <> []
  | R_Inc _ ch => exists r, w = ch :: r
  | W_Direct _ => q = [] /\ s_thre s = true
  | W_Wait _ next => next = (s_wt s + 1) mod 128
  | W_Store _ next => next = (s_wt s + 1) mod 128 /\ (length q < 127)%nat
  | W_Tail ch next => next = (s_wt s + 1) mod 128 /\ (length q < 127)%nat /\ rd (s_wb s) (Z.to_nat (s_wt s)) = ch
  | _ => True
  end.
Definition head_ok (s : state) : Prop :=
  match s_pc s with R_Mask _ _ => 1 <= s_rh s <= 128 | _ => 0 <= s_rh s < 128 end.
Record inv (s : state) (w q : list Z) : Prop := mkInv {
  i_rb : length (s_rb s) = 128%nat;
  i_rt : 0 <= s_rt s < 128;
  i_rh : head_ok s;
  i_w : queue (s_rh s mod 128) (s_rt s) (s_rb s) = w;
  i_wb : length (s_wb s) = 128%nat;
  i_wt : 0 <= s_wt s < 128;
  i_wh : 0 <= s_wh s < 128;
  i_q : queue (s_wh s) (s_wt s) (s_wb s) = q;
  i_pc : pc_ok s w q;
  i_ier : q <> [] -> s_ier s = true \/ s_pc s = W_Ier }.

Definition quiet (o : list obs) : Prop := written o = [] /\ sent o = [] /\ Forall (fun x => match x with Sent _ lost => lost = false | _ => True end) o.

Lemma receive_spec rx : forall s w, length (s_rb s) = 128%nat -> 0 <= s_rt s < 128 -> 0 <= s_rh s < 128 ->
  queue (s_rh s) (s_rt s) (s_rb s) = w ->
  exists o rb rt, receive rx s = (mkS rb (s_rh s) rt (s_wb s) (s_wh s) (s_wt s) [] (s_thre s) (s_ier s) (s_pc s), o) /\
    length rb = 128%nat /\ 0 <= rt < 128 /\ queue (s_rh s) rt rb = w ++ stored o /\ waiting_after w o = w ++ stored o /\
    receive_ok w o /\ taken o = rx /\ quiet o /\ returned o = [].
Proof.
  induction rx as [|b rx IH]; intros s w Hb Ht Hh Hw; cbn [receive].
  - exists [], (s_rb s), (s_rt s). cbn. rewrite app_nil_r. repeat (split; auto). 
  - unfold readBufferFull. rewrite !mask_mod. pose proof (full_iff (s_rh s) (s_rt s) (s_rb s) Hh Ht) as F. rewrite Hw in F.
    destruct ((s_rt s + 1) mod 128 =? s_rh s) eqn:E; cbn [negb].
    + destruct (IH s w Hb Ht Hh Hw) as (o & rb & rt & E1 & E2 & E3 & E4 & E5 & E6 & E7 & (Q1 & Q2 & Q3) & E8). rewrite E1.
      exists (Dropped b :: o), rb, rt. split; auto. split; auto. split; auto. split; [exact E4|]. split; [exact E5|].
      split; [cbn; split; [apply F; auto|auto]|]. split; [cbn; rewrite <- E7; reflexivity|]. split; [|exact E8].
      split; [exact Q1|]. split; [exact Q2|]. constructor; auto.
    + assert (L : (s_rt s - s_rh s) mod 128 < 127).
      { pose proof (queue_length (s_rh s) (s_rt s) (s_rb s)) as K. pose proof (queue_bound (s_rh s) (s_rt s) (s_rb s)). rewrite Hw in *.
        destruct (Nat.eq_dec (length w) 127) as [X|X]; [apply F in X; congruence|lia]. }
      destruct (IH (mkS (wr (s_rb s) (Z.to_nat (s_rt s)) b) (s_rh s) ((s_rt s + 1) mod 128) (s_wb s) (s_wh s) (s_wt s) rx (s_thre s) (s_ier s) (s_pc s)) (w ++ [b]))
        as (o & rb & rt & E1 & E2 & E3 & E4 & E5 & E6 & E7 & (Q1 & Q2 & Q3) & E8); cbn [s_rb s_rh s_rt s_wb s_wh s_wt s_rx s_thre s_ier s_pc] in *.
      { rewrite wr_length. auto. } { apply Z.mod_pos_bound. lia. } { auto. }
      { rewrite queue_push by auto. rewrite Hw. reflexivity. }
      rewrite E1. exists (Stored b :: o), rb, rt. split; auto. split; auto. split; auto.
      assert (A : w ++ stored (Stored b :: o) = (w ++ [b]) ++ stored o) by (rewrite <- app_assoc; reflexivity). rewrite A.
      split; [exact E4|]. split; [exact E5|]. split. { cbn. split; auto. pose proof (queue_length (s_rh s) (s_rt s) (s_rb s)) as K. rewrite Hw in K. lia. }
      split; [cbn; rewrite <- E7; reflexivity|]. split; [|exact E8]. split; [exact Q1|]. split; [exact Q2|]. constructor; auto.
Qed.

Definition tx_obs (o : list obs) : Prop := Forall (fun x => match x with Sent _ lost => lost = false | _ => True end) o.
Lemma waiting_app a : forall w b, waiting_after w (a ++ b) = waiting_after (waiting_after w a) b.
Proof. induction a as [|x a IH]; intros w b; cbn; auto. destruct x as [| |[|]| |]; auto. Qed.
Lemma receive_ok_app a : forall w b, receive_ok w (a ++ b) <-> receive_ok w a /\ receive_ok (waiting_after w a) b.
Proof.
  induction a as [|x a IH]; intros w b; cbn; [tauto|]. destruct x as [| |[|]| |]; cbn; rewrite ?IH; tauto.
Qed.
Lemma handler_spec s w q : inv s w q -> s_rh s <> 128 -> forall s' o, interruptHandler s = (s', o) ->
  exists q', receive_ok w o /\ inv s' (waiting_after w o) q' /\ q ++ written o = sent o ++ q' /\ tx_obs o /\
    taken o = s_rx s /\ s_rx s' = [] /\ s_pc s' = s_pc s.
Proof.
  intros I N s' o H. unfold interruptHandler in H. destruct I as [Irb Irt Irh Iw Iwb Iwt Iwh Iq Ipc Iier].
  assert (Hh : 0 <= s_rh s < 128) by (unfold head_ok in Irh; destruct (s_pc s); lia).
  rewrite Z.mod_small in Iw by auto.
  assert (T : exists s1 o1 q', transmit s = (s1, o1) /\ s_rb s1 = s_rb s /\ s_rh s1 = s_rh s /\ s_rt s1 = s_rt s /\ s_rx s1 = s_rx s /\ s_pc s1 = s_pc s /\
    s_wb s1 = s_wb s /\ s_wt s1 = s_wt s /\ 0 <= s_wh s1 < 128 /\ queue (s_wh s1) (s_wt s1) (s_wb s1) = q' /\ q = sent o1 ++ q' /\
    written o1 = [] /\ taken o1 = [] /\ tx_obs o1 /\ (forall w r, waiting_after w (o1 ++ r) = waiting_after w r) /\ (forall w r, receive_ok w (o1 ++ r) <-> receive_ok w r) /\
    (q' <> [] -> s_ier s1 = true \/ s_pc s1 = W_Ier) /\ (q = [] -> s_thre s1 = s_thre s)).
  { unfold transmit. destruct (s_thre s) eqn:Eth.
    2:{ exists s, [], q. cbn. repeat (split; [solve [auto|constructor|tauto]|]). auto. }
    destruct (Z.eqb_spec (s_wh s) (s_wt s)) as [E|E].
    - assert (q = []) by (rewrite <- Iq; apply queue_nil; auto). eexists. exists [], q. split; [reflexivity|]. cbn.
      repeat (split; [solve [auto|constructor|tauto]|]). auto.
    - rewrite queue_pop in Iq by auto.
      eexists. eexists. exists (queue ((s_wh s + 1) mod 128) (s_wt s) (s_wb s)). split; [reflexivity|]. cbn. rewrite mask_mod.
      repeat (split; [solve [auto]|]). split; [apply Z.mod_pos_bound; lia|]. repeat (split; [solve [auto]|]).
      split; [repeat constructor|]. split; [auto|]. split; [tauto|]. split; [|intros; subst q; discriminate].
      intros _. apply Iier. subst q. discriminate. }
  destruct T as (s1 & o1 & q' & ET & A1 & A2 & A3 & A4 & A5 & A6 & A7 & A8 & A9 & A10 & A11 & A12 & A13 & A14 & A15 & A16 & A17).
  rewrite ET in H.
  destruct (receive_spec (s_rx s1) s1 w) as (o2 & rb & rt & E1 & E2 & E3 & E4 & E5 & E6 & E7 & (Q1 & Q2 & Q3) & E8).
  { rewrite A1. exact Irb. } { rewrite A3. exact Irt. } { rewrite A2. exact Hh. } { rewrite A1, A2, A3. exact Iw. }
  rewrite E1 in H. injection H as <- <-. exists q'. split; [apply A15; auto|]. split.
  { rewrite A14, E5. constructor; cbn [s_rb s_rh s_rt s_wb s_wh s_wt s_rx s_thre s_ier s_pc].
    - auto. - auto. - unfold head_ok in *. cbn [s_pc s_rh]. rewrite A5, A2. auto.
    - rewrite Z.mod_small by congruence. exact E4.
    - congruence. - lia. - lia. - auto.
    - unfold pc_ok in *. cbn [s_pc s_wt s_thre s_wb]. rewrite A5, A6, A7.
      assert (LQ : (length q' <= length q)%nat) by (rewrite A10, app_length; lia).
      destruct (s_pc s) eqn:P; auto.
      + intros X. apply app_eq_nil in X. tauto.
      + destruct Ipc as [r ->]. exists (r ++ stored o2). reflexivity.
      + destruct Ipc as [-> Ipc]. destruct (sent o1), q'; cbn [app] in A10; try discriminate. split; auto. rewrite A17; auto.
      + destruct Ipc. split; auto. lia.
      + destruct Ipc as (? & ? & ?). split; auto. split; auto. lia.
    - auto. }
  unfold written, sent, taken, tx_obs in *. rewrite !flat_map_app. split.
  - rewrite A11, Q1, Q2, A10. cbn [app]. rewrite !app_nil_r. reflexivity.
  - split; [apply Forall_app; auto|]. rewrite A12. split; [rewrite E7; auto|]. split; auto.
Qed.

Lemma queue_short h t buf : 0 <= h < 128 -> 0 <= t < 128 -> (t + 1) mod 128 <> h -> (length (queue h t buf) < 127)%nat.
Proof. intros. pose proof (queue_length h t buf). Z.div_mod_to_equations; lia. Qed.

Ltac si := cbn [s_rb s_rh s_rt s_wb s_wh s_wt s_rx s_thre s_ier s_pc set_pc] in *.
Lemma step_spec s w q e : inv s w q -> (e = Irq -> s_rh s <> 128) -> forall s' o, step s e = (s', o) ->
  exists q', receive_ok w o /\ inv s' (waiting_after w o) q' /\ q ++ written o = sent o ++ q' /\ tx_obs o /\
    taken o ++ s_rx s' = s_rx s ++ arrived [e].
Proof.
  intros I N s' o H.
  assert (TRIV : forall p, pc_ok (set_pc p s) w q -> match p with R_Mask _ _ => False | _ => True end -> (s_pc s <> W_Ier) -> 0 <= s_rh s < 128 -> inv (set_pc p s) w q).
  { intros p Hp Hm Hi Hh. destruct I. constructor; si; auto.
    - unfold head_ok. si. destruct p; tauto || auto.
    - intros Q. destruct (i_ier0 Q); [auto|contradiction]. }
  assert (SIL : forall s', inv s' w q -> s_rx s' = s_rx s -> exists q', receive_ok w [] /\ inv s' (waiting_after w []) q' /\ q ++ written [] = sent [] ++ q' /\ tx_obs [] /\
    taken [] ++ s_rx s' = s_rx s ++ []).
  { intros s0 J E. exists q. cbn. rewrite !app_nil_r. split; auto. split; auto. split; auto. split; [constructor|auto]. }
  destruct e; cbn [step] in H; cbn [arrived flat_map app].
  - injection H as <- <-. exists q. cbn. rewrite app_nil_r. split; auto. split; [destruct I; constructor; auto|]. repeat split; auto; constructor.
  - injection H as <- <-. exists q. cbn. rewrite !app_nil_r. split; auto. split.
    + destruct I; constructor; auto. unfold pc_ok in *. si. destruct (s_pc s); tauto.
    + repeat split; auto; constructor.
  - destruct (handler_spec s w q I (N eq_refl) s' o H) as (q' & H1 & H2 & H3 & H4 & H5 & H6 & _). exists q'.
    rewrite H6, !app_nil_r. auto.
  - destruct (s_pc s) eqn:P; injection H as <- <-; try (apply SIL; auto; fail).
    apply SIL; auto. apply TRIV; try congruence. { exact Logic.I. } { exact Logic.I. } destruct I. unfold head_ok in *. rewrite P in *. auto.
  - destruct (s_pc s) eqn:P; injection H as <- <-; try (apply SIL; auto; fail).
    apply SIL; auto. apply TRIV; try congruence. { exact Logic.I. } { exact Logic.I. } destruct I. unfold head_ok in *. rewrite P in *. auto.
  - unfold main_step in H. pose proof I as I0. destruct I as [Irb Irt Irh Iw Iwb Iwt Iwh Iq Ipc Iier]. unfold head_ok in Irh. unfold pc_ok in Ipc.
    destruct (s_pc s) eqn:P.
    + injection H as <- <-. apply SIL; auto.
    + rewrite Z.mod_small in Iw by auto. pose proof (queue_nil (s_rh s) (s_rt s) (s_rb s) Irh Irt) as K. rewrite Iw in K.
      destruct (Z.eqb_spec (s_rt s) (s_rh s)); injection H as <- <-.
      * exists q. cbn. rewrite app_nil_r. split; [split; [apply K; auto|auto]|]. split; [apply TRIV; cbn; auto; congruence|].
        split; auto. split; [repeat constructor|]. rewrite app_nil_r. auto.
      * apply SIL; auto. apply TRIV; cbn; auto; try congruence. intros X. apply n. symmetry. apply K. auto.
    + injection H as <- <-. apply SIL; auto. rewrite Z.mod_small in Iw by auto. apply TRIV; cbn; auto; try congruence.
      assert (s_rh s <> s_rt s). { intros X. apply Ipc. rewrite <- Iw. apply queue_nil; auto. }
      eexists. rewrite <- Iw. apply queue_pop; auto.
    + injection H as <- <-. exists q. destruct Ipc as [r ->]. cbn. rewrite !app_nil_r. split; [split; eauto|].
      rewrite Z.mod_small in Iw by auto.
      assert (s_rh s <> s_rt s). { intros X. apply (queue_nil (s_rh s) (s_rt s) (s_rb s)) in X; auto. congruence. }
      rewrite queue_pop in Iw by auto. injection Iw as Iw1 Iw2.
      split; [constructor; si; auto; unfold head_ok, pc_ok; si; auto; try lia|].
      * intros Q. destruct (Iier Q); [auto|congruence].
      * split; auto. split; [repeat constructor|auto].
    + injection H as <- <-. apply SIL; auto. constructor; si; auto; unfold head_ok, pc_ok; si; auto.
      * rewrite mask_mod. apply Z.mod_pos_bound. lia.
      * rewrite mask_mod, Z.mod_mod by lia. auto.
      * intros Q. destruct (Iier Q); [auto|congruence].
    + destruct (full && negb match s_rx s with [] => true | _ => false end).
      * assert (J : inv (set_pc Idle s) w q) by (apply TRIV; cbn; auto; congruence).
        destruct (handler_spec (set_pc Idle s) w q J ltac:(si; lia) s' o H) as (q' & H1 & H2 & H3 & H4 & H5 & H6 & _). exists q'.
        rewrite H6, !app_nil_r. auto.
      * injection H as <- <-. apply SIL; auto. apply TRIV; cbn; auto; congruence.
    + destruct (Z.eqb_spec (s_wh s) (s_wt s)) as [E|E]; cbn [andb] in H; [destruct (s_thre s) eqn:Et|]; injection H as <- <-; apply SIL; auto; apply TRIV; cbn; auto; try congruence; try (rewrite mask_mod; auto; fail).
      split; auto. rewrite <- Iq. apply queue_nil; auto.
    + injection H as <- <-. destruct Ipc as [-> Et]. exists []. cbn. rewrite !app_nil_r. split; auto. split.
      * constructor; si; auto; unfold head_ok, pc_ok; si; auto.
      * split; auto. split; [constructor; auto; constructor; auto; rewrite Et; reflexivity|auto].
    + destruct (Z.eqb_spec (s_wh s) next) as [E|E]; injection H as <- <-; apply SIL; auto. apply TRIV; cbn; auto; try congruence.
      split; auto. rewrite <- Iq. apply queue_short; auto. congruence.
    + injection H as <- <-. destruct Ipc as [-> L]. apply SIL; auto. constructor; si; auto; unfold head_ok, pc_ok; si; auto.
      * rewrite wr_length. auto.
      * rewrite queue_wr_out by auto. auto.
      * split; auto. split; auto. apply rd_wr_same. lia.
      * intros Q. destruct (Iier Q); [auto|congruence].
    + injection H as <- <-. destruct Ipc as (-> & L & Er). exists (q ++ [ch]). cbn. rewrite !app_nil_r. split; auto. split.
      * constructor; si; auto; unfold head_ok, pc_ok; si; auto.
        -- apply Z.mod_pos_bound. lia.
        -- rewrite <- Iq. rewrite <- queue_push; auto.
           ++ f_equal. rewrite <- Er. apply (list_ext _ _ _ 0); [symmetry; apply wr_length|]. intros i _. rewrite nth_wr.
              destruct (Nat.eqb_spec (Z.to_nat (s_wt s)) i) as [<-|]; cbn [andb]; auto. destruct (_ <? _)%nat; reflexivity.
           ++ rewrite <- queue_length with (buf := s_wb s). rewrite Iq. lia.
      * split; auto. split; [repeat constructor|auto].
    + injection H as <- <-. apply SIL; auto. constructor; si; auto; unfold head_ok, pc_ok; si; auto.
Qed.

Lemma run_spec es : forall s w q, inv s w q -> undisturbed s es -> forall s' o, run s es = (s', o) ->
  exists q', receive_ok w o /\ inv s' (waiting_after w o) q' /\ q ++ written o = sent o ++ q' /\ tx_obs o /\
    taken o ++ s_rx s' = s_rx s ++ arrived es.
Proof.
  induction es as [|e es IH]; intros s w q I U s' o H; cbn [run] in H.
  - injection H as <- <-. exists q. cbn. rewrite !app_nil_r. split; auto. split; auto. split; auto. split; [constructor|auto].
  - destruct (step s e) as [s1 o1] eqn:E. destruct (run s1 es) as [s2 o2] eqn:E'. injection H as <- <-.
    cbn [undisturbed] in U. destruct U as [U1 U2]. rewrite E in U2. cbn [fst] in U2.
    destruct (step_spec s w q e I U1 s1 o1 E) as (q1 & A1 & A2 & A3 & A4 & A5).
    destruct (IH s1 _ q1 A2 U2 s2 o2 E') as (q2 & B1 & B2 & B3 & B4 & B5).
    exists q2. split; [apply receive_ok_app; auto|]. split; [rewrite waiting_app; auto|].
    unfold written, sent, taken, tx_obs, arrived in *. rewrite !flat_map_app. cbn [flat_map]. cbn [flat_map] in A5. rewrite app_nil_r in A5.
    split; [rewrite app_assoc, A3, <- app_assoc, B3, app_assoc; auto|]. split; [apply Forall_app; auto|].
    rewrite <- app_assoc, B5, app_assoc, A5, <- app_assoc. reflexivity.
Qed.
Lemma init_inv rb wb : length rb = 128%nat -> length wb = 128%nat -> inv (init rb wb) [] [].
Proof. intros H1 H2. constructor; cbn; auto; try lia; try congruence; unfold head_ok; cbn; lia. Qed.
Lemma stored_returned o : forall w, receive_ok w o -> w ++ stored o = returned o ++ waiting_after w o.
Proof.
  induction o as [|x o IH]; intros w H; cbn in *; [apply app_nil_r|]. destruct x as [b|b|[b|]|b|b l]; cbn in *.
  - destruct H as [_ H]. apply IH in H. etransitivity; [|exact H]. rewrite <- app_assoc. reflexivity.
  - apply IH. apply H.
  - destruct H as [[w' ->] H]. cbn in *. unfold returned. cbn [flat_map app]. f_equal. apply IH. auto.
  - apply IH, H.
  - apply IH, H.
  - apply IH, H.
Qed.
