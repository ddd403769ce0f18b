(** C47 (serial reception), C61 (serial transmission) *)
From Verif Require Import Base Serial_Model Serial_Spec Serial_Proofs.

(** ** C47 *)
(** For every interleaving of arriving bytes, interrupts and the steps of the application's calls in which no interrupt
    hits the moment when readHead is 128: the bytes taken from the UART are the arrived ones in order; each is stored,
    unless 127 bytes are waiting; what read() returns are the stored bytes in order; -1 is returned only if none waits. *)
Theorem C47_reception_fifo_partial : forall rb wb es s o, length rb = 128%nat -> length wb = 128%nat ->
  undisturbed (init rb wb) es -> run (init rb wb) es = (s, o) ->
  receive_ok [] o /\ taken o ++ s_rx s = arrived es /\ stored o = returned o ++ waiting_after [] o.
Proof.
  intros rb wb es s o H1 H2 U R. destruct (run_spec es _ _ _ (init_inv rb wb H1 H2) U s o R) as (q & A & _ & _ & _ & B).
  split; auto. split; [exact B|]. exact (stored_returned o [] A).
Qed.
Print Assumptions C47_reception_fifo_partial.
(** When no call is active, available() is the number of bytes waiting and peek() the oldest of them (-1: none). *)
Theorem C47_available_and_peek : forall rb wb es s o, length rb = 128%nat -> length wb = 128%nat ->
  undisturbed (init rb wb) es -> run (init rb wb) es = (s, o) -> s_pc s = Idle ->
  available s = Z.of_nat (length (waiting_after [] o)) /\ peek s = hd (-1) (waiting_after [] o).
Proof.
  intros rb wb es s o H1 H2 U R P. destruct (run_spec es _ _ _ (init_inv rb wb H1 H2) U s o R) as (q & _ & I & _).
  destruct I as [Irb Irt Irh Iw _ _ _ _ _ _]. unfold head_ok in Irh. rewrite P in Irh. rewrite Z.mod_small in Iw by lia. rewrite <- Iw. split.
  - rewrite queue_length. unfold available, BUFFER_SIZE. destruct (Z.ltb_spec (s_rt s - s_rh s) 0); Z.div_mod_to_equations; lia.
  - unfold peek. destruct (Z.eqb_spec (s_rt s) (s_rh s)) as [E|E].
    + assert (Q : queue (s_rh s) (s_rt s) (s_rb s) = []) by (apply queue_nil; auto). rewrite Q. reflexivity.
    + rewrite queue_pop by (auto; congruence). reflexivity.
Qed.
Print Assumptions C47_available_and_peek.

(** Missing: if the interrupt hits that moment with the buffer full and brings two bytes, all 127 waiting bytes are lost:
    the following read() returns -1. *)
Definition read_call : list event := [CallRead; Main; Main; Main; Main; Main].
Definition race : list event :=
  map Arrive (map Z.of_nat (seq 0 127)) ++ [Irq] ++ concat (repeat read_call 127) ++
  map Arrive (map Z.of_nat (seq 0 127)) ++ [Irq] ++
  [CallRead; Main; Main; Main; Arrive 200; Arrive 201; Irq; Main; Main] ++ [CallRead; Main].
Fixpoint receive_okb (waiting : list Z) (l : list obs) : bool :=
  match l with
  | [] => true
  | Stored b :: r => (length waiting <? 127)%nat && receive_okb (waiting ++ [b]) r
  | Dropped b :: r => (length waiting =? 127)%nat && receive_okb waiting r
  | Returned None :: r => match waiting with [] => receive_okb waiting r | _ => false end
  | Returned (Some b) :: r => match waiting with x :: w => (x =? b) && receive_okb w r | [] => false end
  | _ :: r => receive_okb waiting r
  end.
Lemma receive_okb_spec l : forall w, receive_ok w l -> receive_okb w l = true.
Proof.
  induction l as [|x l IH]; intros w H; cbn in *; auto. destruct x as [b|b|[b|]|b|b k]; auto.
  - destruct H as [H1 H2]. apply andb_true_iff. split; auto. apply Nat.leb_le. lia.
  - destruct H as [H1 H2]. apply andb_true_iff. split; auto. apply Nat.eqb_eq. auto.
  - destruct H as [[w' ->] H2]. cbn in H2. rewrite Z.eqb_refl. cbn. auto.
  - destruct H as [-> H2]. auto.
Qed.
Theorem C47_reception_fifo_refuted : exists rb wb es, length rb = 128%nat /\ length wb = 128%nat /\
  ~ receive_ok [] (snd (run (init rb wb) es)).
Proof.
  exists (repeat 0 128), (repeat 0 128), race. split; [apply repeat_length|]. split; [apply repeat_length|].
  intros H. apply receive_okb_spec in H. vm_compute in H. discriminate.
Qed.
Print Assumptions C47_reception_fifo_refuted.
(** 130 bytes arrive at once: 127 are stored, 3 dropped; two reads *)
Definition burst : list event := map Arrive (map Z.of_nat (seq 0 130)) ++ [Irq] ++ read_call ++ read_call.
Example C47_burst : let '(s, o) := run (init (repeat 0 128) (repeat 0 128)) burst in
  returned o = [0; 1] /\ length (stored o) = 127%nat /\ taken o = arrived burst /\ available s = 125 /\ s_pc s = Idle.
Proof. vm_compute. auto. Qed.
Fixpoint undisturbedb (s : state) (es : list event) : bool :=
  match es with [] => true | e :: r => negb ((match e with Irq => true | _ => false end) && (s_rh s =? 128)) && undisturbedb (fst (step s e)) r end.
Lemma undisturbedb_spec es : forall s, undisturbedb s es = true -> undisturbed s es.
Proof.
  induction es as [|e es IH]; intros s H; cbn in *; auto. apply andb_true_iff in H. destruct H as [H1 H2]. split; auto.
  intros -> E. rewrite E in H1. discriminate.
Qed.
Example C47_burst_undisturbed : undisturbed (init (repeat 0 128) (repeat 0 128)) burst.
Proof. apply undisturbedb_spec. vm_compute. reflexivity. Qed.

(** ** C61 *)
(** Bytes are put into the transmitter in the order in which write() accepted them, each when it is empty; the rest waits. *)
Theorem C61_transmission_fifo : forall rb wb es s o, length rb = 128%nat -> length wb = 128%nat ->
  undisturbed (init rb wb) es -> run (init rb wb) es = (s, o) ->
  exists waiting, written o = sent o ++ waiting /\ (length waiting <= 127)%nat /\
    Forall (fun x => match x with Sent _ lost => lost = false | _ => True end) o /\ (flushed s = true <-> waiting = []).
Proof.
  intros rb wb es s o H1 H2 U R. destruct (run_spec es _ _ _ (init_inv rb wb H1 H2) U s o R) as (q & _ & I & A & B & _).
  exists q. destruct I as [_ _ _ _ _ Iwt Iwh Iq _ _]. split; auto. split; [rewrite <- Iq; apply queue_bound|]. split; auto.
  unfold flushed. rewrite <- Iq. rewrite queue_nil by auto. apply Z.eqb_eq.
Qed.
Print Assumptions C61_transmission_fifo.
(** Nothing gets stuck: while bytes wait (and write() has returned) the transmitter-empty interrupt is enabled, and each
    such interrupt sends the oldest. *)
Theorem C61_transmission_progress : forall rb wb es s o, length rb = 128%nat -> length wb = 128%nat ->
  undisturbed (init rb wb) es -> run (init rb wb) es = (s, o) -> s_pc s = Idle ->
  flushed s = false -> s_ier s = true /\ (s_thre s = true -> exists b rest, written o = sent o ++ b :: rest /\
    exists o', snd (step s Irq) = Sent b false :: o' /\ sent o' = []).
Proof.
  intros rb wb es s o H1 H2 U R P F. destruct (run_spec es _ _ _ (init_inv rb wb H1 H2) U s o R) as (q & _ & I & A & _ & _).
  destruct I as [Irb Irt Irh Iw Iwb Iwt Iwh Iq Ipc Iier]. unfold flushed in F. apply Z.eqb_neq in F.
  split.
  - destruct Iier as [E|E]; auto; [|congruence]. rewrite <- Iq. intros X. apply queue_nil in X; auto.
  - intros T. exists (rd (s_wb s) (Z.to_nat (s_wh s))), (queue ((s_wh s + 1) mod 128) (s_wt s) (s_wb s)). split.
    + rewrite <- queue_pop, Iq by auto. exact A.
    + cbn [step]. unfold interruptHandler, transmit. rewrite T. destruct (Z.eqb_spec (s_wh s) (s_wt s)); [contradiction|]. cbn [s_rx].
      unfold head_ok in Irh. rewrite P in Irh. rewrite Z.mod_small in Iw by lia.
      match goal with |- context [receive (s_rx s) ?x] => destruct (receive_spec (s_rx s) x (waiting_after [] o)) as (o' & rb' & rt' & E & _ & _ & _ & _ & _ & _ & (_ & Q & _) & _); cbn [s_rb s_rt s_rh]; auto; rewrite E end.
      exists o'. split; [reflexivity|auto].
Qed.
Print Assumptions C61_transmission_progress.
Definition hello : list event :=
  let write c := [CallWrite c; Main; Main; Main; Main; Main] in
  write 72 ++ write 101 ++ [TxDone; Irq] ++ write 108 ++ [TxDone] ++ write 108 ++ [Irq; TxDone; Irq; TxDone].
Example C61_hello : let '(s, o) := run (init (repeat 0 128) (repeat 0 128)) hello in
  sent o = [72; 101; 108; 108] /\ s_pc s = Idle /\ flushed s = true /\ s_ier s = true.
Proof. vm_compute. auto. Qed.
Example C61_hello_undisturbed : undisturbed (init (repeat 0 128) (repeat 0 128)) hello.
Proof. apply undisturbedb_spec. vm_compute. reflexivity. Qed.
