(** Properties C01-C09 of the transport layer. *)
From Verif Require Import Base TL4_Model TL4_Spec TL4_Proofs TL4_Inv TL4_Step TL4_Theorems TL4_Events TL4_Loop.

(** Telegrams used in the examples: own address 1.1.1 (0x1101), partner 0x1234, stranger 0x5678. *)
Definition ex_own := 0x1101.
Definition ex_con (a b c : Z) := [0xB0; a; b; 0x11; 0x01; 0x60; c].
Definition ex_connect := ex_con 0x12 0x34 0x80.
Definition ex_req (n : Z) := [0xB0; 0x12; 0x34; 0x11; 0x01; 0x61; 0x40 + 4 * n + 3; 0x00].     (* device descriptor read *)
Definition ex_resp (x : Z) := [0; 0; 0; 0; 0; 0x63; 0x03; 0x40; x; 0x12; 0;0;0;0;0;0;0;0;0;0;0;0;0].
Definition ex_ack (n : Z) := ex_con 0x12 0x34 (0xC2 + 4 * n).
Definition ex_rx t := OpRx 1000 t (true, ex_resp 7) [true].
Definition ex_none := (false, ex_resp 0).
(** connect, request 0 twice, response transmitted *)
Definition ex_ops := [OpRx 1000 ex_connect ex_none []; ex_rx (ex_req 0); ex_rx (ex_req 0); OpTxDone true; OpLoop 1500].
Definition ex_state := match run (init ex_own) None ex_ops with Some (s, Some g) => (s, g) | _ => (init 0, mkSession 0 [] [] [] [] false 0 0 false) end.

Lemma ex_reachable : reachable ex_own (fst ex_state) (Some (snd ex_state)).
Proof.
  exists ex_ops. split; [|vm_compute; reflexivity].
  repeat (apply Forall_cons || apply Forall_nil); simpl; try exact I;
    (split; [|split; [reflexivity|]]; repeat (apply Forall_cons || apply Forall_nil); vm_compute; split; congruence).
Qed.

(** ** C01 *)
Theorem C01_executed_in_order a s g : reachable a s (Some g) ->
  exec g = in_order 0 (rx g) /\ forall i, (i < length (exec g))%nat -> seqno (nth i (exec g) []) = Z.of_nat i mod 16.
Proof. exact (executed_in_order a s g). Qed.
Print Assumptions C01_executed_in_order.

(** A client that numbers its requests consecutively and repeats each as often as it likes: each runs exactly once. *)
Theorem C01_client_exactly_once a s g reqs : reachable a s (Some g) ->
  stutter reqs (rx g) -> numbered_from 0 reqs -> exec g = reqs.
Proof. exact (client_exactly_once a s g reqs). Qed.
Print Assumptions C01_client_exactly_once.

(** The observer misses nothing: an operation that begins or ends without a connection runs no numbered request. *)
Theorem C01_only_in_connection a s cur o s' outs : reachable a s cur -> op_ok o -> step s o = Some (s', outs) ->
  directConnection s = false \/ directConnection s' = false -> execs outs = [] /\ responses outs = [].
Proof. exact (only_in_connection a s cur o s' outs). Qed.
Print Assumptions C01_only_in_connection.

Example C01_example : length (rx (snd ex_state)) = 2%nat /\ exec (snd ex_state) = [ex_req 0] /\
  stutter [ex_req 0] (rx (snd ex_state)) /\ numbered_from 0 [ex_req 0].
Proof.
  split; [vm_compute; reflexivity|]. split; [vm_compute; reflexivity|]. split.
  - replace (rx (snd ex_state)) with (repeat (ex_req 0) 2 ++ []) by (vm_compute; reflexivity). repeat constructor.
  - intros [|i] H; simpl in H; [reflexivity|lia].
Qed.

(** ** C02 *)
Theorem C02_stranger a s g now t app w s' outs : reachable a s (Some g) -> bytes t ->
  src t <> peer g -> step s (OpRx now t app w) = Some (s', outs) ->
  connection s' = connection s /\ connectedTo s' = peer g /\ execs outs = [] /\ responses outs = [] /\
  (if addressed_to (own s) t && is_connect t
   then exists f, controls outs = [f] /\ is_control_frame 0x81 (src t) 0 f
   else controls outs = []).
Proof. exact (stranger_thm a s g now t app w s' outs). Qed.
Print Assumptions C02_stranger.

(** the same for telegrams addressed to somebody else, whoever sends them *)
Theorem C02_not_for_us a s g now t app w s' outs : reachable a s (Some g) -> bytes t ->
  addressed_to (own s) t = false -> step s (OpRx now t app w) = Some (s', outs) ->
  connection s' = connection s /\ connectedTo s' = peer g /\ execs outs = [] /\ responses outs = [] /\ controls outs = [].
Proof. exact (not_for_us_thm a s g now t app w s' outs). Qed.
Print Assumptions C02_not_for_us.

Example C02_example : exists s' f, src (ex_con 0x56 0x78 0x80) <> peer (snd ex_state) /\
  step (fst ex_state) (OpRx 1600 (ex_con 0x56 0x78 0x80) ex_none [true]) = Some (s', [Tx KCtrl f]) /\
  is_control_frame 0x81 0x5678 0 f.
Proof. eexists _, _. split; [vm_compute; congruence|]. split; [vm_compute; reflexivity|]. repeat split. Qed.

(** ** C03 *)
Theorem C03_acknowledge a s g now t app w s' outs : reachable a s (Some g) -> bytes t ->
  addressed_to (own s) t = true -> numbered t = true -> src t = peer g -> step s (OpRx now t app w) = Some (s', outs) ->
  directConnection s' = true /\ connectedTo s' = peer g /\ responses outs = [] /\ exists f, controls outs = [f] /\
  (if seqno t =? Z.of_nat (length (exec g)) mod 16
   then execs outs = [t] /\ is_control_frame 0xC2 (peer g) (seqno t) f
   else if seqno t =? (Z.of_nat (length (exec g)) - 1) mod 16
   then execs outs = [] /\ is_control_frame 0xC2 (peer g) (seqno t) f
   else execs outs = [] /\ is_control_frame 0xC3 (peer g) (seqno t) f).
Proof. exact (acknowledge_thm a s g now t app w s' outs). Qed.
Print Assumptions C03_acknowledge.

Theorem C03_closed_silent a s now t app w s' outs : reachable a s None -> bytes t ->
  addressed_to (own s) t = true -> numbered t = true -> step s (OpRx now t app w) = Some (s', outs) -> s' = s /\ outs = [].
Proof. exact (closed_silent_thm a s now t app w s' outs). Qed.
Print Assumptions C03_closed_silent.

(** "The number just before" includes 15 right after the connect: a request that was never executed is acknowledged. *)
Theorem C03_ack_only_executed_refuted : exists a s g now t app w s' f,
  reachable a s (Some g) /\ bytes t /\ addressed_to (own s) t = true /\ numbered t = true /\ src t = peer g /\
  step s (OpRx now t app w) = Some (s', [Tx KCtrl f]) /\ is_control_frame 0xC2 (peer g) (seqno t) f /\
  exec g = [] /\ rx g = [].
Proof.
  exists ex_own. do 2 eexists. exists 1100, (ex_req 15), ex_none, []. do 2 eexists.
  split. { exists [OpRx 1000 ex_connect ex_none []]. split; [|vm_compute; reflexivity].
           apply Forall_cons; [|apply Forall_nil]. split; [|split; [reflexivity|]]; repeat (apply Forall_cons || apply Forall_nil); vm_compute; split; congruence. }
  split. { repeat (apply Forall_cons || apply Forall_nil); vm_compute; split; congruence. }
  split; [reflexivity|]. split; [reflexivity|]. split; [reflexivity|]. split; [vm_compute; reflexivity|].
  split; [repeat split|]. split; reflexivity.
Qed.
Print Assumptions C03_ack_only_executed_refuted.

Example C03_example : forall n, n = 0 \/ n = 1 \/ n = 5 ->
  addressed_to (own (fst ex_state)) (ex_req n) = true /\ numbered (ex_req n) = true /\ src (ex_req n) = peer (snd ex_state) /\
  exists r, step (fst ex_state) (OpRx 1600 (ex_req n) ex_none [true]) = Some r.
Proof.
  intros n [-> | [-> | ->]]; (split; [vm_compute; reflexivity|]; split; [vm_compute; reflexivity|];
    split; [vm_compute; reflexivity|]; eexists; vm_compute; reflexivity).
Qed.

(** ** C04 *)
Theorem C04_at_most_four_identical a s g : reachable a s (Some g) ->
  forall c, In c (groups g) -> exists f k, c = repeat f k /\ (1 <= k <= 4)%nat.
Proof. exact (at_most_four a s g). Qed.
Print Assumptions C04_at_most_four_identical.

(** three seconds without acknowledge: one more identical copy, or the end of the connection after the fourth *)
Theorem C04_retransmit_or_close a s g now s' outs : reachable a s (Some g) -> waiting g = true -> bus_free s ->
  3000 <= now - sent_at g < 2^32 -> 0 <= now - last g < 6000 -> step s (OpLoop now) = Some (s', outs) ->
  if (copies g <? 4)%nat
  then directConnection s' = true /\ execs outs = [] /\ controls outs = [] /\ responses outs = [hd [] (List.last (groups g) [])]
  else closes_with_disconnect (peer g) s' outs.
Proof. exact (retransmit_or_close a s g now s' outs). Qed.
Print Assumptions C04_retransmit_or_close.

(** without any acknowledge the connection is closed after at most 5 - copies rounds *)
Theorem C04_gives_up a s g ts s' cur' : reachable a s (Some g) -> waiting g = true -> bus_free s ->
  spaced (sent_at g) ts -> (forall t, hd_error ts = Some t -> 0 <= t - last g < 2^32) ->
  (5 <= copies g + length ts)%nat ->
  run s (Some g) (flat_map give_up_round ts) = Some (s', cur') -> cur' = None.
Proof. exact (gives_up_thm a s g ts s' cur'). Qed.
Print Assumptions C04_gives_up.

Definition ex_wait := match run (init ex_own) None (ex_ops ++ [OpTxDone true]) with Some (s, Some g) => (s, g) | _ => ex_state end.
Lemma ex_wait_reachable : reachable ex_own (fst ex_wait) (Some (snd ex_wait)).
Proof.
  exists (ex_ops ++ [OpTxDone true]). split; [|vm_compute; reflexivity].
  repeat (apply Forall_cons || apply Forall_nil); simpl; try exact I;
    (split; [|split; [reflexivity|]]; repeat (apply Forall_cons || apply Forall_nil); vm_compute; split; congruence).
Qed.
Example C04_example : waiting (snd ex_wait) = true /\ bus_free (fst ex_wait) /\ copies (snd ex_wait) = 1%nat /\
  sent_at (snd ex_wait) = 1500 /\ last (snd ex_wait) = 1500 /\
  spaced 1500 [4500; 7500; 10500; 13500] /\
  run (fst ex_wait) (Some (snd ex_wait)) (flat_map give_up_round [4500; 7500; 10500; 13500]) <> None.
Proof. repeat split; vm_compute; congruence. Qed.

(** ** C05 *)
Theorem C05_numbered_one_at_a_time a s g : reachable a s (Some g) ->
  forall i, (i < length (groups g))%nat -> forall f, In f (nth i (groups g) []) ->
  seqno f = Z.of_nat i mod 16 /\ dst f = peer g.
Proof. exact (numbered_groups a s g). Qed.
Print Assumptions C05_numbered_one_at_a_time.

(** Only T_ACK (0xC2 pattern) should acknowledge; the code takes the unassigned control values 0x82 and 0xC0 as well. *)
Theorem C05_only_T_ACK_acknowledges_refuted : exists a s g now t app w s' g',
  reachable a s (Some g) /\ bytes t /\ waiting g = true /\ tpci t = 0xC0 /\
  step s (OpRx now t app w) = Some (s', []) /\ reachable a s' (Some g') /\ waiting g' = false.
Proof.
  exists ex_own, (fst ex_wait), (snd ex_wait), 1600, (ex_con 0x12 0x34 0xC0), ex_none, []. do 2 eexists.
  split; [apply ex_wait_reachable|].
  split. { repeat (apply Forall_cons || apply Forall_nil); vm_compute; split; congruence. }
  split; [vm_compute; reflexivity|]. split; [reflexivity|]. split; [vm_compute; reflexivity|]. split.
  - exists (ex_ops ++ [OpTxDone true; OpRx 1600 (ex_con 0x12 0x34 0xC0) ex_none []]). split; [|vm_compute; reflexivity].
    repeat (apply Forall_cons || apply Forall_nil); simpl; try exact I;
    (split; [|split; [reflexivity|]]; repeat (apply Forall_cons || apply Forall_nil); vm_compute; split; congruence).
  - reflexivity.
Qed.
Print Assumptions C05_only_T_ACK_acknowledges_refuted.

(** two responses, the second after the acknowledge of the first *)
Definition ex_ops2 := ex_ops ++ [OpTxDone true; OpRx 1600 (ex_ack 0) ex_none []; ex_rx (ex_req 1); OpTxDone true; OpLoop 1700; OpTxDone true].
Definition ex_two := match run (init ex_own) None ex_ops2 with Some (s, Some g) => (s, g) | _ => ex_state end.
Lemma ex_two_reachable : reachable ex_own (fst ex_two) (Some (snd ex_two)).
Proof.
  exists ex_ops2. split; [|vm_compute; reflexivity].
  repeat (apply Forall_cons || apply Forall_nil); simpl; try exact I;
    (split; [|split; [reflexivity|]]; repeat (apply Forall_cons || apply Forall_nil); vm_compute; split; congruence).
Qed.
Example C05_example : length (groups (snd ex_two)) = 2%nat /\ map (fun c => map seqno c) (groups (snd ex_two)) = [[0]; [1]].
Proof. split; vm_compute; reflexivity. Qed.

(** ** C06 *)
Theorem C06_timeout a s g now s' outs : reachable a s (Some g) -> bus_free s -> 6000 <= now - last g < 2^32 ->
  step s (OpLoop now) = Some (s', outs) -> closes_with_disconnect (peer g) s' outs.
Proof. exact (timeout_thm a s g now s' outs). Qed.
Print Assumptions C06_timeout.

Theorem C06_not_earlier a s g now s' outs : reachable a s (Some g) -> bus_free s -> 0 <= now - last g < 6000 ->
  (waiting g = true -> 0 <= now - sent_at g < 2^32 /\ ((copies g < 4)%nat \/ now - sent_at g < 3000)) ->
  step s (OpLoop now) = Some (s', outs) -> directConnection s' = true /\ connectedTo s' = peer g /\ controls outs = [].
Proof. exact (not_earlier_thm a s g now s' outs). Qed.
Print Assumptions C06_not_earlier.

(** while a telegram is being transmitted the loop does nothing at all *)
Theorem C06_busy a s g now s' outs : reachable a s (Some g) -> ~ bus_free s ->
  step s (OpLoop now) = Some (s', outs) -> s' = s /\ outs = [].
Proof. exact (busy_thm a s g now s' outs). Qed.
Print Assumptions C06_busy.

(** [last] is the time of the connect, of the last numbered telegram or matching acknowledge of the partner, or of the
    last response transmitted *)
Example C06_example : bus_free (fst ex_wait) /\ last (snd ex_wait) = 1500 /\
  (exists r, step (fst ex_wait) (OpLoop 7500) = Some r) /\ (exists r, step (fst ex_wait) (OpLoop 7499) = Some r).
Proof. repeat split; try (eexists; vm_compute; reflexivity). Qed.

(** ** C07 *)
(** As long as no request is executed while two responses are outstanding, the i-th response leaves as the i-th, and a
    loop pass with a free bus sends the next one. *)
Theorem C07_no_response_lost_partial a s g : reachable a s (Some g) -> crowded g = false ->
  (length (groups g) <= length (made g))%nat /\
  (forall i f, (i < length (groups g))%nat -> In f (nth i (groups g) []) ->
     carries (peer g) (Z.of_nat i mod 16) (fst (nth i (made g) ([], []))) (snd (nth i (made g) ([], []))) f) /\
  (waiting g = false -> (length (groups g) < length (made g))%nat -> bus_free s ->
     forall now s' outs, 0 <= now - last g < 6000 -> step s (OpLoop now) = Some (s', outs) ->
     exists f, responses outs = [f] /\
       carries (peer g) (Z.of_nat (length (groups g)) mod 16) (fst (nth (length (groups g)) (made g) ([], [])))
               (snd (nth (length (groups g)) (made g) ([], []))) f).
Proof. exact (no_response_lost a s g). Qed.
Print Assumptions C07_no_response_lost_partial.

(** Three requests before the first response is acknowledged: the second response is overwritten by the third and never
    leaves the device, although the connection stays open and every transmitted response is acknowledged. *)
Definition ex_rq n x := OpRx 1000 (ex_req n) (true, ex_resp x) [true].
Definition ex_ops3 := [OpRx 1000 ex_connect ex_none []; ex_rq 0 70; ex_rq 1 71; ex_rq 2 72; OpTxDone true;
  OpLoop 1500; OpTxDone true; OpRx 1600 (ex_ack 0) ex_none []; OpLoop 1700; OpTxDone true; OpRx 1800 (ex_ack 1) ex_none []].
Definition ex_lost := match run (init ex_own) None ex_ops3 with Some (s, Some g) => (s, g) | _ => ex_state end.
Theorem C07_no_response_lost_refuted : exists a s g, reachable a s (Some g) /\ waiting g = false /\ bus_free s /\
  length (made g) = 3%nat /\ length (groups g) = 2%nat /\
  (forall now s' outs, step s (OpLoop now) = Some (s', outs) -> responses outs = []) /\
  (forall c f, In c (groups g) -> In f c -> rd f 8 <> rd (snd (nth 1 (made g) ([],[]))) 8).
Proof.
  exists ex_own, (fst ex_lost), (snd ex_lost).
  assert (R : reachable ex_own (fst ex_lost) (Some (snd ex_lost))).
  { exists ex_ops3. split; [|vm_compute; reflexivity].
    repeat (apply Forall_cons || apply Forall_nil); simpl; try exact I;
    (split; [|split; [reflexivity|]]; repeat (apply Forall_cons || apply Forall_nil); vm_compute; split; congruence). }
  split; [exact R|]. split; [vm_compute; reflexivity|]. split; [vm_compute; reflexivity|].
  split; [vm_compute; reflexivity|]. split; [vm_compute; reflexivity|]. split.
  - intros now s' outs H. apply (nothing_pending ex_own _ _ now s' outs R); auto; vm_compute; reflexivity.
  - assert (E : forallb (fun c => forallb (fun f => negb (rd f 8 =? rd (snd (nth 1 (made (snd ex_lost)) ([],[]))) 8)) c) (groups (snd ex_lost)) = true)
      by (vm_compute; reflexivity).
    intros c f H1 H2. rewrite forallb_forall in E. specialize (E _ H1). rewrite forallb_forall in E. specialize (E _ H2).
    apply negb_true_iff, Z.eqb_neq in E. exact E.
Qed.
Print Assumptions C07_no_response_lost_refuted.

Example C07_example : crowded (snd ex_two) = false /\ length (made (snd ex_two)) = 2%nat /\ length (groups (snd ex_two)) = 2%nat.
Proof. repeat split; vm_compute; reflexivity. Qed.

(** ** C08 *)
(** A connection opens only by a T_CONNECT to the own address; the observation then starts from nothing. *)
Theorem C08_opens_fresh a s o s' outs : reachable a s None -> op_ok o -> step s o = Some (s', outs) -> directConnection s' = true ->
  exists now t app w, o = OpRx now t app w /\ addressed_to (own s) t = true /\ is_connect t = true /\
    after s None o s' outs = Some (mkSession (src t) [] [] [] [] false now 0 false) /\
    execs outs = [] /\ responses outs = [] /\ controls outs = [].
Proof. exact (opens_fresh a s o s' outs). Qed.
Print Assumptions C08_opens_fresh.

(** Every response transmitted was produced by a request executed in this connection and goes to its partner. *)
Theorem C08_no_leak a s g : reachable a s (Some g) -> forall c f, In c (groups g) -> In f c ->
  exists req resp n, In req (exec g) /\ In (req, resp) (made g) /\ carries (peer g) n req resp f.
Proof. exact (no_leak a s g). Qed.
Print Assumptions C08_no_leak.

(** reconnect after a disconnect with a response pending: the new connection starts at 0 and sends nothing old *)
Example C08_example : match run (init ex_own) None
     (ex_ops ++ [OpTxDone true; OpRx 1600 (ex_con 0x12 0x34 0x81) ex_none []; OpRx 1700 (ex_con 0x56 0x78 0x80) ex_none []]) with
  | Some (s, Some g) => peer g = 0x5678 /\ groups g = [] /\ s1 s = FREE
  | _ => False
  end.
Proof. vm_compute. auto. Qed.

(** ** C09 *)
(** In the history of all transmissions, each repetition of a failed control telegram is identical to it, and there
    are at most three before the next other transmission. *)
Theorem C09_bounded_retries a ops l : Forall op_ok ops -> outputs (init a) ops = Some l -> retries_bounded [] 0 l.
Proof. exact (retries_all a ops l). Qed.
Print Assumptions C09_bounded_retries.

(** A control telegram whose transmissions all fail is offered again at once three times; then the buffer is free. *)
Theorem C09_retries_at_once a s cur o s' outs f : reachable a s cur -> op_ok o -> step s o = Some (s', outs) -> In f (controls outs) ->
  exists s4, steps s' (repeat (OpTxDone false) 4) = Some (s4, repeat (Tx KRetry f) 3) /\ bus_free s4.
Proof. exact (retries_at_once a s cur o s' outs f). Qed.
Print Assumptions C09_retries_at_once.

(** Waiting for the send buffer ends: four send completions, whatever their results, are enough for any operation; the
    main loop never waits. *)
Theorem C09_wait_ends a s cur o : reachable a s cur -> op_ok o ->
  (4 <= length (op_waits o))%nat \/ bus_free s \/ (exists now, o = OpLoop now) -> step s o <> None.
Proof. exact (wait_ends a s cur o). Qed.
Print Assumptions C09_wait_ends.

Example C09_example : exists s' f, step (fst ex_wait) (OpRx 1600 (ex_req 1) ex_none []) = Some (s', [Tx KCtrl f; Exec (ex_req 1)]) /\
  In f (controls [Tx KCtrl f; Exec (ex_req 1)]).
Proof. eexists _, _. split. vm_compute; reflexivity. left; reflexivity. Qed.
