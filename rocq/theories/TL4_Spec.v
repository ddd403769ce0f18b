(** Specification vocabulary for the transport layer (C01-C09): telegram fields by arithmetic on bytes, and an
    observer that watches only operations, their effects and the public queries
    directConnection() / connectedTo() / ownAddress(). *)
From Verif Require Import Base TL4_Model.

(** ** Telegram fields (KNX 3/3/4, 3/3/2), plain arithmetic on the bytes *)
Definition src (t : list Z) : Z := 256 * rd t 1 + rd t 2.
Definition dst (t : list Z) : Z := 256 * rd t 3 + rd t 4.
Definition is_group (t : list Z) : bool := 128 <=? rd t 5.          (* address type flag *)
Definition tpci_control (t : list Z) : bool := 128 <=? rd t 6.      (* transport control telegram *)
Definition seqno (t : list Z) : Z := (rd t 6 / 4) mod 16.
(** a telegram sent to individual address [a] *)
Definition addressed_to (a : Z) (t : list Z) : bool := negb (is_group t) && (dst t =? a) && negb (dst t =? 0).
(** connection-oriented data: no control telegram, and not connectionless (bits 2..7 of byte 6 zero) *)
Definition numbered (t : list Z) : bool := negb (tpci_control t) && (4 <=? rd t 6).
(** T_CONNECT, T_DISCONNECT: bits 7,6,1,0 of byte 6 *)
Definition tpci (t : list Z) : Z := 64 * (rd t 6 / 64) + rd t 6 mod 4.
Definition is_connect (t : list Z) : bool := tpci t =? 0x80.
Definition is_disconnect (t : list Z) : bool := tpci t =? 0x81.
(** What the device takes for an acknowledge: T_ACK is 0xC2; the code also accepts the unassigned values 0x82 and
    0xC0 (see C05_only_T_ACK_acknowledges_refuted). *)
Definition is_ack (t : list Z) : bool := tpci_control t && negb (is_connect t) && (rd t 6 mod 2 =? 0).

(** A transport control telegram [cmd] for [a] with number [n]: 7 bytes, system priority, not repeated. The sender
    bytes are filled in by the bus layer. *)
Definition is_control_frame (cmd a n : Z) (f : list Z) : Prop :=
  length f = 7%nat /\ rd f 0 = 0xB0 /\ dst f = a /\ rd f 5 = 0x60 /\ rd f 6 = cmd + 4 * n.

(** Frame [f] carries, as number [n] for [peer], the response [resp] that the application wrote for request [req]:
    length from the length nibble, payload bytes unchanged, only the control byte (standard frame, not repeated, the
    priority of the request), destination and number added. *)
Definition carries (peer n : Z) (req resp f : list Z) : Prop :=
  length f = Z.to_nat (7 + rd resp 5 mod 16) /\
  dst f = peer /\ seqno f = n /\ rd f 0 = 0xB0 + 4 * (rd req 0 / 4 mod 4) /\
  rd f 5 = rd resp 5 /\ rd f 6 mod 4 = rd resp 6 mod 4 /\ rd f 6 / 64 = 2 * (rd resp 6 / 128) + 1 /\
  (forall i, (7 <= i < length f)%nat -> rd f i = rd resp i).

(** Inputs the environment can supply: received telegrams are byte strings; application buffers are 23 bytes. *)
Definition bytes (l : list Z) : Prop := Forall is_byte l.
Definition app_buffer (l : list Z) : Prop := length l = TL4_BUFFER_SIZE /\ bytes l.
Definition op_ok (o : op) : Prop :=
  match o with
  | OpRx now t app w => bytes t /\ app_buffer (snd app)
  | OpAppSend buf w => app_buffer buf
  | _ => True
  end.

(** ** Observer *)
Definition execs (l : list out) : list (list Z) := flat_map (fun o => match o with Exec t => [t] | _ => [] end) l.
Definition responses (l : list out) : list (list Z) :=
  flat_map (fun o => match o with Tx KResp f => [f] | _ => [] end) l.
Definition controls (l : list out) : list (list Z) :=
  flat_map (fun o => match o with Tx KCtrl f => [f] | _ => [] end) l.

(** What has been seen of the current connection. *)
Record session := mkSession {
  peer : Z;
  rx : list (list Z);                  (* numbered data telegrams received from the partner *)
  exec : list (list Z);                (* requests handed to the application *)
  made : list (list Z * list Z);       (* (request, response written by the application) *)
  groups : list (list (list Z));       (* transmissions of responses; a new group starts with the first
                                          transmission after the previous group was acknowledged *)
  waiting : bool;                      (* the last group has not been acknowledged yet *)
  last : Z;                            (* time of the last activity of the connection *)
  sent_at : Z;                         (* time of the last transmission of a response *)
  crowded : bool                       (* a request was executed while two responses were outstanding *)
}.

(** number of responses produced but not yet acknowledged *)
Definition acked (g : session) : nat := if waiting g then pred (length (groups g)) else length (groups g).
Definition outstanding (g : session) : nat := (length (made g) - acked g)%nat.

(** append a transmission *)
Definition add_copy (groups : list (list (list Z))) (w : bool) (f : list Z) : list (list (list Z)) :=
  if w then removelast groups ++ [List.last groups [] ++ [f]] else groups ++ [[f]].
Definition note_responses (g : session) (now : Z) (l : list (list Z)) : session :=
  fold_left (fun g f => mkSession (peer g) (rx g) (exec g) (made g) (add_copy (groups g) (waiting g) f) true now now (crowded g)) l g.

(** the partner acknowledges the response being transmitted *)
Definition matching_ack (g : session) (own : Z) (t : list Z) : bool :=
  addressed_to own t && is_ack t && (src t =? peer g) && waiting g &&
  (seqno t =? seqno (hd [] (List.last (groups g) []))).

Definition note_rx (g : session) (own now : Z) (t : list Z) : session :=
  if addressed_to own t && numbered t && (src t =? peer g)
  then mkSession (peer g) (rx g ++ [t]) (exec g) (made g) (groups g) (waiting g) now (sent_at g) (crowded g)
  else if matching_ack g own t
  then mkSession (peer g) (rx g) (exec g) (made g) (groups g) false now (sent_at g) (crowded g)
  else g.

Definition note_exec (g : session) (app : apci_result) (t : list Z) : session :=
  mkSession (peer g) (rx g) (exec g ++ [t])
    (if fst app then made g ++ [(t, snd app)] else made g)
    (groups g) (waiting g) (last g) (sent_at g)
    (crowded g || (2 <=? Z.of_nat (outstanding g))).

Definition op_time (o : op) : Z := match o with OpRx now _ _ _ => now | OpLoop now => now | _ => 0 end.

(** one operation [o] with effects [outs] on a device with own address [own] within a connection *)
Definition extend (g : session) (own : Z) (o : op) (outs : list out) : session :=
  let g1 := match o with
            | OpRx now t app _ => fold_left (fun g t => note_exec g app t) (execs outs) (note_rx g own now t)
            | _ => g
            end in
  note_responses g1 (op_time o) (responses outs).

(** [cur]: connection seen before; [conn], [to]: directConnection() and connectedTo() after the operation *)
Definition observe (cur : option session) (own : Z) (o : op) (outs : list out) (conn : bool) (to : Z) : option session :=
  if conn then
    match cur with
    | None => Some (mkSession to [] [] [] [] false (op_time o) 0 false)
    | Some g => Some (extend g own o outs)
    end
  else None.

Fixpoint run (s : tl4) (cur : option session) (ops : list op) : option (tl4 * option session) :=
  match ops with
  | [] => Some (s, cur)
  | o :: r => match step s o with
              | None => None
              | Some (s', outs) => run s' (observe cur (own s) o outs (directConnection s') (connectedTo s')) r
              end
  end.

(** Every state and observation a device with own address [a] can reach. *)
Definition reachable (a : Z) (s : tl4) (cur : option session) : Prop :=
  exists ops, Forall op_ok ops /\ run (init a) None ops = Some (s, cur).

(** ** What the properties say about an observed connection *)
(** C01: the requests to execute among received numbered telegrams: the one numbered 0, then the next 1, ... *)
Fixpoint in_order (n : Z) (l : list (list Z)) : list (list Z) :=
  match l with
  | [] => []
  | t :: r => if seqno t =? n mod 16 then t :: in_order (n + 1) r else in_order n r
  end.
(** a client that numbers its requests 0,1,2,.. mod 16 and repeats each one until it moves on to the next *)
Definition numbered_from (n : Z) (reqs : list (list Z)) : Prop :=
  forall i, (i < length reqs)%nat -> seqno (nth i reqs []) = (n + Z.of_nat i) mod 16.
Inductive stutter : list (list Z) -> list (list Z) -> Prop :=
| stutter_nil : stutter [] []
| stutter_cons t k reqs l : stutter reqs l -> stutter (t :: reqs) (repeat t (S k) ++ l).

(** C09: retransmissions of control telegrams in an output history *)
Fixpoint retries_bounded (prev : list Z) (n : nat) (l : list out) : Prop :=
  match l with
  | [] => True
  | Tx KRetry f :: r => f = prev /\ 128 <= rd f 6 /\ (n < 3)%nat /\ retries_bounded prev (S n) r
  | Tx _ f :: r => retries_bounded f 0 r
  | _ :: r => retries_bounded prev n r
  end.
(** all effects of a history *)
Fixpoint outputs (s : tl4) (ops : list op) : option (list out) :=
  match ops with
  | [] => Some []
  | o :: r => match step s o with
              | None => None
              | Some (s', outs) => match outputs s' r with Some l => Some (outs ++ l) | None => None end
              end
  end.

(** Everything the device remembers about its connection: open/closed, partner, both counters, repetition count,
    timers, and both response buffers. *)
Definition connection (s : tl4) :=
  (st s, caddr s, (seqS s, seqR s, repC s), (ctime s, stime s), (b1 s, s1 s), (b2 s, s2 s)).
(** no telegram is being transmitted *)
Definition bus_free (s : tl4) : Prop := txs s = FREE.
(** the observation after one more operation *)
Definition after (s : tl4) (cur : option session) (o : op) (s' : tl4) (outs : list out) : option session :=
  observe cur (own s) o outs (directConnection s') (connectedTo s').
(** number of times the response being transmitted has been put on the bus *)
Definition copies (g : session) : nat := length (List.last (groups g) []).
(** final state and all effects of a sequence of operations *)
Fixpoint steps (s : tl4) (ops : list op) : option (tl4 * list out) :=
  match ops with
  | [] => Some (s, [])
  | o :: r => match step s o with
              | None => None
              | Some (s', outs) => match steps s' r with Some (s'', l) => Some (s'', outs ++ l) | None => None end
              end
  end.
(** the connection ends and the partner [p] is told so; nothing is executed, no response is sent *)
Definition closes_with_disconnect (p : Z) (s' : tl4) (outs : list out) : Prop :=
  directConnection s' = false /\ execs outs = [] /\ responses outs = [] /\
  exists f, controls outs = [f] /\ is_control_frame 0x81 p 0 f.

(** a main loop pass at [now], after which the bus reports the end of the transmission *)
Definition give_up_round (now : Z) : list op := [OpLoop now; OpTxDone true].
(** times at least 3 s apart, after [prev] *)
Fixpoint spaced (prev : Z) (ts : list Z) : Prop :=
  match ts with
  | [] => True
  | t :: r => 3000 <= t - prev < 2^32 /\ spaced t r
  end.

(** results of the transmissions that end while the operation waits for the send buffer *)
Definition op_waits (o : op) : list bool :=
  match o with OpRx _ _ _ w => w | OpAppSend _ w => w | OpDisconnect w => w | _ => [] end.
