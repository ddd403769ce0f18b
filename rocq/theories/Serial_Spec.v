(** Specification for C47, C61: the receive and the transmit queue as seen from outside. *)
From Verif Require Export Base Serial_Model.

(** ** C47 the receive queue: at most 127 bytes wait; a byte is dropped only if 127 are waiting; read() returns the oldest,
    and -1 only if none is waiting *)
Fixpoint receive_ok (waiting : list Z) (l : list obs) : Prop :=
  match l with
  | [] => True
  | Stored b :: r => (length waiting < 127)%nat /\ receive_ok (waiting ++ [b]) r
  | Dropped b :: r => length waiting = 127%nat /\ receive_ok waiting r
  | Returned None :: r => waiting = [] /\ receive_ok waiting r
  | Returned (Some b) :: r => (exists w, waiting = b :: w) /\ receive_ok (tl waiting) r
  | _ :: r => receive_ok waiting r
  end.
(** the queue after a trace *)
Fixpoint waiting_after (waiting : list Z) (l : list obs) : list Z :=
  match l with
  | [] => waiting
  | Stored b :: r => waiting_after (waiting ++ [b]) r
  | Returned (Some b) :: r => waiting_after (tl waiting) r
  | _ :: r => waiting_after waiting r
  end.
(** bytes taken from the UART, bytes that arrived *)
Definition taken (l : list obs) : list Z := flat_map (fun o => match o with Stored b | Dropped b => [b] | _ => [] end) l.
Definition arrived (es : list event) : list Z := flat_map (fun e => match e with Arrive b => [b] | _ => [] end) es.
Definition stored (l : list obs) : list Z := flat_map (fun o => match o with Stored b => [b] | _ => [] end) l.
Definition returned (l : list obs) : list Z := flat_map (fun o => match o with Returned (Some b) => [b] | _ => [] end) l.

(** The interrupt does not hit the moment when readHead is 128 (between its increment and the masking). *)
Fixpoint undisturbed (s : state) (es : list event) : Prop :=
  match es with
  | [] => True
  | e :: r => (e = Irq -> s_rh s <> 128) /\ undisturbed (fst (step s e)) r
  end.

(** ** C61 the transmit queue: bytes are sent in the order written, each into an empty transmitter *)
Definition written (l : list obs) : list Z := flat_map (fun o => match o with Wrote b => [b] | _ => [] end) l.
Definition sent (l : list obs) : list Z := flat_map (fun o => match o with Sent b _ => [b] | _ => [] end) l.
