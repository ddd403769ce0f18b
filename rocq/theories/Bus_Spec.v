(** What the link layer promises, said about what an observer of the wire and of the interface sees. Only the types of events and operations come from the model.
    Covers C11-C15. *)
From Verif Require Import Base Bus_Model.

(** ** Frames *)
Definition xor_all (l : list Z) : Z := fold_right Z.lxor 0 l.
(** length of a telegram without checksum, from the low nibble of byte 5 *)
Definition size (t : list Z) : nat := 7 + Z.to_nat (nth 5 t 0 mod 16).
(** the frame on the wire: sender replaced, checksum added *)
Definition body (own : Z) (t : list Z) : list Z := [nth 0 t 0; own / 256; own mod 256] ++ firstn (size t - 3) (skipn 3 t).
Definition wire (own : Z) (t : list Z) : list Z := body own t ++ [Z.lxor 255 (xor_all (body own t))].
(** the same marked as a repetition: bit 5 of the first byte is 0 *)
Definition unflagged (c : Z) : Z := Z.clearbit c 5.
Definition repeated (t : list Z) : list Z := match t with [] => [] | c :: r => unflagged c :: r end.
(** the largest frame *)
Definition largest : nat := 23.
(** a frame heard on the wire that may be accepted *)
Definition acceptable (f : list Z) (parities : bool) : Prop :=
  (8 <= length f)%nat /\ parities = true /\ xor_all (firstn largest f) = 255 /\ Z.land (nth 0 f 0) 0xD3 = 0x90.
(** addressed to us: a broadcast, a known group, our address, or the transport layer is off *)
Definition forUs (e : env) (f : list Z) : Prop :=
  let dest := 256 * nth 3 f 0 + nth 4 f 0 in
  (Z.testbit (nth 5 f 0) 7 = true /\ (dest = 0 \/ knownGroup e dest = true)) \/ (Z.testbit (nth 5 f 0) 7 = false /\ dest = ownAddress e) \/ Z.testbit (statusByte e) 2 = false.
(** [f] repeats [t]: the repeat flag of [f] is 0 and all else but the checksum is equal *)
Definition repeats (f t : list Z) : Prop :=
  length f = length t /\ Z.testbit (nth 0 f 0) 5 = false /\ nth 0 f 0 = unflagged (nth 0 t 0) /\ (forall i, (0 < i < length f - 1)%nat -> nth i f 0 = nth i t 0).

(** ** What an observer knows *)
Record view := mkView {
  heard : list Z;                 (* bytes of the reception in progress or just over *)
  sound : bool;                   (* all of them with right parity *)
  over : bool;                    (* it is over *)
  reply : bool;                   (* it was the first thing heard after an own telegram *)
  held : option (list Z);         (* the telegram delivered and not discarded *)
  heldThen : bool;                (* was there one at the end of the reception? *)
  latest : option (list Z);       (* the last telegram delivered *)
  job : option (Z * list Z);      (* the telegram taken for sending and not reported *)
  full : nat;                     (* how often it was transmitted completely *)
  tried : nat;                    (* how often at least one byte was transmitted *)
  on : option (bool * list Z);    (* the transmission in progress: an acknowledge?; the bytes *)
  asked : bool                    (* an own telegram is out, nothing heard since *)
}.
Definition view0 : view := mkView [] true false false None false None None 0 0 None false.
Definition see (v : view) (o : bout) : view :=
  match o with
  | RxBegin p => mkView p true false false (held v) (heldThen v) (latest v) (job v) (full v) (tried v) None (asked v)
  | RxByte c ok => mkView (heard v ++ [c]) (sound v && ok) (over v) (reply v) (held v) (heldThen v) (latest v) (job v) (full v) (tried v) (on v) (asked v)
  | RxEnd => mkView (heard v) (sound v) true (asked v) (held v) (match held v with Some _ => true | None => false end) (latest v) (job v) (full v) (tried v) (on v) false
  | Deliver t => mkView (heard v) (sound v) (over v) (reply v) (Some t) (heldThen v) (Some t) (job v) (full v) (tried v) (on v) (asked v)
  | TxBegin a => mkView (heard v) (sound v) (over v) false (held v) (heldThen v) (latest v) (job v) (full v) (tried v) (Some (a, [])) (asked v)
  | TxByte c =>
      match on v with
      | None => v
      | Some (a, l) => mkView (heard v) (sound v) (over v) (reply v) (held v) (heldThen v) (latest v) (job v) (full v)
                              (match a, l with false, [] => S (tried v) | _, _ => tried v end) (Some (a, l ++ [c])) (asked v)
      end
  | TxEnd a => mkView (heard v) (sound v) (over v) (reply v) (held v) (heldThen v) (latest v) (job v) (if a then full v else S (full v)) (tried v) None (if a then asked v else true)
  | NoAnswer => mkView (heard v) (sound v) (over v) (reply v) (held v) (heldThen v) (latest v) (job v) (full v) (tried v) (on v) false
  | Taken own t => mkView (heard v) (sound v) (over v) false (held v) (heldThen v) (latest v) (Some (own, t)) 0 0 (on v) (asked v)
  | Report _ => mkView (heard v) (sound v) (over v) (reply v) (held v) (heldThen v) (latest v) None (full v) (tried v) (on v) (asked v)
  | Discarded => mkView (heard v) (sound v) (over v) (reply v) None (heldThen v) (latest v) (job v) (full v) (tried v) (on v) (asked v)
  end.
Definition sees (v : view) (os : list bout) : view := fold_left see os v.

(** ** Which event may happen when *)
(** the answer to our telegram was a link-layer acknowledge *)
Definition acked (v : view) : Prop := reply v = true /\ over v = true /\ heard v = [0xCC] /\ sound v = true.
(** the frame to be sent now: the second and every further complete transmission is marked as a repetition *)
Definition due (v : view) : option (list Z) :=
  match job v with None => None | Some (own, t) => Some (wire own (if (full v =? 0)%nat then t else repeated t)) end.
(** a telegram buffer *)
Definition tel_buffer (t : list Z) : Prop := length t = largest /\ Forall is_byte t.
Definition allowed (L : limits) (e : option env) (v : view) (o : bout) : Prop :=
  match o with
  | Deliver t => over v = true /\ acceptable (heard v) (sound v) /\ t = firstn largest (heard v) /\ held v = None /\
                 (exists e0, e = Some e0 /\ forUs e0 t) /\ (forall t0, latest v = Some t0 -> ~ repeats t t0)
  | TxBegin true => over v = true /\ acceptable (heard v) (sound v) /\ heldThen v = false
  | TxBegin false => job v <> None /\ asked v = false /\ (tried v <= full v + 3)%nat /\
                     (full v = O \/ 0 < sendRetriesMax L /\ 0 < sendBusyRetriesMax L /\ Z.of_nat (full v) < sendRetriesMax L + sendBusyRetriesMax L)
  | TxByte c => match on v with
                | None => False
                | Some (true, l) => l = [] /\ c = 0xCC
                | Some (false, l) => exists f, due v = Some f /\ (length l < length f)%nat /\ c = nth (length l) f 0
                end
  | TxEnd true => on v = Some (true, [0xCC])
  | TxEnd false => exists f, due v = Some f /\ on v = Some (false, f)
  | Taken own t => job v = None /\ is_u16 own /\ tel_buffer t
  | Report ok => job v <> None /\ (ok = true <-> acked v)
  | _ => True
  end.
Fixpoint permitted (L : limits) (e : option env) (v : view) (os : list bout) : Prop :=
  match os with [] => True | o :: r => allowed L e v o /\ permitted L e (see v o) r end.

(** ** Sensible use *)
Definition env_ok (e : env) : Prop := is_u16 (ownAddress e) /\ (forall ok t, sendsAgain e ok = Some t -> tel_buffer t).
(** an interrupt has a cause; while a byte is sent the timer runs from 0 to its match register, an edge is captured before
    the timer is read, and if it is not our own it has been watched for more than 3 us (spike filter);
    a telegram is sent with its length; resume() is called in the state pause() leaves behind *)
Definition legal (b : bus) (o : bop) : Prop :=
  match o with
  | Irq e i => iCap i || iMatch i = true /\ 0 <= iCapture i /\ env_ok e /\
               ((state b = SEND_START_BIT \/ state b = SEND_BIT_0 \/ state b = SEND_BITS_OF_BYTE) -> iMatch i = false ->
                iCapture i <= iTimer i <= mTime b /\ (iCapture i < mPwm b -> iCapture i + 4 <= iTimer i))
  | Send own t n => is_u16 own /\ tel_buffer t /\ n = size t
  | Resume => state b = INIT
  | _ => True
  end.
Definition op_env (o : bop) : option env := match o with Irq e _ => Some e | _ => None end.
Fixpoint legal_run (L : limits) (l : list bop) (b : bus) : Prop :=
  match l with [] => True | o :: r => legal b o /\ (forall b1 out, bstep L b o = Some (b1, out) -> legal_run L r b1) end.
Definition limits_ok (L : limits) : Prop := 0 <= sendRetriesMax L /\ 0 <= sendBusyRetriesMax L.

(** ** Histories *)
(** [b] is the link layer and [v] what was observed after the operations [l] since begin() *)
Definition after (L : limits) (junk : bus) (l : list bop) (b : bus) (v : view) : Prop :=
  legal_run L l (begin junk) /\ exists os, bruns L l (begin junk) = Some (b, os) /\ v = sees view0 os.
(** in some history event [x] happens where [v] was observed before; [e]: the upper layer at that moment *)
Definition occurs (L : limits) (junk : bus) (x : bout) (v : view) (e : option env) : Prop :=
  exists l b v0 o b1 os1 os2, after L junk l b v0 /\ legal b o /\ bstep L b o = Some (b1, os1 ++ x :: os2) /\ v = sees v0 os1 /\ e = op_env o.
(** a frame as long as its length field says *)
Definition wellSized (f : list Z) : Prop := length f = S (size f).
(** the line has been silent for longer than the pause between two bytes *)
Definition silence (b : bus) (i : irq) : Prop := state b = RECV_WAIT_FOR_STARTBIT_OR_TELEND /\ iCap i = false.
(** the timer runs out and nothing is heard *)
Definition tick (o : bop) : Prop := exists e i, o = Irq e i /\ iCap i = false /\ iMatch i = true.
(** the same with a sensible upper layer *)
Definition quiet (o : bop) : Prop := exists e i, o = Irq e i /\ env_ok e /\ 0 <= iCapture i /\ iCap i = false /\ iMatch i = true.
(** the upper layer was told that sending has finished *)
Definition reported (os : list bout) : Prop := exists ok, In (Report ok) os.
