(** The serial port (sblib/src/serial.cpp) on top of the buffered stream (sblib/src/buffered_stream.cpp), with interrupts.
    The main program's read() and write() are cut into their single accesses to the shared volatile variables; between any
    two of them the interrupt handler (atomic with respect to the main program) may run and the hardware may act.
    Not modelled: begin/end/baud rate, SERIAL_WRITE_DIRECT and IAP_EMULATION builds, a not enabled port, line errors,
    overflow of the UART's own 16-byte FIFO (s_rx is unbounded). *)
From Verif Require Export Base.

(** buffered_stream.h:51-55 *)
Definition BUFFER_SIZE := 128.
Definition BUFFER_SIZE_MASK := 127.

(** Where the main program is. *)
Inductive pc :=
| Idle
| R_Check (full : bool)              (** BufferedStream::read line 16: compare tail and head *)
| R_Load (full : bool)               (** line 19: load the byte *)
| R_Inc (full : bool) (ch : Z)       (** line 21: ++readHead *)
| R_Mask (full : bool) (ch : Z)      (** line 22: readHead &= mask *)
| R_Irq (full : bool)                (** serial.cpp:184-189: if the buffer was full, run the handler with interrupts disabled *)
| W_Test (ch : Z)                    (** serial.cpp:131 *)
| W_Direct (ch : Z)                  (** serial.cpp:134 *)
| W_Wait (ch next : Z)               (** serial.cpp:142 *)
| W_Store (ch next : Z)              (** serial.cpp:145 *)
| W_Tail (ch next : Z)               (** serial.cpp:146 *)
| W_Ier.                             (** serial.cpp:135 and 147 *)

(** s_rx: bytes in the UART's receive FIFO (LSR_RDR: not empty); s_thre: transmitter hold register empty; s_ier: THRE
    interrupt enabled.  buffered_stream.h:58-62 *)
Record state := mkS { s_rb : list Z; s_rh : Z; s_rt : Z; s_wb : list Z; s_wh : Z; s_wt : Z;
                      s_rx : list Z; s_thre : bool; s_ier : bool; s_pc : pc }.
Definition set_pc (p : pc) (s : state) : state :=
  mkS (s_rb s) (s_rh s) (s_rt s) (s_wb s) (s_wh s) (s_wt s) (s_rx s) (s_thre s) (s_ier s) p.

(** What can be observed: a byte taken from the UART and stored or dropped, read() returning a byte or -1, a byte accepted
    by write(), a byte put into the transmitter ([lost]: although it was not empty). *)
Inductive obs := Stored (b : Z) | Dropped (b : Z) | Returned (r : option Z) | Wrote (b : Z) | Sent (b : Z) (lost : bool).

(** buffered_stream.h:85-88 readBufferFull *)
Definition readBufferFull (s : state) : bool := Z.land (s_rt s + 1) BUFFER_SIZE_MASK =? s_rh s.

(** serial.cpp:219-232: the loop over the receive FIFO *)
Fixpoint receive (rx : list Z) (s : state) : state * list obs :=
  match rx with
  | [] => (mkS (s_rb s) (s_rh s) (s_rt s) (s_wb s) (s_wh s) (s_wt s) [] (s_thre s) (s_ier s) (s_pc s), [])
  | b :: r =>
      if negb (readBufferFull s) then
        let '(s', o) := receive r (mkS (wr (s_rb s) (Z.to_nat (s_rt s)) b) (s_rh s) (Z.land (s_rt s + 1) BUFFER_SIZE_MASK)
                                       (s_wb s) (s_wh s) (s_wt s) r (s_thre s) (s_ier s) (s_pc s)) in (s', Stored b :: o)
      else let '(s', o) := receive r s in (s', Dropped b :: o)
  end.
(** serial.cpp:204-217: the transmit part *)
Definition transmit (s : state) : state * list obs :=
  if s_thre s then
    if s_wh s =? s_wt s then
      (mkS (s_rb s) (s_rh s) (s_rt s) (s_wb s) (s_wh s) (s_wt s) (s_rx s) (s_thre s) false (s_pc s), [])
    else
      (mkS (s_rb s) (s_rh s) (s_rt s) (s_wb s) (Z.land (s_wh s + 1) BUFFER_SIZE_MASK) (s_wt s) (s_rx s) false (s_ier s) (s_pc s),
       [Sent (rd (s_wb s) (Z.to_nat (s_wh s))) (negb (s_thre s))])
  else (s, []).
(** serial.cpp:194-233 interruptHandler *)
Definition interruptHandler (s : state) : state * list obs :=
  let '(s, o1) := transmit s in
  let '(s, o2) := receive (s_rx s) s in (s, o1 ++ o2).

(** The main program executes one access. *)
Definition main_step (s : state) : state * list obs :=
  match s_pc s with
  | Idle => (s, [])
  | R_Check full => if s_rt s =? s_rh s then (set_pc (R_Irq full) s, [Returned None]) else (set_pc (R_Load full) s, [])
  | R_Load full => (set_pc (R_Inc full (rd (s_rb s) (Z.to_nat (s_rh s)))) s, [])
  | R_Inc full ch =>
      (mkS (s_rb s) (s_rh s + 1) (s_rt s) (s_wb s) (s_wh s) (s_wt s) (s_rx s) (s_thre s) (s_ier s) (R_Mask full ch),
       [Returned (Some ch)])
  | R_Mask full ch =>
      (mkS (s_rb s) (Z.land (s_rh s) BUFFER_SIZE_MASK) (s_rt s) (s_wb s) (s_wh s) (s_wt s) (s_rx s) (s_thre s) (s_ier s) (R_Irq full), [])
  | R_Irq full => if full && negb (match s_rx s with [] => true | _ => false end) then interruptHandler (set_pc Idle s)
                  else (set_pc Idle s, [])
  | W_Test ch => if (s_wh s =? s_wt s) && s_thre s then (set_pc (W_Direct ch) s, [])
                 else (set_pc (W_Wait ch (Z.land (s_wt s + 1) BUFFER_SIZE_MASK)) s, [])
  | W_Direct ch => (mkS (s_rb s) (s_rh s) (s_rt s) (s_wb s) (s_wh s) (s_wt s) (s_rx s) false (s_ier s) W_Ier,
                    [Wrote ch; Sent ch (negb (s_thre s))])
  | W_Wait ch next => if s_wh s =? next then (s, []) else (set_pc (W_Store ch next) s, [])
  | W_Store ch next => (mkS (s_rb s) (s_rh s) (s_rt s) (wr (s_wb s) (Z.to_nat (s_wt s)) ch) (s_wh s) (s_wt s) (s_rx s) (s_thre s) (s_ier s) (W_Tail ch next), [])
  | W_Tail ch next => (mkS (s_rb s) (s_rh s) (s_rt s) (s_wb s) (s_wh s) next (s_rx s) (s_thre s) (s_ier s) W_Ier, [Wrote ch])
  | W_Ier => (mkS (s_rb s) (s_rh s) (s_rt s) (s_wb s) (s_wh s) (s_wt s) (s_rx s) (s_thre s) true Idle, [])
  end.

(** Events: a byte arrives, the transmitter becomes empty, an interrupt, a call by the application, a step of the call. *)
Inductive event := Arrive (b : Z) | TxDone | Irq | CallRead | CallWrite (ch : Z) | Main.
Definition step (s : state) (e : event) : state * list obs :=
  match e with
  | Arrive b => (mkS (s_rb s) (s_rh s) (s_rt s) (s_wb s) (s_wh s) (s_wt s) (s_rx s ++ [b]) (s_thre s) (s_ier s) (s_pc s), [])
  | TxDone => (mkS (s_rb s) (s_rh s) (s_rt s) (s_wb s) (s_wh s) (s_wt s) (s_rx s) true (s_ier s) (s_pc s), [])
  | Irq => interruptHandler s
  | CallRead => match s_pc s with Idle => (set_pc (R_Check (readBufferFull s)) s, []) | _ => (s, []) end
  | CallWrite ch => match s_pc s with Idle => (set_pc (W_Test ch) s, []) | _ => (s, []) end
  | Main => main_step s
  end.
Fixpoint run (s : state) (es : list event) : state * list obs :=
  match es with
  | [] => (s, [])
  | e :: r => let '(s, o) := step s e in let '(s, o') := run s r in (s, o ++ o')
  end.
(** buffered_stream.h:77-83 clearBuffers, as called by begin() (serial.cpp:94) *)
Definition init (rb wb : list Z) : state := mkS rb 0 0 wb 0 0 [] true false Idle.

(** buffered_stream.cpp:27-32 peek and 34-40 available, called when no other call is active *)
Definition peek (s : state) : Z := if s_rt s =? s_rh s then -1 else rd (s_rb s) (Z.to_nat (s_rh s)).
Definition available (s : state) : Z := let num := s_rt s - s_rh s in if num <? 0 then num + BUFFER_SIZE else num.
(** serial.cpp:159-172 flush: its loop ends when *)
Definition flushed (s : state) : bool := s_wh s =? s_wt s.
