(** SPI: sblib/src/spi.cpp, sblib/inc/sblib/spi.h. The two SSP controllers are any automaton with their registers; each access is one step of it.
    Not modelled: the field [errors] (written, never read), int_ssp_0, that NVIC functions are also accesses. *)
From Verif Require Export Base.

(** spi.cpp:16-55 (those used) *)
Definition SSP_CR1_ENABLED : Z := Z.shiftl 1 1.
Definition SSP_CR1_MASTER : Z := 0.
Definition SSP_SR_TNF : Z := Z.shiftl 1 1.
Definition SSP_SR_RNE : Z := Z.shiftl 1 2.
Definition SSP_SR_BSY : Z := Z.shiftl 1 4.
Definition SSP_ICR_BITMASK : Z := 0x03.
Definition SPI_DATA_SIZE_OFFS (x : Z) : Z := Z.land (x - 1) 15.
(** spi.h:19-32 *)
Inductive SpiTransferMode := SPI_CONTINUE | SPI_LAST.
(** spi.h:47-62 *)
Definition SPI_DATA_8BIT : Z := 8.
(** spi.h:67-106 *)
Definition SPI_FORMAT_SPI : Z := 0.
Definition SPI_FORMAT_TI : Z := 0.
Definition SPI_FORMAT_MICROWIRE : Z := 0.
Definition SPI_CPOL_LOW : Z := 0.
Definition SPI_CPOL_HIGH : Z := Z.shiftl 1 6.
Definition SPI_CPHASE_RAISE : Z := 0.
Definition SPI_CPHASE_FALL : Z := Z.shiftl 1 7.
Definition SPI_DEFAULT_MODE : Z := Z.lor SPI_FORMAT_SPI (Z.lor SPI_CPOL_LOW SPI_CPHASE_RAISE).

(** test/sblib/cpu-emu/LPC11xx.h:405-416: the registers of an SSP controller (MIS is not used) *)
Inductive reg := CR0 | CR1 | DR | SR | CPSR | IMSC | RIS | ICR.
(** no code: reading and writing a register of port 0 (false) or port 1 (true); [due]: an interrupt of the port that is enabled in IMSC is taken now, if the interrupt controller lets it pass *)
Record ssp (S : Type) := { get : bool -> reg -> S -> S * Z; put : bool -> reg -> S -> Z -> S; due : bool -> S -> bool }.
Arguments get {S}. Arguments put {S}. Arguments due {S}.

(** spi.h:217-226: the fields used by block transfers. [sndData]: the words from the pointer on; [recData]: null, or the caller's array and the place the pointer points to.
    [instance]: instances[port] is this object (true) or null, spi.cpp:144. [irqOn]: the port's interrupt is enabled in the NVIC. [fault]: an access outside an array or through null happened. *)
Record spi (S : Type) := mkSpi { hw : S; sndData : list Z; recData : option (list Z * nat); sndCount : Z; recCount : Z; finished : bool; instance : bool; irqOn : bool; fault : bool }.
Arguments mkSpi {S}. Arguments hw {S}. Arguments sndData {S}. Arguments recData {S}. Arguments sndCount {S}. Arguments recCount {S}.
Arguments finished {S}. Arguments instance {S}. Arguments irqOn {S}. Arguments fault {S}.

Section Spi.
  Context {S : Type} (w : ssp S).

  (** no code: assignments to a field *)
  Definition setHw (s : spi S) (h : S) := mkSpi h (sndData s) (recData s) (sndCount s) (recCount s) (finished s) (instance s) (irqOn s) (fault s).
  Definition setSnd (s : spi S) (d : list Z) := mkSpi (hw s) d (recData s) (sndCount s) (recCount s) (finished s) (instance s) (irqOn s) (fault s).
  Definition setRec (s : spi S) (d : option (list Z * nat)) := mkSpi (hw s) (sndData s) d (sndCount s) (recCount s) (finished s) (instance s) (irqOn s) (fault s).
  Definition setSndCount (s : spi S) (c : Z) := mkSpi (hw s) (sndData s) (recData s) c (recCount s) (finished s) (instance s) (irqOn s) (fault s).
  Definition setRecCount (s : spi S) (c : Z) := mkSpi (hw s) (sndData s) (recData s) (sndCount s) c (finished s) (instance s) (irqOn s) (fault s).
  Definition setFinished (s : spi S) (b : bool) := mkSpi (hw s) (sndData s) (recData s) (sndCount s) (recCount s) b (instance s) (irqOn s) (fault s).
  Definition setInstance (s : spi S) (b : bool) := mkSpi (hw s) (sndData s) (recData s) (sndCount s) (recCount s) (finished s) b (irqOn s) (fault s).
  Definition setIrq (s : spi S) (b : bool) := mkSpi (hw s) (sndData s) (recData s) (sndCount s) (recCount s) (finished s) (instance s) b (fault s).
  Definition setFault (s : spi S) := mkSpi (hw s) (sndData s) (recData s) (sndCount s) (recCount s) (finished s) (instance s) (irqOn s) true.

  (** no code: an access to a register, after which [isr] may be run (the interrupt handler, or nothing when inside it) *)
  Definition load (isr : spi S -> spi S) (no : bool) (r : reg) (s : spi S) : spi S * Z := let '(h, v) := get w no r (hw s) in (isr (setHw s h), v).
  Definition store (isr : spi S -> spi S) (no : bool) (r : reg) (s : spi S) (v : Z) : spi S := isr (setHw s (put w no r (hw s) v)).
  (** spi.cpp:193, 202: if (recData) *recData++ = tmpVal (uint16_t) *)
  Definition keep (s : spi S) (tmpVal : Z) : spi S :=
    match recData s with
    | None => s
    | Some (a, i) => if (i <? length a)%nat then setRec s (Some (wr a i (u16 tmpVal), Datatypes.S i)) else setFault s
    end.
  (** spi.cpp:185-197: the first loop; [maxCount] as in the code. The word goes to LPC_SSP0 whatever the port. Reading outside the array: 0 and a fault *)
  Fixpoint fillLoop (isr : spi S -> spi S) (no : bool) (maxCount : nat) (s : spi S) : spi S :=
    if sndCount s =? 0 then s else
    let '(s, sr) := load isr no SR s in
    if Z.land sr SSP_SR_TNF =? 0 then s else
    match maxCount with
    | O => s
    | Datatypes.S maxCount =>
        let s := setSndCount s (sndCount s - 1) in
        let '(s, sr) := load isr no SR s in
        let s := if Z.land sr SSP_SR_RNE =? 0 then s else
                 let s := setRecCount s (recCount s - 1) in
                 let '(s, tmpVal) := load isr no DR s in keep s tmpVal in
        let '(s, v) := match sndData s with v :: t => (setSnd s t, v) | [] => (setFault s, 0) end in
        let s := store isr false DR s v in
        let '(s, _) := load isr no RIS s in
        fillLoop isr no maxCount s
    end.
  (** spi.cpp:198-204: the second loop; [n] passes at most (recCount, see below), more: a fault *)
  Fixpoint drainLoop (isr : spi S -> spi S) (no : bool) (n : nat) (s : spi S) : spi S :=
    if recCount s =? 0 then s else
    let '(s, sr) := load isr no SR s in
    if Z.land sr SSP_SR_RNE =? 0 then s else
    match n with
    | O => setFault s
    | Datatypes.S n =>
        let s := setRecCount s (recCount s - 1) in
        let '(s, tmpVal) := load isr no DR s in
        let s := keep s tmpVal in
        let '(s, _) := load isr no RIS s in
        drainLoop isr no n s
    end.
  (** spi.cpp:205-219 *)
  Definition allSent (isr : spi S -> spi S) (no : bool) (s : spi S) : spi S :=
    if sndCount s =? 0 then
      let s := setIrq s false in
      let s := setInstance s false in
      let '(s, m) := load isr no IMSC s in
      let s := store isr no IMSC s (u32 (Z.land m (Z.lnot (Z.shiftl 1 3)))) in
      setFinished s true
    else s.
  (** spi.cpp:181-220 *)
  Definition continueBlockTransfer (isr : spi S -> spi S) (no : bool) (s : spi S) : spi S :=
    let s := fillLoop isr no 8 s in
    let s := drainLoop isr no (Z.to_nat (recCount s)) s in
    allSent isr no s.
  (** spi.cpp:231-239: run when the interrupt comes; the handler is not interrupted by itself *)
  Definition handler (no : bool) (s : spi S) : spi S :=
    if irqOn s && due w no (hw s) then
      if instance s then continueBlockTransfer (fun s => s) no s else setFault s
    else s.
  (** spi.cpp:222-226; [n] passes left, None: not returned *)
  Fixpoint finalizeBlockTransfer (n : nat) (no : bool) (s : spi S) : option (spi S) :=
    if recCount s =? 0 then Some s else
    match n with O => None | Datatypes.S n => finalizeBlockTransfer n no (continueBlockTransfer (handler no) no s) end.
  (** spi.cpp:127-128, 149-150; [n] passes left, None: not returned *)
  Fixpoint clearReceived (n : nat) (no : bool) (s : spi S) : option (spi S) :=
    let '(s, sr) := load (handler no) no SR s in
    if Z.land sr SSP_SR_RNE =? 0 then Some s else
    match n with O => None | Datatypes.S n => let '(s, _) := load (handler no) no DR s in clearReceived n no s end.
  (** spi.cpp:146-179; [rec]: null or the array *)
  Definition transferBlock (n : nat) (no : bool) (s : spi S) (snd : list Z) (bytes : Z) (rec : option (list Z)) (asynchron : bool) : option (spi S) :=
    match clearReceived n no s with
    | None => None
    | Some s =>
        let s := setRec (setSnd s snd) (match rec with None => None | Some a => Some (a, O) end) in
        let s := setFinished (setRecCount (setSndCount s bytes) bytes) false in
        let s := store (handler no) no ICR s SSP_ICR_BITMASK in
        let s := continueBlockTransfer (handler no) no s in
        if negb asynchron then finalizeBlockTransfer n no s
        else
          let s := setInstance s true in
          let '(s, m) := load (handler no) no IMSC s in
          let s := store (handler no) no IMSC s (Z.lor m (Z.shiftl 1 3)) in
          Some (handler no (setIrq s true))
    end.
  (** spi.cpp:137-138 *)
  Fixpoint waitBusy (n : nat) (no : bool) (s : spi S) : option (spi S) :=
    let '(s, sr) := load (handler no) no SR s in
    if Z.land sr SSP_SR_BSY =? 0 then Some s else
    match n with O => None | Datatypes.S n => waitBusy n no s end.
  (** spi.cpp:124-142 *)
  Definition transfer (n : nat) (no : bool) (s : spi S) (val : Z) (transferMode : SpiTransferMode) : option (spi S * Z) :=
    match clearReceived n no s with
    | None => None
    | Some s =>
        let s := store (handler no) no ICR s SSP_ICR_BITMASK in
        let s := store (handler no) no DR s (u32 val) in
        match waitBusy n no s with
        | None => None
        | Some s => let '(s, v) := load (handler no) no DR s in Some (s, s32 v)
        end
    end.
  (** no code: the program waits, [n] moments at which the interrupt may come; nothing is accessed *)
  Fixpoint wait (elapse : S -> S) (n : nat) (no : bool) (s : spi S) : spi S :=
    match n with O => s | Datatypes.S n => wait elapse n no (handler no (setHw s (elapse (hw s)))) end.

  (** spi.cpp:104-107; div - 1 must not overflow *)
  Definition setClockDivider (no : bool) (h : S) (div : Z) : S :=
    let '(h, v) := get w no CR0 h in put w no CR0 h (u32 (Z.lor (Z.land v (u32 (Z.lnot 0xff00))) (Z.shiftl (Z.land (div - 1) 255) 8))).
  (** spi.cpp:109-112 *)
  Definition setDataSize (no : bool) (h : S) (dataSize : Z) : S :=
    let '(h, v) := get w no CR0 h in put w no CR0 h (u32 (Z.lor (Z.land v (u32 (Z.lnot 15))) (SPI_DATA_SIZE_OFFS dataSize))).
  (** spi.cpp:114-117 *)
  Definition begin (no : bool) (h : S) : S := let '(h, v) := get w no CR1 h in put w no CR1 h (Z.lor v SSP_CR1_ENABLED).
  (** spi.cpp:119-122 *)
  Definition end_ (no : bool) (h : S) : S := let '(h, v) := get w no CR1 h in put w no CR1 h (Z.land v (u32 (Z.lnot SSP_CR1_ENABLED))).
  (** spi.cpp:95-101: the constructor's accesses to the port *)
  Definition constructPort (no : bool) (h : S) (mode : Z) : S :=
    put w no CPSR (put w no CR1 (put w no CR0 h (u32 (Z.lor mode (SPI_DATA_SIZE_OFFS SPI_DATA_8BIT)))) SSP_CR1_MASTER) 2.
End Spi.

(** spi.cpp:66-92: the registers outside the port the constructor writes: SYSAHBCLKCTRL, PRESETCTRL, SSP0CLKDIV, SSP1CLKDIV, and the priorities of SSP0_IRQn and SSP1_IRQn *)
Record chip := mkChip { SYSAHBCLKCTRL : Z; PRESETCTRL : Z; SSP0CLKDIV : Z; SSP1CLKDIV : Z; prio0 : Z; prio1 : Z }.
(** spi.cpp:66-92 *)
Definition constructChip (spiPort : bool) (c : chip) : chip :=
  let ahb := Z.lor (SYSAHBCLKCTRL c) (Z.shiftl 1 6) in
  let rst := Z.lor (PRESETCTRL c) (Z.shiftl 1 ((if spiPort then 1 else 0) * 2)) in
  if negb spiPort then mkChip (Z.lor ahb (Z.shiftl 1 11)) rst 2 (SSP1CLKDIV c) 1 (prio1 c)
  else mkChip (Z.lor ahb (Z.shiftl 1 18)) rst (SSP0CLKDIV c) 2 (prio0 c) 1.
