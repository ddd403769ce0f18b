(** A bus device with its communication objects: the parts of BcuDefault::loop and of the telegram handling that Device_Model leaves to an environment, put together from the models of
    the device (Device_Model), of the communication objects (ComObj_Model) and of the rate limit (Rate_Model).

    Simplifications (they apply to the whole file, besides those of the three models):
    - a call into the communication objects reads the tables as they are when it begins; the code reads them again at every access (equal unless a value stored by that call overlaps a table);
    - the three bytes behind the user RAM cannot be reached through a value of the last object;
    - the wait in acquireSendBuffer (knx_tlayer4.cpp:593-603) comes after the telegram was composed instead of before; the wait changes neither the buffer nor any memory;
    - a table at an invalid address gives None; transmitting_object_no is not modelled, nothing reads it. *)
From Verif Require Export Base Telegram_Model Device_Model.
From Verif Require ComObj_Model Rate_Model Util_Model.

(** ** Tables *)
(** the bytes from an address of the user memory on (bcu_default.cpp:163-174) *)
Definition bytesFrom (d : dev) (p : bool * nat) : list Z := skipn (snd p) (if fst p then eeData d else ramData d).
(** userEepromBCU1.h:38-39, 43 *)
Definition assocTabPtrOffset : Z := 0x11.
Definition commsTabPtrOffset : Z := 0x12.
Definition addrTabSizeOffset : Z := 0x16.
(** a little-endian word of the EEPROM (addr_tablesBCU2.cpp:35-36, 43-44, com_objectsBCU2.cpp:28-29) *)
Definition eeAddress (d : dev) (o : Z) : Z := makeWord (rd (eeData d) (Z.to_nat (o + 1))) (rd (eeData d) (Z.to_nat o)).
(** addr_tablesBCU1.cpp:32-35, addr_tablesBCU2.cpp:33-39 addrTable *)
Definition addrTableBytes (c : conf) (d : dev) : option (list Z) :=
  match kind c with
  | Bcu1 => Some (skipn (Z.to_nat addrTabSizeOffset) (eeData d))
  | Bcu2 => option_map (bytesFrom d) (userMemoryPtr (lay c) (eeAddress d addrTabAddrOffset))
  end.
(** addr_tablesBCU1.cpp:37-40, addr_tablesBCU2.cpp:41-45 assocTable *)
Definition assocTableBytes (c : conf) (d : dev) : option (list Z) :=
  match kind c with
  | Bcu1 => Some (skipn (Z.to_nat (rd (eeData d) (Z.to_nat assocTabPtrOffset))) (eeData d))
  | Bcu2 => option_map (bytesFrom d) (userMemoryPtr (lay c) (eeAddress d assocTabAddrOffset))
  end.
(** com_objectsBCU1.cpp:136-146, com_objectsBCU2.cpp:26-31 objectConfigTable *)
Definition comTableBytes (c : conf) (d : dev) : option (list Z) :=
  match kind c with
  | Bcu1 => let p := rd (eeData d) (Z.to_nat commsTabPtrOffset) in
            if p =? 0 then None else option_map (bytesFrom d) (userMemoryPtr (lay c) (u16 (p + eeStart (lay c))))
  | Bcu2 => option_map (bytesFrom d) (userMemoryPtr (lay c) (eeAddress d commsTabAddrOffset))
  end.
(** the three tables; [le]: le_ptr == LITTLE_ENDIAN (com_objects.h:374-377) *)
Definition tables (c : conf) (le : bool) (d : dev) : option ComObj_Model.cfg :=
  match addrTableBytes c d, assocTableBytes c d, comTableBytes c d with
  | Some a, Some s, Some t => Some (ComObj_Model.mkCfg (match kind c with Bcu1 => false | Bcu2 => true end) le a s t (ramStart (lay c)) (ramSize (lay c)) (eeStart (lay c)) (eeSize (lay c)))
  | _, _, _ => None
  end.
(** user RAM and EEPROM as the communication objects see them (userRam.cpp:25-34, 115-119), and storing what they leave *)
Definition userMem (c : conf) (d : dev) : ComObj_Model.mem := ComObj_Model.mkMem (firstn (Z.to_nat (ramSize (lay c))) (ramData d)) (eeData d).
Definition storeMem (c : conf) (m : ComObj_Model.mem) (d : dev) : dev := setEe (setRam d (ComObj_Model.ram m ++ skipn (Z.to_nat (ramSize (lay c))) (ramData d))) (ComObj_Model.eep m).

(** ** The node *)
(** the device; groupTelWaitMillis and groupTelSent; sendNextObjIndex (com_objects.h:364); sendGrpTelEnabled (bcu_default.h:222); le_ptr *)
Record node := mkNode { ndev : device; nrate : Rate_Model.rate; nnext : Z; ngroup : bool; nle : bool }.
Definition setDev (x : node) (d : device) : node := mkNode d (nrate x) (nnext x) (ngroup x) (nle x).
(** ComObj_Model's state: its members that live here, and the send buffer *)
Definition comState (c : conf) (x : device) (next : Z) : ComObj_Model.state := ComObj_Model.mkSt (userMem c (mem x)) (txb (tl x)) [] next ComObj_Model.INVALID_OBJECT_NUMBER.
(** sending the telegram [b] the communication objects composed (com_objects.cpp:357-364, 375-393), the memory becomes [m] *)
Definition sendGroup (c : conf) (m : ComObj_Model.mem) (b : list Z) (w : list bool) (x : device) : option (device * list out) :=
  sendOwn (fun _ => b) w (setMem x (storeMem c m (mem x))).

(** ** Receiving group telegrams *)
(** com_objectsBCU1.cpp:97-133 for a read request: every answer is sent before the next one is composed; [ws]: the send completions during each wait *)
Fixpoint answerLoop (c : conf) (g : ComObj_Model.cfg) (addr gapos : Z) (l : list (Z * Z)) (ws : list (list bool)) (x : device) : option (device * list out) :=
  match l with
  | [] => Some (x, [])
  | (ga, objno) :: r =>
      if negb (gapos =? ga) then answerLoop c g addr gapos r ws x
      else if Z.land (ComObj_Model.objConfig g (Z.to_nat objno)) ComObj_Model.COMCONF_READ_COMM =? ComObj_Model.COMCONF_READ_COMM then
        match ComObj_Model.objectValuePtr g (Z.to_nat objno) with
        | None => None
        | Some _ =>
            let s := ComObj_Model.sendGroupWriteTelegram g (Z.to_nat objno) addr true (comState c x 0) in
            match sendGroup c (ComObj_Model.smem s) (ComObj_Model.sendBuf s) (hd [] ws) x with
            | None => None
            | Some (y, o) => match answerLoop c g addr gapos r (List.tl ws) y with Some (z, o2) => Some (z, o ++ o2) | None => None end
            end
        end
      else answerLoop c g addr gapos r ws x
  end.
(** bcu_default.cpp:207-216 processGroupAddressTelegram with com_objectsBCU1.cpp:68-134 *)
Definition receiveGroup (c : conf) (le : bool) (t : list Z) (ws : list (list bool)) (x : device) : option (device * list out) :=
  match tables c le (mem x) with
  | None => None
  | Some g =>
      let apci := Z.land (apciCommand t) APCI_GROUP_MASK in
      if apci =? APCI_GROUP_VALUE_READ_PDU then
        let gapos := ComObj_Model.indexOfAddr g (destinationAddress t) in
        if gapos <? 0 then Some (x, []) else answerLoop c g (destinationAddress t) gapos (ComObj_Model.assocs g) ws x
      else
        let s := ComObj_Model.processGroupAddressTelegram g (apciCommand t) (destinationAddress t) t (comState c x 0) in
        Some (setMem x (storeMem c (ComObj_Model.smem s) (mem x)), [])
  end.
(** knx_tlayer4.cpp:267-311 processTelegram, the group telegrams included *)
Definition receiveAny (c : conf) (le : bool) (now : Z) (r : received) (ws : list (list bool)) (x : device) : option (device * list out) :=
  let t := rxTel r in
  if negb (destinationAddress t =? 0) && negb (Z.land (rd t 5) 0x80 =? 0) then
    match receiveGroup c le t ws x with Some (y, o) => Some (y, Group t :: o) | None => None end
  else receive c now r x.

(** ** The main loop *)
(** bcu1.cpp:30-43, bcu2.cpp:84-93 applicationRunning (enabled) *)
Definition applicationRunning (c : conf) (x : device) : bool :=
  match kind c with
  | Bcu1 => (Z.land (status (mem x)) (Z.lor BCU_STATUS_PROGRAMMING_MODE BCU_STATUS_APPLICATION_LAYER) =? BCU_STATUS_APPLICATION_LAYER) &&
            (runState x =? 1) && (rd (eeData (mem x)) (Z.to_nat runErrorOffset) =? 0xff)
  | Bcu2 => (runState x =? 1) && (loadState (mem x) OT_ADDR_TABLE =? LS_LOADED) && (loadState (mem x) OT_ASSOC_TABLE =? LS_LOADED) && (loadState (mem x) OT_APPLICATION =? LS_LOADED)
  end.
(** com_objects.cpp:397-502 sendNextGroupTelegram: was a telegram sent?, sendNextObjIndex, the device. No table on BCU1: no flags table (com_objectsBCU1.cpp:148-157, com_objects.cpp:399-403) *)
Definition sendNext (c : conf) (le : bool) (next : Z) (w : list bool) (x : device) : option (bool * Z * device * list out) :=
  match tables c le (mem x) with
  | None => match kind c with Bcu1 => Some (false, next, x, []) | Bcu2 => None end
  | Some g =>
      let '(sent, s) := ComObj_Model.sendNextGroupTelegram g (comState c x next) in
      if sent then match sendGroup c (ComObj_Model.smem s) (ComObj_Model.sendBuf s) w x with Some (y, o) => Some (true, ComObj_Model.sendNext s, y, o) | None => None end
      else Some (false, ComObj_Model.sendNext s, x, [])
  end.
(** the inputs of one pass: those of Device_Model; the times of the three clock readings in bcu_default.cpp:136-145; the send completions while waiting to send the group telegram,
    and those for every answer to a read request *)
Record ninputs := mkNIn { base : inputs; t1 : Z; t2 : Z; t3 : Z; gwaits : list bool; awaits : list (list bool) }.
(** bcu_default.cpp:131-149 *)
Definition groupPart (c : conf) (i : ninputs) (x : node) : option (node * list out) :=
  if ngroup x && applicationRunning c (ndev x) then
    let r := nrate x in
    match (if Rate_Model.groupTelWaitMillis r <=? Rate_Model.elapsed (t1 i) (Rate_Model.groupTelSent r) then sendNext c (nle x) (nnext x) (gwaits i) (ndev x)
           else Some (false, nnext x, ndev x, [])) with
    | None => None
    | Some (sent, next, y, o) => Some (mkNode y (snd (Rate_Model.loop (t1 i) (t2 i) (t3 i) sent r)) next (ngroup x) (nle x), o)
    end
  else Some (x, []).
(** bcu_base.cpp:62-65 *)
Definition checkReceivedAny (c : conf) (le : bool) (i : ninputs) (x : device) : option (device * list dout) :=
  match rx (base i) with
  | Some r =>
      if negb (sending1 (base i)) && negb (Z.land (status (mem x)) BCU_STATUS_TRANSPORT_LAYER =? 0)
      then option_map (fun p => (fst p, map Bus (snd p))) (receiveAny c le (now (base i)) r (awaits i) x)
      else Some (x, [])
  | None => Some (x, [])
  end.
(** bcu_base.cpp:46-113 BcuBase::loop *)
Definition baseLoopAny (c : conf) (le : bool) (i : ninputs) (x : device) : option (device * list dout) :=
  match step (tl x) (OpLoop (now (base i))) with
  | None => None
  | Some (s, o1) =>
      match checkReceivedAny c le i (setTl x s) with
      | None => None
      | Some (x2, o2) =>
          let '(x3, o3) := progButton c (u32 (now (base i))) (level (base i)) x2 in
          if sending2 (base i) then Some (x3, map Bus o1 ++ o2 ++ o3)
          else match checkRestart c (u32 (now (base i))) (waits (base i)) x3 with
               | None => None
               | Some (x4, o4) => Some (x4, map Bus o1 ++ o2 ++ o3 ++ o4)
               end
      end
  end.
(** bcu_default.cpp:118-155 BcuDefault::loop *)
Definition nodeLoop (c : conf) (i : ninputs) (x : node) : option (node * list dout) :=
  match baseLoopAny c (nle x) i (ndev x) with
  | None => None
  | Some (d, o) =>
      if negb (running d) || sending3 (base i) then Some (setDev x d, o)
      else match groupPart c i (setDev x d) with
           | None => None
           | Some (y, og) =>
               if eeModified (mem (ndev y)) && negb (directConnection (tl (ndev y))) then
                 match flushUserMemory c (ndev y) with Some d2 => Some (setDev y d2, o ++ map Bus og) | None => None end
               else Some (y, o ++ map Bus og)
           end
  end.

(** ** Histories *)
(** calls of the application program (com_objects.h:390-423, com_objects.cpp:292-323, 504-545) *)
Inductive appCall := AWrite (o : nat) (v : Z) | ASet (o : nat) (v : Z) | AUpdate (o : nat) (v : Z) | AWritten (o : nat) | ARequestRead (o : nat) | ANext.
(** the memory afterwards and the result of nextUpdatedObject *)
Definition callMem (g : ComObj_Model.cfg) (a : appCall) (m : ComObj_Model.mem) : ComObj_Model.mem * list Z :=
  match a with
  | AWrite o v => (ComObj_Model.objectWrite g o v m, [])
  | ASet o v => (ComObj_Model.objectSetValue g o v m, [])
  | AUpdate o v => (ComObj_Model.objectUpdate g o v m, [])
  | AWritten o => (ComObj_Model.objectWritten g o m, [])
  | ARequestRead o => (ComObj_Model.requestObjectRead g o m, [])
  | ANext => let '(n, m') := ComObj_Model.nextUpdatedObject g m in (m', [n])
  end.
(** a pass of the main loop, a send completion (interrupt), a call of the application, setGroupTelRateLimit (bcu_default.cpp:196-202), enableGroupTelSend (bcu_default.cpp:191-194) *)
Inductive nop := NLoop (i : ninputs) | NTxDone (ok : bool) | NApp (a : appCall) | NLimit (l : Z) | NEnable (b : bool).
(** what is visible: outputs of the device, results of nextUpdatedObject *)
Inductive nout := NOut (o : dout) | NResult (n : Z).
(** one operation; nothing happens after softSystemReset() *)
Definition nstep (c : conf) (x : node) (o : nop) : option (node * list nout) :=
  if running (ndev x) then
    match o with
    | NLoop i => option_map (fun p => (fst p, map NOut (snd p))) (nodeLoop c i x)
    | NTxDone ok => match step (tl (ndev x)) (OpTxDone ok) with Some (s, l) => Some (setDev x (setTl (ndev x) s), map (fun o => NOut (Bus o)) l) | None => None end
    | NApp a => match tables c (nle x) (mem (ndev x)) with
                | None => None
                | Some g => let '(m, l) := callMem g a (userMem c (mem (ndev x))) in Some (setDev x (setMem (ndev x) (storeMem c m (mem (ndev x)))), map NResult l)
                end
    | NLimit l => Some (mkNode (ndev x) (Rate_Model.setGroupTelRateLimit l (nrate x)) (nnext x) (ngroup x) (nle x), [])
    | NEnable b => Some (mkNode (ndev x) (nrate x) (nnext x) b (nle x), [])
    end
  else Some (x, []).
(** a history, with the outputs of every operation *)
Fixpoint nruns (c : conf) (l : list nop) (x : node) : option (node * list (list nout)) :=
  match l with
  | [] => Some (x, [])
  | o :: r => match nstep c x o with
              | None => None
              | Some (x1, out) => match nruns c r x1 with Some (x2, outs) => Some (x2, out :: outs) | None => None end
              end
  end.
(** a node that was just switched on at time [t] (bcu_default.cpp:78-82, com_objects.cpp:205-212) *)
Definition nodeUp (c : conf) (le : bool) (d : device) (t : Z) : node := mkNode d (Rate_Model.begin_ t) 0 true le.
