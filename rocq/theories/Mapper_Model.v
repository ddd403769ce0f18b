(** The memory mapper (sblib/src/mem_mapper.cpp): 256-byte pages of a 64K virtual address space kept in flash pages.
    None stands for fatalError() or an access outside allocTable. *)
From Verif Require Export Base.

(** platform.h:68 FLASH_PAGE_SIZE; mem_mapper.h:19-23 result codes *)
Definition FLASH_PAGE_SIZE : nat := 256.
Definition MEM_MAPPER_SUCCESS : Z := 0.
Definition MEM_MAPPER_INVALID_ADDRESS : Z := -1.
Definition MEM_MAPPER_NOT_MAPPED : Z := -2.
Definition MEM_MAPPER_OUT_OF_MEMORY : Z := -4.
Definition MEM_MAPPER_INVALID_LENGTH : Z := -8.
(** mem_mapper.h:199-202, 212: constants of an instance. [basePage] is the number of the flash page of flashBase (mem_mapper.cpp:24-25) *)
Record mcfg := mkM { flashBasePage : Z; flashSizePages : Z; autoAddPage : bool }.
(** mem_mapper.h:204-214: the variables, and the flash: a content for every page number *)
Record mapper := mkMap { flash : Z -> list Z; allocTable : list Z; writeBuf : list Z; writePage : Z; lastAllocated : Z; flashMemModified : bool; allocTableModified : bool }.
(** one page of the flash replaced; pages are addressed by number (iap.cpp:241-244 iapAddressOfPage) *)
Definition upd (f : Z -> list Z) (p : Z) (l : list Z) : Z -> list Z := fun q => if q =? p then l else f q.
(** iap.cpp:141-144 iapErasePage *)
Definition erasePage (f : Z -> list Z) (p : Z) : Z -> list Z := upd f p (repeat 255 FLASH_PAGE_SIZE).
(** iap.cpp:165-207 iapProgram for one whole page: bits can only be cleared, and the result is compared with the source.
    Simplified: the page exists and the hardware does not fail *)
Definition programPage (f : Z -> list Z) (p : Z) (bs : list Z) : option (Z -> list Z) :=
  let c := map (fun i => Z.land (rd (f p) i) (rd bs i)) (seq 0 FLASH_PAGE_SIZE) in
  if list_eq_dec Z.eq_dec c bs then Some (upd f p c) else None.
(** mem_mapper.cpp:38-54: is there more than one zero entry? *)
Definition corrupted (t : list Z) : bool := (1 <? length (filter (fun e => Z.eqb e 0) t))%nat.
(** mem_mapper.cpp:21-61 the constructor; [junk] is the uninitialised writeBuf *)
Definition newMapper (c : mcfg) (f : Z -> list Z) (junk : list Z) : mapper :=
  let t := f (flashBasePage c) in
  if corrupted t then mkMap f (repeat 255 FLASH_PAGE_SIZE) junk 0 0 false true else mkMap f t junk 0 0 false false.
(** mem_mapper.cpp:63-94 doFlash; the return value (which parts were written) is not modelled, no caller uses it *)
Definition doFlash (c : mcfg) (m : mapper) : option mapper :=
  match (if allocTableModified m then programPage (erasePage (flash m) (flashBasePage c)) (flashBasePage c) (allocTable m) else Some (flash m)) with
  | None => None
  | Some f1 =>
      match (if flashMemModified m then programPage (erasePage f1 (writePage m)) (writePage m) (writeBuf m) else Some f1) with
      | None => None
      | Some f2 => Some (mkMap f2 (allocTable m) (writeBuf m) (writePage m) (lastAllocated m) false false)
      end
  end.
(** mem_mapper.cpp:98-108: the highest flash page in use *)
Definition highest (t : list Z) : Z := fold_left (fun h e => Z.max h (Z.lxor e 255)) t 0.
(** mem_mapper.cpp:96-125 allocatePage; the caller guarantees 0 <= virtPage *)
Definition allocatePage (c : mcfg) (virtPage : nat) (m : mapper) : Z * mapper :=
  let la := if lastAllocated m =? 0 then highest (allocTable m) else lastAllocated m in
  if la =? flashBasePage c + flashSizePages c - 1 then
    (MEM_MAPPER_OUT_OF_MEMORY, mkMap (flash m) (allocTable m) (writeBuf m) (writePage m) la (flashMemModified m) (allocTableModified m))
  else
    let la' := if la =? 0 then 0 else la + 1 in
    let wp := if la =? 0 then flashBasePage c + 1 else la + 1 in
    (MEM_MAPPER_SUCCESS, mkMap (flash m) (wr (allocTable m) virtPage (u8 (Z.lxor wp 255))) (repeat 0 FLASH_PAGE_SIZE) wp la' (flashMemModified m) (allocTableModified m)).
(** writing flashMemModified and allocTableModified (mem_mapper.cpp:154, 160, 203, 207) *)
Definition setModified (m : mapper) : mapper := mkMap (flash m) (allocTable m) (writeBuf m) (writePage m) (lastAllocated m) true (allocTableModified m).
Definition setTableModified (m : mapper) : mapper := mkMap (flash m) (allocTable m) (writeBuf m) (writePage m) (lastAllocated m) (flashMemModified m) true.
(** mem_mapper.cpp:144-158: the loop of addRange over [n] pages; tableModified is [tm] *)
Fixpoint addLoop (c : mcfg) (n page : nat) (tm : bool) (m : mapper) : option (Z * bool * mapper) :=
  match n with
  | O => Some (MEM_MAPPER_SUCCESS, tm, m)
  | S k =>
      if (FLASH_PAGE_SIZE <=? page)%nat then None (* allocTable overrun *)
      else if Z.lxor (rd (allocTable m) page) 255 =? 0 then
        let (r, m1) := allocatePage c page m in
        if r =? MEM_MAPPER_SUCCESS then
          match doFlash c (setModified m1) with Some m2 => addLoop c k (S page) true m2 | None => None end
        else Some (r, tm, m1)
      else addLoop c k (S page) tm m
  end.
(** mem_mapper.cpp:127-163 addRange. On failure of allocatePage it returns without setting allocTableModified *)
Definition addRange (c : mcfg) (virtAddress len : Z) (m : mapper) : option (Z * mapper) :=
  let virtPage := Z.shiftr virtAddress 8 in
  if negb (Z.land virtAddress 255 =? 0) || (virtPage <? 0) || (Z.of_nat FLASH_PAGE_SIZE <=? virtPage) then Some (MEM_MAPPER_INVALID_ADDRESS, m)
  else if negb (Z.land len 255 =? 0) then Some (MEM_MAPPER_INVALID_LENGTH, m)
  else
    match addLoop c (Z.to_nat (u8 (Z.shiftr len 8))) (Z.to_nat virtPage) false m with
    | None => None
    | Some (r, tm, m1) =>
        if r =? MEM_MAPPER_SUCCESS then
          match doFlash c (if tm then setTableModified m1 else m1) with Some m2 => Some (MEM_MAPPER_SUCCESS, m2) | None => None end
        else Some (r, m1)
    end.
(** mem_mapper.cpp:165-175 getFlashPageNum *)
Definition getFlashPageNum (m : mapper) (virtAddress : Z) : Z :=
  let virtPage := Z.shiftr virtAddress 8 in
  if (virtPage <? 0) || (Z.of_nat FLASH_PAGE_SIZE <=? virtPage) then MEM_MAPPER_INVALID_ADDRESS
  else Z.lxor (rd (allocTable m) (Z.to_nat virtPage)) 255.
(** offset in the page: virtAddress & 0xff *)
Definition offset (virtAddress : Z) : nat := Z.to_nat (Z.land virtAddress 255).
(** mem_mapper.cpp:184-192: make [p] the page in the write buffer *)
Definition swapIn (c : mcfg) (p : Z) (m : mapper) : option mapper :=
  if writePage m =? p then Some m
  else match doFlash c m with
       | None => None
       | Some m1 => Some (mkMap (flash m1) (allocTable m1) (if p =? 0 then writeBuf m1 else flash m1 p) p (lastAllocated m1) (flashMemModified m1) (allocTableModified m1))
       end.
(** mem_mapper.cpp:206-207 *)
Definition putByte (virtAddress data : Z) (m : mapper) : mapper :=
  mkMap (flash m) (allocTable m) (wr (writeBuf m) (offset virtAddress) data) (writePage m) (lastAllocated m) true (allocTableModified m).
(** mem_mapper.cpp:177-210 writeMem *)
Definition writeMem (c : mcfg) (virtAddress data : Z) (m : mapper) : option (Z * mapper) :=
  let p := getFlashPageNum m virtAddress in
  if p <? 0 then Some (p, m)
  else match swapIn c p m with
       | None => None
       | Some m1 =>
           if (p =? 0) && autoAddPage c then
             let (r, m2) := allocatePage c (Z.to_nat (Z.shiftr virtAddress 8)) m1 in
             if r =? MEM_MAPPER_SUCCESS then Some (MEM_MAPPER_SUCCESS, putByte virtAddress data (setTableModified m2)) else Some (r, m2)
           else Some (MEM_MAPPER_SUCCESS, putByte virtAddress data m1)
       end.
(** mem_mapper.cpp:226-251 readMem: result code, data and state *)
Definition readMem (c : mcfg) (virtAddress : Z) (forceFlash : bool) (m : mapper) : option (Z * Z * mapper) :=
  let p := getFlashPageNum m virtAddress in
  if p <? 0 then Some (p, 0, m)
  else match (if forceFlash then doFlash c m else Some m) with
       | None => None
       | Some m1 =>
           if p =? 0 then Some (MEM_MAPPER_NOT_MAPPED, 0, m1)
           else if (p =? writePage m1) && negb forceFlash then Some (MEM_MAPPER_SUCCESS, rd (writeBuf m1) (offset virtAddress), m1)
           else Some (MEM_MAPPER_SUCCESS, rd (flash m1 p) (offset virtAddress), m1)
       end.
(** mem_mapper.cpp:212-224 writeMemPtr *)
Fixpoint writeMemPtr (c : mcfg) (virtAddress : Z) (ds : list Z) (m : mapper) : option (Z * mapper) :=
  match ds with
  | [] => Some (MEM_MAPPER_SUCCESS, m)
  | d :: r => match writeMem c virtAddress d m with
              | None => None
              | Some (rc, m1) => if rc =? MEM_MAPPER_SUCCESS then writeMemPtr c (virtAddress + 1) r m1 else Some (rc, m1)
              end
  end.
(** mem_mapper.cpp:253-266 readMemPtr: the bytes read, including the one stored by a failing readMem *)
Fixpoint readMemPtr (c : mcfg) (virtAddress : Z) (n : nat) (forceFlash : bool) (m : mapper) : option (Z * list Z * mapper) :=
  match n with
  | O => Some (MEM_MAPPER_SUCCESS, [], m)
  | S k => match readMem c virtAddress forceFlash m with
           | None => None
           | Some (rc, d, m1) =>
               if rc =? MEM_MAPPER_SUCCESS then
                 match readMemPtr c (virtAddress + 1) k forceFlash m1 with Some (rc2, ds, m2) => Some (rc2, d :: ds, m2) | None => None end
               else Some (rc, [d], m1)
           end
  end.
(** mem_mapper.cpp:268-276 isMapped, 278-281 isMappedRange *)
Definition isMapped (c : mcfg) (virtAddress : Z) (m : mapper) : bool :=
  autoAddPage c || (negb (getFlashPageNum m virtAddress =? MEM_MAPPER_INVALID_ADDRESS) && negb (getFlashPageNum m virtAddress =? 0)).
Definition isMappedRange (c : mcfg) (a b : Z) (m : mapper) : bool := isMapped c a m && isMapped c b m.
(** mem_mapper.cpp:317-334 getUIntX; [big]: endianess == BIG_ENDIAN; [i] counts up to [n] *)
Fixpoint getLoop (c : mcfg) (big : bool) (virtAddress len : Z) (n : nat) (i ret : Z) (m : mapper) : option (Z * mapper) :=
  match n with
  | O => Some (ret, m)
  | S k => match readMem c (if big then virtAddress + i else virtAddress + len - i - 1) false m with
           | None => None
           | Some (_, b, m1) => getLoop c big virtAddress len k (i + 1) (Z.lor (u32 (Z.shiftl ret 8)) b) m1
           end
  end.
Definition getUIntX (c : mcfg) (big : bool) (virtAddress : Z) (len : nat) (m : mapper) : option (Z * mapper) := getLoop c big virtAddress (Z.of_nat len) len 0 0 m.
(** mem_mapper.cpp:351-365 setUIntX: the results of the writes combined by OR; [v] is the unsigned or signed value, shifted arithmetically *)
Fixpoint setLoop (c : mcfg) (big : bool) (virtAddress len : Z) (n : nat) (i v ret : Z) (m : mapper) : option (Z * mapper) :=
  match n with
  | O => Some (ret, m)
  | S k => match writeMem c (if big then virtAddress + len - i - 1 else virtAddress + i) (Z.land v 255) m with
           | None => None
           | Some (rc, m1) => setLoop c big virtAddress len k (i + 1) (Z.shiftr v 8) (Z.lor ret rc) m1
           end
  end.
Definition setUIntX (c : mcfg) (big : bool) (virtAddress : Z) (len : nat) (v : Z) (m : mapper) : option (Z * mapper) := setLoop c big virtAddress (Z.of_nat len) len 0 v 0 m.
(** mem_mapper.cpp:367-375 setUInt16 and setUInt32 (the parameter becomes an int), 336-344 getUInt16 and getUInt32 *)
Definition setUInt16 (c : mcfg) (big : bool) (a v : Z) (m : mapper) := setUIntX c big a 2 (s32 v) m.
Definition setUInt32 (c : mcfg) (big : bool) (a v : Z) (m : mapper) := setUIntX c big a 4 (s32 v) m.
Definition getUInt16 (c : mcfg) (big : bool) (a : Z) (m : mapper) : option (Z * mapper) := option_map (fun x => (u16 (fst x), snd x)) (getUIntX c big a 2 m).
Definition getUInt32 (c : mcfg) (big : bool) (a : Z) (m : mapper) : option (Z * mapper) := option_map (fun x => (u32 (fst x), snd x)) (getUIntX c big a 4 m).

(** ** Histories *)
Inductive mevent := Write (a v : Z) | Read (a : Z) (force : bool) | AddRange (a len : Z) | Flash | Restart (junk : list Z).
(** one call; the answer is the result code and, for a read, the data *)
Definition mstep (c : mcfg) (ev : mevent) (m : mapper) : option (Z * Z * mapper) :=
  match ev with
  | Write a v => option_map (fun x => (fst x, 0, snd x)) (writeMem c a v m)
  | Read a force => readMem c a force m
  | AddRange a len => option_map (fun x => (fst x, 0, snd x)) (addRange c a len m)
  | Flash => option_map (fun m1 => (0, 0, m1)) (doFlash c m)
  | Restart junk => Some (0, 0, newMapper c (flash m) junk)
  end.
Fixpoint mruns (c : mcfg) (l : list mevent) (m : mapper) : option (list (Z * Z) * mapper) :=
  match l with
  | [] => Some ([], m)
  | ev :: r => match mstep c ev m with
               | None => None
               | Some (rc, d, m1) => match mruns c r m1 with Some (out, m2) => Some ((rc, d) :: out, m2) | None => None end
               end
  end.
