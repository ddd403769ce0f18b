(** Pointers into the memory of the mapper (sblib/src/mem_mapper.cpp: memoryPtr, getUInt8, operator[]), on top of Mapper_Model *)
From Verif Require Export Base Mapper_Model.
Open Scope Z_scope.

(** byte*: NULL, into writeBuf, or into a page of the flash *)
Inductive ptr := Null | InBuf (o : nat) | InFlash (page : Z) (o : nat).
(** mem_mapper.cpp:283-303; None: fatalError in doFlash *)
Definition memoryPtr (c : mcfg) (virtAddress : Z) (forceFlash : bool) (m : mapper) : option (ptr * mapper) :=
  let p := getFlashPageNum m virtAddress in
  if p <? 0 then Some (Null, m)
  else match (if forceFlash then doFlash c m else Some m) with
       | None => None
       | Some m1 =>
           if p =? 0 then Some (Null, m1)
           else if (p =? writePage m1) && negb forceFlash then Some (InBuf (offset virtAddress), m1)
           else Some (InFlash p (offset virtAddress), m1)
       end.
(** C: *p; None: NULL dereferenced *)
Definition deref (m : mapper) (p : ptr) : option Z :=
  match p with Null => None | InBuf o => Some (rd (writeBuf m) o) | InFlash p o => Some (rd (flash m p) o) end.
(** C: *p = v; None: NULL, or the flash, which only the IAP functions can write (UM10398: a hard fault) *)
Definition store (m : mapper) (p : ptr) (v : Z) : option mapper :=
  match p with
  | InBuf o => Some (mkMap (flash m) (allocTable m) (wr (writeBuf m) o v) (writePage m) (lastAllocated m) (flashMemModified m) (allocTableModified m))
  | _ => None
  end.
(** mem_mapper.cpp:312-315 operator[], mem_mapper.h:173: forceFlash is true by default *)
Definition index (c : mcfg) (nIndex : Z) (m : mapper) : option (ptr * mapper) := memoryPtr c nIndex true m.
(** mem_mapper.cpp:305-310 *)
Definition getUInt8 (c : mcfg) (virtAddress : Z) (m : mapper) : option (Z * mapper) :=
  match readMem c virtAddress false m with Some (_, d, m1) => Some (d, m1) | None => None end.
