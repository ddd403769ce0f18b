(** The mapper as its user sees it: a partial array of bytes over the addresses 0..65535, mapped in pages of 256, and a number of pages that can still be mapped *)
From Verif Require Import Base Mapper_Model.

(** the flash area of the mapper: a table page followed by at least one data page, page numbers fit a byte and page 0 (interrupt vectors) is not part of it *)
Definition mcfg_ok (c : mcfg) : Prop := 1 <= flashBasePage c /\ 2 <= flashSizePages c /\ flashBasePage c + flashSizePages c - 1 <= 255.
Definition page_ok (l : list Z) : Prop := length l = FLASH_PAGE_SIZE /\ Forall is_byte l.
(** an allocation table: 255 for an unmapped page, else 255 - number of the flash page; all numbers different, between the table page and [hi], which is in use *)
Record table_ok (c : mcfg) (t : list Z) (hi : Z) : Prop := {
  t_page : page_ok t;
  t_range : forall v, (v < FLASH_PAGE_SIZE)%nat -> rd t v = 255 \/ flashBasePage c < 255 - rd t v <= hi;
  t_distinct : forall v w, (v < FLASH_PAGE_SIZE)%nat -> (w < FLASH_PAGE_SIZE)%nat -> rd t v = rd t w -> rd t v <> 255 -> v = w;
  t_high : hi = flashBasePage c \/ exists v, (v < FLASH_PAGE_SIZE)%nat /\ 255 - rd t v = hi;
  t_area : flashBasePage c <= hi <= flashBasePage c + flashSizePages c - 1 }.
(** the table as taken over at start: discarded if it has more than one zero *)
Definition taken_over (t : list Z) : list Z := if (2 <=? count_occ Z.eq_dec t 0%Z)%nat then repeat 255 FLASH_PAGE_SIZE else t.
Definition in_space (a : Z) : bool := (0 <=? a) && (a <? 65536).
(** the array a table and flash pages stand for *)
Definition decode (t : list Z) (pg : Z -> list Z) (a : Z) : option Z :=
  if in_space a then
    let e := rd t (Z.to_nat (a / 256)) in
    if e =? 255 then None else Some (rd (pg (255 - e)) (Z.to_nat (a mod 256)))
  else None.
(** what the flash holds for a mapper started on it *)
Definition stored_array (c : mcfg) (f : Z -> list Z) : Z -> option Z := decode (taken_over (f (flashBasePage c))) f.
(** a flash content that a mapper may find: pages are pages, the table is blank, discarded or in order; [hi] the highest page in use *)
Definition boots (c : mcfg) (f : Z -> list Z) (hi : Z) : Prop := (forall p, page_ok (f p)) /\ table_ok c (taken_over (f (flashBasePage c))) hi.

Record ideal := mkIdeal { mem : Z -> option Z; free : Z }.
Definition put (f : Z -> option Z) (a v : Z) : Z -> option Z := fun b => if b =? a then Some v else f b.
(** mapping page [p]: its bytes become 0 *)
Definition map_page (p : Z) (x : ideal) : ideal := mkIdeal (fun b => if b / 256 =? p then Some 0 else mem x b) (free x - 1).
Definition mapped (x : ideal) (a : Z) : bool := match mem x a with Some _ => true | None => false end.
(** writing; without autoAddPage a write to an unmapped address has no effect but is reported as done *)
Definition ideal_write (auto : bool) (a v : Z) (x : ideal) : Z * ideal :=
  if negb (in_space a) then (-1, x)
  else if mapped x a then (0, mkIdeal (put (mem x) a v) (free x))
  else if negb auto then (0, x)
  else if free x =? 0 then (-4, x)
  else let y := map_page (a / 256) x in (0, mkIdeal (put (mem y) a v) (free y)).
Definition ideal_read (a : Z) (x : ideal) : Z * Z :=
  if negb (in_space a) then (-1, 0) else match mem x a with Some v => (0, v) | None => (-2, 0) end.
(** mapping [n] pages from page [p] on; stops when no page is left *)
Fixpoint ideal_pages (n : nat) (p : Z) (x : ideal) : Z * ideal :=
  match n with
  | O => (0, x)
  | S k => if mapped x (256 * p) then ideal_pages k (p + 1) x else if free x =? 0 then (-4, x) else ideal_pages k (p + 1) (map_page p x)
  end.
(** the number of pages is taken modulo 256 *)
Definition ideal_range (a len : Z) (x : ideal) : Z * ideal :=
  if negb (in_space a) || negb (a mod 256 =? 0) then (-1, x)
  else if negb (len mod 256 =? 0) then (-8, x)
  else ideal_pages (Z.to_nat ((len / 256) mod 256)) (a / 256) x.
Definition ideal_step (auto : bool) (ev : mevent) (x : ideal) : Z * Z * ideal :=
  match ev with
  | Write a v => let (rc, y) := ideal_write auto a v x in (rc, 0, y)
  | Read a _ => (ideal_read a x, x)
  | AddRange a len => let (rc, y) := ideal_range a len x in (rc, 0, y)
  | Flash => (0, 0, x)
  | Restart _ => (0, 0, x)
  end.
Fixpoint ideal_run (auto : bool) (l : list mevent) (x : ideal) : list (Z * Z) * ideal :=
  match l with
  | [] => ([], x)
  | ev :: r => let '(rc, d, y) := ideal_step auto ev x in let (out, z) := ideal_run auto r y in ((rc, d) :: out, z)
  end.
(** events a caller may use: bytes are bytes, a range to add does not leave the address space *)
Definition event_ok (ev : mevent) : Prop :=
  match ev with
  | Write _ v => is_byte v
  | AddRange a len => in_space a = true -> a / 256 + (len / 256) mod 256 <= 256
  | Restart junk => page_ok junk
  | _ => True
  end.
(** [orderly pending lost l x]: addRange and restart happen only when no write is pending, i.e. doFlash was called after the last write; and no restart after
    an addRange that ran out of pages *)
Fixpoint orderly (auto : bool) (pending lost : bool) (l : list mevent) (x : ideal) : Prop :=
  match l with
  | [] => True
  | ev :: r =>
      let '(rc, _, y) := ideal_step auto ev x in
      match ev with
      | Write _ _ => orderly auto true lost r y
      | Read _ _ => orderly auto pending lost r y
      | AddRange _ _ => pending = false /\ orderly auto false (lost || (rc =? -4)) r y
      | Flash => orderly auto false lost r y
      | Restart _ => pending = false /\ lost = false /\ orderly auto false false r y
      end
  end.
