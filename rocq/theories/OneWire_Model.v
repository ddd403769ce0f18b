(** One-wire ROM search (sblib/src/onewire.cpp:305-458) *)
From Verif Require Export Base.

(** ** Environment (no code of the library): devices on the bus that take part in a search.
    A device is its 64-bit ROM code, least significant bit of byte 0 first, of which only the bits not yet walked through
    are kept.  A read slot returns 0 if any active device pulls the line low (wired AND). *)
Definition device := list bool.
Definition read_bit (act : list device) : bool := forallb (fun d => match d with b :: _ => b | [] => true end) act.
Definition read_cmp (act : list device) : bool := forallb (fun d => match d with b :: _ => negb b | [] => true end) act.
(** after a write slot the devices whose bit differs drop out *)
Definition write_bit (v : bool) (act : list device) : list device :=
  flat_map (fun d => match d with b :: r => if Bool.eqb b v then [r] else [] | [] => [] end) act.
(** OneWireReset returns whether some device answers with a presence pulse (onewire.cpp:51-81; the electrical part is in Wire_Model) *)
Definition present (devs : list device) : bool := negb (match devs with [] => true | _ => false end).

(** ** Search state (onewire.h:33-36) *)
Record search := mkSearch { ROM_NO : list Z; LastDiscrepancy : Z; LastFamilyDiscrepancy : Z; bLastDeviceFlag : bool }.
(** onewire.cpp:321-330 OneWireResetSearch *)
Definition resetSearch : search := mkSearch (repeat 0 8) 0 0 false.
(** onewire.cpp:344-354 OneWireTargetSearch *)
Definition targetSearch (family : Z) : search := mkSearch (family :: repeat 0 7) 64 0 false.

(** onewire.cpp:402-438: the do-while loop; [fuel]: bound on the iterations.  [bit]: id_bit_number, [mask]: rom_byte_mask,
    [lz]: last_zero, [num]: rom_byte_number.  Result: ROM_NO, id_bit_number, last_zero, _LastFamilyDiscrepancy. *)
Fixpoint searchLoop (fuel : nat) (ld : Z) (rom : list Z) (bit mask lz : Z) (num : nat) (lfd : Z) (act : list device)
  : option (list Z * Z * Z * Z) :=
  match fuel with
  | O => None
  | S n =>
      let id_bit := read_bit act in
      let cmp_id_bit := read_cmp act in
      if id_bit && cmp_id_bit then Some (rom, bit, lz, lfd)
      else
        let '(dir, lz, lfd) :=
          if negb (Bool.eqb id_bit cmp_id_bit) then (id_bit, lz, lfd)
          else
            let dir := if bit <? ld then 0 <? Z.land (rd rom num) mask else bit =? ld in
            if negb dir then (dir, bit, if bit <? 9 then bit else lfd) else (dir, lz, lfd) in
        let rom := if dir : bool then wr rom num (Z.lor (rd rom num) mask) else wr rom num (Z.land (rd rom num) (u8 (Z.lnot mask))) in
        let act := write_bit dir act in
        let bit := u8 (bit + 1) in
        let mask := u8 (Z.shiftl mask 1) in
        let '(num, mask) := if mask =? 0 then (S num, 1) else (num, mask) in
        if (num <? 8)%nat then searchLoop n ld rom bit mask lz num lfd act else Some (rom, bit, lz, lfd)
  end.
(** onewire.cpp:382-458 OneWireSearch: returned value, the bytes copied to newAddr (None: not copied), new state *)
Definition oneWireSearch (devs : list device) (s : search) : option (bool * option (list Z) * search) :=
  if bLastDeviceFlag s then Some (false, None, s)
  else if negb (present devs) then Some (false, None, mkSearch (ROM_NO s) 0 0 false)
  else
    match searchLoop 65 (LastDiscrepancy s) (ROM_NO s) 1 1 0 0 (LastFamilyDiscrepancy s) devs with
    | None => None
    | Some (rom, bit, lz, lfd) =>
        let '(ret, ld, flag) := if negb (bit <? 65) then (true, lz, (lz =? 0) || bLastDeviceFlag s) else (false, LastDiscrepancy s, bLastDeviceFlag s) in
        if negb ret || (rd rom 0 =? 0) then Some (ret, None, mkSearch rom 0 0 false)
        else Some (ret, Some rom, mkSearch rom ld lfd flag)
    end.
