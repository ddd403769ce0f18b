(** Specifications for C44, C48-C50, C60: reading numerals, decimal literals, substrings, Intel-HEX files. *)
From Verif Require Export Base.

(** ** C48: the number a text denotes in base [b] (digits 0-9, A-Z) *)
Definition digit_value (c : Z) : option Z :=
  if (48 <=? c) && (c <=? 57) then Some (c - 48) else if (65 <=? c) && (c <=? 90) then Some (c - 55) else None.
Definition denotes_step (b : Z) (acc : option Z) (c : Z) : option Z :=
  match acc, digit_value c with
  | Some a, Some d => if d <? b then Some (a * b + d) else None
  | _, _ => None
  end.
Definition denotes (b : Z) (text : list Z) : option Z := fold_left (denotes_step b) text (Some 0).
(** as long as requested, longer only if necessary *)
Definition padded (width : Z) (text : list Z) : Prop :=
  Z.of_nat (length text) = Z.max 1 width \/ Z.max 1 width < Z.of_nat (length text) /\ hd 0 text <> 48.

(** ** C49 *)
Definition is_digit (c : Z) : Prop := 48 <= c <= 57.
Definition garbage (c : Z) : Prop := ~ is_digit c /\ c <> 45.
(** what may follow a number: the end of the stream, or a byte that is neither a digit nor the character to skip *)
Definition ends_number (skip : Z) (rest : list Z) : Prop :=
  match rest with [] => True | d :: _ => ~ is_digit d /\ d <> skip end.
Definition digits_of (l : list Z) : list Z := filter (fun c => (48 <=? c) && (c <=? 57)) l.

(** ** C44: a decoder for Intel-HEX files *)
Definition hex_value (c : Z) : option Z :=
  match digit_value c with Some d => if d <? 16 then Some d else None | None => None end.
Inductive hex_state := AtStart | Hi (bytes : list Z) | Lo (bytes : list Z) (high : Z) | AtLF (bytes : list Z).
(** lines ":" hex bytes CR LF; the result is the list of the lines' bytes *)
Fixpoint hex_decode (st : hex_state) (l : list Z) : option (list (list Z)) :=
  match l with
  | [] => match st with AtStart => Some [] | _ => None end
  | c :: r =>
      match st with
      | AtStart => if c =? 58 then hex_decode (Hi []) r else None
      | Hi bs => if c =? 13 then hex_decode (AtLF bs) r
                 else match hex_value c with Some h => hex_decode (Lo bs h) r | None => None end
      | Lo bs h => match hex_value c with Some v => hex_decode (Hi (bs ++ [16 * h + v])) r | None => None end
      | AtLF bs => if c =? 10 then option_map (cons bs) (hex_decode AtStart r) else None
      end
  end.
Definition sum (l : list Z) : Z := fold_right Z.add 0 l.
(** a data record for address [addr]: length, address, type 0, data, checksum *)
Definition data_record (rec : list Z) (addr : Z) (data : list Z) : Prop :=
  exists check, rec = Z.of_nat (length data) :: addr / 256 :: addr mod 256 :: 0 :: data ++ [check] /\
    sum rec mod 256 = 0 /\ Forall is_byte rec.
(** consecutive data records from [addr] on holding [data], none longer than [width] *)
Inductive covers (width : Z) : Z -> list (list Z) -> list Z -> Prop :=
| covers_nil a : covers width a [] []
| covers_cons a rec d recs ds : data_record rec a d -> 0 < Z.of_nat (length d) <= width ->
    covers width (a + Z.of_nat (length d)) recs ds -> covers width a (rec :: recs) (d ++ ds).
(** the bytes of memory from [a] on *)
Fixpoint bytes_from (mem : Z -> Z) (a : Z) (n : nat) : list Z :=
  match n with O => [] | S k => mem a :: bytes_from mem (a + 1) k end.
