(** 2-byte KNX floats (sblib/src/eib/datapoint_types.cpp) *)
From Verif Require Export Base.

(** datapoint_types.h:19 *)
Definition INVALID_DPT_FLOAT := 0x7fff.
(** datapoint_types.cpp:26-30 and 36-40: the loops; [fuel] bounds the iterations (None: not enough); >>= of a negative int
    is the arithmetic shift *)
Fixpoint negLoop (fuel : nat) (value exp : Z) : option (Z * Z) :=
  if value <? -2048 then match fuel with O => None | S n => negLoop n (Z.shiftr value 1) (exp + 1) end else Some (value, exp).
Fixpoint posLoop (fuel : nat) (value exp : Z) : option (Z * Z) :=
  if 2047 <? value then match fuel with O => None | S n => posLoop n (Z.shiftr value 1) (exp + 1) end else Some (value, exp).
(** datapoint_types.cpp:17-44 floatToDpt9 *)
Definition floatToDpt9 (value : Z) : option Z :=
  if (value <? -67108864) || (67076096 <? value) then Some 0x7fff
  else if value <? 0 then
    match negLoop 32 value 0 with
    | Some (v, exp) => Some (u16 (Z.lor (Z.lor 0x8000 (Z.land (u32 v) 2047)) (Z.shiftl exp 11)))
    | None => None
    end
  else
    match posLoop 32 value 0 with
    | Some (v, exp) => Some (u16 (Z.lor v (Z.shiftl exp 11)))
    | None => None
    end.
(** datapoint_types.cpp:59-60: the loop (shifting a negative int left multiplies it by 2, as the compiler defines it) *)
Fixpoint shlLoop (exp : nat) (value : Z) : Z := match exp with O => value | S n => shlLoop n (s32 (Z.shiftl value 1)) end.
(** datapoint_types.cpp:46-62 dpt9ToFloat *)
Definition dpt9ToFloat (dptValue : Z) : Z :=
  let exp := Z.land (Z.shiftr dptValue 11) 15 in
  if dptValue =? 0x7fff then INVALID_DPT_FLOAT
  else
    let value := if 0x8000 <=? dptValue then s32 (Z.lor dptValue (u32 (Z.land (-1) (Z.lnot 2047)))) else Z.land dptValue 2047 in
    shlLoop (Z.to_nat exp) value.
