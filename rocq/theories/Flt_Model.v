(** Numbers of type float and their output: sblib/src/print.cpp.
    A finite float is given as a multiple of the smallest positive float 2^-149: every float is one, and so are exact sums, hence rounding is integer arithmetic.
    The processor has no FPU: the arithmetic is that of the compiler's library, taken to be IEEE 754 binary32, rounding to nearest, ties to even (no source in /repo).
    Not represented: the sign of a zero, infinities and NaN (their conversion to int is undefined as for all floats too large). *)
From Verif Require Export Base Text_Model.
Open Scope Z_scope.

(** 1.0f *)
Definition ONE : Z := 2 ^ 149.
(** IEEE 754: n / d to the nearest integer, ties to even *)
Definition rne (n d : Z) : Z :=
  let f := n / d in
  let r := n mod d in
  if 2 * r <? d then f else if d <? 2 * r then f + 1 else if Z.even f then f else f + 1.
(** IEEE 754: distance of the floats of magnitude [a]: 24 significant bits *)
Definition ulp (a : Z) : Z := 2 ^ Z.max 0 (Z.log2 a - 23).
(** IEEE 754: p / q rounded to a float; overflow to infinity is not modelled: the callers' results are far below *)
Definition flq (p q : Z) : Z := let u := ulp (Z.abs p / q) in rne p (q * u) * u.
(** a - b, a * b, conversion from and to int in C++; the last: None if undefined *)
Definition fsub (a b : Z) : Z := flq (a - b) 1.
Definition fmul (a b : Z) : Z := flq (a * b) ONE.
Definition ofInt (n : Z) : Z := flq (n * ONE) 1.
Definition toInt (a : Z) : option Z := let n := Z.quot a ONE in if (-2 ^ 31 <=? n) && (n <? 2 ^ 31) then Some n else None.
(** math.h:62 *)
Definition absMacro (x : Z) : Z := if 0 <? x then x else - x.
(** math.h:52 *)
Definition minMacro (a b : Z) : Z := if a <? b then a else b.
(** print.cpp:82-85 *)
Fixpoint scale (n : nat) (fraction : Z) : Z := match n with O => fraction | S n => fmul (scale n fraction) (10 * ONE) end.
(** print.cpp:68-88 print(float, int): the bytes written; None: undefined behaviour *)
Definition printFloat (value precision : Z) : option (list Z) :=
  match toInt value with
  | None => None
  | Some number =>
      let fraction := absMacro (fsub value (ofInt number)) in
      match printInt number 10 (-1) with
      | None => None
      | Some t =>
          if precision <? 1 then Some t
          else
            let precision := minMacro 7 precision in
            let fraction := scale (Z.to_nat precision) fraction in
            match toInt fraction with
            | None => None
            | Some d => match printInt d 10 precision with None => None | Some t' => Some (t ++ [46] ++ t') end
            end
      end
  end.
(** print.cpp:90-95 print(const char*, float, int) *)
Definition printStrFloat (str : list Z) (value precision : Z) : option (list Z) := option_map (app str) (printFloat value precision).
(** print.cpp:134-139 println(float, int) *)
Definition printlnFloat (value precision : Z) : option (list Z) := option_map (fun t => t ++ CRLF) (printFloat value precision).
(** print.cpp:141-146 println(const char*, float, int) *)
Definition printlnStrFloat (str : list Z) (value precision : Z) : option (list Z) := option_map (fun t => t ++ CRLF) (printStrFloat str value precision).
