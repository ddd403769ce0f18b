(** u8glib: numbers as texts (u8glib/src/u8g_u8toa.c, u8g_u16toa.c). *)
From Verif Require Export Base.

(** u8g_u8toa.c:50-54 and u8g_u16toa.c:49-53: the inner loop. Each pass makes the value smaller, so [n] = v passes are enough. [w]: the conversion to the type of the value *)
Fixpoint digitLoop (w : Z -> Z) (n : nat) (v c d : Z) : Z * Z :=
  match n with
  | O => (d, v)
  | S n => if c <=? v then digitLoop w n (w (v - c)) c (u8 (d + 1)) else (d, v)
  end.
(** The character '0' *)
Definition CHAR_0 : Z := 48.
(** an assignment to dest[i]; None: the array is too short, undefined *)
Definition put_at (dest : list Z) (i : nat) (v : Z) : option (list Z) := if (i <? length dest)%nat then Some (wr dest i v) else None.
(** u8g_u8toa.c:40 *)
Definition u8toa_tab : list Z := [100; 10; 1].
(** u8g_u8toa.c:46-57: the loop from [pos] on, with the values that are left *)
Fixpoint u8Loop (tab : list Z) (pos : nat) (dest : list Z) (v : Z) : option (list Z) :=
  match tab with
  | [] => put_at dest pos 0
  | c :: tab =>
      let '(d, v) := digitLoop u8 (Z.to_nat v) v c CHAR_0 in
      match put_at dest pos d with None => None | Some dest => u8Loop tab (S pos) dest v end
  end.
(** u8g_u8toa.c:41-59 *)
Definition u8toap (dest : list Z) (v : Z) : option (list Z) := u8Loop u8toa_tab 0 dest v.
(** u8g_u16toa.c:46-57: the loop with [n] passes left *)
Fixpoint u16Loop (n : nat) (pos : nat) (c : Z) (dest : list Z) (v : Z) : option (list Z) :=
  match n with
  | O => put_at dest pos 0
  | S n =>
      let '(d, v) := digitLoop u16 (Z.to_nat v) v c CHAR_0 in
      match put_at dest pos d with None => None | Some dest => u16Loop n (S pos) (c / 10) dest v end
  end.
(** u8g_u16toa.c:40-59 *)
Definition u16toap (dest : list Z) (v : Z) : option (list Z) := u16Loop 5 0 10000 dest v.
(** the text at a place of the array; None: the place is outside of the array or no zero follows *)
Fixpoint text (l : list Z) : option (list Z) := match l with [] => None | c :: l => if c =? 0 then Some [] else option_map (cons c) (text l) end.
Definition text_at (buf : list Z) (i : Z) : option (list Z) := if i <=? Z.of_nat (length buf) then text (skipn (Z.to_nat i) buf) else None.
(** u8g_u8toa.c:62-67; [buf]: the static array. Result: the array and the text of the pointer returned *)
Definition u8toa (buf : list Z) (v d : Z) : option (list Z * list Z) :=
  let d := u8 (3 - d) in
  match u8toap buf v with Some buf => option_map (pair buf) (text_at buf d) | None => None end.
(** u8g_u16toa.c:62-67 *)
Definition u16toa (buf : list Z) (v d : Z) : option (list Z * list Z) :=
  let d := u8 (5 - d) in
  match u16toap buf v with Some buf => option_map (pair buf) (text_at buf d) | None => None end.
