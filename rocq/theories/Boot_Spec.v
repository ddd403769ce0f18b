(** Specification vocabulary for the bootloader (C36-C40, C42, C43): histories of messages and replies, flash
    seen as bytes at addresses, numbers in messages by arithmetic. *)
From Verif Require Import Base CRC_Spec Boot_Model.

(** A device: the bootloader occupies [0, image_end); flash ends at a sector boundary and holds at least the descriptor
    page and one application page; addresses fit the signed 32-bit range. *)
Definition layout_ok (L : layout) : Prop :=
  0 < image_end L /\ image_end L + 1024 <= flash_top L /\ flash_top L <= 2^31 - 4096 /\ flash_top L mod 4096 = 0 /\
  length (chip_uid L) = 16%nat /\ Forall is_byte (chip_uid L).
(** LPC1115: 64 KiB *)
Definition small_flash (L : layout) : Prop := flash_top L <= 0x10000.
Definition flash_ok (f : flash) : Prop := forall a, is_byte (f a).

(** IAP calls may fail at any time, leaving anything in the range they were given. *)
Definition iap_ok (r : iap_res) : Prop := match r with IapOk => True | IapFail s g => 1 <= s <= 11 /\ flash_ok g end.
Definition env_ok (e : env) : Prop := Forall iap_ok (e_iap e) /\ (forall i, is_byte (e_beyond e i)).
Definition msg_ok (m : list Z) : Prop := Forall is_byte m.
(** ... or all of them succeed *)
Definition no_failure (e : env) : Prop := Forall (fun r => r = IapOk) (e_iap e).

(** ** Histories *)
Definition event := (env * list Z)%type.
Definition event_ok (x : event) : Prop := env_ok (fst x) /\ msg_ok (snd x).
(** final state and the messages with their replies; None: an access outside the decompressor's buffers occurred *)
Fixpoint run (L : layout) (s : upd) (h : list event) : option (upd * list (list Z * reply)) :=
  match h with
  | [] => Some (s, [])
  | (e, m) :: r =>
      match handle L e m s with
      | None => None
      | Some (s', rep) => match run L s' r with None => None | Some (s'', t) => Some (s'', (m, rep) :: t) end
      end
  end.
(** states reachable from power-up with flash content [f0], and what was said on the bus *)
Definition reachable (L : layout) (f0 : flash) (s : upd) (talk : list (list Z * reply)) : Prop :=
  exists h, Forall event_ok h /\ run L (updInit L f0) h = Some (s, talk).

(** ** Numbers in messages and in flash *)
Definition num16 (l : list Z) : Z := rd l 0 + 256 * rd l 1.
Definition num32 (l : list Z) : Z := rd l 0 + 256 * rd l 1 + 65536 * rd l 2 + 16777216 * rd l 3.
Definition word_at (f : flash) (a : Z) : Z := f a + 256 * f (a + 1) + 65536 * f (a + 2) + 16777216 * f (a + 3).
(** [c] is the standard CRC-32 of [m]: remainder of the polynomial division, initial value and result inverted *)
Definition is_crc32 (m : list Z) (c : Z) : Prop :=
  bits_lsb 32 c = map negb (crc_poly gen_crc32 (repeat true 32) (msg_lsb m)).
(** the bytes of flash [a, a+n) are [l] *)
Definition holds (f : flash) (a : Z) (l : list Z) : Prop :=
  forall i, (i < length l)%nat -> f (a + Z.of_nat i) = rd l i.
(** contents of [lo, hi] *)
Definition content (f : flash) (lo hi : Z) : list Z := map (fun i => f (lo + Z.of_nat i)) (seq 0 (Z.to_nat (hi - lo + 1))).

(** [n] rounded up to whole pages; [n] erased bytes from [lo] *)
Definition up256 (n : Z) : Z := 256 * ((n + 255) / 256).
Definition erased (f : flash) (lo n : Z) : Prop := forall x, lo <= x < lo + n -> f x = 255.
(** [x] lies in a page touched by [start, stop] *)
Definition touched (start stop x : Z) : bool := (start / 256 <=? x / 256) && (x / 256 <=? stop / 256).

(** ** C37: who may do what while the device is locked *)
Definition swap_words (l : list Z) : list Z :=
  match l with [a; b; c; d; e; f; g; h; i; j; k; m] => [d; c; b; a; h; g; f; e; m; k; j; i] | _ => l end.
Definition correct_unlock (L : layout) (m : list Z) : Prop :=
  exists key, m = 0xbf :: key /\ length key = 12%nat /\
              (key = firstn 12 (chip_uid L) \/ swap_words key = firstn 12 (chip_uid L)).
(** number of data bytes of each command (upd_protocol.h) *)
Definition data_length (c : Z) : option (Z * Z) :=
  if c =? 0xef then Some (1, 254) else if c =? 0xec then Some (1, 254) else
  if c =? 0xee then Some (10, 10) else if c =? 0xed then Some (8, 8) else if c =? 0xeb then Some (4, 4) else
  if c =? 0xea then Some (0, 0) else if c =? 0xe9 then Some (8, 8) else if c =? 0xe8 then Some (3, 3) else
  if c =? 0xe7 then Some (8, 8) else if c =? 0xdf then Some (0, 0) else if c =? 0xde then Some (4, 4) else
  if c =? 0xdc then Some (1, 1) else if c =? 0xbd then Some (12, 12) else if c =? 0xbb then Some (12, 12) else
  if c =? 0xba then Some (0, 0) else if c =? 0xb9 then Some (12, 12) else if c =? 0xb8 then Some (2, 2) else
  if c =? 0xb7 then Some (10, 10) else if c =? 0xb6 then Some (2, 2) else if c =? 0x01 then Some (255, 255) else
  if c =? 0xbf then Some (12, 12) else if c =? 0xbe then Some (0, 0) else if c =? 0xbc then Some (0, 0) else None.
Definition well_sized (c : Z) (d : list Z) : Prop :=
  exists lo hi, data_length c = Some (lo, hi) /\ lo <= Z.of_nat (length d) <= hi.
(** a reply that carries no data of the device: just an error code *)
Definition error_reply (code : Z) : reply := (0xdc, [code]).

(** ** C39: an application the bootloader may start *)
Definition desc_start (L : layout) (f : flash) : Z := word_at f (appFirst L - 256).
Definition desc_end (L : layout) (f : flash) : Z := word_at f (appFirst L - 252).
Definition desc_crc (L : layout) (f : flash) : Z := word_at f (appFirst L - 248).
Definition startable (L : layout) (f : flash) : Prop :=
  image_end L <= desc_start L f /\ appFirst L <= desc_start L f /\
  desc_start L f < desc_end L f < flash_top L /\
  is_crc32 (content f (desc_start L f) (desc_end L f)) (desc_crc L f).

(** what a locked device answers *)
Definition locked_reply (L : layout) (f : flash) (m : list Z) (r : reply) : Prop :=
  match m with
  | [] => r = error_reply 0x54
  | c :: d =>
      (data_length c = None -> r = error_reply 0x01) /\
      (forall lo hi, data_length c = Some (lo, hi) -> ~ (lo <= Z.of_nat (length d) <= hi) -> r = error_reply 0x55) /\
      (well_sized c d -> c <> 0xbf -> c <> 0xbe -> c <> 0xbc -> r = error_reply 0x58) /\
      (well_sized c d -> c = 0xbf -> r = error_reply 0x57) /\
      (well_sized c d -> c = 0xbe -> r = (0xbd, firstn 12 (chip_uid L))) /\
      (well_sized c d -> c = 0xbc -> fst r = 0xbb /\ length (snd r) = 12%nat)
  end.

(** ** C40: bytes downloaded so far, from the messages and replies alone *)
Definition code_of (r : reply) : option Z := match r with (c, [x]) => if c =? 0xdc then Some x else None | _ => None end.
Definition one_of (x : option Z) (l : list Z) : bool := match x with Some v => existsb (Z.eqb v) l | None => false end.
(** unlocking, erasing and an executed program command empty the buffer; a refused one does not *)
Definition forgets (c : Z) (r : reply) : bool :=
  if c =? 0xbf then one_of (code_of r) [0x7f]
  else if (c =? 0xea) || (c =? 0xe9) then negb (one_of (code_of r) [0x58; 0x55])
  else if (c =? 0xee) || (c =? 0xeb) then negb (one_of (code_of r) [0x58; 0x55; 0x5d; 0x5e; 0x5b])
  else false.
Definition note (d : list Z) (x : list Z * reply) : list Z :=
  match fst x with
  | [] => d
  | c :: data => if (c =? 0xef) && one_of (code_of (snd x)) [0x7f] then d ++ data
                 else if forgets c (snd x) then [] else d
  end.
(** a program command whose range exceeds the 32-bit address space; refused, but possibly only after the buffer was
    emptied *)
Definition wrapping_program (m : list Z) : Prop :=
  exists d, m = 0xee :: d /\ num32 (skipn 2 d) + num16 d > 2^32.
Inductive downloaded : list (list Z * reply) -> list Z -> Prop :=
| dl_nil : downloaded [] []
| dl_note t d x : downloaded t d -> downloaded (t ++ [x]) (note d x)
| dl_wrap t d m r : downloaded t d -> wrapping_program m -> downloaded (t ++ [(m, r)]) [].

(** ** C42: difference streams *)
Inductive piece :=
| Raw (data : list Z)                (* new bytes *)
| FromRom (offset len : Z)           (* copy from the flash image, offset relative to the application *)
| FromRam (offset len : Z).          (* copy from the two pages overwritten last *)
(** a command has a short form for lengths below 64 and a long form below 16384 *)
Inductive encoded : piece -> list Z -> Prop :=
| raw_short d : (1 <= length d < 64)%nat -> encoded (Raw d) (Z.of_nat (length d) :: d)
| raw_long d hi lo : (1 <= length d)%nat -> 0 <= hi < 64 -> is_byte lo -> Z.of_nat (length d) = 256 * hi + lo ->
    encoded (Raw d) (64 + hi :: lo :: d)
| rom_short a n x y z : 0 <= n < 64 -> 0 <= x < 128 -> is_byte y -> is_byte z -> a = 65536 * x + 256 * y + z ->
    encoded (FromRom a n) [128 + n; x; y; z]
| rom_long a hi lo x y z : 0 <= hi < 64 -> is_byte lo -> 0 <= x < 128 -> is_byte y -> is_byte z -> a = 65536 * x + 256 * y + z ->
    encoded (FromRom a (256 * hi + lo)) [192 + hi; lo; x; y; z]
| ram_short a n x y z : 0 <= n < 64 -> 0 <= x < 128 -> is_byte y -> is_byte z -> a = 65536 * x + 256 * y + z ->
    encoded (FromRam a n) [128 + n; 128 + x; y; z]
| ram_long a hi lo x y z : 0 <= hi < 64 -> is_byte lo -> 0 <= x < 128 -> is_byte y -> is_byte z -> a = 65536 * x + 256 * y + z ->
    encoded (FromRam a (256 * hi + lo)) [192 + hi; lo; 128 + x; y; z].
Inductive encodes : list piece -> list Z -> Prop :=
| enc_nil : encodes [] []
| enc_cons p ps l ls : encoded p l -> encodes ps ls -> encodes (p :: ps) (l ++ ls).
(** bytes a piece stands for; [rom]: bytes of the image by offset, [old]: the 512 bytes of the old pages *)
Definition bytes_of (rom : Z -> Z) (old : list Z) (p : piece) : list Z :=
  match p with
  | Raw d => d
  | FromRom a n => map (fun i => rom (a + Z.of_nat i)) (seq 0 (Z.to_nat n))
  | FromRam a n => firstn (Z.to_nat n) (skipn (Z.to_nat a) old)
  end.
Definition expand (rom : Z -> Z) (old : list Z) (ps : list piece) : list Z := flat_map (bytes_of rom old) ps.
(** copies stay inside their sources ([size]: bytes of flash from the start of the application) *)
Definition inside (size : Z) (p : piece) : Prop :=
  match p with
  | Raw d => True
  | FromRom a n => 0 <= a /\ 0 <= n /\ a + n <= size
  | FromRam a n => 0 <= a /\ 0 <= n /\ a + n <= 512
  end.

(** a page: pieces, the telegrams that carry its stream, the program command *)
Record page := mkPage { pieces : list piece; telegrams : list (list Z); checksum : list Z }.
Definition messages (p : page) : list (list Z) := map (cons 0xec) (telegrams p) ++ [0xeb :: checksum p].
(** content of flash after programming a page of [out] at [a] (rest of the page zero; nothing is done if the bytes are
    already there) *)
Definition page_programmed (a : Z) (out : list Z) (f f' : flash) : Prop :=
  (holds f a out -> forall x, f' x = f x) /\
  (~ holds f a out -> forall x, f' x = if (a <=? x) && (x <? a + 256) then rd out (Z.to_nat (x - a)) else f x).
(** a download of [pages] that patches flash from [a] on, with the application at [rom]; [old]: the two pages before *)
Inductive patches (top rom : Z) : Z -> list Z -> flash -> list page -> flash -> Prop :=
| patch_nil a old f f' : (forall x, f' x = f x) -> patches top rom a old f [] f'
| patch_page a old f p ps f' f'' :
    let out := expand (fun o => f (rom + o)) old (pieces p) in
    encodes (pieces p) (concat (telegrams p)) ->
    Forall (fun t => (1 <= length t <= 254)%nat /\ Forall is_byte t) (telegrams p) ->
    Forall (inside (top - rom)) (pieces p) ->
    (1 <= length out <= 256)%nat -> a + 256 <= top ->
    length (checksum p) = 4%nat -> Forall is_byte (checksum p) -> is_crc32 out (num32 (checksum p)) ->
    page_programmed a out f f' ->
    patches top rom (a + 256) (skipn 256 old ++ content f a (a + 255)) f' ps f'' ->
    patches top rom a old f (p :: ps) f''.
(** where the bootloader expects the application when it starts up *)
Definition firmware_at (L : layout) (f : flash) (rom : Z) : Prop :=
  (startable L f /\ rom = desc_start L f) \/ (~ startable L f /\ rom = appFirst L).
(** a message of the difference download *)
Definition diff_message (m : list Z) : Prop := hd 0 m = 0xec \/ hd 0 m = 0xeb.
