(** C44 (Intel-HEX dump), C48 (print), C49 (parseInt), C50 (find), C60 (readBytesUntil) *)
From Verif Require Import Base Text_Model Text_Spec Text_Proofs.

(** ** C48 *)
(** An unsigned number: the text denotes it in the given base, is at least [digits] long and has no superfluous zeros. *)
Theorem C48_print_unsigned : forall v b digits, is_u32 v -> 2 <= b <= 36 -> -2^31 + 33 <= digits <= 33 ->
  exists t, printUInt v b digits = Some t /\ denotes b t = Some v /\ padded digits t.
Proof. exact printUInt_spec. Qed.
Print Assumptions C48_print_unsigned.
(** A signed number (all ints but the smallest): minus sign and the digits of the absolute value; the sign counts for the width. *)
Theorem C48_print_signed_partial : forall v b digits, -2^31 < v < 2^31 -> 2 <= b <= 36 -> -2^31 + 34 <= digits <= 33 ->
  exists t, denotes b t = Some (Z.abs v) /\
    (0 <= v /\ printInt v b digits = Some t /\ padded digits t \/
     v < 0 /\ printInt v b digits = Some (45 :: t) /\ padded (digits - 1) t).
Proof.
  intros v b digits Hv Hb Hd. unfold printInt. change (2^31) with 2147483648 in *. destruct (Z.ltb_spec v 0).
  - destruct (Z.eqb_spec v (Z.opp 2147483648)); [lia|]. destruct (Z.eqb_spec digits (Z.opp 2147483648)); [lia|]. cbn [orb].
    destruct (printUInt_spec (- v) b (digits - 1)) as (t & E1 & E2 & E3); auto; try lia; try (red; lia).
    exists t. rewrite E1, E2. split; [f_equal; lia|]. right. split; [auto|]. split; [reflexivity|auto].
  - destruct (printUInt_spec v b digits) as (t & E1 & E2 & E3); auto; try lia; try (red; lia).
    exists t. rewrite E1, E2. split; [f_equal; lia|]. left. auto.
Qed.
Print Assumptions C48_print_signed_partial.
(** The two conditions determine the text. *)
Theorem C48_text_unique : forall b width t t' v, 2 <= b <= 36 ->
  denotes b t = Some v -> denotes b t' = Some v -> padded width t -> padded width t' -> t = t'.
Proof. exact padded_unique. Qed.
Print Assumptions C48_text_unique.
(** Missing in the partial theorem: the smallest int (its negation overflows), and widths above 33 (the buffer is overrun). *)
Theorem C48_every_int_refuted : exists v, -2^31 <= v < 2^31 /\ printInt v 10 (-1) = None.
Proof. exists (-2^31). split; [split; [lia|reflexivity]|reflexivity]. Qed.
Print Assumptions C48_every_int_refuted.
Theorem C48_every_width_refuted : forall v b digits, is_u32 v -> 2 <= b <= 36 -> 33 < digits < 2^31 -> printUInt v b digits = None.
Proof.
  intros v b digits _ Hb Hd. unfold printUInt, PRINTBUF_SIZE. destruct (Z.ltb_spec b 2); [lia|].
  assert (G : forall room value digits acc, Z.of_nat room < digits < 2^31 -> printLoop room value b digits acc = None).
  { clear. induction room; intros value digits acc H; [reflexivity|]. cbn [printLoop]. change (2^31) with 2147483648 in *.
    destruct (Z.eqb_spec digits (Z.opp 2147483648)); [lia|].
    destruct (Z.ltb_spec 0 (digits - 1)); [|lia]. cbn [orb]. apply IHroom. lia. }
  apply G. change (Z.of_nat 33) with 33. lia.
Qed.
Print Assumptions C48_every_width_refuted.
Example C48_examples :
  printUInt 0xBEEF 16 8 = Some [48; 48; 48; 48; 66; 69; 69; 70] /\ printInt (-105) 10 (-1) = Some [45; 49; 48; 53] /\
  printUInt 0 2 (-1) = Some [48] /\ option_map (@length Z) (printUInt 4294967295 2 33) = Some 33%nat /\
  denotes 16 [48; 48; 48; 48; 66; 69; 69; 70] = Some 0xBEEF.
Proof. vm_compute. auto. Qed.

(** ** C49 *)
(** The value returned (computed with wrap-around) is the printed int, for every int but the smallest; no signed overflow
    happens if the absolute value is below 2^31 - 48. *)
Theorem C49_parse_printed_partial : forall skip g v text rest,
  Forall garbage g -> -2^31 < v < 2^31 -> printInt v 10 (-1) = Some text -> ends_number skip rest ->
  exists overflow, parseInt skip (g ++ text ++ rest) = (v, overflow, rest) /\ (Z.abs v + 48 < 2^31 -> overflow = false).
Proof.
  intros skip g v text rest Hg Hv Ht Hr.
  destruct (C48_print_signed_partial v 10 (-1) Hv ltac:(lia) ltac:(split; reflexivity || discriminate)) as (t & D & [(H & E & P)|(H & E & P)]);
    rewrite E in Ht; injection Ht as <-; destruct (denotes_digits t 0 _ D) as [F G].
  - rewrite Z.abs_eq in * by lia.
    assert (Hh : is_digit (hd 0 t)). { destruct P as [P|[P _]]; destruct t; try (cbn [length] in P; lia); inversion G; auto. }
    apply parseInt_nonneg; auto; [|rewrite F; auto|lia]. eapply Forall_impl; [|exact G]. auto.
  - rewrite Z.abs_neq in * by lia. cbn [app].
    destruct (parseInt_neg skip g t rest (- v) Hg) as (o & E1 & E2); auto; [|rewrite F; auto|lia|].
    { eapply Forall_impl; [|exact G]. auto. }
    exists o. rewrite E1, Z.opp_involutive. auto.
Qed.
Print Assumptions C49_parse_printed_partial.
(** More generally: a sequence of digits, interspersed with the character to skip (for example thousands separators). *)
Theorem C49_parse_with_separators : forall skip g body rest n,
  Forall garbage g -> Forall (fun c => is_digit c \/ c = skip) body -> is_digit (hd 0 body) -> ends_number skip rest ->
  denotes 10 (digits_of body) = Some n -> n + 48 < 2^31 ->
  parseInt skip (g ++ body ++ rest) = (n, false, rest) /\ parseInt skip (g ++ 45 :: body ++ rest) = (- n, false, rest).
Proof.
  intros skip g body rest n Hg Hb Hh Hr Hn Hl.
  destruct (parseInt_nonneg skip g body rest n Hg Hb Hh Hr Hn) as (o & -> & E); [lia|]. rewrite E by auto.
  destruct (parseInt_neg skip g body rest n Hg Hb Hr Hn) as (o' & -> & E'); [lia|]. rewrite E' by auto. auto.
Qed.
Print Assumptions C49_parse_with_separators.
(** Missing: for the last 48 ints the expression value * 10 + ch - '0' overflows before the subtraction (undefined behaviour). *)
Theorem C49_every_int_refuted : exists v text, v = 2^31 - 1 /\ printInt v 10 (-1) = Some text /\ snd (fst (parseInt 48 text)) = true.
Proof. exists (2^31 - 1), [50; 49; 52; 55; 52; 56; 51; 54; 52; 55]. split; [reflexivity|]. split; vm_compute; reflexivity. Qed.
Print Assumptions C49_every_int_refuted.
(** "id=-1.234.567;" with separator '.' *)
Example C49_example : parseInt 46 [105; 100; 61; 45; 49; 46; 50; 51; 52; 46; 53; 54; 55; 59; 10] = (-1234567, false, [59; 10]) /\
  Forall garbage [105; 100; 61] /\ ends_number 46 [59; 10].
Proof.
  split; [reflexivity|]. split; [|cbn; unfold is_digit; lia].
  repeat (apply Forall_cons; [split; unfold is_digit; lia|]). apply Forall_nil.
Qed.

(** ** C50 *)
(** True of the code: a reported hit is one (the consumed part of the stream ends with the target), a reported miss means
    that the stream is exhausted or the consumed part ends with the terminator. *)
Theorem C50_find_sound : forall target term s found rest, target <> [] ->
  findUntil target term s = (found, rest) ->
  if found then exists before, s = before ++ target ++ rest
  else rest = [] \/ term <> [] /\ exists before, s = before ++ term ++ rest.
Proof.
  intros target term s found rest Ht H. apply (findLoop_sound target term s [] 0 0 rest found Ht); auto.
  - destruct target; [congruence|cbn; lia].
  - exists []. reflexivity.
  - intros T. split; [destruct term; [congruence|cbn; lia]|]. exists []. reflexivity.
Qed.
Print Assumptions C50_find_sound.
(** The target is found (first occurrence, nothing behind it consumed) if its first byte does not occur before it; in
    particular every one-byte target. *)
Theorem C50_find_complete_partial : forall x target before rest, Forall (fun c => c <> x) before ->
  streamFind (x :: target) (before ++ (x :: target) ++ rest) = (true, rest).
Proof. exact find_complete. Qed.
Print Assumptions C50_find_complete_partial.
(** Missing: after a partial match the byte that did not match is not tried as the start of a new match. *)
Theorem C50_find_complete_refuted : exists target s before rest, s = before ++ target ++ rest /\ streamFind target s = (false, []).
Proof. exists [65; 66], [65; 65; 66; 67], [65], [67]. split; reflexivity. Qed.
Print Assumptions C50_find_complete_refuted.
Example C50_example : streamFind [79; 75; 13] [65; 84; 13; 79; 75; 13; 10] = (true, [10]) /\
  findUntil [79; 75] [69; 82; 82] [69; 69; 82; 82; 79; 75] = (true, []) /\ findUntil [79; 75] [69; 82; 82] [69; 82; 82; 79; 75] = (false, [79; 75]).
Proof. repeat split. Qed.

(** ** C60 *)
Theorem C60_read_bytes_until : forall term n s l rest, readBytesUntil term n s = (l, rest) ->
  (length l <= n)%nat /\ Forall (fun c => c <> term) l /\
  (s = l ++ term :: rest /\ (length l < n)%nat \/ s = l ++ rest /\ (length l = n \/ rest = [])).
Proof. exact readBytesUntil_spec. Qed.
Print Assumptions C60_read_bytes_until.
Example C60_example : readBytesUntil 10 5 [1; 2; 10; 3] = ([1; 2], [3]) /\ readBytesUntil 10 2 [1; 2; 10; 3] = ([1; 2], [10; 3]) /\
  readBytesUntil (-1) 3 [1; 2] = ([1; 2], []).
Proof. repeat split. Qed.

(** ** C44 *)
(** The whole output decodes: data records that hold exactly the dumped memory at its addresses, with right lengths and
    checksums, then the record with start and end address and the end-of-file record. *)
Theorem C44_dump_decodes_partial : forall mem start count width,
  (forall a, is_byte (mem a)) -> 1 <= width <= 255 -> 0 <= start -> 0 <= count -> start + count < 65536 ->
  exists out recs check, dumpIntelHex mem start count width = Some out /\
    let last := [4; 0; 0; 3; start / 256; start mod 256; (start + count) / 256; (start + count) mod 256; check] in
    hex_decode AtStart out = Some (recs ++ [last; [0; 0; 0; 1; 255]]) /\ sum last mod 256 = 0 /\ Forall is_byte last /\
    covers width start recs (bytes_from mem start (Z.to_nat count)).
Proof. exact dump_spec. Qed.
Print Assumptions C44_dump_decodes_partial.
(** The data records are also right when the dump ends at the 64K boundary; [more] is what follows them. *)
Theorem C44_data_records : forall mem start count width,
  (forall a, is_byte (mem a)) -> 1 <= width <= 255 -> 0 <= start -> 0 <= count -> start + count <= 65536 ->
  exists out recs, dumpLines (Z.to_nat count) mem start count width = Some out /\
    (forall more, hex_decode AtStart (out ++ more) = option_map (app recs) (hex_decode AtStart more)) /\
    covers width start recs (bytes_from mem start (Z.to_nat count)).
Proof. intros mem start count width Hm Hw Hs Hc Ha. apply dumpLines_spec; auto; lia. Qed.
Print Assumptions C44_data_records.
(** Missing: a dump that reaches the 64K boundary (the end of the largest chip's flash) has a malformed last record. *)
Theorem C44_dump_to_64K_refuted : exists mem start count out, (forall a, is_byte (mem a)) /\ start + count = 65536 /\
  dumpIntelHex mem start count 16 = Some out /\ hex_decode AtStart out = None.
Proof.
  assert (H : option_map (hex_decode AtStart) (dumpIntelHex (fun _ => 0) 65535 1 16) = Some None) by (vm_compute; reflexivity).
  destruct (dumpIntelHex (fun _ => 0) 65535 1 16) as [out|] eqn:E; [|discriminate].
  exists (fun _ => 0), 65535, 1, out. split; [intros; red; lia|]. split; [reflexivity|]. split; [exact E|]. cbn [option_map] in H. congruence.
Qed.
Print Assumptions C44_dump_to_64K_refuted.
Example C44_example : option_map (hex_decode AtStart) (dumpIntelHex (fun a => a mod 256) 0x70F0 18 16) =
  Some (Some [[16; 112; 240; 0; 240; 241; 242; 243; 244; 245; 246; 247; 248; 249; 250; 251; 252; 253; 254; 255; 24];
              [2; 113; 0; 0; 0; 1; 140]; [4; 0; 0; 3; 112; 240; 113; 2; 38]; [0; 0; 0; 1; 255]]).
Proof. vm_compute. reflexivity. Qed.
