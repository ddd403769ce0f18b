(** C125: floats as text *)
From Verif Require Export Flt_Proofs.
Open Scope Z_scope.

(** Every float between -2^31 and 2^31 (exclusive) is printed with exactly the places asked for (at most 7): the text shows its absolute value, wrong by less than 5/4 of the last place up to six places, less than 4 with seven. A minus sign stands before the text if the number is -1 or less. *)
Theorem C125_print_partial v precision p : is_float v -> Z.abs v < 2 ^ 31 * 2 ^ 149 -> 1 <= precision -> p = Z.to_nat (Z.min 7 precision) ->
  exists t shown, printFloat v precision = Some ((if v <=? - 2 ^ 149 then [45] else []) ++ t) /\ shows t p shown /\ within (if Nat.leb p 6 then 5 else 16) 4 p shown (Z.abs v).
Proof.
  intros F B Pr Ep. destruct (printFloat_text v precision p F B Pr Ep) as (t & E & S). set (f := Z.abs v mod ONE) in *. exists t, (Z.abs v / ONE * 10 ^ Z.of_nat p + scale p f / ONE). split; [exact E|]. split; [exact S|].
  destruct (parts v F B) as (n & _ & _ & _ & _ & _ & Ff). fold f in Ff. pose proof (Z.mod_pos_bound (Z.abs v) ONE ONE_pos) as Bf. fold f in Bf. destruct (scaled f Ff Bf p ltac:(lia)) as (_ & Bx & D).
  pose proof (Z.div_mod (Z.abs v) ONE ltac:(discriminate)) as Dv. fold f in Dv. set (q := Z.abs v / ONE) in *. set (x := scale p f) in *. pose proof (Z.div_mod x ONE ltac:(discriminate)) as Dx. pose proof (Z.mod_pos_bound x ONE ONE_pos) as Mx. set (d := x / ONE) in *. set (r := x mod ONE) in *. unfold within. change (2 ^ 149) with ONE. set (T := 10 ^ Z.of_nat p) in *.
  assert (G : (q * T + d) * ONE - Z.abs v * T = (x - T * f) - r) by (rewrite Dv, Dx; ring). rewrite G.
  assert (L : 2 * drift p + 4 * ONE <= (if Nat.leb p 6 then 5 else 16) * ONE). { assert (P7 : (1 <= p <= 7)%nat) by lia. clear - P7. destruct p as [|p]; [lia|]. do 7 (destruct p as [|p]; [vm_compute; discriminate|]). lia. }
  set (b := (if Nat.leb p 6 then 5 else 16) * ONE) in *. clearbody b d r x f q T. lia.
Qed.
Print Assumptions C125_print_partial.

(** -12.34f, two places *)
Definition minus12_34 : Z := - (12939428 * 2 ^ 129).
Example C125_print_example : is_float minus12_34 /\ Z.abs minus12_34 < 2 ^ 31 * 2 ^ 149 /\ printFloat minus12_34 2 = Some [45; 49; 50; 46; 51; 52].
Proof. split; [exists (-12939428), 129; split; [lia|]; split; reflexivity|]. split; reflexivity. Qed.

(** Numbers with no more binary places than decimal places asked for (as halves, quarters, sixteenths) are shown exactly. *)
Theorem C125_exact v precision p : is_float v -> Z.abs v < 2 ^ 31 * 2 ^ 149 -> 1 <= precision -> p = Z.to_nat (Z.min 7 precision) -> (2 ^ (149 - Z.of_nat p) | v) ->
  exists t shown, printFloat v precision = Some ((if v <=? - 2 ^ 149 then [45] else []) ++ t) /\ shows t p shown /\ shown * 2 ^ 149 = Z.abs v * 10 ^ Z.of_nat p.
Proof.
  intros F B Pr Ep (c & Dv). destruct (printFloat_text v precision p F B Pr Ep) as (t & E & S). set (f := Z.abs v mod ONE) in *. exists t, (Z.abs v / ONE * 10 ^ Z.of_nat p + scale p f / ONE). split; [exact E|]. split; [exact S|].
  assert (P7 : (1 <= p <= 7)%nat) by lia. assert (W : 0 < 2 ^ (149 - Z.of_nat p)) by (apply Z.pow_pos_nonneg; lia). assert (W' : 0 < 2 ^ Z.of_nat p) by (apply Z.pow_pos_nonneg; lia). assert (EO : ONE = 2 ^ Z.of_nat p * 2 ^ (149 - Z.of_nat p)) by (unfold ONE; rewrite <- Z.pow_add_r by lia; f_equal; lia).
  assert (Ef : f = Z.abs c mod 2 ^ Z.of_nat p * 2 ^ (149 - Z.of_nat p)) by (unfold f; rewrite Dv, EO, Z.abs_mul, (Z.abs_eq (2 ^ (149 - Z.of_nat p))) by lia; apply Z.mul_mod_distr_r; lia).
  pose proof (scaled_exact p (Z.abs c mod 2 ^ Z.of_nat p) ltac:(lia) (Z.mod_pos_bound _ _ W') p (Nat.le_refl p)) as X. rewrite <- Ef in X. rewrite X.
  pose proof (Z.div_mod (Z.abs v) ONE ltac:(discriminate)) as D. fold f in D. set (q := Z.abs v / ONE) in *. change (2 ^ 149) with ONE. set (b := Z.abs c mod 2 ^ Z.of_nat p) in *.
  assert (M : 10 ^ Z.of_nat p * f = 5 ^ Z.of_nat p * b * ONE) by (rewrite Ef, EO; change 10 with (2 * 5); rewrite Z.pow_mul_l; ring). rewrite M, Z.div_mul by discriminate. rewrite D. transitivity (q * 10 ^ Z.of_nat p * ONE + 5 ^ Z.of_nat p * b * ONE); [ring|]. rewrite <- M. ring.
Qed.
Print Assumptions C125_exact.

(** 21.5625 (345/16, as a temperature sensor with 1/16 degree gives it) with four places *)
Example C125_exact_example : is_float (345 * 2 ^ 145) /\ (2 ^ (149 - 4) | 345 * 2 ^ 145) /\ printFloat (345 * 2 ^ 145) 4 = Some [50; 49; 46; 53; 54; 50; 53].
Proof. split; [exists 345, 145; split; [lia|]; split; reflexivity|]. split; [exists 345; reflexivity|reflexivity]. Qed.

(** Without places only the whole number is printed, towards zero. *)
Theorem C125_whole v precision : is_float v -> Z.abs v < 2 ^ 31 * 2 ^ 149 -> precision < 1 ->
  exists t, printFloat v precision = Some ((if v <=? - 2 ^ 149 then [45] else []) ++ t) /\ denotes 10 t = Some (Z.abs v / 2 ^ 149) /\ padded 1 t.
Proof.
  intros F B Pr. destruct (parts v F B) as (n & E & Bn & An & Sn & Ef & Ff). destruct (printInt_whole n Bn) as (i & Ei & Di & Pi). exists i. rewrite An in Di. split; [|split; [exact Di|exact Pi]].
  unfold printFloat. rewrite E. cbv zeta. rewrite Ei. destruct (Z.ltb_spec precision 1); [|lia]. assert (G : (n <? 0) = (v <=? - 2 ^ 149)) by (apply Bool.eq_iff_eq_true; rewrite Z.ltb_lt, Z.leb_le; exact Sn). rewrite G. reflexivity.
Qed.
Print Assumptions C125_whole.

Example C125_whole_example : printFloat minus12_34 0 = Some [45; 49; 50].
Proof. reflexivity. Qed.

(** The other functions add the text before and the end of the line. *)
Theorem C125_lines str v precision t : printFloat v precision = Some t ->
  printStrFloat str v precision = Some (str ++ t) /\ printlnFloat v precision = Some (t ++ [13; 10]) /\ printlnStrFloat str v precision = Some (str ++ t ++ [13; 10]).
Proof. intros E. unfold printlnStrFloat, printStrFloat, printlnFloat. rewrite E. split; [reflexivity|]. split; [reflexivity|]. cbn [option_map]. rewrite <- app_assoc. reflexivity. Qed.
Print Assumptions C125_lines.

Example C125_lines_example : printlnStrFloat [84; 61] minus12_34 1 = Some [84; 61; 45; 49; 50; 46; 51; 13; 10].
Proof. reflexivity. Qed.

(** Missing: the sign of the numbers between -1 and 0 is lost: each is printed as its absolute value. *)
Theorem C125_sign_refuted v precision : is_float v -> - 2 ^ 149 < v < 0 -> 1 <= precision -> printFloat v precision = printFloat (- v) precision.
Proof.
  intros F B Pr. change (2 ^ 149) with ONE in B. assert (F' : is_float (- v)) by (destruct F as (m & e & He & M & ->); exists (- m), e; split; [exact He|]; split; [lia|ring]). assert (G : Z.abs v < 2 ^ 31 * ONE) by (change (2 ^ 31) with 2147483648; lia). assert (G' : Z.abs (- v) < 2 ^ 31 * ONE) by (rewrite Z.abs_opp; exact G).
  destruct (parts v F G) as (n & E & Bn & An & _ & Ef & _). destruct (parts (- v) F' G') as (n' & E' & Bn' & An' & _ & Ef' & _). rewrite Z.abs_opp in *. rewrite (Z.div_small (Z.abs v) ONE) in * by lia. assert (n = 0) by lia. assert (n' = 0) by lia. subst n n'. unfold printFloat. rewrite E, E', Ef, Ef'. reflexivity.
Qed.
Print Assumptions C125_sign_refuted.

Example C125_sign_example : printFloat (- 2 ^ 148) 1 = Some [48; 46; 53].
Proof. reflexivity. Qed.

(** Missing: numbers from 2^31 on are undefined (not only shown wrong), and so is -2^31, which is an int. *)
Theorem C125_large_refuted : (forall v precision, is_float v -> 2 ^ 31 * 2 ^ 149 <= Z.abs v -> printFloat v precision = None) /\ is_float (- (2 ^ 31 * 2 ^ 149)).
Proof.
  split; [|exists (-1), 180; split; [lia|]; split; reflexivity]. intros v precision F B. change (2 ^ 149) with ONE in B. pose proof ONE_pos as O. assert (A : Z.abs (Z.quot v ONE) = Z.abs v / ONE) by (rewrite <- Z.quot_abs by lia; rewrite (Z.abs_eq ONE) by lia; apply Z.quot_div_nonneg; lia).
  assert (L : 2 ^ 31 <= Z.abs v / ONE) by (apply Z.div_le_lower_bound; lia). unfold printFloat, toInt. cbv zeta. destruct (Z.leb_spec (- 2 ^ 31) (Z.quot v ONE)); [|reflexivity]. destruct (Z.ltb_spec (Z.quot v ONE) (2 ^ 31)); [|reflexivity]. cbn [andb]. assert (Q : Z.quot v ONE = - 2 ^ 31) by lia. rewrite Q. reflexivity.
Qed.
Print Assumptions C125_large_refuted.

(** Missing: seven places, the most the documentation allows, may be wrong by more than two units of the last: 13980932 * 2^-24 = 0.83332848... is printed as 0.8333282. *)
Theorem C125_seven_refuted : exists v t shown, is_float v /\ 0 < v < 2 ^ 149 /\ printFloat v 7 = Some t /\ shows t 7 shown /\ ~ within 2 1 7 shown v.
Proof.
  exists (13980932 * 2 ^ 125), [48; 46; 56; 51; 51; 51; 50; 56; 50], 8333282. split; [exists 13980932, 125; split; [lia|]; split; reflexivity|]. split; [split; reflexivity|]. split; [reflexivity|]. split; [|vm_compute; discriminate].
  exists [48], [56; 51; 51; 51; 50; 56; 50], 0, 8333282. split; [reflexivity|]. split; [reflexivity|]. split; [left; reflexivity|]. split; [reflexivity|]. split; reflexivity.
Qed.
Print Assumptions C125_seven_refuted.
