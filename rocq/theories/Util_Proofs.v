From Verif Require Import Base Bits Util_Model Util_Spec.

Lemma pow32 : 2 ^ 32 = 4294967296. Proof. reflexivity. Qed.
Lemma pow31 : 2 ^ 31 = 2147483648. Proof. reflexivity. Qed.

(** ** Timeout *)
Lemma s32_sub a x : x - 2147483648 <= a < x + 2147483648 -> (0 <=? s32 (u32 a - u32 x)) = (x <=? a).
Proof.
  intros H. unfold s32, u32. cbv zeta. rewrite Zminus_mod_idemp_l, Zminus_mod_idemp_r.
  destruct (Z.leb_spec x a).
  - rewrite Z.mod_small by lia. destruct (Z.ltb_spec (a - x) 2147483648); lia.
  - replace ((a - x) mod 4294967296) with (a - x + 4294967296).
    + destruct (Z.ltb_spec (a - x + 4294967296) 2147483648); lia.
    + apply (Z.mod_unique _ _ (-1)); lia.
Qed.
Lemma timer_ideal ops : forall t d last, (match d with None => t = 0 | Some x => t = u32 x /\ t <> 0 /\ last < x <= last + 2^31 end) ->
  polled last ops -> timer_run t ops = ideal_run d ops.
Proof.
  induction ops as [|[now o] ops IH]; intros t d last H HP; [reflexivity|]. rewrite pow31 in *.
  destruct o; cbn [timer_run ideal_run polled] in *.
  - destruct HP as (H1 & H2 & H3). apply (IH _ _ now); auto.
    unfold to_start, to_stop, STOPPED. destruct (Z.eqb_spec ms 0); auto.
    unfold deadline. rewrite pow32.
    assert (E : u32 (u32 now + ms) = (now + ms) mod 4294967296) by (unfold u32; apply Zplus_mod_idemp_l). cbv zeta. rewrite E.
    destruct (Z.eqb_spec ((now + ms) mod 4294967296) 0) as [E0|N0].
    + rewrite E0. split; [|split; [unfold u32; vm_compute; discriminate|lia]].
      unfold u32. rewrite <- (Zplus_mod_idemp_l (now + ms)), E0. reflexivity.
    + split; [reflexivity|]. split; [auto|lia].
  - apply (IH _ _ now); auto.
  - destruct HP as (H1 & H2). unfold to_expired, to_stop, STOPPED. destruct d as [x|].
    + destruct H as (-> & Hn & Hx). destruct (Z.eqb_spec (u32 x) 0); [congruence|]. cbn [negb].
      rewrite s32_sub by lia. destruct (Z.leb_spec x now).
      * f_equal. apply (IH _ _ now); auto.
      * f_equal. apply (IH _ _ now); auto. repeat split; auto; lia.
    + subst. rewrite Z.eqb_refl. cbn [negb]. f_equal. apply (IH _ _ now); auto.
  - f_equal.
    + unfold to_started, STOPPED. destruct d as [x|]; [destruct H as (-> & Hn & _); destruct (Z.eqb_spec (u32 x) 0); auto; congruence|subst; reflexivity].
    + apply (IH _ _ last); auto.
Qed.

(** ** Debouncer *)
(** [stable_since d t1 ops]: the run so far ends with samples of the level [d_last d], the first at time t1 *)
Definition since (v : Z) (t1 : Z) (ops : list deb_op) : Prop :=
  exists h1 h2 to, ops = h1 ++ Sample t1 v to :: h2 /\ all_samples v h2.
Definition deb_inv (d : debouncer) (ops : list deb_op) : Prop :=
  d_time d = 0 \/ exists t1, d_time d = u32 t1 /\ 0 <= t1 /\ since (d_last d) t1 ops.
Lemma since_app v t1 ops now to : since v t1 ops -> since v t1 (ops ++ [Sample now v to]).
Proof.
  intros (h1 & h2 & t0 & -> & H). exists h1, (h2 ++ [Sample now v to]), t0. split.
  - rewrite <- app_assoc. reflexivity.
  - apply Forall_app. split; auto. constructor; eauto.
Qed.
Lemma deb_inv_run ops d0 : d_time d0 = 0 -> Forall sample_ok ops -> deb_inv (deb_run d0 ops) ops.
Proof.
  intros H0. induction ops as [|o ops IH] using rev_ind; intros Hok; [left; auto|].
  apply Forall_app in Hok. destruct Hok as [Hok Ho]. inversion Ho as [|? ? Ho' _]; subst.
  unfold deb_run in *. rewrite fold_left_app. cbn [fold_left]. specialize (IH Hok). set (d := fold_left deb_step ops d0) in *.
  destruct o as [v|now v to]; cbn [deb_step].
  - left. reflexivity.
  - cbn [sample_ok] in Ho'. unfold deb_debounce. cbv zeta. cbn [fst].
    destruct (Z.eqb_spec (d_last d) v) as [E|N]; cbn [negb].
    + destruct (negb (d_time d =? 0) && _); [left; reflexivity|].
      destruct IH as [T|(t1 & T & T1 & S)]; [left; auto|]. right. exists t1. split; auto. split; auto. subst v. apply since_app; auto.
    + right. exists now. cbn [d_time d_last]. split; auto. split; [lia|]. exists ops, [], to. split; auto. constructor.
Qed.
Lemma deb_only_stable d0 ops now v to : d_time d0 = 0 -> Forall sample_ok (ops ++ [Sample now v to]) ->
  let before := d_valid (deb_run d0 ops) in
  let result := snd (deb_debounce (u32 now) v to (deb_run d0 ops)) in
  result <> before -> result = v /\
    exists h1 t1 to1 h2, ops = h1 ++ Sample t1 v to1 :: h2 /\ all_samples v h2 /\ (t1 <= now -> t1 + to <= now).
Proof.
  intros H0 Hok. apply Forall_app in Hok. destruct Hok as [Hok Ho]. inversion Ho as [|? ? Ho' _]; subst. cbn [sample_ok] in Ho'.
  pose proof (deb_inv_run ops d0 H0 Hok) as I. set (d := deb_run d0 ops) in *. cbv zeta. unfold deb_debounce. cbv zeta. cbn [snd].
  destruct (Z.eqb_spec (d_last d) v) as [E|N]; cbn [negb].
  2:{ cbn [d_valid]. congruence. }
  destruct (Z.eqb_spec (d_time d) 0) as [T0|T0]; cbn [negb andb]. { congruence. }
  destruct (0 <=? s32 (u32 now - u32 (d_time d + to))) eqn:ES; [|congruence].
  cbn [d_valid]. intros _. split; auto.
  destruct I as [T|(t1 & T & T1 & (h1 & h2 & t0 & EO & H))]; [contradiction|].
  exists h1, t1, t0, h2. rewrite <- E. split; auto. split; auto. intros Hle. rewrite pow31 in *.
  destruct (Z_lt_dec now (t1 + to)) as [L|]; [|lia]. exfalso.
  rewrite T in ES. unfold u32 at 2 in ES. unfold u32 at 2 in ES. rewrite Zplus_mod_idemp_l in ES. fold (u32 (t1 + to)) in ES.
  rewrite s32_sub in ES by lia. lia.
Qed.
Lemma deb_reports d0 h t1 v to1 mid now to : 0 <= t1 -> u32 t1 <> 0 -> d_last (deb_run d0 h) <> v -> all_samples v mid ->
  0 <= to -> t1 + to <= now < t1 + to + 2^31 ->
  snd (deb_debounce (u32 now) v to (deb_run d0 (h ++ Sample t1 v to1 :: mid))) = v.
Proof.
  intros H0 Hn Hl Hm Hto Hnow. unfold deb_run in *. rewrite fold_left_app. cbn [fold_left]. set (d := fold_left deb_step h d0) in *.
  assert (K : forall mid d, all_samples v mid -> d_last d = v -> (d_time d = 0 -> d_valid d = v) -> (d_time d <> 0 -> d_time d = u32 t1) ->
            let d' := fold_left deb_step mid d in d_last d' = v /\ (d_time d' = 0 -> d_valid d' = v) /\ (d_time d' <> 0 -> d_time d' = u32 t1)).
  { clear. induction mid as [|o mid IH]; intros d Hm H1 H2 H3; cbn [fold_left]; auto.
    inversion Hm as [|? ? (n & t & ->) Hm']; subst o l. apply IH; auto; cbn [deb_step]; unfold deb_debounce; cbv zeta; cbn [fst];
      rewrite H1, Z.eqb_refl; cbn [negb]; destruct (negb (d_time d =? 0) && _); cbn [d_last d_time d_valid]; auto; congruence. }
  destruct (K mid (deb_step d (Sample t1 v to1)) Hm) as (K1 & K2 & K3).
  - cbn [deb_step]. unfold deb_debounce. cbv zeta. cbn [fst]. destruct (Z.eqb_spec (d_last d) v); [contradiction|]. reflexivity.
  - cbn [deb_step]. unfold deb_debounce. cbv zeta. cbn [fst]. destruct (Z.eqb_spec (d_last d) v); [contradiction|]. cbn. congruence.
  - cbn [deb_step]. unfold deb_debounce. cbv zeta. cbn [fst]. destruct (Z.eqb_spec (d_last d) v); [contradiction|]. cbn. congruence.
  - set (e := fold_left deb_step mid _) in *. unfold deb_debounce. cbv zeta. cbn [snd]. rewrite K1, Z.eqb_refl. cbn [negb].
    destruct (Z.eqb_spec (d_time e) 0) as [T|T]; cbn [negb andb]; auto. rewrite (K3 T).
    unfold u32 at 2. unfold u32 at 2. rewrite Zplus_mod_idemp_l. fold (u32 (t1 + to)). rewrite pow31 in *. rewrite s32_sub by lia.
    destruct (Z.leb_spec (t1 + to) now); [reflexivity|lia].
Qed.

(** ** reverseCopy *)
Lemma reverseLoop_spec n : forall dest src m x,
  (forall i, 0 <= i < Z.of_nat n -> ~ (dest <= src - i < dest + Z.of_nat n)) ->
  reverseLoop n dest src m x = if (dest <=? x) && (x <? dest + Z.of_nat n) then m (src - (x - dest)) else m x.
Proof.
  induction n as [|n IH]; intros dest src m x H; cbn [reverseLoop].
  - destruct (Z.leb_spec dest x), (Z.ltb_spec x (dest + Z.of_nat 0)); cbn; auto; lia.
  - rewrite IH.
    + unfold store. destruct (Z.leb_spec (dest + 1) x), (Z.ltb_spec x (dest + 1 + Z.of_nat n)), (Z.leb_spec dest x), (Z.ltb_spec x (dest + Z.of_nat (S n))); cbn [andb]; try lia.
      * destruct (Z.eqb_spec (src - 1 - (x - (dest + 1))) dest).
        -- exfalso. apply (H (x - dest)); lia.
        -- f_equal. lia.
      * destruct (Z.eqb_spec x dest); [lia|auto].
      * destruct (Z.eqb_spec x dest); [|lia]. f_equal. lia.
      * destruct (Z.eqb_spec x dest); [lia|auto].
    + intros i Hi. specialize (H (i + 1)). lia.
Qed.
Lemma reverseCopy_spec dest src len m x : 0 <= len -> (src + len <= dest \/ dest + len <= src) ->
  reverseCopy dest src len m x = if (dest <=? x) && (x <? dest + len) then m (src + (len - 1 - (x - dest))) else m x.
Proof.
  intros Hl H. unfold reverseCopy. rewrite reverseLoop_spec by lia. rewrite Z2Nat.id by lia.
  destruct (_ && _); auto. f_equal. lia.
Qed.

(** ** hashUID *)
Lemma load_le_8 g l : Forall is_byte l -> length l = 8%nat -> 0 <= g < 2 ^ 64 -> load_le g l = number_le l.
Proof.
  intros Hb Hl Hg. unfold load_le. rewrite Hl. change (8 * Z.of_nat 8) with 64. rewrite Z.div_small by auto.
  clear. induction l; cbn; congruence.
Qed.

(** ** indexOf *)
Lemma indexLoop_spec arr val : forall n idx, 0 <= idx ->
  let r := indexLoop n val idx arr in
  (r = -1 /\ forall i, idx <= i < idx + Z.of_nat n -> rd arr (Z.to_nat i) <> val) \/
  (idx <= r < idx + Z.of_nat n /\ rd arr (Z.to_nat r) = val /\ forall i, idx <= i < r -> rd arr (Z.to_nat i) <> val).
Proof.
  induction n as [|n IH]; intros idx H; cbn [indexLoop].
  - left. split; auto. lia.
  - destruct (Z.eqb_spec (rd arr (Z.to_nat idx)) val) as [E|N].
    + right. split; [lia|]. split; auto. lia.
    + destruct (IH (idx + 1) ltac:(lia)) as [[-> K]|(K1 & K2 & K3)].
      * left. split; auto. intros i Hi. destruct (Z.eq_dec i idx); [subst; auto|apply K; lia].
      * right. split; [lia|]. split; auto. intros i Hi. destruct (Z.eq_dec i idx); [subst; auto|apply K3; lia].
Qed.

(** ** shift registers *)
Lemma shift_out_bits order v : is_byte v ->
  sampled false false (shiftOut order v) =
  map (fun i => Z.testbit v (match order with LSBFIRST => i | MSBFIRST => 7 - i end)) [0; 1; 2; 3; 4; 5; 6; 7].
Proof.
  intros H. destruct order.
  - pose proof (byte_forall (fun v => if list_eq_dec bool_dec (sampled false false (shiftOut LSBFIRST v)) (map (Z.testbit v) [0;1;2;3;4;5;6;7]) then true else false)) as B.
    specialize (B ltac:(vm_compute; reflexivity) v H). cbv beta in B. destruct (list_eq_dec _ _ _); [auto|discriminate].
  - pose proof (byte_forall (fun v => if list_eq_dec bool_dec (sampled false false (shiftOut MSBFIRST v)) (map (fun i => Z.testbit v (7 - i)) [0;1;2;3;4;5;6;7]) then true else false)) as B.
    specialize (B ltac:(vm_compute; reflexivity) v H). cbv beta in B. destruct (list_eq_dec _ _ _); [auto|discriminate].
Qed.
Lemma shift_in_bits order level :
  is_byte (shiftIn order level) /\
  forall i, (i < 8)%nat -> Z.testbit (shiftIn order level) (match order with LSBFIRST => Z.of_nat i | MSBFIRST => 7 - Z.of_nat i end) = level i.
Proof.
  unfold shiftIn. cbn [fold_left].
  set (b0 := level 0%nat); set (b1 := level 1%nat); set (b2 := level 2%nat); set (b3 := level 3%nat);
  set (b4 := level 4%nat); set (b5 := level 5%nat); set (b6 := level 6%nat); set (b7 := level 7%nat).
  split; [apply u8_byte|]. intros i Hi.
  assert (E : level i = nth i [b0; b1; b2; b3; b4; b5; b6; b7] false).
  { clear -Hi. do 8 (destruct i as [|i]; [reflexivity|]). exfalso. clear -Hi. lia. }
  rewrite E. clearbody b0 b1 b2 b3 b4 b5 b6 b7. clear E.
  assert (A : forallb (fun i => Bool.eqb (Z.testbit (u8 (fold_left (fun value j => Z.lor value (Z.shiftl (if nth j [b0; b1; b2; b3; b4; b5; b6; b7] false then 1 else 0)
    (match order with LSBFIRST => Z.of_nat j | MSBFIRST => 7 - Z.of_nat j end))) [0; 1; 2; 3; 4; 5; 6; 7]%nat 0))
    (match order with LSBFIRST => Z.of_nat i | MSBFIRST => 7 - Z.of_nat i end)) (nth i [b0; b1; b2; b3; b4; b5; b6; b7] false)) [0; 1; 2; 3; 4; 5; 6; 7]%nat = true).
  { destruct order, b0, b1, b2, b3, b4, b5, b6, b7; vm_compute; reflexivity. }
  rewrite forallb_forall in A. apply Bool.eqb_prop. exact (A i ltac:(clear -Hi; do 8 (destruct i as [|i]; [cbn; tauto|]); exfalso; clear -Hi; lia)).
Qed.
Lemma shift_round order v : is_byte v -> shiftIn order (fun i => nth i (sampled false false (shiftOut order v)) false) = v.
Proof.
  intros H. destruct order.
  - pose proof (byte_forall (fun v => shiftIn LSBFIRST (fun i => nth i (sampled false false (shiftOut LSBFIRST v)) false) =? v)) as B.
    apply Z.eqb_eq. apply (B ltac:(vm_compute; reflexivity) v H).
  - pose proof (byte_forall (fun v => shiftIn MSBFIRST (fun i => nth i (sampled false false (shiftOut MSBFIRST v)) false) =? v)) as B.
    apply Z.eqb_eq. apply (B ltac:(vm_compute; reflexivity) v H).
Qed.
