(** Proofs for C105: the search through the bridge *)
From Verif Require Import Base Bits OneWire_Model OneWire_Spec OneWire_Proofs.
From Verif Require Import I2c_Spec Ds_Model Ds_Spec Ds_Proofs.

(** ** The abstract search *)
Lemma asearch_low n : forall k ld ld' prev act, ld < k -> ld' < k -> asearch n k ld prev act = asearch n k ld' prev act.
Proof.
  induction n as [|n IH]; intros k ld ld' prev act H H'; [reflexivity|]. cbn [asearch].
  replace (k <? ld) with false by (symmetry; apply Z.ltb_ge; lia). replace (k =? ld) with false by (symmetry; apply Z.eqb_neq; lia). replace (k <? ld') with false by (symmetry; apply Z.ltb_ge; lia). replace (k =? ld') with false by (symmetry; apply Z.eqb_neq; lia).
  rewrite (IH (k + 1) ld ld') by lia. reflexivity.
Qed.
(** no choice at the first bit *)
Definition forced (act : list device) : Prop := has false act = false \/ has true act = false.
Lemma asearch_forced n k ld ld' prev act : forced act -> ld <= k -> ld' <= k -> asearch (S n) k ld prev act = asearch (S n) k ld' prev act.
Proof.
  intros F H H'. cbn [asearch]. destruct (has false act) eqn:E0, (has true act) eqn:E1; cbn [xorb negb andb]; try reflexivity.
  - destruct F; congruence.
  - rewrite (asearch_low n (k + 1) ld ld') by lia. reflexivity.
  - rewrite (asearch_low n (k + 1) ld ld') by lia. reflexivity.
Qed.
Lemma lzero_forced k act p : 0 < k -> forced act -> In p act -> lzero k act p = 0 \/ k < lzero k act p.
Proof.
  intros K F I. destruct p as [|b p]; [left; reflexivity|]. cbn [lzero]. pose proof (lzero_range (k + 1) (write_bit b act) p ltac:(lia)) as R. destruct (Z.eqb_spec (lzero (k + 1) (write_bit b act) p) 0) as [E|N]; [|lia].
  destruct b; cbn [negb andb]; [left; reflexivity|]. destruct F as [F|F].
  - exfalso. exact (has_false false act p F I).
  - rewrite F. left. reflexivity.
Qed.
(** a choice at the first bit is always made for 1 *)
Definition ones (act : list device) : list device := filter (fun d => match d with b :: _ => b | [] => false end) act.
Lemma write_ones act : write_bit true (ones act) = write_bit true act.
Proof. induction act as [|[|[] d] act IH]; cbn [ones filter write_bit flat_map] in *; [reflexivity|exact IH| |exact IH]. cbn [Bool.eqb app]. f_equal. exact IH. Qed.
Lemma has_ones act : has true (ones act) = has true act /\ has false (ones act) = false.
Proof.
  split; [unfold has; rewrite write_ones; reflexivity|]. destruct (has false (ones act)) eqn:E; [|reflexivity]. apply has_iff in E. destruct E as [d I]. apply filter_In in I. destruct I; discriminate.
Qed.
Lemma asearch_ones n ld prev act : has false act = true -> has true act = true -> 1 <= ld -> (1 < ld -> hd false prev = true) -> asearch (S n) 1 ld prev act = asearch (S n) 1 ld prev (ones act).
Proof.
  intros E0 E1 L P. destruct (has_ones act) as [H1 H0]. cbn [asearch]. rewrite E0, E1, H1, H0, E1. cbn [negb andb xorb].
  replace (if 1 <? ld then hd false prev else 1 =? ld) with true.
  - cbn [negb]. rewrite write_ones. reflexivity.
  - destruct (Z.ltb_spec 1 ld) as [G|G]; [rewrite P by lia; reflexivity|]. symmetry. apply Z.eqb_eq. lia.
Qed.

(** ** The loop *)
Lemma set_rom_ds rom a j (dir : bool) : rom_ok rom -> (j < 8)%nat ->
  (if dir then wr rom a (u8 (Z.lor (rd rom a) (Z.shiftl 1 (Z.of_nat j)))) else wr rom a (u8 (Z.land (rd rom a) (Z.lnot (Z.shiftl 1 (Z.of_nat j)))))) = set_rom rom a (2 ^ Z.of_nat j) dir.
Proof.
  intros [L B] J. rewrite Z.shiftl_mul_pow2, Z.mul_1_l by lia. assert (P : is_byte (2 ^ Z.of_nat j)). { red. split; [apply Z.pow_nonneg; lia|]. change 256 with (2 ^ 8). apply Z.pow_lt_mono_r; lia. }
  pose proof (rd_byte rom a B) as R. unfold set_rom. destruct dir; f_equal.
  - apply Z.mod_small. apply lor_byte; assumption.
  - unfold u8 at 1. rewrite Z.mod_small by (apply land_byte_l; exact R). apply Z.bits_inj'. intros i Hi. rewrite !Z.land_spec. destruct (Z_lt_dec i 8) as [Lt|Ge].
    + unfold u8. change 256 with (2 ^ 8). rewrite Z.mod_pow2_bits_low by lia. reflexivity.
    + rewrite byte_bits_above by (try exact R; lia). reflexivity.
Qed.
Section Search.
  Context (addr : Z) (m : nat) (devs : list device) (nz : stage -> Z) (lv : stage -> bool) (tk : stage -> Z -> nat).
  Hypothesis HA : 0 <= addr < 128.
  Let x := attached devs nz lv tk.
  Hypothesis Hprompt : prompt x.
  Let w := bridge x addr.
  Let n := Datatypes.S m.
  Lemma freed_same l pull : freed x l pull = l.
  Proof. destruct pull; reflexivity. Qed.
  Lemma triplet_search act v k : len (Datatypes.S k) act ->
    triplet x (First act) v = let id := negb (has false act) in let comp := negb (has true act) in let dir := if id then true else if comp then false else v in (First (write_bit dir act), (id, comp, dir)).
  Proof.
    intros L. unfold triplet. cbn [x attached slot step]. rewrite (read_bit_has k act L), (read_cmp_has k act L). cbn [fst]. rewrite !andb_true_l. reflexivity.
  Qed.
  Lemma linked_search (h : hw (chip stage)) d l pull cfg a ld f : linked addr h d l pull cfg -> linked addr h (setSearch d a ld f) l pull cfg.
  Proof. intros [Q1 Q2 Q3 Q4 Q5 Q6 Q7 Q8]. constructor; auto. Qed.
  Lemma loop_ok k : forall i h d lz act done prev cfg, (i + k = 64)%nat -> rom_ok (searchAddress d) -> rom_bits (searchAddress d) = done ++ prev -> length done = i -> len k act -> linked addr h d (First act) false cfg -> 0 <= searchLastDiscrepancy d ->
    match asearch k (Z.of_nat i + 1) (searchLastDiscrepancy d + 1) prev act with
    | None => True
    | Some (p, r) => exists h' rom', Ds_Model.searchLoop w n k i h d lz = Done (h', setSearch d rom' (searchLastDiscrepancy d) (searchLastDeviceFlag d), Some (if r =? 0 then lz else r - 1)) /\
        rom_ok rom' /\ rom_bits rom' = done ++ p /\ exists act', linked addr h' (setSearch d rom' (searchLastDiscrepancy d) (searchLastDeviceFlag d)) (First act') false cfg
    end.
  Proof.
    induction k as [|k IH]; intros i h d lz act done prev cfg Hi Hr Hb Hd Hl K HL.
    - cbn [asearch Ds_Model.searchLoop]. assert (PN : prev = []). { assert (X : length (rom_bits (searchAddress d)) = 64%nat) by (rewrite rom_bits_length; destruct Hr as [-> _]; reflexivity). rewrite Hb, app_length in X. destruct prev; [reflexivity|cbn in X; lia]. }
      subst prev. exists h, (searchAddress d). replace (setSearch d (searchAddress d) (searchLastDiscrepancy d) (searchLastDeviceFlag d)) with d by (destruct d; reflexivity). split; [reflexivity|]. split; [exact Hr|]. split; [exact Hb|]. exists act. exact K.
    - cbn [asearch Ds_Model.searchLoop]. destruct (negb (has false act) && negb (has true act)) eqn:NB; [exact Logic.I|].
      set (j := (i mod 8)%nat). set (a := (i / 8)%nat). assert (Ei : i = (8 * a + j)%nat) by (apply Nat.div_mod; lia).
      assert (Hj : (j < 8)%nat) by (apply Nat.mod_upper_bound; lia). assert (Ha : (a < 8)%nat) by lia.
      destruct prev as [|c prev].
      { exfalso. rewrite app_nil_r in Hb. assert (X : length (rom_bits (searchAddress d)) = 64%nat) by (rewrite rom_bits_length; destruct Hr as [-> _]; reflexivity). rewrite Hb in X. lia. }
      cbn [hd List.tl].
      assert (T : negb (Z.land (rd (searchAddress d) a) (Z.shiftl 1 (Z.of_nat j)) =? 0) = c).
      { rewrite Z.shiftl_mul_pow2, Z.mul_1_l by lia. rewrite (land_bit _ _ (Zle_0_nat j)). rewrite <- nth_rom_bits by (auto; destruct Hr as [-> _]; auto). rewrite Hb, <- Ei, <- Hd, app_nth2, Nat.sub_diag by lia. reflexivity. }
      rewrite T. replace (Z.of_nat i + 1 <? searchLastDiscrepancy d + 1) with (Z.of_nat i <? searchLastDiscrepancy d) by (destruct (Z.ltb_spec (Z.of_nat i) (searchLastDiscrepancy d)), (Z.ltb_spec (Z.of_nat i + 1) (searchLastDiscrepancy d + 1)); lia).
      replace (Z.of_nat i + 1 =? searchLastDiscrepancy d + 1) with (Z.of_nat i =? searchLastDiscrepancy d) by (destruct (Z.eqb_spec (Z.of_nat i) (searchLastDiscrepancy d)), (Z.eqb_spec (Z.of_nat i + 1) (searchLastDiscrepancy d + 1)); lia).
      assert (N1 : (Datatypes.S i + k = 64)%nat) by lia. assert (N3 : Z.of_nat (Datatypes.S i) + 1 = Z.of_nat i + 1 + 1) by lia. assert (N4 : (Z.of_nat i + 1 =? 0) = false) by (apply Z.eqb_neq; lia).
      set (v := if Z.of_nat i <? searchLastDiscrepancy d then c else Z.of_nat i =? searchLastDiscrepancy d).
      destruct (wait_linked x addr m HA h d _ _ _ K) as (h1 & s1 & E1 & K1 & _). fold w n in E1. rewrite E1. cbn [bind].
      pose proof (triplet_ok x addr m HA Hprompt h1 d _ _ _ v K1) as TR. rewrite freed_same, (triplet_search act v k Hl) in TR. cbv zeta in TR.
      set (dir := if xorb (has false act) (has true act) then has true act else v).
      assert (DD : (if negb (has false act) then true else if negb (has true act) then false else v) = dir). { unfold dir. revert NB. destruct (has false act), (has true act); cbn; congruence. }
      rewrite DD in TR. destruct TR as (h2 & E2 & K2 & S2). fold w n in E2. rewrite E2. cbn [bind].
      destruct (wait_linked x addr m HA h2 d _ _ _ K2) as (h3 & s3 & E3 & K3 & _ & _ & _ & T3). fold w n in E3. rewrite E3. cbn [bind]. rewrite S2 in T3.
      pose proof (triplet_shown (negb (has false act)) (negb (has true act)) dir) as TS. cbv zeta in TS. destruct TS as (_ & _ & _ & TS5 & TS6 & TS7).
      assert (B5 : negb (Z.land s3 STATUS_SBR =? 0) = negb (has false act)) by (change STATUS_SBR with (2 ^ 5); rewrite (land_bit s3 5 ltac:(discriminate)), (T3 5 ltac:(discriminate)); exact TS5).
      assert (B6 : negb (Z.land s3 STATUS_TSB =? 0) = negb (has true act)) by (change STATUS_TSB with (2 ^ 6); rewrite (land_bit s3 6 ltac:(discriminate)), (T3 6 ltac:(discriminate)); exact TS6).
      assert (B7 : negb (Z.land s3 STATUS_DIR =? 0) = dir) by (change STATUS_DIR with (2 ^ 7); rewrite (land_bit s3 7 ltac:(discriminate)), (T3 7 ltac:(discriminate)); exact TS7).
      rewrite B5, B6, B7, NB. rewrite (set_rom_ds (searchAddress d) a j dir Hr Hj).
      pose proof (set_rom_ok (searchAddress d) a j dir Hr Hj) as Hr'. pose proof (set_rom_bits (searchAddress d) a j dir Hr Hj Ha) as Hb'.
      rewrite <- Ei, Hb, <- Hd, wr_app_here in Hb'. set (rom1 := set_rom (searchAddress d) a (2 ^ Z.of_nat j) dir) in *. clearbody rom1.
      set (lz1 := if negb (negb (has false act)) && negb (negb (has true act)) && negb dir then Z.of_nat i else lz).
      specialize (IH (Datatypes.S i) h3 (setSearch d rom1 (searchLastDiscrepancy d) (searchLastDeviceFlag d)) lz1 (write_bit dir act) (done ++ [dir]) prev cfg N1 Hr').
      cbn [searchAddress setSearch searchLastDiscrepancy searchLastDeviceFlag] in IH. rewrite <- app_assoc in IH. specialize (IH Hb' ltac:(rewrite app_length, Hd; apply Nat.add_1_r) (len_write _ dir act Hl) (linked_search _ _ _ _ _ _ _ _ K3) HL).
      rewrite N3 in IH. fold v. fold dir.
      destruct (asearch k (Z.of_nat i + 1 + 1) (searchLastDiscrepancy d + 1) prev (write_bit dir act)) as [[p r]|]; [|exact Logic.I].
      destruct IH as (h' & rom' & E & R' & Bt & act' & K').
      exists h', rom'. split; [|split; [exact R'|split; [rewrite Bt, <- app_assoc; reflexivity|exists act'; exact K']]].
      rewrite E. change (setSearch (setSearch d rom1 (searchLastDiscrepancy d) (searchLastDeviceFlag d)) rom' (searchLastDiscrepancy d) (searchLastDeviceFlag d)) with (setSearch d rom' (searchLastDiscrepancy d) (searchLastDeviceFlag d)). do 3 f_equal.
      destruct (Z.eqb_spec r 0) as [->|NR]; [|replace (r =? 0) with false by (symmetry; apply Z.eqb_neq; exact NR); reflexivity].
      unfold lz1. rewrite !negb_involutive. destruct (has false act && has true act && negb dir); [|reflexivity]. rewrite N4. symmetry. apply Z.add_simpl_r.
  Qed.
  Definition below (r : Z) : Z := if r =? 0 then 0 else r - 1.
  Lemma call_ok h d l pull cfg p r : devs <> [] -> len 64 devs -> searchLastDeviceFlag d = false -> rom_ok (searchAddress d) -> 0 <= searchLastDiscrepancy d -> linked addr h d l pull cfg ->
    asearch 64 1 (searchLastDiscrepancy d + 1) (rom_bits (searchAddress d)) devs = Some (p, r) ->
    exists h' rom l' cfg', rom_ok rom /\ rom_bits rom = p /\ wireSearch w n h d = Done (h', setSearch d rom (below r) (below r =? 0), Some rom) /\ linked addr h' (setSearch d rom (below r) (below r =? 0)) l' false cfg'.
  Proof.
    intros Hne Hl Hf Hr HL K Ha. unfold wireSearch. rewrite Hf.
    pose proof (reset_ok x addr m HA Hprompt h d _ _ _ K) as RS.
    assert (ER : reset x (freed x l pull) = (Hears [], (true, false))) by (cbn [x attached reset]; destruct devs; [congruence|reflexivity]). rewrite ER in RS. destruct RS as (h1 & d1 & E1 & -> & K1). fold w n in E1. rewrite E1. cbn [bind negb].
    destruct (wait_linked x addr m HA h1 d _ _ _ K1) as (h2 & s2 & E2 & K2 & _). fold w n in E2. rewrite E2. cbn [bind].
    destruct (write_byte_ok x addr m HA Hprompt h2 d _ _ _ false WIRE_COMMAND_SEARCH K2) as (h3 & E3 & K3). fold w n in E3. rewrite E3. cbn [bind].
    assert (ES : fst (slots x (freed x (Hears []) false) (bits_of WIRE_COMMAND_SEARCH)) = First devs) by reflexivity. rewrite ES in K3. rewrite kept_asked in K3. cbn [kept] in K3.
    destruct (spu_off cfg (l_range _ _ _ _ _ _ K)) as (_ & _ & T2). unfold boosted in K3. rewrite T2 in K3.
    pose proof (loop_ok 64 0 h3 d 0 devs [] (rom_bits (searchAddress d)) _ eq_refl Hr eq_refl eq_refl Hl K3 HL) as LP. change (Z.of_nat 0 + 1) with 1 in LP. rewrite Ha in LP. destruct LP as (h4 & rom & E4 & R4 & B4 & act' & K4).
    exists h4, rom, (First act'), (Z.land cfg 11). split; [exact R4|]. split; [exact B4|]. fold w n. rewrite E4. cbn [bind]. cbn [searchLastDeviceFlag setSearch searchAddress]. rewrite Hf. cbn [orb]. fold (below r). split; [reflexivity|].
    apply linked_search with (a := rom) (ld := below r) (f := below r =? 0) in K4. exact K4.
  Qed.
End Search.

(** ** Enumeration *)
Lemma ones_reached roms : Forall rom_ok roms -> map rom_bits (filter (fun r => Z.odd (rd r 0)) roms) = ones (map rom_bits roms).
Proof.
  induction 1 as [|r roms [L _] _ IH]; [reflexivity|]. destruct r as [|b r]; [discriminate|].
  assert (E : exists t, rom_bits (b :: r) = Z.odd b :: t) by (eexists; unfold rom_bits; cbn [flat_map byte_bits map app]; rewrite Z.bit0_odd; reflexivity). destruct E as [t E].
  unfold ones in *. cbn [map filter]. rewrite E. change (rd (b :: r) 0) with b. destruct (Z.odd b); cbn [map]; rewrite ?E; [f_equal|]; exact IH.
Qed.
Lemma has_first (v : bool) roms : Forall rom_ok roms -> has v (map rom_bits roms) = existsb (fun r => Bool.eqb (Z.odd (rd r 0)) v) roms.
Proof.
  intros H. destruct (existsb (fun r => Bool.eqb (Z.odd (rd r 0)) v) roms) eqn:E.
  - apply existsb_exists in E. destruct E as (r & I & E). apply eqb_prop in E. apply has_iff. pose proof (proj1 (Forall_forall _ _) H r I) as [L _]. destruct r as [|b r]; [discriminate|]. exists (map (Z.testbit b) [1; 2; 3; 4; 5; 6; 7] ++ rom_bits r). apply in_map_iff. exists (b :: r). split; [|exact I]. cbn [rd nth] in E. unfold rom_bits. cbn [flat_map byte_bits map app]. rewrite Z.bit0_odd, E. reflexivity.
  - destruct (has v (map rom_bits roms)) eqn:F; [|reflexivity]. apply has_iff in F. destruct F as (dd & I). apply in_map_iff in I. destruct I as (r & Eq & I). pose proof (proj1 (Forall_forall _ _) H r I) as [L _]. destruct r as [|b r]; [discriminate|].
    assert (X : existsb (fun r => Bool.eqb (Z.odd (rd r 0)) v) roms = true); [|congruence]. apply existsb_exists. exists (b :: r). split; [exact I|]. cbn [rd nth]. unfold rom_bits in Eq. cbn [flat_map byte_bits map app] in Eq. injection Eq as Eq _. rewrite Z.bit0_odd in Eq. rewrite Eq. apply eqb_reflx.
Qed.
Lemma even_odd roms : existsb (fun r : list Z => Z.even (rd r 0)) roms = existsb (fun r => Bool.eqb (Z.odd (rd r 0)) false) roms.
Proof. induction roms as [|r roms IH]; [reflexivity|]. cbn [existsb]. rewrite IH, <- Z.negb_odd. destruct (Z.odd (rd r 0)); reflexivity. Qed.
Lemma odd_odd roms : existsb (fun r : list Z => Z.odd (rd r 0)) roms = existsb (fun r => Bool.eqb (Z.odd (rd r 0)) true) roms.
Proof. induction roms as [|r roms IH]; [reflexivity|]. cbn [existsb]. rewrite IH. destruct (Z.odd (rd r 0)); reflexivity. Qed.
(** the two cases *)
Lemma reached_cases roms : Forall rom_ok roms ->
  (has false (map rom_bits roms) = true /\ has true (map rom_bits roms) = true /\ map rom_bits (reached roms) = ones (map rom_bits roms)) \/ (forced (map rom_bits roms) /\ reached roms = roms).
Proof.
  intros H. unfold reached. rewrite even_odd, odd_odd, <- !has_first by exact H. destruct (has false (map rom_bits roms)) eqn:E0, (has true (map rom_bits roms)) eqn:E1; cbn [andb].
  - left. split; [reflexivity|]. split; [reflexivity|]. apply ones_reached. exact H.
  - right. split; [right; exact E1|reflexivity].
  - right. split; [left; exact E0|reflexivity].
  - right. split; [left; exact E0|reflexivity].
Qed.
Lemma reached_in roms r : In r (reached roms) -> In r roms.
Proof. unfold reached. destruct (_ && _); [|auto]. intros I. apply filter_In in I. tauto. Qed.
Lemma reached_ok roms : Forall rom_ok roms -> Forall rom_ok (reached roms).
Proof. intros H. apply Forall_forall. intros r I. apply reached_in in I. exact (proj1 (Forall_forall _ _) H r I). Qed.
Lemma reached_nodup roms : NoDup roms -> NoDup (reached roms).
Proof. intros H. unfold reached. destruct (_ && _); [apply NoDup_filter|]; exact H. Qed.
Lemma reached_forced roms : Forall rom_ok roms -> forced (map rom_bits (reached roms)).
Proof. intros H. destruct (reached_cases roms H) as [(_ & _ & ->)|(F & ->)]; [left; apply has_ones|exact F]. Qed.
Lemma reached_some roms : Forall rom_ok roms -> roms <> [] -> reached roms <> [].
Proof.
  intros H N E. destruct (reached_cases roms H) as [(_ & T & M)|(_ & R)]; [|congruence]. rewrite E in M. cbn [map] in M. apply has_iff in T. destruct T as (dd & I). assert (J : In (true :: dd) (ones (map rom_bits roms))) by (apply filter_In; split; [exact I|reflexivity]). rewrite <- M in J. destruct J.
Qed.
(** the search sees the devices that can be reached *)
Lemma asearch_reached roms ld prev : Forall rom_ok roms -> 1 <= ld -> (1 < ld -> exists r, In r (reached roms) /\ prev = rom_bits r) -> asearch 64 1 ld prev (map rom_bits roms) = asearch 64 1 ld prev (map rom_bits (reached roms)).
Proof.
  intros H L P. destruct (reached_cases roms H) as [(E0 & E1 & M)|(_ & ->)]; [|reflexivity]. rewrite M. apply asearch_ones; auto. intros G. destruct (P G) as (r & I & ->). assert (J : In (rom_bits r) (ones (map rom_bits roms))) by (rewrite <- M; apply in_map; exact I). apply filter_In in J. destruct J as [_ J]. destruct (rom_bits r) as [|b ?]; [discriminate|]. exact J.
Qed.
Section Enum.
  Context (addr : Z) (m : nat) (roms : list (list Z)) (nz : stage -> Z) (lv : stage -> bool) (tk : stage -> Z -> nat).
  Hypothesis HA : 0 <= addr < 128.
  Let x := attached (map rom_bits roms) nz lv tk.
  Hypothesis Hprompt : prompt x.
  Hypothesis Hok : Forall rom_ok roms.
  Hypothesis Hnd : NoDup roms.
  Hypothesis Hne : roms <> [].
  Let w := bridge x addr.
  Let n := Datatypes.S m.
  Let R := reached roms.
  Let devs := map rom_bits R.
  Lemma all_len : len 64 (map rom_bits roms).
  Proof. apply devs_len. exact Hok. Qed.
  Lemma all_some : map rom_bits roms <> [].
  Proof. destruct roms; [congruence|discriminate]. Qed.
  (** after a call that reported [r] *)
  Definition stands (h : hw (chip stage)) (d : drv) (r : list Z) : Prop :=
    (exists l pull cfg, linked addr h d l pull cfg) /\ searchAddress d = r /\ In r R /\ searchLastDiscrepancy d = below (lzero 1 devs (rom_bits r)) /\ searchLastDeviceFlag d = (below (lzero 1 devs (rom_bits r)) =? 0).
  Lemma below_zero r : In r R -> (below (lzero 1 devs (rom_bits r)) =? 0) = (lzero 1 devs (rom_bits r) =? 0).
  Proof.
    intros I. destruct (lzero_forced 1 devs (rom_bits r) ltac:(lia) (reached_forced roms Hok) (in_map rom_bits R r I)) as [E|G]; [rewrite E; reflexivity|]. unfold below. destruct (Z.eqb_spec (lzero 1 devs (rom_bits r)) 0) as [E|N]; [lia|]. apply Z.eqb_neq. lia.
  Qed.
  Let s_of (r : list Z) : search := mkSearch r (lzero 1 devs (rom_bits r)) 0 (lzero 1 devs (rom_bits r) =? 0).
  Lemma at_rom_of r : In r R -> at_rom R (s_of r) r.
  Proof. intros I. split; [reflexivity|]. split; [exact I|]. split; reflexivity. Qed.
  Lemma first_found h d l pull cfg : searchLastDeviceFlag d = false -> searchLastDiscrepancy d = 0 -> rom_ok (searchAddress d) -> linked addr h d l pull cfg ->
    exists r h' d', wireSearch w n h d = Done (h', d', Some r) /\ stands h' d' r /\ Permutation R (r :: above R r).
  Proof.
    intros Hf Hl Hr K. assert (Rok : Forall rom_ok R) by (apply reached_ok; exact Hok). assert (Dn : devs <> []). { unfold devs. pose proof (reached_some roms Hok Hne) as N. fold R in N. destruct R; [congruence|discriminate]. }
    destruct (asearch_fresh 64 1 0 (rom_bits (searchAddress d)) devs ltac:(lia) ltac:(lia) (devs_len R Rok) Dn) as (p & E1 & E2 & E3).
    rewrite (asearch_forced 63 1 0 1 _ devs (reached_forced roms Hok) ltac:(lia) ltac:(lia)) in E1.
    unfold devs in E1. unfold R in E1 at 1. rewrite <- (asearch_reached roms 1 _ Hok ltac:(lia) ltac:(lia)) in E1. fold devs in E1.
    assert (E1' : asearch 64 1 (searchLastDiscrepancy d + 1) (rom_bits (searchAddress d)) (map rom_bits roms) = Some (p, lzero 1 devs p)) by (rewrite Hl; exact E1).
    destruct (call_ok addr m (map rom_bits roms) nz lv tk HA Hprompt h d l pull cfg p _ all_some all_len Hf Hr ltac:(lia) K E1') as (h' & rom & l' & cfg' & F1 & F2 & F3 & F4).
    subst p. assert (I : In rom R) by (apply (in_devs R Rok); assumption). exists rom, h'. eexists. split; [exact F3|]. split.
    - split; [exists l', false, cfg'; exact F4|]. split; [reflexivity|]. split; [exact I|]. split; reflexivity.
    - apply (perm_next R Rok (reached_nodup roms Hnd) R rom I (reached_nodup roms Hnd)); [| |exact I].
      + intros q Hq. split; [exact Hq|]. apply E3. apply in_map. exact Hq.
      + intros q Hq. apply filter_In in Hq. tauto.
  Qed.
  Lemma next_found h d r : stands h d r -> above R r <> [] -> exists r' h' d', wireSearch w n h d = Done (h', d', Some r') /\ stands h' d' r' /\ Permutation (above R r) (r' :: above R r').
  Proof.
    intros ((l & pull & cfg & K) & A1 & A2 & A3 & A4) Hna. assert (Rok : Forall rom_ok R) by (apply reached_ok; exact Hok).
    assert (NZ : lzero 1 devs (rom_bits r) <> 0). { intros E. apply Hna. apply (above_nil R Rok (s_of r)); [apply at_rom_of; exact A2|]. cbn [s_of bLastDeviceFlag]. rewrite E. reflexivity. }
    rewrite (below_zero r A2), (proj2 (Z.eqb_neq _ _) NZ) in A4.
    pose proof (lzero_forced 1 devs (rom_bits r) ltac:(lia) (reached_forced roms Hok) (in_map rom_bits R r A2)) as LF. assert (LD : searchLastDiscrepancy d + 1 = lzero 1 devs (rom_bits r)). { rewrite A3. unfold below. rewrite (proj2 (Z.eqb_neq _ _) NZ). apply Z.sub_add. }
    assert (Hr : rom_ok (searchAddress d)) by (rewrite A1; exact (proj1 (Forall_forall _ _) Rok r A2)).
    destruct (asearch_next 64 1 (lzero 1 devs (rom_bits r)) (rom_bits r) devs ltac:(lia) (devs_len R Rok) (in_map rom_bits R r A2) eq_refl NZ) as (p & E1 & E2 & E3 & E4).
    unfold devs in E1 at 2. unfold R in E1 at 1. rewrite <- (asearch_reached roms _ _ Hok) in E1; [|fold R devs; lia|intros _; exists r; split; [exact A2|reflexivity]].
    assert (E1' : asearch 64 1 (searchLastDiscrepancy d + 1) (rom_bits (searchAddress d)) (map rom_bits roms) = Some (p, lzero 1 devs p)) by (rewrite LD, A1; exact E1).
    destruct (call_ok addr m (map rom_bits roms) nz lv tk HA Hprompt h d l pull cfg p _ all_some all_len A4 Hr ltac:(lia) K E1') as (h' & rom & l' & cfg' & F1 & F2 & F3 & F4).
    subst p. assert (I : In rom R) by (apply (in_devs R Rok); assumption). exists rom, h'. eexists. split; [exact F3|]. split.
    - split; [exists l', false, cfg'; exact F4|]. split; [reflexivity|]. split; [exact I|]. split; reflexivity.
    - apply (perm_next R Rok (reached_nodup roms Hnd) (above R r) rom I (NoDup_above R (reached_nodup roms Hnd) r)).
      + intros q Hq. apply filter_In in Hq. destruct Hq as [Q1 Q2]. split; [exact Q1|]. apply E4; [apply in_map; exact Q1|exact Q2].
      + intros q Hq. apply filter_In in Hq. destruct Hq as [Q1 Q2]. apply filter_In. split; [exact Q1|]. eapply blt_trans; eassumption.
      + apply filter_In. split; assumption.
  Qed.
  Lemma finds_done k h d : searchLastDeviceFlag d = true -> finds w n k h d = Done (h, d, repeat None k).
  Proof. intros F. induction k as [|k IH]; cbn [finds repeat]; [reflexivity|]. unfold wireSearch at 1. rewrite F, IH. reflexivity. Qed.
  Lemma finds_rest k : forall h d r, stands h d r -> length (above R r) = k -> exists l h' d', finds w n k h d = Done (h', d', map Some l) /\ Permutation l (above R r) /\ searchLastDeviceFlag d' = true.
  Proof.
    induction k as [|k IH]; intros h d r A L.
    - exists [], h, d. split; [reflexivity|]. destruct (above R r) eqn:E; [|discriminate]. split; [constructor|]. destruct A as (_ & _ & A2 & _ & A4). rewrite A4, (below_zero r A2). apply (above_nil R (reached_ok roms Hok) (s_of r) r); [apply at_rom_of; exact A2|exact E].
    - destruct (next_found h d r A) as (r' & h' & d' & E1 & E2 & E3); [intros X; rewrite X in L; discriminate|].
      apply Permutation_length in E3 as E4. cbn [length] in E4. destruct (IH h' d' r' E2) as (l & h2 & d2 & F1 & F2 & F3); [lia|].
      exists (r' :: l), h2, d2. cbn [finds map]. rewrite E1, F1. split; [reflexivity|]. split; [|exact F3]. etransitivity; [|symmetry; exact E3]. constructor. exact F2.
  Qed.
  Lemma finds_all h d l pull cfg : searchLastDeviceFlag d = false -> searchLastDiscrepancy d = 0 -> rom_ok (searchAddress d) -> linked addr h d l pull cfg ->
    exists l h' d', finds w n (length R) h d = Done (h', d', map Some l) /\ Permutation l R /\ forall k, finds w n k h' d' = Done (h', d', repeat None k).
  Proof.
    intros H1 H2 H3 K. destruct (first_found h d l pull cfg H1 H2 H3 K) as (r & h1 & d1 & E1 & E2 & E3). apply Permutation_length in E3 as E4. cbn [length] in E4.
    destruct (finds_rest (length (above R r)) h1 d1 r E2 eq_refl) as (l0 & h2 & d2 & F1 & F2 & F3). exists (r :: l0), h2, d2.
    rewrite E4. cbn [finds map]. rewrite E1, F1. split; [reflexivity|]. split.
    - etransitivity; [|symmetry; exact E3]. constructor. exact F2.
    - intros k. apply finds_done. exact F3.
  Qed.
End Enum.
