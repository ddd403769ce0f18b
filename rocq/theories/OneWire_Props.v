(** Property theorems C52, C62: the one-wire ROM search *)
From Verif Require Import Base Bits OneWire_Model OneWire_Spec OneWire_Proofs.

(** ** C52: Repeated search calls report every device on the bus exactly once, then no more.
    For any set of devices with distinct 8-byte ROM codes of family code other than 0: the first calls, as many as there are
    devices, all succeed and their addresses are a permutation of the devices' addresses; every further call fails. *)
Theorem C52_search_complete roms : Forall rom_ok roms -> NoDup roms -> Forall (fun r => rd r 0 <> 0) roms -> roms <> [] ->
  exists l s, searches (length roms) (map rom_bits roms) resetSearch = Some (map (fun x => (true, Some x)) l, s) /\ Permutation l roms /\
    forall n, searches n (map rom_bits roms) s = Some (repeat (false, None) n, s).
Proof.
  intros H1 H2 H3 H4. apply searches_all; auto. split; [reflexivity|]. apply Forall_forall. intros x Hx. apply repeat_spec in Hx. subst. red; lia.
Qed.
Print Assumptions C52_search_complete.
(** with no device on the bus every call fails *)
Theorem C52_search_empty n : exists s, searches n [] resetSearch = Some (repeat (false, None) n, s).
Proof.
  assert (G : forall s, ROM_NO s = repeat 0 8 -> bLastDeviceFlag s = false -> exists s', searches n [] s = Some (repeat (false, None) n, s')).
  { induction n as [|m IH]; intros s H1 H2; cbn [searches repeat]; [eauto|]. unfold oneWireSearch. rewrite H2. cbn [present negb].
    destruct (IH (mkSearch (ROM_NO s) 0 0 false)) as [s' E]; auto. rewrite E. eauto. }
  apply G; reflexivity.
Qed.
Print Assumptions C52_search_empty.
(** After the last device was reported, a reset starts the same enumeration again; the state before the reset does not matter,
    since the reset overwrites all of it.  (The set-up function performs the same reset.) *)

(** Missing from the unrestricted claim: a device with family code 0 is never reported, and the search then never ends. *)
Theorem C52_family_zero_refuted : exists roms, Forall rom_ok roms /\ NoDup roms /\ roms <> [] /\
  forall n, exists s, searches n (map rom_bits roms) resetSearch = Some (repeat (true, None) n, s).
Proof.
  exists [[0; 1; 0; 0; 0; 0; 0; 0]]. split; [|split; [|split; [discriminate|]]].
  - constructor; [|constructor]. split; [reflexivity|]. repeat (apply Forall_cons; [red; lia|]). apply Forall_nil.
  - constructor; [intros []|constructor].
  - intros n. assert (G : forall s, ROM_NO s = repeat 0 8 \/ ROM_NO s = [0; 1; 0; 0; 0; 0; 0; 0] -> LastDiscrepancy s = 0 -> LastFamilyDiscrepancy s = 0 -> bLastDeviceFlag s = false ->
      exists s', searches n (map rom_bits [[0; 1; 0; 0; 0; 0; 0; 0]]) s = Some (repeat (true, None) n, s')).
    { induction n as [|m IH]; intros [rom ld lfd fl] H1 H2 H3 H4; cbn [searches repeat]; [eauto|]. cbn [ROM_NO LastDiscrepancy LastFamilyDiscrepancy bLastDeviceFlag] in *. subst ld lfd fl.
      assert (E : oneWireSearch (map rom_bits [[0; 1; 0; 0; 0; 0; 0; 0]]) (mkSearch rom 0 0 false) = Some (true, None, mkSearch [0; 1; 0; 0; 0; 0; 0; 0] 0 0 false)).
      { destruct H1 as [-> | ->]; vm_compute; reflexivity. }
      rewrite E. destruct (IH (mkSearch [0; 1; 0; 0; 0; 0; 0; 0] 0 0 false)) as [s' E']; auto. rewrite E'. eauto. }
    apply G; auto.
Qed.
Print Assumptions C52_family_zero_refuted.

Definition ex_roms : list (list Z) :=
  [[40; 255; 1; 2; 3; 4; 5; 6]; [40; 255; 1; 2; 3; 4; 5; 7]; [16; 1; 0; 0; 0; 0; 0; 9]; [34; 128; 128; 0; 7; 0; 0; 200]].
Example C52_example_hyps : Forall rom_ok ex_roms /\ NoDup ex_roms /\ Forall (fun r => rd r 0 <> 0) ex_roms /\ ex_roms <> [].
Proof.
  split; [|split; [|split]]; [| | |discriminate].
  - unfold ex_roms. repeat (apply Forall_cons; [split; [reflexivity|repeat (apply Forall_cons; [red; lia|]); apply Forall_nil]|]). apply Forall_nil.
  - unfold ex_roms. repeat (constructor; [cbn; intuition discriminate|]). constructor.
  - unfold ex_roms. repeat (apply Forall_cons; [cbn; discriminate|]). apply Forall_nil.
Qed.
Example C52_example : option_map fst (searches 6 (map rom_bits ex_roms) resetSearch) =
  Some [(true, Some [16; 1; 0; 0; 0; 0; 0; 9]); (true, Some [40; 255; 1; 2; 3; 4; 5; 6]); (true, Some [40; 255; 1; 2; 3; 4; 5; 7]);
        (true, Some [34; 128; 128; 0; 7; 0; 0; 200]); (false, None); (false, None)].
Proof. vm_compute. reflexivity. Qed.

(** ** C62: After selecting a family, the next search call reports a device of that family if there is one on the bus. *)
Theorem C62_target_search roms f : Forall rom_ok roms -> NoDup roms -> Forall (fun r => rd r 0 <> 0) roms -> is_byte f -> f <> 0 ->
  (exists r, In r roms /\ rd r 0 = f) ->
  exists r s, oneWireSearch (map rom_bits roms) (targetSearch f) = Some (true, Some r, s) /\ In r roms /\ rd r 0 = f.
Proof. intros H1 H2 H3 H4 H5 (r & H6 & H7). exact (target_found roms H1 H2 H3 f r H4 H5 H6 H7). Qed.
Print Assumptions C62_target_search.
Example C62_example : option_map fst (oneWireSearch (map rom_bits ex_roms) (targetSearch 34)) = Some (true, Some [34; 128; 128; 0; 7; 0; 0; 200]).
Proof. vm_compute. reflexivity. Qed.
(** If there is none, a device of another family may be reported: the caller has to check the family code. *)
Example C62_example_absent : option_map fst (oneWireSearch (map rom_bits ex_roms) (targetSearch 41)) = Some (true, Some [40; 255; 1; 2; 3; 4; 5; 6]).
Proof. vm_compute. reflexivity. Qed.
