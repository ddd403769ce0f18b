(** C110: the 1-Wire bus at the pin *)
From Verif Require Import Wire_Bytes.

(** A line with two temperature sensors; every operation takes 0.2 us. *)
Definition ex_world (r : bool) : world := {| lag := fun _ => 200; holdTime := fun k => if Nat.even k then 15000 else 40000; presenceAfter := fun _ => 30000; presenceFor := fun _ => 100000; resistor := r; shorted := false; latchIn := false |}.
Definition ex_roms : list (list Z) := [[40; 255; 1; 2; 3; 4; 5; 6]; [40; 254; 1; 2; 3; 4; 5; 200]].
Definition ex_line (p : phase) : line (list slave) := mkLine false true true 1000000 0 0 500000 (0, 0) (map (fun r => mkSlave (rom_bits r) (flat_map byte_bits [0x50; 0x05; 0x4B; 0x46; 0x7F; 0xFF; 0x0C; 0x10; 0x1C]) 0 p) ex_roms) true.
Lemma ex_legal r : legal (ex_world r).
Proof. split; [intros; cbn; lia|]. split; [intros k; cbn; destruct (Nat.even k); lia|]. split; intros; cbn; lia. Qed.
Lemma ex_quick r : quick (ex_world r). Proof. intros k. cbn. lia. Qed.
Lemma ex_rest p : atRest (ex_line p). Proof. split; [reflexivity|]. cbn. lia. Qed.

(** ** Bits *)
Theorem C110_write_bit B (d : devices B) wd x l : legal wd -> quick wd -> atRest l ->
  atRest (OneWireWriteBit (gpio d wd) x l) /\ bus (OneWireWriteBit (gpio d wd) x l) = writeSlot d (Z.odd x) (bus l) /\ pinIrq (OneWireWriteBit (gpio d wd) x l) = true.
Proof. intros H1 H2 H3. destruct (write_bit_rest d wd H1 H2 x l H3) as (A & C & _ & _ & E). auto. Qed.
Print Assumptions C110_write_bit.
Example C110_write_bit_example : let l := ex_line (Direction [true; false]) in atRest l /\
  map ph (bus (OneWireWriteBit (gpio search_devices (ex_world true)) 1 l)) = [SendBit [false]; SendBit [false]] /\ map ph (bus (OneWireWriteBit (gpio search_devices (ex_world true)) 0 l)) = [Silent; Silent].
Proof. split; [apply ex_rest|]. vm_compute. split; reflexivity. Qed.

Theorem C110_read_bit B (d : devices B) wd l : legal wd -> quick wd -> shorted wd = false -> atRest l ->
  atRest (fst (OneWireReadBit (gpio d wd) l)) /\ (bus (fst (OneWireReadBit (gpio d wd) l)), snd (OneWireReadBit (gpio d wd) l)) = readSlot d (bus l) /\ pinIrq (fst (OneWireReadBit (gpio d wd) l)) = true.
Proof. intros H1 H2 H3 H4. exact (read_bit_rest d wd H1 H2 l H3 H4). Qed.
Print Assumptions C110_read_bit.
Example C110_read_bit_example : let w := gpio search_devices (ex_world true) in
  snd (OneWireReadBit w (ex_line (SendBit [false; true]))) = false /\ snd (OneWireReadBit w (ex_line (SendBit [true; true]))) = true /\
  map ph (bus (fst (OneWireReadBit w (ex_line (SendBit [false; true]))))) = [SendComplement [false; true]; SendComplement [false; true]] /\ snd (OneWireReadBit w (ex_line Silent)) = true.
Proof. vm_compute. repeat split; reflexivity. Qed.

(** Only the interrupt of the pin is disabled, not the others: an interrupt routine of 20 us at the wrong moment, and a 0 is read as 1, a 1 written is none. *)
Definition slow_world : world := {| lag := fun k => if (k =? 4)%nat then 20000 else 100; holdTime := fun _ => 15000; presenceAfter := fun _ => 30000; presenceFor := fun _ => 100000; resistor := true; shorted := false; latchIn := false |}.
Theorem C110_interrupted_refuted : exists wd l1 l2, legal wd /\ shorted wd = false /\ atRest l1 /\ atRest l2 /\
  snd (readSlot search_devices (bus l1)) = false /\ snd (OneWireReadBit (gpio search_devices wd) l1) = true /\
  bus (OneWireWriteBit (gpio search_devices wd) 1 l2) <> writeSlot search_devices true (bus l2).
Proof.
  exists slow_world, (ex_line (SendBit [false; true])), (mkLine false true true 1000000 1 0 500000 (0, 0) (bus (ex_line (Direction [true]))) true).
  split. { split; [intros k; cbn; destruct (k =? 4)%nat; lia|]. repeat split; intros; cbn; lia. }
  split; [reflexivity|]. split; [apply ex_rest|]. split; [split; [reflexivity|cbn; lia]|]. vm_compute. split; [reflexivity|]. split; [reflexivity|]. discriminate.
Qed.
Print Assumptions C110_interrupted_refuted.

(** ** Reset *)
Theorem C110_reset B (d : devices B) wd l : legal wd -> quick wd -> shorted wd = false -> atRest l ->
  atRest (fst (OneWireReset (gpio d wd) l)) /\ (bus (fst (OneWireReset (gpio d wd) l)), snd (OneWireReset (gpio d wd) l)) = onReset d (bus l) /\ pinIrq (fst (OneWireReset (gpio d wd) l)) = true.
Proof.
  intros H1 H2 H3 H4. destruct (reset_any d wd H1 H2 l H3) as (b & T & R & S1 & I1); [apply H4|destruct H4 as (_ & _ & A); lia|]. destruct H4 as (_ & A & _). destruct T as [_ T]. rewrite (T A) in S1. auto.
Qed.
Print Assumptions C110_reset.
Example C110_reset_example : let w := gpio search_devices (ex_world true) in snd (OneWireReset w (ex_line Silent)) = true /\ map ph (bus (fst (OneWireReset w (ex_line Silent)))) = [Command []; Command []] /\
  snd (OneWireReset w (mkLine true false true 1000000 0 0 500000 (0, 0) [] true)) = false.
Proof. vm_compute. repeat split; reflexivity. Qed.
(** from any state in which the master does not pull the line low itself and the devices let it go within 240 us: the reset is one, of the devices as they were or as the violated timing left them *)
Theorem C110_reset_recovers B (d : devices B) wd l : legal wd -> quick wd -> shorted wd = false -> low l = false -> snd (hold l) < now l + 240000 ->
  exists b, (b = bus l \/ b = upset d (bus l)) /\ atRest (fst (OneWireReset (gpio d wd) l)) /\ (bus (fst (OneWireReset (gpio d wd) l)), snd (OneWireReset (gpio d wd) l)) = onReset d b.
Proof. intros H1 H2 H3 H4 H5. destruct (reset_any d wd H1 H2 l H3 H4 H5) as (b & [T _] & R & S1 & _). exists b. auto. Qed.
Print Assumptions C110_reset_recovers.
Example C110_reset_recovers_example : let l := mkLine false true false 1000000 0 990000 1051000 (990000, 1200000) (bus (ex_line Silent)) false in ~ atRest l /\
  snd (OneWireReset (gpio search_devices (ex_world true)) l) = true /\ map ph (bus (fst (OneWireReset (gpio search_devices (ex_world true)) l))) = [Command []; Command []].
Proof. split; [intros (_ & H & _); cbn in H; lia|]. vm_compute. split; reflexivity. Qed.
(** A shorted line: no device reported, after 248 us at least; nothing happens to the devices. *)
Theorem C110_shorted_partial B (d : devices B) wd l : legal wd -> shorted wd = true -> low l = false ->
  snd (OneWireReset (gpio d wd) l) = false /\ bus (fst (OneWireReset (gpio d wd) l)) = bus l /\ now l + 248000 <= now (fst (OneWireReset (gpio d wd) l)).
Proof. intros H1 H2 H3. destruct (reset_short d wd H1 l H2 H3) as (A & C & _ & E). auto. Qed.
Print Assumptions C110_shorted_partial.
(** Missing: the interrupt of the pin is enabled again, as after every other call. It never is. *)
Theorem C110_shorted_refuted B (d : devices B) wd l : legal wd -> shorted wd = true -> low l = false -> pinIrq (fst (OneWireReset (gpio d wd) l)) = false.
Proof. intros H1 H2 H3. apply (reset_short d wd H1 l H2 H3). Qed.
Print Assumptions C110_shorted_refuted.
Definition short_world : world := {| lag := fun _ => 200; holdTime := fun _ => 15000; presenceAfter := fun _ => 30000; presenceFor := fun _ => 100000; resistor := true; shorted := true; latchIn := true |}.
Example C110_shorted_example : legal short_world /\ low (ex_line Silent) = false /\ pinIrq (ex_line Silent) = true /\ snd (OneWireReset (gpio search_devices short_world) (ex_line Silent)) = false /\
  pinIrq (fst (OneWireReset (gpio search_devices short_world) (ex_line Silent))) = false.
Proof. split; [repeat split; intros; cbn; lia|]. vm_compute. repeat split; reflexivity. Qed.

(** ** Bytes.  Unless the line stays powered, a resistor at the line is needed. *)
Theorem C110_write_partial B (d : devices B) wd parasite v l : legal wd -> quick wd -> atRest l -> parasite || resistor wd = true ->
  atRest (OneWireWrite (gpio d wd) parasite v l) /\ bus (OneWireWrite (gpio d wd) parasite v l) = writeByte d v (bus l) /\ pinIrq (OneWireWrite (gpio d wd) parasite v l) = true.
Proof. intros H1 H2 H3 H4. exact (write_rest d wd H1 H2 parasite v l H3 H4). Qed.
Print Assumptions C110_write_partial.
Example C110_write_example : map ph (bus (OneWireWrite (gpio search_devices (ex_world true)) false 0x35 (ex_line (Command [])))) = [Silent; Silent] /\
  map ph (bus (OneWireWrite (gpio search_devices (ex_world false)) true 0xF0 (ex_line (Command [])))) = [SendBit (rom_bits [40; 255; 1; 2; 3; 4; 5; 6]); SendBit (rom_bits [40; 254; 1; 2; 3; 4; 5; 200])].
Proof. vm_compute. split; reflexivity. Qed.
(** Missing: the same with the internal pull-up alone, as the header has it. The pull-up is switched off after every byte: nothing holds the line high. *)
Theorem C110_no_resistor_refuted : exists wd l, legal wd /\ quick wd /\ shorted wd = false /\ atRest l /\
  bus (OneWireWrite (gpio search_devices wd) false 0xF0 l) <> writeByte search_devices 0xF0 (bus l).
Proof. exists (ex_world false), (ex_line (Command [])). split; [apply ex_legal|]. split; [apply ex_quick|]. split; [reflexivity|]. split; [apply ex_rest|]. vm_compute. discriminate. Qed.
Print Assumptions C110_no_resistor_refuted.

Theorem C110_write_bytes_partial B (d : devices B) wd parasite buf l : legal wd -> quick wd -> atRest l -> parasite || resistor wd = true ->
  atRest (OneWireWriteBytes (gpio d wd) parasite buf l) /\ bus (OneWireWriteBytes (gpio d wd) parasite buf l) = fold_left (fun b v => writeByte d v b) buf (bus l).
Proof. intros H1 H2 H3 H4. exact (write_bytes_rest d wd H1 H2 parasite buf l H3 H4). Qed.
Print Assumptions C110_write_bytes_partial.
Theorem C110_select_partial B (d : devices B) wd parasite rom l : legal wd -> quick wd -> atRest l -> parasite || resistor wd = true -> length rom = 8%nat ->
  atRest (OneWireSelect (gpio d wd) parasite rom l) /\ bus (OneWireSelect (gpio d wd) parasite rom l) = fold_left (fun b v => writeByte d v b) (0x55 :: rom) (bus l).
Proof.
  intros H1 H2 H3 H4 H5. do 8 (destruct rom as [|? rom]; [discriminate|]). destruct rom; [|discriminate].
  match goal with |- atRest (OneWireSelect _ _ ?r _) /\ _ => destruct (writes_rest d wd H1 H2 parasite (0x55 :: r) H4 l H3) as (A & C & _); split; [exact A|exact C] end.
Qed.
Print Assumptions C110_select_partial.
Theorem C110_skip_partial B (d : devices B) wd parasite l : legal wd -> quick wd -> atRest l -> parasite || resistor wd = true ->
  atRest (OneWireSkip (gpio d wd) parasite l) /\ bus (OneWireSkip (gpio d wd) parasite l) = writeByte d 0xCC (bus l).
Proof. intros H1 H2 H3 H4. destruct (write_rest d wd H1 H2 parasite 0xCC l H3 H4) as (A & C & _). auto. Qed.
Print Assumptions C110_skip_partial.
(** A device that records what is written and then sends some bytes *)
Definition recorder : devices (list bool * list bool) :=
  {| onReset := fun b => (([], snd b), true); onWrite := fun v b => (fst b ++ [v], snd b); sends := fun b => if (length (fst b) <? 8)%nat then None else match snd b with [] => None | x :: _ => Some x end;
     sent := fun b => (fst b, List.tl (snd b)); upset := fun b => ([], []) |}.
Definition ex_recorder (got toSend : list bool) : line (list bool * list bool) := mkLine false true true 1000000 0 0 500000 (0, 0) (got, toSend) true.
Example C110_bytes_example : let w := gpio recorder (ex_world true) in
  fst (bus (OneWireWriteBytes w false [0x12; 0xE0] (ex_recorder [] []))) = byte_bits 0x12 ++ byte_bits 0xE0 /\
  fst (bus (OneWireSelect w false [40; 255; 1; 2; 3; 4; 5; 6] (ex_recorder [] []))) = flat_map byte_bits [0x55; 40; 255; 1; 2; 3; 4; 5; 6] /\
  fst (bus (OneWireSkip w false (ex_recorder [] []))) = byte_bits 0xCC.
Proof. vm_compute. repeat split; reflexivity. Qed.

Theorem C110_read B (d : devices B) wd l : legal wd -> quick wd -> shorted wd = false -> atRest l ->
  atRest (fst (OneWireRead (gpio d wd) l)) /\ bus (fst (OneWireRead (gpio d wd) l)) = fst (readBits d 8 (bus l)) /\ snd (OneWireRead (gpio d wd) l) = value (snd (readBits d 8 (bus l))).
Proof. intros H1 H2 H3 H4. exact (read_rest d wd H1 H2 H3 l H4). Qed.
Print Assumptions C110_read.
Theorem C110_read_bytes B (d : devices B) wd n l : legal wd -> quick wd -> shorted wd = false -> atRest l ->
  atRest (fst (OneWireReadBytes (gpio d wd) n l)) /\ bus (fst (OneWireReadBytes (gpio d wd) n l)) = fst (readByteN d n (bus l)) /\ snd (OneWireReadBytes (gpio d wd) n l) = snd (readByteN d n (bus l)).
Proof. intros H1 H2 H3 H4. exact (read_bytes_rest d wd H1 H2 H3 n l H4). Qed.
Print Assumptions C110_read_bytes.
Example C110_read_example : let w := gpio recorder (ex_world false) in snd (OneWireRead w (ex_recorder (byte_bits 0xBE) (byte_bits 0x91))) = 0x91 /\
  snd (OneWireReadBytes w 3 (ex_recorder (byte_bits 0xBE) (flat_map byte_bits [0x50; 0x05]))) = [0x50; 0x05; 0xFF].
Proof. vm_compute. split; reflexivity. Qed.
Theorem C110_depower_partial B (d : devices B) wd l : legal wd -> atRest l -> resistor wd = true ->
  atRest (OneWireDePower (gpio d wd) l) /\ bus (OneWireDePower (gpio d wd) l) = bus l /\ out (OneWireDePower (gpio d wd) l) = false.
Proof. intros H1 H2 H3. exact (depower_rest d wd H1 l H2 H3). Qed.
Print Assumptions C110_depower_partial.
Example C110_depower_example : let l := OneWireWrite (gpio search_devices (ex_world true)) true 0x44 (ex_line (Command [])) in out l = true /\ out (OneWireDePower (gpio search_devices (ex_world true)) l) = false.
Proof. vm_compute. split; reflexivity. Qed.

(** ** The search on the line is the search of C52, C62. *)
Theorem C110_search_partial wd parasite q l n : legal wd -> quick wd -> shorted wd = false -> parasite || resistor wd = true -> atRest l -> Forall (fun s => length (code s) = n) (bus l) ->
  match oneWireSearch (map code (bus l)) q with
  | None => OneWireSearch (gpio search_devices wd) parasite q l = None
  | Some r => exists l', OneWireSearch (gpio search_devices wd) parasite q l = Some (l', r) /\ atRest l' /\ map code (bus l') = map code (bus l)
  end.
Proof.
  intros H1 H2 H3 H4 H5 H6. pose proof (search_call_line wd H1 H2 H3 parasite q l n H4 H5 H6) as G. unfold codes in G. destruct (oneWireSearch (map code (bus l)) q) as [r|]; [|exact G].
  destruct G as (l' & G1 & G2 & G3). exists l'. split; [exact G1|]. split; [exact G2|]. exact (idents_codes _ _ G3).
Qed.
Print Assumptions C110_search_partial.
(** every device is found once, and then none *)
Theorem C110_search_complete_partial wd parasite l roms : legal wd -> quick wd -> shorted wd = false -> parasite || resistor wd = true -> atRest l -> map code (bus l) = map rom_bits roms ->
  Forall rom_ok roms -> NoDup roms -> Forall (fun r => rd r 0 <> 0) roms -> roms <> [] ->
  exists found q l', lineSearches wd parasite (length roms) resetSearch l = Some (map (fun x => (true, Some x)) found, q, l') /\ Permutation found roms /\
    forall n, exists l'', lineSearches wd parasite n q l' = Some (repeat (false, None) n, q, l'').
Proof.
  intros H1 H2 H3 H4 H5 HC R1 R2 R3 R4. destruct (searches_all roms R1 R2 R3 resetSearch eq_refl eq_refl) as (f & s & E & Pm & Z0); auto.
  { split; [reflexivity|]. apply Forall_forall. intros x Hx. apply repeat_spec in Hx. subst. red; lia. }
  assert (HF : forall l0, map code (bus l0) = map rom_bits roms -> Forall (fun s => length (code s) = 64%nat) (bus l0)).
  { intros l0 E0. apply Forall_forall. intros x Hx. assert (HI : In (code x) (map code (bus l0))) by (apply in_map; exact Hx). rewrite E0 in HI. apply in_map_iff in HI. destruct HI as (r & <- & Hr).
    rewrite rom_bits_length. rewrite Forall_forall in R1. destruct (R1 r Hr) as [-> _]. reflexivity. }
  pose proof (line_searches wd H1 H2 H3 parasite 64 (length roms) H4 resetSearch l H5 (HF l HC)) as G. unfold codes in G. rewrite HC, E in G. destruct G as (l' & G1 & G2 & G3). apply idents_codes in G3. unfold codes in G3. rewrite HC in G3.
  exists f, s, l'. split; [exact G1|]. split; [exact Pm|]. intros n. pose proof (line_searches wd H1 H2 H3 parasite 64 n H4 s l' G2 (HF l' G3)) as G'. unfold codes in G'. rewrite G3, Z0 in G'.
  destruct G' as (l'' & G4 & _). eauto.
Qed.
Print Assumptions C110_search_complete_partial.
Theorem C110_target_search_partial wd parasite l roms f : legal wd -> quick wd -> shorted wd = false -> parasite || resistor wd = true -> atRest l -> map code (bus l) = map rom_bits roms ->
  Forall rom_ok roms -> NoDup roms -> Forall (fun r => rd r 0 <> 0) roms -> is_byte f -> f <> 0 -> (exists r, In r roms /\ rd r 0 = f) ->
  exists r q l', OneWireSearch (gpio search_devices wd) parasite (targetSearch f) l = Some (l', (true, Some r, q)) /\ In r roms /\ rd r 0 = f.
Proof.
  intros H1 H2 H3 H4 H5 HC R1 R2 R3 F1 F2 (r0 & F3 & F4). destruct (target_found roms R1 R2 R3 f r0 F1 F2 F3 F4) as (r & s & E & I1 & I2).
  assert (HF : Forall (fun s => length (code s) = 64%nat) (bus l)).
  { apply Forall_forall. intros x Hx. assert (HI : In (code x) (map code (bus l))) by (apply in_map; exact Hx). rewrite HC in HI. apply in_map_iff in HI. destruct HI as (r' & <- & Hr).
    rewrite rom_bits_length. rewrite Forall_forall in R1. destruct (R1 r' Hr) as [-> _]. reflexivity. }
  pose proof (search_call_line wd H1 H2 H3 parasite (targetSearch f) l 64 H4 H5 HF) as G. unfold codes in G. rewrite HC, E in G. destruct G as (l' & G1 & _). exists r, s, l'. auto.
Qed.
Print Assumptions C110_target_search_partial.
Example C110_search_example : map code (bus (ex_line Silent)) = map rom_bits ex_roms /\
  option_map (fun x => fst (fst x)) (lineSearches (ex_world true) false 3 resetSearch (ex_line Silent)) =
    Some [(true, Some [40; 254; 1; 2; 3; 4; 5; 200]); (true, Some [40; 255; 1; 2; 3; 4; 5; 6]); (false, None)] /\
  option_map (fun x => fst (snd x)) (OneWireSearch (gpio search_devices (ex_world true)) false (targetSearch 40) (ex_line Silent)) = Some (true, Some [40; 254; 1; 2; 3; 4; 5; 200]).
Proof. split; [reflexivity|]. vm_compute. split; reflexivity. Qed.
Example C110_search_hypotheses : legal (ex_world true) /\ quick (ex_world true) /\ atRest (ex_line Silent) /\ Forall rom_ok ex_roms /\ NoDup ex_roms /\ Forall (fun r => rd r 0 <> 0) ex_roms.
Proof.
  split; [apply ex_legal|]. split; [apply ex_quick|]. split; [apply ex_rest|]. split; [repeat (apply Forall_cons; [split; [reflexivity|repeat (apply Forall_cons; [red; lia|]); apply Forall_nil]|]); apply Forall_nil|].
  split; [repeat constructor; cbn; intuition discriminate|]. repeat constructor; discriminate.
Qed.
