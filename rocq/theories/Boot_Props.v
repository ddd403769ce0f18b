(** C36-C40, C42, C43: the bootloader protects itself, erases, programs, patches and starts what it was told to.
    Throughout, [e] (per message) is the behaviour of the flash controller, which may fail at any call. *)
From Verif Require Import Base CRC_Spec CRC_Model Boot_Model Boot_Spec Boot_Proofs Boot_Theorems Boot_Dec.

Ltac bytes_ok :=
  match goal with |- ?G => let G' := eval unfold msg_ok in G in
    match G' with Forall is_byte ?l => let l' := eval vm_compute in l in change (Forall is_byte l') end end;
  repeat (apply Forall_cons; [red; lia|]); apply Forall_nil.

(** A concrete device for the examples: bootloader in [0, 0x3000), 64 KiB of flash with no application *)
Definition L0 : layout := mkLayout 0x3000 0x10000 [1; 2; 3; 4; 5; 6; 7; 8; 9; 10; 11; 12; 13; 14; 15; 16].
Definition f0 : flash := fun a => a mod 256.
Definition quiet : env := mkEnv [] (fun _ => 0) [0; 0; 0; 0].
Definition unlock0 : list Z := [0xbf; 1; 2; 3; 4; 5; 6; 7; 8; 9; 10; 11; 12].
Definition ev (m : list Z) : event := (quiet, m).
Example L0_ok : layout_ok L0.
Proof. unfold layout_ok, L0; cbn. repeat apply conj; try lia; try reflexivity. bytes_ok. Qed.
Example f0_ok : flash_ok f0.
Proof. intros a. unfold f0. red. apply Z.mod_pos_bound. lia. Qed.
Example quiet_ok : env_ok quiet /\ no_failure quiet.
Proof. split; [split|]; try apply Forall_nil. intros i. red. cbn. lia. Qed.
Example unlock0_correct : correct_unlock L0 unlock0.
Proof. exists (tl unlock0). repeat split. left. reflexivity. Qed.

(** ** C36 *)
(** Whatever messages arrive (any bytes, any parameters, flash failures at any point), as long as the decompressor has
    not left its buffers ([run] is defined): no byte of the bootloader changes.  Missing for the full claim: histories in
    which the unchecked decompressor writes outside its buffers (C43); there the model, like the language, says nothing. *)
Theorem C36_bootloader_untouched_partial : forall L f0 h s talk, layout_ok L -> flash_ok f0 -> Forall event_ok h ->
  run L (updInit L f0) h = Some (s, talk) -> forall a, a < image_end L -> fl s a = f0 a.
Proof. exact bootloader_untouched. Qed.
Print Assumptions C36_bootloader_untouched_partial.
(** Without difference data this covers every history. *)
Theorem C36_bootloader_untouched_without_difference_data : forall L f0 h, layout_ok L -> flash_ok f0 -> Forall event_ok h ->
  (forall e m, In (e, m) h -> hd 0 m <> 0xec) ->
  exists s talk, run L (updInit L f0) h = Some (s, talk) /\ forall a, a < image_end L -> fl s a = f0 a.
Proof.
  intros L f h HL Hf Hh Hn. destruct (run_defined L f h HL Hf Hh Hn) as (s & t & E).
  exists s, t. split; auto. exact (bootloader_untouched L f h s t HL Hf Hh E).
Qed.
Print Assumptions C36_bootloader_untouched_without_difference_data.

(** a hostile history: erase everything from 0, program address 0 (both refused), erase an inverted range (accepted),
    erase all, with a failing flash controller *)
Definition hostile : list event :=
  [ev unlock0; ev [0xe9; 0;0;0;0; 0xff;0xff;0;0]; ev [0xef; 1; 2; 3]; ev [0xee; 3;0; 0;0;0;0; 0x1d;0x80;0xbc;0x55];
   ev [0xe9; 0;0x80;0;0; 0;0x70;0;0]; (mkEnv [IapFail 3 (fun _ => 17)] (fun _ => 0) [0; 0; 0; 0], [0xea])].
Example C36_hostile_history : Forall event_ok hostile /\
  option_map (fun x => map snd (snd x)) (run L0 (updInit L0 f0) hostile) =
    Some (map error_reply [0x7f; 0x51; 0x7f; 0x5d; 0x7f; 0x7c]) /\
  option_map (fun x => map (fl (fst x)) [0x2fff; 0x7000]) (run L0 (updInit L0 f0) hostile) = Some [0xff; 17] .
Proof.
  split.
  - repeat apply Forall_cons; try apply Forall_nil; (split; [|bytes_ok]); try apply quiet_ok.
    split; [|intros i; red; cbn; lia]. apply Forall_cons; [|apply Forall_nil]. split; [lia|]. intros i. red. lia.
  - split; vm_compute; reflexivity.
Qed.

(** ** C37 *)
(** Until a correct unlock nothing in the device changes, and every message gets the answer [locked_reply] says. *)
Theorem C37_locked_device_unchanged : forall L f0 h, flash_ok f0 ->
  Forall (fun x => msg_ok (snd x) /\ ~ correct_unlock L (snd x)) h ->
  exists talk, run L (updInit L f0) h = Some (updInit L f0, talk) /\ map fst talk = map snd h /\
               Forall (fun x => locked_reply L f0 (fst x) (snd x)) talk.
Proof. intros L f h _ Hh. exact (locked_history L h (updInit L f) eq_refl Hh). Qed.
Print Assumptions C37_locked_device_unchanged.
(** A correct unlock is accepted in any state and touches no flash. *)
Theorem C37_unlock_accepted : forall L e m s, layout_ok L -> msg_ok m -> correct_unlock L m ->
  exists s', handle L e m s = Some (s', error_reply 0x7f) /\ unlocked s' = true /\ fl s' = fl s.
Proof. exact unlock_works. Qed.
Print Assumptions C37_unlock_accepted.
(** The lock does not protect its key: a locked device tells its UID to whoever asks. *)
Theorem C37_unlock_key_is_secret_refuted : exists L f0 e, layout_ok L /\ flash_ok f0 /\
  exists r, run L (updInit L f0) [(e, [0xbe])] = Some (updInit L f0, [([0xbe], r)]) /\ correct_unlock L (0xbf :: snd r).
Proof.
  exists L0, f0, quiet. split; [exact L0_ok|]. split; [exact f0_ok|]. eexists. split; [reflexivity|]. exact unlock0_correct.
Qed.
Print Assumptions C37_unlock_key_is_secret_refuted.

Definition guesses : list event := [ev [0xea]; ev [0xbf; 1; 2; 3; 4; 5; 6; 7; 8; 9; 10; 11; 13]; ev [0xef; 1]; ev [0xbc]; ev []; ev [0x42]].
Example C37_guesses : Forall (fun x => msg_ok (snd x) /\ ~ correct_unlock L0 (snd x)) guesses /\
  option_map (fun x => map (fun y => snd (snd y)) (snd x)) (run L0 (updInit L0 f0) guesses) =
    Some [[0x58]; [0x57]; [0x58]; bl_id_string; [0x54]; [0x01]].
Proof.
  split; [|vm_compute; reflexivity].
  repeat apply Forall_cons; try apply Forall_nil; split; try bytes_ok; intros (k & [=] & Hl & [Hk|Hk]); subst; discriminate.
Qed.

(** ** C38 *)
Theorem C38_erase_range : forall L e d s, layout_ok L -> env_ok e -> unlocked s = true -> msg_ok d -> length d = 8%nat ->
  let start := num32 d in let stop := num32 (skipn 4 d) in
  start <= stop -> start mod 256 = 0 -> appFirst L <= start -> stop < flash_top L ->
  exists s' r, handle L e (0xe9 :: d) s = Some (s', error_reply r) /\
    (r = 0x7f -> forall x, fl s' x = if touched start stop x then 0xFF else fl s x) /\
    (forall x, touched start stop x = false -> fl s' x = fl s x) /\
    (no_failure e -> r = 0x7f).
Proof. exact erase_command. Qed.
Print Assumptions C38_erase_range.
Theorem C38_other_ranges_refused : forall L e d s, layout_ok L -> unlocked s = true -> msg_ok d -> length d = 8%nat ->
  let start := num32 d in let stop := num32 (skipn 4 d) in
  start <= stop -> ~ (start mod 256 = 0 /\ appFirst L <= start /\ stop < flash_top L) ->
  exists s', handle L e (0xe9 :: d) s = Some (s', error_reply 0x51) /\ fl s' = fl s.
Proof. exact erase_refused. Qed.
Print Assumptions C38_other_ranges_refused.
Theorem C38_full_erase : forall L e s, layout_ok L -> env_ok e -> unlocked s = true ->
  let first := (image_end L + 255) / 256 * 256 in
  exists s' r, handle L e [0xea] s = Some (s', error_reply r) /\
    (r = 0x7f -> forall x, fl s' x = if (first <=? x) && (x <? flash_top L) then 0xFF else fl s x) /\
    (forall x, ~ (first <= x < flash_top L) -> fl s' x = fl s x) /\
    (no_failure e -> r = 0x7f).
Proof. exact full_erase. Qed.
Print Assumptions C38_full_erase.
(** The claim needs start <= end: an inverted range passes the range check and erases a page (here 0x7000). *)
Theorem C38_inverted_ranges_refused_refuted : exists L e d s s', layout_ok L /\ env_ok e /\ unlocked s = true /\
  length d = 8%nat /\ msg_ok d /\ num32 (skipn 4 d) < num32 d /\
  handle L e (0xe9 :: d) s = Some (s', error_reply 0x7f) /\ fl s' 0x7001 <> fl s 0x7001.
Proof.
  set (s := mkUpd f0 true (repeat 0 1265) 0 (decInit 0x3100)). set (d := [0;0x80;0;0; 0;0x70;0;0]).
  assert (E : option_map (fun x => (snd x, fl (fst x) 0x7001)) (handle L0 quiet (0xe9 :: d) s) = Some (error_reply 0x7f, 0xff))
    by (vm_compute; reflexivity).
  destruct (handle L0 quiet (0xe9 :: d) s) as [[s' r]|] eqn:EH; [|discriminate]. injection E as -> E.
  exists L0, quiet, d, s, s'. split; [exact L0_ok|]. split; [apply quiet_ok|]. split; [reflexivity|]. split; [reflexivity|].
  split; [unfold d; bytes_ok|]. split; [reflexivity|]. split; [exact EH|]. rewrite E. vm_compute. discriminate.
Qed.
Print Assumptions C38_inverted_ranges_refused_refuted.

(** an erase that needs pages before, whole sectors and pages behind: 0x3f00..0x5180 *)
Example C38_example : let d := [0;0x3f;0;0; 0x80;0x51;0;0] in
  msg_ok d /\ num32 d = 0x3f00 /\ num32 (skipn 4 d) = 0x5180 /\ appFirst L0 = 0x3100 /\
  option_map (fun x => (map (fl (fst x)) [0x3eff; 0x3f00; 0x5000; 0x51ff; 0x5200], map snd (snd x)))
             (run L0 (updInit L0 f0) [ev unlock0; ev (0xe9 :: d)]) =
    Some ([0xff; 0xff; 0xff; 0xff; 0], map error_reply [0x7f; 0x7f]) /\ f0 0x3eff = 0xff /\ touched 0x3f00 0x5180 0x3eff = false.
Proof. repeat apply conj; try bytes_ok; vm_compute; reflexivity. Qed.

(** ** C39 *)
(** At power-up the application is entered iff the magic word and the button do not demand the bootloader and the flash
    content is [startable]; it is entered at the address of the descriptor.  [f] is any content, so any moment of any
    update (or of a power failure during it) is covered. *)
Theorem C39_startup : forall L f magic button a, layout_ok L -> flash_ok f ->
  startup L f magic button = StartApplication a <->
  magic <> 0x5E1FB055 /\ button = false /\ startable L f /\ a = desc_start L f.
Proof. exact startup_iff. Qed.
Print Assumptions C39_startup.
(** An application of which up to 32 consecutive bits were changed does not start. *)
Theorem C39_damaged_application_not_started : forall L f f', layout_ok L -> flash_ok f -> flash_ok f' -> startable L f ->
  (forall x, appFirst L - 256 <= x < appFirst L -> f' x = f x) ->
  burst 32 (msg_lsb (content f (desc_start L f) (desc_end L f))) (msg_lsb (content f' (desc_start L f) (desc_end L f))) ->
  forall magic button a, startup L f' magic button <> StartApplication a.
Proof.
  intros L f f' HL Hf Hf' HS Hd HB magic button a E. apply startup_iff in E; auto. destruct E as (_ & _ & S & _).
  revert S. exact (corruption L f f' HL Hf Hf' HS Hd HB).
Qed.
Print Assumptions C39_damaged_application_not_started.
(** A successful descriptor update (of at least the 16 bytes of a descriptor) means that the application will start. *)
Theorem C39_descriptor_update : forall L f0 s talk e d s', layout_ok L -> flash_ok f0 -> reachable L f0 s talk ->
  env_ok e -> msg_ok d -> 16 <= num32 d -> handle L e (0xed :: d) s = Some (s', error_reply 0x7f) ->
  startup L (fl s') 0 false = StartApplication (desc_start L (fl s')) /\
  (forall x, x / 256 <> (appFirst L - 256) / 256 -> fl s' x = fl s x).
Proof.
  intros L f s talk e d s' HL Hf HR He Hd Hn E. destruct (reachable_facts L f s talk HL Hf HR) as (I & _ & _).
  destruct (descriptor_update L e d s s' HL I He Hd E Hn) as (S1 & _ & S3). split; auto.
  pose proof (handle_step L (e, 0xed :: d) s s' (error_reply 0x7f) HL) as ST. cbn [fst snd] in ST.
  assert (event_ok (e, 0xed :: d)) as EO. { split; auto. constructor; auto. red; lia. }
  destruct (ST EO I E) as [I' _ _].
  apply startup_iff; auto. { apply I'. } repeat split; auto; try lia; apply S1.
Qed.
Print Assumptions C39_descriptor_update.

(** download a 2-byte application [17; 34] to 0x3100, then its descriptor: erase, send, program, send, update *)
Definition app_image : list Z := [17; 34].
Definition crc_bytes (m : list Z) : list Z :=
  let c := crc32 0xFFFFFFFF m in [c mod 256; (c / 256) mod 256; (c / 65536) mod 256; c / 16777216].
Definition app_desc : list Z := [0;0x31;0;0; 1;0x31;0;0] ++ crc_bytes app_image ++ [0;0x31;0;0].
Definition installation : list event :=
  [ev unlock0; ev [0xea]; ev (0xef :: app_image); ev ([0xee; 2;0; 0;0x31;0;0] ++ crc_bytes app_image);
   ev (0xef :: app_desc); ev ([0xed; 16;0;0;0] ++ crc_bytes app_desc)].
Definition final (h : list event) : flash := match run L0 (updInit L0 f0) h with Some (s, _) => fl s | None => f0 end.
Example C39_installation : Forall event_ok installation /\
  option_map (fun x => map snd (snd x)) (run L0 (updInit L0 f0) installation) = Some (repeat (error_reply 0x7f) 6) /\
  startup L0 f0 0 false = StayInBootloader /\ startup L0 (final (firstn 5 installation)) 0 false = StayInBootloader /\
  startup L0 (final installation) 0 false = StartApplication 0x3100 /\
  content (final installation) 0x3100 0x3101 = app_image.
Proof.
  split. { repeat apply Forall_cons; try apply Forall_nil; (split; [apply quiet_ok|bytes_ok]). }
  repeat apply conj; vm_compute; reflexivity.
Qed.
Lemma final_ok h : Forall event_ok h -> flash_ok (final h).
Proof.
  intros H. unfold final. destruct (run L0 (updInit L0 f0) h) as [[s t]|] eqn:E; [|exact f0_ok].
  destruct (reachable_facts L0 f0 s t L0_ok f0_ok) as (I & _). { exists h. auto. } apply I.
Qed.
Example C39_startable : startable L0 (final installation).
Proof.
  destruct C39_installation as (H1 & _ & _ & _ & H2 & _).
  apply (C39_startup L0 (final installation) 0 false 0x3100 L0_ok (final_ok _ H1)). exact H2.
Qed.

(** ** C40 *)
(** [downloaded talk d]: the send-data messages and replies since the buffer was last emptied carried the bytes [d]. *)
Theorem C40_program_writes_downloaded_bytes : forall L f0 s talk e d s', layout_ok L -> flash_ok f0 -> reachable L f0 s talk ->
  env_ok e -> msg_ok d -> handle L e (0xee :: d) s = Some (s', error_reply 0x7f) ->
  let count := num16 d in let address := num32 (skipn 2 d) in
  exists image, downloaded talk image /\ image <> [] /\ Z.of_nat (length image) = count /\
    is_crc32 image (num32 (skipn 6 d)) /\
    address mod 256 = 0 /\ appFirst L <= address /\ address + count <= flash_top L /\
    holds (fl s') address image /\
    (forall x, ~ (address <= x < address + up256 count) -> fl s' x = fl s x).
Proof.
  intros L f s talk e d s' HL Hf HR He Hd E count address. destruct (reachable_facts L f s talk HL Hf HR) as (I & _ & D).
  exists (down s). destruct (program_success L e d s s' HL I He Hd E) as (P1 & P2 & P3 & P4 & P5 & P6 & P7 & P8).
  repeat apply conj; auto.
Qed.
Print Assumptions C40_program_writes_downloaded_bytes.
(** ... and what was downloaded is determined by the conversation, unless a program command with a range beyond the 32-bit
    address space was tried. *)
Theorem C40_downloaded_bytes_unique : forall talk, (forall x, In x talk -> ~ wrapping_program (fst x)) ->
  forall a b, downloaded talk a -> downloaded talk b -> a = b.
Proof. exact downloaded_unique. Qed.
Print Assumptions C40_downloaded_bytes_unique.
(** A proper program command on erased flash succeeds if the flash controller does. *)
Theorem C40_program_succeeds : forall L f0 s talk image e d, layout_ok L -> flash_ok f0 -> reachable L f0 s talk ->
  (forall x, In x talk -> ~ wrapping_program (fst x)) -> downloaded talk image -> unlocked s = true ->
  env_ok e -> no_failure e -> msg_ok d -> length d = 10%nat -> image <> [] ->
  num16 d = Z.of_nat (length image) -> is_crc32 image (num32 (skipn 6 d)) ->
  num32 (skipn 2 d) mod 256 = 0 -> appFirst L <= num32 (skipn 2 d) -> num32 (skipn 2 d) + num16 d <= flash_top L ->
  erased (fl s) (num32 (skipn 2 d)) (up256 (num16 d)) ->
  exists s', handle L e (0xee :: d) s = Some (s', error_reply 0x7f).
Proof.
  intros L f s talk image e d HL Hf HR HW HD HU He Hn Hd Hl H1 H2 H3 H4 H5 H6 H7.
  destruct (reachable_facts L f s talk HL Hf HR) as (I & _ & D).
  pose proof (downloaded_unique talk HW _ _ HD D) as ->. apply program_complete; auto.
Qed.
Print Assumptions C40_program_succeeds.
(** Whatever happens, only the pages of the range change; a refused command changes nothing. *)
Theorem C40_program_frame : forall L f0 s talk e d s' r, layout_ok L -> flash_ok f0 -> reachable L f0 s talk ->
  env_ok e -> msg_ok d -> handle L e (0xee :: d) s = Some (s', r) ->
  (forall x, ~ (num32 (skipn 2 d) <= x < num32 (skipn 2 d) + up256 (num16 d)) -> fl s' x = fl s x) /\
  (In r (map error_reply [0x5d; 0x5b; 0x4f; 0x50; 0x5e; 0x58; 0x55]) -> fl s' = fl s).
Proof.
  intros L f s talk e d s' r HL Hf HR He Hd E. destruct (reachable_facts L f s talk HL Hf HR) as (I & _).
  exact (program_frame L e d s s' r HL I He Hd E).
Qed.
Print Assumptions C40_program_frame.
(** Send-data appends while there is room (1265 bytes) and is refused without effect otherwise. *)
Theorem C40_send_data : forall L f0 s talk image e d, layout_ok L -> flash_ok f0 -> reachable L f0 s talk ->
  (forall x, In x talk -> ~ wrapping_program (fst x)) -> downloaded talk image ->
  msg_ok d -> (1 <= length d <= 254)%nat -> unlocked s = true ->
  (length image <= 1265)%nat /\
  exists s' r, handle L e (0xef :: d) s = Some (s', error_reply r) /\ fl s' = fl s /\
    ((length image + length d <= 1265)%nat -> r = 0x7f) /\
    ((1265 < length image + length d)%nat -> r = 0x5b /\ s' = s).
Proof.
  intros L f s talk image e d HL Hf HR HW HD Hd Hl HU.
  destruct (reachable_facts L f s talk HL Hf HR) as (I & _ & D). pose proof (downloaded_unique talk HW _ _ HD D) as ->.
  split.
  - unfold down. rewrite firstn_length, (i_ram _ _ I). lia.
  - destruct (send_data L e d s I Hd Hl HU) as (s' & r & E & F & A & B). exists s', r. repeat apply conj; auto. intros H. apply A; auto.
Qed.
Print Assumptions C40_send_data.

Definition talk_of (h : list event) : list (list Z * reply) := match run L0 (updInit L0 f0) h with Some (_, t) => t | None => [] end.
Example C40_installation : downloaded (talk_of (firstn 3 installation)) app_image /\
  (forall x, In x (talk_of (firstn 3 installation)) -> ~ wrapping_program (fst x)) /\
  erased (final (firstn 3 installation)) 0x3100 (up256 2) /\
  exists s, reachable L0 f0 s (talk_of (firstn 3 installation)) /\ unlocked s = true.
Proof.
  assert (E : talk_of (firstn 3 installation) =
              [(unlock0, error_reply 0x7f); ([0xea], error_reply 0x7f); (0xef :: app_image, error_reply 0x7f)]) by (vm_compute; reflexivity).
  rewrite E. split.
  { apply (dl_note [(unlock0, error_reply 0x7f); ([0xea], error_reply 0x7f)] [] (0xef :: app_image, error_reply 0x7f)).
    apply (dl_note [(unlock0, error_reply 0x7f)] [] ([0xea], error_reply 0x7f)). apply (dl_note [] [] (unlock0, error_reply 0x7f)). constructor. }
  split. { intros x [<-|[<-|[<-|[]]]] (d & [=] & _). }
  split.
  - intros x Hx. change (up256 2) with 256 in Hx.
    replace x with (0x3100 + Z.of_nat (Z.to_nat (x - 0x3100))) by lia.
    assert (B : forallb (fun i => final (firstn 3 installation) (0x3100 + Z.of_nat i) =? 255) (seq 0 256) = true) by (vm_compute; reflexivity).
    rewrite forallb_forall in B. apply Z.eqb_eq, B. apply in_seq. lia.
  - assert (HU : option_map (fun x => unlocked (fst x)) (run L0 (updInit L0 f0) (firstn 3 installation)) = Some true) by (vm_compute; reflexivity).
    unfold talk_of in E. destruct (run L0 (updInit L0 f0) (firstn 3 installation)) as [[s t]|] eqn:ER; [|discriminate].
    exists s. split.
    + exists (firstn 3 installation). split. { apply Forall_firstn, C39_installation. } rewrite ER, E. reflexivity.
    + injection HU as HU. exact HU.
Qed.

(** ** C42 *)
(** A difference download: after any conversation without difference data ([h0]) and an unlock, the messages of [pages]
    are all answered with success and leave in flash what [patches] says: page after page the concatenation of raw bytes
    and old bytes, however the streams are split into telegrams. *)
Theorem C42_difference_download : forall L f0 rom h0 s0 talk0 e u h pages f', layout_ok L -> small_flash L -> flash_ok f0 ->
  firmware_at L f0 rom -> rom mod 256 = 0 ->
  Forall event_ok h0 -> Forall (fun x => ~ diff_message (snd x)) h0 -> run L (updInit L f0) h0 = Some (s0, talk0) ->
  env_ok e -> msg_ok u -> correct_unlock L u ->
  patches (flash_top L) rom rom (repeat 0 512) (fl s0) pages f' ->
  map snd h = flat_map messages pages -> Forall (fun x => env_ok (fst x) /\ no_failure (fst x)) h ->
  exists s talk, run L (updInit L f0) (h0 ++ (e, u) :: h) = Some (s, talk0 ++ talk) /\
    Forall (fun x => snd x = error_reply 0x7f) talk /\ (forall x, fl s x = f' x).
Proof. exact whole_download. Qed.
Print Assumptions C42_difference_download.

(** two pages: raw bytes, a copy from the image and (second page) a copy from the page overwritten before; streams cut
    in the middle of commands *)
Definition page1 : page := mkPage [Raw [7; 8; 9]; FromRom 300 70] [[3; 7]; [8; 9; 192]; [70; 0; 1]; [44]]
  (crc_bytes ([7; 8; 9] ++ map (fun i => (44 + Z.of_nat i) mod 256) (seq 0 70))).
Definition page2 : page := mkPage [FromRam 260 5; Raw [200]] [[133; 128; 1; 4; 64; 1; 200]] (crc_bytes [4; 5; 6; 7; 8; 200]).
Definition f1 : flash := fun x => if (0x3100 <=? x) && (x <? 0x3100 + 256)
  then rd (expand (fun o => f0 (0x3100 + o)) (repeat 0 512) (pieces page1)) (Z.to_nat (x - 0x3100)) else f0 x.
Definition old1 : list Z := skipn 256 (repeat 0 512) ++ content f0 0x3100 (0x3100 + 255).
Definition f2 : flash := fun x => if (0x3200 <=? x) && (x <? 0x3200 + 256)
  then rd (expand (fun o => f1 (0x3100 + o)) old1 (pieces page2)) (Z.to_nat (x - 0x3200)) else f1 x.
Example C42_example : patches 0x10000 0x3100 0x3100 (repeat 0 512) f0 [page1; page2] f2 /\ f2 0x3104 = 45 /\ f2 0x3201 = 5 /\
  firmware_at L0 f0 0x3100.
Proof.
  split.
  - eapply patch_page.
    + change (encodes [Raw [7; 8; 9]; FromRom 300 (256 * 0 + 70)] ([3; 7; 8; 9] ++ [192 + 0; 70; 0; 1; 44] ++ [])).
      repeat constructor; cbn; lia.
    + repeat apply Forall_cons; try apply Forall_nil; (split; [cbn; lia|bytes_ok]).
    + repeat constructor; cbn; lia.
    + vm_compute. lia.
    + lia.
    + reflexivity.
    + bytes_ok.
    + vm_compute. reflexivity.
    + split; [|intros _ x; exact (eq_refl (f1 x))]. intros H. exfalso. specialize (H 0%nat). revert H. vm_compute. intros H. specialize (H ltac:(lia)). discriminate.
    + change (0x3100 + 256) with 0x3200. eapply patch_page.
      * change (encodes [FromRam 260 5; Raw [200]] ([128 + 5; 128 + 0; 1; 4] ++ [64 + 0; 1; 200] ++ [])).
        repeat constructor; cbn; lia.
      * repeat apply Forall_cons; try apply Forall_nil; (split; [cbn; lia|bytes_ok]).
      * repeat constructor; cbn; lia.
      * vm_compute. lia.
      * lia.
      * reflexivity.
      * bytes_ok.
      * vm_compute. reflexivity.
      * split; [|intros _ x; exact (eq_refl (f2 x))]. intros H. exfalso. specialize (H 0%nat). revert H. vm_compute. intros H. specialize (H ltac:(lia)). discriminate.
      * constructor. auto.
  - split; [vm_compute; reflexivity|]. split; [vm_compute; reflexivity|]. right. split; [|reflexivity].
    intros (_ & _ & H & _). revert H. vm_compute. intros [_ H]. discriminate.
Qed.

(** ** C43 *)
(** The claim is false: five bytes (copy 257 bytes) make the decompressor write past its 256-byte page buffer. *)
Theorem C43_decompressor_stays_in_bounds_refuted : exists L f0 h, layout_ok L /\ small_flash L /\ flash_ok f0 /\ Forall event_ok h /\
  run L (updInit L f0) h = None.
Proof.
  exists L0, f0, [ev unlock0; ev [0xec; 193; 1; 0; 0; 0]]. split; [exact L0_ok|]. split; [unfold small_flash; cbn; lia|]. split; [exact f0_ok|].
  split; [|vm_compute; reflexivity]. repeat apply Forall_cons; try apply Forall_nil; (split; [apply quiet_ok|bytes_ok]).
Qed.
Print Assumptions C43_decompressor_stays_in_bounds_refuted.
(** What remains true: with well-formed streams ([patches] includes that copies lie inside their sources and that the
    output of a page fits) the decompressor stays in its buffers. *)
Theorem C43_well_formed_streams_stay_in_bounds_partial : forall L f0 rom h0 s0 talk0 e u h pages f', layout_ok L -> small_flash L -> flash_ok f0 ->
  firmware_at L f0 rom -> rom mod 256 = 0 ->
  Forall event_ok h0 -> Forall (fun x => ~ diff_message (snd x)) h0 -> run L (updInit L f0) h0 = Some (s0, talk0) ->
  env_ok e -> msg_ok u -> correct_unlock L u ->
  patches (flash_top L) rom rom (repeat 0 512) (fl s0) pages f' ->
  map snd h = flat_map messages pages -> Forall (fun x => env_ok (fst x) /\ no_failure (fst x)) h ->
  run L (updInit L f0) (h0 ++ (e, u) :: h) <> None.
Proof.
  intros L f rom h0 s0 talk0 e u h pages f' A1 A2 A3 A4 A5 A6 A7 A8 A9 A10 A11 A12 A13 A14 E.
  destruct (whole_download L f rom h0 s0 talk0 e u h pages f' A1 A2 A3 A4 A5 A6 A7 A8 A9 A10 A11 A12 A13 A14) as (s & t & R & _).
  congruence.
Qed.
Print Assumptions C43_well_formed_streams_stay_in_bounds_partial.
