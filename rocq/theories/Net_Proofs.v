(** Two devices on one bus *)
From Verif Require Import Base Bits Telegram_Model Device_Model Device_Spec Device_Spec3.
From Verif Require Import Node_Model Node_Spec Node_Proofs Node_Pass Node_Pass2 Node_Hist Net_Spec.
From Verif Require ComObj_Model ComObj_Spec ComObj_Next ComObj_Proofs ComObj_Values ComObj_Props Bus_Model Bus_Spec Bus_Frame Bus_Props TL4_Spec Node_Com.

(** ** Telegrams consist of bytes and have the length they claim *)
Definition proper (t : list Z) : Prop := Forall is_byte t /\ length t = Bus_Spec.size t.
Lemma nth_firstn (l : list Z) : forall n k, (k < n)%nat -> nth k (firstn n l) 0 = nth k l 0.
Proof. induction l as [|a l IH]; intros [|n] [|k] Hk; cbn; auto; try lia. apply IH. lia. Qed.
Lemma sent_proper b : ComObj_Next.buf_ok b -> proper (firstn (telegramSize b) b).
Proof.
  intros (L & B). pose proof (Bus_Frame.size_eq b) as S. pose proof (Bus_Frame.size_range b) as R. rewrite S. split; [apply Bus_Frame.Forall_firstn; exact B|].
  rewrite firstn_length. unfold Bus_Spec.size at 2. rewrite nth_firstn by lia. fold (Bus_Spec.size b). lia.
Qed.
Section Proper.
Variable c : conf.
Hypothesis K : conf_ok c.
Hypothesis T : tables_ok c.
Hypothesis SZ : sized c.
Lemma answer_proper g a gapos : ComObj_Model.ramSize g = ramSize (lay c) -> ComObj_Model.eepSize g = eeSize (lay c) -> forall l ws x y o, healthy c x -> answerLoop c g a gapos l ws x = Some (y, o) -> Forall proper (apps o).
Proof.
  intros GR GE. induction l as [|(ga, ob) r IH]; intros ws x y o H; cbn [answerLoop]. { intros [= _ <-]. constructor. }
  destruct (negb _); [apply IH; auto|]. destruct (_ =? _); [|apply IH; auto]. destruct (ComObj_Model.objectValuePtr _ _); [|discriminate]. cbv zeta.
  destruct (sendGroup _ _ _ _ _) as [[z o1]|] eqn:E; [|discriminate]. destruct (answerLoop _ _ _ _ r _ z) as [[z2 o2]|] eqn:E2; [|discriminate]. intros [= _ <-].
  destruct (write_fit c SZ g GR GE (Z.to_nat ob) a true (comState c x 0) (userMem_fit c x (proj1 (proj1 H))) (healthy_buf c x H)) as (F & B).
  destruct (sendGroup_ok _ _ _ _ _ _ _ F B H E) as (HZ & _). rewrite apps_app. apply Forall_app. split; [|apply (IH _ _ _ _ HZ E2)].
  rewrite (proj1 (sendGroup_sent _ _ _ _ _ _ _ E)). constructor; [|constructor]. apply sent_proper. exact B.
Qed.
Lemma group_proper le t ws x y o : healthy c x -> receiveGroup c le t ws x = Some (y, o) -> Forall proper (apps o).
Proof.
  intros H. unfold receiveGroup. destruct (tables c le (mem x)) as [g|] eqn:TB; [|discriminate]. destruct (tables_sizes _ _ _ _ TB) as (_ & GR & _ & GE). cbv zeta.
  destruct (_ =? _); [|intros [= _ <-]; constructor]. destruct (_ <? 0); [intros [= _ <-]; constructor|]. apply answer_proper; assumption.
Qed.
Lemma next_proper le next w x b n y o : healthy c x -> 0 <= next -> sendNext c le next w x = Some (b, n, y, o) -> Forall proper (apps o).
Proof.
  intros H N. unfold sendNext. destruct (tables c le (mem x)) as [g|] eqn:TB.
  2:{ destruct (kind c); [|discriminate]. intros [= _ _ _ <-]. constructor. }
  destruct (tables_sizes _ _ _ _ TB) as (_ & GR & _ & GE).
  pose proof (next_fit c SZ g GR GE (comState c x next) (userMem_fit c x (proj1 (proj1 H))) (healthy_buf c x H) N) as P. cbv zeta in P.
  destruct (ComObj_Model.sendNextGroupTelegram g (comState c x next)) as [sent s]. cbn [snd] in P. destruct P as (P1 & P2 & P3). destruct sent.
  - destruct (sendGroup _ _ _ _ _) as [[z o1]|] eqn:E; [|discriminate]. intros [= _ _ _ <-]. rewrite (proj1 (sendGroup_sent _ _ _ _ _ _ _ E)). constructor; [|constructor]. apply sent_proper. exact P2.
  - intros [= _ _ _ <-]. constructor.
Qed.
Lemma part_proper i x y o : ngood c x -> groupPart c i x = Some (y, o) -> Forall proper (apps o).
Proof.
  intros (H & N). unfold groupPart. destruct (_ && _). 2:{ intros [= _ <-]. constructor. }
  cbv zeta. destruct (_ <=? _).
  - destruct (sendNext _ _ _ _ _) as [[[[b n] z] o1]|] eqn:E; [|discriminate]. intros [= _ <-]. apply (next_proper _ _ _ _ _ _ _ _ H N E).
  - intros [= _ <-]. constructor.
Qed.
Lemma pass_proper g i x y l : ngood c x -> nop_ok (NLoop i) -> group_only g i x -> nodeLoop c i x = Some (y, l) -> Forall proper (app_telegrams (map NOut l)).
Proof.
  intros (H & N) OK GO E. destruct (parts _ _ _ _ _ E) as (s & o1 & x2 & o2 & x3 & o3 & x4 & o4 & P1 & P2 & P3 & P4 & P5).
  pose proof (loop_step_ok c _ _ _ _ H P1) as H1. pose proof (silent_step _ (OpLoop (now (base i))) _ _ eq_refl P1) as Q1.
  pose proof (received_ok c T SZ _ _ _ _ _ OK H1 P2) as H2. pose proof (button_ok c _ _ _ _ _ H2 P3) as H3. destruct (button_rest c _ _ _ _ _ P3) as (Q3 & _).
  assert (R4 : healthy c x4 /\ app_telegrams (map NOut o4) = []).
  { destruct (sending2 (base i)). { destruct P4 as (-> & ->). auto. } destruct (restart_rest _ _ _ _ _ _ K (proj1 (proj1 H3)) P4) as (_ & A1 & _). split; [apply (restart_ok c K _ _ _ _ _ H3 P4)|exact A1]. }
  destruct R4 as (H4 & Q4).
  assert (Q2 : Forall proper (app_telegrams (map NOut o2))).
  { unfold checkReceivedAny in P2. unfold group_only, heard in GO. destruct (rx (base i)) as [r|] eqn:R; [|injection P2 as _ <-; constructor].
    change BCU_STATUS_TRANSPORT_LAYER with (2 ^ 2) in P2. rewrite (ComObj_Next.bit_land_nz (status (mem (setTl (ndev x) s))) 2) in P2 by lia. cbn [mem setTl] in P2.
    destruct (_ && _) eqn:B in P2; [|injection P2 as _ <-; constructor]. rewrite B in GO. destruct (GO _ eq_refl) as (GG & _). unfold receiveAny in P2. rewrite (group_test _ (OK r R) GG) in P2.
    destruct (receiveGroup _ _ _ _ _) as [[z o]|] eqn:EG; [|discriminate]. injection P2 as _ <-. pose proof (telegrams_bus (Group (rxTel r) :: o)) as TE. cbn [map] in TE. cbn [map fst snd]. rewrite TE. apply (group_proper _ _ _ _ _ _ H1 EG). }
  assert (TEL : app_telegrams (map NOut (map Bus o1 ++ o2 ++ o3 ++ o4)) = app_telegrams (map NOut o2)).
  { rewrite !map_app, !telegrams_app, telegrams_bus, Q1, Q3, Q4. cbn [app]. rewrite app_nil_r. reflexivity. }
  destruct (_ || _). { destruct P5 as (_ & ->). rewrite TEL. exact Q2. }
  destruct P5 as (z & og & G & -> & _). rewrite map_app, telegrams_app, TEL, telegrams_bus. apply Forall_app. split; [exact Q2|]. assert (N4 : ngood c (setDev x x4)) by (split; assumption). apply (part_proper _ _ _ _ N4 G).
Qed.
End Proper.

(** ** Frames *)
Definition pad (t : list Z) : list Z := t ++ repeat 0 (Bus_Spec.largest - length t).
Lemma body_prefix own t b : holds b t -> length t = Bus_Spec.size t -> Bus_Spec.size b = Bus_Spec.size t /\ Bus_Spec.body own b = Bus_Spec.body own t.
Proof.
  intros (L & P) S. pose proof (Bus_Frame.size_range t) as R.
  assert (N : forall k, (k < length t)%nat -> nth k b 0 = nth k t 0) by (intros k Hk; rewrite <- P at 1; symmetry; apply nth_firstn; exact Hk).
  assert (E : Bus_Spec.size b = Bus_Spec.size t) by (unfold Bus_Spec.size; rewrite N by lia; reflexivity). split; [exact E|].
  unfold Bus_Spec.body. rewrite E, N by lia. f_equal. rewrite <- S. rewrite firstn_skipn_comm. replace (3 + (length t - 3))%nat with (length t) by lia. rewrite P. symmetry. apply firstn_all2. rewrite skipn_length. lia.
Qed.
Lemma wire_prefix own t b : holds b t -> length t = Bus_Spec.size t -> Bus_Spec.wire own b = Bus_Spec.wire own t.
Proof. intros H S. unfold Bus_Spec.wire. destruct (body_prefix own t b H S) as (_ & ->). reflexivity. Qed.
Lemma holds_repeated b t : holds b t -> holds (Bus_Spec.repeated b) (Bus_Spec.repeated t).
Proof. intros (L & P). split; [rewrite Bus_Frame.repeated_length; exact L|]. rewrite Bus_Frame.repeated_length. destruct t as [|a t]; [reflexivity|]. destruct b as [|d b]; [discriminate|]. cbn in *. congruence. Qed.
Lemma pad_holds t : (length t <= Bus_Spec.largest)%nat -> holds (pad t) t.
Proof. intros H. split; [unfold pad; rewrite app_length, repeat_length; lia|]. unfold pad. rewrite firstn_app, Nat.sub_diag, firstn_all. cbn. apply app_nil_r. Qed.
Lemma frame_fields own rep t a n b7 : is_u16 own -> proper t -> ComObj_Spec.group_frame t a n b7 ->
  let f := frame own rep t in
  Forall is_byte f /\ length f = S (length t) /\ (forall i, (3 <= i < length t)%nat -> rd f i = rd t i) /\ Bus_Spec.acceptable f true /\ Bus_Spec.wellSized f /\ dest f = a /\ Z.testbit (rd f 5) 7 = true /\ (forall i, (i < length t)%nat -> is_byte (rd t i)).
Proof.
  intros OW (B & SL) (L & F0 & F3 & F5 & F6 & F7) f. pose proof (Bus_Frame.size_range t) as R.
  set (u := if rep then Bus_Spec.repeated t else t) in *. assert (LU : length u = length t) by (unfold u; destruct rep; [apply Bus_Frame.repeated_length|reflexivity]).
  assert (SU : Bus_Spec.size u = Bus_Spec.size t) by (unfold u; destruct rep; [apply Bus_Frame.size_repeated|reflexivity]).
  assert (N0 : nth 0 u 0 = if rep then 156 else 188). { unfold rd in F0. unfold u. destruct t as [|h t']; [cbn in L; lia|]. cbn [nth] in F0. subst h. destruct rep; reflexivity. }
  assert (NU : forall i, (1 <= i)%nat -> nth i u 0 = nth i t 0) by (intros i Hi; unfold u; destruct rep; [|reflexivity]; destruct t as [|h t']; [reflexivity|]; destruct i; [lia|reflexivity]).
  assert (BU : Forall is_byte u). { unfold u. destruct rep; [|exact B]. destruct t as [|h t']; [constructor|]. inversion B; subst. constructor; [|assumption]. unfold rd in F0. cbn [nth] in F0. subst h. unfold is_byte. vm_compute. split; congruence. }
  pose proof (pad_holds u ltac:(unfold Bus_Spec.largest; lia)) as PH. destruct (body_prefix own u (pad u) PH ltac:(lia)) as (PS & _). pose proof (wire_prefix own u (pad u) PH ltac:(lia)) as PW.
  assert (FW : f = Bus_Spec.wire own (pad u)) by (rewrite PW; reflexivity).
  assert (LF : length f = S (length t)) by (rewrite FW, Bus_Frame.wire_length by apply PH; lia).
  assert (NF : forall i, (3 <= i < length t)%nat -> rd f i = rd t i).
  { intros i Hi. unfold rd. rewrite FW, Bus_Props.nth_wire by (try apply PH; lia). rewrite <- NU by lia. unfold pad. apply app_nth1. lia. }
  assert (BF : Forall is_byte f).
  { rewrite FW. assert (BO : Forall is_byte (Bus_Spec.body own (pad u))).
    { unfold Bus_Spec.body. apply Forall_app. split.
      - constructor; [|constructor; [|constructor; [|constructor]]]; unfold is_byte, is_u16 in *.
        + unfold pad. rewrite app_nth1 by lia. rewrite N0. destruct rep; lia.
        + split; [apply Z.div_pos; lia|apply Z.div_lt_upper_bound; lia].
        + apply Z.mod_pos_bound. lia.
      - apply Bus_Frame.Forall_firstn, Bus_Frame.Forall_skipn. unfold pad. apply Forall_app. split; [exact BU|]. apply Forall_forall. intros z Hz. apply repeat_spec in Hz. subst z. unfold is_byte. lia. }
    unfold Bus_Spec.wire. apply Forall_app. split; [exact BO|]. constructor; [|constructor]. apply lxor_byte; [unfold is_byte; lia|]. apply Bus_Frame.xor_all_byte. exact BO. }
  assert (Q5 : nth 5 f 0 = rd t 5) by (apply NF; lia).
  split; [exact BF|]. split; [exact LF|]. split; [exact NF|]. split; [|split; [|split; [|split]]].
  - split; [lia|]. split; [reflexivity|]. split. { rewrite firstn_all2 by (unfold Bus_Spec.largest; lia). rewrite FW. apply Bus_Frame.wire_xor. }
    rewrite FW, Bus_Frame.nth0_wire. unfold pad. rewrite app_nth1 by lia. rewrite N0. destruct rep; reflexivity.
  - unfold Bus_Spec.wellSized. rewrite LF, SL. unfold Bus_Spec.size. rewrite Q5. reflexivity.
  - unfold dest. rewrite !NF by lia. exact F3.
  - rewrite NF by lia. rewrite F5. assert (Q : forallb (fun v => Z.testbit (224 + v) 7) (range_Z 16) = true) by reflexivity. apply (range_forall 16 _ Q). change (Z.of_nat 16) with 16.
    rewrite SL in L. unfold Bus_Spec.size in L. unfold rd in F5. rewrite F5 in L. clear - L R. pose proof (Z.mod_pos_bound (224 + Z.of_nat (n + 1)) 16). lia.
  - intros i _. apply rd_byte. exact B.
Qed.
Lemma frame_valid own rep t a n b7 : is_u16 own -> proper t -> ComObj_Spec.group_frame t a n b7 -> valid a (frame own rep t).
Proof.
  intros OW P G. destruct (frame_fields own rep t a n b7 OW P G) as (A & B & C & D & E & F & H & _). split; [exact A|]. split; [exact D|]. split; [exact E|]. intros e KG. left. split; [exact H|].
  right. unfold dest, ComObj_Spec.word16, rd in F. rewrite Z.mul_comm, F. exact KG.
Qed.
(** the receiver reads from the frame what the sender put in *)
Lemma payload_same typ t u : (forall i, (7 <= i)%nat -> rd u i = rd t i) -> ComObj_Spec.payload typ u = ComObj_Spec.payload typ t.
Proof. intros H. unfold ComObj_Spec.payload. destruct (_ <? 6); [rewrite H by lia; reflexivity|]. apply map_ext. intros i. apply H. lia. Qed.
Lemma frame_decode g m o a cmd own rep t : ComObj_Spec.cfg_ok g -> ComObj_Spec.mem_ok g m -> ComObj_Spec.obj_ok g o -> ComObj_Spec.short_ok g m o -> is_u16 a -> cmd = 128 \/ cmd = 64 ->
  ComObj_Spec.carries g m o a cmd t -> is_u16 own -> proper t -> command (frame own rep t) = cmd /\ ComObj_Spec.payload (ComObj_Spec.obj_typ g o) (frame own rep t) = ComObj_Spec.value g m o.
Proof.
  intros C M O SO U CM CA OW P. pose proof CA as (GF & _). destruct (frame_fields own rep t _ _ _ OW P GF) as (FB & FL & FN & _ & _ & FD & _ & _). set (f := frame own rep t) in *.
  pose proof GF as (L & F0 & _).
  assert (OB : ComObj_Spec.on_the_bus t (wr f 0 188)).
  { split; [apply Forall_wr; [exact FB|unfold is_byte; lia]|]. split; [rewrite wr_length; lia|]. intros i Hi H1 H2. destruct (Nat.eq_dec i 0) as [->|]; [rewrite rd_wr_same by lia; congruence|]. rewrite rd_wr_other by lia. apply FN. lia. }
  destruct (ComObj_Next.carried_decode g m o a cmd t _ C M O SO U CM CA OB) as (D1 & _ & D3).
  rewrite apci_cmd in D1 by apply OB. split.
  - rewrite <- D1. unfold command. rewrite !rd_wr_other by lia. reflexivity.
  - rewrite <- D3. apply payload_same. intros i Hi. rewrite rd_wr_other by lia. reflexivity.
Qed.
Lemma read_decode own rep t a : is_u16 own -> proper t -> ComObj_Spec.group_frame t a 0 0 -> command (frame own rep t) = 0.
Proof.
  intros OW P GF. destruct (frame_fields own rep t _ _ _ OW P GF) as (_ & _ & FN & _). destruct GF as (L & _ & _ & _ & F6 & F7). unfold command. rewrite !FN by lia. rewrite F6, F7. reflexivity.
Qed.

(** ** Requests survive reception *)
Lemma takes_request g t m m' q : (q < ComObj_Spec.num_objs g)%nat -> takes g t m m' -> ComObj_Spec.request g m' q = ComObj_Spec.request g m q.
Proof.
  intros Q (A & B). unfold ComObj_Spec.request. destruct (Z.eq_dec (ComObj_Spec.flags g m' q mod 8) (ComObj_Spec.flags g m q mod 8)) as [E|NE]; [exact E|]. exfalso. apply NE.
  destruct (B q Q) as (_ & ->); [|reflexivity]. intros (D1 & D2). apply NE. destruct (A q D1 D2) as (_ & -> & _). apply ComObj_Next.lor_8_mod8.
Qed.
Lemma reacts_request g h m m' ts q : (q < ComObj_Spec.num_objs g)%nat -> reacts g h m m' ts -> ComObj_Spec.request g m' q = ComObj_Spec.request g m q.
Proof.
  intros Q R. assert (S : same_objects g m m' -> ComObj_Spec.request g m' q = ComObj_Spec.request g m q) by (intros S; unfold ComObj_Spec.request; destruct (S q Q) as (_ & ->); reflexivity).
  unfold reacts in R. destruct h as [t|]; [|apply S, R]. destruct (command t =? 0x80); [apply (takes_request g t); [exact Q|apply R]|]. destruct (command t =? 0x40); [apply (takes_request g t); [exact Q|apply R]|].
  destruct (command t =? 0); [|apply S, R]. destruct R as [(_ & _ & R)|(k & _ & _ & _ & R & _)]; [apply S, R|apply R; exact Q].
Qed.
Lemma request_pending g m m' q : ComObj_Spec.request g m' q = ComObj_Spec.request g m q -> ComObj_Spec.pending g m' q -> ComObj_Spec.pending g m q.
Proof.
  unfold ComObj_Spec.request, ComObj_Spec.pending. intros E P. rewrite <- P. assert (X : forall v, v mod 4 = (v mod 8) mod 4) by (intros v; rewrite <- Znumtheory.Zmod_div_mod; [reflexivity|lia|lia|exists 2; reflexivity]).
  rewrite (X (ComObj_Spec.flags g m q)), (X (ComObj_Spec.flags g m' q)), E. reflexivity.
Qed.
Lemma request_read g m m' q : ComObj_Spec.request g m' q = ComObj_Spec.request g m q -> ComObj_Spec.wants_read g m' q = ComObj_Spec.wants_read g m q.
Proof.
  unfold ComObj_Spec.request, ComObj_Spec.wants_read. intros E. rewrite <- (Z.mod_pow2_bits_low (ComObj_Spec.flags g m' q) 3 2), <- (Z.mod_pow2_bits_low (ComObj_Spec.flags g m q) 3 2) by lia. change (2 ^ 3) with 8. rewrite E. reflexivity.
Qed.

(** ** One pass each *)
Lemma hears_does c g f i x y l : hears c g f i x y l -> Forall is_byte f -> is_group f -> ComObj_Spec.no_stray g (dest f) -> reacts g (Some f) (contents c x) (contents c y) (app_telegrams l).
Proof.
  intros ([K T SZ SG F R I] & HE & E & KQ) FB IG NS.
  assert (OK : nop_ok (NLoop i)). { intros r Q. unfold heard in HE. rewrite Q in HE. destruct (_ && _); [|discriminate]. injection HE as ->. exact FB. }
  assert (GO : group_only g i x). { intros t Q. rewrite HE in Q. injection Q as <-. split; assumption. }
  unfold nstep in E. rewrite R in E. destruct (nodeLoop c i x) as [[z o]|] eqn:NL; [|discriminate]. injection E as <- <-.
  destruct (pass_does c K T SZ g SG _ _ _ _ (node_good c K T SZ x F) I OK GO NL) as (m & ts1 & ts2 & RE & TS & CASES & _). rewrite HE in RE. cbn [fst snd] in *. rewrite TS.
  assert (D : ts2 = [] /\ same_objects g m (contents c z)).
  { destruct CASES as [(MS & S)|(_ & A & B & _)]; [|auto]. destruct S as [(q & t & Q1 & (_ & Q2) & _)|(_ & A & B & _)]; [exfalso|auto]. destruct KQ as [NM|NP]; [exact (NM MS)|].
    apply (NP q (proj2 Q1)). apply (request_pending g _ m); [|exact Q2]. apply (reacts_request _ _ _ _ _ _ (proj2 Q1) RE). }
  destruct D as (-> & D). rewrite app_nil_r. apply (reacts_same g SG _ _ m); assumption.
Qed.
(** the telegram with which a pass serves object [p] *)
Lemma served_tel c g p i x y l : stands c g x -> nop_ok (NLoop i) -> group_only g i x -> nstep c x (NLoop i) = Some (y, l) -> served c g p i x y l -> (p < ComObj_Spec.num_objs g)%nat ->
  exists ts t a, app_telegrams l = ts ++ [t] /\ proper t /\ ComObj_Spec.sending_addr g p a /\ ComObj_Spec.request g (contents c y) p = 1 /\
    (if ComObj_Spec.wants_read g (contents c x) p then ComObj_Spec.group_frame t a 0 0 else ComObj_Spec.short_ok g (contents c y) p -> ComObj_Spec.carries g (contents c y) p a 128 t).
Proof.
  intros [K T SZ SG F R I] OK GO E (m & ts & t & RE & TS & (a & SA & TEL & RQ & VA & _)) P. exists ts, t, a. split; [exact TS|].
  split. { unfold nstep in E. rewrite R in E. destruct (nodeLoop c i x) as [[z o]|] eqn:NL; [|discriminate]. injection E as <- <-. cbn [fst snd] in TS. pose proof (pass_proper c K T SZ g _ _ _ _ (node_good c K T SZ x F) OK GO NL) as PP.
           rewrite TS in PP. apply Forall_app in PP. destruct PP as (_ & PP). inversion PP; assumption. }
  split; [exact SA|]. split; [exact RQ|]. rewrite <- (request_read g _ _ p (reacts_request _ _ _ _ _ _ P RE)). destruct (ComObj_Spec.wants_read g m p); [exact TEL|].
  unfold ComObj_Spec.short_ok, ComObj_Spec.carries in *. rewrite VA. exact TEL.
Qed.
(** a frame with a value, taken by another device *)
Lemma value_taken c g f i x y l a : hears c g f i x y l -> Forall is_byte f -> dest f = a -> a <> 0 -> Z.testbit (rd f 5) 7 = true -> ComObj_Spec.no_stray g a -> command f = 128 \/ command f = 64 ->
  app_telegrams l = [] /\ (forall q, listens g a q -> ComObj_Spec.value g (contents c y) q = ComObj_Spec.payload (ComObj_Spec.obj_typ g q) f /\ ComObj_Spec.updated g (contents c y) q) /\
  (forall q, (q < ComObj_Spec.num_objs g)%nat -> ~ listens g a q -> same_object g (contents c x) (contents c y) q).
Proof.
  intros H FB <- NZ B7 NS CM. pose proof (hears_does _ _ _ _ _ _ _ H FB (conj NZ B7) NS) as R. unfold reacts in R.
  assert (TK : app_telegrams l = [] /\ takes g f (contents c x) (contents c y)) by (destruct CM as [E|E]; rewrite E in R; exact R). destruct TK as (A & TA & TB). split; [exact A|]. split.
  - intros q (L1 & L2). destruct (TA q L1 L2) as (V & _ & U). auto.
  - intros q Q NL. apply TB; [exact Q|exact NL].
Qed.
Lemma stands_ok c g x : stands c g x -> ComObj_Spec.mem_ok g (contents c x).
Proof. intros [K T SZ SG F R I]. apply (fit_ok c SZ g); [apply (node_good c K T SZ x F)|exact I]. Qed.
Lemma next_ok c g x i y l : stands c g x -> nop_ok (NLoop i) -> group_only g i x -> nstep c x (NLoop i) = Some (y, l) -> ComObj_Spec.mem_ok g (contents c y).
Proof.
  intros [K T SZ SG F R I] OK GO E. assert (FY : node_found c y) by (apply (node_then c x (NLoop i) y l); assumption).
  destruct (i_ram _ _ _ _ I) as (_ & GR). destruct (i_ee _ _ _ _ I) as (_ & GE). apply (fit_mem c g _ SZ GR GE). rewrite contents_user. apply userMem_fit. apply (node_good c K T SZ y FY).
Qed.
Lemma hears_proper c g f i x y l : hears c g f i x y l -> Forall is_byte f -> is_group f -> ComObj_Spec.no_stray g (dest f) -> Forall proper (app_telegrams l) /\ ComObj_Spec.mem_ok g (contents c y).
Proof.
  intros (ST & HE & E & KQ) FB IG NS. pose proof ST as [K T SZ SG F R I].
  assert (OK : nop_ok (NLoop i)). { intros r Q. unfold heard in HE. rewrite Q in HE. destruct (_ && _); [|discriminate]. injection HE as ->. exact FB. }
  assert (GO : group_only g i x). { intros t Q. rewrite HE in Q. injection Q as <-. split; assumption. }
  split; [|apply (next_ok c g x i y l); assumption].
  unfold nstep in E. rewrite R in E. destruct (nodeLoop c i x) as [[z o]|] eqn:NL; [|discriminate]. injection E as <- <-. apply (pass_proper c K T SZ g _ _ _ _ (node_good c K T SZ x F) OK GO NL).
Qed.
Lemma responder_paired g k q : ComObj_Spec.cfg_ok g -> In q (ComObj_Spec.responders g k) -> ComObj_Spec.paired g k q.
Proof.
  intros C H. unfold ComObj_Spec.responders in H. apply in_map_iff in H. destruct H as (i & <- & H). apply filter_In in H. destruct H as (H1 & H2). apply in_seq in H1. apply andb_true_iff in H2. destruct H2 as (H2 & _). apply Z.eqb_eq in H2.
  exists i. split; [lia|]. split; [exact H2|]. rewrite Z2Nat.id; [reflexivity|]. apply (rd_byte _ _ (ComObj_Spec.ok_assoc g C)).
Qed.
Lemma listens_num g a q : settled g -> listens g a q -> (q < ComObj_Spec.num_objs g)%nat.
Proof. intros SG ((k & _ & H) & _). apply (s_assoc g SG k q H). Qed.
