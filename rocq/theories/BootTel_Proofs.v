(** C124: proofs *)
From Verif Require Export BootTel_Model BootTel_Spec.
Open Scope Z_scope.
Local Opaque Z.mul Z.div Z.modulo.

(** ** Results are bytes *)
Ltac lit := first [unfold is_byte; lia|vm_compute; split; [discriminate|reflexivity]].
Lemma iap_byte s : is_byte (iapResult2UDPState s).
Proof. unfold iapResult2UDPState. destruct (Z.leb_spec 0 s); [destruct (Z.leb_spec s 11)|]; cbn [andb]; lit. Qed.
Lemma erasePage_byte L a b w : is_byte (fst (erasePageRange L a b w)).
Proof. unfold erasePageRange. destruct (_ || _); [cbv; intuition discriminate|]. destruct (iapErasePageRange L a b w). apply iap_byte. Qed.
Lemma eraseSector_byte L a b w : is_byte (fst (eraseSectorRange L a b w)).
Proof. unfold eraseSectorRange. destruct (_ || _); [cbv; intuition discriminate|]. destruct (iapEraseSectorRange L a b w). apply iap_byte. Qed.
Lemma middle_byte L a b r w : is_byte r -> is_byte (fst (eraseMiddle L a b r w)).
Proof. intros R. unfold eraseMiddle. destruct (a <=? b); [apply eraseSector_byte|exact R]. Qed.
Lemma tail_byte L a b r w : is_byte r -> is_byte (fst (eraseTail L a b r w)).
Proof.
  intros R. unfold eraseTail. cbv zeta. destruct (_ =? 16); [apply middle_byte; exact R|]. match goal with |- context [erasePageRange L ?x ?y ?z] => pose proof (erasePage_byte L x y z); destruct (erasePageRange L x y z) as [q v] end. cbn [fst] in *.
  destruct (negb _); [assumption|]. apply middle_byte. assumption.
Qed.
Lemma erase_byte L a b c w : is_byte (fst (eraseAddressRange L a b c w)).
Proof.
  unfold eraseAddressRange. destruct (c && _); [cbv; intuition discriminate|]. cbv zeta. destruct (_ <? 16); [apply erasePage_byte|]. destruct (negb (is_aligned a 4096)).
  - match goal with |- context [erasePageRange L ?x ?y ?z] => pose proof (erasePage_byte L x y z); destruct (erasePageRange L x y z) as [q v] end. cbn [fst] in *. destruct (negb _); [assumption|]. apply tail_byte. assumption.
  - apply tail_byte. cbv. intuition discriminate.
Qed.
Lemma exec_byte L a f n b w : is_byte (fst (executeProgramFlash L a f n b w)).
Proof. unfold executeProgramFlash. destruct (negb _); [cbv; intuition discriminate|]. destruct (iapProgram L a f n w). apply iap_byte. Qed.
Lemma while_byte L src bs fuel : forall p p', is_byte (p_err p) -> progWhile fuel L src bs p = Some p' -> is_byte (p_err p').
Proof.
  induction fuel as [|n IH]; intros p p' B; cbn [progWhile]; destruct (bs <=? p_count p); try discriminate; try (intros [= <-]; exact B).
  match goal with |- context [executeProgramFlash L ?a ?f ?m ?b ?w] => pose proof (exec_byte L a f m b w) as K; destruct (executeProgramFlash L a f m b w) as [r v] end. cbn [fst] in K. destruct (negb _); [intros [= <-]; exact K|]. apply IH. exact K.
Qed.
Lemma for_byte fuel L src sizes : forall p p', is_byte (p_err p) -> progFor fuel L src sizes p = Some p' -> is_byte (p_err p').
Proof.
  induction sizes as [|bs r IH]; intros p p' B; cbn [progFor]; [intros [= <-]; exact B|]. destruct (bufferSize <? bs); [apply IH; exact B|]. destruct (progWhile fuel L src bs p) as [q|] eqn:E; [|discriminate]. pose proof (while_byte L src bs fuel p q B E). destruct (_ || _); [intros [= <-]; assumption|]. apply IH. assumption.
Qed.
Lemma outer_byte L src fuel outer : forall p p', is_byte (p_err p) -> progOuter outer fuel L src p = Some p' -> is_byte (p_err p').
Proof.
  induction outer as [|n IH]; intros p p' B; cbn [progOuter]; destruct (_ && _); try discriminate; try (intros [= <-]; exact B).
  destruct (progFor fuel L src _ p) as [q|] eqn:E; [|discriminate]. pose proof (for_byte fuel L src _ p q B E) as Q. destruct (_ && _); [|apply IH; exact Q].
  match goal with |- context [executeProgramFlash L ?a ?f ?m ?b ?w] => pose proof (exec_byte L a f m b w) as K; destruct (executeProgramFlash L a f m b w) as [r v] end. cbn [fst] in K. intros [= <-]. exact K.
Qed.

(** ** The shape of a reply *)
Definition good (r : reply) : Prop := is_byte (fst r) /\ Forall is_byte (snd r) /\ Z.of_nat (length (snd r)) = replyCount (fst r).
Lemma good_error r : is_byte r -> good (lastError r).
Proof. intros B. split; [lit|]. split; [constructor; [exact B|constructor]|reflexivity]. Qed.
Ltac err := apply good_error; first [assumption|lit].
Lemma bytes_at_good f a n : (forall x, is_byte (f x)) -> Forall is_byte (bytes_at f a n) /\ length (bytes_at f a n) = Z.to_nat n.
Proof. intros F. unfold bytes_at. rewrite map_length, seq_length. split; [|reflexivity]. apply Forall_forall. intros x H. apply in_map_iff in H. destruct H as (i & <- & _). apply F. Qed.
Lemma u32s_bytes v : Forall is_byte (uInt32ToStream v).
Proof. repeat (constructor; [apply u8_byte|]). constructor. Qed.
Lemma handle_good L e m s s' r : bytes_only L e s -> handle L e m s = Some (s', r) -> good r.
Proof.
  intros (F & Uid & Ul & St & Sl). unfold handle. destruct m as [|c data]; [intros [= <- <-]; err|]. destruct (code2UPDCommand c) as [code [lo hi]]. destruct (code =? 0); [intros [= <- <-]; err|]. destruct (_ || _); [intros [= <- <-]; err|]. destruct (_ && _); [intros [= <- <-]; err|].
  unfold dispatch.
  destruct (code =? 0xbf). { unfold updUnlockDevice. cbv zeta. repeat match goal with |- context [if ?b then _ else _] => destruct b end; intros [= <- <-]; err. }
  destruct (code =? 0xbe).
  { assert (FU : Forall is_byte (firstn 12 (chip_uid L))) by (apply Forall_forall; intros x H; apply (proj1 (Forall_forall _ _) Uid); rewrite <- (firstn_skipn 12 (chip_uid L)); apply in_or_app; left; exact H).
    assert (LU : length (firstn 12 (chip_uid L)) = 12%nat) by (rewrite firstn_length; lia). generalize dependent (firstn 12 (chip_uid L)). intros u FU LU [= <- <-]. split; [lit|]. cbn [fst snd]. split; [exact FU|]. rewrite LU. reflexivity. }
  destruct (code =? 0xbc). { intros [= <- <-]. split; [lit|]. cbn [fst snd]. unfold appVersion. cbv zeta. destruct (_ && _); [destruct (bytes_at_good (fl s) (le32 (descriptor L (fl s)) 12) 12 F) as [A B]; split; [exact A|rewrite B; reflexivity]|]. split; [|reflexivity]. unfold bl_id_string. repeat (constructor; [lit|]). constructor. }
  destruct (code =? 0xef). { unfold updSendData. cbv zeta. destruct (_ <? _); intros [= <- <-]; err. }
  destruct (code =? 0xee).
  { unfold updProgram. cbv zeta. do 5 (match goal with |- context [if ?b then _ else _] => destruct b; [intros [= <- <-]; err|] end). destruct (progOuter 3 8 L (ramAt s e) _) as [p|] eqn:E; [|discriminate]. intros [= <- <-]. apply good_error. refine (outer_byte _ _ _ _ _ _ _ E). cbn [p_err]. cbv. intuition discriminate. }
  destruct (code =? 0xec). { destruct (putBytes L (fl s) data (dec s)); [|discriminate]. intros [= <- <-]. err. }
  destruct (code =? 0xeb).
  { unfold updProgramDecompressed. do 2 (match goal with |- context [if ?b then _ else _] => destruct b; [intros [= <- <-]; err|] end). unfold pageCompletedDoFlash. destruct (_ <? _); [discriminate|]. cbv zeta. destruct (list_eq_dec Z.eq_dec _ _); [intros [= <- <-]; err|].
    destruct (erasePageRange L _ _ _) as [q w]. match goal with |- context [executeProgramFlash L ?a ?f ?m ?b ?w] => pose proof (exec_byte L a f m b w) as K; destruct (executeProgramFlash L a f m b w) as [r' v] end. intros [= <- <-]. apply good_error. exact K. }
  destruct (code =? 0xea). { unfold updEraseFullFlash, eraseFullFlash. cbv zeta. match goal with |- context [eraseAddressRange L ?a ?b ?c ?w] => pose proof (erase_byte L a b c w) as K; destruct (eraseAddressRange L a b c w) as [r' v] end. intros [= <- <-]. apply good_error. exact K. }
  destruct (code =? 0xe9). { unfold updEraseAddressRange. match goal with |- context [eraseAddressRange L ?a ?b ?c ?w] => pose proof (erase_byte L a b c w) as K; destruct (eraseAddressRange L a b c w) as [r' v] end. intros [= <- <-]. apply good_error. exact K. }
  destruct (code =? 0xe7). { intros [= <- <-]. err. }
  destruct (code =? 0xdf). { intros [= <- <-]. split; [lit|]. cbn [fst snd]. split; [exact St|]. rewrite Sl. reflexivity. }
  destruct (code =? 0xed).
  { unfold updUpdateBootDescriptorBlock. cbv zeta. do 2 (match goal with |- context [if ?b then _ else _] => destruct b; [intros [= <- <-]; err|] end).
    assert (Ck : forall f x, is_byte x -> is_byte (if checkApplication L f (at_ (ram s)) then x else UDP_APPLICATION_NOT_STARTABLE)) by (intros f x X; destruct (checkApplication L f _); [exact X|cbv; intuition discriminate]).
    destruct (list_eq_dec Z.eq_dec _ _); [intros [= <- <-]; apply good_error, Ck; cbv; intuition discriminate|]. match goal with |- context [erasePageRange L ?x ?y ?z] => pose proof (erasePage_byte L x y z) as K1; destruct (erasePageRange L x y z) as [q v] end. cbn [fst] in K1. destruct (negb _); [intros [= <- <-]; apply good_error; exact K1|].
    match goal with |- context [executeProgramFlash L ?a ?f ?m ?b ?w] => pose proof (exec_byte L a f m b w) as K; destruct (executeProgramFlash L a f m b w) as [r' v'] end. cbn [fst] in K. destruct (_ =? _); intros [= <- <-]; apply good_error; [exact K|apply Ck; exact K]. }
  destruct (code =? 0xba).
  { unfold udpRequestBootDescriptionBlock. cbv zeta. intros [= <- <-]. split; [lit|]. cbn [fst snd].
    match goal with |- context [bytes_at ?f ?a 12] => destruct (bytes_at_good f a 12) as [A B] end; [intros x; destruct (_ && _); [apply F|unfold over; destruct (_ && _); [lit|apply F]]|]. split; [exact A|]. rewrite B. reflexivity. }
  destruct (code =? 0xb8). { unfold updRequestBootloaderIdentity. destruct (_ || _); intros [= <- <-]; (split; [lit|]); cbn [fst snd]. - split; [|reflexivity]. repeat (constructor; [lit|]). apply u32s_bytes. - split; [|reflexivity]. repeat (constructor; [lit|]). constructor. }
  destruct (code =? 0xe8); intros [= <- <-]; err.
Qed.

(** ** Encoding *)
Lemma firstn_wr (l : list Z) i n v : (n <= i)%nat -> firstn n (wr l i v) = firstn n l.
Proof. revert i n. induction l as [|a l IH]; intros [|i] [|n] H; cbn; try reflexivity; try lia. f_equal. apply IH. lia. Qed.
Lemma firstn_wr_range (src : list Z) : forall l i n, (n <= i)%nat -> firstn n (wr_range l i src) = firstn n l.
Proof. induction src as [|a r IH]; intros l i n H; cbn [wr_range]; [reflexivity|]. rewrite IH by lia. apply firstn_wr. exact H. Qed.
Lemma rd_wr_range (src : list Z) : forall l i j, (j < i)%nat -> rd (wr_range l i src) j = rd l j.
Proof. induction src as [|a r IH]; intros l i j H; cbn [wr_range]; [reflexivity|]. rewrite IH by lia. apply rd_wr_other. lia. Qed.
Lemma skipn_wr (l : list Z) i v : (i < length l)%nat -> skipn i (wr l i v) = v :: skipn (S i) l.
Proof. revert i. induction l as [|a l IH]; intros [|i] H; cbn [length wr skipn] in *; try lia; [reflexivity|]. apply IH. lia. Qed.
Lemma skipn_wr_range0 (src : list Z) : forall l i n, (n <= i)%nat -> (i + length src <= length l)%nat -> skipn n (wr_range l i src) = firstn (i - n) (skipn n l) ++ src ++ skipn (i + length src) l.
Proof.
  intros l i n H L. apply list_ext with (d := 0).
  - rewrite skipn_length, wr_range_length, !app_length, firstn_length, !skipn_length. lia.
  - intros j J. rewrite skipn_length, wr_range_length in J. assert (Nk : forall k (x : list Z), nth j (skipn k x) 0 = nth (k + j) x 0) by (intros k; induction k; intros [|y x]; cbn; auto; destruct j; reflexivity).
    rewrite Nk, nth_wr_range by exact L. destruct (Nat.leb_spec i (n + j)) as [A|A]; cbn [andb].
    + rewrite app_nth2 by (rewrite firstn_length, skipn_length; lia). rewrite firstn_length, skipn_length. replace (Nat.min (i - n) (length l - n)) with (i - n)%nat by lia. destruct (Nat.ltb_spec (n + j) (i + length src)) as [B|B].
      * rewrite app_nth1 by lia. f_equal. lia.
      * rewrite app_nth2 by lia. assert (Nk2 : forall m k (x : list Z), nth m (skipn k x) 0 = nth (k + m) x 0) by (intros m k; induction k; intros [|y x]; cbn; auto; destruct m; reflexivity). rewrite Nk2. f_equal. lia.
    + rewrite app_nth1 by (rewrite firstn_length, skipn_length; lia).
      assert (Nk2 : forall m k (x : list Z), nth m (skipn k x) 0 = nth (k + m) x 0) by (intros m k; induction k; intros [|y x]; cbn; auto; destruct m; reflexivity).
      assert (Nf : forall k m (x : list Z), (m < k)%nat -> nth m (firstn k x) 0 = nth m x 0) by (intros k; induction k; intros [|m] [|y x] Hm; cbn; auto; try lia; apply IHk; lia). rewrite Nf by lia. rewrite Nk2. reflexivity.
Qed.
Lemma read_back (src l : list Z) i : (i + length src <= length l)%nat -> firstn (length src) (skipn i (wr_range l i src)) = src.
Proof. intros H. rewrite skipn_wr_range0 by lia. rewrite Nat.sub_diag. cbn [firstn app]. rewrite firstn_app, Nat.sub_diag, firstn_all, app_nil_r. reflexivity. Qed.
Lemma map_u8 l : Forall is_byte l -> map u8 l = l.
Proof. induction 1 as [|a l B F IH]; [reflexivity|]. cbn [map]. rewrite IH, u8_id by exact B. reflexivity. Qed.
Lemma replyCount_small c : 1 <= replyCount c <= 12.
Proof. unfold replyCount. repeat destruct (_ =? _); lia. Qed.
Lemma answer_good debug sb r : good r -> (23 <= length sb)%nat -> exists t, answer debug sb r = Some t /\ read_answer t = Some r /\ same_head sb t /\ rd t 5 = 0x60 + 2 + Z.of_nat (length (snd r)).
Proof.
  intros (B & F & Ln) Lb. destruct r as [c d]. cbn [fst snd] in *. unfold answer, prepareReturnTelegram. cbn [fst snd]. pose proof (replyCount_small c) as Rc. cbv zeta. destruct (Z.ltb_spec 15 (replyCount c + 2)) as [A|A]; [lia|]. rewrite <- Ln in *.
  set (t0 := wr (setApciCommand _ _ _) 8 c). eexists. split; [reflexivity|]. rewrite (map_u8 d F).
  assert (L0 : length t0 = length sb) by (unfold t0, setApciCommand; rewrite !wr_length; reflexivity).
  assert (R5 : rd t0 5 = 0x60 + 2 + Z.of_nat (length d)). { unfold t0, setApciCommand. rewrite !rd_wr_other by lia. rewrite rd_wr_same by lia. rewrite u8_id by (unfold is_byte; lia). lia. }
  assert (R6 : rd t0 6 = 2). { unfold t0, setApciCommand. do 2 rewrite rd_wr_other by lia. rewrite rd_wr_other by lia. rewrite rd_wr_same by (rewrite wr_length; lia). reflexivity. }
  assert (R7 : rd t0 7 = 0xFE). { unfold t0, setApciCommand. rewrite rd_wr_other by lia. rewrite rd_wr_same by (rewrite !wr_length; lia). rewrite rd_wr_same by (rewrite !wr_length; lia). reflexivity. }
  assert (R8 : rd t0 8 = c). { unfold t0. apply rd_wr_same. unfold setApciCommand. rewrite !wr_length. lia. }
  split; [|split; [split; [rewrite firstn_wr_range by lia; unfold t0, setApciCommand; rewrite !firstn_wr by lia; reflexivity|rewrite wr_range_length; exact L0]|rewrite rd_wr_range by lia; exact R5]].
  unfold read_answer, service. rewrite !rd_wr_range by lia. rewrite R5, R6, R7, R8. change (2 mod 4 * 256 + 0xFE =? 0x2FE) with true. cbv iota. do 2 f_equal.
  replace ((0x60 + 2 + Z.of_nat (length d)) mod 16) with (2 + Z.of_nat (length d)) by (rewrite <- (Z.mod_small (2 + Z.of_nat (length d)) 16) at 1 by lia; rewrite <- (Z.mod_add (2 + Z.of_nat (length d)) 6 16) by lia; f_equal; lia).
  replace (Z.to_nat (2 + Z.of_nat (length d)) - 2)%nat with (length d) by lia. apply read_back. lia.
Qed.
