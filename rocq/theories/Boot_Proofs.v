(** Bootloader proofs: flash access, locking, start of the application, download. *)
From Verif Require Import Base Bits CRC_Model CRC_Spec CRC_Proofs Boot_Model Boot_Spec.

Lemma bytes_at_length f a n : length (bytes_at f a n) = Z.to_nat n.
Proof. unfold bytes_at. rewrite map_length, seq_length. reflexivity. Qed.
Lemma bytes_at_ok f a n : (forall x, is_byte (f x)) -> Forall is_byte (bytes_at f a n).
Proof. intros H. unfold bytes_at. apply Forall_forall. intros x. rewrite in_map_iff. intros (i & <- & _). apply H. Qed.
Lemma nth_bytes_at f a n i : (i < Z.to_nat n)%nat -> nth i (bytes_at f a n) 0 = f (a + Z.of_nat i).
Proof.
  intros H. unfold bytes_at. rewrite (nth_indep _ 0 (f (a + Z.of_nat 0))) by (rewrite map_length, seq_length; auto).
  rewrite (map_nth (fun i => f (a + Z.of_nat i))). rewrite seq_nth by auto. f_equal.
Qed.
Lemma bytes_at_eq f g a b n : bytes_at f a n = bytes_at g b n <-> (forall i, 0 <= i < n -> f (a + i) = g (b + i)).
Proof.
  split.
  - intros H i Hi. apply (f_equal (fun l => nth (Z.to_nat i) l 0)) in H.
    rewrite !nth_bytes_at in H by lia. rewrite Z2Nat.id in H by lia. exact H.
  - intros H. apply (list_ext _ _ _ 0).
    + rewrite !bytes_at_length. reflexivity.
    + rewrite bytes_at_length. intros i Hi. rewrite !nth_bytes_at by lia. apply H. lia.
Qed.

(** ** Layout *)
Lemma appFirst_bounds L : image_end L + 256 <= appFirst L <= image_end L + 256 + 254.
Proof.
  unfold appFirst. set (x := image_end L + 256). pose proof (Z.mod_pos_bound (- x) 256 ltac:(lia)).
  destruct (Z.leb_spec ((-x) mod 256 + 1) 255); lia.
Qed.
Lemma s32_small a : 0 <= a < 2^31 -> s32 a = a.
Proof. intros H. unfold s32. rewrite u32_id by (red; lia). destruct (Z.ltb_spec a 2147483648); lia. Qed.
Lemma page_of a : 0 <= a < 2^31 -> iapPageOfAddress a = a / 256.
Proof.
  intros H. unfold iapPageOfAddress. rewrite s32_small by auto. rewrite Z.quot_div_nonneg by lia.
  apply u32_id. red. split; [apply Z.div_pos; lia|]. apply Z.div_lt_upper_bound; lia.
Qed.
Lemma sector_of a : 0 <= a < 2^31 -> iapSectorOfAddress a = a / 4096.
Proof.
  intros H. unfold iapSectorOfAddress. rewrite s32_small by auto. rewrite Z.quot_div_nonneg by lia.
  apply u32_id. red. split; [apply Z.div_pos; lia|]. apply Z.div_lt_upper_bound; lia.
Qed.
Lemma page_allowed L p : layout_ok L ->
  pageAllowedToErase L p = ((image_end L - 1) / 256 <? p) && (p <=? (flash_top L - 1) / 256).
Proof.
  intros (H1 & H2 & H3 & H4 & _). unfold pageAllowedToErase, bootLoaderLast, flashLast.
  rewrite !page_of by lia. reflexivity.
Qed.
Lemma sector_allowed L p : layout_ok L ->
  sectorAllowedToErase L p = ((image_end L - 1) / 4096 <? p) && (p <=? (flash_top L - 1) / 4096).
Proof.
  intros (H1 & H2 & H3 & H4 & _). unfold sectorAllowedToErase, bootLoaderLast, flashLast.
  rewrite !sector_of by lia. reflexivity.
Qed.
Lemma aligned_256 a : is_aligned a 256 = (a mod 256 =? 0).
Proof. unfold is_aligned. change (256 - 1) with 255. rewrite land_255. reflexivity. Qed.
Lemma aligned_4096 a : is_aligned a 4096 = (a mod 4096 =? 0).
Proof. unfold is_aligned. change (4096 - 1) with (Z.ones 12). rewrite Z.land_ones by lia. reflexivity. Qed.

(** ** Flash operations leave the bootloader alone *)
Definition prot (L : layout) (w w' : wk) : Prop :=
  (forall a, a < image_end L -> fst w' a = fst w a) /\
  (flash_ok (fst w) -> Forall iap_ok (snd w) -> flash_ok (fst w') /\ Forall iap_ok (snd w')).
Lemma prot_refl L w : prot L w w.
Proof. split; auto. Qed.
Lemma prot_trans L a b c : prot L a b -> prot L b c -> prot L a c.
Proof.
  intros (A1 & A2) (B1 & B2). split.
  - intros x Hx. rewrite B1, A1; auto.
  - intros H1 H2. destruct (A2 H1 H2). auto.
Qed.
Lemma over_out lo n new old a : a < lo -> over lo n new old a = old a.
Proof. intros. unfold over. destruct (Z.leb_spec lo a); simpl; auto. lia. Qed.
Lemma over_ok lo n new old : flash_ok new -> flash_ok old -> flash_ok (over lo n new old).
Proof. intros H1 H2 a. unfold over. destruct (_ && _); auto. Qed.
Lemma iapCall_prot L valid lo n new w r w' :
  (valid = true -> image_end L <= lo) -> flash_ok new -> iapCall valid lo n new w = (r, w') -> prot L w w'.
Proof.
  unfold iapCall. intros Hv Hn. destruct valid; simpl; [|intros [= <- <-]; apply prot_refl].
  specialize (Hv eq_refl). destruct w as [f l]; simpl.
  destruct l as [|[|s g] l]; intros [= <- <-]; split; simpl; intros.
  - rewrite over_out by lia; auto.
  - split; auto using over_ok.
  - rewrite over_out by lia; auto.
  - inversion H0; subst. split; auto using over_ok.
  - rewrite over_out by lia; auto.
  - inversion H0; subst. simpl in H3. destruct H3. split; auto using over_ok.
Qed.
Lemma iapCall_prot' L valid lo n new w r w' :
  (valid = true -> image_end L <= lo) -> (flash_ok (fst w) -> flash_ok new) -> iapCall valid lo n new w = (r, w') -> prot L w w'.
Proof.
  intros Hv Hn E. assert (Q : forall a, a < image_end L -> fst w' a = fst w a).
  { revert E. unfold iapCall. destruct valid; simpl; [|intros [= <- <-]; auto]. specialize (Hv eq_refl).
    destruct w as [f l]; simpl. destruct l as [|[|s g] l]; intros [= <- <-] a Ha; simpl; rewrite over_out by lia; auto. }
  split; auto. intros F. apply (iapCall_prot L valid lo n new w r w'); auto.
Qed.
Lemma ff_ok : flash_ok (fun _ => 0xFF). Proof. intros a. red. lia. Qed.

Lemma erasePageRange_prot L s e w r w' : layout_ok L -> erasePageRange L s e w = (r, w') -> prot L w w'.
Proof.
  intros HL. unfold erasePageRange. rewrite !page_allowed by auto.
  destruct (_ || _) eqn:E; [intros [= <- <-]; apply prot_refl|].
  destruct (iapErasePageRange L s e w) as [q w1] eqn:E1. intros [= <- <-].
  revert E1. apply iapCall_prot; [|apply ff_ok].
  intros Hv. apply orb_false_iff in E. rewrite !negb_false_iff in E. destruct E as (E & _). destruct HL as (H1 & _).
  apply andb_prop in E. destruct E as [E _]. apply Z.ltb_lt in E.
  pose proof (Z.div_mod (image_end L - 1) 256 ltac:(lia)). pose proof (Z.mod_pos_bound (image_end L - 1) 256 ltac:(lia)). lia.
Qed.
Lemma eraseSectorRange_prot L s e w r w' : layout_ok L -> eraseSectorRange L s e w = (r, w') -> prot L w w'.
Proof.
  intros HL. unfold eraseSectorRange. rewrite !sector_allowed by auto.
  destruct (_ || _) eqn:E; [intros [= <- <-]; apply prot_refl|].
  destruct (iapEraseSectorRange L s e w) as [q w1] eqn:E1. intros [= <- <-].
  revert E1. apply iapCall_prot; [|apply ff_ok].
  intros Hv. apply orb_false_iff in E. rewrite !negb_false_iff in E. destruct E as (E & _). destruct HL as (H1 & _).
  apply andb_prop in E. destruct E as [E _]. apply Z.ltb_lt in E.
  pose proof (Z.div_mod (image_end L - 1) 4096 ltac:(lia)). pose proof (Z.mod_pos_bound (image_end L - 1) 4096 ltac:(lia)). lia.
Qed.
Lemma eraseTail_prot L s e q w r w' : layout_ok L -> eraseTail L s e q w = (r, w') -> prot L w w'.
Proof.
  intros HL. unfold eraseTail, eraseMiddle. cbv zeta.
  destruct (_ =? 16).
  - destruct (_ <=? _); [apply eraseSectorRange_prot; auto|intros [= <- <-]; apply prot_refl].
  - destruct (erasePageRange _ _ _ w) as [q1 w1] eqn:E1. apply erasePageRange_prot in E1; auto.
    destruct (negb _); [intros [= <- <-]; auto|].
    destruct (_ <=? _); [intros E2; apply eraseSectorRange_prot in E2; eauto using prot_trans|intros [= <- <-]; auto].
Qed.
Lemma eraseAddressRange_prot L s e c w r w' : layout_ok L -> eraseAddressRange L s e c w = (r, w') -> prot L w w'.
Proof.
  intros HL. unfold eraseAddressRange. cbv zeta.
  destruct (c && _); [intros [= <- <-]; apply prot_refl|].
  destruct (_ <? 16); [apply erasePageRange_prot; auto|].
  destruct (negb (is_aligned s 4096)); [|apply eraseTail_prot; auto].
  destruct (erasePageRange _ _ _ w) as [q1 w1] eqn:E1. apply erasePageRange_prot in E1; auto.
  destruct (negb _); [intros [= <- <-]; auto|].
  intros E2. apply eraseTail_prot in E2; eauto using prot_trans.
Qed.
Lemma allowed_ge L a n b : layout_ok L -> addressAllowedToProgram L a n b = true -> image_end L <= a.
Proof.
  intros HL. unfold addressAllowedToProgram. destruct (_ || _); [discriminate|].
  pose proof (appFirst_bounds L). unfold bootDescAddr.
  destruct b; intros E; apply andb_prop in E; destruct E as [E _]; apply Z.leb_le in E; lia.
Qed.
Lemma executeProgramFlash_prot L a src n b w r w' : layout_ok L -> (forall i, is_byte (src i)) ->
  executeProgramFlash L a src n b w = (r, w') -> prot L w w'.
Proof.
  intros HL Hs. unfold executeProgramFlash. destruct (addressAllowedToProgram L a n b) eqn:E; simpl; [|intros [= <- <-]; apply prot_refl].
  unfold iapProgram. destruct (iapCall _ _ _ _ w) as [q w1] eqn:E1.
  assert (P : prot L w w1).
  { revert E1. apply iapCall_prot'; [intros _; eapply allowed_ge; eauto|]. intros _ x. apply land_byte_r, Hs. }
  destruct ((q =? 0) && _); intros [= <- <-]; exact P.
Qed.

(** ** Invariant of the updater *)
Definition dec_inv (L : layout) (d : decomp) : Prop :=
  length (cmdBuffer d) = 5%nat /\ length (scratchpad d) = 256%nat /\ length (oldPages d) = 512%nat /\
  Forall is_byte (scratchpad d) /\ Forall is_byte (oldPages d) /\ 0 <= bytesToFlash d <= 256 /\
  0 <= pageAddr d <= flash_top L.
Record inv (L : layout) (s : upd) : Prop := {
  i_fl : flash_ok (fl s);
  i_ram : length (ram s) = 1265%nat;
  i_ramb : Forall is_byte (ram s);
  i_pos : 0 <= pos s <= 1265;
  i_dec : dec_inv L (dec s)
}.
Lemma Forall_wr_range (P : Z -> Prop) src : forall l i, Forall P l -> Forall P src -> Forall P (wr_range l i src).
Proof. induction src; simpl; intros; auto. inversion H0; subst. apply IHsrc; auto using Forall_wr. Qed.
Lemma Forall_firstn A (P : A -> Prop) n l : Forall P l -> Forall P (firstn n l).
Proof. intros H. rewrite <- (firstn_skipn n l) in H. apply Forall_app in H. apply H. Qed.
Lemma Forall_skipn A (P : A -> Prop) n l : Forall P l -> Forall P (skipn n l).
Proof. intros H. rewrite <- (firstn_skipn n l) in H. apply Forall_app in H. apply H. Qed.
Lemma Forall_repeat_ A (P : A -> Prop) x n : P x -> Forall P (repeat x n).
Proof. intros; induction n; simpl; auto. Qed.
Lemma at_byte l i : Forall is_byte l -> is_byte (at_ l i).
Proof. intros. apply rd_byte; auto. Qed.

Lemma getLength_nonneg c : Forall is_byte c -> 0 <= getLength c.
Proof.
  intros H. unfold getLength. pose proof (rd_byte c 0 H). pose proof (rd_byte c 1 H). unfold is_byte in *.
  assert (0 <= Z.land (rd c 0) 63) by (apply Z.land_nonneg; lia).
  destruct (isLong c); auto. apply Z.lor_nonneg. split. apply Z.shiftl_nonneg; auto. apply Z.land_nonneg; lia.
Qed.

(** ** Decompressor keeps its invariant *)
Lemma getLength_pos c : 0 <= getLength c.
Proof.
  unfold getLength. assert (0 <= Z.land (rd c 0) 63) by (apply Z.land_nonneg; lia).
  destruct (isLong c); auto. apply Z.lor_nonneg. split. apply Z.shiftl_nonneg; auto. apply Z.land_nonneg; lia.
Qed.
Lemma wr_range_ok l i src : Forall is_byte l -> Forall is_byte src -> Forall is_byte (wr_range l i src).
Proof. apply Forall_wr_range. Qed.
Lemma putByte_inv L f b d d' : flash_ok f -> is_byte b -> dec_inv L d -> putByte L f b d = Some d' -> dec_inv L d'.
Proof.
  intros Hf Hb (I1 & I2 & I3 & I4 & I5 & I6 & I7). unfold putByte. cbv zeta.
  destruct (dst_ d).
  - destruct (1 <? _); intros [= <-]; repeat apply conj; simpl; rewrite ?wr_length; auto; lia.
  - destruct (5 <=? _); [discriminate|].
    destruct (negb _); [intros [= <-]; repeat apply conj; simpl; rewrite ?wr_length; auto; lia|].
    set (c := wr (cmdBuffer d) _ b). assert (Hc : length c = 5%nat) by (unfold c; rewrite wr_length; auto).
    destruct (Z.land (rd c 0) 128 =? 128); [|intros [= <-]; repeat apply conj; simpl; auto; lia].
    destruct (Z.ltb_spec 256 (bytesToFlash d + getLength c)); [discriminate|].
    destruct (if isCopyFromRam c then _ else _); [discriminate|].
    intros [= <-]. pose proof (getLength_pos c). repeat apply conj; simpl; rewrite ?wr_range_length; auto; try lia.
    apply wr_range_ok; auto. destruct (isCopyFromRam c); apply bytes_at_ok; auto. intros; apply at_byte; auto.
  - destruct (Z.leb_spec 256 (bytesToFlash d)); [discriminate|].
    intros [= <-]. repeat apply conj; simpl; rewrite ?wr_length; auto using Forall_wr; lia.
Qed.
Lemma putBytes_inv L f l : forall d d', flash_ok f -> Forall is_byte l -> dec_inv L d -> putBytes L f l d = Some d' -> dec_inv L d'.
Proof.
  induction l; simpl; intros d d' Hf Hl Hd; [intros [= <-]; auto|]. inversion Hl; subst.
  destruct (putByte L f a d) eqn:E; [|discriminate]. apply IHl; auto. eapply putByte_inv; eauto.
Qed.
Lemma decInit_inv L a : 0 <= a <= flash_top L -> dec_inv L (decInit a).
Proof.
  intros. repeat apply conj; try reflexivity; try (simpl; lia); apply Forall_repeat_; red; lia.
Qed.

(** ** Programming *)
Definition iap_size (n : Z) : Prop := n = 256 \/ n = 512 \/ n = 1024 \/ n = 4096.
Definition all_ok (l : list iap_res) : Prop := Forall (fun r => r = IapOk) l.
Lemma result_range s : 1 <= s <= 11 -> 0x73 <= iapResult2UDPState s < 0x7f.
Proof. intros. unfold iapResult2UDPState. destruct ((0 <=? s) && (s <=? 11)); lia. Qed.

Lemma iapCall_spec lo n new w r w' : Forall iap_ok (snd w) -> iapCall true lo n new w = (r, w') ->
  (forall x, ~ (lo <= x < lo + n) -> fst w' x = fst w x) /\
  (r = 0 -> forall x, lo <= x < lo + n -> fst w' x = new x) /\ 0 <= r <= 11 /\
  Forall iap_ok (snd w') /\ (all_ok (snd w) -> r = 0 /\ all_ok (snd w')).
Proof.
  unfold iapCall. simpl. destruct w as [f l]; simpl. intros Hl.
  assert (Ho : forall new x, ~ (lo <= x < lo + n) -> over lo n new f x = f x).
  { intros nw x Hx. unfold over. destruct (Z.leb_spec lo x), (Z.ltb_spec x (lo + n)); simpl; auto; lia. }
  assert (Hi : forall x, lo <= x < lo + n -> over lo n new f x = new x).
  { intros x Hx. unfold over. destruct (Z.leb_spec lo x), (Z.ltb_spec x (lo + n)); simpl; auto; lia. }
  destruct l as [|[|s g] l]; intros [= <- <-]; simpl.
  - repeat split; auto; lia.
  - inversion Hl; subst. repeat split; auto; try lia. unfold all_ok in *. inversion H; auto.
  - inversion Hl; subst. simpl in H1. destruct H1 as [H1 H3]. repeat split; auto; try lia.
    + inversion H; discriminate.
    + inversion H; discriminate.
Qed.
Lemma land_ff_l v : is_byte v -> Z.land 255 v = v.
Proof. intros H. rewrite Z.land_comm, land_255. apply Z.mod_small. auto. Qed.
Lemma iapProgram_spec L a src n w q w' : Forall iap_ok (snd w) -> 0 <= n ->
  (a mod 256 =? 0) && existsb (Z.eqb n) [256; 512; 1024; 4096] && (a + n <=? flash_top L) = true ->
  iapProgram L a src n w = (q, w') ->
  (forall x, ~ (a <= x < a + n) -> fst w' x = fst w x) /\
  (q = 0 -> forall x, a <= x < a + n -> fst w' x = src (x - a)) /\ 0 <= q <= 11 /\
  Forall iap_ok (snd w') /\
  (all_ok (snd w) -> all_ok (snd w') /\ (erased (fst w) a n -> (forall i, is_byte (src i)) -> q = 0)).
Proof.
  intros Hok Hn HV. unfold iapProgram. rewrite HV. destruct (iapCall true _ _ _ w) as [r w1] eqn:E.
  apply iapCall_spec in E; auto. destruct E as (P1 & P2 & P3 & P4 & P5).
  destruct (list_eq_dec Z.eq_dec _ _) as [EQ|NE].
  - rewrite andb_false_r. intros [= <- <-].
    pose proof (proj1 (bytes_at_eq _ _ _ _ _) EQ) as EQ'.
    repeat split; auto; try lia.
    + intros _ x Hx. specialize (EQ' (x - a) ltac:(lia)). replace (a + (x - a)) with x in EQ' by lia.
      rewrite EQ'. reflexivity.
    + apply P5; auto.
    + intros _ _. apply P5; auto.
  - destruct (Z.eqb_spec r 0) as [->|N]; cbn [negb andb]; intros [= <- <-].
    + split; [auto|]. split; [lia|]. split; [lia|]. split; [auto|]. intros Ha. split; [apply P5; auto|].
      intros He Hb. exfalso. apply NE, bytes_at_eq. intros i Hi. rewrite P2 by (auto; lia). rewrite He by lia.
      rewrite land_ff_l by auto. f_equal. lia.
    + split; [auto|]. split; [lia|]. split; [lia|]. split; [auto|]. intros Ha. destruct (P5 Ha). lia.
Qed.
Lemma exec_spec L a src n w r w' : layout_ok L -> a mod 256 = 0 -> appFirst L <= a -> a + n <= flash_top L -> iap_size n ->
  Forall iap_ok (snd w) -> executeProgramFlash L a src n false w = (r, w') ->
  (forall x, ~ (a <= x < a + n) -> fst w' x = fst w x) /\
  (r = 0x7f -> forall x, a <= x < a + n -> fst w' x = src (x - a)) /\ 0x73 < r <= 0x7f /\
  Forall iap_ok (snd w') /\
  (all_ok (snd w) -> all_ok (snd w') /\ (erased (fst w) a n -> (forall i, is_byte (src i)) -> r = 0x7f)).
Proof.
  intros (HL1 & HL2 & HL3 & HL4 & _) Ha Hf Hn Hs Hok. pose proof (appFirst_bounds L) as AB.
  assert (Hn' : 256 <= n <= 4096) by (unfold iap_size in Hs; lia).
  unfold executeProgramFlash.
  assert (addressAllowedToProgram L a n false = true) as ->.
  { unfold addressAllowedToProgram. rewrite aligned_256, Ha. simpl.
    destruct (Z.eqb_spec n 0); [lia|]. unfold flashLast. rewrite u32_id by (red; lia).
    apply andb_true_intro; split; apply Z.leb_le; lia. }
  cbn [negb].
  assert (E1 : existsb (Z.eqb n) [256; 512; 1024; 4096] = true) by (destruct Hs as [->|[->|[->| ->]]]; reflexivity).
  assert (HV : (a mod 256 =? 0) && existsb (Z.eqb n) [256; 512; 1024; 4096] && (a + n <=? flash_top L) = true).
  { rewrite Ha, E1. simpl. apply Z.leb_le; lia. }
  destruct (iapProgram L a src n w) as [q w1] eqn:E. intros [= <- <-].
  apply iapProgram_spec in E; auto; try lia. destruct E as (P1 & P2 & P3 & P4 & P5).
  assert (Hq : iapResult2UDPState q = 0x7f - q).
  { unfold iapResult2UDPState. destruct (Z.leb_spec 0 q), (Z.leb_spec q 11); simpl; auto; lia. }
  rewrite Hq. split; [auto|]. split; [intros Hr x Hx; apply P2; auto; lia|]. split; [lia|]. split; [auto|].
  intros A. destruct (P5 A) as [A1 A2]. split; auto. intros B C. specialize (A2 B C). lia.
Qed.

(** loop invariant of updProgram *)
Record pinv (L : layout) (src : Z -> Z) (addr count : Z) (f0 : flash) (l0 : list iap_res) (p : prog) : Prop := {
  pi_addr : p_addr p = addr + p_buf p;
  pi_count : p_buf p + p_count p = count;
  pi_nonneg : 0 <= p_count p;
  pi_buf : 0 <= p_buf p /\ p_buf p mod 256 = 0;
  pi_out : forall x, ~ (addr <= x < addr + up256 count) -> fst (p_w p) x = f0 x;
  pi_in : forall x, addr <= x < addr + p_buf p -> fst (p_w p) x = src (x - addr);
  pi_err : 0x73 < p_err p <= 0x7f;
  pi_iap : Forall iap_ok (snd (p_w p));
  pi_rest : p_err p = 0x7f -> forall x, ~ (addr <= x < addr + p_buf p) -> fst (p_w p) x = f0 x;
  pi_ok : all_ok l0 -> all_ok (snd (p_w p)) /\ (erased f0 addr (up256 count) -> (forall i, is_byte (src i)) -> p_err p = 0x7f);
  pi_fl : flash_ok f0 -> (forall i, is_byte (src i)) -> prot L (f0, l0) (p_w p)
}.
Lemma up256_bound n : n <= up256 n < n + 256.
Proof. unfold up256. pose proof (Z.div_mod (n + 255) 256 ltac:(lia)). pose proof (Z.mod_pos_bound (n + 255) 256 ltac:(lia)). lia. Qed.
Lemma up256_mod n : up256 n mod 256 = 0.
Proof. unfold up256. rewrite Z.mul_comm. apply Z.mod_mul. lia. Qed.
Lemma mult_le_mult a b : a mod 256 = 0 -> b mod 256 = 0 -> a < b + 256 -> a <= b.
Proof.
  intros Ha Hb H. pose proof (Z.div_mod a 256 ltac:(lia)). pose proof (Z.div_mod b 256 ltac:(lia)). lia.
Qed.
Lemma up256_ge a n : a mod 256 = 0 -> n <= a -> up256 n <= a.
Proof. intros Ha Hn. apply mult_le_mult; auto using up256_mod. pose proof (up256_bound n). lia. Qed.

Section ProgLoop.
  Variables (L : layout) (src : Z -> Z) (addr count : Z) (f0 : flash) (l0 : list iap_res).
  Hypothesis HL : layout_ok L.
  Hypothesis Ha : addr mod 256 = 0.
  Hypothesis Hf : appFirst L <= addr.
  Hypothesis Hc : 0 < count <= 1265.
  Hypothesis Hn : addr + count <= flash_top L.
  Notation pinv := (pinv L src addr count f0 l0).

  Lemma pinv_step p n r w : pinv p -> p_err p = 0x7f -> iap_size n -> p_buf p + n <= up256 count ->
    executeProgramFlash L (p_addr p) (fun i => src (p_buf p + i)) n false (p_w p) = (r, w) ->
    (r <> 0x7f -> pinv (mkProg r (p_count p) (p_addr p) (p_buf p) w)) /\
    ((forall x, ~ (addr <= x < addr + up256 count) -> fst w x = f0 x) /\ 0x73 < r <= 0x7f /\
     (all_ok l0 -> all_ok (snd w) /\ (erased f0 addr (up256 count) -> (forall i, is_byte (src i)) -> r = 0x7f)) /\
     (flash_ok f0 -> (forall i, is_byte (src i)) -> prot L (f0, l0) w)) /\
    (n <= p_count p -> r = 0x7f -> pinv (mkProg r (p_count p - n) (p_addr p + n) (p_buf p + n) w)) /\
    (r = 0x7f -> forall x, addr <= x < addr + p_buf p + n -> fst w x = src (x - addr)).
  Proof.
    intros [J1 J2 J3 J4 J5 J6 J7 J8 JR J9 J10] He Hs Hub E. pose proof E as E'.
    assert (Hft : addr + up256 count <= flash_top L).
    { destruct HL as (_ & _ & _ & HL4 & _). 
      assert (flash_top L mod 256 = 0).
      { pose proof (Z.div_mod (flash_top L) 4096 ltac:(lia)). rewrite HL4 in H.
        replace (flash_top L) with ((16 * (flash_top L / 4096)) * 256) by lia. apply Z.mod_mul. lia. }
      pose proof (up256_ge (flash_top L - addr) count). rewrite Zminus_mod, Ha, H in H0. specialize (H0 eq_refl). lia. }
    assert (Hal : p_addr p mod 256 = 0) by (rewrite J1, Z.add_mod, Ha, (proj2 J4) by lia; reflexivity).
    apply exec_spec in E; auto; try lia. destruct E as (P1 & P2 & P3 & P4 & P5).
    assert (Hn' : 256 <= n /\ n mod 256 = 0) by (unfold iap_size in Hs; destruct Hs as [->|[->|[->| ->]]]; split; lia || reflexivity).
    assert (Hout : forall x, ~ (addr <= x < addr + up256 count) -> fst w x = f0 x).
    { intros x Hx. rewrite P1 by lia. apply J5; auto. }
    assert (Hin : forall x, addr <= x < addr + p_buf p -> fst w x = src (x - addr)).
    { intros x Hx. rewrite P1 by lia. apply J6; auto. }
    assert (Hall : r = 0x7f -> forall x, addr <= x < addr + p_buf p + n -> fst w x = src (x - addr)).
    { intros Hr x Hx. destruct (Z.lt_ge_cases x (addr + p_buf p)).
      - apply Hin; lia.
      - rewrite P2 by (auto; lia). f_equal. lia. }
    assert (Hok : all_ok l0 -> all_ok (snd w) /\ (erased f0 addr (up256 count) -> (forall i, is_byte (src i)) -> r = 0x7f)).
    { intros Hl. destruct (J9 Hl) as [Q1 Q2]. destruct (P5 Q1) as [Q3 Q4]. split; auto. intros X Y. apply Q4.
      - intros x Hx. rewrite JR by (auto; lia). apply X. lia.
      - intros i. apply Y. }
    assert (Hpr : flash_ok f0 -> (forall i, is_byte (src i)) -> prot L (f0, l0) w).
    { intros F S. eapply prot_trans; [apply J10; auto|]. eapply executeProgramFlash_prot; [apply HL| |exact E']. intros i; apply S. }
    split; [|split; [|split]]; auto.
    - intros Hr. constructor; simpl; auto; lia.
    - intros Hle Hr. constructor; simpl; auto; try lia.
      + rewrite Z.add_mod, (proj2 J4), (proj2 Hn') by lia. split; [lia|reflexivity].
      + intros x Hx. apply Hall; auto. lia.
      + intros _ x Hx. rewrite P1 by lia. apply JR; auto. lia.
  Qed.

  Lemma progWhile_ok bs fuel : iap_size bs -> forall p, pinv p -> p_err p = 0x7f -> (p_count p < Z.of_nat fuel * bs) ->
    exists p', progWhile fuel L src bs p = Some p' /\ pinv p' /\ (p_err p' = 0x7f -> p_count p' < bs).
  Proof.
    intros Hs. assert (Hb : 256 <= bs /\ bs mod 256 = 0) by (unfold iap_size in Hs; destruct Hs as [->|[->|[->| ->]]]; split; lia || reflexivity).
    induction fuel as [|fuel IH]; intros p Hp He Hfu; simpl.
    - destruct (Z.leb_spec bs (p_count p)).
      + destruct Hp. lia.
      + exists p. auto.
    - destruct (Z.leb_spec bs (p_count p)) as [Hle|]; [|exists p; auto].
      destruct (executeProgramFlash L (p_addr p) (fun i => src (p_buf p + i)) bs false (p_w p)) as [r w] eqn:E.
      apply pinv_step in E; auto.
      2:{ pose proof (pi_count _ _ _ _ _ _ _ Hp). pose proof (up256_bound count). lia. }
      destruct E as (Q1 & _ & Q2 & Q3). destruct (Z.eqb_spec r UDP_IAP_SUCCESS) as [->|N]; simpl.
      + apply IH; simpl; auto. lia.
      + exists (mkProg r (p_count p) (p_addr p) (p_buf p) w). split; auto. split; auto. simpl. unfold UDP_IAP_SUCCESS in N. lia.
  Qed.

  Lemma progFor_ok : forall sizes p, Forall iap_size sizes -> sizes <> [] -> pinv p -> p_err p = 0x7f ->
    exists p', progFor 8 L src sizes p = Some p' /\ pinv p' /\
      (p_err p' = 0x7f -> 0 < p_count p' -> p_count p' < List.last sizes 0).
  Proof.
    induction sizes as [|bs r IH]; intros p HF Hne Hp He; [congruence|].
    inversion HF; subst.
    assert (Hlast : forall p, pinv p -> p_err p = 0x7f -> (r = [] -> p_count p < bs) ->
      exists p', progFor 8 L src r p = Some p' /\ pinv p' /\
        (p_err p' = 0x7f -> 0 < p_count p' -> p_count p' < List.last (bs :: r) 0)).
    { intros q Hq Hqe Hqc. destruct r as [|b2 r].
      - exists q. split; [|split]; auto.
      - destruct (IH q) as (p' & E & Hp' & Hx); auto; [discriminate|]. exists p'. auto. }
    cbn [progFor]. destruct (Z.ltb_spec bufferSize bs) as [Hlt|Hge].
    - apply Hlast; auto. intros _. destruct Hp. unfold bufferSize in Hlt. lia.
    - assert (Hfu : p_count p < Z.of_nat 8 * bs).
      { destruct Hp. unfold iap_size in H1. lia. }
      destruct (progWhile_ok bs 8 H1 p Hp He Hfu) as (p1 & -> & Hp1 & Hx1).
      destruct (Z.eqb_spec (p_err p1) UDP_IAP_SUCCESS) as [E1|E1]; simpl orb.
      + destruct (Z.leb_spec (p_count p1) 0).
        * exists p1. split; [|split]; auto. intros; lia.
        * apply Hlast; auto.
      + exists p1. split; [|split]; auto. unfold UDP_IAP_SUCCESS in E1. lia.
  Qed.

  (** outcome of the programming loops *)
  Record pdone (p : prog) : Prop := {
    pd_out : forall x, ~ (addr <= x < addr + up256 count) -> fst (p_w p) x = f0 x;
    pd_in : p_err p = 0x7f -> forall x, addr <= x < addr + count -> fst (p_w p) x = src (x - addr);
    pd_err : 0x73 < p_err p <= 0x7f;
    pd_ok : all_ok l0 -> erased f0 addr (up256 count) -> (forall i, is_byte (src i)) -> p_err p = 0x7f;
    pd_fl : flash_ok f0 -> (forall i, is_byte (src i)) -> prot L (f0, l0) (p_w p)
  }.
  Lemma pinv_done p : pinv p -> (p_err p = 0x7f -> p_count p = 0) -> pdone p.
  Proof.
    intros [J1 J2 J3 J4 J5 J6 J7 J8 JR J9 J10] H. constructor; auto.
    - intros He x Hx. apply J6. specialize (H He). lia.
    - apply J9.
  Qed.
  Lemma progOuter_ok : Forall iap_ok l0 -> exists p, progOuter 3 8 L src (mkProg UDP_IAP_SUCCESS count addr 0 (f0, l0)) = Some p /\ pdone p.
  Proof.
    intros Hl. set (p0 := mkProg UDP_IAP_SUCCESS count addr 0 (f0, l0)).
    assert (Hp0 : pinv p0).
    { constructor; simpl; auto; try lia.
      - split; [lia|reflexivity].
      - unfold UDP_IAP_SUCCESS; lia.
      - intros; apply prot_refl. }
    change (progOuter 3 8 L src p0) with
      (if (p_err p0 =? UDP_IAP_SUCCESS) && (0 <? p_count p0) then
        match progFor 8 L src [4096; 1024; 512; 256] p0 with
        | None => None
        | Some p =>
            if (p_err p =? UDP_IAP_SUCCESS) && (0 <? p_count p) && (p_count p <=? 256) then
              let '(r, w) := executeProgramFlash L (p_addr p) (fun i => src (p_buf p + i)) 256 false (p_w p) in
              Some (mkProg r (p_count p) (p_addr p) (p_buf p) w)
            else progOuter 2 8 L src p
        end else Some p0).
    assert ((p_err p0 =? UDP_IAP_SUCCESS) && (0 <? p_count p0) = true) as ->.
    { simpl. apply Z.ltb_lt. lia. }
    destruct (progFor_ok [4096; 1024; 512; 256] p0) as (p1 & -> & Hp1 & Hx); auto.
    { unfold iap_size. repeat (apply Forall_cons; [lia|]). apply Forall_nil. }
    { discriminate. }
    destruct (Z.eqb_spec (p_err p1) UDP_IAP_SUCCESS) as [E1|E1]; simpl andb.
    - destruct (Z.ltb_spec 0 (p_count p1)) as [Hpos|Hz]; simpl andb.
      + specialize (Hx E1 Hpos). simpl in Hx. destruct (Z.leb_spec (p_count p1) 256); [|lia].
        destruct (executeProgramFlash _ _ _ _ _ _) as [r w] eqn:E. pose proof E as E'.
        apply pinv_step in E'; auto.
        2:{ left; auto. }
        2:{ destruct Hp1 as [J1 J2 J3 J4 J5 J6 J7 J8 JR J9 J10]. pose proof (up256_bound count).
            apply mult_le_mult; auto using up256_mod.
            - rewrite Z.add_mod, (proj2 J4) by lia. reflexivity.
            - lia. }
        destruct E' as (_ & (R1 & R2 & R3 & R4) & _ & Q3). eexists. split; [reflexivity|].
        constructor; simpl in *; auto.
        * intros Hr x Hxx. apply Q3; auto. destruct Hp1. lia.
        * apply R3.
      + change (progOuter 2 8 L src p1) with
          (if (p_err p1 =? UDP_IAP_SUCCESS) && (0 <? p_count p1) then
             match progFor 8 L src [4096; 1024; 512; 256] p1 with
        | None => None
        | Some p =>
            if (p_err p =? UDP_IAP_SUCCESS) && (0 <? p_count p) && (p_count p <=? 256) then
              let '(r, w) := executeProgramFlash L (p_addr p) (fun i => src (p_buf p + i)) 256 false (p_w p) in
              Some (mkProg r (p_count p) (p_addr p) (p_buf p) w)
            else progOuter 1 8 L src p
        end else Some p1).
        assert ((p_err p1 =? UDP_IAP_SUCCESS) && (0 <? p_count p1) = false) as ->.
        { apply andb_false_iff. right. apply Z.ltb_ge. lia. }
        exists p1. split; auto. apply pinv_done; auto. intros. destruct Hp1. lia.
    - exists p1. split.
      + simpl progOuter. destruct (Z.eqb_spec (p_err p1) UDP_IAP_SUCCESS); [congruence|]. reflexivity.
      + apply pinv_done; auto. intros. unfold UDP_IAP_SUCCESS in E1. lia.
  Qed.
End ProgLoop.

(** ** Numbers in messages *)
Lemma le32_word f i : (forall x, is_byte (f x)) -> le32 f i = word_at f i.
Proof.
  intros H. unfold le32, word_at.
  assert (B : forall x, 0 <= f x < 256) by apply H.
  rewrite <- !Z.lor_assoc.
  rewrite (lor_shiftl_add (f (i + 1)) (f i) 8) by (auto; lia).
  pose proof (B i). pose proof (B (i + 1)). pose proof (B (i + 2)). pose proof (B (i + 3)).
  rewrite (lor_shiftl_add (f (i + 2)) _ 16) by lia.
  rewrite (lor_shiftl_add (f (i + 3)) _ 24) by lia. lia.
Qed.
Lemma le16_num f i : (forall x, is_byte (f x)) -> le16 f i = f i + 256 * f (i + 1).
Proof. intros H. unfold le16. rewrite word_bytes by auto. lia. Qed.
Lemma word_at_u32 f a : (forall x, is_byte (f x)) -> is_u32 (word_at f a).
Proof.
  intros H. assert (B : forall x, 0 <= f x < 256) by apply H. unfold word_at, is_u32.
  pose proof (B a). pose proof (B (a + 1)). pose proof (B (a + 2)). pose proof (B (a + 3)). lia.
Qed.
Lemma nth_skipn A (l : list A) n i d : nth i (skipn n l) d = nth (n + i) l d.
Proof. revert l; induction n; intros l; [reflexivity|]. destruct l; [simpl; destruct i; reflexivity|]. apply IHn. Qed.
Lemma nth_firstn A (l : list A) n i d : (i < n)%nat -> nth i (firstn n l) d = nth i l d.
Proof. revert l i; induction n; intros l i H; [lia|]. destruct l; simpl; auto. destruct i; auto. apply IHn; lia. Qed.
Lemma num32_word l n : word_at (at_ l) (Z.of_nat n) = num32 (skipn n l).
Proof.
  unfold word_at, num32, at_, rd. rewrite !nth_skipn.
  replace (Z.to_nat (Z.of_nat n)) with (n + 0)%nat by lia. replace (Z.to_nat (Z.of_nat n + 1)) with (n + 1)%nat by lia.
  replace (Z.to_nat (Z.of_nat n + 2)) with (n + 2)%nat by lia. replace (Z.to_nat (Z.of_nat n + 3)) with (n + 3)%nat by lia.
  reflexivity.
Qed.
Lemma at_bytes l : Forall is_byte l -> forall i, is_byte (at_ l i).
Proof. intros; apply at_byte; auto. Qed.
Lemma le32_num l n : Forall is_byte l -> le32 (at_ l) (Z.of_nat n) = num32 (skipn n l).
Proof. intros H. rewrite le32_word by (apply at_bytes; auto). apply num32_word. Qed.
Lemma num32_u32 l : Forall is_byte l -> is_u32 (num32 l).
Proof. intros H. change l with (skipn 0 l). rewrite <- num32_word. apply word_at_u32, at_bytes; auto. Qed.

(** ** The command table *)
Lemma command_table c : is_byte c ->
  code2UPDCommand c = match data_length c with Some (lo, hi) => (c, (lo, hi)) | None => (0, (0, 0)) end.
Proof.
  intros Hc.
  set (f := fun c => let '(a, (b, d)) := code2UPDCommand c in
                     let '(a', (b', d')) := match data_length c with Some (lo, hi) => (c, (lo, hi)) | None => (0, (0, 0)) end in
                     (a =? a') && (b =? b') && (d =? d')).
  assert (H : f c = true) by (revert c Hc; apply byte_forall; vm_compute; reflexivity).
  unfold f in H. destruct (code2UPDCommand c) as [a [b d]].
  destruct (match data_length c with Some (lo, hi) => (c, (lo, hi)) | None => (0, (0, 0)) end) as [a' [b' d']].
  rewrite !andb_true_iff, !Z.eqb_eq in H. destruct H as ((-> & ->) & ->). reflexivity.
Qed.
Lemma data_length_0 : data_length 0 = None. Proof. reflexivity. Qed.

(** the dispatcher in terms of the documented lengths *)
Lemma handle_eq L e c d s : is_byte c -> handle L e (c :: d) s =
  match data_length c with
  | None => Some (s, error_reply 0x01)
  | Some (lo, hi) =>
      let n := Z.of_nat (length d) in
      if (n <? lo) || (hi <? n) then Some (s, error_reply 0x55)
      else if negb (unlocked s) && negb ((c =? 0xbf) || (c =? 0xbe) || (c =? 0xbc)) then Some (s, error_reply 0x58)
      else dispatch L e c d s
  end.
Proof.
  intros Hc. unfold handle. rewrite (command_table c Hc). destruct (data_length c) as [[lo hi]|] eqn:E; [|reflexivity].
  destruct (Z.eqb_spec c 0) as [->|N]; [rewrite data_length_0 in E; discriminate|reflexivity].
Qed.

(** ** Result codes *)
Definition iap_code (r : Z) : Prop := 0x73 <= r <= 0x7f.
Lemma iap_code_result s : iap_code (iapResult2UDPState s).
Proof. unfold iap_code, iapResult2UDPState. destruct (Z.leb_spec 0 s), (Z.leb_spec s 11); simpl; lia. Qed.
Definition erase_code (r : Z) : Prop := r = 0x51 \/ r = 0x52 \/ r = 0x5c \/ iap_code r.
Lemma erasePageRange_code L s e w r w' : erasePageRange L s e w = (r, w') -> erase_code r.
Proof.
  unfold erasePageRange. destruct (_ || _); [intros [= <- <-]; red; auto|].
  destruct (iapErasePageRange _ _ _ _). intros [= <- <-]. right; right; right. apply iap_code_result.
Qed.
Lemma eraseSectorRange_code L s e w r w' : eraseSectorRange L s e w = (r, w') -> erase_code r.
Proof.
  unfold eraseSectorRange. destruct (_ || _); [intros [= <- <-]; red; auto|].
  destruct (iapEraseSectorRange _ _ _ _). intros [= <- <-]. right; right; right. apply iap_code_result.
Qed.
Lemma eraseTail_code L s e q w r w' : erase_code q -> eraseTail L s e q w = (r, w') -> erase_code r.
Proof.
  intros Hq. unfold eraseTail, eraseMiddle. cbv zeta.
  destruct (_ =? 16).
  - destruct (_ <=? _); [apply eraseSectorRange_code|intros [= <- <-]; auto].
  - destruct (erasePageRange _ _ _ w) as [q1 w1] eqn:E1. apply erasePageRange_code in E1.
    destruct (negb _); [intros [= <- <-]; auto|].
    destruct (_ <=? _); [apply eraseSectorRange_code|intros [= <- <-]; auto].
Qed.
Lemma eraseAddressRange_code L s e c w r w' : eraseAddressRange L s e c w = (r, w') -> erase_code r.
Proof.
  unfold eraseAddressRange. cbv zeta.
  destruct (c && _); [intros [= <- <-]; red; auto|].
  destruct (_ <? 16); [apply erasePageRange_code; auto|].
  destruct (negb (is_aligned s 4096)); [|apply eraseTail_code; red; auto].
  destruct (erasePageRange _ _ _ w) as [q1 w1] eqn:E1. apply erasePageRange_code in E1.
  destruct (negb _); [intros [= <- <-]; auto|]. apply eraseTail_code; auto.
Qed.

(** ** The RAM buffer *)
Lemma firstn_wr_range (l src : list Z) n : (n + length src <= length l)%nat ->
  firstn (n + length src) (wr_range l n src) = firstn n l ++ src.
Proof.
  intros H. apply (list_ext _ _ _ 0).
  - rewrite app_length, !firstn_length, wr_range_length. lia.
  - rewrite firstn_length, wr_range_length. intros i Hi. rewrite nth_firstn by lia. rewrite nth_wr_range by lia.
    destruct (Nat.leb_spec n i), (Nat.ltb_spec i (n + length src)); simpl; try lia.
    + rewrite app_nth2; rewrite firstn_length; [|lia]. f_equal. lia.
    + rewrite app_nth1 by (rewrite firstn_length; lia). rewrite nth_firstn by lia. reflexivity.
Qed.

(** ** One message *)
Lemma allowed_inv L a n : layout_ok L -> addressAllowedToProgram L a n false = true ->
  a mod 256 = 0 /\ n <> 0 /\ appFirst L <= a /\ u32 (a + n - 1) <= flash_top L - 1.
Proof.
  intros HL. unfold addressAllowedToProgram. rewrite aligned_256.
  destruct (Z.eqb_spec (a mod 256) 0); simpl; [|discriminate].
  destruct (Z.eqb_spec n 0); simpl; [discriminate|]. unfold flashLast.
  intros E. apply andb_prop in E. destruct E as [E1 E2]. apply Z.leb_le in E1. apply Z.leb_le in E2. auto.
Qed.
Lemma flash_top_256 L : layout_ok L -> flash_top L mod 256 = 0.
Proof.
  intros (_ & _ & _ & H & _). pose proof (Z.div_mod (flash_top L) 4096 ltac:(lia)). rewrite H in H0.
  replace (flash_top L) with ((16 * (flash_top L / 4096)) * 256) by lia. apply Z.mod_mul. lia.
Qed.
(** an accepted range lies in application flash or wraps around the address space *)
Lemma allowed_range L a n : layout_ok L -> is_u32 a -> 0 < n < 65536 -> addressAllowedToProgram L a n false = true ->
  a mod 256 = 0 /\ appFirst L <= a /\ (a + n <= flash_top L \/ 2^32 < a + n).
Proof.
  intros HL Ha Hn H. apply allowed_inv in H; auto. destruct H as (H1 & H2 & H3 & H4). split; [auto|split; [auto|]].
  pose proof (appFirst_bounds L). destruct HL as (K1 & K2 & K3 & K4 & _).
  destruct (Z.lt_ge_cases (a + n - 1) 4294967296) as [Hlt|Hge].
  - rewrite u32_id in H4 by (red; unfold is_u32 in Ha; lia). lia.
  - right. lia.
Qed.
Lemma exec_far L a src n w : layout_ok L -> flash_top L < a -> 0 < n ->
  exists r, executeProgramFlash L a src n false w = (r, w) /\ (r = 0x5d \/ r = 0x78).
Proof.
  intros HL Ha Hn. unfold executeProgramFlash. destruct (negb _).
  - eexists. split; [reflexivity|]. auto.
  - unfold iapProgram, iapCall. destruct (Z.leb_spec (a + n) (flash_top L)); [lia|].
    rewrite andb_false_r. simpl. eexists. split; [reflexivity|]. right. reflexivity.
Qed.
Lemma progFor_far L src w count addr : layout_ok L -> flash_top L < addr ->
  forall sizes, Forall iap_size sizes -> exists p, progFor 8 L src sizes (mkProg 0x7f count addr 0 w) = Some p /\
    ((p_err p = 0x5d \/ p_err p = 0x78) /\ p_w p = w \/ p = mkProg 0x7f count addr 0 w /\ forall b, In b sizes -> b <= 1265 -> count < b \/ count <= 0).
Proof.
  intros HL Ha. induction sizes as [|b r IH]; intros HF; cbn [progFor].
  - eexists. split; [reflexivity|]. right. split; auto. intros b [].
  - inversion HF as [|? ? Hb HF']; subst. specialize (IH HF').
    destruct (Z.ltb_spec bufferSize b) as [Hlt|Hge].
    + destruct IH as (p & E & [Q|[Q1 Q2]]); exists p; (split; [auto|]); [left; auto|right]. split; auto.
      intros b0 [<-|Hin]; [unfold bufferSize in Hlt; lia|auto].
    + assert (Hb' : 256 <= b) by (unfold iap_size in Hb; lia).
      cbn [progWhile p_count p_addr p_buf p_w p_err]. destruct (Z.leb_spec b count).
      * destruct (exec_far L addr (fun i => src (0 + i)) b w HL Ha ltac:(lia)) as (q & -> & Hq).
        destruct (Z.eqb_spec q UDP_IAP_SUCCESS); [unfold UDP_IAP_SUCCESS in *; lia|]. cbn [negb p_err].
        destruct (Z.eqb_spec q UDP_IAP_SUCCESS); [congruence|]. cbn [negb orb].
        eexists. split; [reflexivity|]. left. auto.
      * cbn [p_err p_count]. change (negb (127 =? UDP_IAP_SUCCESS)) with false. cbn [orb].
        destruct (Z.leb_spec count 0).
        -- eexists. split; [reflexivity|]. right. split; auto.
        -- destruct IH as (p & E & [Q|[Q1 Q2]]); exists p; (split; [auto|]); [left; auto|right]. split; auto.
           intros b0 [<-|Hin]; auto.
Qed.
Lemma progOuter_far L src f0 l0 addr count : layout_ok L -> flash_top L < addr -> 0 < count ->
  exists p, progOuter 3 8 L src (mkProg UDP_IAP_SUCCESS count addr 0 (f0, l0)) = Some p /\
    (p_err p = 0x5d \/ p_err p = 0x78) /\ p_w p = (f0, l0).
Proof.
  intros HL Ha Hc.
  change (progOuter 3 8 L src (mkProg UDP_IAP_SUCCESS count addr 0 (f0, l0))) with
      (if (0x7f =? UDP_IAP_SUCCESS) && (0 <? count) then
        match progFor 8 L src [4096; 1024; 512; 256] (mkProg 0x7f count addr 0 (f0, l0)) with
        | None => None
        | Some p =>
            if (p_err p =? UDP_IAP_SUCCESS) && (0 <? p_count p) && (p_count p <=? 256) then
              let '(r, w) := executeProgramFlash L (p_addr p) (fun i => src (p_buf p + i)) 256 false (p_w p) in
              Some (mkProg r (p_count p) (p_addr p) (p_buf p) w)
            else progOuter 2 8 L src p
        end else Some (mkProg UDP_IAP_SUCCESS count addr 0 (f0, l0))).
  change (0x7f =? UDP_IAP_SUCCESS) with true. destruct (Z.ltb_spec 0 count); [|lia]. cbn [andb].
  destruct (progFor_far L src (f0, l0) count addr HL Ha [4096; 1024; 512; 256]) as (p & -> & [[Q1 Q2]|[-> Q]]).
  { unfold iap_size. repeat (apply Forall_cons; [lia|]). apply Forall_nil. }
  - destruct (Z.eqb_spec (p_err p) UDP_IAP_SUCCESS); [unfold UDP_IAP_SUCCESS in *; lia|]. cbn [andb].
    cbn [progOuter]. destruct (Z.eqb_spec (p_err p) UDP_IAP_SUCCESS); [congruence|]. cbn [andb]. eauto.
  - cbn [p_err p_count p_addr p_buf p_w]. change (127 =? UDP_IAP_SUCCESS) with true.
    destruct (Q 256) as [?|?]; [simpl; auto|lia| |lia].
    destruct (Z.ltb_spec 0 count), (Z.leb_spec count 256); try lia. cbn [andb].
    destruct (exec_far L addr (fun i => src (0 + i)) 256 (f0, l0) HL Ha ltac:(lia)) as (q & -> & Hq).
    eexists. split; [reflexivity|]. auto.
Qed.

Definition down (s : upd) : list Z := firstn (Z.to_nat (pos s)) (ram s).
(** what handling message [m] with reply [r] preserves and changes *)
Record stepped (L : layout) (m : list Z) (s s' : upd) (r : reply) : Prop := {
  st_inv : inv L s';
  st_low : forall a, a < image_end L -> fl s' a = fl s a;
  st_down : down s' = note (down s) (m, r) \/ (wrapping_program m /\ down s' = [])
}.
Lemma prot_fl L f l w' e : flash_ok f -> Forall iap_ok (e_iap e) -> l = e_iap e -> prot L (f, l) w' ->
  flash_ok (fst w') /\ (forall a, a < image_end L -> fst w' a = f a) /\ Forall iap_ok (snd w').
Proof. intros Hf He -> (P1 & P2). destruct (P2 Hf He). auto. Qed.
Lemma one_of_iap r l : iap_code r -> (forall x, In x l -> x < 0x73 \/ 0x7f < x) -> existsb (Z.eqb r) l = false.
Proof.
  intros Hr Hl. destruct (existsb (Z.eqb r) l) eqn:E; auto. apply existsb_exists in E. destruct E as (x & Hin & He).
  apply Z.eqb_eq in He. subst. apply Hl in Hin. unfold iap_code in Hr. lia.
Qed.
Lemma down_0 s : pos s = 0 -> down s = [].
Proof. intros H. unfold down. rewrite H. reflexivity. Qed.

Lemma stepped_id L m s r : inv L s -> note (down s) (m, r) = down s -> stepped L m s s r.
Proof. intros H Hn. constructor; auto. Qed.

Ltac neqb := repeat match goal with |- context[?a =? ?b] => change (a =? b) with false || change (a =? b) with true end.

Lemma erase_step L e c d s r w :
  (c = 0xea \/ c = 0xe9) -> layout_ok L -> env_ok e -> inv L s -> prot L (fl s, e_iap e) w -> erase_code r ->
  stepped L (c :: d) s (set_fl (fst w) (set_pos 0 s)) (lastError r).
Proof.
  intros Hc HL [He _] I P Hr. destruct (prot_fl L (fl s) (e_iap e) w e (i_fl _ _ I) He eq_refl P) as (P1 & P2 & P3).
  destruct I as [I1 I2 I3 I4 I5]. constructor.
  - constructor; simpl; auto; lia.
  - auto.
  - left. rewrite down_0 by auto.
    assert (E1 : existsb (Z.eqb r) [88; 85] = false).
    { destruct Hr as [->|[->|[->|Hr]]]; try reflexivity. apply one_of_iap; auto. simpl. intros x [<-|[<-|[]]]; lia. }
    unfold note, lastError, forgets, one_of, code_of. cbn [fst snd].
    destruct Hc as [-> | ->]; change (220 =? 220) with true; cbv iota; rewrite E1; reflexivity.
Qed.

Lemma updProgram_step L e d s s' r : layout_ok L -> env_ok e -> inv L s -> Forall is_byte d -> length d = 10%nat ->
  updProgram L e d s = Some (s', r) -> stepped L (0xee :: d) s s' r.
Proof.
  intros HL [He Hb] I Hd Hlen. pose proof I as [I1 I2 I3 I4 I5]. unfold updProgram. cbv zeta.
  set (count := le16 (at_ d) 0). set (addr := le32 (at_ d) 2). set (crc := le32 (at_ d) 6).
  assert (Hcount : count = num16 d) by (unfold count; rewrite le16_num by (apply at_bytes; auto); reflexivity).
  assert (Haddr : addr = num32 (skipn 2 d)) by (apply (le32_num d 2); auto).
  assert (Hc16 : 0 <= count < 65536).
  { rewrite Hcount. unfold num16. pose proof (rd_byte d 0 Hd). pose proof (rd_byte d 1 Hd). unfold is_byte in *. lia. }
  assert (Ha32 : is_u32 addr) by (rewrite Haddr; apply num32_u32, Forall_skipn; auto).
  assert (NK : forall x, In x [0x58; 0x55; 0x5d; 0x5e; 0x5b] -> note (down s) (0xee :: d, lastError x) = down s).
  { intros x Hx. simpl in Hx. destruct Hx as [<-|[<-|[<-|[<-|[<-|[]]]]]]; reflexivity. }
  assert (NF : forall x, ~ In x [0x58; 0x55; 0x5d; 0x5e; 0x5b] -> note (down s) (0xee :: d, lastError x) = []).
  { intros x Hx. unfold note, lastError, forgets, one_of, code_of. cbn [fst snd].
    change (220 =? 220) with true. cbv iota.
    assert (existsb (Z.eqb x) [88; 85; 93; 94; 91] = false) as ->; [|reflexivity].
    destruct (existsb (Z.eqb x) [88; 85; 93; 94; 91]) eqn:E; auto. apply existsb_exists in E. destruct E as (y & Hin & Heq).
    apply Z.eqb_eq in Heq. subst. contradiction. }
  destruct (addressAllowedToProgram L addr count false) eqn:EA; cbn [negb].
  2:{ intros [= <- <-]. apply stepped_id; [auto|apply NK; simpl; auto 10]. }
  destruct (Z.ltb_spec bufferSize count). { intros [= <- <-]. apply stepped_id; [auto|apply NK; simpl; auto 10]. }
  destruct (Z.ltb_spec count (pos s)).
  { intros [= <- <-]. constructor; [constructor; simpl; auto; lia|simpl; auto|].
    left. rewrite down_0 by auto. symmetry. apply NF. simpl. intros X. unfold UDP_BYTECOUNT_RECEIVED_TOO_HIGH in X. lia. }
  destruct (Z.ltb_spec (pos s) count).
  { intros [= <- <-]. constructor; [constructor; simpl; auto; lia|simpl; auto|].
    left. rewrite down_0 by auto. symmetry. apply NF. simpl. intros X. unfold UDP_BYTECOUNT_RECEIVED_TOO_LOW in X. lia. }
  destruct (crc32 _ _ =? crc); cbn [negb].
  2:{ intros [= <- <-]. apply stepped_id; [auto|apply NK; simpl; auto 10]. }
  assert (Hc0 : count <> 0) by (eapply allowed_inv; eauto).
  assert (Hc1 : 0 < count <= 1265) by (unfold bufferSize in *; lia).
  destruct (allowed_range L addr count HL Ha32 ltac:(lia) EA) as (A1 & A2 & [A3|A3]).
  - destruct (progOuter_ok L (ramAt s e) addr count (fl s) (e_iap e) HL A1 A2 Hc1 A3 He) as (p & -> & [D1 D2 D3 D4 D5]).
    intros [= <- <-].
    assert (P : prot L (fl s, e_iap e) (p_w p)).
    { apply D5; auto. intros i. unfold ramAt. destruct (_ <? _); auto using at_byte. }
    destruct (prot_fl L (fl s) (e_iap e) (p_w p) e I1 He eq_refl P) as (P1 & P2 & P3).
    constructor; [constructor; simpl; auto; lia|simpl; auto|].
    left. rewrite down_0 by auto. symmetry. apply NF. simpl. lia.
  - assert (Hft : flash_top L < addr) by (destruct HL as (_ & _ & ? & _); lia).
    destruct (progOuter_far L (ramAt s e) (fl s) (e_iap e) addr count HL Hft ltac:(lia)) as (p & -> & D1 & D2).
    intros [= <- <-]. rewrite D2.
    constructor; [constructor; simpl; auto; lia|simpl; auto|].
    right. split; [|apply down_0; auto]. exists d. split; auto. rewrite <- Hcount, <- Haddr. lia.
Qed.

Lemma pageCompleted_ok L e d w : layout_ok L -> dec_inv L d -> flash_ok (fst w) -> Forall iap_ok (snd w) -> env_ok e ->
  addressAllowedToProgram L (pageAddr d) (bytesToFlash d) false = true ->
  exists r d' w', pageCompletedDoFlash L d w = Some (r, d', w') /\ dec_inv L d' /\ prot L w w' /\ iap_code r.
Proof.
  intros HL (I1 & I2 & I3 & I4 & I5 & I6 & I7) Hf Hi He HA.
  pose proof (appFirst_bounds L) as AB. pose proof HL as (K1 & K2 & K3 & K4 & _).
  apply allowed_inv in HA; auto. destruct HA as (A1 & A2 & A3 & A4).
  rewrite u32_id in A4 by (red; lia).
  assert (HT : pageAddr d + 256 <= flash_top L).
  { apply mult_le_mult; auto using flash_top_256.
    - rewrite Z.add_mod, A1 by lia. reflexivity.
    - lia. }
  unfold pageCompletedDoFlash. destruct (Z.ltb_spec (flash_top L) (pageAddr d + 256)); [lia|].
  set (W := if list_eq_dec Z.eq_dec _ _ then _ else _).
  destruct W as [r w'] eqn:EW.
  assert (Q : prot L w w' /\ iap_code r).
  { unfold W in EW. destruct (list_eq_dec _ _ _).
    - injection EW as <- <-. split; [apply prot_refl|]. unfold iap_code, UDP_IAP_SUCCESS. lia.
    - destruct (erasePageRange _ _ _ _) as [q w1] eqn:E1. apply erasePageRange_prot in E1; auto.
      assert (Hi1 : Forall iap_ok (snd w1)) by (apply E1; auto).
      pose proof EW as EW'.
      apply executeProgramFlash_prot in EW; auto. 2:{ intros; apply at_byte; auto. }
      apply exec_spec in EW'; auto. 2:{ left; auto. }
      split; [eapply prot_trans; eauto|]. destruct EW' as (_ & _ & ? & _). unfold iap_code. lia. }
  destruct Q as [Q1 Q2]. do 3 eexists. split; [reflexivity|]. split; [|auto].
  repeat apply conj; cbn [cmdBuffer scratchpad oldPages bytesToFlash pageAddr]; auto; try lia.
  - rewrite app_length, bytes_at_length, skipn_length, I3. lia.
  - apply Forall_repeat_. red; lia.
  - apply Forall_app. split; [apply Forall_skipn; auto|apply bytes_at_ok; auto].
Qed.

Lemma bootDesc_ge L : image_end L <= bootDescAddr L.
Proof. unfold bootDescAddr. pose proof (appFirst_bounds L). lia. Qed.
Lemma updBootDesc_prot L e d s s' r : layout_ok L -> env_ok e -> inv L s -> updUpdateBootDescriptorBlock L e d s = (s', r) ->
  exists f, s' = set_fl f s /\ flash_ok f /\ (forall a, a < image_end L -> f a = fl s a).
Proof.
  intros HL [He Hb] [I1 I2 I3 I4 I5]. unfold updUpdateBootDescriptorBlock. cbv zeta.
  assert (Hid : s = set_fl (fl s) s) by (destruct s; reflexivity).
  destruct (_ <? _). { intros [= <- <-]. exists (fl s). auto. }
  destruct (negb _). { intros [= <- <-]. exists (fl s). auto. }
  destruct (list_eq_dec _ _ _). { intros [= <- <-]. exists (fl s). auto. }
  destruct (erasePageRange _ _ _ _) as [q w1] eqn:E1. apply erasePageRange_prot in E1; auto.
  destruct (prot_fl L (fl s) (e_iap e) w1 e I1 He eq_refl E1) as (P1 & P2 & P3).
  destruct (negb _). { intros [= <- <-]. eauto. }
  destruct (executeProgramFlash _ _ _ _ _ _) as [q2 w2] eqn:E2. apply executeProgramFlash_prot in E2; auto.
  2:{ intros i. unfold ramAt. destruct (_ <? _); auto using at_byte. }
  destruct E2 as [E2 E3]. destruct E3 as [E3 E4]; auto.
  destruct (_ =? _); intros [= <- <-]; exists (fst w2); split; auto; split; auto; intros a Ha; rewrite E2, P2; auto.
Qed.

Lemma dispatch_step L e c d s s' r lo hi : layout_ok L -> env_ok e -> inv L s -> Forall is_byte (c :: d) ->
  data_length c = Some (lo, hi) -> lo <= Z.of_nat (length d) <= hi ->
  dispatch L e c d s = Some (s', r) -> stepped L (c :: d) s s' r.
Proof.
  intros HL HE I Hm HD Hsz. pose proof I as [I1 I2 I3 I4 I5]. inversion Hm as [|? ? Hc Hd]; subst.
  unfold dispatch.
  destruct (Z.eqb_spec c 0xbf) as [->|N1].
  { unfold updUnlockDevice. destruct (negb _). { intros [= <- <-]. apply stepped_id; auto. }
    destruct (if list_eq_dec _ _ _ then _ else _). { intros [= <- <-]. apply stepped_id; auto. }
    intros [= <- <-]. constructor; simpl; auto. constructor; simpl; auto; lia. }
  destruct (Z.eqb_spec c 0xbe) as [->|N2]. { intros [= <- <-]. apply stepped_id; auto. }
  destruct (Z.eqb_spec c 0xbc) as [->|N3]. { intros [= <- <-]. apply stepped_id; auto. }
  destruct (Z.eqb_spec c 0xef) as [->|N4].
  { unfold updSendData. destruct (Z.ltb_spec bufferSize (pos s + Z.of_nat (length d))) as [|Hle].
    { intros [= <- <-]. apply stepped_id; auto. }
    intros [= <- <-]. unfold bufferSize in Hle. rewrite u16_id by (red; lia). constructor; simpl; auto.
    - constructor; simpl; auto; try lia.
      + rewrite wr_range_length; auto.
      + apply wr_range_ok; auto.
    - left. unfold down. simpl pos. simpl ram. rewrite Z2Nat.inj_add, Nat2Z.id by lia.
      rewrite firstn_wr_range by lia. reflexivity. }
  destruct (Z.eqb_spec c 0xee) as [->|N5].
  { intros E. apply (updProgram_step L e d s s' r) in E; auto.
    change (data_length 238) with (Some (10, 10)) in HD. injection HD as <- <-. lia. }
  destruct (Z.eqb_spec c 0xec) as [->|N6].
  { destruct (putBytes L (fl s) d (dec s)) as [d'|] eqn:E; [|discriminate]. intros [= <- <-].
    constructor; simpl; auto. constructor; simpl; auto. eapply putBytes_inv; eauto. }
  destruct (Z.eqb_spec c 0xeb) as [->|N7].
  { unfold updProgramDecompressed. destruct (addressAllowedToProgram _ _ _ _) eqn:EA; cbn [negb].
    2:{ intros [= <- <-]. apply stepped_id; auto. }
    destruct (negb _). { intros [= <- <-]. apply stepped_id; auto. }
    destruct (pageCompleted_ok L e (dec s) (fl s, e_iap e) HL I5 I1 (proj1 HE) HE EA) as (q & d' & w' & -> & D1 & D2 & D3).
    intros [= <- <-]. destruct (prot_fl L (fl s) (e_iap e) w' e I1 (proj1 HE) eq_refl D2) as (P1 & P2 & P3).
    constructor; [constructor; simpl; auto; lia|simpl; auto|].
    left. rewrite down_0 by auto. unfold note, lastError, forgets, one_of, code_of. cbn [fst snd].
    change (220 =? 220) with true. cbv iota.
    rewrite (one_of_iap q [88; 85; 93; 94; 91]); [reflexivity|auto|]. simpl. lia. }
  destruct (Z.eqb_spec c 0xea) as [->|N8].
  { unfold updEraseFullFlash, eraseFullFlash. destruct (eraseAddressRange _ _ _ _ _) as [q w'] eqn:E. intros [= <- <-].
    eapply erase_step; eauto using eraseAddressRange_prot, eraseAddressRange_code. }
  destruct (Z.eqb_spec c 0xe9) as [->|N9].
  { unfold updEraseAddressRange. destruct (eraseAddressRange _ _ _ _ _) as [q w'] eqn:E. intros [= <- <-].
    eapply erase_step; eauto using eraseAddressRange_prot, eraseAddressRange_code. }
  assert (NN : forall x, note (down s) (c :: d, x) = down s).
  { intros x. unfold note, forgets. cbn [fst snd].
    repeat match goal with N : c <> ?k |- _ => rewrite (proj2 (Z.eqb_neq c k) N); clear N end. reflexivity. }
  destruct (c =? 0xe7). { intros [= <- <-]. apply stepped_id; auto. }
  destruct (c =? 0xdf). { intros [= <- <-]. apply stepped_id; auto. }
  destruct (c =? 0xed).
  { destruct (updUpdateBootDescriptorBlock _ _ _ _) as [s1 r1] eqn:E. intros [= <- <-].
    apply updBootDesc_prot in E; auto. destruct E as (f & -> & F1 & F2).
    constructor; simpl; auto. constructor; simpl; auto. }
  destruct (c =? 0xba).
  { unfold udpRequestBootDescriptionBlock. cbv zeta. destruct (_ && _); intros [= <- <-].
    - constructor; simpl; auto. constructor; simpl; auto.
    - constructor; simpl; auto. constructor; simpl; auto. apply over_ok; auto using ff_ok.
      intros a Ha. apply over_out. pose proof (bootDesc_ge L). lia. }
  destruct (c =? 0xb8).
  { unfold updRequestBootloaderIdentity. destruct (_ || _); intros [= <- <-]; apply stepped_id; auto. }
  destruct (c =? 0xe8); intros [= <- <-]; apply stepped_id; auto.
Qed.

Lemma note_refused s c d x : In x [0x54; 0x01; 0x55; 0x58] -> c <> 0xea /\ c <> 0xe9 /\ c <> 0xee /\ c <> 0xeb \/ x = 0x55 \/ x = 0x58 ->
  note (down s) (c :: d, error_reply x) = down s.
Proof.
  intros Hx Hc. unfold note, forgets, error_reply, one_of, code_of. cbn [fst snd]. change (220 =? 220) with true. cbv iota.
  destruct (c =? 0xef), (c =? 0xbf), ((c =? 0xea) || (c =? 0xe9)) eqn:E1, ((c =? 0xee) || (c =? 0xeb)) eqn:E2; cbn [andb];
    simpl in Hx; destruct Hx as [<-|[<-|[<-|[<-|[]]]]]; try reflexivity; exfalso; lia.
Qed.

Lemma handle_step L x s s' r : layout_ok L -> event_ok x -> inv L s -> handle L (fst x) (snd x) s = Some (s', r) ->
  stepped L (snd x) s s' r.
Proof.
  intros HL [HE Hm] I. destruct x as [e m]. cbn [fst snd] in *. destruct m as [|c d].
  { simpl. intros [= <- <-]. apply stepped_id; auto. }
  inversion Hm; subst. rewrite handle_eq by auto.
  destruct (data_length c) as [[lo hi]|] eqn:HD.
  2:{ intros [= <- <-]. apply stepped_id; auto. apply note_refused; simpl; auto. left.
      repeat split; intros ->; discriminate. }
  cbv zeta. destruct (_ || _) eqn:ES. { intros [= <- <-]. apply stepped_id; auto. apply note_refused; simpl; auto. }
  destruct (_ && _). { intros [= <- <-]. apply stepped_id; auto. apply note_refused; simpl; auto. }
  apply (dispatch_step L e c d s s' r lo hi); auto. lia.
Qed.

(** only the decompressor can leave its buffers *)
Lemma handle_none L x s : layout_ok L -> event_ok x -> inv L s -> handle L (fst x) (snd x) s = None ->
  exists d, snd x = 0xec :: d /\ unlocked s = true.
Proof.
  intros HL [HE Hm] I. destruct x as [e m]. cbn [fst snd] in *. destruct m as [|c d]; [discriminate|].
  inversion Hm; subst. rewrite handle_eq by auto.
  destruct (data_length c) as [[lo hi]|] eqn:HD; [|discriminate].
  cbv zeta. destruct (_ || _) eqn:ES; [discriminate|].
  destruct (unlocked s) eqn:EU; cbn [negb andb].
  2:{ destruct ((c =? 191) || (c =? 190) || (c =? 188)) eqn:E3; cbn [negb]; [|discriminate].
      unfold dispatch. destruct (c =? 191); [discriminate|]. destruct (c =? 190); [discriminate|].
      destruct (c =? 188); [discriminate|]. discriminate. }
  unfold dispatch.
  destruct (c =? 191); [discriminate|]. destruct (c =? 190); [discriminate|]. destruct (c =? 188); [discriminate|].
  destruct (c =? 239); [discriminate|]. destruct (Z.eqb_spec c 238); [|destruct (Z.eqb_spec c 236); [|destruct (Z.eqb_spec c 235)]].
  4:{ repeat match goal with |- context[if ?b then _ else _] => destruct b; [discriminate|] end. discriminate. }
  - intros HN; exfalso; revert HN. subst c. pose proof I as [I1 I2 I3 I4 I5]. unfold updProgram. cbv zeta.
    destruct (addressAllowedToProgram L _ _ false) eqn:EA; cbn [negb]; [|discriminate].
    destruct (Z.ltb_spec bufferSize (le16 (at_ d) 0)); [discriminate|].
    destruct (le16 (at_ d) 0 <? pos s); [discriminate|]. destruct (pos s <? le16 (at_ d) 0); [discriminate|]. destruct (crc32 _ _ =? _); cbn [negb]; [|discriminate].
    inversion Hm as [|? ? _ Hd]; subst.
    assert (Hcount : le16 (at_ d) 0 = num16 d) by (rewrite le16_num by (apply at_bytes; auto); reflexivity).
    assert (Haddr : le32 (at_ d) 2 = num32 (skipn 2 d)) by (apply (le32_num d 2); auto).
    assert (Hc16 : 0 <= num16 d < 65536).
    { unfold num16. pose proof (rd_byte d 0 Hd). pose proof (rd_byte d 1 Hd). unfold is_byte in *. lia. }
    assert (Ha32 : is_u32 (num32 (skipn 2 d))) by (apply num32_u32, Forall_skipn; auto).
    rewrite Hcount, Haddr in *.
    assert (Hc0 : num16 d <> 0) by (eapply allowed_inv; eauto). unfold bufferSize in *.
    destruct (allowed_range L (num32 (skipn 2 d)) (num16 d) HL Ha32 ltac:(lia) EA) as (A1 & A2 & [A3|A3]).
    + destruct (progOuter_ok L (ramAt s e) (num32 (skipn 2 d)) (num16 d) (fl s) (e_iap e) HL A1 A2 ltac:(lia) A3 (proj1 HE)) as (p & -> & _).
      discriminate.
    + assert (Hft : flash_top L < num32 (skipn 2 d)) by (destruct HL as (_ & _ & ? & _); lia).
      destruct (progOuter_far L (ramAt s e) (fl s) (e_iap e) _ (num16 d) HL Hft ltac:(lia)) as (p & -> & D1 & D2). discriminate.
  - intros _. subst. eauto.
  - intros HN; exfalso; revert HN. subst c. pose proof I as [I1 I2 I3 I4 I5]. unfold updProgramDecompressed.
    destruct (addressAllowedToProgram _ _ _ _) eqn:EA; cbn [negb]; [|discriminate].
    destruct (negb _); [discriminate|].
    destruct (pageCompleted_ok L e (dec s) (fl s, e_iap e) HL I5 I1 (proj1 HE) HE EA) as (q & d' & w' & -> & D1 & D2 & D3). discriminate.
Qed.
