(** Bootloader: histories (C36, C37, C40), erasing (C38), start of the application (C39). *)
From Verif Require Import Base Bits CRC_Model CRC_Spec CRC_Proofs Boot_Model Boot_Spec Boot_Proofs.

(** ** Histories *)
Lemma firmware_start_bounds L f : layout_ok L -> flash_ok f -> 0 <= getFirmwareStartAddress L f <= flash_top L.
Proof.
  intros HL Hf. pose proof (appFirst_bounds L). destruct HL as (H1 & H2 & H3 & _). unfold getFirmwareStartAddress.
  destruct (checkApplication _ _ _) eqn:E; [|lia]. unfold checkApplication in E. cbv zeta in E. unfold flashLast in E.
  destruct (_ || _) eqn:E1; [discriminate|]. apply orb_false_iff in E1. lia.
Qed.
Lemma init_inv L f : layout_ok L -> flash_ok f -> inv L (updInit L f).
Proof.
  intros HL Hf. constructor; cbn [fl ram pos dec updInit]; auto; try lia.
  - apply Forall_repeat_. red; lia.
  - apply decInit_inv, firmware_start_bounds; auto.
Qed.
Lemma run_inv L h : layout_ok L -> forall s t0, Forall event_ok h -> inv L s -> downloaded t0 (down s) ->
  match run L s h with
  | None => exists e d, In (e, 0xec :: d) h
  | Some (s', t) => inv L s' /\ (forall a, a < image_end L -> fl s' a = fl s a) /\ downloaded (t0 ++ t) (down s')
  end.
Proof.
  intros HL. induction h as [|[e m] h IH]; intros s t0 Hh I D; simpl.
  - rewrite app_nil_r. auto.
  - inversion Hh as [|? ? He Hh']; subst. destruct (handle L e m s) as [[s1 r]|] eqn:E.
    + pose proof (handle_step L (e, m) s s1 r HL He I E) as [S1 S2 S3]. cbn [snd] in S3.
      assert (D1 : downloaded (t0 ++ [(m, r)]) (down s1)).
      { destruct S3 as [->|[W ->]]; [apply dl_note; auto|eapply dl_wrap; eauto]. }
      specialize (IH s1 (t0 ++ [(m, r)]) Hh' S1 D1). destruct (run L s1 h) as [[s' t]|].
      * destruct IH as (J1 & J2 & J3). split; auto. split; [intros a Ha; rewrite J2, S2; auto|].
        rewrite <- app_assoc in J3. exact J3.
      * destruct IH as (e' & d' & Hin). exists e', d'. auto.
    + destruct (handle_none L (e, m) s HL He I E) as (d & Hd & _). cbn [snd] in Hd. subst. exists e, d. auto.
Qed.
Lemma reachable_facts L f0 s talk : layout_ok L -> flash_ok f0 -> reachable L f0 s talk ->
  inv L s /\ (forall a, a < image_end L -> fl s a = f0 a) /\ downloaded talk (down s).
Proof.
  intros HL Hf (h & Hh & E).
  pose proof (run_inv L h HL (updInit L f0) [] Hh (init_inv L f0 HL Hf)) as H.
  rewrite E in H. apply H. rewrite (down_0 (updInit L f0)) by reflexivity. constructor.
Qed.

(** C36 *)
Lemma bootloader_untouched L f0 h s talk : layout_ok L -> flash_ok f0 -> Forall event_ok h ->
  run L (updInit L f0) h = Some (s, talk) -> forall a, a < image_end L -> fl s a = f0 a.
Proof. intros HL Hf Hh E. apply (reachable_facts L f0 s talk HL Hf). exists h. auto. Qed.
Lemma run_defined L f0 h : layout_ok L -> flash_ok f0 -> Forall event_ok h ->
  (forall e m, In (e, m) h -> hd 0 m <> 0xec) -> exists s talk, run L (updInit L f0) h = Some (s, talk).
Proof.
  intros HL Hf Hh Hn.
  pose proof (run_inv L h HL (updInit L f0) [] Hh (init_inv L f0 HL Hf)) as H.
  destruct (run L (updInit L f0) h) as [[s t]|]; eauto. exfalso.
  destruct H as (e & d & Hin). { rewrite (down_0 (updInit L f0)) by reflexivity. constructor. }
  apply Hn in Hin. apply Hin. reflexivity.
Qed.

(** ** C37 *)
Lemma reverse_swap d : length d = 12%nat -> reverse_words d = swap_words d.
Proof.
  intros H. do 12 (destruct d as [|? d]; [discriminate|]). destruct d; [|discriminate]. reflexivity.
Qed.
Lemma locked_step L e m s : unlocked s = false -> msg_ok m -> ~ correct_unlock L m ->
  exists r, handle L e m s = Some (s, r) /\ locked_reply L (fl s) m r.
Proof.
  intros HU Hm HN. destruct m as [|c d]. { eexists. split; reflexivity. }
  inversion Hm as [|? ? Hc Hd]; subst. rewrite handle_eq by auto.
  destruct (data_length c) as [[lo hi]|] eqn:HD.
  2:{ eexists. split; [reflexivity|]. simpl. unfold well_sized. rewrite HD.
      split; [auto|]. split; [discriminate|].
      assert (forall P : Prop, (exists lo hi, None = Some (lo, hi) /\ lo <= Z.of_nat (length d) <= hi) -> P) as X by (intros P (? & ? & ? & _); discriminate).
      repeat apply conj; intros W; apply (X _ W). }
  cbv zeta. rewrite HU. cbn [negb andb].
  destruct ((Z.of_nat (length d) <? lo) || (hi <? Z.of_nat (length d))) eqn:ES.
  { eexists. split; [reflexivity|]. simpl. unfold well_sized. rewrite HD.
    split; [discriminate|]. split; [auto|].
    assert (forall P : Prop, (exists lo0 hi0, Some (lo, hi) = Some (lo0, hi0) /\ lo0 <= Z.of_nat (length d) <= hi0) -> P) as X.
    { intros P (a & b & [= <- <-] & W). exfalso. lia. }
    repeat apply conj; intros W; apply (X _ W). }
  assert (HS : lo <= Z.of_nat (length d) <= hi) by lia.
  assert (X2 : forall lo0 hi0 r, Some (lo, hi) = Some (lo0, hi0) -> ~ (lo0 <= Z.of_nat (length d) <= hi0) -> r = error_reply 0x55).
  { intros a b r [= <- <-] W. contradiction. }
  destruct (Z.eqb_spec c 0xbf) as [->|N1]; cbn [orb negb].
  { change (data_length 191) with (Some (12, 12)) in HD. injection HD as <- <-.
    change (dispatch L e 191 d s) with (Some (updUnlockDevice L d s)). unfold updUnlockDevice.
    destruct (Z.eqb_spec (Z.of_nat (length d)) 12); [|lia]. cbn [negb].
    destruct (list_eq_dec Z.eq_dec (firstn 12 (chip_uid L)) d) as [E1|E1].
    { exfalso. apply HN. exists d. split; auto. split; [lia|]. left; auto. }
    destruct (list_eq_dec Z.eq_dec (firstn 12 (chip_uid L)) (reverse_words d)) as [E2|E2].
    { exfalso. apply HN. exists d. split; auto. split; [lia|]. right. rewrite <- reverse_swap by lia. auto. }
    eexists. split; [reflexivity|]. simpl. split; [discriminate|]. split; [intros a b; apply X2|].
    repeat apply conj; intros; congruence || reflexivity || discriminate. }
  destruct (Z.eqb_spec c 0xbe) as [->|N2]; cbn [orb negb].
  { eexists. split; [reflexivity|]. simpl. split; [discriminate|]. split; [intros a b E; apply X2; rewrite <- HD; exact E|].
    repeat apply conj; intros; congruence || reflexivity || discriminate. }
  destruct (Z.eqb_spec c 0xbc) as [->|N3]; cbn [orb negb].
  { eexists. split; [reflexivity|]. simpl. split; [discriminate|]. split; [intros a b E; apply X2; rewrite <- HD; exact E|].
    repeat apply conj; intros; try (congruence || reflexivity || discriminate).
    split; [reflexivity|]. unfold appVersion. destruct (_ && _); [apply bytes_at_length|reflexivity]. }
  eexists. split; [reflexivity|]. simpl. rewrite HD. split; [discriminate|]. split; [intros a b; apply X2|].
  repeat apply conj; intros; congruence || reflexivity || discriminate.
Qed.
Lemma locked_history L h : forall s, unlocked s = false -> Forall (fun x => msg_ok (snd x) /\ ~ correct_unlock L (snd x)) h ->
  exists talk, run L s h = Some (s, talk) /\ map fst talk = map snd h /\
               Forall (fun x => locked_reply L (fl s) (fst x) (snd x)) talk.
Proof.
  induction h as [|[e m] h IH]; intros s HU Hh; simpl.
  - exists []. auto.
  - inversion Hh as [|? ? [Hm Hn] Hh']; subst. cbn [snd] in *.
    destruct (locked_step L e m s HU Hm Hn) as (r & -> & Hr).
    destruct (IH s HU Hh') as (t & -> & T1 & T2). exists ((m, r) :: t). simpl. split; auto. split; [congruence|].
    constructor; auto.
Qed.
Lemma unlock_works L e m s : layout_ok L -> msg_ok m -> correct_unlock L m ->
  exists s', handle L e m s = Some (s', error_reply 0x7f) /\ unlocked s' = true /\ fl s' = fl s.
Proof.
  intros HL Hm (key & -> & Hlen & Hkey). rewrite handle_eq by (inversion Hm; auto).
  change (data_length 191) with (Some (12, 12)). cbv zeta. rewrite Hlen.
  change ((Z.of_nat 12 <? 12) || (12 <? Z.of_nat 12)) with false. cbv iota.
  change (negb ((191 =? 191) || (191 =? 190) || (191 =? 188))) with false. rewrite andb_false_r.
  change (dispatch L e 191 key s) with (Some (updUnlockDevice L key s)). unfold updUnlockDevice.
  rewrite Hlen. change (negb (Z.of_nat 12 =? 12)) with false. cbv iota.
  destruct (list_eq_dec Z.eq_dec (firstn 12 (chip_uid L)) key) as [E1|E1].
  { eexists. split; [reflexivity|]. auto. }
  destruct (list_eq_dec Z.eq_dec (firstn 12 (chip_uid L)) (reverse_words key)) as [E2|E2].
  { eexists. split; [reflexivity|]. auto. }
  exfalso. destruct Hkey as [->|Hk]; [congruence|]. apply E2. rewrite reverse_swap by auto. auto.
Qed.

(** ** C38: erasing *)
Record erases (lo hi : Z) (r : Z) (w w' : wk) : Prop := {
  er_out : forall x, ~ (lo <= x < hi) -> fst w' x = fst w x;
  er_in : r = 0x7f -> forall x, lo <= x < hi -> fst w' x = 0xFF;
  er_iap : Forall iap_ok (snd w');
  er_ok : all_ok (snd w) -> r = 0x7f /\ all_ok (snd w')
}.
Lemma erases_seq lo hi lo1 hi1 lo2 hi2 r2 w w1 w2 :
  erases lo1 hi1 0x7f w w1 -> erases lo2 hi2 r2 w1 w2 ->
  (forall x, lo <= x < hi <-> lo1 <= x < hi1 \/ lo2 <= x < hi2) -> erases lo hi r2 w w2.
Proof.
  intros [A1 A2 A3 A4] [B1 B2 B3 B4] H. constructor; auto.
  - intros x Hx. rewrite H in Hx. rewrite B1, A1; auto.
  - intros Hr x Hx. rewrite H in Hx.
    destruct (Z_le_dec lo2 x), (Z_lt_dec x hi2); try (apply B2; auto; lia); rewrite B1 by lia; apply A2; auto; lia.
  - intros Hw. apply B4, A4; auto.
Qed.
Lemma erases_stop lo hi lo1 hi1 r w w1 : r <> 0x7f -> erases lo1 hi1 r w w1 ->
  (forall x, lo1 <= x < hi1 -> lo <= x < hi) -> erases lo hi r w w1.
Proof.
  intros Hr [A1 A2 A3 A4] H. constructor; auto.
  congruence.
Qed.
Lemma erases_weaken lo hi lo' hi' r w w' : lo = lo' -> hi = hi' -> erases lo hi r w w' -> erases lo' hi' r w w'.
Proof. intros -> ->. auto. Qed.
Ltac zd := Z.div_mod_to_equations; lia.
Lemma erase_call lo n w q w' : Forall iap_ok (snd w) -> iapCall true lo n (fun _ => 0xFF) w = (q, w') ->
  erases lo (lo + n) (iapResult2UDPState q) w w'.
Proof.
  intros Hw E. apply iapCall_spec in E; auto. destruct E as (P1 & P2 & P3 & P4 & P5).
  assert (Hq : iapResult2UDPState q = 0x7f - q).
  { unfold iapResult2UDPState. destruct (Z.leb_spec 0 q), (Z.leb_spec q 11); simpl; auto; lia. }
  rewrite Hq. constructor; auto.
  - intros Hr x Hx. apply P2; auto. lia.
  - intros Ha. destruct (P5 Ha). split; auto. lia.
Qed.
Lemma erase_pages L s e w r w' : layout_ok L -> image_end L <= s * 256 -> s <= e -> e * 256 < flash_top L ->
  Forall iap_ok (snd w) -> erasePageRange L s e w = (r, w') -> erases (s * 256) ((e + 1) * 256) r w w'.
Proof.
  intros HL H1 H2 H3 Hw. pose proof HL as (K1 & K2 & K3 & K4 & _). unfold erasePageRange. rewrite !page_allowed by auto.
  assert (A : forall p, s <= p <= e -> ((image_end L - 1) / 256 <? p) && (p <=? (flash_top L - 1) / 256) = true).
  { intros p Hp. apply andb_true_intro. split; [apply Z.ltb_lt|apply Z.leb_le]; zd. }
  rewrite !A by lia. cbn [negb orb]. unfold iapErasePageRange.
  assert ((s <=? e) && (e * 256 <? flash_top L) = true) as -> by (apply andb_true_intro; lia).
  destruct (iapCall _ _ _ _ _) as [q w1] eqn:E. intros [= <- <-].
  apply erase_call in E; auto. revert E. apply erases_weaken; lia.
Qed.
Lemma erase_sectors L s e w r w' : layout_ok L -> image_end L <= s * 4096 -> s <= e -> e * 4096 < flash_top L ->
  Forall iap_ok (snd w) -> eraseSectorRange L s e w = (r, w') -> erases (s * 4096) ((e + 1) * 4096) r w w'.
Proof.
  intros HL H1 H2 H3 Hw. pose proof HL as (K1 & K2 & K3 & K4 & _). unfold eraseSectorRange. rewrite !sector_allowed by auto.
  assert (A : forall p, s <= p <= e -> ((image_end L - 1) / 4096 <? p) && (p <=? (flash_top L - 1) / 4096) = true).
  { intros p Hp. apply andb_true_intro. split; [apply Z.ltb_lt|apply Z.leb_le]; zd. }
  rewrite !A by lia. cbn [negb orb]. unfold iapEraseSectorRange.
  assert ((s <=? e) && (e * 4096 <? flash_top L) = true) as -> by (apply andb_true_intro; lia).
  destruct (iapCall _ _ _ _ _) as [q w1] eqn:E. intros [= <- <-].
  apply erase_call in E; auto. revert E. apply erases_weaken; lia.
Qed.
Lemma erase_tail L s e q w r w' : layout_ok L -> image_end L <= s -> s mod 4096 = 0 -> s <= e -> e < flash_top L ->
  Forall iap_ok (snd w) -> eraseTail L s e q w = (r, w') -> erases s (256 * (e / 256 + 1)) r w w'.
Proof.
  intros HL H1 H2 H3 H4 Hw. pose proof HL as (K1 & K2 & K3 & K4 & _).
  unfold eraseTail, eraseMiddle. cbv zeta. rewrite !page_of, !sector_of by lia.
  assert (E1 : u32 (e / 4096 * 4096) / 256 = 16 * (e / 4096)).
  { rewrite u32_id by (red; zd). zd. }
  rewrite E1. assert (E2 : u32 (e / 256 - 16 * (e / 4096) + 1) = e / 256 - 16 * (e / 4096) + 1) by (apply u32_id; red; zd).
  rewrite E2. destruct (Z.eqb_spec (e / 256 - 16 * (e / 4096) + 1) 16) as [E16|N16].
  - destruct (Z.leb_spec (s / 4096) (e / 4096)); [|zd].
    intros E. apply erase_sectors in E; auto; try zd. revert E. apply erases_weaken; zd.
  - destruct (erasePageRange _ _ _ w) as [r1 w1] eqn:EP. apply erase_pages in EP; auto; try zd.
    assert (E3 : u32 (e / 4096 - 1) = e / 4096 - 1) by (apply u32_id; red; zd). rewrite E3.
    destruct (Z.eqb_spec r1 UDP_IAP_SUCCESS) as [->|N]; cbn [negb].
    + destruct (Z.leb_spec (s / 4096) (e / 4096 - 1)).
      * intros E. apply erase_sectors in E; auto; try zd. 2:{ apply EP. }
        eapply erases_seq; eauto. intros x. zd.
      * intros [= <- <-]. revert EP. apply erases_weaken; zd.
    + intros [= <- <-]. eapply erases_stop; eauto. intros x Hx. zd.
Qed.
Lemma erase_range L s e c w r w' : layout_ok L -> image_end L <= s -> s mod 256 = 0 -> s <= e -> e < flash_top L ->
  (c = true -> appFirst L <= s) -> Forall iap_ok (snd w) -> eraseAddressRange L s e c w = (r, w') ->
  erases s (256 * (e / 256 + 1)) r w w'.
Proof.
  intros HL H1 H2 H3 H4 Hc Hw. pose proof HL as (K1 & K2 & K3 & K4 & _).
  unfold eraseAddressRange. cbv zeta.
  assert (E0 : c && negb (addressAllowedToProgram L s (u32 (e - s + 1)) false) = false).
  { destruct c; auto. cbn [andb]. apply negb_false_iff. unfold addressAllowedToProgram. rewrite aligned_256, H2.
    rewrite (u32_id (e - s + 1)) by (red; lia). destruct (Z.eqb_spec (e - s + 1) 0); [lia|]. cbn.
    unfold flashLast. rewrite u32_id by (red; lia). specialize (Hc eq_refl). lia. }
  rewrite E0. rewrite (page_of s), (page_of e), (sector_of s) by lia.
  assert (E2 : u32 (e / 256 - s / 256 + 1) = e / 256 - s / 256 + 1) by (apply u32_id; red; zd). rewrite E2.
  destruct (Z.ltb_spec (e / 256 - s / 256 + 1) 16) as [Hlt|Hge].
  - intros E. apply erase_pages in E; auto; try zd. revert E. apply erases_weaken; zd.
  - rewrite aligned_4096. destruct (Z.eqb_spec (s mod 4096) 0) as [Ea|Na]; cbn [negb].
    + apply erase_tail; auto.
    + assert (E3 : u32 (u32 (s / 4096 + 1) * 4096) = (s / 4096 + 1) * 4096).
      { rewrite (u32_id (s / 4096 + 1)) by (red; zd). apply u32_id. red. zd. }
      rewrite E3. rewrite page_of by zd.
      assert (E4 : u32 ((s / 4096 + 1) * 4096 / 256 - 1) = 16 * (s / 4096 + 1) - 1).
      { assert ((s / 4096 + 1) * 4096 / 256 = 16 * (s / 4096 + 1)) as -> by zd. apply u32_id. red. zd. }
      rewrite E4. destruct (erasePageRange _ _ _ w) as [r1 w1] eqn:EP. apply erase_pages in EP; auto; try zd.
      destruct (Z.eqb_spec r1 UDP_IAP_SUCCESS) as [->|N]; cbn [negb].
      * intros E. apply erase_tail in E; auto; try zd. 2:{ apply EP. }
        eapply erases_seq; eauto. intros x. zd.
      * intros [= <- <-]. eapply erases_stop; eauto. intros x Hx. zd.
Qed.

Lemma le32_0 l : Forall is_byte l -> le32 (at_ l) 0 = num32 l. Proof. apply (le32_num l 0). Qed.
Lemma le32_2 l : Forall is_byte l -> le32 (at_ l) 2 = num32 (skipn 2 l). Proof. apply (le32_num l 2). Qed.
Lemma le32_4 l : Forall is_byte l -> le32 (at_ l) 4 = num32 (skipn 4 l). Proof. apply (le32_num l 4). Qed.
Lemma le32_6 l : Forall is_byte l -> le32 (at_ l) 6 = num32 (skipn 6 l). Proof. apply (le32_num l 6). Qed.
(** a command on an unlocked device *)
Lemma handle_unlocked L e c d s lo hi : is_byte c -> unlocked s = true -> data_length c = Some (lo, hi) ->
  lo <= Z.of_nat (length d) <= hi -> handle L e (c :: d) s = dispatch L e c d s.
Proof.
  intros Hc HU HD HS. rewrite handle_eq by auto. rewrite HD. cbv zeta. rewrite HU. cbn [negb andb].
  destruct (Z.ltb_spec (Z.of_nat (length d)) lo), (Z.ltb_spec hi (Z.of_nat (length d))); try lia. reflexivity.
Qed.
Lemma touched_iff s e x : s mod 256 = 0 -> touched s e x = true <-> s <= x < 256 * (e / 256 + 1).
Proof. intros H. unfold touched. rewrite andb_true_iff, !Z.leb_le. split; intros; zd. Qed.
Lemma erases_touched s e r w w' : s mod 256 = 0 -> erases s (256 * (e / 256 + 1)) r w w' ->
  (r = 0x7f -> forall x, fst w' x = if touched s e x then 0xFF else fst w x) /\
  (forall x, touched s e x = false -> fst w' x = fst w x).
Proof.
  intros Hs [E1 E2 E3 E4]. split.
  - intros Hr x. destruct (touched s e x) eqn:T.
    + apply touched_iff in T; auto.
    + apply E1. rewrite <- touched_iff by auto. congruence.
  - intros x T. apply E1. rewrite <- touched_iff by auto. congruence.
Qed.
Lemma erase_command L e d s : layout_ok L -> env_ok e -> unlocked s = true -> msg_ok d -> length d = 8%nat ->
  num32 d <= num32 (skipn 4 d) ->
  num32 d mod 256 = 0 -> appFirst L <= num32 d -> num32 (skipn 4 d) < flash_top L ->
  exists s' r, handle L e (0xe9 :: d) s = Some (s', error_reply r) /\
    (r = 0x7f -> forall x, fl s' x = if touched (num32 d) (num32 (skipn 4 d)) x then 0xFF else fl s x) /\
    (forall x, touched (num32 d) (num32 (skipn 4 d)) x = false -> fl s' x = fl s x) /\
    (no_failure e -> r = 0x7f).
Proof.
  intros HL [He _] HU Hd Hlen Hle Hal Hap Htop.
  rewrite (handle_unlocked L e 233 d s 8 8) by (auto; try reflexivity; try (red; lia); lia).
  change (dispatch L e 233 d s) with (Some (updEraseAddressRange L e d s)). unfold updEraseAddressRange.
  rewrite le32_0, le32_4 by auto.
  destruct (eraseAddressRange _ _ _ _ _) as [r w'] eqn:E. exists (set_fl (fst w') (set_pos 0 s)), r.
  split; [reflexivity|]. pose proof (appFirst_bounds L).
  apply erase_range in E; auto; try lia. destruct (erases_touched _ _ _ _ _ Hal E) as [T1 T2]. destruct E as [E1 E2 E3 E4].
  split; [exact T1|]. split; [exact T2|]. intros Hn. apply E4. exact Hn.
Qed.
Lemma u32_id' x y : x = y -> is_u32 y -> u32 x = y.
Proof. intros -> H. apply u32_id; auto. Qed.
Lemma erase_refused L e d s : layout_ok L -> unlocked s = true -> msg_ok d -> length d = 8%nat ->
  num32 d <= num32 (skipn 4 d) ->
  ~ (num32 d mod 256 = 0 /\ appFirst L <= num32 d /\ num32 (skipn 4 d) < flash_top L) ->
  exists s', handle L e (0xe9 :: d) s = Some (s', error_reply 0x51) /\ fl s' = fl s.
Proof.
  intros HL HU Hd Hlen Hle Hn.
  rewrite (handle_unlocked L e 233 d s 8 8) by (auto; try reflexivity; try (red; lia); lia).
  change (dispatch L e 233 d s) with (Some (updEraseAddressRange L e d s)). unfold updEraseAddressRange.
  rewrite le32_0, le32_4 by auto.
  set (a := num32 d) in *. set (b := num32 (skipn 4 d)) in *.
  assert (Ha : is_u32 a) by (apply num32_u32; auto). assert (Hb : is_u32 b) by (apply num32_u32, Forall_skipn; auto).
  unfold is_u32 in *. unfold eraseAddressRange. 
  assert (addressAllowedToProgram L a (u32 (b - a + 1)) false = false) as ->.
  { unfold addressAllowedToProgram. rewrite aligned_256. destruct (Z.eqb_spec (a mod 256) 0) as [E|]; cbn; auto.
    destruct (Z.eqb_spec (u32 (b - a + 1)) 0); auto. cbn.
    assert (u32 (a + u32 (b - a + 1) - 1) = b) as ->.
    { assert (b - a + 1 <> 4294967296) by (intros X; rewrite X in n; apply n; reflexivity).
      rewrite (u32_id (b - a + 1)) by (red; lia). apply u32_id'. lia. red; lia. }
    unfold flashLast. apply andb_false_iff. destruct (Z.leb_spec (appFirst L) a); auto. right. apply Z.leb_gt. lia. }
  cbn [negb andb]. cbv zeta. eexists. split; reflexivity.
Qed.
Lemma full_erase L e s : layout_ok L -> env_ok e -> unlocked s = true ->
  exists s' r, handle L e [0xea] s = Some (s', error_reply r) /\
    (r = 0x7f -> forall x, fl s' x = if ((image_end L + 255) / 256 * 256 <=? x) && (x <? flash_top L) then 0xFF else fl s x) /\
    (forall x, ~ ((image_end L + 255) / 256 * 256 <= x < flash_top L) -> fl s' x = fl s x) /\
    (no_failure e -> r = 0x7f).
Proof.
  intros HL [He _] HU. pose proof HL as (K1 & K2 & K3 & K4 & _).
  rewrite (handle_unlocked L e 234 [] s 0 0) by (auto; try reflexivity; try (red; lia); simpl; lia).
  change (dispatch L e 234 [] s) with (Some (updEraseFullFlash L e s)). unfold updEraseFullFlash, eraseFullFlash.
  unfold bootLoaderLast, flashLast. rewrite page_of by lia.
  rewrite (u32_id ((image_end L - 1) / 256 + 1)) by (red; zd). rewrite u32_id by (red; zd).
  replace ((image_end L + 255) / 256 * 256) with (((image_end L - 1) / 256 + 1) * 256) by zd.
  set (a := ((image_end L - 1) / 256 + 1) * 256).
  assert (Ha : image_end L <= a < image_end L + 256 /\ a mod 256 = 0) by (unfold a; zd).
  destruct (eraseAddressRange _ _ _ _ _) as [r w'] eqn:E. exists (set_fl (fst w') (set_pos 0 s)), r.
  split; [reflexivity|]. apply erase_range in E; auto; try lia; try discriminate.
  replace (256 * ((flash_top L - 1) / 256 + 1)) with (flash_top L) in E by zd.
  destruct E as [E1 E2 E3 E4]. split; [|split].
  - intros Hr x. destruct (Z.leb_spec a x), (Z.ltb_spec x (flash_top L)); cbn [andb]; try (apply E1; lia). apply E2; auto.
  - exact E1.
  - intros Hn. apply E4. exact Hn.
Qed.

(** ** C39: start of the application *)
Lemma bits_lsb_inj a b : is_u32 a -> is_u32 b -> bits_lsb 32 a = bits_lsb 32 b -> a = b.
Proof.
  intros Ha Hb H. apply Z.bits_inj'. intros n Hn. destruct (Z.lt_ge_cases n 32).
  - unfold bits_lsb in H. assert (E : nth (Z.to_nat n) (map (fun i => Z.testbit a (Z.of_nat i)) (seq 0 32)) false =
                                      nth (Z.to_nat n) (map (fun i => Z.testbit b (Z.of_nat i)) (seq 0 32)) false) by (rewrite H; reflexivity).
    rewrite !(nth_indep _ false (Z.testbit a (Z.of_nat 0))) in E by (rewrite map_length, seq_length; lia).
    rewrite (map_nth (fun i => Z.testbit a (Z.of_nat i))) in E.
    rewrite (nth_indep _ _ (Z.testbit b (Z.of_nat 0))) in E by (rewrite map_length, seq_length; lia).
    rewrite (map_nth (fun i => Z.testbit b (Z.of_nat i))) in E.
    rewrite seq_nth in E by lia. rewrite Nat.add_0_l, Z2Nat.id in E by lia. exact E.
  - unfold is_u32 in *. rewrite !(bits_above_lt _ 32 n); auto; change (2 ^ 32) with 4294967296; lia.
Qed.
Lemma crc32_iff m c : Forall is_byte m -> is_u32 c -> crc32 0xFFFFFFFF m = c <-> is_crc32 m c.
Proof.
  intros Hm Hc. destruct (crc32_remainder 0xFFFFFFFF m ltac:(red; lia) Hm) as [E U].
  unfold is_crc32. change (repeat true 32) with (bits_lsb 32 0xFFFFFFFF). rewrite <- E. split.
  - intros <-. reflexivity.
  - intros H. symmetry. apply bits_lsb_inj; auto.
Qed.
Lemma content_bytes_at f lo hi : bytes_at f lo (hi - lo + 1) = content f lo hi.
Proof. reflexivity. Qed.
Lemma check_startable L f : layout_ok L -> flash_ok f -> checkApplication L f (descriptor L f) = true <-> startable L f.
Proof.
  intros HL Hf. pose proof (appFirst_bounds L) as AB. unfold checkApplication, startable.
  assert (HD : forall x, is_byte (descriptor L f x)) by (intros; apply Hf).
  rewrite !le32_word by auto.
  assert (E0 : word_at (descriptor L f) 0 = desc_start L f).
  { unfold desc_start, word_at, descriptor, bootDescAddr. repeat (f_equal; try lia). }
  assert (E4 : word_at (descriptor L f) 4 = desc_end L f).
  { unfold desc_end, word_at, descriptor, bootDescAddr. repeat (f_equal; try lia). }
  assert (E8 : word_at (descriptor L f) 8 = desc_crc L f).
  { unfold desc_crc, word_at, descriptor, bootDescAddr. repeat (f_equal; try lia). }
  rewrite E0, E4, E8. unfold flashLast.
  set (a := desc_start L f). set (b := desc_end L f). set (c := desc_crc L f).
  assert (Hc : is_u32 c) by (apply word_at_u32; auto).
  assert (Hm : Forall is_byte (content f a b)) by (apply (bytes_at_ok f a (b - a + 1)); auto).
  rewrite content_bytes_at. cbv zeta.
  destruct (Z.ltb_spec a (appFirst L)), (Z.ltb_spec (flash_top L - 1) a); cbn [orb]; try (split; [discriminate|]; lia).
  destruct (Z.ltb_spec (flash_top L - 1) b); try (split; [discriminate|]; lia).
  destruct (Z.leb_spec b a); try (split; [discriminate|]; lia).
  rewrite Z.eqb_eq, crc32_iff by auto. split; [|tauto]. intros HH. repeat split; auto; lia.
Qed.
Lemma startup_iff L f magic btn a : layout_ok L -> flash_ok f ->
  startup L f magic btn = StartApplication a <->
  magic <> 0x5E1FB055 /\ btn = false /\ startable L f /\ a = desc_start L f.
Proof.
  intros HL Hf. unfold startup. rewrite <- check_startable by auto.
  assert (E0 : le32 (descriptor L f) 0 = desc_start L f).
  { rewrite le32_word by (intros; apply Hf). unfold desc_start, word_at, descriptor, bootDescAddr. repeat (f_equal; try lia). }
  rewrite E0.
  destruct (Z.eqb_spec magic 0x5E1FB055); [split; [discriminate|tauto]|].
  destruct btn; [split; [discriminate|intros (_ & ? & _); discriminate]|].
  destruct (checkApplication _ _ _); [|split; [discriminate|intros (_ & _ & ? & _); discriminate]].
  split; [intros [= <-]; auto|intros (_ & _ & _ & ->); reflexivity].
Qed.
Lemma corruption L f f' : layout_ok L -> flash_ok f -> flash_ok f' -> startable L f ->
  (forall x, appFirst L - 256 <= x < appFirst L -> f' x = f x) ->
  burst 32 (msg_lsb (content f (desc_start L f) (desc_end L f))) (msg_lsb (content f' (desc_start L f) (desc_end L f))) ->
  ~ startable L f'.
Proof.
  intros HL Hf Hf' HS Hd HB HS'.
  assert (E : desc_start L f' = desc_start L f /\ desc_end L f' = desc_end L f /\ desc_crc L f' = desc_crc L f).
  { unfold desc_start, desc_end, desc_crc, word_at. repeat split; repeat (rewrite Hd by lia); reflexivity. }
  destruct E as (E1 & E2 & E3). destruct HS as (_ & _ & _ & C1). destruct HS' as (_ & _ & _ & C2).
  rewrite E1, E2, E3 in C2.
  assert (Hc : is_u32 (desc_crc L f)) by (apply word_at_u32; auto).
  rewrite <- crc32_iff in C1, C2; auto; try (apply (bytes_at_ok _ _ _); auto).
  refine (crc32_burst 0xFFFFFFFF _ _ _ _ _ HB _); try congruence; try (apply (bytes_at_ok _ _ _); auto). red; lia.
Qed.

(** ** C40 *)
Lemma program_success L e d s s' : layout_ok L -> inv L s -> env_ok e -> msg_ok d ->
  handle L e (0xee :: d) s = Some (s', error_reply 0x7f) ->
  Z.of_nat (length (down s)) = num16 d /\ down s <> [] /\
  is_crc32 (down s) (num32 (skipn 6 d)) /\
  num32 (skipn 2 d) mod 256 = 0 /\ appFirst L <= num32 (skipn 2 d) /\ num32 (skipn 2 d) + num16 d <= flash_top L /\
  holds (fl s') (num32 (skipn 2 d)) (down s) /\
  (forall x, ~ (num32 (skipn 2 d) <= x < num32 (skipn 2 d) + up256 (num16 d)) -> fl s' x = fl s x).
Proof.
  intros HL I HE Hd. pose proof HE as [He Hb]. rewrite handle_eq by (red; lia).
  change (data_length 238) with (Some (10, 10)). cbv beta iota zeta. destruct ((Z.of_nat (length d) <? 10) || (10 <? Z.of_nat (length d))); [discriminate|].
  destruct (negb (unlocked s) && _); [discriminate|]. change (dispatch L e 238 d s) with (updProgram L e d s).
  pose proof I as [I1 I2 I3 I4 I5]. unfold updProgram. cbv zeta.
  rewrite le32_2, le32_6 by auto. rewrite le16_num by (apply at_bytes; auto).
  change (at_ d 0 + 256 * at_ d (0 + 1)) with (num16 d).
  set (count := num16 d). set (addr := num32 (skipn 2 d)). set (crc := num32 (skipn 6 d)).
  assert (Hc16 : 0 <= count < 65536).
  { unfold count, num16. pose proof (rd_byte d 0 Hd). pose proof (rd_byte d 1 Hd). unfold is_byte in *. lia. }
  assert (Ha32 : is_u32 addr) by (apply num32_u32, Forall_skipn; auto).
  destruct (addressAllowedToProgram L addr count false) eqn:EA; cbn [negb]; [|discriminate].
  destruct (Z.ltb_spec bufferSize count); [discriminate|].
  destruct (Z.ltb_spec count (pos s)); [discriminate|]. destruct (Z.ltb_spec (pos s) count); [discriminate|].
  destruct (Z.eqb_spec (crc32 4294967295 (firstn (Z.to_nat count) (ram s))) crc) as [EC|]; cbn [negb]; [|discriminate].
  assert (Hpos : pos s = count) by lia.
  assert (Hdown : down s = firstn (Z.to_nat count) (ram s)) by (unfold down; rewrite Hpos; auto).
  assert (Hlen : length (down s) = Z.to_nat count) by (rewrite Hdown, firstn_length; lia).
  assert (Hc0 : count <> 0) by (eapply allowed_inv; eauto). unfold bufferSize in *.
  destruct (allowed_range L addr count HL Ha32 ltac:(lia) EA) as (A1 & A2 & [A3|A3]).
  - destruct (progOuter_ok L (ramAt s e) addr count (fl s) (e_iap e) HL A1 A2 ltac:(lia) A3 He) as (p & -> & [D1 D2 D3 D4 D5]).
    intros [= <- Hr]. split; [lia|]. split; [intros E; rewrite E in Hlen; simpl in Hlen; lia|].
    split. { rewrite Hdown. apply crc32_iff; auto using Forall_firstn. apply num32_u32, Forall_skipn; auto. }
    split; [auto|]. split; [auto|]. split; [auto|]. split; [|exact D1].
    intros i Hi. rewrite Hlen in Hi. change (fl (set_fl (fst (p_w p)) (set_pos 0 s))) with (fst (p_w p)).
    rewrite D2 by (auto; lia). unfold ramAt, bufferSize. destruct (Z.ltb_spec (addr + Z.of_nat i - addr) 1265); [|lia].
    unfold at_. replace (Z.to_nat (addr + Z.of_nat i - addr)) with i by lia. unfold rd. rewrite Hdown, nth_firstn by lia. reflexivity.
  - assert (Hft : flash_top L < addr) by (destruct HL as (_ & _ & ? & _); lia).
    destruct (progOuter_far L (ramAt s e) (fl s) (e_iap e) addr count HL Hft ltac:(lia)) as (p & -> & D1 & D2).
    intros [= _ Hr]. lia.
Qed.
Lemma program_complete L e d s : layout_ok L -> inv L s -> env_ok e -> no_failure e -> msg_ok d -> length d = 10%nat ->
  unlocked s = true -> down s <> [] ->
  num16 d = Z.of_nat (length (down s)) -> is_crc32 (down s) (num32 (skipn 6 d)) ->
  num32 (skipn 2 d) mod 256 = 0 -> appFirst L <= num32 (skipn 2 d) -> num32 (skipn 2 d) + num16 d <= flash_top L ->
  erased (fl s) (num32 (skipn 2 d)) (up256 (num16 d)) ->
  exists s', handle L e (0xee :: d) s = Some (s', error_reply 0x7f).
Proof.
  intros HL I HE HN Hd Hlen HU Hne Hcount Hcrc A1 A2 A3 A4. pose proof HE as [He Hb].
  rewrite (handle_unlocked L e 238 d s 10 10) by (auto; try reflexivity; try (red; lia); lia).
  change (dispatch L e 238 d s) with (updProgram L e d s). pose proof I as [I1 I2 I3 I4 I5]. unfold updProgram. cbv zeta.
  rewrite le32_2, le32_6 by auto. rewrite le16_num by (apply at_bytes; auto).
  change (at_ d 0 + 256 * at_ d (0 + 1)) with (num16 d).
  set (count := num16 d) in *. set (addr := num32 (skipn 2 d)) in *. set (crc := num32 (skipn 6 d)) in *.
  assert (Hdl : length (down s) = Z.to_nat (pos s)) by (unfold down; rewrite firstn_length; lia).
  assert (Hpos : pos s = count) by lia.
  assert (Hc1 : 0 < count <= 1265).
  { split; [|lia]. destruct (down s) as [|x l] eqn:E; [congruence|]. simpl in Hcount. lia. }
  pose proof (appFirst_bounds L). pose proof HL as (K1 & K2 & K3 & _).
  assert (addressAllowedToProgram L addr count false = true) as ->.
  { unfold addressAllowedToProgram. rewrite aligned_256, A1. simpl. destruct (Z.eqb_spec count 0); [lia|].
    unfold flashLast. rewrite u32_id by (red; lia). lia. }
  cbn [negb]. unfold bufferSize. destruct (Z.ltb_spec 1265 count); [lia|].
  destruct (Z.ltb_spec count (pos s)); [lia|]. destruct (Z.ltb_spec (pos s) count); [lia|].
  assert (crc32 4294967295 (firstn (Z.to_nat count) (ram s)) = crc) as ->.
  { apply crc32_iff; auto using Forall_firstn. apply num32_u32, Forall_skipn; auto. unfold down in Hcrc. rewrite Hpos in Hcrc. auto. }
  rewrite Z.eqb_refl. cbn [negb].
  destruct (progOuter_ok L (ramAt s e) addr count (fl s) (e_iap e) HL A1 A2 Hc1 A3 He) as (p & -> & [D1 D2 D3 D4 D5]).
  rewrite D4; [eexists; reflexivity|exact HN|exact A4|].
  intros i. unfold ramAt. destruct (_ <? _); auto using at_byte.
Qed.
Lemma program_frame L e d s s' r : layout_ok L -> inv L s -> env_ok e -> msg_ok d ->
  handle L e (0xee :: d) s = Some (s', r) ->
  (forall x, ~ (num32 (skipn 2 d) <= x < num32 (skipn 2 d) + up256 (num16 d)) -> fl s' x = fl s x) /\
  (In r (map error_reply [0x5d; 0x5b; 0x4f; 0x50; 0x5e; 0x58; 0x55]) -> fl s' = fl s).
Proof.
  intros HL I HE Hd. pose proof HE as [He Hb]. rewrite handle_eq by (red; lia).
  change (data_length 238) with (Some (10, 10)). cbv beta iota zeta. destruct ((Z.of_nat (length d) <? 10) || (10 <? Z.of_nat (length d))); [intros [= <- <-]; auto|].
  destruct (negb (unlocked s) && _); [intros [= <- <-]; auto|]. change (dispatch L e 238 d s) with (updProgram L e d s).
  pose proof I as [I1 I2 I3 I4 I5]. unfold updProgram. cbv zeta.
  rewrite le32_2, le32_6 by auto. rewrite le16_num by (apply at_bytes; auto).
  change (at_ d 0 + 256 * at_ d (0 + 1)) with (num16 d).
  set (count := num16 d). set (addr := num32 (skipn 2 d)). set (crc := num32 (skipn 6 d)).
  assert (Hc16 : 0 <= count < 65536).
  { unfold count, num16. pose proof (rd_byte d 0 Hd). pose proof (rd_byte d 1 Hd). unfold is_byte in *. lia. }
  assert (Ha32 : is_u32 addr) by (apply num32_u32, Forall_skipn; auto).
  destruct (addressAllowedToProgram L addr count false) eqn:EA; cbn [negb]; [|intros [= <- <-]; auto].
  destruct (Z.ltb_spec bufferSize count); [intros [= <- <-]; auto|].
  destruct (Z.ltb_spec count (pos s)); [intros [= <- <-]; auto|]. destruct (Z.ltb_spec (pos s) count); [intros [= <- <-]; auto|].
  destruct (Z.eqb_spec (crc32 4294967295 (firstn (Z.to_nat count) (ram s))) crc) as [EC|]; cbn [negb]; [|intros [= <- <-]; auto].
  assert (Hc0 : count <> 0) by (eapply allowed_inv; eauto). unfold bufferSize in *.
  destruct (allowed_range L addr count HL Ha32 ltac:(lia) EA) as (A1 & A2 & [A3|A3]).
  - destruct (progOuter_ok L (ramAt s e) addr count (fl s) (e_iap e) HL A1 A2 ltac:(lia) A3 He) as (p & -> & [D1 D2 D3 D4 D5]).
    intros [= <- <-]. split; [exact D1|]. unfold error_reply, lastError. simpl. intros X.
    exfalso. repeat match goal with H : _ \/ _ |- _ => destruct H as [H|H] end; try contradiction; injection X as X; lia.
  - assert (Hft : flash_top L < addr) by (destruct HL as (_ & _ & ? & _); lia).
    destruct (progOuter_far L (ramAt s e) (fl s) (e_iap e) addr count HL Hft ltac:(lia)) as (p & -> & D1 & D2).
    intros [= <- <-]. rewrite D2. split; auto.
Qed.
Lemma send_data L e d s : inv L s -> msg_ok d -> (1 <= length d <= 254)%nat -> unlocked s = true ->
  exists s' r, handle L e (0xef :: d) s = Some (s', error_reply r) /\ fl s' = fl s /\
    ((length (down s) + length d <= 1265)%nat -> r = 0x7f /\ down s' = down s ++ d) /\
    ((1265 < length (down s) + length d)%nat -> r = 0x5b /\ s' = s).
Proof.
  intros I Hd Hlen HU. pose proof I as [I1 I2 I3 I4 I5].
  rewrite (handle_unlocked L e 239 d s 1 254) by (auto; try reflexivity; try (red; lia); lia).
  change (dispatch L e 239 d s) with (Some (updSendData d s)). unfold updSendData, bufferSize.
  assert (Hdl : length (down s) = Z.to_nat (pos s)) by (unfold down; rewrite firstn_length; lia).
  destruct (Z.ltb_spec 1265 (pos s + Z.of_nat (length d))).
  - exists s, 0x5b. split; [reflexivity|]. split; auto. split; [lia|auto].
  - eexists. exists 0x7f. split; [reflexivity|]. split; [reflexivity|]. split; [|lia]. intros _. split; auto.
    unfold down. cbn [pos ram]. rewrite u16_id by (red; lia). rewrite Z2Nat.inj_add, Nat2Z.id by lia.
    apply firstn_wr_range. lia.
Qed.
Lemma downloaded_unique t : (forall x, In x t -> ~ wrapping_program (fst x)) -> forall a b, downloaded t a -> downloaded t b -> a = b.
Proof.
  assert (K : forall t a, downloaded t a -> (forall x, In x t -> ~ wrapping_program (fst x)) -> a = fold_left note t []).
  { induction 1 as [|t0 d x H IH|t0 d m r H IH W]; intros Hw; auto.
    - rewrite fold_left_app. simpl. rewrite IH; auto. intros y Hy. apply Hw, in_or_app; auto.
    - exfalso. apply (Hw (m, r)); auto. apply in_or_app; simpl; auto. }
  intros Hw a b Ha Hb. rewrite (K t a Ha Hw), (K t b Hb Hw). reflexivity.
Qed.

(** ** Update of the descriptor: success means that the application starts *)
Lemma word_ext f g a b : (forall i, 0 <= i < 4 -> f (a + i) = g (b + i)) -> word_at f a = word_at g b.
Proof.
  intros H. unfold word_at. pose proof (H 0 ltac:(lia)) as H0. rewrite !Z.add_0_r in H0.
  rewrite H0, (H 1), (H 2), (H 3) by lia. reflexivity.
Qed.
Lemma le32_ext f g a : (forall i, 0 <= i < 4 -> f (a + i) = g (a + i)) -> le32 f a = le32 g a.
Proof.
  intros H. unfold le32. pose proof (H 0 ltac:(lia)) as H0. rewrite !Z.add_0_r in H0.
  rewrite H0, (H 1), (H 2), (H 3) by lia. reflexivity.
Qed.
Lemma descriptor_update L e d s s' : layout_ok L -> inv L s -> env_ok e -> msg_ok d ->
  handle L e (0xed :: d) s = Some (s', error_reply 0x7f) -> 16 <= num32 d ->
  startable L (fl s') /\ holds (fl s') (appFirst L - 256) (firstn 16 (ram s)) /\
  (forall x, x / 256 <> (appFirst L - 256) / 256 -> fl s' x = fl s x).
Proof.
  intros HL I HE Hd. pose proof HE as [He Hb]. rewrite handle_eq by (red; lia).
  change (data_length 237) with (Some (8, 8)). cbv beta iota zeta. destruct ((Z.of_nat (length d) <? 8) || (8 <? Z.of_nat (length d))); [discriminate|].
  destruct (negb (unlocked s) && _); [discriminate|]. change (dispatch L e 237 d s) with (Some (updUpdateBootDescriptorBlock L e d s)).
  pose proof I as [I1 I2 I3 I4 I5]. unfold updUpdateBootDescriptorBlock. cbv zeta.
  rewrite le32_0, le32_4 by auto.
  intros HH Hcount. revert HH.
  destruct (Z.ltb_spec bufferSize (num32 d)); [discriminate|]. unfold bufferSize in *.
  destruct (negb _); [discriminate|].
  assert (Main : forall f, flash_ok f -> (forall i, 0 <= i < 16 -> f (bootDescAddr L + i) = at_ (ram s) i) ->
            checkApplication L f (at_ (ram s)) = true ->
            startable L f /\ holds f (appFirst L - 256) (firstn 16 (ram s))).
  { intros f Hf Heq Hchk. split.
    - apply check_startable; auto. revert Hchk. unfold checkApplication.
      rewrite (le32_ext (at_ (ram s)) (descriptor L f) 0), (le32_ext (at_ (ram s)) (descriptor L f) 4), (le32_ext (at_ (ram s)) (descriptor L f) 8).
      + auto.
      + intros i Hi. symmetry. apply Heq. lia.
      + intros i Hi. symmetry. apply Heq. lia.
      + intros i Hi. symmetry. apply Heq. lia.
    - intros i Hi. rewrite firstn_length in Hi. change (appFirst L - 256) with (bootDescAddr L). rewrite Heq by lia.
      unfold at_, rd. rewrite Nat2Z.id, nth_firstn by lia. reflexivity. }
  destruct (list_eq_dec _ _ _) as [E|N].
  - destruct (checkApplication L (fl s) (at_ (ram s))) eqn:EC; intros [= <-].
    destruct (Main (fl s)) as [M1 M2]; auto. 
    intros i Hi. pose proof (f_equal (fun l => nth (Z.to_nat i) l 0) E) as E'. cbv beta in E'.
    rewrite nth_bytes_at, nth_firstn in E' by lia. rewrite Z2Nat.id in E' by lia. exact E'.
  - destruct (erasePageRange _ _ _ _) as [q w1] eqn:E1.
    assert (P1 : prot L (fl s, e_iap e) w1) by (eapply erasePageRange_prot; eauto).
    destruct (prot_fl L (fl s) (e_iap e) w1 e I1 He eq_refl P1) as (Q1 & Q2 & Q3).
    destruct (Z.eqb_spec q UDP_IAP_SUCCESS) as [->|Nq]; cbn [negb].
    2:{ intros [= _ Hq]. exfalso. apply Nq. unfold UDP_IAP_SUCCESS. auto. }
    destruct (executeProgramFlash _ _ _ _ _ _) as [q2 w2] eqn:E2.
    assert (P2 : prot L w1 w2).
    { refine (executeProgramFlash_prot L _ _ _ _ w1 q2 w2 HL _ E2). intros i. unfold ramAt. destruct (_ <? _); auto using at_byte. }
    destruct (Z.eqb_spec q2 UDP_ADDRESS_NOT_ALLOWED_TO_FLASH) as [->|N2]; [discriminate|].
    destruct (checkApplication L (fst w2) (at_ (ram s))) eqn:EC; [|discriminate].
    intros [= <- Hq2]. cbn [fl set_fl].
    (* the program call was accepted *)
    unfold executeProgramFlash in E2. destruct (addressAllowedToProgram L (bootDescAddr L) 256 true) eqn:EA; cbn [negb] in E2.
    2:{ injection E2 as <- <-. contradiction N2; reflexivity. }
    destruct ((bootDescAddr L mod 256 =? 0) && existsb (Z.eqb 256) [256; 512; 1024; 4096] && (bootDescAddr L + 256 <=? flash_top L)) eqn:EV.
    2:{ unfold iapProgram in E2. rewrite EV in E2. unfold iapCall in E2. cbn [negb] in E2. injection E2 as <- <-.
        exfalso. unfold iapResult2UDPState in Hq2. simpl in Hq2. lia. }
    destruct (iapProgram _ _ _ _ w1) as [q3 w3] eqn:E3. injection E2 as <- <-.
    apply iapProgram_spec in E3; auto; try lia. destruct E3 as (S1 & S2 & S3 & S4 & S5).
    assert (Hq3 : q3 = 0).
    { unfold iapResult2UDPState in Hq2. destruct (Z.leb_spec 0 q3), (Z.leb_spec q3 11); simpl in Hq2; lia. }
    assert (Hf2 : flash_ok (fst w3)) by (apply P2; auto).
    destruct (Main (fst w3)) as [M1 M2]; auto.
    { intros i Hi. rewrite S2 by (auto; lia). unfold ramAt, bufferSize.
      replace (bootDescAddr L + i - bootDescAddr L) with i by lia. destruct (Z.ltb_spec i 1265); [reflexivity|lia]. }
    split; auto. split; auto. intros x Hp.
    (* the erased page is the descriptor page *)
    assert (HB : 0 <= bootDescAddr L < 2^31 /\ image_end L <= bootDescAddr L).
    { pose proof (appFirst_bounds L). destruct HL as (K1 & K2 & K3 & _). unfold bootDescAddr. lia. }
    assert (HM : bootDescAddr L mod 256 = 0) by (apply Z.eqb_eq; destruct (_ =? _); auto; discriminate).
    rewrite S1 by (unfold bootDescAddr in *; zd).
    unfold bootDescPage in E1. rewrite page_of in E1 by lia.
    apply erase_pages in E1; auto; try lia.
    + change (fl s x) with (fst (fl s, e_iap e) x). apply (er_out _ _ _ _ _ E1). unfold bootDescAddr in *. zd.
    + zd.
    + apply andb_prop in EV. destruct EV as [_ EV]. apply Z.leb_le in EV. zd.
Qed.
