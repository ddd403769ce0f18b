(** C130: from reset to the application *)
From Verif Require Import Base CRC_Spec CRC_Model Boot_Model Boot_Spec Boot_Proofs Boot_Theorems Boot_Dec Boot_Props Jump_Model.
Open Scope Z_scope.

Definition MAGIC : Z := 0x5E1FB055.
Definition BASE : Z := 0x10000000.
(** an application whose vector table can be read: at a word boundary and, with its 192 bytes, inside the flash *)
Definition well_placed (L : layout) (f : flash) : Prop := desc_start L f mod 4 = 0 /\ desc_start L f + 192 <= flash_top L.
Definition the_application (L : layout) (f : flash) : running := InApplication (word_at f (desc_start L f)) (word_at f (desc_start L f + 4)).
(** as a user expects it *)
Definition as_told (L : layout) (f : flash) (e : bevent) (m : running) : Prop :=
  match e with
  | Restart true _ _ => m = InBootloader
  | Power _ b | Restart false _ b => (b = false /\ startable L f /\ m = the_application L f) \/ ((b = true \/ ~ startable L f) /\ m = InBootloader)
  end.

Lemma readWord_ok L f a : flash_ok f -> 0 <= a -> a mod 4 = 0 -> a + 4 <= flash_top L -> readWord L f a = Some (word_at f a).
Proof. intros F A M T. unfold readWord, flashLast. rewrite M. destruct (Z.ltb_spec a 0); [lia|]. destruct (Z.ltb_spec (flash_top L - 1) (a + 3)); [lia|]. cbn. f_equal. apply le32_word. exact F. Qed.
Lemma copy_ok L f : flash_ok f -> forall n rom to r, 0 <= rom -> rom mod 4 = 0 -> rom + 4 * Z.of_nat n <= flash_top L ->
  exists r', copyVectors L f n rom to r = Some r' /\ (forall i, 0 <= i < Z.of_nat n -> r' (to + 4 * i) = word_at f (rom + 4 * i)) /\ (forall a, a < to \/ to + 4 * Z.of_nat n <= a -> r' a = r a).
Proof.
  intros F. induction n as [|n IH]; intros rom to r A M T; cbn [copyVectors].
  - exists r. split; [reflexivity|]. split; [lia|auto].
  - rewrite (readWord_ok L f rom F A M) by lia. destruct (IH (rom + 4) (to + 4) (setRam r to (word_at f rom))) as (r' & E & C & O); try lia. { rewrite Z.add_mod, M by lia. reflexivity. }
    exists r'. split; [exact E|]. split.
    + intros i I. destruct (Z.eq_dec i 0) as [->|N]; [rewrite !Z.mul_0_r, !Z.add_0_r, O by lia; unfold setRam; rewrite Z.eqb_refl; reflexivity|]. replace (to + 4 * i) with (to + 4 + 4 * (i - 1)) by ring. rewrite C by lia. f_equal. ring.
    + intros a B. rewrite O by lia. unfold setRam. destruct (Z.eqb_spec a to); [lia|reflexivity].
Qed.
Lemma copy_fault L f : forall n rom to r i, (i < n)%nat -> readWord L f (rom + 4 * Z.of_nat i) = None -> copyVectors L f n rom to r = None.
Proof.
  induction n as [|n IH]; intros rom to r i I R; [lia|]. cbn [copyVectors]. destruct i as [|i]; [rewrite Z.mul_0_r, Z.add_0_r in R; rewrite R; reflexivity|]. destruct (readWord L f rom); [|reflexivity]. apply (IH _ _ _ i); [lia|]. rewrite <- R. f_equal. lia.
Qed.
Definition booted (L : layout) (f : flash) (now : Z -> Z) (c : chip) : Prop :=
  (forall i, 0 <= i < 48 -> ram c (BASE + 4 * i) = word_at f (desc_start L f + 4 * i)) /\ (forall a, a < BASE \/ BASE + 192 <= a -> ram c a = now a) /\ remap c = 1 /\ sysTick c = false /\ led c = true.
Lemma desc_word L f : flash_ok f -> le32 (descriptor L f) 0 = desc_start L f.
Proof. intros F. rewrite le32_word by (intros; apply F). unfold desc_start, word_at, descriptor, bootDescAddr. repeat (f_equal; try lia). Qed.
Lemma appFirst_pos L : layout_ok L -> 0 < appFirst L.
Proof. intros (A & _). unfold appFirst. cbv zeta. pose proof (Z.mod_pos_bound (- (image_end L + 256)) 256 ltac:(lia)). destruct (_ + 1 <=? 255); lia. Qed.
Lemma run_cases L f b now : layout_ok L -> flash_ok f -> (startable L f -> well_placed L f) -> exists m c, startupRun L f b (afterReset now) = Some (m, c) /\
  ((now BASE = MAGIC \/ b = true \/ ~ startable L f) /\ m = InBootloader /\ ram c BASE = 0 \/
   (now BASE <> MAGIC /\ b = false /\ startable L f) /\ m = the_application L f /\ booted L f now c).
Proof.
  intros HL F P. unfold startupRun, afterReset. cbn [ram remap sysTick led]. fold BASE. fold MAGIC.
  assert (Z0 : setRam now BASE 0 BASE = 0) by (unfold setRam; rewrite Z.eqb_refl; reflexivity).
  destruct (Z.eqb_spec (now BASE) MAGIC) as [E|E]. { eexists _, _. split; [reflexivity|]. left. auto. }
  destruct b. { eexists _, _. split; [reflexivity|]. left. auto. }
  pose proof (startup_iff L f 0 false (desc_start L f) HL F) as S. unfold startup in S. change (0 =? 0x5E1FB055) with false in S. cbv iota in S. rewrite (desc_word L f F) in *.
  destruct (checkApplication L f (descriptor L f)).
  - assert (St : startable L f) by (apply S; reflexivity). destruct (P St) as (M & T). assert (0 <= desc_start L f) by (pose proof (appFirst_pos L HL); destruct St as (_ & St & _); lia).
    unfold jumpToApplication, finalize. cbn [ram remap sysTick led]. rewrite (readWord_ok L f (desc_start L f) F) by lia. rewrite (readWord_ok L f (desc_start L f + 4) F) by (try lia; rewrite Z.add_mod, M by lia; reflexivity).
    destruct (copy_ok L f F 48 (desc_start L f) BASE (setRam now BASE 0)) as (r & C & W & O); try lia. change (192 / 4)%nat with 48%nat. fold BASE. rewrite C. eexists _, _. split; [reflexivity|]. right. split; [auto|]. split; [reflexivity|]. unfold booted. cbn [ram remap sysTick led]. split; [exact W|]. split; [|auto]. intros a A. rewrite O by lia. unfold setRam. destruct (Z.eqb_spec a BASE); [lia|reflexivity].
  - eexists _, _. split; [reflexivity|]. left. split; [|split; [reflexivity|exact Z0]]. right. right. intros St. destruct S as (_ & S). discriminate S. repeat split; auto; try discriminate; apply St.
Qed.

(** The application is entered with its own stack pointer and reset vector; its vector table of 192 bytes is in the RAM at 0x10000000, which is mapped to address 0; all RAM behind is as it was, the SysTick is off, the LED lit. *)
Theorem C130_start L f now : layout_ok L -> flash_ok f -> startable L f -> well_placed L f -> now BASE <> MAGIC ->
  exists c, boot L f (Power now false) = Some (the_application L f, c) /\ booted L f now c.
Proof.
  intros HL F S P N. destruct (run_cases L f false now HL F (fun _ => P)) as (m & c & E & [([X|[X|X]] & _)|(_ & -> & B)]); try contradiction; try discriminate. exists c. split; [exact E|exact B].
Qed.
Print Assumptions C130_start.

(** ** the life of a device *)
(** the flash may be another at each start; the program running leaves the first word of the RAM as it was (its vector table is there), after power on it is not the magic word by chance *)
Definition follows (c : chip) (e : bevent) : Prop := match e with Power now _ => now BASE <> MAGIC | Restart _ now _ => now BASE = ram c BASE end.
Definition proper (L : layout) (f : flash) : Prop := flash_ok f /\ (startable L f -> well_placed L f /\ word_at f (desc_start L f) <> MAGIC).
Inductive life (L : layout) : chip -> list (flash * bevent * running) -> Prop :=
| life_end c : life L c []
| life_next c f e m c' l : proper L f -> follows c e -> boot L f e = Some (m, c') -> life L c' l -> life L c ((f, e, m) :: l).
Lemma boot_step L f e c : layout_ok L -> proper L f -> ram c BASE <> MAGIC -> follows c e -> exists m c', boot L f e = Some (m, c') /\ as_told L f e m /\ ram c' BASE <> MAGIC.
Proof.
  intros HL (F & P) N Fo. assert (P1 : startable L f -> well_placed L f) by (intros S; apply (P S)).
  assert (K : forall now c', startable L f -> booted L f now c' -> ram c' BASE <> MAGIC). { intros now c' S (B & _). specialize (B 0 ltac:(lia)). rewrite Z.mul_0_r, !Z.add_0_r in B. rewrite B. apply (P S). }
  destruct e as [now b|into now b]; cbn [boot follows as_told] in *.
  - destruct (run_cases L f b now HL F P1) as (m & c' & E & [(X & -> & R)|((X & B & S) & -> & R)]); exists m, c' || eexists _, _; (split; [exact E|]).
    + split; [right; split; [tauto|reflexivity]|]. rewrite R. discriminate.
    + split; [left; auto|]. exact (K _ _ S R).
  - destruct into; cbn [softSystemReset].
    + destruct (run_cases L f b (setRam now 0x10000000 0x5E1FB055) HL F P1) as (m & c' & E & [(X & -> & R)|((X & B & S) & -> & R)]).
      * eexists _, _. split; [exact E|]. split; [reflexivity|]. rewrite R. discriminate.
      * exfalso. apply X. unfold setRam. rewrite Z.eqb_refl. reflexivity.
    + destruct (run_cases L f b now HL F P1) as (m & c' & E & [(X & -> & R)|((X & B & S) & -> & R)]); (eexists _, _; split; [exact E|]).
      * split; [right; split; [rewrite Fo in X; tauto|reflexivity]|]. rewrite R. discriminate.
      * split; [left; auto|]. exact (K _ _ S R).
Qed.
(** Over any number of starts, with any RAM and any update between: a request for the bootloader leads there, whether the button is pressed or not, and holds for that start only; every other start leads to the application if there is a valid one and the button is not pressed. *)
Theorem C130_life L c l : layout_ok L -> ram c BASE <> MAGIC -> life L c l -> Forall (fun x => as_told L (fst (fst x)) (snd (fst x)) (snd x)) l.
Proof.
  intros HL N H. induction H as [c|c f e m c' l P Fo B H IH]; constructor.
  - destruct (boot_step L f e c HL P N Fo) as (m2 & c2 & E & T & _). rewrite B in E. injection E as <- <-. exact T.
  - apply IH. destruct (boot_step L f e c HL P N Fo) as (m2 & c2 & E & _ & K). rewrite B in E. injection E as <- <-. exact K.
Qed.
Print Assumptions C130_life.
(** ... and no start fails. *)
Theorem C130_no_fault L f e c : layout_ok L -> proper L f -> ram c BASE <> MAGIC -> follows c e -> boot L f e <> None.
Proof. intros HL P N Fo. destruct (boot_step L f e c HL P N Fo) as (m & c' & E & _). rewrite E. discriminate. Qed.
Print Assumptions C130_no_fault.
(** The place of the vector table is not checked: an application with a matching checksum which is not at a word boundary or nearer than 192 bytes to the end of the flash is started, and that start is a hard fault. *)
Theorem C130_placed_refuted L f now : layout_ok L -> flash_ok f -> startable L f -> ~ well_placed L f -> now BASE <> MAGIC -> boot L f (Power now false) = None.
Proof.
  intros HL F S P N. cbn [boot]. unfold startupRun, afterReset. cbn [ram remap sysTick led]. fold BASE. fold MAGIC. destruct (Z.eqb_spec (now BASE) MAGIC); [contradiction|].
  pose proof (startup_iff L f 0 false (desc_start L f) HL F) as S1. unfold startup in S1. change (0 =? 0x5E1FB055) with false in S1. cbv iota in S1. rewrite (desc_word L f F) in *. destruct (checkApplication L f (descriptor L f)); [|exfalso; destruct S1 as (_ & S1); discriminate S1; repeat split; auto; try discriminate; apply S].
  unfold jumpToApplication, finalize. cbn [ram remap sysTick led]. destruct (Z.eq_dec (desc_start L f mod 4) 0) as [M|M].
  - assert (T : flash_top L < desc_start L f + 192) by (unfold well_placed in P; lia). destruct (readWord L f (desc_start L f)); [|reflexivity]. destruct (readWord L f (desc_start L f + 4)); [|reflexivity].
    rewrite (copy_fault L f (192 / 4) _ _ _ 47); [reflexivity|change (192 / 4)%nat with 48%nat; lia|]. unfold readWord, flashLast. change (Z.of_nat 47) with 47. destruct (Z.ltb_spec (flash_top L - 1) (desc_start L f + 4 * 47 + 3)); [|lia]. rewrite orb_true_r. reflexivity.
  - unfold readWord at 1. destruct (Z.eqb_spec (desc_start L f mod 4) 0); [contradiction|]. reflexivity.
Qed.
Print Assumptions C130_placed_refuted.

(** ** examples *)
(** a flash with an application of four bytes at [a] *)
Definition with_app (a : Z) : flash :=
  let d := [a mod 256; a / 256; 0; 0; (a + 3) mod 256; (a + 3) / 256; 0; 0] ++ crc_bytes [255; 255; 255; 255] in
  fun x => if (0x3000 <=? x) && (x <? 0x300c) then rd d (Z.to_nat (x - 0x3000)) else 255.
Lemma with_app_ok a : 0x3100 <= a < 0xfffd -> flash_ok (with_app a) /\ startable L0 (with_app a) /\ desc_start L0 (with_app a) = a.
Proof.
  intros A. assert (F : flash_ok (with_app a)).
  { intros x. unfold with_app. destruct ((0x3000 <=? x) && (x <? 0x300c)); [|split; [discriminate|reflexivity]]. apply rd_byte. apply Forall_app. split.
    - assert (0 <= a / 256 < 256) by (split; [apply Z.div_pos; lia|apply Z.div_lt_upper_bound; lia]). assert (0 <= (a + 3) / 256 < 256) by (split; [apply Z.div_pos; lia|apply Z.div_lt_upper_bound; lia]). pose proof (Z.mod_pos_bound a 256 ltac:(lia)). pose proof (Z.mod_pos_bound (a + 3) 256 ltac:(lia)). unfold is_byte. repeat (apply Forall_cons; [lia|]). apply Forall_nil.
    - bytes_ok. }
  split; [exact F|].
  assert (W0 : with_app a 0x3000 = a mod 256) by reflexivity. assert (W1 : with_app a 0x3001 = a / 256) by reflexivity. assert (W2 : with_app a 0x3002 = 0) by reflexivity. assert (W3 : with_app a 0x3003 = 0) by reflexivity. assert (W4 : with_app a 0x3004 = (a + 3) mod 256) by reflexivity. assert (W5 : with_app a 0x3005 = (a + 3) / 256) by reflexivity. assert (W6 : with_app a 0x3006 = 0) by reflexivity. assert (W7 : with_app a 0x3007 = 0) by reflexivity.
  assert (D : desc_start L0 (with_app a) = a). { unfold desc_start. change (appFirst L0 - 256) with 0x3000. unfold word_at. change (0x3000 + 1) with 0x3001. change (0x3000 + 2) with 0x3002. change (0x3000 + 3) with 0x3003. rewrite W0, W1, W2, W3. pose proof (Z.div_mod a 256 ltac:(lia)). lia. }
  split; [|exact D]. apply (check_startable L0 (with_app a) L0_ok F).
  unfold checkApplication. rewrite (desc_word L0 (with_app a) F), D.
  assert (E : le32 (descriptor L0 (with_app a)) 4 = a + 3). { rewrite le32_word by (intros; apply F). unfold word_at, descriptor. change (bootDescAddr L0) with 0x3000. change (0x3000 + 4) with 0x3004. change (0x3000 + (4 + 1)) with 0x3005. change (0x3000 + (4 + 2)) with 0x3006. change (0x3000 + (4 + 3)) with 0x3007. rewrite W4, W5, W6, W7. pose proof (Z.div_mod (a + 3) 256 ltac:(lia)). lia. }
  rewrite E. change (appFirst L0) with 0x3100. change (flashLast L0) with 0xffff. destruct (Z.ltb_spec a 0x3100); [lia|]. destruct (Z.ltb_spec 0xffff a); [lia|]. cbn [orb]. destruct (Z.ltb_spec 0xffff (a + 3)); [lia|]. destruct (Z.leb_spec (a + 3) a); [lia|].
  replace (bytes_at (with_app a) a (a + 3 - a + 1)) with [255; 255; 255; 255].
  - vm_compute. reflexivity.
  - assert (X : forall k, 0 <= k -> with_app a (a + k) = 255) by (intros k Hk; unfold with_app; destruct (Z.leb_spec 0x3000 (a + k)), (Z.ltb_spec (a + k) 0x300c); try lia; reflexivity).
    unfold bytes_at. replace (a + 3 - a + 1) with 4 by lia. change (Z.to_nat 4) with 4%nat. cbn [seq map]. rewrite !X by lia. reflexivity.
Qed.
Definition ram0 : Z -> Z := fun _ => 7.
Example C130_example : proper L0 (with_app 0x4000) /\ startable L0 (with_app 0x4000) /\ well_placed L0 (with_app 0x4000) /\ ram0 BASE <> MAGIC.
Proof.
  destruct (with_app_ok 0x4000 ltac:(lia)) as (F & S & D). assert (W : well_placed L0 (with_app 0x4000)) by (unfold well_placed; rewrite D; split; [reflexivity|vm_compute; discriminate]).
  split; [split; [exact F|intros _; split; [exact W|rewrite D; vm_compute; discriminate]]|]. split; [exact S|]. split; [exact W|discriminate].
Qed.
(** requested, honoured once, then the application again; button *)
Example C130_life_example : let f := with_app 0x4000 in exists n1 n2 n3 m1 m2 m3 m4, life L0 (afterReset ram0) [(f, Power ram0 false, m1); (f, Restart true n1 false, m2); (f, Restart false n2 true, m3); (f, Restart false n3 false, m4)] /\ m1 = the_application L0 f /\ m2 = InBootloader /\ m3 = InBootloader /\ m4 = the_application L0 f.
Proof.
  intros f. destruct C130_example as (P & S & _ & N). fold f in P, S.
  destruct (boot_step L0 f (Power ram0 false) (afterReset ram0) L0_ok P N N) as (m1 & c1 & E1 & T1 & N1).
  destruct (boot_step L0 f (Restart true (ram c1) false) c1 L0_ok P N1 eq_refl) as (m2 & c2 & E2 & T2 & N2).
  destruct (boot_step L0 f (Restart false (ram c2) true) c2 L0_ok P N2 eq_refl) as (m3 & c3 & E3 & T3 & N3).
  destruct (boot_step L0 f (Restart false (ram c3) false) c3 L0_ok P N3 eq_refl) as (m4 & c4 & E4 & T4 & N4).
  exists (ram c1), (ram c2), (ram c3), m1, m2, m3, m4. split.
  - apply (life_next _ _ _ _ _ c1); auto. apply (life_next _ _ _ _ _ c2); auto; [reflexivity|]. apply (life_next _ _ _ _ _ c3); auto; [reflexivity|]. apply (life_next _ _ _ _ _ c4); auto; [reflexivity|]. apply life_end.
  - cbn [as_told] in *. intuition (try discriminate; try contradiction; auto).
Qed.
Example C130_placed_example : startable L0 (with_app 0x4001) /\ ~ well_placed L0 (with_app 0x4001) /\ startable L0 (with_app 0xff80) /\ ~ well_placed L0 (with_app 0xff80) /\ boot L0 (with_app 0xff80) (Power ram0 false) = None.
Proof.
  destruct (with_app_ok 0x4001 ltac:(lia)) as (F1 & S1 & D1). destruct (with_app_ok 0xff80 ltac:(lia)) as (F2 & S2 & D2).
  assert (W1 : ~ well_placed L0 (with_app 0x4001)) by (unfold well_placed; rewrite D1; intros (X & _); discriminate X). assert (W2 : ~ well_placed L0 (with_app 0xff80)) by (unfold well_placed; rewrite D2; intros (_ & X); vm_compute in X; now apply X).
  split; [exact S1|]. split; [exact W1|]. split; [exact S2|]. split; [exact W2|]. apply C130_placed_refuted; auto; [apply L0_ok|discriminate].
Qed.
