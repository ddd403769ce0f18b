(** Concrete histories of the link layer, and a check that a history is a legal one. *)
From Verif Require Import Base Bus_Model Bus_Spec.

Definition legalb (b : bus) (o : bop) : bool :=
  match o with
  | Irq e i => (iCap i || iMatch i) && (0 <=? iCapture i) &&
               (match state b with SEND_START_BIT | SEND_BIT_0 | SEND_BITS_OF_BYTE => iMatch i || ((iCapture i <=? iTimer i) && (iTimer i <=? mTime b) && ((mPwm b <=? iCapture i) || (iCapture i + 4 <=? iTimer i))) | _ => true end)
  | Send own t n => (0 <=? own) && (own <? 65536) && (length t =? largest)%nat && forallb (fun c => (0 <=? c) && (c <? 256)) t && (n =? size t)%nat
  | Resume => match state b with INIT => true | _ => false end
  | _ => true
  end.
Fixpoint legal_runb (L : limits) (l : list bop) (b : bus) : bool :=
  match l with [] => true | o :: r => legalb b o && match bstep L b o with None => true | Some (b1, _) => legal_runb L r b1 end end.
Definition envs_ok (l : list bop) : Prop := Forall (fun o => match o with Irq e _ => env_ok e | _ => True end) l.
Lemma legalb_ok b o : legalb b o = true -> match o with Irq e _ => env_ok e | _ => True end -> legal b o.
Proof.
  destruct o as [e i|own t n| | |w| ]; cbn [legalb legal]; auto.
  - rewrite !andb_true_iff. intros ((H1 & H2) & H3) E. split; [exact H1|]. split; [now apply Z.leb_le|]. split; [exact E|]. intros S M. rewrite M in H3.
    assert (X : (iCapture i <=? iTimer i) && (iTimer i <=? mTime b) && ((mPwm b <=? iCapture i) || (iCapture i + 4 <=? iTimer i)) = true) by (destruct S as [S|[S|S]]; rewrite S in H3; exact H3).
    rewrite !andb_true_iff, orb_true_iff, !Z.leb_le in X. lia.
  - rewrite !andb_true_iff, !Nat.eqb_eq, Z.leb_le, Z.ltb_lt, forallb_forall. intros ((((H1 & H2) & H3) & H4) & H5) _. split; [split; assumption|]. split; [|exact H5]. split; [exact H3|].
    apply Forall_forall. intros c Hc. specialize (H4 c Hc). unfold is_byte. rewrite andb_true_iff, Z.leb_le, Z.ltb_lt in H4. lia.
  - destruct (state b); try discriminate; auto.
Qed.
Lemma legal_runb_ok L l b : legal_runb L l b = true -> envs_ok l -> legal_run L l b.
Proof.
  revert b. induction l as [|o r IH]; intros b; cbn; auto. rewrite andb_true_iff. intros [H1 H2] E. inversion E; subst. split; [now apply legalb_ok|]. intros b1 out Eb. rewrite Eb in H2. auto.
Qed.

(** interrupts: an edge [t] us after the timer was restarted; the timer runs out *)
Definition edge (t : Z) : irq := mkIrq true false t (t + 5) false 7.
Definition timeout : irq := mkIrq false true 0 0 false 7.
(** the edges of a byte: start bit, low bits (parity even), and the end of the byte *)
Definition ones (c : Z) : Z := fold_left (fun n k => n + Z.b2z (Z.testbit c k)) [0; 1; 2; 3; 4; 5; 6; 7] 0.
Definition byteIrqs (c : Z) : list irq :=
  edge 300 :: flat_map (fun k => if Z.testbit (c + 256 * (ones c mod 2)) k then [] else [edge (104 * (k + 1) + 3)]) [0; 1; 2; 3; 4; 5; 6; 7; 8] ++ [timeout].
Definition frameIrqs (f : list Z) : list irq := flat_map byteIrqs f ++ [timeout].
Definition env1 : env := mkEnv 0x1105 (fun a => a =? 0x0A03) 0xFF (fun _ => None).
Definition irqs (l : list irq) : list bop := map (Irq env1) l.
Lemma env1_ok : env_ok env1.
Proof. split; [unfold is_u16, env1; cbn; lia|discriminate]. Qed.
Lemma irqs_ok l : envs_ok (irqs l).
Proof. unfold envs_ok, irqs. apply Forall_map, Forall_forall. intros. apply env1_ok. Qed.
Definition junk1 : bus := mkBus SEND_BITS_OF_BYTE 3 9 5 17 77 4 None [] 8 1 false true 200 3 true true true 2 [1] 1 4 5.
Definition limits1 : limits := mkLimits 3 3.
(** up to the idle state *)
Definition start : list bop := irqs [timeout; timeout].
(** a group telegram to 1/2/3, five octets of the network layer payload are not needed: one byte value *)
Definition sum (l : list Z) : list Z := l ++ [Z.lxor 255 (xor_all l)].
Definition group1 : list Z := sum [0xBC; 0x11; 0x09; 0x0A; 0x03; 0xE1; 0x00; 0x81].
Definition toSend : list Z := [0xBC; 0; 0; 0x0A; 0x03; 0xE1; 0x00; 0x80; 0; 0; 0; 0; 0; 0; 0; 0; 0; 0; 0; 0; 0; 0; 0].
Definition hears (f : list Z) : list bop := irqs (frameIrqs f).
Definition waits (n : nat) : list bop := irqs (repeat timeout n).
Definition events (l : list bop) : option (list bout) := option_map snd (bruns limits1 l (begin junk1)).
