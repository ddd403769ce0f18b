(** Proofs about painted pictures. *)
From Verif Require Export U8gRot_Proofs U8gRect_Proofs U8gLine_Proofs U8gCircle_Proofs U8gRound_Proofs U8gPaint_Spec.
From Verif Require Import U8gRect_Props U8gLine_Props U8gCircle_Props.

(** Messages in one of the four directions *)
Notation straight := (heads (fun d => 0 <= d <= 3)).
Ltac st := repeat first [apply Forall_nil | apply Forall_app; split | apply Forall_cons; [cbn [heads]; first [exact Logic.I | lia]|]].
Lemma st_hline x y w : Forall straight (draw_hline x y w).
Proof. unfold draw_hline. generalize (Z.to_nat (w / 8)) as n. intros n. revert x w. induction n; intros x w; cbn [hlineLoop]; [destruct (negb (w =? 0)); st|]. apply Forall_cons; [cbn [heads]; lia|apply IHn]. Qed.
Lemma st_vline x y w : Forall straight (draw_vline x y w).
Proof. unfold draw_vline. generalize (Z.to_nat (w / 8)) as n. intros n. revert y w. induction n; intros y w; cbn [vlineLoop]; [destruct (negb (w =? 0)); st|]. apply Forall_cons; [cbn [heads]; lia|apply IHn]. Qed.
Lemma st_box x y w h : Forall straight (draw_box x y w h).
Proof. unfold draw_box. generalize (Z.to_nat (u8 (h - 1))) as n. intros n. revert y. induction n; intros y; cbn [boxLoop]; apply Forall_app; (split; [apply st_hline|]); [constructor|apply IHn]. Qed.
Lemma st_DrawVLine c x y w : Forall straight (DrawVLine c x y w).
Proof. unfold DrawVLine. destruct (negb _); [constructor|apply st_vline]. Qed.
Lemma st_bitmap c x y cnt h bits : Forall straight (DrawBitmap c x y cnt h bits).
Proof.
  assert (R : forall n x y b, Forall straight (DrawHBitmap n x y b)) by (induction n; intros; cbn [DrawHBitmap]; [constructor|apply Forall_cons; [cbn [heads]; lia|auto]]).
  unfold DrawBitmap. destruct (negb _); [constructor|]. generalize (Z.to_nat h) as n. intros n. revert y bits. induction n; intros y bits; cbn [bitmapLoop]; [constructor|apply Forall_app; split; auto].
Qed.
Lemma st_xbm c x y w h bits : Forall straight (DrawXBM c x y w h bits).
Proof.
  assert (B : forall n x y d, Forall straight (xbmBits n x y d)) by (induction n; intros; cbn [xbmBits]; [constructor|]; apply Forall_app; split; [destruct (negb (Z.land d 1 =? 0)); st|auto]).
  assert (R : forall n x y w b, Forall straight (xbmLoop n x y w b)) by (induction n; intros; cbn [xbmLoop]; [destruct (0 <? w0); [auto|constructor]|apply Forall_cons; [cbn [heads]; lia|auto]]).
  unfold DrawXBM. destruct (negb _); [constructor|]. generalize (Z.to_nat h) as n. intros n. revert y bits. induction n; intros y bits; cbn [xbmRows]; [constructor|apply Forall_app; split; [unfold DrawHXBM; auto|auto]].
Qed.
Lemma st_line fuel x1 y1 x2 y2 : match DrawLine fuel x1 y1 x2 y2 with Some l => Forall straight l | None => True end.
Proof.
  unfold DrawLine. destruct (if _ <? _ then _ else _) as [[[[[[sw dx] dy] a] b] a'] b']. destruct (if _ <? _ then _ else _) as [[[a1 b1] a2] b2]. generalize (i8 (Z.shiftr dx 1)) as e. generalize (if b1 <? b2 then 1 else -1) as st. clear.
  revert a1 b1. induction fuel as [|n IH]; intros x y st e; cbn [lineLoop]; [exact Logic.I|]. destruct (x <=? a2); [|constructor]. destruct (if i8 (e - dy) <? 0 then _ else _) as [y' e'].
  specialize (IH (u8 (x + 1)) y' st e'). destruct (lineLoop n sw (u8 (x + 1)) a2 y' dx dy st e'); cbn [option_map]; [|exact Logic.I]. apply Forall_cons; [destruct sw; exact Logic.I|exact IH].
Qed.
Lemma st_with section r : (forall x y, Forall straight (section x y)) -> Forall straight (circleWith section r).
Proof.
  intros H. assert (G : forall n x y e d f, Forall straight (circleLoop section n x y f e d)).
  { induction n; intros x y e d f; cbn [circleLoop]; [constructor|]. destruct (x <? y); [|constructor]. destruct (if 0 <=? f then _ else _) as [[y' d'] f']. apply Forall_app. split; [apply H|apply IHn]. }
  unfold circleWith. apply Forall_app. split; [apply H|apply G].
Qed.
Lemma st_circle x y r o : Forall straight (draw_circle x y r o).
Proof. apply st_with. intros a b. unfold circle_section. repeat match goal with |- context [if ?c then _ else _] => destruct c end; cbn [app]; st. Qed.
Lemma st_disc c x y r o : Forall straight (draw_disc c x y r o).
Proof. apply st_with. intros a b. unfold disc_section. repeat match goal with |- context [if negb (Z.land o ?k =? 0) then _ else _] => destruct (negb (Z.land o k =? 0)) end; repeat first [apply Forall_nil | apply Forall_app; split | apply st_DrawVLine]. Qed.
Lemma st_calls c f : Forall straight (calls c f).
Proof.
  destruct f; cbn [calls].
  - st.
  - unfold DrawHLine. destruct (negb _); [constructor|apply st_hline].
  - apply st_DrawVLine.
  - unfold DrawBox. destruct (negb _); [constructor|apply st_box].
  - unfold DrawFrame. destruct (negb _); [constructor|]. repeat first [apply st_hline | apply st_vline | apply Forall_app; split].
  - apply st_bitmap.
  - apply st_xbm.
  - pose proof (st_line 256 a b a' b') as H. destruct (DrawLine 256 a b a' b'); [exact H|constructor].
  - unfold DrawCircle. destruct (negb _); [constructor|apply st_circle].
  - unfold DrawDisc. destruct (negb _); [constructor|apply st_disc].
  - unfold DrawRFrame. destruct (negb _); [constructor|]. repeat first [apply st_hline | apply st_vline | apply st_circle | apply Forall_app; split].
  - unfold DrawRBox. destruct (negb _); [constructor|]. repeat first [apply st_box | apply st_disc | apply Forall_app; split].
Qed.

Lemma calls_draw c f : box_ok c -> shape_ok f -> draws c (calls c f) (has f).
Proof.
  intros C. destruct f; cbn [shape_ok calls]; intros H.
  - split; [repeat constructor; apply H|]. intros x y _. unfold covers. cbn [has]. split; [intros (m & [<-|[]] & O); exact O|intros O; exists (Pixel a b); split; [left; auto|exact O]].
  - apply C113_hline; tauto.
  - apply C113_vline; tauto.
  - apply C113_box_partial; tauto.
  - apply C113_frame_partial; tauto.
  - apply C113_bitmap_partial; tauto.
  - apply C113_xbm_partial; tauto.
  - destruct (C114_display_partial 256 a b a' b') as (l & E & M & K); try tauto; [lia|]. rewrite E. split; [exact M|]. intros x y _. apply K.
  - apply C115_circle_partial; tauto.
  - apply C115_disc_partial; tauto.
  - apply C115_rframe_partial; tauto.
  - apply C115_rbox_partial; tauto.
Qed.
Lemma paint_dot c x y : box_ok c -> inside c x y -> forall l, Forall (fun e => shape_ok (snd e)) l -> exists v, dot x y (paint l c) v /\ painted x y l v.
Proof.
  intros C I. induction l as [|[k f] l IH] using rev_ind; intros OK; [exists false; split; constructor|]. apply Forall_app in OK as [OK1 OK2]. inversion OK2 as [|e l0 OKf _]. subst. cbn [snd] in OKf.
  destruct (IH OK1) as (v & D & P). unfold paint. rewrite flat_map_app. cbn [flat_map fst snd]. rewrite app_nil_r. destruct (dot_block x y k (calls c f) _ v D) as [A B]. destruct (calls_draw c f C OKf) as [_ K]. specialize (K x y I).
  assert (Dec : covers (calls c f) x y \/ ~ covers (calls c f) x y).
  { destruct (existsb (fun m => if on_dec m x y then true else false) (calls c f)) eqn:E.
    - left. apply existsb_exists in E as (m & Im & E). destruct (on_dec m x y); [|discriminate]. exists m. auto.
    - right. intros (m & Im & O). assert (existsb (fun m => if on_dec m x y then true else false) (calls c f) = true); [|congruence]. apply existsb_exists. exists m. split; [exact Im|]. destruct (on_dec m x y); [auto|contradiction]. }
  destruct Dec as [Y|N].
  - exists (negb (k =? 0)). split; [apply A; exact Y|]. apply painted_on with v; [exact P|apply K; exact Y].
  - exists v. split; [apply B; exact N|]. apply painted_off; [exact P|]. intros H. apply N, K, H.
Qed.
Lemma painted_unique x y l v : painted x y l v -> forall v', painted x y l v' -> v = v'.
Proof.
  intros H. induction H as [|l c f v H IH O|l c f v H IH O]; intros v' H'; inversion H' as [E|l1 c1 f1 v1 H1 O1 E|l1 c1 f1 v1 H1 O1 E]; try (destruct l1; discriminate); try (destruct l; discriminate); auto;
    apply app_inj_tail in E as [E1 E2]; injection E2 as -> ->; subst; auto; contradiction.
Qed.
Lemma paint_straight l c : Forall (fun e => shape_ok (snd e)) l -> box_ok c -> Forall (fun e => msg_ok (snd e) /\ straight (snd e)) (paint l c).
Proof.
  intros OK C. apply Forall_forall. intros e I. unfold paint in I. apply in_flat_map in I as (e0 & I0 & I). apply in_map_iff in I as (m & <- & I). cbn [snd]. rewrite Forall_forall in OK.
  destruct (calls_draw c (snd e0) C (OK e0 I0)) as [M _]. rewrite Forall_forall in M. split; [auto|]. pose proof (st_calls c (snd e0)) as S. rewrite Forall_forall in S. auto.
Qed.
