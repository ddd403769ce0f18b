(** C137: several displays that show one picture *)
From Verif Require Import Vscreen_Proofs.

(** The picture loop on a virtual screen ends after all pages of all displays, and every display shows the part of the picture that is at its place, each dot where the display's
    neighbours continue it; the displays stay where they were *)
Theorem C137_shown v draw l : children v <> [] -> (length (children v) <= 4)%nat -> Forall (fun e => msg_ok (snd e)) l ->
  (forall k, In k (children v) -> clog k = [] /\ child_ok (width (cb k)) (total_height (p (cb k))) k /\ draws_picture draw l (width (cb k)) (total_height (p (cb k))) k) ->
  forall n, (list_sum (map (fun k => pages (total_height (p (cb k)))) (children v)) <= n)%nat ->
  exists v', vs_picture n draw v = Some v' /\ Forall2 (fun k k' => shows l (width (cb k)) (total_height (p (cb k))) k k') (children v) (children v').
Proof.
  intros NE LEN LOK F n Hn. destruct v as [iv ch cu vw vh]. cbn [children] in *. destruct ch as [|k rest]; [congruence|].
  destruct (vs_all draw l (fun k => (width (cb k), total_height (p (cb k)))) LOK rest (mkVs iv (k :: rest) cu vw vh) [] k) with (n := n) as (new & E & S); cbn [fst snd]; auto.
  - apply Forall_forall. intros k' I. destruct (F k' I) as (A & B & C). auto.
  - eexists. split; [exact E|]. exact S.
Qed.
Print Assumptions C137_shown.

(** A display is added behind the others, at its place; the fifth, and one for a screen that is not virtual, are refused and nothing changes; so there are never more than four *)
Theorem C137_add v x y b : is_byte x -> is_byte y ->
  (is_vs v = true -> (length (children v) < 4)%nat -> exists v', AddToVirtualScreen v x y b = (v', 1) /\ children v' = children v ++ [mkChild x y b []]
     /\ is_vs v' = true /\ current v' = current v /\ vs_width v' = vs_width v /\ vs_height v' = vs_height v)
  /\ (is_vs v = false \/ (4 <= length (children v))%nat -> AddToVirtualScreen v x y b = (v, 0))
  /\ ((length (children v) <= 4)%nat -> (length (children (fst (AddToVirtualScreen v x y b))) <= 4)%nat).
Proof.
  intros X Y. unfold AddToVirtualScreen. assert (EX : u8 x = x) by (unfold u8, is_byte in *; apply Z.mod_small; lia). assert (EY : u8 y = y) by (unfold u8, is_byte in *; apply Z.mod_small; lia). rewrite EX, EY.
  destruct (is_vs v) eqn:IV; cbn [negb]; destruct (Z.leb_spec 4 (Z.of_nat (length (children v)))) as [L|L].
  - split; [intros _ H; lia|]. split; [reflexivity|]. auto.
  - split; [intros _ _; eexists; split; [reflexivity|]; auto|]. split; [intros [H|H]; [discriminate|lia]|]. intros _. cbn [fst children]. rewrite app_length. cbn [length]. lia.
  - split; [discriminate|]. auto.
  - split; [discriminate|]. auto.
Qed.
Print Assumptions C137_add.

(** The size of the whole is as set *)
Theorem C137_size v w h : is_byte w -> is_byte h ->
  let v' := SetVirtualScreenDimension v w h in children v' = children v /\ current v' = current v /\ (is_vs v = true -> vs_width v' = w /\ vs_height v' = h) /\ (is_vs v = false -> v' = v).
Proof.
  intros W H. unfold SetVirtualScreenDimension. destruct (is_vs v); cbn; [|auto 10; repeat split; auto; discriminate].
  unfold is_byte, u8 in *. rewrite !Z.mod_small by lia. repeat split; auto; discriminate.
Qed.
Print Assumptions C137_size.

(** Without displays the loop draws once, into nothing *)
Theorem C137_empty v draw n : children v = [] -> exists v', vs_picture (S n) draw v = Some v' /\ children v' = [].
Proof.
  intros E. destruct v as [iv ch cu vw vh]. cbn [children] in E. subst ch. unfold vs_picture, vs_first. cbn [children fst vsLoop is_vs vs_width vs_height].
  assert (Q : forall l u, children u = [] -> fold_left (fun v e => vs_draw v (fst e) (snd e)) l u = u).
  { induction l as [|e l IH]; intros u U; [reflexivity|]. cbn [fold_left]. assert (K : vs_draw u (fst e) (snd e) = u) by (unfold vs_draw; rewrite U; destruct (Z.to_nat (current u)); reflexivity). rewrite K. apply IH, U. }
  rewrite Q by reflexivity. eexists. split; reflexivity.
Qed.
Print Assumptions C137_empty.

(** ** Examples *)
(** Two displays of 16 by 16 side by side, the second one row lower; a line of eight dots that begins on the first and ends on the second *)
Definition small : pb := mkPb (mkPage 8 16 0 7 0) 16 (repeat 0 16).
Definition two := fst (AddToVirtualScreen (fst (AddToVirtualScreen (mkVs true [] 0 32 17) 0 0 small)) 16 1 small).
Definition line := [(1, Eight 12 3 0 255)].
Example C137_shown_example : children two <> [] /\ (length (children two) <= 4)%nat /\ Forall (fun e => msg_ok (snd e)) line
  /\ (forall k, In k (children two) -> clog k = [] /\ child_ok (width (cb k)) (total_height (p (cb k))) k /\ draws_picture (fun _ => line) line (width (cb k)) (total_height (p (cb k))) k)
  /\ list_sum (map (fun k => pages (total_height (p (cb k)))) (children two)) = 4%nat.
Proof.
  split; [discriminate|]. split; [vm_compute; lia|]. split; [apply Forall_cons; [cbn; unfold is_byte; lia|constructor]|]. split; [|reflexivity].
  intros k I. assert (DP : draws_picture (fun _ => line) line (width (cb k)) (total_height (p (cb k))) k).
  { intros c _. split; [apply Forall_cons; [cbn; unfold is_byte; lia|constructor]|]. intros x y w _. reflexivity. }
  destruct I as [<-|[<-|[]]]; (split; [reflexivity|]); (split; [|exact DP]); unfold child_ok, display_ok; vm_compute; repeat split; try discriminate; lia.
Qed.
Example C137_shown_value : match vs_picture 4 (fun _ => line) two with
  | Some v => map (fun k => map (fun x => shown (clog k) x 3) [0; 3; 4; 12; 15]) (children v) = [[Some false; Some false; Some false; Some true; Some true]; [Some false; Some false; Some false; Some false; Some false]]
              /\ map (fun k => map (fun x => shown (clog k) x 2) [0; 3; 4]) (children v) = [[Some false; Some false; Some false]; [Some true; Some true; Some false]]
  | None => False end.
Proof. vm_compute. split; reflexivity. Qed.
Example C137_add_example : is_vs two = true /\ (length (children two) < 4)%nat /\ is_byte 16 /\ snd (AddToVirtualScreen two 32 0 small) = 1.
Proof. repeat split; try reflexivity; try discriminate. vm_compute. lia. Qed.
Example C137_size_example : vs_width (SetVirtualScreenDimension two 40 20) = 40 /\ is_byte 40.
Proof. split; [reflexivity|]. split; [discriminate|reflexivity]. Qed.
Example C137_empty_example : children (mkVs true [] 3 10 10) = [] /\ vs_picture 1 (fun _ => line) (mkVs true [] 3 10 10) = Some (mkVs true [] 1 10 10).
Proof. split; reflexivity. Qed.

(** One more u8g_NextPage after the last page is answered with 0 by a display alone; a virtual screen uses an entry of its list that was never filled *)
Theorem C137_after_end_refuted : exists v', vs_picture 4 (fun _ => line) two = Some v' /\ vs_next v' = None.
Proof.
  destruct (vs_picture 4 (fun _ => line) two) as [v'|] eqn:E; [|vm_compute in E; discriminate]. exists v'. split; [reflexivity|]. vm_compute in E. injection E as <-. reflexivity.
Qed.
Print Assumptions C137_after_end_refuted.
(** A display whose right end is behind column 255 of the picture: its pages have a right edge left of the left edge, an application that leaves out what is outside the page draws nothing there *)
Theorem C137_outside_refuted : forall k, cx k = 250 -> cy k = 0 -> cb k = small -> forall x y, ~ inside (vs_page_box (mkVs true [k] 0 255 16)) x y.
Proof.
  intros [a b d log] CX CY CB x y [I _]. cbn [cx cy cb] in *. subst. vm_compute in I. destruct I as [I1 I2]. assert (250 <= x <= 9) by (split; assumption). lia.
Qed.
Print Assumptions C137_outside_refuted.
