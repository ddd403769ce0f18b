(** What the rate limit promises, in true time *)
From Verif Require Import Base Rate_Model.

(** the required distance for a limit of [l] telegrams per second; limits outside 1..28 mean 28 *)
Definition spacing (l : Z) : Z := if (1 <=? l) && (l <=? 28) then 1000 / l else 1000 / 28.
(** the limit in force at event [j], [l] at the beginning *)
Fixpoint limit_at (l : Z) (evs : list event) (j : nat) : Z :=
  match evs, j with
  | e :: r, S k => limit_at (match e with Limit x => x | _ => l end) r k
  | _, _ => l
  end.
(** time does not run backwards *)
Fixpoint ordered (now : Z) (evs : list event) : Prop :=
  match evs with
  | [] => True
  | Loop t1 t2 t3 _ :: r => now <= t1 <= t2 /\ t2 <= t3 /\ ordered t3 r
  | Limit _ :: r => ordered now r
  end.
(** iterations follow each other within a second *)
Fixpoint frequent (now : Z) (evs : list event) : Prop :=
  match evs with
  | [] => True
  | Loop t1 t2 t3 _ :: r => t3 <= now + 1000 /\ frequent t3 r
  | Limit _ :: r => frequent now r
  end.
