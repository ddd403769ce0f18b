(** Specifications for C45, C46, C55, C56, C58, C59. *)
From Verif Require Import Base Util_Model.

(** ** C45.  Time in the specification is real time in ms since power-up (unbounded); the counter shows it modulo 2^32. *)
Inductive timer_op := Start (ms : Z) | Stop | Expired | Started.
(** the object driven by a sequence of calls at given times; answers of the queries *)
Fixpoint timer_run (t : Z) (ops : list (Z * timer_op)) : list bool :=
  match ops with
  | [] => []
  | (now, Start ms) :: r => timer_run (to_start (u32 now) ms) r
  | (now, Stop) :: r => timer_run to_stop r
  | (now, Expired) :: r => let '(b, t') := to_expired (u32 now) t in b :: timer_run t' r
  | (now, Started) :: r => to_started t :: timer_run t r
  end.
(** an ideal timer knows its deadline; Expired answers true once, at the first query at or after the deadline *)
Definition deadline (now ms : Z) : Z := let d := now + ms in if d mod 2^32 =? 0 then d + 1 else d.
Fixpoint ideal_run (d : option Z) (ops : list (Z * timer_op)) : list bool :=
  match ops with
  | [] => []
  | (now, Start ms) :: r => ideal_run (if ms =? 0 then None else Some (deadline now ms)) r
  | (now, Stop) :: r => ideal_run None r
  | (now, Expired) :: r =>
      match d with
      | Some x => if x <=? now then true :: ideal_run None r else false :: ideal_run d r
      | None => false :: ideal_run None r
      end
  | (now, Started) :: r => (match d with Some _ => true | None => false end) :: ideal_run d r
  end.
(** durations below 2^31; between a start (or query) and the next query less than 2^31 ms pass *)
Fixpoint polled (last : Z) (ops : list (Z * timer_op)) : Prop :=
  match ops with
  | [] => True
  | (now, Start ms) :: r => 0 <= now /\ 0 <= ms < 2^31 /\ polled now r
  | (now, Stop) :: r => polled now r
  | (now, Expired) :: r => last <= now < last + 2^31 /\ polled now r
  | (now, Started) :: r => polled last r
  end.

(** ** C46 *)
Inductive deb_op := Init (v : Z) | Sample (now v timeout : Z).
Definition deb_step (d : debouncer) (o : deb_op) : debouncer :=
  match o with Init v => deb_init v d | Sample now v timeout => fst (deb_debounce (u32 now) v timeout d) end.
Definition deb_run (d : debouncer) (ops : list deb_op) : debouncer := fold_left deb_step ops d.
Definition sample_ok (o : deb_op) : Prop := match o with Init _ => True | Sample now v timeout => 0 <= now /\ 0 <= timeout <= 2^31 end.
(** all operations are samples of level [v] *)
Definition all_samples (v : Z) (ops : list deb_op) : Prop := Forall (fun o => exists now timeout, o = Sample now v timeout) ops.

(** ** C55: what a shift register connected to the pins sees: the data level at each rising edge of the clock *)
Fixpoint sampled (data clock : bool) (w : list pin_write) : list bool :=
  match w with
  | [] => []
  | Data b :: r => sampled b clock r
  | Clock b :: r => if b && negb clock then data :: sampled data b r else sampled data b r
  end.

(** ** C58: little-endian numbers *)
Fixpoint number_le (l : list Z) : Z := match l with [] => 0 | b :: r => b + 256 * number_le r end.
