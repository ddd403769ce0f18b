(** Two devices on one bus: a telegram that one of them sends of its own accord is heard by the other. Covers C82, C83. *)
From Verif Require Import Base Node_Model Device_Spec Device_Spec3 Node_Spec.
From Verif Require Bus_Spec.
From Verif Require Import ComObj_Spec.

(** the frame for telegram [t] on the wire: sender [own], checksum; [rep]: marked as a repetition *)
Definition frame (own : Z) (rep : bool) (t : list Z) : list Z := Bus_Spec.wire own (if rep then Bus_Spec.repeated t else t).
(** the transmission buffer of the link layer begins with telegram [t] *)
Definition holds (buffer t : list Z) : Prop := length buffer = Bus_Spec.largest /\ firstn (length t) buffer = t.
(** a link layer at rest delivers and acknowledges [f] if the group [a] is known *)
Definition valid (a : Z) (f : list Z) : Prop :=
  Forall is_byte f /\ Bus_Spec.acceptable f true /\ Bus_Spec.wellSized f /\ forall e, Bus_Model.knownGroup e a = true -> Bus_Spec.forUs e f.
(** a device as found, running, with the tables [g] *)
Record stands (c : conf) (g : ComObj_Model.cfg) (x : node) : Prop := {
  st_conf : conf_ok c; st_tables : tables_ok c; st_sized : sized c; st_settled : settled g;
  st_found : node_found c x; st_runs : running (ndev x) = true; st_inst : installed c (nle x) (mem (ndev x)) g }.
(** the pass with the inputs [i] sends nothing of its own accord: it may not or nothing is pending *)
Definition keeps_quiet (c : conf) (g : ComObj_Model.cfg) (i : ninputs) (x y : node) : Prop :=
  ~ may_send c i x y \/ forall q, (q < num_objs g)%nat -> ~ pending g (contents c x) q.
(** one pass of a device that takes the frame [f] from the bus, and sends nothing of its own accord *)
Definition hears (c : conf) (g : ComObj_Model.cfg) (f : list Z) (i : ninputs) (x y : node) (l : list nout) : Prop :=
  stands c g x /\ heard i x = Some f /\ nstep c x (NLoop i) = Some (y, l) /\ keeps_quiet c g i x y.
(** the objects of [g] that listen to [a] *)
Definition listens (g : ComObj_Model.cfg) (a : Z) (q : nat) : Prop := associated g a q /\ write_enabled g q.
