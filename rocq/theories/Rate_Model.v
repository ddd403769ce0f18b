(** The group telegram rate limit of the main loop (sblib/src/eib/bcu_default.cpp, bcu_default.h).
    Times are true milliseconds since start (unbounded); millis() is the time modulo 2^32 (timer.cpp:106-109). *)
From Verif Require Export Base.

(** timer.cpp:106-109 millis; timer.cpp:111-114 elapsed *)
Definition millis (t : Z) : Z := u32 t.
Definition elapsed (t ref : Z) : Z := u32 (millis t - ref).
(** bcu_default.h:229-230 MAX_GROUP_TEL_PER_SECOND, DEFAULT_GROUP_TEL_WAIT_MILLIS *)
Definition MAX_GROUP_TEL_PER_SECOND := 28.
Definition DEFAULT_GROUP_TEL_WAIT_MILLIS := 1000 / MAX_GROUP_TEL_PER_SECOND.
(** bcu_default.h:223-224 groupTelWaitMillis, groupTelSent *)
Record rate := mkRate { groupTelWaitMillis : Z; groupTelSent : Z }.
(** bcu_default.cpp:78-82: the end of _begin *)
Definition begin_ (t : Z) : rate := mkRate DEFAULT_GROUP_TEL_WAIT_MILLIS (millis t).
(** bcu_default.cpp:196-202 setGroupTelRateLimit; [limit] is an unsigned int *)
Definition setGroupTelRateLimit (limit : Z) (r : rate) : rate :=
  mkRate (if (0 <? limit) && (limit <=? MAX_GROUP_TEL_PER_SECOND) then 1000 / limit else DEFAULT_GROUP_TEL_WAIT_MILLIS) (groupTelSent r).
(** bcu_default.cpp:133-148: the group telegram part of loop, entered when no frame is being sent, sending is enabled and the application runs
    (bcu_default.cpp:118-133; other iterations do not touch the two fields).
    [t1]: time of the first check, [t2]: when sendNextGroupTelegram has returned, [t3]: time of the last check;
    [request]: what sendNextGroupTelegram returns if called.  The result tells whether a telegram was sent. *)
Definition loop (t1 t2 t3 : Z) (request : bool) (r : rate) : bool * rate :=
  let go := (groupTelWaitMillis r <=? elapsed t1 (groupTelSent r)) && request in
  let s := if go then millis t2 else groupTelSent r in
  let s := if 2000 <=? elapsed t3 s then u32 (s + 1000) else s in
  (go, mkRate (groupTelWaitMillis r) s).
(** histories: iterations of the main loop and changes of the limit (bcu_default.cpp:118-155, 196-202) *)
Inductive event := Loop (t1 t2 t3 : Z) (request : bool) | Limit (limit : Z).
Definition step (e : event) (r : rate) : bool * rate :=
  match e with Loop t1 t2 t3 q => loop t1 t2 t3 q r | Limit l => (false, setGroupTelRateLimit l r) end.
(** which events of a history sent a group telegram *)
Fixpoint run (evs : list event) (r : rate) : list bool :=
  match evs with [] => [] | e :: rest => let (b, r') := step e r in b :: run rest r' end.
