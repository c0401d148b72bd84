(** Model of /repo/opennsa/backends/common/scheduler.py, together with the part
    of the reactor it relies on (twisted's [task.deferLater] and
    [Deferred.cancel]): a queue of delayed calls, each identified by a number. *)
From Verif Require Import Base.
Open Scope Z_scope.

(** one second, in microseconds; scheduler.py:47 *)
Definition second : Z := 1000000.

(** observable history, newest last; scheduler.py:35-74 *)
Inductive sched_ev :=
| EvScheduled (id : nat) (cid : string) (t : Z)   (* a call was accepted for time t *)
| EvCancelled (id : nat)                           (* a pending call was cancelled *)
| EvInterrupt (id : nat)                           (* cancel hit a call that is running *)
| EvFired (id : nat) (at_ : Z).                    (* the call was started *)

(** scheduler.py:30-32 and the reactor *)
Record sched := mkSched {
  s_now : Z;
  s_next : nat;                          (* next Deferred identity *)
  s_dict : list (string * nat);          (* scheduler.py:31 scheduled_calls *)
  s_queue : list (nat * Z);              (* reactor: pending delayed calls, due time *)
  s_running : list nat;                  (* started calls whose result is not there yet *)
  s_trace : list sched_ev
}.

(** scheduler.py:35-74, the calls and the passing of time *)
Inductive sched_op :=
| SSchedule (cid : string) (t : Z)
| SCancel (cid : string)
| SCancelAll
| STick (dt : Z)
| SFire (id : nat)       (* the reactor starts a due call *)
| SFinish (id : nat).    (* a running call completes *)

(** a Deferred made by deferLater is [called] once it left the queue; scheduler.py:40 *)
Definition s_pending (s : sched) (id : nat) : bool := ahas id (s_queue s).

(** twisted [Deferred.cancel]: stop the delayed call; if it has already been
    started and its result is still outstanding, cancel that result; otherwise
    nothing; scheduler.py:66, 73 *)
Definition defer_cancel (id : nat) (s : sched) : sched :=
  if s_pending s id then
    mkSched (s_now s) (s_next s) (s_dict s) (adel id (s_queue s)) (s_running s) (s_trace s ++ [EvCancelled id])
  else if mem id (s_running s) then
    mkSched (s_now s) (s_next s) (s_dict s) (s_queue s) (remove Nat.eq_dec id (s_running s)) (s_trace s ++ [EvInterrupt id])
  else s.

(** scheduler.py:35-56 [scheduleCall] *)
Definition schedule_call (cid : string) (t : Z) (s : sched) : result sched :=
  if (match aget cid (s_dict s) with Some id => s_pending s id | None => false end) then Err EAssertion
  else if negb (t >=? s_now s - second) then Err EAssertion
  else
    let delay := Z.max (t - s_now s) 0 in
    let id := s_next s in
    Ok (mkSched (s_now s) (S id) (aset cid id (s_dict s)) (s_queue s ++ [(id, s_now s + delay)])
                (s_running s) (s_trace s ++ [EvScheduled id cid t])).

(** scheduler.py:59-60 [hasScheduledCall] *)
Definition has_scheduled_call (cid : string) (s : sched) : bool := ahas cid (s_dict s).

(** scheduler.py:31, [self.scheduled_calls] *)
Definition set_dict (d : list (string * nat)) (s : sched) : sched :=
  mkSched (s_now s) (s_next s) d (s_queue s) (s_running s) (s_trace s).

(** scheduler.py:63-68 [cancelCall] *)
Definition cancel_call (cid : string) (s : sched) : sched :=
  match aget cid (s_dict s) with
  | None => s
  | Some id => defer_cancel id (set_dict (adel cid (s_dict s)) s)
  end.

(** scheduler.py:71-74 [cancelAllCalls] *)
Definition cancel_all (s : sched) : sched :=
  set_dict [] (fold_left (fun s ce => defer_cancel (snd ce) s) (s_dict s) s).

(** scheduler.py:35-74, one call *)
Definition sched_step (s : sched) (o : sched_op) : sched :=
  match o with
  | SSchedule cid t => match schedule_call cid t s with Ok s' => s' | Err _ => s end
  | SCancel cid => cancel_call cid s
  | SCancelAll => cancel_all s
  | STick dt => mkSched (s_now s + Z.max 0 dt) (s_next s) (s_dict s) (s_queue s) (s_running s) (s_trace s)
  | SFire id =>
      match aget id (s_queue s) with
      | Some due =>
          if due <=? s_now s then
            mkSched (s_now s) (s_next s) (s_dict s) (adel id (s_queue s)) (s_running s ++ [id])
                    (s_trace s ++ [EvFired id (s_now s)])
          else s
      | None => s
      end
  | SFinish id =>
      mkSched (s_now s) (s_next s) (s_dict s) (s_queue s) (remove Nat.eq_dec id (s_running s)) (s_trace s)
  end.
(** scheduler.py:30-32 *)
Definition sched_init (now : Z) : sched := mkSched now 0 [] [] [] [].
(** scheduler.py:35-74, a sequence of calls *)
Definition sched_run (now : Z) (ops : list sched_op) : sched := fold_left sched_step ops (sched_init now).
