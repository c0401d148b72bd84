(** Property C12: scheduled calls. *)
From Verif Require Import Base ModelScheduler ProofsScheduler.
Open Scope Z_scope.

(** Times are in microseconds.  At most one pending call per connection *)
Theorem C12_one_pending : forall now ops id1 id2 c due1 due2 t1 t2,
  let s := sched_run now ops in
  In (id1, due1) (s_queue s) -> In (id2, due2) (s_queue s) ->
  In (EvScheduled id1 c t1) (s_trace s) -> In (EvScheduled id2 c t2) (s_trace s) -> id1 = id2.
Proof. exact c12_one_pending. Qed.
Print Assumptions C12_one_pending.

(** a started call was scheduled, its time has come, it had not been cancelled,
    and it is never started again *)
Theorem C12_fired : forall now ops l1 l2 id a, s_trace (sched_run now ops) = l1 ++ EvFired id a :: l2 ->
  (exists c t, In (EvScheduled id c t) l1 /\ t <= a) /\ ~ In (EvCancelled id) l1 /\
  (forall a', ~ In (EvFired id a') (l1 ++ l2)).
Proof. exact c12_trace. Qed.
Print Assumptions C12_fired.

Theorem C12_refused : forall cid t s,
  (exists id, aget cid (s_dict s) = Some id /\ s_pending s id = true) \/ t < s_now s - 1000000 ->
  schedule_call cid t s = Err EAssertion /\ sched_step s (SSchedule cid t) = s.
Proof. exact c12_refuse. Qed.
Print Assumptions C12_refused.

Theorem C12_accepted : forall cid t s,
  (forall id, aget cid (s_dict s) = Some id -> s_pending s id = false) -> s_now s - 1000000 <= t ->
  exists s', schedule_call cid t s = Ok s' /\ In (s_next s, Z.max t (s_now s)) (s_queue s') /\
             s_trace s' = s_trace s ++ [EvScheduled (s_next s) cid t].
Proof. exact c12_accept. Qed.
Print Assumptions C12_accepted.

Theorem C12_cancel_all : forall now ops, s_queue (cancel_all (sched_run now ops)) = [].
Proof. exact (fun now ops => proj1 (proj2 (cancel_all_queue _ (sched_run_inv now ops)))). Qed.
Print Assumptions C12_cancel_all.

Example C12_ex :
  let s := sched_run 0 [SSchedule "a" 10; SSchedule "b" 5; SSchedule "a" 20; STick 6; SFire 1; SFire 0;
                        SCancel "a"; STick 10; SFire 0; SSchedule "b" 30; SFinish 1] in
  s_trace s = [EvScheduled 0 "a" 10; EvScheduled 1 "b" 5; EvFired 1 6; EvCancelled 0; EvScheduled 2 "b" 30]
  /\ s_queue s = [(2%nat, 30)].
Proof. split; reflexivity. Qed.
