(** Properties C09-C11: connection state machines. *)
From Verif Require Import Base ModelState SpecState ProofsState.

(** C09: each single operation is exactly one edge of the diagrams, or refused
    with nothing changed ([obj] is the object used, [row] what is stored). *)
Theorem C09_operation : forall obj row o save_ok c', asks o obj c' ->
  (one_move obj c' /\ op_step (obj, row) o save_ok = ((c', if save_ok then c' else row), None)) \/
  (~ edge_ok o obj /\ op_step (obj, row) o save_ok = ((obj, row), Some EInternalServer)).
Proof.
  exact (fun obj row o save_ok c' Ha => match op_step_spec obj row o save_ok c' Ha with
    | or_introl (conj _ (conj H1 H2)) => or_introl (conj H1 H2) | or_intror H => or_intror H end).
Qed.
Print Assumptions C09_operation.

(** C09: and it succeeds whenever the edge exists. *)
Theorem C09_operation_enabled : forall obj row o save_ok c', asks o obj c' -> edge_ok o obj ->
  op_step (obj, row) o save_ok = ((c', if save_ok then c' else row), None).
Proof.
  exact (fun obj row o save_ok c' Ha He => match op_step_spec obj row o save_ok c' Ha with
    | or_introl (conj _ (conj _ H2)) => H2 | or_intror (conj Hn _) => False_ind _ (Hn He) end).
Qed.
Print Assumptions C09_operation_enabled.

(** C09: the combined switch walks along edges and is saved only as a whole *)
Theorem C09_multi_switch : forall obj row ts save_ok,
  (chain (st_r obj) ts /\
     let c' := mkStates (last ts (st_r obj)) (st_p obj) (st_l obj) in
     op_step (obj, row) (OpReserveMulti ts) save_ok = ((c', if save_ok then c' else row), None)) \/
  (~ chain (st_r obj) ts /\ exists obj',
     op_step (obj, row) (OpReserveMulti ts) save_ok = ((obj', row), Some EInternalServer)).
Proof. exact op_step_multi. Qed.
Print Assumptions C09_multi_switch.

(** C09: the stored history of every connection is a path in each diagram *)
Theorem C09_history : forall c l1 l2,
  let before := snd (op_run (c, c) l1) in
  let after := snd (op_run (c, c) (l1 ++ l2)) in
  path r_edge (st_r before) (st_r after) /\ path p_edge (st_p before) (st_p after) /\ path l_edge (st_l before) (st_l after).
Proof. exact op_run_history. Qed.
Print Assumptions C09_history.

Example C09_ex :
  let c := mkStates RStart PReleased LCreated in
  snd (op_run (c, c) [(OpReserveMulti [RChecking; RHeld], true); (OpReserveChecking, true); (OpReserveCommit, false);
                      (OpReserved, true); (OpProvisioning, true); (OpTerminated, true); (OpTerminating, true)])
  = mkStates RStart PProvisioning LTerminated.
Proof. reflexivity. Qed.

(** C10 *)
Theorem C10_lifecycle_final : forall c l1 l2,
  (st_l (snd (op_run (c, c) l1)) = LTerminated -> st_l (snd (op_run (c, c) (l1 ++ l2))) = LTerminated) /\
  (st_l (snd (op_run (c, c) l1)) <> LCreated -> st_l (snd (op_run (c, c) (l1 ++ l2))) <> LCreated).
Proof. exact lifecycle_final. Qed.
Print Assumptions C10_lifecycle_final.

Example C10_ex : let c := mkStates RHeld PReleased LCreated in
  st_l (snd (op_run (c, c) [(OpTerminating, true); (OpTerminated, true)])) = LTerminated.
Proof. reflexivity. Qed.

(** C11: all callbacks of the connection, in order, each once, if none of them
    changes the subscriptions of this connection while being notified. *)
Theorem C11_notify_partial : forall cb cid l reg, (forall f r, aget cid (cb f r) = aget cid r) ->
  aget cid reg = Some l ->
  (exists reg', save_notify (S (length l)) cb cid true reg = Some (l, reg')) /\
  save_notify (S (length l)) cb cid false reg = Some ([], reg).
Proof. exact (fun cb cid l reg H1 H2 => conj (save_notify_all cb cid l reg H1 H2) eq_refl). Qed.
Print Assumptions C11_notify_partial.

(** C11 is false in general: a callback that unsubscribes itself (as the REST
    auto-provision callback does, rest/resource.py:252-253) makes the next one
    be skipped. *)
Definition self_unsub (cid : string) (f : nat) (reg : registry) : registry :=
  if Nat.eqb f 1 then match desubscribe cid f reg with Ok r => r | Err _ => reg end else reg.
Theorem C11_notify_refuted : exists cb cid reg l called reg',
  aget cid reg = Some l /\ save_notify 10 cb cid true reg = Some (called, reg') /\ exists f, In f l /\ ~ In f called.
Proof.
  exists (self_unsub "c"), "c"%string, (subscribe "c" 2 (subscribe "c" 1 [])), [1; 2], [1], [("c"%string, [2])].
  split; [reflexivity|]. split; [reflexivity|]. exists 2. split; [cbn; auto|]. cbn. intros [H|[]]; discriminate.
Qed.
Print Assumptions C11_notify_refuted.

Example C11_ex : save_notify 4 (fun _ r => r) "c" true (subscribe "c" 2 (subscribe "d" 7 (subscribe "c" 1 [])))
  = Some ([1; 2], [("c"%string, [1; 2]); ("d"%string, [7])]).
Proof. reflexivity. Qed.
