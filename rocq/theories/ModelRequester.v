(** Model of outgoing requests, /repo/opennsa/protocols/nsi2/requester.py:13-218. *)
From Verif Require Import Base.
Open Scope Z_scope.

(** requester.py:13-18 *)
Inductive action := AReserve | ACommit | AProvision | ARelease | ATerminate | AQueryRecursive.
(** requester.py:14-19, [==] on the names *)
Definition action_eqb (a b : action) : bool :=
  match a, b with
  | AReserve, AReserve | ACommit, ACommit | AProvision, AProvision | ARelease, ARelease
  | ATerminate, ATerminate | AQueryRecursive, AQueryRecursive => true
  | _, _ => false
  end.
Lemma action_eqb_ok a b : reflect (a = b) (action_eqb a b).
Proof. destruct a, b; constructor; congruence. Qed.
#[global] Instance EqB_action : EqB action := {| eqb := action_eqb; eqb_ok := action_eqb_ok |}.

(** provider NSA and correlation id, requester.py:38 *)
Notation key := (string * string)%type.
(** what a caller's deferred is fired with: a value or an exception; requester.py:69-72 *)
Inductive outcome := Value (v : string) | Failed (e : exn).

(** requester.py:44, an entry of [self.calls]: the action, the deferred and the
    delayed call; the latter two are numbered *)
Record call := mkCall { c_action : action; c_deferred : nat; c_timer : nat }.
(** a delayed call that has neither run nor been cancelled (callLater,
    requester.py:42), with its arguments and due time *)
Record timer := mkTimer { t_id : nat; t_key : key; t_action : action; t_due : Z }.

(** requester.py:27-33 *)
Record rst := mkR {
  calls  : list (key * call);   (* requester.py:32 *)
  timers : list timer;          (* the reactor's delayed calls, in order of creation *)
  next   : nat;                 (* next unused number *)
  now    : Z }.

(** what the outside sees; requester.py:69-72, 82-85 *)
Inductive output :=
| Returned (d : nat)             (* a request returned this deferred to its caller *)
| Fired (d : nat) (o : outcome)  (* the deferred fired *)
| Raised (e : exn).              (* the method raised *)

(** requester.py:36-44 [addCall] *)
Definition add_call (timeout : Z) (s : rst) (k : key) (a : action) : rst * list output :=
  if ahas k (calls s) then (s, [Raised EAssertion])
  else (mkR (aset k (mkCall a (next s) (next s)) (calls s))
            (timers s ++ [mkTimer (next s) k a (now s + timeout)])
            (S (next s)) (now s),
        [Returned (next s)]).

(** requester.py:53-72 [triggerCall]: the entry is removed before the action is
    compared, so a mismatch loses it; its delayed call stays. *)
Definition trigger (s : rst) (k : key) (a : action) (o : outcome) : rst * list output :=
  match aget k (calls s) with
  | None => (s, [])
  | Some c =>
      let cs := adel k (calls s) in
      if negb (eqb (c_action c) a) then (mkR cs (timers s) (next s) (now s), [Raised EAssertion])
      else (mkR cs (filter (fun t => negb (t_id t =? c_timer c)%nat) (timers s)) (next s) (now s), [Fired (c_deferred c) o])
  end.

(** requester.py:47-50: a delayed call runs; it is no longer active then.  The
    AssertionError of a mismatch ends in the reactor's log. *)
Definition fire (s : rst) (t : timer) : rst * list output :=
  let s' := mkR (calls s) (filter (fun u => negb (t_id u =? t_id t)%nat) (timers s)) (next s) (now s) in
  trigger s' (t_key t) (t_action t) (Failed ECallbackTimeout).

(** the reactor reaches time [t]: runs the due calls, earliest first.  All have
    the same delay, so creation order is due order.  A call cancelled by an
    earlier one of the batch does not run; requester.py:42 *)
Fixpoint run_due (s : rst) (l : list timer) : rst * list output :=
  match l with
  | [] => (s, [])
  | t :: r =>
      if existsb (fun u => (t_id u =? t_id t)%nat) (timers s) then
        let '(s1, o1) := fire s t in
        let '(s2, o2) := run_due s1 r in
        (s2, o1 ++ o2)
      else run_due s r
  end.

(** requester.py:36-218, the inputs of the requester *)
Inductive event :=
| Request (k : key) (a : action)               (* reserve 75-85, reserveCommit 99-109, provision 117-126, release 139-148, terminate 160-169, queryRecursive 199-208 *)
| InvocationFailed (k : key) (a : action) (e : exn)  (* the errback of those methods *)
| Confirmed (k : key) (a : action) (v : string)      (* …Confirmed: 88-91, 112-114, 129-131, 150-152, 172-174, 211-213 *)
| FailedMsg (k : key) (a : action) (e : exn)         (* …Failed: 94-96, 134-136, 155-157, 177-179, 216-218 *)
| Advance (t : Z).

(** requester.py:36-218, one event *)
Definition step (timeout : Z) (s : rst) (ev : event) : rst * list output :=
  match ev with
  | Request k a => add_call timeout s k a
  | InvocationFailed k a e => trigger s k a (Failed e)
  | Confirmed k a v => trigger s k a (Value v)
  | FailedMsg k ACommit e => (s, [Raised EAttribute])   (* requester.py has no reserveCommitFailed *)
  | FailedMsg k a e => trigger s k a (Failed e)
  | Advance t =>
      if t <? now s then (s, [])
      else let s1 := mkR (calls s) (timers s) (next s) t in
           run_due s1 (filter (fun u => t_due u <=? t) (timers s))
  end.

(** requester.py:27-33 *)
Definition init : rst := mkR [] [] 0 0.
(** requester.py:12, the default callback timeout in seconds *)
Definition DEFAULT_CALLBACK_TIMEOUT : Z := 60.
(** requester.py:31: the timeout of a requester, from the argument it is made with *)
Definition timeout_used (callback_timeout : option Z) : Z :=
  match callback_timeout with Some t => if t =? 0 then DEFAULT_CALLBACK_TIMEOUT else t | None => DEFAULT_CALLBACK_TIMEOUT end.

(** the log: every output with the event that caused it, in order; requester.py:36-218 *)
Fixpoint log (timeout : Z) (s : rst) (evs : list event) : list (event * output) :=
  match evs with
  | [] => []
  | ev :: r => let '(s', o) := step timeout s ev in map (pair ev) o ++ log timeout s' r
  end.
(** requester.py:36-218, the state after a sequence of events *)
Definition final (timeout : Z) (s : rst) (evs : list event) : rst :=
  fold_left (fun s ev => fst (step timeout s ev)) evs s.
