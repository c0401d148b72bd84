(** Model of /repo/opennsa/state.py. *)
From Verif Require Import Base.

(** state.py:17-35.  The code uses distinct strings for the states. *)
Inductive rstate := RStart | RChecking | RHeld | RCommitting | RFailed | RTimeout | RAborting.
(** state.py:26-29 *)
Inductive pstate := PReleased | PProvisioning | PProvisioned | PReleasing.
(** state.py:32-36 *)
Inductive lstate := LCreated | LFailed | LPassedEnd | LTerminating | LTerminated.

(** state.py:17-23, [==] on the names *)
Definition rstate_eqb (a b : rstate) : bool :=
  match a, b with
  | RStart, RStart | RChecking, RChecking | RHeld, RHeld | RCommitting, RCommitting
  | RFailed, RFailed | RTimeout, RTimeout | RAborting, RAborting => true
  | _, _ => false
  end.
(** state.py:26-29, [==] on the names *)
Definition pstate_eqb (a b : pstate) : bool :=
  match a, b with
  | PReleased, PReleased | PProvisioning, PProvisioning | PProvisioned, PProvisioned | PReleasing, PReleasing => true
  | _, _ => false
  end.
(** state.py:32-36, [==] on the names *)
Definition lstate_eqb (a b : lstate) : bool :=
  match a, b with
  | LCreated, LCreated | LFailed, LFailed | LPassedEnd, LPassedEnd | LTerminating, LTerminating | LTerminated, LTerminated => true
  | _, _ => false
  end.
#[global] Instance EqB_rstate : EqB rstate.
Proof. refine {| eqb := rstate_eqb |}. intros [] []; constructor; congruence. Defined.
#[global] Instance EqB_pstate : EqB pstate.
Proof. refine {| eqb := pstate_eqb |}. intros [] []; constructor; congruence. Defined.
#[global] Instance EqB_lstate : EqB lstate.
Proof. refine {| eqb := lstate_eqb |}. intros [] []; constructor; congruence. Defined.

(** state.py:39-47 *)
Definition reserve_transitions (s : rstate) : list rstate :=
  match s with
  | RStart => [RChecking]
  | RChecking => [RHeld; RFailed]
  | RHeld => [RCommitting; RAborting; RTimeout]
  | RCommitting => [RStart]
  | RFailed => [RAborting]
  | RTimeout => [RAborting]
  | RAborting => [RStart]
  end.
(** state.py:55-60 *)
Definition provision_transitions (s : pstate) : list pstate :=
  match s with
  | PReleased => [PProvisioning]
  | PProvisioning => [PProvisioning; PProvisioned]
  | PProvisioned => [PReleasing]
  | PReleasing => [PReleasing; PReleased]
  end.
(** state.py:62-68 *)
Definition lifecycle_transitions (s : lstate) : list lstate :=
  match s with
  | LCreated => [LFailed; LPassedEnd; LTerminating; LTerminated]
  | LFailed => [LTerminating]
  | LPassedEnd => [LTerminating]
  | LTerminating => [LTerminating; LTerminated]
  | LTerminated => []
  end.

(** state.py:100-104 [_switchState] *)
Definition switch_state {S} `{EqB S} (table : S -> list S) (old new : S) : result unit :=
  if mem new (table old) then Ok tt else Err EInternalServer.

(** the three state columns of a connection row; state.py:109-194, schema.sql:24-52 *)
Record states := mkStates { st_r : rstate; st_p : pstate; st_l : lstate }.

(** the functions of state.py:109-194 *)
Inductive state_op :=
| OpReserveChecking | OpReserveHeld | OpReserveFailed | OpReserveCommit | OpReserveAbort
| OpReserveTimeout | OpReserved
| OpReserveMulti (targets : list rstate)
| OpProvisioning | OpProvisioned | OpReleasing | OpReleased
| OpPassedEndtime | OpFailed | OpTerminating | OpTerminated.

(** state.py:109-142, each: check, then assign *)
Definition set_r (new : rstate) (c : states) : result states :=
  do! _ <- switch_state reserve_transitions (st_r c) new; Ok (mkStates new (st_p c) (st_l c)).
(** state.py:154-172 *)
Definition set_p (new : pstate) (c : states) : result states :=
  do! _ <- switch_state provision_transitions (st_p c) new; Ok (mkStates (st_r c) new (st_l c)).
(** state.py:176-194 *)
Definition set_l (new : lstate) (c : states) : result states :=
  do! _ <- switch_state lifecycle_transitions (st_l c) new; Ok (mkStates (st_r c) (st_p c) new).

(** state.py:144-149 [reserveMultiSwitch], before the save: the object is changed
    step by step; on an illegal step the exception leaves it where it is *)
Fixpoint multi_switch (targets : list rstate) (c : states) : states * option exn :=
  match targets with
  | [] => (c, None)
  | s :: r => match set_r s c with
              | Ok c' => multi_switch r c'
              | Err e => (c, Some e)
              end
  end.

(** state.py:109-194: effect of one operation on the in-memory object before the
    save: new object, and the exception if one is raised *)
Definition op_mem (o : state_op) (c : states) : states * option exn :=
  let lift r := match r with Ok c' => (c', None) | Err e => (c, Some e) end in
  match o with
  | OpReserveChecking => lift (set_r RChecking c)
  | OpReserveHeld => lift (set_r RHeld c)
  | OpReserveFailed => lift (set_r RFailed c)
  | OpReserveCommit => lift (set_r RCommitting c)
  | OpReserveAbort => lift (set_r RAborting c)
  | OpReserveTimeout => lift (set_r RTimeout c)
  | OpReserved => lift (set_r RStart c)
  | OpReserveMulti ts => multi_switch ts c
  | OpProvisioning => lift (set_p PProvisioning c)
  | OpProvisioned => lift (set_p PProvisioned c)
  | OpReleasing => lift (set_p PReleasing c)
  | OpReleased => lift (set_p PReleased c)
  | OpPassedEndtime => lift (set_l LPassedEnd c)
  | OpFailed => lift (set_l LFailed c)
  | OpTerminating => lift (set_l LTerminating c)
  | OpTerminated => lift (set_l LTerminated c)
  end.

(** One call through one object: the object and the stored row.  [save_ok] is
    the outcome of [conn.save()] (state.py:95), an external event. *)
Definition op_step (s : states * states) (o : state_op) (save_ok : bool) : (states * states) * option exn :=
  let '(obj, row) := s in
  match op_mem o obj with
  | (obj', None) => ((obj', if save_ok then obj' else row), None)
  | (obj', Some e) => ((obj', row), Some e)
  end.
(** state.py:109-194, a sequence of operations *)
Definition op_run (s : states * states) (l : list (state_op * bool)) : states * states :=
  fold_left (fun s ob => fst (op_step s (fst ob) (snd ob))) l s.

(** * Subscriptions, state.py:70-97 *)
(** connection id -> callbacks; callbacks are identified by numbers; state.py:70 *)
Definition registry := list (string * list nat).

(** state.py:72-74 *)
Definition subscribe (cid : string) (f : nat) (reg : registry) : registry :=
  match aget cid reg with
  | Some l => aset cid (l ++ [f]) reg
  | None => aset cid [f] reg
  end.
(** state.py:77, [list.remove] *)
Fixpoint list_remove (f : nat) (l : list nat) : option (list nat) :=
  match l with
  | [] => None
  | g :: r => if Nat.eqb f g then Some r else option_map (cons g) (list_remove f r)
  end.
(** state.py:76-77 *)
Definition desubscribe (cid : string) (f : nat) (reg : registry) : result registry :=
  match aget cid reg with
  | None => Err EKey
  | Some l => match list_remove f l with
              | None => Err EValue
              | Some l' => Ok (aset cid l' reg)
              end
  end.

(** state.py:82-93 [notify]: a Python [for] over the live list object (position
    [i], length looked up anew each time).  [cb f reg] is the registry after
    callback [f] returned or raised (exceptions are swallowed, state.py:87).
    [None]: out of fuel (callbacks may keep subscribing new ones for ever). *)
Fixpoint notify_loop (fuel : nat) (cb : nat -> registry -> registry) (cid : string) (i : nat)
         (called : list nat) (reg : registry) : option (list nat * registry) :=
  match fuel with
  | O => None
  | S k =>
      match aget cid reg with
      | None => Some (called, reg)
      | Some l => match nth_error l i with
                  | None => Some (called, reg)
                  | Some f => notify_loop k cb cid (S i) (called ++ [f]) (cb f reg)
                  end
      end
  end.
(** state.py:80-97 [saveNotify] *)
Definition save_notify (fuel : nat) (cb : nat -> registry -> registry) (cid : string) (save_ok : bool)
           (reg : registry) : option (list nat * registry) :=
  if save_ok then notify_loop fuel cb cid 0 [] reg else Some ([], reg).
