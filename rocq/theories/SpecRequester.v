(** Which answer belongs to which request. *)
From Verif Require Import Base ModelRequester.
Open Scope Z_scope.

(** an event that answers a request with key [k] and action [a], and the result it carries *)
Inductive answers : event -> key -> action -> outcome -> Prop :=
| ans_invocation k a e : answers (InvocationFailed k a e) k a (Failed e)
| ans_confirmed k a v : answers (Confirmed k a v) k a (Value v)
| ans_failed k a e : answers (FailedMsg k a e) k a (Failed e)
| ans_timeout t k a : answers (Advance t) k a (Failed ECallbackTimeout).

(** the key and action an event carries *)
Definition carries (ev : event) : option (key * action) :=
  match ev with
  | Request k a | InvocationFailed k a _ | Confirmed k a _ | FailedMsg k a _ => Some (k, a)
  | Advance _ => None
  end.
Definition is_request (ev : event) : bool := match ev with Request _ _ => true | _ => false end.

(** the deferreds fired, in order *)
Definition fired_ids (l : list (event * output)) : list nat :=
  flat_map (fun eo => match snd eo with Fired d _ => [d] | _ => [] end) l.
Definition fires (l : list (event * output)) (d : nat) : Prop := exists ev o, In (ev, Fired d o) l.
Definition returns (l : list (event * output)) (k : key) (a : action) (d : nat) : Prop := In (Request k a, Returned d) l.
