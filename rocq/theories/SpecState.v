(** The state diagrams of NSI Connection Service 2.0 (GFD.212 figures 4-6), plus
    the two documented self-loops of this implementation and the direct
    Created -> Terminated edge used by the aggregator for failed reservations. *)
From Verif Require Import Base ModelState.

Inductive r_edge : rstate -> rstate -> Prop :=
| re_check : r_edge RStart RChecking
| re_held : r_edge RChecking RHeld
| re_fail : r_edge RChecking RFailed
| re_commit : r_edge RHeld RCommitting
| re_abort : r_edge RHeld RAborting
| re_timeout : r_edge RHeld RTimeout
| re_committed : r_edge RCommitting RStart
| re_fail_abort : r_edge RFailed RAborting
| re_timeout_abort : r_edge RTimeout RAborting
| re_aborted : r_edge RAborting RStart.

Inductive p_edge : pstate -> pstate -> Prop :=
| pe_prov : p_edge PReleased PProvisioning
| pe_prov_again : p_edge PProvisioning PProvisioning
| pe_provd : p_edge PProvisioning PProvisioned
| pe_rel : p_edge PProvisioned PReleasing
| pe_rel_again : p_edge PReleasing PReleasing
| pe_reld : p_edge PReleasing PReleased.

Inductive l_edge : lstate -> lstate -> Prop :=
| le_fail : l_edge LCreated LFailed
| le_end : l_edge LCreated LPassedEnd
| le_term : l_edge LCreated LTerminating
| le_termd : l_edge LCreated LTerminated
| le_fail_term : l_edge LFailed LTerminating
| le_end_term : l_edge LPassedEnd LTerminating
| le_term_again : l_edge LTerminating LTerminating
| le_terminated : l_edge LTerminating LTerminated.

Inductive path {S} (E : S -> S -> Prop) : S -> S -> Prop :=
| path_refl s : path E s s
| path_step s t u : E s t -> path E t u -> path E s u.

(** exactly one of the three states moves, along an edge *)
Inductive one_move : states -> states -> Prop :=
| move_r r r' p l : r_edge r r' -> one_move (mkStates r p l) (mkStates r' p l)
| move_p r p p' l : p_edge p p' -> one_move (mkStates r p l) (mkStates r p' l)
| move_l r p l l' : l_edge l l' -> one_move (mkStates r p l) (mkStates r p l').

(** what each operation asks for *)
Inductive asks : state_op -> states -> states -> Prop :=
| a_chk r p l : asks OpReserveChecking (mkStates r p l) (mkStates RChecking p l)
| a_held r p l : asks OpReserveHeld (mkStates r p l) (mkStates RHeld p l)
| a_fail r p l : asks OpReserveFailed (mkStates r p l) (mkStates RFailed p l)
| a_commit r p l : asks OpReserveCommit (mkStates r p l) (mkStates RCommitting p l)
| a_abort r p l : asks OpReserveAbort (mkStates r p l) (mkStates RAborting p l)
| a_timeout r p l : asks OpReserveTimeout (mkStates r p l) (mkStates RTimeout p l)
| a_reserved r p l : asks OpReserved (mkStates r p l) (mkStates RStart p l)
| a_prov r p l : asks OpProvisioning (mkStates r p l) (mkStates r PProvisioning l)
| a_provd r p l : asks OpProvisioned (mkStates r p l) (mkStates r PProvisioned l)
| a_rel r p l : asks OpReleasing (mkStates r p l) (mkStates r PReleasing l)
| a_reld r p l : asks OpReleased (mkStates r p l) (mkStates r PReleased l)
| a_end r p l : asks OpPassedEndtime (mkStates r p l) (mkStates r p LPassedEnd)
| a_failed r p l : asks OpFailed (mkStates r p l) (mkStates r p LFailed)
| a_term r p l : asks OpTerminating (mkStates r p l) (mkStates r p LTerminating)
| a_termd r p l : asks OpTerminated (mkStates r p l) (mkStates r p LTerminated).

(** the edge an operation needs *)
Definition edge_ok (o : state_op) (c : states) : Prop :=
  match o with
  | OpReserveChecking => r_edge (st_r c) RChecking
  | OpReserveHeld => r_edge (st_r c) RHeld
  | OpReserveFailed => r_edge (st_r c) RFailed
  | OpReserveCommit => r_edge (st_r c) RCommitting
  | OpReserveAbort => r_edge (st_r c) RAborting
  | OpReserveTimeout => r_edge (st_r c) RTimeout
  | OpReserved => r_edge (st_r c) RStart
  | OpReserveMulti _ => False
  | OpProvisioning => p_edge (st_p c) PProvisioning
  | OpProvisioned => p_edge (st_p c) PProvisioned
  | OpReleasing => p_edge (st_p c) PReleasing
  | OpReleased => p_edge (st_p c) PReleased
  | OpPassedEndtime => l_edge (st_l c) LPassedEnd
  | OpFailed => l_edge (st_l c) LFailed
  | OpTerminating => l_edge (st_l c) LTerminating
  | OpTerminated => l_edge (st_l c) LTerminated
  end.

(** consecutive edges through the given targets *)
Fixpoint chain (s : rstate) (ts : list rstate) : Prop :=
  match ts with [] => True | t :: ts' => r_edge s t /\ chain t ts' end.
