(** C105: the segments of connections. *)
From Verif Require Import Base ModelLabel ModelSTP ModelState ModelProvreg ModelAggregator.

(** What does not change in a segment: whose it is, where in the path, its id at which
    agent, and its ends. *)
Definition same_segment (x y : sub) : Prop :=
  sb_conn y = sb_conn x /\ sb_order y = sb_order x /\ sb_cid y = sb_cid x /\ sb_provider y = sb_provider x /\ sb_src y = sb_src x /\ sb_dst y = sb_dst x.
Definition keeps_segments (s s' : st) : Prop :=
  forall k x, aget k (t_subs s) = Some x -> exists x', aget k (t_subs s') = Some x' /\ same_segment x x'.
(** No two segments have the same id at the same agent. *)
Definition segments_apart (s : st) : Prop :=
  forall k k' x x', aget k (t_subs s) = Some x -> aget k' (t_subs s) = Some x' -> sb_provider x = sb_provider x' -> sb_cid x = sb_cid x' -> k = k'.
(** The segment is as the agent that has it confirmed it. *)
Definition as_confirmed (log : list call) (x : sub) : Prop :=
  exists h, In (CReserveConfirmed h (sb_cid x) (sb_src x) (sb_dst x)) log /\ hd_provider h = sb_provider x.
(** The segment a request is about; terminations are sent by the clean-up of failed
    reservations too, see C45. *)
Definition concerns (b : dbody) : option string :=
  match b with DCommit c | DAbort c | DProvision c | DRelease c | DQuery c => Some c | DReserve _ _ _ _ _ _ | DTerminate _ => None end.
(** The request goes to an agent that has a segment of that id. *)
Definition at_home (s : st) (a : act) : Prop :=
  match a with
  | AOut (ODown _ h b) => forall c, concerns b = Some c -> exists k x, aget k (t_subs s) = Some x /\ sb_cid x = c /\ sb_provider x = hd_provider h
  | _ => True
  end.
(** The request is handed to what the registry has for a network of the agent it is
    addressed to. *)
Definition well_carried (s : st) (a : act) : Prop :=
  match a with
  | AOut (ODown p h b) => forall c, concerns b = Some c -> exists net, get_provider_urn net (a_reg s) = Ok (hd_provider h) /\ get_provider net (a_reg s) = Ok p
  | _ => True
  end.
