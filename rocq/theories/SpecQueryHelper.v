(** What of a tree of connections the protocol carries, and which trees it can carry. *)
From Verif Require Import Base ModelXml ModelLabel SpecLabel ModelSTP SpecSTP ModelTime SpecTime ModelQueryHelper.
Open Scope Z_scope.

(** The tree a peer should see: ids, states, revisions, schedules, service
    definitions and the order of the children are kept; the protocol has no
    room for the other fields of a child. *)
Fixpoint seen_crit (c : crit) : crit := let 'QC rev sc sd kids := c in QC rev sc sd (map seen_child kids)
with seen_child (c : cinfo) : cinfo :=
  let 'CI cid _ _ _ crits prov _ sts _ _ := c in CI cid None None P2PS (map seen_crit crits) prov None sts None None.
Definition seen (provider : string) (c : cinfo) : cinfo :=
  let 'CI cid gid desc _ crits _ req sts nid rid := c in
  CI cid gid desc EVTS_AGOLE (map seen_crit crits) provider req sts nid rid.

(** STPs with a faithful text (the hypotheses of C23_roundtrip) *)
Definition stp_ok (s : stp) : Prop :=
  contains URN_NETWORK (s_network s +++ ":" +++ s_port s) = false /\
  shas "?" (s_network s) = false /\ shas "?" (s_port s) = false /\ shas ":" (s_port s) = false /\
  (forall l, s_label s = Some l -> (ltype l = "vlan" \/ ltype l = "mpls") /\ wf_values (lvalues l)).
Definition p2p_ok (p : p2p) : Prop := stp_ok (p_src p) /\ stp_ok (p_dst p).
Definition sched_ok (s : sched) : Prop :=
  (forall t, sc_start s = Some t -> time_exists t) /\ (forall t, sc_end s = Some t -> time_exists t).

(** trees: every criteria has a service definition, every child some criteria,
    and no criteria more than [width] children *)
Inductive crit_ok (width : nat) : crit -> Prop :=
| crit_ok_intro rev sc p kids : sched_ok sc -> p2p_ok p -> (length kids <= width)%nat -> Forall (child_ok width) kids ->
    crit_ok width (QC rev sc (Some p) kids)
with child_ok (width : nat) : cinfo -> Prop :=
| child_ok_intro cid gid desc ty crits prov req sts nid rid : crits <> [] -> Forall (crit_ok width) crits ->
    child_ok width (CI cid gid desc ty crits prov req sts nid rid).
(** at the top the criteria may be missing, but the requester is known *)
Definition top_ok (width : nat) (c : cinfo) : Prop :=
  let 'CI _ _ _ _ crits _ req _ _ _ := c in req <> None /\ Forall (crit_ok width) crits.

(** what a peer decodes from the sent text *)
Definition transfer (provider : string) (l : list cinfo) : result (list cinfo) :=
  do! e <- recursive_xml l; recursive_build provider (wire e).
