(** What reading over REST should give. *)
From Verif Require Import Base ModelAuthz ModelLabel ModelSTP ModelTime ModelRest ModelRestGet SpecLabel SpecSTP SpecTime.
Open Scope Z_scope.

(** A termination point that can be written down. *)
Definition plain_stp (s : stp) : Prop :=
  contains URN_NETWORK (s_network s +++ ":" +++ s_port s) = false /\
  shas "?" (s_network s) = false /\ shas "?" (s_port s) = false /\ shas ":" (s_port s) = false /\
  (forall l, s_label s = Some l -> (ltype l = "vlan" \/ ltype l = "mpls") /\ wf_values (lvalues l)).
(** A row the aggregator can have stored. *)
Definition plain_conn (c : shown_conn) : Prop :=
  plain_stp (sc_source c) /\ plain_stp (sc_dest c) /\ time_exists (sc_reserved c) /\
  (forall t, sc_start c = Some t -> time_exists t) /\ (forall t, sc_end c = Some t -> time_exists t).
(** No two segments without a version of their data plane, nor one beside others. *)
Definition versions (subs : list shown_sub) : Prop :=
  (List.length subs <= 1)%nat \/ forall s, In s subs -> sb_version s <> None.

(** A time as it is shown: the same instant, or null. *)
Definition says_time (t : option dt) (j : json) : Prop :=
  match t with None => j = JNull | Some t => exists s, j = JStr s /\ parseXMLTimestamp s = Ok t end.
(** The fields of a connection as it is shown. *)
Definition describes (c : shown_conn) (subs : list shown_sub) (j : json) : Prop :=
  exists f, j = JObj f /\ NoDup (map fst f) /\
    (forall k, In k (map fst f) <-> In k ["connection_id"; "start_time"; "end_time"; "source"; "destination"; "capacity"; "created";
       "reservation_state"; "provision_state"; "lifecycle_state"; "data_plane_active"]) /\
    In ("connection_id", JStr (sc_id c)) f /\
    (exists v, In ("start_time", v) f /\ says_time (sc_start c) v) /\
    (exists v, In ("end_time", v) f /\ says_time (sc_end c) v) /\
    (exists v, In ("created", v) f /\ says_time (Some (sc_reserved c)) v) /\
    (exists s, In ("source", JStr s) f /\ stp_text s (sc_source c)) /\
    (exists s, In ("destination", JStr s) f /\ stp_text s (sc_dest c)) /\
    In ("capacity", JInt (sc_bandwidth c)) f /\
    In ("reservation_state", JStr (sc_rstate c)) f /\ In ("provision_state", JStr (sc_pstate c)) f /\ In ("lifecycle_state", JStr (sc_lstate c)) f /\
    (exists b, In ("data_plane_active", JBool b) f /\ (b = true <-> subs <> [] /\ forall s, In s subs -> sb_active s = true)).

(** The gate admits a request. *)
Definition admits (allowed : option (list pytext)) (rq : http_request) : Prop := exists ri, check_authz allowed rq = Ok (true, ri).
(** A connection is revealed. *)
Definition reveals (g : got) : Prop := exists code j, g = GJson code j.
