(** How a call through the protocol should end. *)
From Verif Require Import Base ModelXml ModelAuthz ModelHeader ModelErrors SpecErrors ModelTime ModelQueryHelper ModelMessages SpecMessages ModelSoapCall.
Open Scope Z_scope.

(** requests that the protocol can carry *)
Definition carried (q : request) : Prop :=
  match q with
  | QReserve a => request_ok a /\ no_route a
  | QConn method _ => In method simple_requests
  | QQuery method cids gids => In method queries /\ (forall i, In i (ids cids ++ ids gids) -> i <> "")
  end.
(** the call the provider should get, given the header that arrived *)
Definition delivered_call (d : dec_header) (q : request) : pcall :=
  match q with
  | QReserve a => PReserve d (ra_cid a) (ra_gid a) (ra_desc a) (Some (py_str (ra_rev a))) (ra_sched a) (service_seen (ra_sd a))
  | QConn method cid => PConn method d (Some cid)
  | QQuery method cids gids => PQuery method d (map Some (ids cids)) (map Some (ids gids))
  end.
(** the values that make sense as an answer, and what the caller should get:
    the id for a reservation, the summaries for a synchronous query, nothing
    otherwise *)
Definition value_seen (provider : string) (q : request) (v w : pvalue) : Prop :=
  match q with
  | QReserve _ => exists c, v = VId (Some c) /\ w = VId (Some c)
  | QQuery method _ _ =>
      if eqb method "querySummarySync" then exists l, v = VList l /\ Forall summary_ok l /\ w = VList (map (summary_seen provider) l)
      else w = VNone
  | QConn _ _ => w = VNone
  end.
(** the connection a request is about *)
Definition about (q : request) : option string := match q with QConn _ cid => Some cid | _ => None end.
(** the error the caller should see when the provider [p] fails with [f] while
    handling a request about connection [conn] *)
Definition failure_seen (p : string) (conn : option string) (f : failing) (d : decoded_error) : Prop :=
  match f with
  | FNsi e =>
      subclass (er_class e) (de_class d) /\ de_text d = Some (er_text e) /\
      (forall n, er_nsa e = Some n -> n <> "" -> de_nsa d = Some n) /\ (er_nsa e = None -> de_nsa d = Some p) /\
      (forall c, er_conn e = Some c -> c <> "" -> de_conn d = Some c) /\ (er_conn e = None -> de_conn d = conn) /\
      vars_of (de_vars d) = map (fun kv => (Some (fst kv), Some (snd kv))) (vars_of (er_vars e))
  | FOther t => de_class d = InternalServerError /\ de_text d = Some t /\ de_nsa d = Some p /\ de_conn d = conn /\ vars_of (de_vars d) = []
  end.
Definition plain_failure (f : failing) : Prop := match f with FNsi e => er_class e <> NSIError | FOther _ => True end.
