(** What is claimed about the aggregator (/repo/opennsa/aggregator.py), in terms of
    what one method does whatever else happens meanwhile. *)
From Verif Require Import Base ModelLabel ModelSTP ModelAuthz ModelNRM ModelState ModelLinkVector ModelProvreg ModelAggregator.
Open Scope Z_scope.

(** * Behaviours of one method
    Whenever the method looks at the state it may find anything (in [P]): other
    calls may have changed everything since it last looked.  Waits may be answered
    in any way (in [Q]).  The behaviour is the list of what it does and the answers
    it gets; the outcome is [None] as long as it has not finished. *)
Inductive obs := OAct (a : act) | OAns (w : wait) (x : ans).
Inductive exec {A} (P : st -> Prop) (Q : wait -> ans -> Prop) : prog A -> list obs -> option (A + err) -> Prop :=
| ex_cut p : exec P Q p [] None
| ex_ret a : exec P Q (Ret a) [] (Some (inl a))
| ex_throw e : exec P Q (Throw e) [] (Some (inr e))
| ex_get k s l r : P s -> exec P Q (k s) l r -> exec P Q (Get k) l r
| ex_do a k l r : exec P Q k l r -> exec P Q (Do a k) (OAct a :: l) r
| ex_await w k x l r : answers w x = true -> Q w x -> exec P Q (k x) l r -> exec P Q (Await w k) (OAns w x :: l) r.
Definition any_state (s : st) : Prop := True.
Definition any_answer (w : wait) (x : ans) : Prop := True.
(** the database never reports an error *)
Definition db_ok (w : wait) (x : ans) : Prop := w = WDb -> x = AnsOk.

Definition acts (l : list obs) : list act := flat_map (fun o => match o with OAct a => [a] | OAns _ _ => [] end) l.
(** the calls made on providers, in order *)
Definition downs (l : list obs) : list (nat * header * dbody) :=
  flat_map (fun a => match a with AOut (ODown p h b) => [(p, h, b)] | _ => [] end) (acts l).
Definition ups (l : list obs) : list (string * ubody) :=
  flat_map (fun a => match a with AOut (OUp r b) => [(r, b)] | _ => [] end) (acts l).
(** the provider acknowledgements received, one list per wait *)
Definition acks_in (l : list obs) : list (list ack) :=
  flat_map (fun o => match o with OAns (WAcks _) (AnsAcks a) => [a] | _ => [] end) l.

(** * Policy (C39) *)
Definition against_policy (g : cfg) (locals : list string) (h : header) (q : areq) : Prop :=
  (pol_trace g = true /\ (hd_trace h = None \/ hd_trace h = Some [])) \/
  (pol_user g = true /\ forall a, In a (hd_sas h) -> sa_type a <> "user") \/
  (pol_aggr g = false /\ ~ In (s_network (q_src q)) locals /\ ~ In (s_network (q_dst q)) locals).
Definition extended_trace (g : cfg) (h : header) (cid : string) : list string :=
  match hd_trace h with Some t => t | None => [] end ++ [a_urn g +++ ":" +++ cid].

(** * Path segments (C40) *)
(** [stp] is the far side of port [p] of local network [n] *)
Definition far_side (ports : list (string * list (string * nrm_port))) (n p : string) (s : stp) : Prop :=
  exists ps port, aget n ports = Some ps /\ aget p ps = Some port /\
    p_remote_network port = Some (s_network s) /\ p_remote_port port = Some (s_port s) /\ p_label port = s_label s.
(** every segment starts in one of these networks or in one that a provider is known for *)
Definition served (locals : list string) (reg : provreg) (ls : list link) : Prop :=
  forall a b, In (a, b) ls -> In (s_network a) locals \/ exists p, get_provider (s_network a) reg = Ok p.
(** the segments join up from [a] to [b] over the ports of [route] *)
Definition joins_up (ports : list (string * list (string * nrm_port))) (a b : stp) (route : list (string * string)) (ls : list link) : Prop :=
  List.length ls = S (List.length route) /\
  (forall l, nth_error ls 0 = Some l -> fst l = a) /\
  (forall l, nth_error ls (List.length route) = Some l -> snd l = b) /\
  (forall i n p l m, nth_error route i = Some (n, p) -> nth_error ls i = Some l -> nth_error ls (S i) = Some m ->
     s_network (fst l) = n /\ s_network (snd l) = n /\ s_port (snd l) = p /\ far_side ports n p (fst m)).

(** * Failures of providers (C44) *)
Definition within (a b : string) : Prop := exists u v, b = u +++ a +++ v.
Definition failed_at (l : list ack) (i : nat) : Prop := exists e m, nth_error l i = Some (Nacked e m).
(** what an operation on [cid] may answer, given its providers' answers *)
Definition reports (cid : string) (urns : list string) (l : list ack) (r : string + err) : Prop :=
  ((forall i, ~ failed_at l i) -> r = inl cid) /\
  (forall i e m, nth_error l i = Some (Nacked e m) -> (forall j, failed_at l j -> j = i) -> r = inr (e, m)) /\
  (forall i j, failed_at l i -> failed_at l j -> i <> j ->
     exists text, r = inr (EConnection, text) /\
       forall k u e m, nth_error urns k = Some u -> nth_error l k = Some (Nacked e m) -> within (u +++ ": " +++ m) text).

(** the segments asked for *)
Definition segments (l : list obs) : list link :=
  flat_map (fun d => match snd d with DReserve _ a b _ _ _ => [(a, b)] | _ => [] end) (downs l).
Definition prefix_of {A} (a b : list A) : Prop := exists c, b = a ++ c.

(** * Cleaning up (C45) *)
Definition is_reserve (b : dbody) : Prop := match b with DReserve _ _ _ _ _ _ => True | _ => False end.
(** the segments accepted: the provider asked, and the id it answered with *)
Definition accepted_at (ds : list (nat * header * dbody)) (l : list ack) : list (nat * string) :=
  flat_map (fun da => match snd da with Acked i => [(fst (fst (fst da)), i)] | Nacked _ _ => [] end) (combine ds l).
(** the terminations asked for: the provider, the id *)
Definition terminations (ds : list (nat * header * dbody)) : list (nat * string) :=
  flat_map (fun d => match snd d with DTerminate i => [(fst (fst d), i)] | _ => [] end) ds.

(** * Queries (C38) *)
Definition visible (g : cfg) (h : header) (cids : list string) (c : conn) : Prop :=
  (In (hd_requester h) (a_admins g) \/ cn_requester c = hd_requester h) /\ (cids = [] \/ In (cn_cid c) cids).
Definition describes (g : cfg) (c : conn) (i : cinfo) : Prop :=
  ci_cid i = cn_cid c /\ ci_gid i = cn_gid c /\ ci_src i = cn_src c /\ ci_dst i = cn_dst c /\
  ci_start i = cn_start c /\ ci_end i = cn_end c /\ ci_bw i = cn_bw c /\
  ci_provider i = a_urn g /\ ci_requester i = cn_requester c /\ ci_states i = cn_states c /\ ci_children i = [].

(** * Data plane status (C43) *)
Definition seg_version (x : sub) (v : Z) : Prop := sb_version x = Some v \/ (sb_version x = None /\ v = 0).
Definition conservative (l : list sub) (d : dps) : Prop :=
  let '(active, version, consistent) := d in
  (active = true <-> l <> [] /\ forall x, In x l -> sb_active x = true) /\
  (l <> [] -> exists x, In x l /\ seg_version x version) /\
  (forall x v, In x l -> seg_version x v -> v <= version) /\
  (consistent = true -> l <> [] /\ forall x, In x l -> sb_consistent x = Some true).
Definition agreeing (l : list sub) : Prop := forall x y, In x l -> In y l -> sb_active x = sb_active y.

(** * What follows from what (C42, C44) *)
(** the message sent up is the one the call received is about *)
Definition follows (c : call) (b : ubody) : Prop :=
  match b with
  | UReserveConfirmed _ _ _ _ _ _ _ => exists h i x y, c = CReserveConfirmed h i x y
  | UReserveFailed _ e => exists h, c = CReserveFailed h e
  | UCommitConfirmed _ => exists h i, c = CCommitConfirmed h i
  | UAbortConfirmed _ => exists h i, c = CAbortConfirmed h i
  | UProvisionConfirmed _ => exists h i, c = CProvisionConfirmed h i
  | UReleaseConfirmed _ => exists h i, c = CReleaseConfirmed h i
  | UTerminateConfirmed _ => exists h i, c = CTerminateConfirmed h i
  | UReserveTimeout _ n oc on => exists h i, c = CReserveTimeout h i n oc on
  | UDataPlane _ _ => exists h i d, c = CDataPlane h i d
  | UErrorEvent _ n ev => exists h i, c = CErrorEvent h i n ev
  | UError a b t => exists h, c = CError h a b t
  | UQuerySummary _ => exists h a b, c = CQuerySummary h a b
  | UQueryRecursive _ _ => exists h r, c = CQueryRecursiveConfirmed h r
  end.
(** what the providers are asked for is what was asked for; segments of a
    reservation that fails are terminated *)
Definition handed_down (c : call) (b : dbody) : Prop :=
  match b with
  | DReserve _ _ _ _ _ _ => exists h q, c = CReserve h q
  | DCommit _ => exists h i, c = CCommit h i
  | DAbort _ => exists h i, c = CAbort h i
  | DProvision _ => exists h i, c = CProvision h i
  | DRelease _ => exists h i, c = CRelease h i
  | DTerminate _ => (exists h i, c = CTerminate h i) \/ exists h q, c = CReserve h q
  | DQuery _ => exists h a b, c = CQueryRecursive h a b
  end.
(** a connection of a port of a local network with itself, where that is not
    allowed (C39) *)
Definition hairpin (g : cfg) (locals : list string) (q : areq) : Prop :=
  pol_hairpin g = false /\ In (s_network (q_src q)) locals /\ s_network (q_src q) = s_network (q_dst q) /\ s_port (q_src q) = s_port (q_dst q).

(** What is told of several agents that failed: one line each, in the order in which they
    were asked. *)
Inductive failures_told : list string -> list ack -> list string -> Prop :=
| told_nobody : failures_told [] [] []
| told_not u us x l ls : failures_told us l ls -> failures_told (u :: us) (Acked x :: l) ls
| told_one u us e m l ls : failures_told us l ls -> failures_told (u :: us) (Nacked e m :: l) ((u +++ ": " +++ m) :: ls).
