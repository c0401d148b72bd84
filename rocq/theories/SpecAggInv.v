(** What is claimed about runs of the aggregator (C41, C42, C46, C91). *)
From Verif Require Import Base ModelLabel ModelSTP ModelAuthz ModelNRM ModelState ModelLinkVector ModelProvreg ModelAggregator SpecAggregator.

Definition cnt {A} (f : A -> bool) (l : list A) : nat := List.length (filter f l).

(** * Messages sent upwards *)
Definition says (f : ubody -> bool) (o : output) : bool := match o with OUp _ b => f b | _ => false end.
Definition m_conf (cid : string) (b : ubody) : bool := match b with UReserveConfirmed c _ _ _ _ _ _ => eqb c cid | _ => false end.
Definition m_fail (cid : string) (b : ubody) : bool := match b with UReserveFailed c _ => eqb c cid | _ => false end.
Definition m_prov (cid : string) (b : ubody) : bool := match b with UProvisionConfirmed c => eqb c cid | _ => false end.
Definition m_rel (cid : string) (b : ubody) : bool := match b with UReleaseConfirmed c => eqb c cid | _ => false end.
Definition m_2pc (cid : string) (b : ubody) : bool := match b with UCommitConfirmed c | UAbortConfirmed c => eqb c cid | _ => false end.
Definition m_term (cid : string) (b : ubody) : bool := match b with UTerminateConfirmed c => eqb c cid | _ => false end.
Definition m_query (corr : nat) (b : ubody) : bool := match b with UQueryRecursive c _ => eqb c corr | _ => false end.
Definition sent (f : ubody -> bool) (m : mach) : nat := cnt (says f) (outs (m_st m)).

(** * Requests received *)
Definition q_prov (cid : string) (c : call) : bool := match c with CProvision _ i => eqb i cid | _ => false end.
Definition q_rel (cid : string) (c : call) : bool := match c with CRelease _ i => eqb i cid | _ => false end.
Definition q_2pc (cid : string) (c : call) : bool := match c with CCommit _ i | CAbort _ i => eqb i cid | _ => false end.
Definition q_query (corr : nat) (c : call) : bool := match c with CQueryRecursive h _ _ => eqb (hd_corr h) corr | _ => false end.
Definition received (f : call -> bool) (m : mach) : nat := cnt f (m_log m).

(** * Segments *)
(** a segment of connection [cid] was asked for, with this correlation id, of this
    agent: the trace it was sent with ends with this agent's entry (C39) *)
Definition seg (urn : string) (os : list output) (corr : nat) (prov cid : string) : Prop :=
  exists p hd gid a b x e bw t, In (ODown p hd (DReserve gid a b x e bw)) os /\
    hd_corr hd = corr /\ hd_provider hd = prov /\ hd_trace hd = Some (t ++ [urn +++ ":" +++ cid]).
(** that agent confirmed it *)
Definition confirmed_by (log : list call) (corr : nat) (prov : string) : Prop :=
  exists h cid a b, In (CReserveConfirmed h cid a b) log /\ hd_corr h = corr /\ hd_provider h = prov.

(** the reservation with correlation id [k] was asked of agent [u] *)
Definition asked_of (os : list output) (k : nat) (u : string) : Prop :=
  exists p hd gid a b x y z, In (ODown p hd (DReserve gid a b x y z)) os /\ hd_corr hd = k /\ hd_provider hd = u.
(** an answer to a reservation *)
Inductive reply_of (h : header) : call -> Prop :=
| RO_conf cid a b : reply_of h (CReserveConfirmed h cid a b)
| RO_fail e : reply_of h (CReserveFailed h e).

(** * What a step does *)
Fixpoint steps {A} (prompt : bool) (p : prog A) (s : st) : list (st * act) :=
  match p with
  | Ret _ | Throw _ => []
  | Get k => steps prompt (k s) s
  | Do a k => (s, a) :: steps prompt k (do_act a s)
  | Await w k =>
      match w, prompt with
      | WDb, true => steps prompt (k AnsOk) s
      | _, _ => []
      end
  end.
(** the acts done at event [e], each with the state it is done in *)
Definition step_acts (g : cfg) (prompt : bool) (m : mach) (e : event) : list (st * act) :=
  match e with
  | EvCall c => steps prompt (call_prog g c) (m_st m)
  | EvAnswer i a => match aget i (m_tasks m) with Some (w, k) => if answers w a then steps prompt (k a) (m_st m) else [] | None => [] end
  | EvTopology _ _ | EvRestart _ _ => []
  end.
(** the process is not started again *)
Definition no_restart (l : list event) : Prop := forall reg rv, ~ In (EvRestart reg rv) l.

(** no other stored segment has the same id *)
Definition own_id (y : sub) (s : st) : Prop := forall y', In y' (map snd (t_subs s)) -> sb_cid y' = sb_cid y -> sb_key y' = sb_key y.
(** every stored segment of the connection (with an id of its own) is known to be [ok] *)
Definition all_segments (ok : sub -> Prop) (cid : string) (s : st) : Prop :=
  exists k c, aget k (t_conns s) = Some c /\ cn_cid c = cid /\
    forall y, In y (subs_of k s) -> own_id y s ->
      exists o z, aget (sb_cid y) (c_subs s) = Some o /\ aget o (h_subs s) = Some z /\ sb_key z = sb_key y /\ sb_cid z = sb_cid y /\ ok z.
(** no segment of the same connection was stored later *)
Definition newest (y : sub) (s : st) : Prop := forall y', In y' (subs_of (sb_conn y) s) -> (sb_key y' <= sb_key y)%nat.
(** the end points told are those the agents confirmed: the source label that of the first segment; the destination label
    that of the last one, if it was the last to be stored *)
Definition ends (log : list call) (a b : stp) (cid : string) (s : st) : Prop :=
  exists k c, aget k (t_conns s) = Some c /\ cn_cid c = cid /\
    forall y, In y (subs_of k s) ->
      (exists h, In (CReserveConfirmed h (sb_cid y) (sb_src y) (sb_dst y)) log /\ hd_provider h = sb_provider y) /\
      (sb_order y = 0%nat -> s_label a = s_label (sb_src y)) /\
      (newest y s -> S (sb_order y) = List.length (subs_of k s) -> s_label b = s_label (sb_dst y)).
(** what a confirmation sent upwards says about the segments at that moment *)
Definition honest (log : list call) (s : st) (a : act) : Prop :=
  match a with
  | AOut (OUp _ (UReserveConfirmed cid _ x y _ _ _)) => all_segments (fun z => sb_r z = RHeld) cid s /\ ends log x y cid s
  | AOut (OUp _ (UCommitConfirmed cid)) | AOut (OUp _ (UAbortConfirmed cid)) => all_segments (fun z => sb_r z = RStart) cid s
  | AOut (OUp _ (UProvisionConfirmed cid)) => all_segments (fun z => sb_p z = PProvisioned /\ exists h, In (CProvisionConfirmed h (sb_cid z)) log) cid s
  | AOut (OUp _ (UReleaseConfirmed cid)) => all_segments (fun z => sb_p z = PReleased) cid s
  | AOut (OUp _ (UTerminateConfirmed cid)) => all_segments (fun z => sb_l z = LTerminated /\ exists h, In (CTerminateConfirmed h (sb_cid z)) log) cid s
  | AOut (OUp _ (UDataPlane cid d)) => exists zs, d = notify_status zs /\ all_segments (fun z => In z zs) cid s
  | _ => True
  end.
(** a message about a connection goes to the agent that reserved it *)
Definition about (b : ubody) : option string :=
  match b with
  | UReserveConfirmed cid _ _ _ _ _ _ | UReserveFailed cid _ | UCommitConfirmed cid | UAbortConfirmed cid | UProvisionConfirmed cid
  | UReleaseConfirmed cid | UTerminateConfirmed cid | UReserveTimeout cid _ _ _ | UDataPlane cid _ | UErrorEvent cid _ _ => Some cid
  | UQuerySummary _ | UQueryRecursive _ _ | UError _ _ _ => None
  end.
Definition addressed (s : st) (a : act) : Prop :=
  match a with
  | AOut (OUp r b) => forall cid, about b = Some cid -> exists k c, aget k (t_conns s) = Some c /\ cn_cid c = cid /\ cn_requester c = r
  | _ => True
  end.

(** [ls] is a path for the request *)
Definition path_of (g : cfg) (q : areq) (ls : list link) : Prop := exists route, joins_up (a_ports g) (q_src q) (q_dst q) route ls.
(** the confirmation repeats the request *)
Definition repeats (q : areq) (b : ubody) : Prop :=
  match b with
  | UReserveConfirmed _ gid u v x e bw =>
      gid = q_gid q /\ s_network u = s_network (q_src q) /\ s_port u = s_port (q_src q) /\ s_network v = s_network (q_dst q) /\ s_port v = s_port (q_dst q) /\
      x = q_start q /\ e = q_end q /\ bw = q_bw q
  | _ => True
  end.

(** the connection was made for the request *)
Definition made_for (c : conn) (h : header) (q : areq) : Prop :=
  cn_gid c = q_gid q /\ cn_requester c = hd_requester h /\ cn_start c = q_start q /\ cn_end c = q_end q /\ cn_bw c = q_bw q /\
  s_network (cn_src c) = s_network (q_src q) /\ s_port (cn_src c) = s_port (q_src q) /\ s_network (cn_dst c) = s_network (q_dst q) /\ s_port (cn_dst c) = s_port (q_dst q).
(** the labels told, [a] and [b], are those confirmed: for the first segment, which starts at the source asked for,
    and for the last segment, which ends at the destination, if it was the last to be stored *)
Definition told_ends (g : cfg) (log : list call) (s : st) (a b : stp) (cid : string) : Prop :=
  exists k c, aget k (t_conns s) = Some c /\ cn_cid c = cid /\
    forall y, In y (subs_of k s) -> exists hr q ls p hd gid u v x e bw h,
      In (CReserve hr q) log /\ made_for c hr q /\ path_of g q ls /\ nth_error ls (sb_order y) = Some (u, v) /\
      In (ODown p hd (DReserve gid u v x e bw)) (outs s) /\ In (CReserveConfirmed h (sb_cid y) (sb_src y) (sb_dst y)) log /\
      hd_corr h = hd_corr hd /\ hd_provider h = hd_provider hd /\
      (sb_order y = 0%nat -> u = q_src q /\ s_label a = s_label (sb_src y)) /\
      (S (sb_order y) = List.length ls -> v = q_dst q /\ (List.length (subs_of k s) = List.length ls -> newest y s -> s_label b = s_label (sb_dst y))).

(** * Recursive queries (C46) *)
(** the correlation ids of the queries sent *)
Definition query_corrs (os : list output) : list nat :=
  flat_map (fun o => match o with ODown _ h (DQuery _) => [hd_corr h] | _ => [] end) os.
(** [x] is the first result of an answer to query [k] *)
Definition answered_with (log : list call) (k : nat) (x : cinfo) : Prop :=
  exists h r, In (CQueryRecursiveConfirmed h (x :: r)) log /\ hd_corr h = k.
