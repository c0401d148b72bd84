(** What a reply may answer. *)
From Verif Require Import Base ModelProvider.

(** the kind of request a confirmation is the answer to *)
Definition answers_kind (c : ckind) : rkind :=
  match c with
  | ReserveConfirmed | ReserveFailed => KReserve
  | CommitConfirmed => KCommit
  | AbortConfirmed => KAbort
  | ProvisionConfirmed => KProvision
  | ReleaseConfirmed => KRelease
  | TerminateConfirmed => KTerminate
  end.

Definition rkind_eqb (a b : rkind) : bool :=
  match a, b with
  | KReserve, KReserve | KCommit, KCommit | KAbort, KAbort | KProvision, KProvision | KRelease, KRelease | KTerminate, KTerminate => true
  | _, _ => false
  end.
(** commit and abort counted together *)
Definition merge_kind (k : rkind) : rkind := match k with KAbort => KCommit | _ => k end.

(** a received request: kind, connection and header; a reservation counts when its
    connection id is known *)
Definition request_of (ev : event) : option (rkind * string * header) :=
  match ev with
  | ReserveAck h cid => Some (KReserve, cid, h)
  | Recv k h cid => Some (k, cid, h)
  | _ => None
  end.

Definition header_eqb (a b : header) : bool :=
  eqb (reply_to a) (reply_to b) && eqb (requester_nsa a) (requester_nsa b) &&
  eqb (provider_nsa a) (provider_nsa b) && eqb (correlation_id a) (correlation_id b).

(** how often a request with header [h] for connection [cid] of a kind in [p] was received *)
Definition requested (p : rkind -> bool) (cid : string) (h : header) (evs : list event) : nat :=
  List.length (filter (fun ev => match request_of ev with
                                 | Some (k, cid', h') => p k && eqb cid' cid && header_eqb h' h
                                 | None => false end) evs).
(** how often a reply with the values of [h] for connection [cid] and to a kind in [p] was sent *)
Definition replied (p : rkind -> bool) (cid : string) (h : header) (outs : list output) : nat :=
  List.length (filter (fun o => match o with
                                | Sent c to rq pr corr cid' => p (answers_kind c) && eqb cid' cid && header_eqb (mkH to rq pr corr) h
                                | _ => false end) outs).

(** an event that is a request for connection [cid] of kind [k], or a confirmation of
    one (commit and abort not told apart) *)
Definition concerns (cid : string) (k : rkind) (ev : event) : Prop :=
  (exists k' h, request_of ev = Some (k', cid, h) /\ merge_kind k' = merge_kind k) \/
  (exists c, ev = Confirm c cid /\ merge_kind (answers_kind c) = merge_kind k).

(** how often the deferred numbered [n] of a synchronous query fired, was made *)
Definition sync_fired (n : nat) (outs : list output) : nat :=
  List.length (filter (fun o => match o with SyncFired m _ => (m =? n)%nat | _ => false end) outs).
Definition sync_made (n : nat) (evs : list event) : nat :=
  List.length (filter (fun ev => match ev with QuerySync _ _ m => (m =? n)%nat | _ => false end) evs).

(** what the service provider should be asked: every request, with the caller's
    header and arguments; a query only with an address to answer to and a
    correlation id *)
Definition answerable (h : header) : bool :=
  match reply_to h with None => false | Some r => negb (String.eqb r "") end && negb (String.eqb (correlation_id h) "").
Definition asks (ev : event) : list fcall :=
  match ev with
  | RecvReserve h args => [FReserve h args]
  | Recv k h cid => [FConn k h cid]
  | Query q h ids => if answerable h then [FQuery q h ids] else []
  | QuerySync h ids _ => if answerable h then [FQuery QSummary h ids] else []
  | _ => []
  end.
Definition asked (outs : list output) : list fcall := flat_map (fun o => match o with Forwarded c => [c] | _ => [] end) outs.

(** what should be sent besides confirmations: notifications and results of
    recursive queries, to the reply address of their header *)
Definition notes (addressless : bool) (ev : event) : list output :=
  match ev with
  | Notify n h data =>
      if (match reply_to h with None => addressless | Some _ => true end)
      then [SentNote n (reply_to h) (requester_nsa h) (provider_nsa h) (correlation_id h) data] else []
  | RecursiveConfirmed h res => [SentRecursive (reply_to h) (requester_nsa h) (provider_nsa h) (correlation_id h) res]
  | _ => []
  end.
Definition noted (outs : list output) : list output :=
  filter (fun o => match o with SentNote _ _ _ _ _ _ | SentRecursive _ _ _ _ _ => true | _ => false end) outs.
Definition is_error_event (ev : event) : bool := match ev with Notify NErrorEvent _ _ => true | _ => false end.

(** the answers to queries: a result goes to the deferred of a synchronous query
    waiting under its correlation id, otherwise to the reply address *)
Definition sync_waits (evs : list event) (corr : string) : option nat :=
  fold_left (fun w ev => match ev with
    | QuerySync h _ n => if answerable h && String.eqb (correlation_id h) corr then Some n else w
    | QueryConfirmed h _ => if (match reply_to h with None => false | _ => true end) && String.eqb (correlation_id h) corr then None else w
    | _ => w end) evs None.
