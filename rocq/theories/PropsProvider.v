(** Properties C27, C28, C67 and C68: replies, requests handed on, notifications. *)
From Verif Require Import Base ModelProvider SpecProvider ProofsProvider.

(** every confirmation sent answers an earlier request for the same connection with
    exactly its reply address, requester, provider and correlation id *)
Theorem C27_answers_request : forall c to rq pr corr cid evs,
  In (Sent c to rq pr corr cid) (outputs init evs) ->
  exists ev k, In ev evs /\ request_of ev = Some (k, cid, mkH to rq pr corr) /\ merge_kind k = merge_kind (answers_kind c).
Proof. exact c27_answers. Qed.
Print Assumptions C27_answers_request.

(** a request is answered at most once: there are never more replies with the values
    of a header than there were requests with it *)
Theorem C27_at_most_once : forall k cid h evs,
  (replied (fun k' => rkind_eqb (merge_kind k') (merge_kind k)) cid h (outputs init evs)
   <= requested (fun k' => rkind_eqb (merge_kind k') (merge_kind k)) cid h evs)%nat.
Proof. exact c27_once. Qed.
Print Assumptions C27_at_most_once.

(** confirmations without a waiting request send nothing: none ever came, or it was
    answered already *)
Theorem C27_never_requested : forall c cid evs,
  (forall ev k h, In ev evs -> request_of ev = Some (k, cid, h) -> merge_kind k <> merge_kind (answers_kind c)) ->
  step (final init evs) (Confirm c cid) = (final init evs, []).
Proof. exact c27_never_requested. Qed.
Print Assumptions C27_never_requested.
Theorem C27_used_up : forall c c' cid evs1 evs2,
  merge_kind (answers_kind c') = merge_kind (answers_kind c) ->
  Forall (fun ev => ~ concerns cid (answers_kind c) ev) evs2 ->
  let s := final init (evs1 ++ Confirm c' cid :: evs2) in
  step s (Confirm c cid) = (s, []).
Proof. exact c27_used_up. Qed.
Print Assumptions C27_used_up.

(** the result of a synchronous query is fired at most once *)
Theorem C27_sync_once : forall n evs, (sync_fired n (outputs init evs) <= sync_made n evs)%nat.
Proof. exact c27_sync. Qed.
Print Assumptions C27_sync_once.

Definition ha := mkH (Some "http://a/") "urn:a" "urn:p" "corr-1".
Definition hb := mkH (Some "http://b/") "urn:b" "urn:p" "corr-2".
Example C27_case :
  outputs init [RecvReserve ha "args"; ReserveAck ha "C1"; Recv KProvision hb "C2"; Confirm ReserveConfirmed "C1"; Confirm ReserveFailed "C1";
                Confirm ProvisionConfirmed "C1"; Confirm ProvisionConfirmed "C2"; QuerySync ha "ids" 0; QueryConfirmed ha "r"; QueryConfirmed ha "r"]
  = [Forwarded (FReserve ha "args"); Forwarded (FConn KProvision hb "C2"); Sent ReserveConfirmed (Some "http://a/") "urn:a" "urn:p" "corr-1" "C1";
     Sent ProvisionConfirmed (Some "http://b/") "urn:b" "urn:p" "corr-2" "C2"; Forwarded (FQuery QSummary ha "ids"); SyncFired 0 "r";
     SentQuery (Some "http://a/") "urn:a" "urn:p" "corr-1" "r"].
Proof. reflexivity. Qed.

(** commit and abort share a key: an abort confirmation takes a commit's header *)
Theorem C28_kind_refuted : ~ (forall k cid h evs,
  (replied (rkind_eqb k) cid h (outputs init evs) <= requested (rkind_eqb k) cid h evs)%nat).
Proof. intros H. specialize (H KAbort "C1" ha [Recv KCommit ha "C1"; Confirm AbortConfirmed "C1"]). cbv in H. lia. Qed.
Print Assumptions C28_kind_refuted.

(** a reservation confirmed before its acknowledgement is not delivered, and the
    request then waits for ever: only a second confirmation would use it *)
Theorem C28_early_confirmation_refuted : exists h args cid, has_reply h = true /\
  outputs init [RecvReserve h args; Confirm ReserveConfirmed cid; ReserveAck h cid] = [Forwarded (FReserve h args)].
Proof. exists ha, "args", "C1". split; reflexivity. Qed.
Print Assumptions C28_early_confirmation_refuted.

(** kinds other than commit and abort are never mixed up; nor are these two on a
    connection that saw only one of them *)
Theorem C28_kind_partial : forall k cid h evs,
  (k = KCommit \/ k = KAbort -> forall ev k' h', In ev evs -> request_of ev = Some (k', cid, h') -> merge_kind k' = KCommit -> k' = k) ->
  (replied (rkind_eqb k) cid h (outputs init evs) <= requested (rkind_eqb k) cid h evs)%nat.
Proof. exact c28_kind. Qed.
Print Assumptions C28_kind_partial.

(** after the acknowledgement (or the request itself, for the others) the confirmation
    is delivered, to the latest request, whatever happens to other connections and kinds *)
Theorem C28_delivered_partial : forall c cid k h ev evs1 evs2,
  request_of ev = Some (k, cid, h) -> has_reply h = true -> merge_kind (answers_kind c) = merge_kind k ->
  Forall (fun ev => ~ concerns cid k ev) evs2 ->
  snd (step (final init (evs1 ++ ev :: evs2)) (Confirm c cid)) = [Sent c (reply_to h) (requester_nsa h) (provider_nsa h) (correlation_id h) cid].
Proof. exact c28_delivered. Qed.
Print Assumptions C28_delivered_partial.

Example C28_case :
  outputs init [ReserveAck ha "C1"; Recv KCommit hb "C2"; Recv KProvision hb "C1"; Confirm ReserveFailed "C1"; Confirm CommitConfirmed "C2"]
  = [Forwarded (FConn KCommit hb "C2"); Forwarded (FConn KProvision hb "C1"); Sent ReserveFailed (Some "http://a/") "urn:a" "urn:p" "corr-1" "C1"; Sent CommitConfirmed (Some "http://b/") "urn:b" "urn:p" "corr-2" "C2"].
Proof. reflexivity. Qed.

(** Whatever happens, the service provider is asked for exactly the requests
    received, in order, each once, with the caller's header and arguments. *)
Theorem C67_handed_on : forall evs, asked (outputs init evs) = flat_map asks evs.
Proof. exact c67_asked. Qed.
Print Assumptions C67_handed_on.
(** A query that could not be answered is refused and changes nothing. *)
Theorem C67_query_refused : forall s ev h,
  (exists q ids, ev = Query q h ids) \/ (exists ids n, ev = QuerySync h ids n) -> answerable h = false ->
  step s ev = (s, [Raised EValue]).
Proof. exact c67_refused. Qed.
Print Assumptions C67_query_refused.
Definition hn := mkH None "urn:n" "urn:p" "corr-3".
Example C67_case :
  asked (outputs init [RecvReserve ha "r"; Query QRecursive hb "C1 C2"; Recv KCommit hn "C1"; Query QSummary hn ""; Confirm CommitConfirmed "C1"; QuerySync ha "" 4])
  = [FReserve ha "r"; FQuery QRecursive hb "C1 C2"; FConn KCommit hn "C1"; FQuery QSummary ha ""] /\
  step init (Query QSummary hn "") = (init, [Raised EValue]).
Proof. split; reflexivity. Qed.

(** Notifications and results of recursive queries go out exactly once, to the
    reply address, requester, provider and correlation id of their header;
    reservation timeouts and data plane changes without a reply address are
    dropped.  Missing from the full statement: error events without one. *)
Theorem C68_notes_partial : forall evs, Forall (fun ev => is_error_event ev = false) evs ->
  noted (outputs init evs) = flat_map (notes false) evs.
Proof.
  intros evs F. rewrite c68_noted. induction F as [|ev r H F IH]; [reflexivity|]. cbn [flat_map]. rewrite H, IH. reflexivity.
Qed.
Print Assumptions C68_notes_partial.
(** Error events are sent even without an address to send them to. *)
Theorem C68_error_event_refuted :
  ~ (forall evs, noted (outputs init evs) = flat_map (notes false) evs) /\
  (forall evs, noted (outputs init evs) = flat_map (fun ev => notes (is_error_event ev) ev) evs).
Proof. split; [|exact c68_noted]. intros H. specialize (H [Notify NErrorEvent hn "e"]). discriminate H. Qed.
Print Assumptions C68_error_event_refuted.
(** The result of a summary query goes to the synchronous query that waits under
    its correlation id, otherwise to the reply address. *)
Theorem C68_summary : forall evs h res r, reply_to h = Some r ->
  snd (step (final init evs) (QueryConfirmed h res)) =
  match sync_waits evs (correlation_id h) with
  | Some n => [SyncFired n res]
  | None => [SentQuery (Some r) (requester_nsa h) (provider_nsa h) (correlation_id h) res]
  end.
Proof. exact c68_summary. Qed.
Print Assumptions C68_summary.
Example C68_case :
  outputs init [Notify NTimeout ha "t"; Notify NDataPlane hn "d"; RecursiveConfirmed hb "r"; Notify NErrorEvent hb "e"]
  = [SentNote NTimeout (Some "http://a/") "urn:a" "urn:p" "corr-1" "t"; SentRecursive (Some "http://b/") "urn:b" "urn:p" "corr-2" "r";
     SentNote NErrorEvent (Some "http://b/") "urn:b" "urn:p" "corr-2" "e"] /\
  sync_waits [QuerySync ha "" 4; QuerySync hb "" 5] "corr-1" = Some 4%nat /\ sync_waits [QuerySync ha "" 4; QueryConfirmed ha "r"] "corr-1" = None.
Proof. repeat split; reflexivity. Qed.
