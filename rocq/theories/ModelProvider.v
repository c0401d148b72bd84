(** Model of the reply book-keeping of the provider side,
    /repo/opennsa/protocols/nsi2/provider.py:12-268. *)
From Verif Require Import Base.

(** the parts of an NSI header used here, protocols/nsi2/helper.py NSIHeader; nsa.py:29-39 *)
Record header := mkH { reply_to : option string; requester_nsa : string; provider_nsa : string; correlation_id : string }.

(** the kinds of request that are answered by a confirmation; provider.py:45-187 *)
Inductive rkind := KReserve | KCommit | KAbort | KProvision | KRelease | KTerminate.
(** the confirmations (and the one failure); provider.py:60-187 *)
Inductive ckind := ReserveConfirmed | ReserveFailed | CommitConfirmed | AbortConfirmed | ProvisionConfirmed | ReleaseConfirmed | TerminateConfirmed.

(** provider.py:12-19; [RESERVE_ABORT_RESPONSE] has the value of [RESERVE_COMMIT_RESPONSE] *)
Definition RESERVE_RESPONSE : string := "reserve_response".
(** provider.py:13 *)
Definition RESERVE_COMMIT_RESPONSE : string := "reserve_commit_response".
(** provider.py:14 *)
Definition RESERVE_ABORT_RESPONSE : string := "reserve_commit_response".
(** provider.py:15 *)
Definition PROVISION_RESPONSE : string := "provision_response".
(** provider.py:16 *)
Definition RELEASE_RESPONSE : string := "release_response".
(** provider.py:17 *)
Definition TERMINATE_RESPONSE : string := "terminate_response".
(** provider.py:19 *)
Definition QUERY_SUMMARY_RESPONSE : string := "query_summary_response".
(** provider.py:20 *)
Definition QUERY_RECURSIVE_RESPONSE : string := "query_recursive_response".

(** the second half of the key a request is stored under, provider.py:52, 85, 104, 123, 142, 161 *)
Definition store_key (k : rkind) : string :=
  match k with
  | KReserve => RESERVE_RESPONSE
  | KCommit => RESERVE_COMMIT_RESPONSE
  | KAbort => RESERVE_ABORT_RESPONSE
  | KProvision => PROVISION_RESPONSE
  | KRelease => RELEASE_RESPONSE
  | KTerminate => TERMINATE_RESPONSE
  end.
(** the one a confirmation is looked up under, provider.py:62, 73, 92, 111, 130, 149, 168 *)
Definition lookup_key (c : ckind) : string :=
  match c with
  | ReserveConfirmed | ReserveFailed => RESERVE_RESPONSE
  | CommitConfirmed => RESERVE_COMMIT_RESPONSE
  | AbortConfirmed => RESERVE_ABORT_RESPONSE
  | ProvisionConfirmed => PROVISION_RESPONSE
  | ReleaseConfirmed => RELEASE_RESPONSE
  | TerminateConfirmed => TERMINATE_RESPONSE
  end.

(** provider.py:42 [self.notifications]: headers of requests, or the deferred
    (numbered) of a synchronous query *)
Inductive entry := NHeader (h : header) | NDeferred (n : nat).
Notation pst := (list ((string * string) * entry)).

(** the queries that are handed on; provider.py:180-187, 218-225 *)
Inductive qkind := QSummary | QRecursive.
(** the notifications; provider.py:239-268 *)
Inductive nkind := NTimeout | NDataPlane | NErrorEvent.
(** the inputs.  [ReserveAck] is the firing of the deferred that
    service_provider.reserve returned for the request with this header; provider.py:45-268 *)
Inductive event :=
| RecvReserve (h : header) (args : string)          (* provider.py:45-57; [args] stands for the other arguments *)
| ReserveAck (h : header) (cid : string)            (* provider.py:50-53 *)
| Recv (k : rkind) (h : header) (cid : string)      (* 82-86, 101-105, 120-124, 139-143, 158-162; not for [KReserve] *)
| Confirm (c : ckind) (cid : string)                (* 60-79, 89-98, 108-117, 127-136, 146-155, 165-176 *)
| QuerySync (h : header) (ids : string) (n : nat)  (* 190-202; [n] numbers the deferred returned *)
| QueryConfirmed (h : header) (res : string)        (* 205-215 *)
| Query (q : qkind) (h : header) (ids : string)     (* 180-187, 218-225; [ids] stands for both lists of ids *)
| RecursiveConfirmed (h : header) (res : string)    (* 228-234 *)
| Notify (n : nkind) (h : header) (data : string).  (* 239-268; [data] stands for the values of the notification *)

(** the calls on the service provider below, with the caller's header;
    provider.py:55, 86, 105, 124, 143, 162, 187, 201, 225 *)
Inductive fcall :=
| FReserve (h : header) (args : string)
| FConn (k : rkind) (h : header) (cid : string)
| FQuery (q : qkind) (h : header) (ids : string).
(** the effects: the call on the service provider below, the message sent by the
    provider client (with the connection it is about), a deferred fired, an
    exception; provider.py:45-268 *)
Inductive output :=
| Forwarded (c : fcall)
| Sent (c : ckind) (to : option string) (requester provider correlation : string) (cid : string)
| SentQuery (to : option string) (requester provider correlation : string) (res : string)
| SentRecursive (to : option string) (requester provider correlation : string) (res : string)
| SentNote (n : nkind) (to : option string) (requester provider correlation : string) (data : string)
| SyncFired (n : nat) (res : string)
| Raised (e : exn).

(** [if nsi_header.reply_to]: neither None nor empty; provider.py:51, 84, 103, 122, 141, 160 *)
Definition has_reply (h : header) : bool := match reply_to h with Some r => negb (eqb r "") | None => false end.

(** The provider client's answer is a deferred whose failure is only logged
    (provider.py:25-29), so it has no effect here.  For reserveConfirmed and
    reserveFailed the stored header itself is handed on. *)
Definition step (s : pst) (ev : event) : pst * list output :=
  match ev with
  | RecvReserve h args => (s, [Forwarded (FReserve h args)])
  | ReserveAck h cid =>
      (if has_reply h then aset (cid, RESERVE_RESPONSE) (NHeader h) s else s, [])
  | Recv k h cid =>
      (if has_reply h then aset (cid, store_key k) (NHeader h) s else s, [Forwarded (FConn k h cid)])
  | Confirm c cid =>
      match aget (cid, lookup_key c) s with
      | Some (NHeader h) =>
          (adel (cid, lookup_key c) s, [Sent c (reply_to h) (requester_nsa h) (provider_nsa h) (correlation_id h) cid])
      | Some (NDeferred n) => (adel (cid, lookup_key c) s, [Raised EAttribute])  (* a deferred has no reply_to *)
      | None => (s, [])
      end
  | QuerySync h ids n =>
      if negb (has_reply h) then (s, [Raised EValue])
      else if eqb (correlation_id h) "" then (s, [Raised EValue])
      else (aset (correlation_id h, QUERY_SUMMARY_RESPONSE) (NDeferred n) s, [Forwarded (FQuery QSummary h ids)])
  | QueryConfirmed h res =>
      match reply_to h with
      | None => (s, [])
      | Some _ =>
          match aget (correlation_id h, QUERY_SUMMARY_RESPONSE) s with
          | Some (NDeferred n) => (adel (correlation_id h, QUERY_SUMMARY_RESPONSE) s, [SyncFired n res])
          | Some (NHeader _) => (adel (correlation_id h, QUERY_SUMMARY_RESPONSE) s, [Raised EAttribute])
          | None => (s, [SentQuery (reply_to h) (requester_nsa h) (provider_nsa h) (correlation_id h) res])
          end
      end
  | Query q h ids =>
      if negb (has_reply h) then (s, [Raised EValue])
      else if eqb (correlation_id h) "" then (s, [Raised EValue])
      else (s, [Forwarded (FQuery q h ids)])
  | RecursiveConfirmed h res =>
      match aget (correlation_id h, QUERY_RECURSIVE_RESPONSE) s with
      | Some (NDeferred n) => (adel (correlation_id h, QUERY_RECURSIVE_RESPONSE) s, [SyncFired n res])
      | Some (NHeader _) => (adel (correlation_id h, QUERY_RECURSIVE_RESPONSE) s, [Raised EAttribute])
      | None => (s, [SentRecursive (reply_to h) (requester_nsa h) (provider_nsa h) (correlation_id h) res])
      end
  | Notify n h data =>
      let send := [SentNote n (reply_to h) (requester_nsa h) (provider_nsa h) (correlation_id h) data] in
      match n, reply_to h with
      | NErrorEvent, _ => (s, send)      (* provider.py:264-268 does not look at the reply address *)
      | _, None => (s, [])
      | _, Some _ => (s, send)
      end
  end.

(** provider.py:38-42 *)
Definition init : pst := [].
(** provider.py:45-268, the state after a sequence of events *)
Definition final (s : pst) (evs : list event) : pst := fold_left (fun s ev => fst (step s ev)) evs s.
(** all outputs of a sequence of events, in order; provider.py:45-268 *)
Fixpoint outputs (s : pst) (evs : list event) : list output :=
  match evs with
  | [] => []
  | ev :: r => snd (step s ev) ++ outputs (fst (step s ev)) r
  end.
