(** Model of the discovery poller, /repo/opennsa/discovery/fetcher.py:16-122. *)
From Verif Require Import Base ModelSTP ModelProvreg ModelLinkVector.
Open Scope Z_scope.

(** * Poll intervals *)

(** fetcher.py:16-17, in seconds *)
Definition FETCH_INTERVAL_MIN : Z := 10.
(** fetcher.py:17 *)
Definition FETCH_INTERVAL_MAX : Z := 3600.

(** fetcher.py:38, the interval the polling loop is started with *)
Definition start_interval : Z := FETCH_INTERVAL_MIN / 2.
(** fetcher.py:47-62: the interval after a poll, when its requests have all
    succeeded or failed; it only changes if there are peers (61-62) *)
Definition fetch_documents {P} (peers : list P) (interval : Z) : Z :=
  match peers with [] => interval | _ => Z.min (interval * 2) FETCH_INTERVAL_MAX end.

(** twisted.internet.task.LoopingCall (21.2): when a call has finished, the next
    one is made at the next multiple of the interval since the loop's start
    ([_scheduleFrom]).  Times are whole microseconds since the start; Twisted
    uses floating point seconds; fetcher.py:33, 38 *)
Definition until_next (interval when : Z) : Z := interval * 1000000 - when mod (interval * 1000000).
(** one round of the loop: a poll made at [when] that takes [dur]; the time of
    the next poll and the interval then; fetcher.py:47-62 *)
Definition poll {P} (peers : list P) (when interval dur : Z) : Z * Z :=
  let i := fetch_documents peers interval in
  (when + dur + until_next i (when + dur), i).
(** the times of the polls, for the durations of the polls before them; fetcher.py:33-62 *)
Fixpoint poll_times {P} (peers : list P) (when interval : Z) (durs : list Z) : list Z :=
  when :: match durs with
          | [] => []
          | d :: r => let '(w, i) := poll peers when interval d in poll_times peers w i r
          end.
(** fetcher.py:33-39: the first poll is made at once *)
Definition polls {P} (peers : list P) (durs : list Z) : list Z := poll_times peers 0 start_interval durs.

(** * Documents *)

(** constants.py:16, 20 *)
Definition CS2_SERVICE_TYPE : string := "application/vnd.org.ogf.nsi.cs.v2+soap".
(** constants.py:20 *)
Definition CS2_PROVIDER : string := "application/vnd.ogf.nsi.cs.v2.provider+soap".

(** What discovery.parse (fetcher.py:73, not modelled) yields, the parts used:
    the agent's id, its interfaces (type, href), its network ids, and the
    reachability it advertises (uri, cost) of all its "other" elements in order.
    An absent element is an empty list here. *)
Record document := mkDoc {
  d_id : string;
  d_interface : list (string * string);
  d_networks : list string;
  d_reach : list (string * Z) }.

(** nmlxml.py:123-126 *)
Definition base_name (u : string) : result string :=
  if starts_with URN_NETWORK u then Ok (sdrop (String.length URN_NETWORK) u) else Err EAssertion.
(** [_baseName(x) for x in l if x.startswith(prefix)]; fetcher.py:88 *)
Definition base_names (l : list string) : list string :=
  map (sdrop (String.length URN_NETWORK)) (filter (starts_with URN_NETWORK) l).

(** fetcher.py:77-82 *)
Definition service_url (ifs : list (string * string)) : option string :=
  fold_left (fun u i => if eqb (fst i) CS2_PROVIDER then Some (snd i)
                        else match u with
                             | None => if eqb (fst i) CS2_SERVICE_TYPE then Some (snd i) else None
                             | Some _ => u
                             end) ifs None.

(** fetcher.py:99-107 *)
Definition doc_vectors (d : document) : vdict :=
  let other := fold_left (fun v e => if starts_with URN_NETWORK (fst e)
                                     then aset (sdrop (String.length URN_NETWORK) (fst e)) (snd e + 1) v else v) (d_reach d) [] in
  fold_left (fun v n => aset n 1 v) (base_names (d_networks d)) other.

(** the port table [nrm_ports]: for each local network its ports, with name and
    remote network (setup.py:257, nrm.py:44-57; only these parts are used) *)
Notation port_table := (list (string * list (string * option string))).
(** fetcher.py:111-113, the (network, port) pairs in the order of the loops *)
Definition matching_ports (nets : list string) (pt : port_table) : list (string * string) :=
  flat_map (fun e => map (fun p => (fst e, fst p))
              (filter (fun p => match snd p with Some r => mem r nets | None => false end) (snd e))) pt.

(** fetcher.py:23-33, the registry and the vectors the fetcher was given *)
Record disc := mkDisc { dc_prov : provreg; dc_vec : lvec }.

(** fetcher.py:95-96, stopping at the first exception *)
Fixpoint spawn_all (ag : agent) (nets : list string) (s : provreg) : provreg * option exn :=
  match nets with
  | [] => (s, None)
  | n :: r => match spawn_provider ag n s with
              | (s', Ok _) => spawn_all ag r s'
              | (s', Err e) => (s', Some e)
              end
  end.
(** fetcher.py:110-115 *)
Fixpoint update_all (ports : list (string * string)) (r : nat) (s : lvec) : lvec * option exn :=
  match ports with
  | [] => (s, None)
  | p :: l => match lv_step s (LUpdate (fst p) (snd p) r) with
              | (s', None) => update_all l r s'
              | (s', Some e) => (s', Some e)
              end
  end.

(** fetcher.py:65-122 for a document that could be parsed; the second component
    is the exception that line 118 swallows, if any.  The vectors dictionary is
    one object for all ports (98, 115). *)
Definition got_document (pt : port_table) (d : document) (s : disc) : disc * option exn :=
  match service_url (d_interface d) with
  | None => (s, None)
  | Some url =>
      let nets := base_names (d_networks d) in
      match base_name (d_id d) with
      | Err e => (s, Some e)
      | Ok ident =>
          let ag := mkAgent (URN_NETWORK +++ ident) (Some CS2_SERVICE_TYPE) (strip url) in
          match spawn_all ag nets (dc_prov s) with
          | (p, Some e) => (mkDisc p (dc_vec s), Some e)
          | (p, None) =>
              match doc_vectors d with
              | [] => (mkDisc p (dc_vec s), None)
              | v => let '(v1, _) := lv_step (dc_vec s) (LDict v) in
                     let '(v2, e) := update_all (matching_ports nets pt) (List.length (lv_heap (dc_vec s))) v1 in
                     (mkDisc p v2, e)
              end
          end
      end
  end.
