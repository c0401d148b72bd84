(** Model of reading over REST: /repo/opennsa/protocols/rest/resource.py:79-117
    ([conn2dict]), 136-157, 289-311 and 326-359 (the GET methods).

    A body is given as the decoded JSON value; [json.dumps] is not modelled. *)
From Verif Require Import Base ModelAuthz ModelLabel ModelSTP ModelTime ModelRest.
Open Scope Z_scope.

(** A row of service_connections, as far as it is shown; resource.py:90-99.  All
    times are without zone, see datafiles/schema.sql:24-50. *)
Record shown_conn := mkShown {
  sc_id : string; sc_start : option dt; sc_end : option dt; sc_source : stp; sc_dest : stp;
  sc_bandwidth : Z; sc_reserved : dt; sc_rstate : string; sc_pstate : string; sc_lstate : string }.
(** A row of sub_connections, as far as it is looked at; resource.py:109-111 *)
Record shown_sub := mkShownSub { sb_active : bool; sb_version : option Z; sb_consistent : option bool }.

(** The inner function [label]; resource.py:82-86 *)
Definition rest_label (l : option label) : string :=
  match l with None => "" | Some l => "?" +++ ltype l +++ "=" +++ label_value l end.
(** ['%s:%s%s']; resource.py:93-94 *)
Definition rest_stp (s : stp) : string := s_network s +++ ":" +++ s_port s +++ rest_label (s_label s).
(** A time that may be missing; resource.py:91-92 *)
Definition rest_time (t : option dt) : result json :=
  match t with None => Ok JNull | Some t => do! s <- createXMLTime false t; Ok (JStr s) end.

(** [max] of a list that is not empty: numbers and [None] cannot be compared;
    resource.py:110 *)
Fixpoint max_from (m : option Z) (l : list (option Z)) : result (option Z) :=
  match l with
  | [] => Ok m
  | x :: r => match m, x with Some a, Some b => max_from (Some (Z.max a b)) r | _, _ => Err EType end
  end.
(** [max([...]) or 0]; resource.py:110 *)
Definition max_version (l : list (option Z)) : result Z :=
  match l with
  | [] => Err EValue
  | x :: r => do! m <- max_from x r; Ok (match m with Some a => a | None => 0 end)
  end.
(** resource.py:105-112 *)
Definition rest_status (subs : list shown_sub) : result (bool * Z * bool) :=
  match subs with
  | [] => Ok (false, 0, false)
  | _ =>
      do! v <- max_version (map sb_version subs);
      Ok (forallb sb_active subs, v, forallb (fun s => match sb_consistent s with Some b => b | None => false end) subs)
  end.

(** [conn2dict]; resource.py:79-117 *)
Definition conn2dict (c : shown_conn) (subs : list shown_sub) : result json :=
  do! st <- rest_time (sc_start c);
  do! en <- rest_time (sc_end c);
  do! cr <- createXMLTime false (sc_reserved c);
  do! status <- rest_status subs;
  Ok (JObj [("connection_id", JStr (sc_id c)); ("start_time", st); ("end_time", en);
            ("source", JStr (rest_stp (sc_source c))); ("destination", JStr (rest_stp (sc_dest c)));
            ("capacity", JInt (sc_bandwidth c)); ("created", JStr cr);
            ("reservation_state", JStr (sc_rstate c)); ("provision_state", JStr (sc_pstate c)); ("lifecycle_state", JStr (sc_lstate c));
            ("data_plane_active", JBool (fst (fst status)))]).

(** How a request ends: at once with a text (which twisted.web replaces by an
    error page, see [delivered]), with a JSON body, with a text written later, or
    with an exception.  [Silent]: the handler has failed after [NOT_DONE_YET], and
    nothing is ever written; resource.py:139-157, 296-311, 333-359 *)
Inductive got := GReturned (code : Z) (body : pytext) | GJson (code : Z) (body : json) | GText (code : Z) | GRaised (e : exn) | Silent.

(** [P2PBaseResource.render_GET]; resource.py:136-157.  The request is not looked
    at.  [rows]: what the database gives, each connection with its segments; an
    exception in [gotConnections] is not handled by [addCallbacks]. *)
Definition list_get (allowed : option (list pytext)) (rq : http_request) (rows : result (list (shown_conn * list shown_sub))) : got :=
  match rows with
  | Err e => GText (error_code e)
  | Ok rows => match mapM (fun r => conn2dict (fst r) (snd r)) rows with
               | Ok l => GJson 200 (JList l)
               | Err _ => Silent
               end
  end.

(** [P2PConnectionResource.render_GET]; resource.py:289-311.  [found]: what the
    provider's [getConnection] gives, with the segments. *)
Definition conn_get (allowed : option (list pytext)) (rq : http_request) (found : result (shown_conn * list shown_sub)) : got :=
  match check_authz allowed rq with
  | Err e => GRaised e
  | Ok (false, _) => GReturned 401 (PStr "unauthorized")
  | Ok (true, _) =>
      match found with
      | Err _ => GText 404
      | Ok (c, subs) => match conn2dict c subs with Ok j => GJson 200 j | Err _ => Silent end
      end
  end.

(** [Request.write] of twisted.web takes bytes only and raises TypeError for text.
    Here in a callback that nothing handles; resource.py:343-344, 353-354.
    What is written is left out, only the code is kept. *)
Definition written (code : Z) (payload : pytext) : got :=
  match payload with PBytes _ => GText code | PStr _ => Silent end.

(** [P2PStatusResource.render_GET]; resource.py:326-359.  The payload of
    [writeStatusPayload] (336-344) is text, and [state.subscribe] (347) comes after
    the write.  The states stand for the JSON object. *)
Definition status_get (allowed : option (list pytext)) (rq : http_request) (found : result (shown_conn * list shown_sub)) : got :=
  match check_authz allowed rq with
  | Err e => GRaised e
  | Ok (false, _) => GReturned 401 (PStr "unauthorized")
  | Ok (true, _) =>
      match found with
      | Ok (c, _) => written 200 (PStr (sc_rstate c +++ sc_pstate c +++ sc_lstate c))
      | Err _ => written 404 (PStr "No connection with id")
      end
  end.
