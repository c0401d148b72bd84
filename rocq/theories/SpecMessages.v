(** What it means for a message to arrive as it was sent. *)
From Verif Require Import Base ModelXml ModelAuthz ModelHeader ModelErrors SpecErrors ModelLabel SpecLabel ModelSTP SpecSTP
  ModelTime SpecTime ModelQueryHelper SpecQueryHelper ModelMessages.
Open Scope Z_scope.

(** sending the text of a message: the action goes in the HTTP header, the
    envelope is serialised and parsed *)
Definition carry (m : message) : message := (fst m, wire (snd m)).

(** headers without empty values (an empty value cannot be told from a missing one) *)
Definition header_ok (h : nsi_header) : Prop :=
  (forall sa, In sa (h_attrs h) -> sa_value sa <> "") /\ h_corr h <> "" /\ h_trace h <> Some [] /\
  (forall tr c, h_trace h = Some tr -> In c tr -> c <> "").
(** the header arrives: agents, correlation id, trace, for every type the
    attributes of that type; the reply address is the sender's *)
Definition header_arrived (reply_to : string) (h : nsi_header) (d : dec_header) : Prop :=
  d_requester d = Some (h_requester h) /\ d_provider d = Some (h_provider h) /\ d_corr d = Some (h_corr h) /\
  d_reply_to d = Some reply_to /\ d_trace d = option_map (map Some) (h_trace h) /\
  forall t, filter (fun sa => eqb (sa_type sa) t) (d_attrs d) = filter (fun sa => eqb (sa_type sa) t) (h_attrs h).
(** an answer carries the agents and the correlation id, nothing else *)
Definition answer_header (h : nsi_header) : dec_header :=
  mkDH (Some (h_requester h)) (Some (h_provider h)) (Some (h_corr h)) None [] None.

(** requests that can be carried: times that exist, STPs with a faithful text,
    a direction, parameters with a value *)
Definition request_ok (a : reserve_args) : Prop :=
  sched_ok (ra_sched a) /\ p2p_ok (sr_p2p (ra_sd a)) /\ p_dir (sr_p2p (ra_sd a)) <> "" /\
  (forall l kv, sr_params (ra_sd a) = Some l -> In kv l -> snd kv <> "").
Definition no_route (a : reserve_args) : Prop := sr_ero (ra_sd a) = None \/ sr_ero (ra_sd a) = Some [].
(** the service definition a provider should see: a missing symmetry flag means
    false, no parameters are None *)
Definition service_seen (r : service_req) : service_in :=
  mkSI (p_src (sr_p2p r)) (p_dst (sr_p2p r)) (p_cap (sr_p2p r)) (p_dir (sr_p2p r))
       (match p_sym (sr_p2p r) with Some true => true | _ => false end)
       (match sr_params r with
        | None | Some [] => None
        | Some l => Some (map (fun kv => (Some (fst kv), Some (snd kv))) l)
        end).

(** the messages that carry a connection id only *)
Definition simple_requests : list string := ["reserveCommit"; "reserveAbort"; "provision"; "release"; "terminate"].
Definition simple_confirmations : list string :=
  ["reserveCommitConfirmed"; "reserveAbortConfirmed"; "provisionConfirmed"; "releaseConfirmed"; "terminateConfirmed"].
Definition queries : list string := ["querySummary"; "querySummarySync"; "queryRecursive"].
(** no ids given is the same as none *)
Definition ids (o : option (list string)) : list string := match o with Some l => l | None => [] end.

(** the error a requester should see for [e] of provider [p] *)
Definition error_seen (p : string) (e : nsi_error) (d : decoded_error) : Prop :=
  subclass (er_class e) (de_class d) /\ de_text d = Some (er_text e) /\
  (forall n, er_nsa e = Some n -> n <> "" -> de_nsa d = Some n) /\ (er_nsa e = None -> de_nsa d = Some p) /\
  (forall c, er_conn e = Some c -> c <> "" -> de_conn d = Some c) /\ (er_conn e = None -> de_conn d = None) /\
  vars_of (de_vars d) = map (fun kv => (Some (fst kv), Some (snd kv))) (vars_of (er_vars e)).

(** the summary a peer should see: everything but the children *)
Definition summary_crit (c : crit) : crit := let 'QC rev sc sd _ := c in QC rev sc sd [].
Definition summary_seen (provider : string) (c : cinfo) : cinfo :=
  let 'CI cid gid desc _ crits _ req sts nid rid := c in
  CI cid gid desc EVTS_AGOLE (map summary_crit crits) provider req sts nid rid.
Definition summary_ok (c : cinfo) : Prop :=
  let 'CI _ _ _ _ crits _ req _ _ _ := c in
  req <> None /\ Forall (fun k => let 'QC _ sc sd _ := k in sched_ok sc /\ exists p, sd = Some p /\ p2p_ok p) crits.
