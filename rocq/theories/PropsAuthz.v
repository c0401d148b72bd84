(** Properties C18, C19, C59: authorization and the HTTP access gates. *)
From Verif Require Import Base ModelAuthz ProofsAuthz.

(** the kinds of rule, spelled out *)
Definition header_kind (k : string) : Prop := k = "nsa" \/ k = "user" \/ k = "group" \/ k = "token".

Theorem C18_granted_iff : forall rules sas ri,
  is_authorized rules sas ri = true <->
  rules = [] \/
  (exists k v, header_kind k /\ In (mkRule k v) rules /\ In (mkSA k v) sas) \/
  (exists v, In (mkRule "hostdn" v) rules /\ cert_host_dn ri = Some (PStr v)).
Proof. exact c18_iff. Qed.
Print Assumptions C18_granted_iff.

Theorem C18_unknown_never_grants : forall rules sas ri,
  rules <> [] -> (forall r, In r rules -> ~ header_kind (r_type r) /\ r_type r <> "hostdn") ->
  is_authorized rules sas ri = false.
Proof. exact c18_unknown. Qed.
Print Assumptions C18_unknown_never_grants.

Theorem C18_monotone : forall rules sas sas' ri, (forall a, In a sas -> In a sas') ->
  is_authorized rules sas ri = true -> is_authorized rules sas' ri = true.
Proof. exact c18_monotone. Qed.
Print Assumptions C18_monotone.

Example C18_ex :
  let rules := [mkRule "user" "alice"; mkRule "hostdn" "h1"; mkRule "weird" "x"] in
  is_authorized rules [mkSA "group" "alice"; mkSA "user" "alice"] (mkRI None) = true /\
  is_authorized rules [mkSA "group" "alice"; mkSA "weird" "x"] (mkRI (Some (PStr "h2"))) = false /\
  is_authorized rules [] (mkRI (Some (PStr "h1"))) = true /\
  is_authorized [] [] (mkRI None) = true.
Proof. repeat split; reflexivity. Qed.

(** what is dispatched with a host list: TLS, a certificate, a listed common
    name, a registered action *)
Theorem C19_dispatch_only_listed : forall hosts actions rq a ri,
  soap_render (Some hosts) actions rq = SDispatch a ri ->
  rq_secure rq = true /\ a = rq_action rq /\ In a actions /\
  exists comps pre cn post, rq_cert rq = Some comps /\ comps = pre ++ ("CN", cn) :: post /\
    (forall x, ~ In ("CN", x) post) /\ In cn hosts /\ cert_host_dn ri = Some (PStr cn).
Proof. exact c19_only. Qed.
Print Assumptions C19_dispatch_only_listed.

Theorem C19_listed_dispatched : forall hosts actions rq pre cn post,
  rq_secure rq = true -> rq_cert rq = Some (pre ++ ("CN", cn) :: post) -> (forall x, ~ In ("CN", x) post) ->
  In cn hosts -> In (rq_action rq) actions ->
  soap_render (Some hosts) actions rq = SDispatch (rq_action rq) (mkRI (Some (PStr cn))).
Proof. exact c19_listed. Qed.
Print Assumptions C19_listed_dispatched.

(** everything else is refused with 401 or 406 and not dispatched, provided the
    certificate names a host at all *)
Theorem C19_others_refused : forall hosts actions rq,
  (forall comps, rq_cert rq = Some comps -> exists cn, In ("CN", cn) comps) ->
  (exists a ri, soap_render (Some hosts) actions rq = SDispatch a ri) \/
  soap_render (Some hosts) actions rq = SStatus 401 \/
  (soap_render (Some hosts) actions rq = SStatus 406 /\ ~ In (rq_action rq) actions).
Proof. exact c19_refused. Qed.
Print Assumptions C19_others_refused.

(** without a list a plain request is only judged by its action *)
Theorem C19_plain_open : forall actions rq, rq_secure rq = false ->
  (In (rq_action rq) actions -> soap_render None actions rq = SDispatch (rq_action rq) (mkRI None)) /\
  (~ In (rq_action rq) actions -> soap_render None actions rq = SStatus 406).
Proof. exact c19_open. Qed.
Print Assumptions C19_plain_open.

(** the strict reading "every other request is answered with 401 or 406" fails:
    a certificate without a common name, and (without a list) a TLS request
    without a certificate, end in AttributeError *)
Theorem C19_always_answered_refuted :
  (exists hosts actions rq, soap_render (Some hosts) actions rq = SRaise EAttribute) /\
  (exists actions rq, rq_cert rq = None /\ In (rq_action rq) actions /\ soap_render None actions rq = SRaise EAttribute).
Proof. exact c19_raise. Qed.
Print Assumptions C19_always_answered_refuted.

Example C19_ex :
  let acts := [Some "reserve"] in
  soap_render (Some ["h1"]) acts (mkReq true (Some [("O", "x"); ("CN", "h1")]) (Some "reserve"))
    = SDispatch (Some "reserve") (mkRI (Some (PStr "h1"))) /\
  soap_render (Some ["h1"]) acts (mkReq true (Some [("CN", "h2")]) (Some "reserve")) = SStatus 401 /\
  soap_render (Some ["h1"]) acts (mkReq true (Some [("CN", "h1")]) (Some "x")) = SStatus 406 /\
  soap_render (Some ["h1"]) acts (mkReq false None (Some "reserve")) = SStatus 401 /\
  soap_render None acts (mkReq false None (Some "reserve")) = SDispatch (Some "reserve") (mkRI None).
Proof. repeat split; reflexivity. Qed.

(** C59, the REST gate.  The configured hosts are text (config.py:384-385), the
    certificate's component is bytes: no listed host is ever admitted. *)
Theorem C59_rest_listed_admitted_refuted :
  ~ (forall hosts comps v action, last_component comps = Some v -> In v hosts ->
     exists ri, check_authz (Some (map PStr hosts)) (mkReq true (Some comps) action) = Ok (true, ri)).
Proof. exact c59_refuted. Qed.
Print Assumptions C59_rest_listed_admitted_refuted.

Theorem C59_rest_never_admits_partial : forall hosts rq ri,
  check_authz (Some (map PStr hosts)) rq <> Ok (true, ri).
Proof. exact c59_never. Qed.
Print Assumptions C59_rest_never_admits_partial.

(** without a list everything is admitted (but for a subject without components) *)
Theorem C59_rest_open_partial : forall rq, (forall comps, rq_cert rq = Some comps -> comps <> []) ->
  exists ri, check_authz None rq = Ok (true, ri).
Proof. exact c59_open. Qed.
Print Assumptions C59_rest_open_partial.

(** and over REST no host-DN rule ever matches, whatever the certificate *)
Theorem C59_rest_hostdn_rules_inert_partial : forall allowed rq b ri v,
  check_authz allowed rq = Ok (b, ri) -> is_authorized [mkRule "hostdn" v] [] ri = false.
Proof. exact c59_inert. Qed.
Print Assumptions C59_rest_hostdn_rules_inert_partial.

Example C59_ex :
  check_authz (Some (map PStr ["h1"])) (mkReq true (Some [("CN", "h1")]) None) = Ok (false, mkRI (Some (PBytes "h1"))) /\
  check_authz None (mkReq true (Some [("CN", "h1")]) None) = Ok (true, mkRI (Some (PBytes "h1"))).
Proof. split; reflexivity. Qed.
