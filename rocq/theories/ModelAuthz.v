(** Model of /repo/opennsa/authz.py, /repo/opennsa/shared/requestinfo.py,
    /repo/opennsa/protocols/shared/soapresource.py (render_POST) and
    /repo/opennsa/protocols/shared/requestauthz.py. *)
From Verif Require Import Base.

(** A Python value that is either text or bytes; [==] between the two kinds is
    [False], and so is [bytes in list_of_str]; authz.py:65, requestauthz.py:56 *)
Inductive pytext := PStr (s : string) | PBytes (s : string).
(** Python's [==] on text and bytes (authz.py:65, requestauthz.py:56) *)
Definition pytext_eqb (a b : pytext) : bool :=
  match a, b with
  | PStr x, PStr y => eqb x y
  | PBytes x, PBytes y => eqb x y
  | _, _ => false
  end.
Lemma pytext_eqb_ok a b : reflect (a = b) (pytext_eqb a b).
Proof. destruct a as [x|x], b as [y|y]; cbn; try (constructor; congruence); destruct (eqb_ok x y); constructor; congruence. Qed.
#[global] Instance EqB_pytext : EqB pytext := {| eqb := pytext_eqb; eqb_ok := pytext_eqb_ok |}.

(** ** authz.py *)
(** authz.py:20-29 *)
Definition HEADER_ATTRIBUTES : list string := ["nsa"; "user"; "group"; "token"].
(** authz.py:27 *)
Definition REQUEST_ATTRIBUTES : list string := ["hostdn"].
(** authz.py:29 *)
Definition AUTH_ATTRIBUTES : list string := HEADER_ATTRIBUTES ++ REQUEST_ATTRIBUTES.
(** authz.py:24 *)
Definition HOST_DN : string := "hostdn".

(** authz.py:40-44, AuthorizationAttribute *)
Record rule := mkRule { r_type : string; r_value : string }.
(** nsa.py:52-59, SecurityAttribute *)
Record secattr := mkSA { sa_type : string; sa_value : string }.
(** authz.py:47-49 *)
Definition rule_match (r : rule) (sa : secattr) : bool :=
  eqb (r_type r) (sa_type sa) && eqb (r_value r) (sa_value sa).

(** requestinfo.py:10-17; the certificate subject (only logged) is left out *)
Record request_info := mkRI { cert_host_dn : option pytext }.

(** authz.py:59-71, the loop over the rules *)
Fixpoint authz_loop (default : bool) (rules : list rule) (sas : list secattr) (ri : request_info) : bool :=
  match rules with
  | [] => default
  | r :: rs =>
      if mem (r_type r) HEADER_ATTRIBUTES then
        if existsb (rule_match r) sas then true else authz_loop default rs sas ri
      else if mem (r_type r) REQUEST_ATTRIBUTES && eqb (r_type r) HOST_DN then
        if eqb (Some (PStr (r_value r))) (cert_host_dn ri) then true else authz_loop default rs sas ri
      else authz_loop default rs sas ri
  end.
(** authz.py:53-71; the STP and times are arguments that the code ignores *)
Definition is_authorized (rules : list rule) (sas : list secattr) (ri : request_info) : bool :=
  authz_loop (match rules with [] => true | _ => false end) rules sas ri.

(** ** HTTP requests *)
(** The part of a request the gates look at: TLS or not, the components of the
    client certificate's subject (name, value), the SOAP action header; requestauthz.py:28-51, soapresource.py:49-100 *)
Record http_request := mkReq {
  rq_secure : bool;
  rq_cert   : option (list (string * string));
  rq_action : option string }.

(** [dict(components).get(b'CN')]: the last one of several CN components; soapresource.py:65, 81 *)
Definition subject_cn (comps : list (string * string)) : option string := aget "CN" (rev comps).

(** soapresource.py:49-139, what a POST leads to *)
Inductive soap_outcome :=
| SStatus (code : Z)                                     (* setResponseCode, return text; nothing dispatched *)
| SDispatch (action : option string) (ri : request_info) (* the decoder is called *)
| SRaise (e : exn).

(** soapresource.py:88-138; decoders are registered under [actions].  The
    header is a list of raw values whose first one is used (88). *)
Definition soap_dispatch (actions : list (option string)) (rq : http_request) (ri : request_info) : soap_outcome :=
  if negb (mem (rq_action rq) actions) then SStatus 406 else SDispatch (rq_action rq) ri.

(** soapresource.py:49-138; [.decode('utf-8')] of the common name is the
    identity (byte strings), [None.decode] an AttributeError *)
Definition soap_render (allowed : option (list string)) (actions : list (option string)) (rq : http_request) : soap_outcome :=
  match allowed with
  | Some hosts =>
      if negb (rq_secure rq) then SStatus 401
      else match rq_cert rq with
           | None => SStatus 401
           | Some comps =>
               match subject_cn comps with
               | None => SRaise EAttribute
               | Some cn =>
                   if negb (mem cn hosts) then SStatus 401
                   else soap_dispatch actions rq (mkRI (Some (PStr cn)))
               end
           end
  | None =>
      if rq_secure rq then
        match rq_cert rq with
        | None => SRaise EAttribute
        | Some comps =>
            match subject_cn comps with
            | None => SRaise EAttribute
            | Some cn => soap_dispatch actions rq (mkRI (Some (PStr cn)))
            end
        end
      else soap_dispatch actions rq (mkRI None)
  end.

(** requestauthz.py:33, 51: [get_components()[-1][1]], bytes *)
Definition last_component (comps : list (string * string)) : option string :=
  match rev comps with [] => None | (_, v) :: _ => Some v end.

(** requestauthz.py:15-62, allowed and request info (the message is left out) *)
Definition check_authz (allowed : option (list pytext)) (rq : http_request) : result (bool * request_info) :=
  match allowed with
  | None =>
      if rq_secure rq then
        match rq_cert rq with
        | None => Ok (true, mkRI None)
        | Some comps =>
            match last_component comps with
            | None => Err EIndex
            | Some v => Ok (true, mkRI (Some (PBytes v)))
            end
        end
      else Ok (true, mkRI None)
  | Some hosts =>
      if negb (rq_secure rq) then Ok (false, mkRI None)
      else match rq_cert rq with
           | None => Ok (false, mkRI None)
           | Some comps =>
               match last_component comps with
               | None => Err EIndex
               | Some v => Ok (mem (PBytes v) hosts, mkRI (Some (PBytes v)))
               end
           end
  end.
