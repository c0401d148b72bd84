(** Model of the NSI header encoding: /repo/opennsa/protocols/nsi2/helper.py:42-74, 129-161,
    /repo/opennsa/protocols/nsi2/bindings/nsiframework.py:8-49, 97-143, 187-205 and the
    SOAP envelope, /repo/opennsa/protocols/shared/minisoap.py:47-72, 105-124. *)
From Verif Require Import Base ModelXml ModelAuthz.

(** nsa.py:31-40 (NSIHeader); agents and the correlation id are strings here *)
Record nsi_header := mkHdr {
  h_requester : string;
  h_provider  : string;
  h_corr      : string;
  h_reply_to  : option string;
  h_attrs     : list secattr;
  h_trace     : option (list string) }.

(** helper.py:50-52, [grouped_sats.setdefault(sa.type_, []).append(sa.value)] *)
Definition group_step (d : list (string * list string)) (sa : secattr) : list (string * list string) :=
  aset (sa_type sa) (match aget (sa_type sa) d with Some l => l | None => [] end ++ [sa_value sa]) d.
(** helper.py:50-52, over all attributes *)
Definition group_attrs (l : list secattr) : list (string * list string) := fold_left group_step l [].

(** tags, nsiframework.py:206-218 and minisoap.py:15-17 (abbreviated namespaces) *)
Definition T_ATTRIBUTE := "{SAML}Attribute".
(** nsiframework.py:212 *)
Definition T_ATTRIBUTE_VALUE := "{SAML}AttributeValue".
(** nsiframework.py:215 *)
Definition T_HEADER := "{NSI}nsiHeader".
(** nsiframework.py:218 *)
Definition T_TRACE := "{GNS}ConnectionTrace".
(** minisoap.py:15 *)
Definition T_ENVELOPE := "{SOAP}Envelope".
(** minisoap.py:16 *)
Definition T_SOAP_HEADER := "{SOAP}Header".
(** minisoap.py:17 *)
Definition T_SOAP_BODY := "{SOAP}Body".

(** nsiframework.py:113-123 *)
Definition attribute_xml (nv : string * list string) : element :=
  Elem T_ATTRIBUTE [("Name", fst nv)] None (map (fun v => leaf T_ATTRIBUTE_VALUE (Some v)) (snd nv)).
(** nsiframework.py:201-205 and 45-48 *)
Fixpoint trace_xml (idx : nat) (l : list string) : list element :=
  match l with
  | [] => []
  | c :: r => Elem "Connection" [("index", py_str (Z.of_nat idx))] (Some c) [] :: trace_xml (S idx) r
  end.
(** helper.py:42-60 with nsiframework.py:34-49 and 138-143; [proto] is the protocol type *)
Definition header_xml (proto : string) (h : nsi_header) : element :=
  Elem T_HEADER [] None
    ([leaf "protocolVersion" (Some proto); leaf "correlationId" (Some (h_corr h));
      leaf "requesterNSA" (Some (h_requester h)); leaf "providerNSA" (Some (h_provider h))] ++
     match h_reply_to h with None => [] | Some r => [leaf "replyTo" (Some r)] end ++
     map (fun nv => Elem "sessionSecurityAttr" [] None [attribute_xml nv]) (group_attrs (h_attrs h)) ++
     match h_trace h with None | Some [] => [] | Some l => [Elem T_TRACE [] None (trace_xml 0 l)] end).

(** minisoap.py:47-72 *)
Definition soap_payload (header body : option element) : element :=
  Elem T_ENVELOPE [] None
    [Elem T_SOAP_HEADER [] None (match header with Some h => [h] | None => [] end);
     Elem T_SOAP_BODY [] None (match body with Some b => [b] | None => [] end)].

(** minisoap.py:113-124, the loop over the envelope's children *)
Fixpoint soap_children (header : option (list element)) (kids : list element) : result (option (list element) * list element) :=
  match kids with
  | [] => Err EValue
  | ec :: r =>
      if eqb (e_tag ec) T_SOAP_HEADER then
        match header with Some _ => Err EValue | None => soap_children (Some (e_kids ec)) r end
      else if eqb (e_tag ec) T_SOAP_BODY then Ok (header, e_kids ec)
      else Err EValue
  end.
(** minisoap.py:105-124 *)
Definition parse_soap_payload (envelope : element) : result (option (list element) * list element) :=
  if negb (eqb (e_tag envelope) T_ENVELOPE) then Err EAssertion else soap_children None (e_kids envelope).

(** nsiframework.py:104-110 [AttributeType.build]: name and values *)
Definition attribute_build (e : element) : option string * option (list (option string)) :=
  (e_get "Name" e, match e_kids e with [] => None | ks => Some (map e_text ks) end).
(** nsiframework.py:131-135 *)
Definition ssa_build (e : element) : list (option string * option (list (option string))) :=
  map attribute_build (findall T_ATTRIBUTE e).

(** nsiframework.py:193-197 *)
Definition connection_build (e : element) : result (Z * option string) :=
  match e_get "index" e with
  | None => Err EType
  | Some s => match py_int s with None => Err EValue | Some i => Ok (i, e_text e) end
  end.
(** [sorted(trace, key=index)]: stable insertion sort; nsiframework.py:23 *)
Fixpoint insert_idx {A} (x : Z * A) (l : list (Z * A)) : list (Z * A) :=
  match l with
  | [] => [x]
  | y :: r => if (fst x <=? fst y)%Z then x :: l else y :: insert_idx x r
  end.
(** nsiframework.py:23, [sorted(trace, key=...)] *)
Fixpoint sort_idx {A} (l : list (Z * A)) : list (Z * A) :=
  match l with [] => [] | x :: r => insert_idx x (sort_idx r) end.

(** a decoded header: anything may be missing; nsiframework.py:18-32 *)
Record dec_header := mkDH {
  d_requester : option string;
  d_provider  : option string;
  d_corr      : option string;
  d_reply_to  : option string;
  d_attrs     : list secattr;
  d_trace     : option (list (option string)) }.

(** helper.py:141-146: values of one attribute *)
Fixpoint attr_values (name : option string) (vs : list (option string)) : result (list secattr) :=
  match vs with
  | [] => Ok []
  | None :: r => attr_values name r
  | Some v :: r =>
      match name with
      | None => Err EAssertion     (* nsa.py:53, SecurityAttribute type must be a string *)
      | Some n => do! l <- attr_values name r; Ok (mkSA n v :: l)
      end
  end.
(** helper.py:139-146 *)
Definition attrs_of (l : list (option string * option (list (option string)))) : result (list secattr) :=
  do! ls <- mapM (fun nv => match snd nv with None => Err EType | Some vs => attr_values (fst nv) vs end) l;
  Ok (concat ls).

(** nsiframework.py:19-32 with helper.py:137-161; [fresh] is the id that
    [NSIHeader] makes up when the message has none (nsa.py:35) *)
Definition header_build (fresh : string) (e : element) : result dec_header :=
  if negb (eqb (e_tag e) T_HEADER) then Err EValue else
  do! trace <- match find1 T_TRACE e with
               | None => Ok None
               | Some t => do! l <- mapM connection_build (findall "Connection" t);
                           Ok (Some (map snd (sort_idx l)))
               end;
  do! attrs <- attrs_of (concat (map ssa_build (findall "sessionSecurityAttr" e)));
  Ok (mkDH (findtext "requesterNSA" e) (findtext "providerNSA" e)
           (py_or (findtext "correlationId" e) (Some fresh)) (findtext "replyTo" e) attrs trace).

(** helper.py:129-161 [parseRequest]; the body elements are returned undecoded *)
Definition parse_request (fresh : string) (envelope : element) : result (dec_header * list element) :=
  do! (headers, bodies) <- parse_soap_payload envelope;
  match headers with
  | None => Err EValue
  | Some [] => Err EIndex
  | Some [h] => do! d <- header_build fresh h; Ok (d, bodies)
  | Some _ => Err EValue
  end.
