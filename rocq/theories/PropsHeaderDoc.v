(** C98: headers are written and read as the NSI documents say. *)
From Coq Require Import Sorted.
From Verif Require Import Base BaseProofs ModelXml ModelAuthz ModelHeader SpecHeader ProofsHeader ProofsHeaderDoc.
Open Scope Z_scope.

(** A message in the form of the documents is read, whoever wrote it and whatever else
    is in its header: the names and addresses in it, all security attributes that have a
    value and no others, and the trace in the order of its indices. *)
Theorem C98_reads : forall fresh env kids body, message env kids body -> attributes_sound kids -> (forall t, first_kid "{GNS}ConnectionTrace" kids t -> trace_sound t) ->
  exists d, parse_request fresh env = Ok (d, body) /\
    field "requesterNSA" kids (d_requester d) /\ field "providerNSA" kids (d_provider d) /\ field "replyTo" kids (d_reply_to d) /\
    (forall c, field "correlationId" kids (Some c) -> c <> "" -> d_corr d = Some c) /\
    ((forall c, field "correlationId" kids (Some c) -> c = "") -> d_corr d = Some fresh) /\
    (forall n v, In (mkSA n v) (d_attrs d) <-> attribute_says kids n v) /\ trace_is kids (d_trace d).
Proof. exact header_reads. Qed.
Print Assumptions C98_reads.

(** What is not an envelope, has no header before its body, or has something else or
    more than one thing in its header, is refused. *)
Theorem C98_refused : forall fresh env,
  (e_tag env <> "{SOAP}Envelope" \/
   (exists k, hd_error (e_kids env) = Some k /\ e_tag k = "{SOAP}Body") \/
   (exists k, hd_error (e_kids env) = Some k /\ e_tag k = "{SOAP}Header" /\ (List.length (e_kids k) <> 1%nat \/ exists h, In h (e_kids k) /\ e_tag h <> "{NSI}nsiHeader"))) ->
  exists e, parse_request fresh env = Err e.
Proof. exact header_refused. Qed.
Print Assumptions C98_refused.

(** What is written is such a message: the elements in the order of the schema, the
    attributes of one type in one element, the connections of the trace numbered from
    zero. *)
Theorem C98_written : forall proto h body, exists g, grouped (map (fun sa => (sa_type sa, sa_value sa)) (h_attrs h)) g /\
  soap_payload (Some (header_xml proto h)) (Some body) =
  Elem "{SOAP}Envelope" [] None
    [Elem "{SOAP}Header" [] None
       [Elem "{NSI}nsiHeader" [] None
          ([Elem "protocolVersion" [] (Some proto) []; Elem "correlationId" [] (Some (h_corr h)) [];
            Elem "requesterNSA" [] (Some (h_requester h)) []; Elem "providerNSA" [] (Some (h_provider h)) []] ++
           match h_reply_to h with Some r => [Elem "replyTo" [] (Some r) []] | None => [] end ++
           map (fun nv => Elem "sessionSecurityAttr" [] None
                            [Elem "{SAML}Attribute" [("Name", fst nv)] None (map (fun v => Elem "{SAML}AttributeValue" [] (Some v) []) (snd nv))]) g ++
           match h_trace h with
           | None | Some [] => []
           | Some l => [Elem "{GNS}ConnectionTrace" [] None
                          (map (fun p => Elem "Connection" [("index", py_str (Z.of_nat (fst p)))] (Some (snd p)) []) (combine (seq 0 (List.length l)) l))]
           end)];
     Elem "{SOAP}Body" [] None [body]].
Proof.
  intros proto h body. exists (group_attrs (h_attrs h)). split; [apply group_grouped|]. unfold soap_payload, header_xml.
  destruct (h_trace h) as [[|c l]|]; try reflexivity. rewrite trace_hops. reflexivity.
Qed.
Print Assumptions C98_written.

(** A header by someone else: elements in another order, with more than we know, the
    trace not in order. *)
Definition other_kids : list element :=
  [Elem "{GNS}ConnectionTrace" [] (Some "  ") [Elem "Connection" [("index", "1")] (Some "b:2") []; Elem "Connection" [("index", "0")] (Some "a:1") []];
   Elem "{X}extra" [] (Some "?") []; Elem "providerNSA" [] (Some "urn:p") []; Elem "requesterNSA" [] (Some "urn:r") []; Elem "correlationId" [] None [];
   Elem "sessionSecurityAttr" [] None [Elem "{SAML}Attribute" [("NameFormat", "f"); ("Name", "user")] None [Elem "{SAML}AttributeValue" [] (Some "jo") []; Elem "{SAML}AttributeValue" [] None []];
                                       Elem "{SAML}Attribute" [("Name", "group")] None [Elem "{SAML}AttributeValue" [] (Some "g") []]]].
Definition other_env : element :=
  Elem "{SOAP}Envelope" [("a", "b")] (Some " ") [Elem "{SOAP}Header" [] None [Elem "{NSI}nsiHeader" [] None other_kids]; Elem "{SOAP}Body" [] None [Elem "release" [] None []]].
Example C98_ex : message other_env other_kids [Elem "release" [] None []] /\ attributes_sound other_kids /\ (forall t, first_kid "{GNS}ConnectionTrace" other_kids t -> trace_sound t) /\
  parse_request "fresh" other_env = Ok (mkDH (Some "urn:r") (Some "urn:p") (Some "fresh") None [mkSA "user" "jo"; mkSA "group" "g"] (Some [Some "a:1"; Some "b:2"]), [Elem "release" [] None []]).
Proof.
  split; [constructor|]. split.
  { intros a (s & S & T & A & Ta). unfold other_kids in S. cbn [In] in S. repeat destruct S as [S|S]; try (rewrite <- S in T; discriminate T); [|destruct S].
    rewrite <- S in A. cbn [e_kids In] in A. unfold attrs_once. destruct A as [A|[A|[]]]; rewrite <- A; cbn [e_attrs e_kids map fst]; (split; [repeat constructor; cbn; intuition discriminate|split; [|discriminate]]).
    - exists "user". cbn. auto.
    - exists "group". cbn. auto. }
  split; [|reflexivity]. intros t F. apply (find1_first _ _ [] None) in F. injection F as <-. intros c [C T]. cbn [e_kids In] in C. unfold attrs_once.
  destruct C as [C|[C|[]]]; rewrite <- C; cbn [e_attrs map fst]; (split; [repeat constructor; cbn; intuition discriminate|]); [exists 1|exists 0]; left; reflexivity.
Qed.
