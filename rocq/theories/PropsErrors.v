(** Properties C21, C22: errors on the wire. *)
From Verif Require Import Base ModelXml ModelErrors SpecErrors ProofsErrors.

(** an NSI error of any class but the abstract root, with any contents, sent in
    an element of any name and decoded by a peer that knows the sender as [peer] *)
Theorem C21_error_roundtrip : forall e provider conn service tag peer, er_class e <> NSIError ->
  exists d, create_exception (se_build (wire (se_xml tag (create_service_exception e provider conn service)))) peer = Ok d /\
    subclass (er_class e) (de_class d) /\
    de_text d = Some (er_text e) /\
    (forall n, er_nsa e = Some n -> n <> "" -> de_nsa d = Some n) /\
    (forall c, er_conn e = Some c -> c <> "" -> de_conn d = Some c) /\
    vars_of (de_vars d) = map (fun kv => (Some (fst kv), Some (snd kv))) (vars_of (er_vars e)).
Proof. exact c21_roundtrip. Qed.
Print Assumptions C21_error_roundtrip.

(** without an agent or connection of its own the error gets the sender's *)
Theorem C21_defaults : forall e n conn service tag peer, er_class e <> NSIError -> n <> "" ->
  exists d, create_exception (se_build (wire (se_xml tag (create_service_exception e (Some n) conn service)))) peer = Ok d /\
    (truthy (er_nsa e) = false -> de_nsa d = Some n) /\
    (truthy (er_conn e) = false -> de_conn d = conn).
Proof. exact c21_defaults. Qed.
Print Assumptions C21_defaults.

(** the class is kept exactly but for the two ids missing from the table *)
Theorem C21_class_kept : forall e provider conn service tag peer, 
  er_class e <> NSIError -> er_class e <> UnsupportedParameter -> er_class e <> DownstreamNSAError ->
  exists d, create_exception (se_build (wire (se_xml tag (create_service_exception e provider conn service)))) peer = Ok d /\
    de_class d = er_class e.
Proof. exact c21_kept. Qed.
Print Assumptions C21_class_kept.

(** any other exception arrives as an internal server error with its text *)
Theorem C21_other_exceptions : forall text provider conn service tag peer,
  exists d, create_exception (se_build (wire (se_xml tag (create_service_exception_other text provider conn service)))) peer = Ok d /\
    de_class d = InternalServerError /\ de_text d = Some text /\ de_conn d = conn.
Proof. exact c21_other. Qed.
Print Assumptions C21_other_exceptions.

Example C21_ex :
  let e := mkErr STPUnavailableError "no free label" (Some "urn:a") None (Some [("stp", "x"); ("label", "")]) in
  create_exception (se_build (wire (se_xml "serviceException" (create_service_exception e (Some "urn:p") (Some "C1") None)))) None
  = Ok (mkDE STPUnavailableError (Some "no free label") (Some "urn:a") (Some "C1")
             (Some [(Some "stp", Some "x"); (Some "label", Some "")])).
Proof. reflexivity. Qed.

(** C22 fails: an unknown category raises ValueError, which is not caught *)
Theorem C22_decoding_total_refuted :
  exists s peer, create_exception s peer = Err EValue /\ se_errorId s = Some "00999".
Proof. exact c22_refuted. Qed.
Print Assumptions C22_decoding_total_refuted.

(** it decodes every id that is not five characters long or whose first three
    characters are a known category.  Missing: five-character ids of unknown category. *)
Theorem C22_decoding_partial : forall s peer,
  (forall c, se_errorId s = Some c -> String.length c = 5%nat ->
     exists k rest, In k ["001"; "002"; "003"; "004"; "005"; "006"; "007"] /\ c = k +++ rest) ->
  exists d, create_exception s peer = Ok d.
Proof. exact c22_partial. Qed.
Print Assumptions C22_decoding_partial.

(** and otherwise it is always that ValueError *)
Theorem C22_failure_partial : forall s peer e, create_exception s peer = Err e -> e = EValue.
Proof. exact c22_failure. Qed.
Print Assumptions C22_failure_partial.

Example C22_ex : create_exception (mkSE None None None (Some "00799") (Some "t") None) (Some "p")
  = Ok (mkDE ServiceError (Some "t") (Some "p") None None) /\
  create_exception (mkSE None None None (Some "GENERIC") None None) None = Ok (mkDE UnknownNSIError None None None None).
Proof. split; reflexivity. Qed.
