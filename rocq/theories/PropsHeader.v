(** Property C51: the header survives encoding and decoding. *)
From Verif Require Import Base ModelXml ModelAuthz ModelHeader ProofsHeader.

(** Every header without empty values: all fields come back, and for every type
    the attributes of that type in their order (hence the same multiset). *)
Theorem C51_roundtrip_partial : forall fresh proto h body,
  (forall sa, In sa (h_attrs h) -> sa_value sa <> "") -> h_corr h <> "" -> h_trace h <> Some [] ->
  (forall tr c, h_trace h = Some tr -> In c tr -> c <> "") ->
  exists d, parse_request fresh (wire (soap_payload (Some (header_xml proto h)) body))
              = Ok (d, match body with None => [] | Some b => [wire b] end) /\
    d_requester d = Some (h_requester h) /\ d_provider d = Some (h_provider h) /\ d_corr d = Some (h_corr h) /\
    d_reply_to d = h_reply_to h /\
    d_trace d = option_map (map Some) (h_trace h) /\
    forall t, filter (fun sa => eqb (sa_type sa) t) (d_attrs d) = filter (fun sa => eqb (sa_type sa) t) (h_attrs h).
Proof. exact c51_roundtrip. Qed.
Print Assumptions C51_roundtrip_partial.

(** what the last conjunct means: any property holds of as many decoded
    attributes as of encoded ones *)
Theorem C51_multiset : forall l m,
  (forall t, filter (fun sa => eqb (sa_type sa) t) l = filter (fun sa => eqb (sa_type sa) t) m) ->
  forall p : secattr -> bool, List.length (filter p l) = List.length (filter p m).
Proof. exact filters_permutation. Qed.
Print Assumptions C51_multiset.

(** an attribute with an empty value is lost *)
Theorem C51_empty_value_refuted : ~ (forall fresh proto h d b, h_corr h <> "" -> 
  parse_request fresh (wire (soap_payload (Some (header_xml proto h)) None)) = Ok (d, b) ->
  List.length (d_attrs d) = List.length (h_attrs h)).
Proof. exact c51_refuted. Qed.
Print Assumptions C51_empty_value_refuted.

Example C51_ex :
  let h := mkHdr "urn:r" "urn:p" "urn:uuid:1" (Some "http://x") 
             [mkSA "user" "a"; mkSA "group" "g"; mkSA "user" "b"] (Some ["n1:1"; "n2:7"]) in
  parse_request "f" (wire (soap_payload (Some (header_xml "v2" h)) None)) =
  Ok (mkDH (Some "urn:r") (Some "urn:p") (Some "urn:uuid:1") (Some "http://x")
       [mkSA "user" "a"; mkSA "user" "b"; mkSA "group" "g"] (Some [Some "n1:1"; Some "n2:7"]), []).
Proof. reflexivity. Qed.
