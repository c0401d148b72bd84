(** Property C23: STP identifiers. *)
From Verif Require Import Base ModelLabel SpecLabel ModelSTP SpecSTP BaseProofs ProofsLabel ProofsSTP.
Open Scope Z_scope.

Theorem C23_roundtrip : forall s,
  contains "urn:ogf:network:" (s_network s +++ ":" +++ s_port s) = false ->
  shas "?" (s_network s) = false -> shas "?" (s_port s) = false -> shas ":" (s_port s) = false ->
  (forall l, s_label s = Some l -> (ltype l = "vlan" \/ ltype l = "mpls") /\ wf_values (lvalues l)) ->
  create_stp (urn s) = Ok s.
Proof. exact c23_roundtrip. Qed.
Print Assumptions C23_roundtrip.

(** exactly the identifiers of the grammar are accepted, with their meaning *)
Theorem C23_accepts : forall rest s, contains "urn:ogf:network:" rest = false ->
  (create_stp ("urn:ogf:network:" +++ rest) = Ok s <-> stp_text rest s).
Proof. exact c23_accepts. Qed.
Print Assumptions C23_accepts.

Theorem C23_missing_prefix : forall s, starts_with "urn:ogf:network:" s = false -> create_stp s = Err EPayload.
Proof. exact c23_missing_prefix. Qed.
Print Assumptions C23_missing_prefix.

(** the rejection is not always a payload error: bad label values like "1=2" *)
Theorem C23_payload_error_refuted : ~ (forall s e, create_stp s = Err e -> e = EPayload).
Proof. exact c23_refuted. Qed.
Print Assumptions C23_payload_error_refuted.

(** but it is, unless there is a second '?' or a second '=' in the label part *)
Theorem C23_payload_error_partial : forall rest e,
  create_stp ("urn:ogf:network:" +++ rest) = Err e -> contains "urn:ogf:network:" rest = false ->
  e = EPayload \/ (e = EValue /\ ((exists a b c, rest = a +++ "?" +++ b +++ "?" +++ c) \/
                                  (exists a b c d, rest = a +++ "?" +++ b +++ "=" +++ c +++ "=" +++ d))).
Proof. exact c23_rejects. Qed.
Print Assumptions C23_payload_error_partial.

(** The short name is the identifier without its prefix, and two end points with
    labels in normal form are equal exactly if network, port and label are. *)
Theorem C23_short : forall s, urn s = "urn:ogf:network:" +++ short_name s.
Proof. intros s. unfold urn, base_urn, short_name, URN_NETWORK. rewrite !append_assoc. reflexivity. Qed.
Print Assumptions C23_short.
Theorem C23_equal : forall a b, (forall l, s_label a = Some l -> wf_values (lvalues l)) -> (forall l, s_label b = Some l -> wf_values (lvalues l)) ->
  (stp_eqb a b = true <-> a = b).
Proof.
  intros [n p l] [n' p' l'] Ha Hb. cbn [s_label] in *. unfold stp_eqb. cbn [s_network s_port s_label]. split.
  - intros H. apply andb_prop in H. destruct H as [H L]. apply andb_prop in H. destruct H as [A B].
    apply (proj1 (eqb_true _ _)) in A. apply (proj1 (eqb_true _ _)) in B. subst n' p'. f_equal.
    destruct l as [[t v]|], l' as [[t' v']|]; try discriminate L; [|reflexivity].
    specialize (Ha _ eq_refl). specialize (Hb _ eq_refl). cbn [lvalues] in Ha, Hb.
    apply label_eqb_spec in L as [Ht Hd]; [|apply Ha|apply Hb]. cbn [ltype] in Ht. subst t'. do 2 f_equal.
    apply normal_unique; [apply Ha|apply Hb|exact Hd].
  - intros E. injection E as -> -> ->. exact (stp_eqb_refl (mkSTP n' p' l')).
Qed.
Print Assumptions C23_equal.
Example C23_equal_ex : stp_eqb (mkSTP "a" "p" None) (mkSTP "a" "p" (Some (mkLabel "vlan" [(5, 7)]))) = false /\
  stp_eqb (mkSTP "a" "p" (Some (mkLabel "vlan" [(5, 7)]))) (mkSTP "a" "p" (Some (mkLabel "vlan" [(5, 7)]))) = true /\ wf_values [(5, 7)] /\
  short_name (mkSTP "a" "p" (Some (mkLabel "vlan" [(5, 7)]))) = "a:p?vlan=5-7".
Proof.
  split; [reflexivity|]. split; [reflexivity|]. split; [|reflexivity]. split; [discriminate|]. split; [constructor; lia|].
  intros lo hi [E|[]]. injection E as <- <-. lia.
Qed.

Example C23_ex :
  let s := mkSTP "nordu.net:topology" "uva-1" (Some (mkLabel "vlan" [(1780, 1783); (1790, 1790)])) in
  urn s = "urn:ogf:network:nordu.net:topology:uva-1?vlan=1780-1783,1790" /\ create_stp (urn s) = Ok s /\
  create_stp "urn:ogf:network:nonet" = Err EPayload /\ create_stp "urn:ogf:network:a:b?foo=1" = Err EPayload /\
  create_stp "urn:ogf:network:a:b?vlan=x" = Err EPayload /\ create_stp "http://a:b" = Err EPayload.
Proof. repeat split; reflexivity. Qed.
