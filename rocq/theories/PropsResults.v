(** C102: answers to queries are written and read as the NSI documents say. *)
From Verif Require Import Base BaseProofs ModelXml ModelHeader ModelAuthz ModelErrors ModelLabel ModelSTP SpecSTP ProofsSTP ModelTime SpecTime ModelQueryHelper SpecQueryHelper PropsQueryHelper
  ModelMessages SpecHeader SpecDocument ProofsDocument PropsDocument SpecResults ProofsResults.
Require Import Coq.Sorting.Permutation Coq.Sorting.Sorted.
Open Scope Z_scope.

(** A summary of any number of reservations, whoever wrote it, reaches the requester as
    what it says.  Missing from the full statement: a boolean whose text is "1" (see
    C102_one_refuted). *)
Theorem C102_summary_partial : forall fresh env kids e prov l,
  message env kids [e] -> header_sound kids -> e_tag e = "{CT}querySummaryConfirmed" -> field "providerNSA" kids (Some prov) ->
  answer_says not_one (summary_says not_one) prov e l ->
  exists d, header_says fresh kids d /\ requester_service fresh (action "querySummaryConfirmed", env) = Some (Ok (RResults "querySummaryConfirmed" d l)).
Proof. exact reads_summary. Qed.
Print Assumptions C102_summary_partial.

(** So does a recursive answer, to any depth and with the children in the order of their
    numbers, in whatever order they are written.  Missing from the full statement: numbers
    of more than one digit, criteria without a list of children, and a boolean whose text
    is "1" (all refuted below). *)
Theorem C102_recursive_partial : forall fresh env kids e prov l,
  message env kids [e] -> header_sound kids -> e_tag e = "{CT}queryRecursiveConfirmed" -> field "providerNSA" kids (Some prov) ->
  answer_says not_one (criteria_say not_one digit False) prov e l ->
  exists d, header_says fresh kids d /\ requester_service fresh (action "queryRecursiveConfirmed", env) = Some (Ok (RResults "queryRecursiveConfirmed" d l)).
Proof. exact reads_recursive. Qed.
Print Assumptions C102_recursive_partial.

(** What is written is such an answer, with any number of children. *)
Theorem C102_written : forall w prov h l, Forall (top_ok w) l ->
  (exists kids, send_recursive h l = Ok (tell h "queryRecursiveConfirmed" kids) /\ (forall k, In k kids -> e_tag k = "reservation") /\
     forall t, answer_says not_one (criteria_say not_one nonneg False) prov (wire (Elem t [] None kids)) (map (seen prov) l)) /\
  (exists kids, send_summary h l = Ok (tell h "querySummaryConfirmed" kids) /\ (forall k, In k kids -> e_tag k = "reservation") /\
     forall t, answer_says not_one (summary_says not_one) prov (wire (Elem t [] None kids)) (map (brief prov) l)).
Proof.
  intros w prov h l K. split.
  - destruct (recursive_written w prov l K) as (es & E & T & A). exists es. unfold send_recursive. rewrite E. split; [reflexivity|]. split; assumption.
  - destruct (summary_written w prov "{CT}querySummaryConfirmed" l K) as (es & E & T & A). exists es. unfold send_summary. change (CT "querySummaryConfirmed") with "{CT}querySummaryConfirmed". rewrite E.
    split; [reflexivity|]. split; assumption.
Qed.
Print Assumptions C102_written.
Lemma rs_tree kids w : (length kids <= w)%nat -> Forall (child_ok w) kids -> top_ok w (ex_top kids).
Proof. intros L F. split; [discriminate|]. constructor; [|constructor]. constructor; [exact ex_sched_ok|exact ex_p2p_ok|exact L|exact F]. Qed.
Lemma rs_leaf id w : child_ok w (ex_child id []).
Proof. constructor; [discriminate|]. constructor; [|constructor]. constructor; [exact ex_sched_ok|exact ex_p2p_ok|cbn; lia|constructor]. Qed.
Lemma rs_eleven : Forall (top_ok 11) [ex_top ex_eleven].
Proof. constructor; [|constructor]. apply rs_tree; [cbn; lia|]. apply Forall_forall. intros x Hx. apply in_map_iff in Hx as (id & <- & _). apply rs_leaf. Qed.
Definition rs_hdr : nsi_header := mkHdr "urn:r" "urn:p" "urn:uuid:1" None [] None.
Example C102_written_ex : Forall (top_ok 11) [ex_top ex_eleven] /\ length ex_eleven = 11%nat /\
  exists m, send_recursive rs_hdr [ex_top ex_eleven] = Ok m /\ exists s, send_summary rs_hdr [ex_top ex_eleven] = Ok s /\ s <> m.
Proof.
  split; [exact rs_eleven|]. split; [reflexivity|]. eexists. split; [vm_compute; reflexivity|]. eexists. split; [vm_compute; reflexivity|]. discriminate.
Qed.

(** * Documents *)
Definition rs_stp (port : string) : stp := mkSTP "a.net" port None.
Definition rs_p2p : p2p := mkP2P (rs_stp "p1") (rs_stp "p2") 100 "Bidirectional" None.
Definition rs_p2ps : element := Elem "{http://schemas.ogf.org/nsi/2013/12/services/point2point}p2ps" [] None
  [text_el "capacity" "100"; text_el "directionality" "Bidirectional"; text_el "sourceSTP" "urn:ogf:network:a.net:p1"; text_el "destSTP" "urn:ogf:network:a.net:p2"; Elem "ero" [] None []].
Definition rs_crit (children : list element) : element :=
  Elem "criteria" [("version", "3")] None ([Elem "schedule" [] None []; text_el "serviceType" "EVTS"] ++ children ++ [rs_p2ps]).
Definition rs_states (active : string) : element :=
  Elem "connectionStates" [] None [text_el "reservationState" "ReserveStart"; text_el "provisionState" "Provisioned"; text_el "lifecycleState" "Created";
    Elem "dataPlaneStatus" [] None [text_el "active" active; text_el "version" "3"; text_el "versionConsistent" "0"]].
Definition rs_child (n : Z) (id : string) (children : list element) : element :=
  Elem "child" [("order", py_str n)] None [text_el "connectionId" id; text_el "providerNSA" "urn:b"; rs_states "true"; rs_crit [Elem "children" [] None children]].
Definition rs_reservation (active : string) (children : list element) : element :=
  Elem "reservation" [] None [text_el "connectionId" "c-1"; text_el "description" ""; rs_crit children; text_el "requesterNSA" "urn:r"; rs_states active; text_el "resultId" "12"].
Definition rs_kids : list element := [text_el "providerNSA" "urn:p"; text_el "correlationId" "urn:uuid:1"].
Definition rs_env (e : element) : element :=
  Elem "{SOAP}Envelope" [] None [Elem "{SOAP}Header" [] None [Elem "{NSI}nsiHeader" [] None rs_kids]; Elem "{SOAP}Body" [] None [e]].
Definition rs_answer (name : string) (rs : list element) : element := Elem ("{CT}" +++ name) [] None rs.
(** What they say. *)
Definition rs_says_states (active : bool) : cstates := mkCS "ReserveStart" "Provisioned" "Created" active 3 false.
Definition rs_says_crit (kids : list cinfo) : crit := QC 3 (mkSched None None) (Some rs_p2p) kids.
Definition rs_says_child (id : string) (kids : list cinfo) : cinfo := CI id None None "EVTS" [rs_says_crit kids] "urn:b" None (rs_says_states true) None None.
Definition rs_says (active : bool) (kids : list cinfo) : cinfo :=
  CI "c-1" None (Some "") "http://services.ogf.org/nsi/2013/07/descriptions/EVTS.A-GOLE" [rs_says_crit kids] "urn:p" (Some "urn:r") (rs_says_states active) None (Some 12).
Lemma rs_message e : message (rs_env e) rs_kids [e] /\ header_sound rs_kids /\ field "providerNSA" rs_kids (Some "urn:p").
Proof.
  split; [constructor|]. split.
  - split.
    + intros a (s & [<-|[<-|[]]] & T & _); discriminate T.
    + intros t (pre & post & E & T & _). assert (I : In t rs_kids) by (rewrite E; apply in_or_app; right; left; reflexivity). destruct I as [<-|[<-|[]]]; discriminate T.
  - exact (field_of "providerNSA" (Elem "x" [] None rs_kids) _ eq_refl).
Qed.
Section Says.
  Variables (boolean : string -> bool -> Prop) (number : Z -> Prop) (may_lack : Prop).
  Hypotheses (Bt : boolean "true" true) (B0 : boolean "0" false).
  Lemma rs_service : service_says boolean rs_p2ps rs_p2p.
  Proof.
    repeat split; try (apply field_of; reflexivity); [exists "a.net:p1"|exists "a.net:p2"]; (split; [apply field_of; reflexivity|]; split; [reflexivity|]; apply c23_accepts; reflexivity).
  Qed.
  Lemma rs_schedule ch : schedule_says (rs_crit ch) (mkSched None None).
  Proof. exists (Elem "schedule" [] None []). split; [eexists [], _; split; [reflexivity|]; split; [reflexivity|intros x []]|]. split; intros c []. Qed.
  Lemma rs_one ch : (forall k, In k ch -> e_tag k = "children") -> one_service (rs_crit ch) rs_p2ps.
  Proof.
    intros H. unfold one_service, rs_crit. cbn [e_kids app]. split; [right; right; apply in_or_app; right; left; reflexivity|]. intros k [<-|[<-|Hk]]; [left; left; reflexivity|left; right; left; reflexivity|].
    apply in_app_or in Hk as [Hk|[<-|[]]]; [left; right; right; left; symmetry; exact (H k Hk)|right; reflexivity].
  Qed.
  Lemma rs_states_say a b k : boolean a b -> find1 "connectionStates" k = Some (rs_states a) -> states_say boolean k (rs_says_states b).
  Proof.
    intros Hb F. exists (rs_states a). split; [apply first_of; exact F|]. split; [apply field_of; reflexivity|]. split; [apply field_of; reflexivity|]. split; [apply field_of; reflexivity|].
    eexists. split; [apply first_of; reflexivity|]. split; [exists a; split; [apply field_of; reflexivity|exact Hb]|]. split; [apply field_of; reflexivity|]. exists "0". split; [apply field_of; reflexivity|exact B0].
  Qed.
  Lemma rs_crit_says els ps kids : Forall2 (child_says boolean number may_lack) els ps -> in_sequence ps kids -> criteria_say boolean number may_lack (rs_crit [Elem "children" [] None els]) (rs_says_crit kids).
  Proof.
    intros F Q. apply say_criteria with (p := rs_p2ps); [exact (one_attr "criteria" "version" "3" None _)|apply rs_schedule|apply rs_one; intros k [<-|[]]; reflexivity|apply rs_service|].
    apply say_children with (ch := Elem "children" [] None els) (ps := ps); [apply first_of; reflexivity|exact F|exact Q].
  Qed.
  Lemma rs_child_says n id els ps kids : number n -> Forall2 (child_says boolean number may_lack) els ps -> in_sequence ps kids -> child_says boolean number may_lack (rs_child n id els) (n, rs_says_child id kids).
  Proof.
    intros N F Q. apply say_child with (first := rs_crit [Elem "children" [] None els]); [reflexivity|apply one_attr|exact N|apply field_of; reflexivity|apply field_of; reflexivity|
      apply (rs_states_say "true"); [exact Bt|reflexivity]| |apply first_of; reflexivity|apply field_of; reflexivity].
    constructor; [exact (rs_crit_says els ps kids F Q)|constructor].
  Qed.
  Lemma rs_top_says (criterion : element -> crit -> Prop) a b ch kids : boolean a b -> criterion (rs_crit ch) (rs_says_crit kids) -> reservation_says boolean criterion "urn:p" (rs_reservation a ch) (rs_says b kids).
  Proof.
    intros Hb C. constructor; try (apply field_of; reflexivity); [reflexivity| |apply (rs_states_say a); [exact Hb|reflexivity]]. constructor; [exact C|constructor].
  Qed.
  Lemma rs_summary_says kids : (forall k, In k kids -> e_tag k = "children") -> summary_says boolean (rs_crit kids) (rs_says_crit []).
  Proof. intros H. apply say_summary with (p := rs_p2ps); [exact (one_attr "criteria" "version" "3" None _)|apply rs_schedule|apply rs_one; exact H|apply rs_service]. Qed.
End Says.
Lemma rs_true : not_one "true" true. Proof. split; [constructor|discriminate]. Qed.
Lemma rs_zero : not_one "0" false. Proof. split; [constructor|discriminate]. Qed.
Lemma rs_empty : in_sequence [] []. Proof. exists []. split; [constructor|]. split; [constructor|reflexivity]. Qed.

(** Two reservations, one of them with two children, written last one first, and a
    grandchild. *)
Definition rs_list : list element := [rs_reservation "true" [Elem "children" [] None [rs_child 7 "y" [rs_child 0 "z" []]; rs_child 2 "x" []]]; rs_reservation "0" [Elem "children" [] None []]].
Definition rs_says_list : list cinfo := [rs_says true [rs_says_child "x" []; rs_says_child "y" [rs_says_child "z" []]]; rs_says false []].
Example C102_recursive_ex : answer_says not_one (criteria_say not_one digit False) "urn:p" (rs_answer "queryRecursiveConfirmed" rs_list) rs_says_list /\
  exists d, requester_service "f" (action "queryRecursiveConfirmed", rs_env (rs_answer "queryRecursiveConfirmed" rs_list)) = Some (Ok (RResults "queryRecursiveConfirmed" d rs_says_list)).
Proof.
  assert (A : answer_says not_one (criteria_say not_one digit False) "urn:p" (rs_answer "queryRecursiveConfirmed" rs_list) rs_says_list).
  { pose proof rs_true as T. pose proof rs_zero as O.
    constructor; [|constructor; [|constructor]]; (apply rs_top_says; [exact O|assumption|]).
    - eapply rs_crit_says.
      + constructor; [|constructor; [|constructor]].
        * eapply rs_child_says; [exact T|exact O|unfold digit; lia| |].
          -- constructor; [|constructor]. eapply rs_child_says; [exact T|exact O|unfold digit; lia|constructor|exact rs_empty].
          -- eexists. split; [reflexivity|]. split; [constructor; constructor|reflexivity].
        * eapply rs_child_says; [exact T|exact O|unfold digit; lia|constructor|exact rs_empty].
      + eexists. split; [apply perm_swap|]. split; [constructor; [constructor; constructor|constructor; [cbn; lia|constructor]]|reflexivity].
    - eapply rs_crit_says; [constructor|exact rs_empty]. }
  split; [exact A|]. destruct (rs_message (rs_answer "queryRecursiveConfirmed" rs_list)) as (M & H & P).
  destruct (C102_recursive_partial "f" _ _ _ _ _ M H eq_refl P A) as (d & _ & E). exists d. exact E.
Qed.
Example C102_summary_ex : answer_says not_one (summary_says not_one) "urn:p" (rs_answer "querySummaryConfirmed" [rs_reservation "true" []]) [rs_says true []] /\
  exists d, requester_service "f" (action "querySummaryConfirmed", rs_env (rs_answer "querySummaryConfirmed" [rs_reservation "true" []])) = Some (Ok (RResults "querySummaryConfirmed" d [rs_says true []])).
Proof.
  split; [|eexists; vm_compute; reflexivity]. constructor; [|constructor]. apply rs_top_says; [exact rs_zero|exact rs_true|]. apply rs_summary_says. intros k [].
Qed.

(** * What is not read so *)
(** The claim, for given booleans, numbers, and whether the list may be left out. *)
Definition all_recursive_read (boolean : string -> bool -> Prop) (number : Z -> Prop) (may_lack : Prop) : Prop :=
  forall fresh env kids e prov l,
  message env kids [e] -> header_sound kids -> e_tag e = "{CT}queryRecursiveConfirmed" -> field "providerNSA" kids (Some prov) ->
  answer_says boolean (criteria_say boolean number may_lack) prov e l ->
  exists d, header_says fresh kids d /\ requester_service fresh (action "queryRecursiveConfirmed", env) = Some (Ok (RResults "queryRecursiveConfirmed" d l)).
Lemma rs_not boolean number may_lack rs l : answer_says boolean (criteria_say boolean number may_lack) "urn:p" (rs_answer "queryRecursiveConfirmed" rs) l ->
  all_recursive_read boolean number may_lack ->
  exists d, requester_service "f" (action "queryRecursiveConfirmed", rs_env (rs_answer "queryRecursiveConfirmed" rs)) = Some (Ok (RResults "queryRecursiveConfirmed" d l)).
Proof.
  intros A K. destruct (rs_message (rs_answer "queryRecursiveConfirmed" rs)) as (M & H & P). destruct (K "f" _ _ _ _ _ M H eq_refl P A) as (d & _ & E). exists d. exact E.
Qed.
(** Numbers are compared as texts: child 10 comes before child 2 (queryhelper.py:149). *)
Theorem C102_order_refuted : ~ all_recursive_read not_one nonneg False /\
  exists d, requester_service "f" (action "queryRecursiveConfirmed",
    rs_env (rs_answer "queryRecursiveConfirmed" [rs_reservation "true" [Elem "children" [] None [rs_child 2 "x" []; rs_child 10 "y" []]]])) =
    Some (Ok (RResults "queryRecursiveConfirmed" d [rs_says true [rs_says_child "y" []; rs_says_child "x" []]])).
Proof.
  assert (E0 : exists d, requester_service "f" (action "queryRecursiveConfirmed",
    rs_env (rs_answer "queryRecursiveConfirmed" [rs_reservation "true" [Elem "children" [] None [rs_child 2 "x" []; rs_child 10 "y" []]]])) =
    Some (Ok (RResults "queryRecursiveConfirmed" d [rs_says true [rs_says_child "y" []; rs_says_child "x" []]]))) by (eexists; vm_compute; reflexivity).
  split; [|exact E0]. intros K. destruct E0 as (d0 & E0).
  destruct (rs_not not_one nonneg False [rs_reservation "true" [Elem "children" [] None [rs_child 2 "x" []; rs_child 10 "y" []]]] [rs_says true [rs_says_child "x" []; rs_says_child "y" []]]) as (d & E);
    [|exact K|rewrite E0 in E; discriminate E].
  constructor; [|constructor]. apply rs_top_says; [exact rs_zero|exact rs_true|]. eapply rs_crit_says.
  - constructor; [|constructor; [|constructor]]; (eapply rs_child_says; [exact rs_true|exact rs_zero|unfold nonneg; lia|constructor|exact rs_empty]).
  - eexists. split; [reflexivity|]. split; [constructor; [constructor; constructor|constructor; [cbn; lia|constructor]]|reflexivity].
Qed.
Print Assumptions C102_order_refuted.
(** The list of children may be left out; the binding has None for it then
    (nsiconnection.py:736) and the answer is not read at all (queryhelper.py:149). *)
Theorem C102_children_refuted : ~ all_recursive_read not_one digit True /\
  requester_service "f" (action "queryRecursiveConfirmed", rs_env (rs_answer "queryRecursiveConfirmed" [rs_reservation "true" []])) = Some (Err EType).
Proof.
  assert (E0 : requester_service "f" (action "queryRecursiveConfirmed", rs_env (rs_answer "queryRecursiveConfirmed" [rs_reservation "true" []])) = Some (Err EType)) by (vm_compute; reflexivity).
  split; [|exact E0]. intros K. destruct (rs_not not_one digit True [rs_reservation "true" []] [rs_says true []]) as (d & E); [|exact K|rewrite E0 in E; discriminate E].
  constructor; [|constructor]. apply rs_top_says; [exact rs_zero|exact rs_true|]. apply say_criteria with (p := rs_p2ps);
    [exact (one_attr "criteria" "version" "3" None _)|apply rs_schedule|apply rs_one; intros k []|apply rs_service|].
  apply say_none; [exact Logic.I|]. intros k [<-|[<-|[<-|[]]]]; discriminate.
Qed.
Print Assumptions C102_children_refuted.
(** A data plane that is up, written "1", is read as down. *)
Theorem C102_one_refuted : ~ all_recursive_read xsd_boolean digit False /\
  exists d, requester_service "f" (action "queryRecursiveConfirmed", rs_env (rs_answer "queryRecursiveConfirmed" [rs_reservation "1" [Elem "children" [] None []]])) =
    Some (Ok (RResults "queryRecursiveConfirmed" d [rs_says false []])).
Proof.
  assert (E0 : exists d, requester_service "f" (action "queryRecursiveConfirmed", rs_env (rs_answer "queryRecursiveConfirmed" [rs_reservation "1" [Elem "children" [] None []]])) =
    Some (Ok (RResults "queryRecursiveConfirmed" d [rs_says false []]))) by (eexists; vm_compute; reflexivity).
  split; [|exact E0]. intros K. destruct E0 as (d0 & E0).
  destruct (rs_not xsd_boolean digit False [rs_reservation "1" [Elem "children" [] None []]] [rs_says true []]) as (d & E); [|exact K|rewrite E0 in E; discriminate E].
  constructor; [|constructor]. apply rs_top_says; [constructor|constructor|]. eapply rs_crit_says; [constructor|exact rs_empty].
Qed.
Print Assumptions C102_one_refuted.
(** A connection whose requester is not known is told as one of a requester called
    "None" (nsiconnection.py:206). *)
Theorem C102_nobody_refuted : forall w prov h cid gid desc ty crits pv sts nid rid, Forall (crit_ok w) crits ->
  exists kids, send_recursive h [CI cid gid desc ty crits pv None sts nid rid] = Ok (tell h "queryRecursiveConfirmed" kids) /\
    forall t, answer_says not_one (criteria_say not_one nonneg False) prov (wire (Elem t [] None kids)) [seen prov (CI cid gid desc ty crits pv (Some "None") sts nid rid)].
Proof.
  intros w prov h cid gid desc ty crits pv sts nid rid F.
  destruct (C102_written w prov h [CI cid gid desc ty crits pv (Some "None") sts nid rid]) as [(kids & E & _ & A) _]; [constructor; [split; [discriminate|exact F]|constructor]|].
  exists kids. split; [exact E|exact A].
Qed.
Print Assumptions C102_nobody_refuted.
Example C102_nobody_ex : Forall (crit_ok 1) [QC 0 ex_sched ex_sd []].
Proof. constructor; [|constructor]. constructor; [exact ex_sched_ok|exact ex_p2p_ok|cbn; lia|constructor]. Qed.
