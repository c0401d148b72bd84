(** C102: answers to queries as the NSI documents (GFD.212 and its schemas) have them,
    whoever wrote them.  The parts are those of C99. *)
From Verif Require Import Base ModelXml ModelHeader ModelSTP ModelTime ModelQueryHelper SpecHeader SpecDocument.
Require Import Coq.Sorting.Permutation Coq.Sorting.Sorted.
Open Scope Z_scope.

(** The children of a connection follow each other by their numbers, in whatever order
    they are written. *)
Definition in_sequence (ps : list (Z * cinfo)) (kids : list cinfo) : Prop :=
  exists qs, Permutation ps qs /\ StronglySorted (fun a b => fst a < fst b) qs /\ kids = map snd qs.
Definition schedule_says (c : element) (s : sched) : Prop :=
  exists e, first_kid "schedule" (e_kids c) e /\ opt_time_is "startTime" (e_kids e) (sc_start s) /\ opt_time_is "endTime" (e_kids e) (sc_end s).
Definition one_service (c p : element) : Prop :=
  In p (e_kids c) /\ forall k, In k (e_kids c) -> In (e_tag k) ["schedule"; "serviceType"; "children"] \/ k = p.
Definition opt_number_is (tag : string) (kids : list element) (o : option Z) : Prop := field tag kids (option_map py_str o).

Section Results.
  (** the texts of booleans, the numbers children may have, and whether the list of
      children may be left out where there are none *)
  Variables (boolean : string -> bool -> Prop) (number : Z -> Prop) (may_lack : Prop).

  (** A point to point service; a route and parameters may be there. *)
  Definition service_says (p : element) (s : p2p) : Prop :=
    e_tag p = "{http://schemas.ogf.org/nsi/2013/12/services/point2point}p2ps" /\ field "capacity" (e_kids p) (Some (py_str (p_cap s))) /\
    field "directionality" (e_kids p) (Some (p_dir s)) /\ opt_bool_is boolean "symmetricPath" (e_kids p) (p_sym s) /\
    stp_is "sourceSTP" (e_kids p) (p_src s) /\ stp_is "destSTP" (e_kids p) (p_dst s).
  Definition states_say (k : element) (s : cstates) : Prop :=
    exists e, first_kid "connectionStates" (e_kids k) e /\ states_are boolean e (cs_r s) (cs_p s) (cs_l s) (cs_act s) (cs_ver s) (cs_cons s).
  (** Criteria, with the connections they are made of. *)
  Inductive criteria_say : element -> crit -> Prop :=
  | say_criteria c rev sc p s kids : attr_is c "version" (Some (py_str rev)) -> schedule_says c sc -> one_service c p -> service_says p s -> children_say c kids ->
      criteria_say c (QC rev sc (Some s) kids)
  with children_say : element -> list cinfo -> Prop :=
  | say_none c : may_lack -> (forall k, In k (e_kids c) -> e_tag k <> "children") -> children_say c []
  | say_children c ch ps kids : first_kid "children" (e_kids c) ch -> Forall2 child_says (e_kids ch) ps -> in_sequence ps kids -> children_say c kids
  with child_says : element -> Z * cinfo -> Prop :=
  | say_child k n cid prov ty sts crits first : e_tag k = "child" -> attr_is k "order" (Some (py_str n)) -> number n ->
      field "connectionId" (e_kids k) (Some cid) -> field "providerNSA" (e_kids k) (Some prov) -> states_say k sts ->
      Forall2 criteria_say (named "criteria" (e_kids k)) crits -> first_kid "criteria" (e_kids k) first -> field "serviceType" (e_kids first) (Some ty) ->
      child_says k (n, CI cid None None ty crits prov None sts None None).
  (** In a summary nothing is said of the children. *)
  Inductive summary_says : element -> crit -> Prop :=
  | say_summary c rev sc p s : attr_is c "version" (Some (py_str rev)) -> schedule_says c sc -> one_service c p -> service_says p s -> summary_says c (QC rev sc (Some s) []).
  (** One reservation.  What is made of it always has the same service type. *)
  Inductive reservation_says (criterion : element -> crit -> Prop) (provider : string) : element -> cinfo -> Prop :=
  | say_reservation e cid gid desc crits req sts nid rid : e_tag e = "reservation" ->
      field "connectionId" (e_kids e) (Some cid) -> field "globalReservationId" (e_kids e) gid -> field "description" (e_kids e) desc ->
      Forall2 criterion (named "criteria" (e_kids e)) crits -> field "requesterNSA" (e_kids e) req -> states_say e sts ->
      opt_number_is "notificationId" (e_kids e) nid -> opt_number_is "resultId" (e_kids e) rid ->
      reservation_says criterion provider e (CI cid gid desc "http://services.ogf.org/nsi/2013/07/descriptions/EVTS.A-GOLE" crits provider req sts nid rid).
  Definition answer_says (criterion : element -> crit -> Prop) (provider : string) (e : element) (l : list cinfo) : Prop :=
    Forall2 (reservation_says criterion provider) (named "reservation" (e_kids e)) l.
End Results.

(** The numbers of children: any, and those of one digit. *)
Definition nonneg (n : Z) : Prop := 0 <= n.
Definition digit (n : Z) : Prop := 0 <= n <= 9.
(** What a summary carries of a connection. *)
Definition brief_crit (c : crit) : crit := let 'QC rev sc sd _ := c in QC rev sc sd [].
Definition brief (prov : string) (c : cinfo) : cinfo := let 'CI cid gid desc _ crits _ req sts nid rid := c in
  CI cid gid desc "http://services.ogf.org/nsi/2013/07/descriptions/EVTS.A-GOLE" (map brief_crit crits) prov req sts nid rid.
