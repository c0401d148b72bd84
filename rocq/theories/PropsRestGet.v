(** Reading connections over REST (C81). *)
From Verif Require Import Base ModelAuthz ModelLabel ModelSTP ModelTime ModelRest ModelRestGet SpecLabel SpecSTP SpecTime SpecRestGet ProofsRestGet.
Open Scope Z_scope.

(** ** C81: what is shown is what is stored *)
Theorem C81_shown : forall allowed rq c subs, admits allowed rq -> plain_conn c -> versions subs ->
  exists j, conn_get allowed rq (Ok (c, subs)) = GJson 200 j /\ describes c subs j.
Proof.
  intros allowed rq c subs (ri & Ha) Hc Hv. destruct (conn2dict_ok c subs Hc Hv) as (j & E & P).
  exists j. unfold conn_get. rewrite Ha, E. auto.
Qed.
Print Assumptions C81_shown.

Definition g_rq : http_request := mkReq true (Some [("CN", "host")]) None.
Definition g_t1 : dt := mkDt 2030 1 2 3 4 5 0.
Definition g_t2 : dt := mkDt 2030 1 2 4 4 5 250000.
Definition g_src : stp := mkSTP "a.net:2013:topology" "p1" (Some (mkLabel "vlan" [(1780, 1780)])).
Definition g_dst : stp := mkSTP "b.net:2013:topology" "p2" None.
Definition g_conn : shown_conn := mkShown "AN-1" (Some g_t1) (Some g_t2) g_src g_dst 100 g_t1 "ReserveHeld" "Released" "Created".
Definition g_up : shown_sub := mkShownSub true (Some 2) (Some true).
Definition g_new : shown_sub := mkShownSub false None None.
Lemma g_t1_exists : time_exists g_t1. Proof. unfold time_exists, date_exists. vm_compute. intuition (try discriminate; try reflexivity). Qed.
Lemma g_t2_exists : time_exists g_t2. Proof. unfold time_exists, date_exists. vm_compute. intuition (try discriminate; try reflexivity). Qed.
Lemma g_plain : plain_conn g_conn.
Proof.
  split; [|split; [|split; [exact g_t1_exists|split]]].
  - split; [reflexivity|]. split; [reflexivity|]. split; [reflexivity|]. split; [reflexivity|]. intros l [= <-]. split; [left; reflexivity|].
    unfold wf_values. cbn [lvalues]. split; [discriminate|]. split; [apply normal_one; lia|]. intros lo hi [[= <- <-]|[]]. lia.
  - split; [reflexivity|]. split; [reflexivity|]. split; [reflexivity|]. split; [reflexivity|]. intros l [=].
  - intros t [= <-]. exact g_t1_exists.
  - intros t [= <-]. exact g_t2_exists.
Qed.
Example C81_shown_ex : exists j, conn_get (Some [PBytes "host"]) g_rq (Ok (g_conn, [g_up; g_up])) = GJson 200 j /\ describes g_conn [g_up; g_up] j.
Proof.
  apply C81_shown; [eexists; vm_compute; reflexivity|exact g_plain|]. right. intros s [<-|[<-|[]]]; discriminate.
Qed.
Example C81_shown_text_ex : conn_get None g_rq (Ok (g_conn, [g_new])) =
  GJson 200 (JObj [("connection_id", JStr "AN-1"); ("start_time", JStr "2030-01-02T03:04:05Z"); ("end_time", JStr "2030-01-02T04:04:05.250000Z");
    ("source", JStr "a.net:2013:topology:p1?vlan=1780"); ("destination", JStr "b.net:2013:topology:p2"); ("capacity", JInt 100);
    ("created", JStr "2030-01-02T03:04:05Z"); ("reservation_state", JStr "ReserveHeld"); ("provision_state", JStr "Released");
    ("lifecycle_state", JStr "Created"); ("data_plane_active", JBool false)]).
Proof. vm_compute. reflexivity. Qed.

(** The list has one object for each connection, in the order of the database. *)
Theorem C81_list : forall allowed rq rows, (forall r, In r rows -> plain_conn (fst r) /\ versions (snd r)) ->
  exists l, list_get allowed rq (Ok rows) = GJson 200 (JList l) /\ Forall2 (fun r j => describes (fst r) (snd r) j) rows l.
Proof. exact list_get_ok. Qed.
Print Assumptions C81_list.
Example C81_list_ex : exists l, list_get None g_rq (Ok [(g_conn, [g_up]); (g_conn, [])]) = GJson 200 (JList l) /\ List.length l = 2%nat.
Proof.
  destruct (C81_list None g_rq [(g_conn, [g_up]); (g_conn, [])]) as (l & E & P).
  - intros r [<-|[<-|[]]]; (split; [exact g_plain|left; cbn; lia]).
  - exists l. split; [exact E|]. clear E. inversion P as [|? ? ? ? _ P1]; subst. inversion P1 as [|? ? ? ? _ P2]; subst. inversion P2. reflexivity.
Qed.

(** A connection that is not there: 404. *)
Theorem C81_missing : forall allowed rq e, admits allowed rq -> conn_get allowed rq (Err e) = GText 404.
Proof. intros allowed rq e (ri & H). unfold conn_get. rewrite H. reflexivity. Qed.
Print Assumptions C81_missing.
Example C81_missing_ex : conn_get (Some [PBytes "host"]) g_rq (Err EConnectionNonExistent) = GText 404.
Proof. apply C81_missing. eexists. vm_compute. reflexivity. Qed.

(** A request that is not admitted is told nothing: what it gets does not depend on
    what is stored. *)
Theorem C81_guarded : forall allowed rq a b, ~ admits allowed rq ->
  conn_get allowed rq a = conn_get allowed rq b /\ status_get allowed rq a = status_get allowed rq b /\ ~ reveals (conn_get allowed rq a).
Proof.
  intros allowed rq a b H. unfold conn_get, status_get. destruct (check_authz allowed rq) as [[[] ri]|e] eqn:E.
  - exfalso. apply H. exists ri. exact E.
  - split; [reflexivity|]. split; [reflexivity|]. intros (c & j & X). discriminate.
  - split; [reflexivity|]. split; [reflexivity|]. intros (c & j & X). discriminate.
Qed.
Print Assumptions C81_guarded.
Example C81_guarded_ex : ~ admits (Some [PStr "other"]) g_rq /\ conn_get (Some [PStr "other"]) g_rq (Ok (g_conn, [])) = GReturned 401 (PStr "unauthorized").
Proof. split; [intros (ri & H); revert H; vm_compute; discriminate|vm_compute; reflexivity]. Qed.

(** What was shown may be posted again: it asks for the same connection, when both
    times are set. *)
Theorem C81_again_partial : forall allowed rq c subs j ri s e, plain_conn c -> sc_start c = Some s -> sc_end c = Some e ->
  conn_get allowed rq (Ok (c, subs)) = GJson 200 j ->
  reserve_request j ri = Ok (Some (CReserve (sc_source c) (sc_dest c) (Some s) (Some e) (JInt (sc_bandwidth c)) ri)).
Proof.
  intros allowed rq c subs j ri s e Hc Hs He H. apply (again_ok c subs); try assumption. revert H. unfold conn_get.
  destruct (check_authz allowed rq) as [[[] ri']|er]; try discriminate. destruct (conn2dict c subs) as [j'|er]; [|discriminate]. intros [= ->]. reflexivity.
Qed.
Print Assumptions C81_again_partial.
Example C81_again_ex : exists j, conn_get None g_rq (Ok (g_conn, [g_up])) = GJson 200 j /\
  forall ri, reserve_request j ri = Ok (Some (CReserve g_src g_dst (Some g_t1) (Some g_t2) (JInt 100) ri)).
Proof.
  destruct (C81_shown None g_rq g_conn [g_up]) as (j & E & _); [eexists; vm_compute; reflexivity|exact g_plain|left; cbn; lia|].
  exists j. split; [exact E|]. intros ri. apply (C81_again_partial None g_rq g_conn [g_up] j ri g_t1 g_t2 g_plain eq_refl eq_refl E).
Qed.

(** ** Refuted *)
(** The list is shown to anyone. *)
Theorem C81_list_open_refuted : ~ (forall allowed rq rows, ~ admits allowed rq -> ~ reveals (list_get allowed rq (Ok rows))).
Proof.
  intros H. apply (H (Some [PStr "other"]) g_rq [(g_conn, [])]).
  - intros (ri & E). revert E. vm_compute. discriminate.
  - eexists. eexists. vm_compute. reflexivity.
Qed.
Print Assumptions C81_list_open_refuted.
(** A connection without an end time cannot be posted as it is shown. *)
Theorem C81_again_refuted : ~ (forall c j ri, plain_conn c -> conn_get None g_rq (Ok (c, [])) = GJson 200 j -> exists k, reserve_request j ri = Ok (Some k)).
Proof.
  intros H. destruct g_plain as (A & B & C & D & _).
  destruct (H (mkShown "AN-1" (Some g_t1) None g_src g_dst 100 g_t1 "ReserveHeld" "Released" "Created")
    (JObj [("connection_id", JStr "AN-1"); ("start_time", JStr "2030-01-02T03:04:05Z"); ("end_time", JNull);
    ("source", JStr "a.net:2013:topology:p1?vlan=1780"); ("destination", JStr "b.net:2013:topology:p2"); ("capacity", JInt 100);
    ("created", JStr "2030-01-02T03:04:05Z"); ("reservation_state", JStr "ReserveHeld"); ("provision_state", JStr "Released");
    ("lifecycle_state", JStr "Created"); ("data_plane_active", JBool false)]) (mkRI None)) as (k & E).
  - repeat (split; [assumption|]). intros t [=].
  - vm_compute. reflexivity.
  - revert E. vm_compute. discriminate.
Qed.
Print Assumptions C81_again_refuted.
(** One connection of two segments, as it is when just reserved, and nobody is shown
    any list. *)
Theorem C81_stuck_refuted : forall allowed rq rows c s1 s2 r, sb_version s1 = None \/ sb_version s2 = None -> In (c, s1 :: s2 :: r) rows ->
  list_get allowed rq (Ok rows) = Silent.
Proof. exact stuck_list. Qed.
Print Assumptions C81_stuck_refuted.
Example C81_stuck_ex : list_get None g_rq (Ok [(g_conn, [g_up]); (g_conn, [g_new; g_new])]) = Silent.
Proof. apply (C81_stuck_refuted _ _ _ g_conn g_new g_new []); [left; reflexivity|right; left; reflexivity]. Qed.
(** The long poll never says anything to those it admits. *)
Theorem C81_status_refuted : forall allowed rq found, admits allowed rq -> status_get allowed rq found = Silent.
Proof. intros allowed rq found (ri & H). unfold status_get. rewrite H. destruct found as [[c subs]|e]; reflexivity. Qed.
Print Assumptions C81_status_refuted.
Example C81_status_ex : status_get (Some [PBytes "host"]) g_rq (Ok (g_conn, [g_up])) = Silent.
Proof. apply C81_status_refuted. eexists. vm_compute. reflexivity. Qed.
