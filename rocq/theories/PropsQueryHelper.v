(** C55: query results on the wire. *)
From Verif Require Import Base ModelXml ModelLabel SpecLabel ModelSTP SpecSTP ModelTime SpecTime ModelQueryHelper SpecQueryHelper ProofsQueryHelper.
Open Scope Z_scope.

(** Missing from the full statement: criteria with more than ten children
    (refuted below), criteria without a point-to-point service, children
    without criteria (both refused, see below).  For all other trees, of any
    depth, the peer sees exactly the tree that was sent. *)
Theorem C55_round_trip_partial : forall provider l, Forall (top_ok 10) l ->
  transfer provider l = Ok (map (seen provider) l).
Proof. exact transfer_ok. Qed.
Print Assumptions C55_round_trip_partial.

Definition ex_stp (port : string) : stp := mkSTP "a.net" port (Some (mkLabel "vlan" [(1780, 1780)])).
Definition ex_sd : option p2p := Some (mkP2P (ex_stp "p1") (ex_stp "p2") 100 "Bidirectional" (Some false)).
Definition ex_states : cstates := mkCS "ReserveStart" "Provisioned" "Created" true 3 true.
Definition ex_sched : sched := mkSched (Some (mkDt 2024 2 29 12 0 0 0)) None.
Definition ex_child (id : string) (kids : list cinfo) : cinfo :=
  CI id None None P2PS [QC 1 ex_sched ex_sd kids] "urn:ogf:network:b.net:nsa" None ex_states None None.
Definition ex_top (kids : list cinfo) : cinfo :=
  CI "conn-1" (Some "gid") (Some "") EVTS_AGOLE [QC 0 ex_sched ex_sd kids] "us" (Some "urn:ogf:network:c.net:nsa") ex_states (Some 7) None.
Lemma ex_sched_ok : sched_ok ex_sched.
Proof. split; intros t; [|discriminate]. intros H. injection H as <-. vm_compute. intuition congruence. Qed.
Lemma ex_stp_ok port : In port ["p1"; "p2"] -> stp_ok (ex_stp port).
Proof.
  intros [<-|[<-|[]]]; (do 4 (split; [reflexivity|]));
  intros l H; injection H as <-; (split; [left; reflexivity|]); (split; [discriminate|]); (split; [constructor; lia|]);
  intros lo hi [E|[]]; injection E as <- <-; lia.
Qed.
Lemma ex_p2p_ok : p2p_ok (mkP2P (ex_stp "p1") (ex_stp "p2") 100 "Bidirectional" (Some false)).
Proof. split; apply ex_stp_ok; cbn; auto. Qed.
Example C55_round_trip_ex :
  Forall (top_ok 10) [ex_top [ex_child "x" [ex_child "z" []]; ex_child "y" []]] /\
  transfer "peer" [ex_top [ex_child "x" [ex_child "z" []]; ex_child "y" []]] =
  Ok [CI "conn-1" (Some "gid") (Some "") EVTS_AGOLE
       [QC 0 ex_sched ex_sd [ex_child "x" [ex_child "z" []]; ex_child "y" []]]
       "peer" (Some "urn:ogf:network:c.net:nsa") ex_states (Some 7) None].
Proof.
  split; [|vm_compute; reflexivity].
  pose proof ex_sched_ok as S. pose proof ex_p2p_ok as P.
  assert (forall id kids, (length kids <= 10)%nat -> Forall (child_ok 10) kids -> child_ok 10 (ex_child id kids)) as C.
  { intros id kids L F. constructor; [discriminate|]. constructor; [|constructor]. constructor; assumption. }
  constructor; [|constructor]. split; [discriminate|]. constructor; [|constructor]. constructor; [exact S|exact P|cbn; lia|].
  constructor; [apply C; [cbn; lia|]|constructor; [apply C; [cbn; lia|constructor]|constructor]].
  constructor; [apply C; [cbn; lia|constructor]|constructor].
Qed.

(** With eleven children their order is lost: the position is sent as a number
    but compared as text, so child number 10 is read before child number 2. *)
Definition ex_eleven : list cinfo :=
  map (fun id => ex_child id []) ["c0"; "c1"; "c2"; "c3"; "c4"; "c5"; "c6"; "c7"; "c8"; "c9"; "c10"].
Definition top_kids (r : result (list cinfo)) : list string :=
  match r with
  | Ok [CI _ _ _ _ [QC _ _ _ kids] _ _ _ _ _] => map (fun k => let 'CI id _ _ _ _ _ _ _ _ _ := k in id) kids
  | _ => []
  end.
Theorem C55_order_refuted :
  ~ (forall width provider l, Forall (top_ok width) l -> transfer provider l = Ok (map (seen provider) l)) /\
  top_kids (transfer "peer" [ex_top ex_eleven]) = ["c0"; "c1"; "c10"; "c2"; "c3"; "c4"; "c5"; "c6"; "c7"; "c8"; "c9"].
Proof.
  split; [|vm_compute; reflexivity]. intros H.
  assert (transfer "peer" [ex_top ex_eleven] = Ok (map (seen "peer") [ex_top ex_eleven])) as T; [apply (H 11%nat)|vm_compute in T; discriminate T].
  pose proof ex_sched_ok as S. pose proof ex_p2p_ok as P.
  constructor; [|constructor]. split; [discriminate|]. constructor; [|constructor]. constructor; [exact S|exact P|cbn; lia|].
  apply Forall_forall. intros c Hc. unfold ex_eleven in Hc. apply in_map_iff in Hc as (id & <- & _).
  constructor; [discriminate|]. constructor; [|constructor]. constructor; [exact S|exact P|cbn; lia|constructor].
Qed.
Print Assumptions C55_order_refuted.

(** A tree with a criteria that has no point-to-point service cannot be sent,
    and a child without criteria cannot be read. *)
Theorem C55_gaps_refuted :
  transfer "peer" [CI "c" None None EVTS_AGOLE [QC 0 ex_sched None []] "us" (Some "r") ex_states None None] = Err EAttribute /\
  transfer "peer" [ex_top [CI "c" None None P2PS [] "p" None ex_states None None]] = Err EType.
Proof. split; vm_compute; reflexivity. Qed.
Print Assumptions C55_gaps_refuted.
