(** Properties C13-C17 and C58: routes. *)
From Verif Require Import Base ModelLinkVector SpecLinkVector ProofsLinkVector.
Open Scope Z_scope.

Theorem C13_routes_genuine : forall bl mx ops dst src hops, ops_ok bl 0 ops ->
  let s := lv_run bl mx ops in nonneg (lv_table s) -> lv_path dst src s = Ok (Some hops) ->
  In src (lv_local s) /\ exists c, walk (lv_table s) bl src dst hops c /\ c <= mx.
Proof. exact c13. Qed.
Print Assumptions C13_routes_genuine.

Theorem C14_cheapest : forall bl mx ops dst src hops, ops_ok bl 0 ops ->
  let s := lv_run bl mx ops in nonneg (lv_table s) -> lv_path dst src s = Ok (Some hops) ->
  exists c, walk (lv_table s) bl src dst hops c /\
            forall hops' c', walk (lv_table s) bl src dst hops' c' -> c <= c'.
Proof. exact c14_cheapest. Qed.
Print Assumptions C14_cheapest.

Theorem C14_no_route_iff : forall bl mx ops dst src, ops_ok bl 0 ops ->
  let s := lv_run bl mx ops in nonneg (lv_table s) -> In src (lv_local s) -> dst <> src ->
  (lv_path dst src s = Ok None <-> ~ exists hops c, walk (lv_table s) bl src dst hops c /\ c <= mx).
Proof. exact c14_complete. Qed.
Print Assumptions C14_no_route_iff.

Theorem C15_path_terminates : forall bl mx ops dst src, ops_ok bl 0 ops ->
  let s := lv_run bl mx ops in nonneg (lv_table s) ->
  (In src (lv_local s) -> (exists r, lv_path dst src s = Ok r) /\ exists r, lv_vector dst src s = Ok r) /\
  (~ In src (lv_local s) -> lv_path dst src s = Err EValue /\ lv_vector dst src s = Err EValue).
Proof. exact c15_path. Qed.
Print Assumptions C15_path_terminates.

(** recomputation never fails (whatever the costs); the only refusal is adding a
    local network twice, and it changes nothing *)
Theorem C15_updates_succeed : forall bl mx ops o, ops_ok bl 0 (ops ++ [o]) ->
  let r := lv_step (lv_run bl mx ops) o in
  snd r = None \/ exists n, o = LAdd n /\ In n (lv_local (lv_run bl mx ops)) /\ r = (lv_run bl mx ops, Some EValue).
Proof. exact c15_ops. Qed.
Print Assumptions C15_updates_succeed.

(** the answer is a function of the local networks and the stored vectors *)
Theorem C16_routes_current : forall bl mx ops ops' dst src, ops_ok bl 0 ops -> ops_ok bl 0 ops' ->
  let s := lv_run bl mx ops in let s' := lv_run bl mx ops' in
  lv_local s = lv_local s' -> lv_table s = lv_table s' -> lv_path dst src s = lv_path dst src s'.
Proof. exact c16_current. Qed.
Print Assumptions C16_routes_current.

Theorem C16_deleted_port_unused : forall bl mx ops net port dst src hops, ops_ok bl 0 ops ->
  let s := lv_run bl mx (ops ++ [LDelete net port]) in nonneg (lv_table s) ->
  lv_path dst src s = Ok (Some hops) -> ~ In (net, port) hops.
Proof. exact c16_deleted. Qed.
Print Assumptions C16_deleted_port_unused.

Theorem C16_learned_routable : forall bl mx ops net port r dest c, ops_ok bl 0 (ops ++ [LUpdate net port r]) ->
  let s := lv_run bl mx ops in let s' := lv_run bl mx (ops ++ [LUpdate net port r]) in
  nonneg (lv_table s') -> In net (lv_local s) -> dest <> net -> ~ In dest bl ->
  aget dest (nth r (lv_heap s) []) = Some c -> c <= mx ->
  (forall old, vectors_of s net port = Some old -> aget dest old = None) ->
  exists hops, lv_path dest net s' = Ok (Some hops).
Proof. exact c16_learned. Qed.
Print Assumptions C16_learned_routable.

Definition ex_ops : list lv_op :=
  [LAdd "A"; LDict [("B", 1); ("C", 4)]; LUpdate "A" "p1" 0; LDict [("C", 1); ("X", 0)]; LUpdate "B" "p2" 1;
   LDict [("D", 1)]; LUpdate "C" "p3" 2; LUpdate "X" "p4" 2].
Example C13_ex : ops_ok ["X"] 0 ex_ops /\
  lv_path "D" "A" (lv_run ["X"] 5 ex_ops) = Ok (Some [("A", "p1"); ("B", "p2"); ("C", "p3")]) /\
  lv_path "X" "A" (lv_run ["X"] 5 ex_ops) = Ok None /\
  lv_path "D" "A" (lv_run ["X"] 2 ex_ops) = Ok None /\
  lv_path "D" "A" (lv_run ["X"] 5 (ex_ops ++ [LDelete "B" "p2"])) = Ok (Some [("A", "p1"); ("C", "p3")]) /\
  lv_path "D" "B" (lv_run ["X"] 5 ex_ops) = Err EValue /\
  snd (lv_step (lv_run ["X"] 5 ex_ops) (LAdd "A")) = Some EValue.
Proof.
  split; [|repeat split; reflexivity].
  repeat (split; [first [lia | now (intros [H|[]]) | repeat constructor; cbn; intuition congruence]|]). exact I.
Qed.
Example C13_ex_nonneg : nonneg (lv_table (lv_run ["X"] 5 ex_ops)).
Proof.
  intros u p v c (d & H1 & H2). apply aget_In in H1. apply aget_In in H2.
  vm_compute in H1. repeat destruct H1 as [H1|H1]; try contradiction; injection H1 as _ _ <-;
    cbn in H2; repeat destruct H2 as [H2|H2]; try contradiction; injection H2 as _ <-; lia.
Qed.
(** the hypothesis of C15 is needed: a blacklisted local network breaks the recomputation *)
Example C15_blacklisted_source : snd (lv_step (lv_run ["A"] 5 [LAdd "A"; LDict [("B", 1)]]) (LUpdate "A" "p" 0)) = Some EKey.
Proof. reflexivity. Qed.

(** C17 as stated is false: the first advertised cost is kept *)
Theorem C17_readvertised_cost_refuted :
  ~ (forall bl mx ops net port r dest c, ops_ok bl 0 (ops ++ [LUpdate net port r]) ->
     aget dest (nth r (lv_heap (lv_run bl mx ops)) []) = Some c ->
     exists d, vectors_of (lv_run bl mx (ops ++ [LUpdate net port r])) net port = Some d /\ aget dest d = Some c).
Proof.
  intros H.
  specialize (H [] 5 [LAdd "A"; LDict [("B", 1)]; LUpdate "A" "p" 0; LDict [("B", 9)]] "A" "p" 1%nat "B" 9).
  destruct H as (d & H1 & H2).
  - cbn. repeat (split; [first [lia | tauto | repeat constructor; cbn; tauto]|]). exact I.
  - reflexivity.
  - vm_compute in H1. injection H1 as <-. vm_compute in H2. discriminate.
Qed.
Print Assumptions C17_readvertised_cost_refuted.

(** and a route over the limit is still answered after the higher cost was advertised *)
Example C17_stale_route : lv_path "B" "A"
  (lv_run [] 5 [LAdd "A"; LDict [("B", 1)]; LUpdate "A" "p" 0; LDict [("B", 9)]; LUpdate "A" "p" 1]) = Ok (Some [("A", "p")]).
Proof. reflexivity. Qed.

(** what does hold: a destination unknown to the port gets the advertised cost,
    a known one keeps its old cost.  Missing: the new cost of a known destination. *)
Theorem C17_new_destination_partial : forall bl mx ops net port r dest c, ops_ok bl 0 (ops ++ [LUpdate net port r]) ->
  let s := lv_run bl mx ops in let s' := lv_run bl mx (ops ++ [LUpdate net port r]) in
  aget dest (nth r (lv_heap s) []) = Some c ->
  exists d, vectors_of s' net port = Some d /\
    aget dest d = match vectors_of s net port with
                  | Some old => match aget dest old with Some c0 => Some c0 | None => Some c end
                  | None => Some c
                  end.
Proof. exact c17_partial. Qed.
Print Assumptions C17_new_destination_partial.

(** C58 is false: the discovery poller hands the same dictionary to several
    ports, and a later update of one of them is visible at the other *)
Theorem C58_ports_independent_refuted :
  ~ (forall bl mx ops net port r net' port', ops_ok bl 0 (ops ++ [LUpdate net port r]) ->
     (net', port') <> (net, port) ->
     vectors_of (lv_run bl mx (ops ++ [LUpdate net port r])) net' port' = vectors_of (lv_run bl mx ops) net' port').
Proof.
  intros H.
  specialize (H [] 5 [LAdd "A"; LDict [("B", 1)]; LUpdate "A" "p" 0; LUpdate "A" "q" 0; LDict [("C", 2)]] "A" "p" 1%nat "A" "q").
  assert (E : vectors_of (lv_run [] 5 [LAdd "A"; LDict [("B", 1)]; LUpdate "A" "p" 0; LUpdate "A" "q" 0; LDict [("C", 2)]; LUpdate "A" "p" 1]) "A" "q"
              = Some [("B", 1); ("C", 2)]) by reflexivity.
  cbn [app] in H. rewrite E in H. vm_compute in H.
  discriminate H.
  - repeat (split; [first [lia | tauto | repeat constructor; cbn; tauto]|]). exact I.
  - congruence.
Qed.
Print Assumptions C58_ports_independent_refuted.

(** it holds while no two ports share a dictionary object *)
Theorem C58_ports_independent_partial : forall bl mx ops net port r net' port', ops_ok bl 0 (ops ++ [LUpdate net port r]) ->
  let s := lv_run bl mx ops in let s' := lv_run bl mx (ops ++ [LUpdate net port r]) in
  NoDup (map snd (lv_vecs s)) -> (net', port') <> (net, port) ->
  vectors_of s' net' port' = vectors_of s net' port'.
Proof. exact c58_partial. Qed.
Print Assumptions C58_ports_independent_partial.
