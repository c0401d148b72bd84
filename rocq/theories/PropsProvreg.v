(** Property C20: the provider registry. *)
From Verif Require Import Base ModelProvreg ProofsProvreg.

Theorem C20_stable : forall fs n ops ops' net p,
  get_provider net (pr_run fs n ops) = Ok p -> get_provider net (pr_run fs n (ops ++ ops')) = Ok p.
Proof. exact c20_stable. Qed.
Print Assumptions C20_stable.

Theorem C20_spawn_known : forall fs n ops ag net p, let s := pr_run fs n ops in
  aget net (pr_providers s) = Some p -> spawn_provider ag net s = (s, Ok (Some p)).
Proof. exact c20_spawn_known. Qed.
Print Assumptions C20_spawn_known.

(** a further network of a known agent: no factory call, the provider of one of
    the agent's networks *)
Theorem C20_spawn_shared : forall fs n ops ag net, let s := pr_run fs n ops in
  aget net (pr_providers s) = None -> (exists other, get_provider_urn other s = Ok (ag_urn ag)) ->
  exists other p, get_provider_urn other s = Ok (ag_urn ag) /\ aget other (pr_providers s) = Some p /\
    let s' := fst (spawn_provider ag net s) in
    aget net (pr_providers s') = Some p /\ get_provider_urn net s' = Ok (ag_urn ag) /\
    pr_spawned s' = pr_spawned s /\ pr_next s' = pr_next s /\
    (forall m, m <> net -> aget m (pr_providers s') = aget m (pr_providers s)).
Proof. exact c20_spawn_shared. Qed.
Print Assumptions C20_spawn_shared.

Theorem C20_spawn_new : forall fs n ops ag net st, let s := pr_run fs n ops in
  aget net (pr_providers s) = None -> (forall other, get_provider_urn other s <> Ok (ag_urn ag)) ->
  ag_service ag = Some st -> In st fs ->
  let s' := fst (spawn_provider ag net s) in
  snd (spawn_provider ag net s) = Ok (Some (pr_next s)) /\
  aget net (pr_providers s') = Some (pr_next s) /\ get_provider_urn net s' = Ok (ag_urn ag) /\
  pr_spawned s' = pr_spawned s ++ [(pr_next s, ag)] /\
  (forall m, m <> net -> aget m (pr_providers s') = aget m (pr_providers s)).
Proof. exact c20_spawn_new. Qed.
Print Assumptions C20_spawn_new.

(** A network nobody registered has no provider, and neither has the name of an
    agent, which is refused as such. *)
Theorem C20_unknown_network : forall fs n ops net, let s := pr_run fs n ops in
  (forall x, net <> x +++ ":nsa") -> (forall u p, ~ In (PAdd u net p) ops) -> (forall ag, ~ In (PSpawn ag net) ops) ->
  get_provider net s = Err ESTPResolution.
Proof.
  intros fs n ops net s H. apply c20_unknown. destruct (ends_with ":nsa" net) eqn:E; [|reflexivity]. exfalso. apply ends_iff in E as (t & E). exact (H t E).
Qed.
Theorem C20_agent_refused : forall x s, get_provider (x +++ ":nsa") s = Err EValue.
Proof. intros x s. unfold get_provider. rewrite (proj2 (ends_iff ":nsa" (x +++ ":nsa"))) by eauto. reflexivity. Qed.
Print Assumptions C20_agent_refused.
Print Assumptions C20_unknown_network.

Theorem C20_double_registration : forall urn net p s,
  aget net (pr_providers s) <> None -> add_provider urn net p s = (s, Some EValue).
Proof. exact c20_double. Qed.
Print Assumptions C20_double_registration.

Example C20_ex :
  let ag := mkAgent "urn:ogf:network:b:nsa" (Some "cs2") "http://b/" in
  let s := pr_run ["cs2"] 10 [PAdd "urn:ogf:network:a:nsa" "a:topo" 3; PSpawn ag "b:t1"; PSpawn ag "b:t2"; PAdd "x" "b:t1" 7] in
  get_provider "a:topo" s = Ok 3 /\ get_provider "b:t1" s = Ok 10 /\ get_provider "b:t2" s = Ok 10 /\
  get_provider "c" s = Err ESTPResolution /\ pr_spawned s = [(10, ag)] /\
  snd (spawn_provider (mkAgent "z" (Some "other") "") "z:t" s) = Err EKey.
Proof. repeat split; reflexivity. Qed.
