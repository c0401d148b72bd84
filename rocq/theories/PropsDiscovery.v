(** Properties C47 and C48: discovery. *)
From Verif Require Import Base ModelSTP ModelProvreg ModelLinkVector SpecLinkVector ModelDiscovery SpecDiscovery ProofsDiscovery.
Open Scope Z_scope.

(** C47: the interval of the polling loop after each number of polls *)
Theorem C47_interval : forall P (p : P) ps n,
  interval_after (p :: ps) n = Z.min (5 * 2 ^ Z.of_nat n) 3600 /\
  interval_after (p :: ps) n <= interval_after (p :: ps) (S n) <= 2 * interval_after (p :: ps) n /\
  interval_after (p :: ps) 1 = 10.
Proof. intros P p ps n. split; [apply interval_closed|]. split; [apply interval_grows|reflexivity]. Qed.
Print Assumptions C47_interval.
(** the pause after a poll is positive and at most an hour *)
Theorem C47_pause_partial : forall P (p : P) ps durs n t t' d, nth_error (polls (p :: ps) durs) n = Some t ->
  nth_error (polls (p :: ps) durs) (S n) = Some t' -> nth_error durs n = Some d ->
  0 < t' - (t + d) <= 3600 * 1000000.
Proof.
  intros P p ps durs n t t' d H1 H2 H3. destruct (poll_times_gap p ps durs 0 start_interval n t t' d ltac:(reflexivity) H1 H2 H3) as (iv & Ha & Hb). lia.
Qed.
Print Assumptions C47_pause_partial.
Example C47_ex : map (interval_after [tt]) (seq 0 12) = [5; 10; 20; 40; 80; 160; 320; 640; 1280; 2560; 3600; 3600].
Proof. reflexivity. Qed.

(** The time between polls is not the interval: the loop aligns its calls with
    multiples of the interval, so it neither doubles nor keeps from decreasing,
    even with instantaneous fetches. *)
Definition us (l : list Z) : list Z := map (fun t => t / 1000000) l.
Example C47_ex_times : us (polls [tt] (repeat 0 11)) = [0; 10; 20; 40; 80; 160; 320; 640; 1280; 2560; 3600; 7200].
Proof. reflexivity. Qed.
Theorem C47_gaps_refuted :
  ~ (forall P (p : P) ps durs n a b c, Forall (fun d => 0 <= d) durs -> nth_error (polls (p :: ps) durs) n = Some a ->
     nth_error (polls (p :: ps) durs) (S n) = Some b -> nth_error (polls (p :: ps) durs) (S (S n)) = Some c -> b - a <= c - b) /\
  ~ (forall P (p : P) ps durs n a b c, Forall (fun d => 0 <= d) durs -> nth_error (polls (p :: ps) durs) n = Some a ->
     nth_error (polls (p :: ps) durs) (S n) = Some b -> nth_error (polls (p :: ps) durs) (S (S n)) = Some c ->
     Z.min (2 * (b - a)) (3600 * 1000000) <= c - b).
Proof.
  assert (F : Forall (fun d => 0 <= d) (repeat 0 11)) by (repeat constructor; lia).
  split; intros H.
  - specialize (H unit tt [] (repeat 0 11) 8%nat (1280 * 1000000) (2560 * 1000000) (3600 * 1000000) F). cbv in H.
    apply H; reflexivity.
  - specialize (H unit tt [] (repeat 0 11) 0%nat 0 (10 * 1000000) (20 * 1000000) F). cbv in H.
    apply H; reflexivity.
Qed.
Print Assumptions C47_gaps_refuted.

(** C48: the vectors of every port after a document, while no two ports share a
    dictionary object.  Missing: a destination the port knows already keeps its
    old cost (see C17). *)
Theorem C48_ports_partial : forall pt d s bl mx ops, ops_ok bl 0 ops -> dc_vec s = lv_run bl mx ops ->
  forall fs n0 pops, dc_prov s = pr_run fs n0 pops -> In CS2_SERVICE_TYPE fs ->
  forall url ident, url_of (d_interface d) url -> d_id d = URN_NETWORK +++ ident ->
  NoDup (map snd (lv_vecs (dc_vec s))) -> let s' := fst (got_document pt d s) in
  snd (got_document pt d s) = None /\ forall net port,
  (~ next_to pt d net port -> vectors_of (dc_vec s') net port = vectors_of (dc_vec s) net port) /\
  (next_to pt d net port -> exists dict, vectors_of (dc_vec s') net port = Some dict /\ forall n w, wanted d n w ->
     aget n dict = match vectors_of (dc_vec s) net port with
                   | Some old => match aget n old with Some c => Some c | None => w end
                   | None => w end).
Proof. exact c48_ports. Qed.
Print Assumptions C48_ports_partial.
(** providers: known networks keep theirs, the agent's networks get one, and if
    the agent was unknown it is a provider made for the agent at that URL *)
Theorem C48_providers : forall pt d s bl mx ops, ops_ok bl 0 ops -> dc_vec s = lv_run bl mx ops ->
  forall fs n0 pops, dc_prov s = pr_run fs n0 pops -> In CS2_SERVICE_TYPE fs ->
  forall url ident, url_of (d_interface d) url -> d_id d = URN_NETWORK +++ ident ->
  let s' := fst (got_document pt d s) in
  (forall m p, aget m (pr_providers (dc_prov s)) = Some p -> aget m (pr_providers (dc_prov s')) = Some p) /\
  (forall m, ~ own_network d m -> aget m (pr_providers (dc_prov s')) = aget m (pr_providers (dc_prov s))) /\
  (forall m, own_network d m -> aget m (pr_providers (dc_prov s')) <> None) /\
  (forall m, own_network d m -> aget m (pr_providers (dc_prov s)) = None -> get_provider_urn m (dc_prov s') = Ok (d_id d)) /\
  ((forall m, get_provider_urn m (dc_prov s) <> Ok (d_id d)) -> forall m, own_network d m -> aget m (pr_providers (dc_prov s)) = None ->
     exists p, aget m (pr_providers (dc_prov s')) = Some p /\ In (p, mkAgent (d_id d) (Some CS2_SERVICE_TYPE) (strip url)) (pr_spawned (dc_prov s'))).
Proof. exact c48_providers. Qed.
Print Assumptions C48_providers.
(** a document without usable interface or agent id changes nothing *)
Theorem C48_unusable_ignored : forall pt d s,
  (forall u, ~ url_of (d_interface d) u) \/ (forall i, d_id d <> URN_NETWORK +++ i) -> fst (got_document pt d s) = s.
Proof. exact c48_ignored. Qed.
Print Assumptions C48_unusable_ignored.
(** the wanted cost of a network is determined by the document *)
Theorem C48_wanted_total : forall d n, exists w, wanted d n w /\ forall w', wanted d n w' -> w' = w.
Proof. intros d n. exists (aget n (doc_vectors d)). split; [apply doc_vectors_wanted|]. intros w' H. exact (wanted_fun _ _ _ _ H (doc_vectors_wanted d n)). Qed.
Print Assumptions C48_wanted_total.

Definition u (s : string) : string := URN_NETWORK +++ s.
Definition ex_pt : port_table := [("A"%string, [("ps", None); ("b1", Some "B"); ("b2", Some "B2"); ("c", Some "C")]%string)].
Definition ex_doc : document :=
  mkDoc (u "b:nsa") [(CS2_SERVICE_TYPE, "http://old/"%string); (CS2_PROVIDER, " http://new/"%string); (CS2_SERVICE_TYPE, "http://x/"%string)]
        [u "B"; u "B2"; "junk"%string] [(u "D", 2); ("junk"%string, 3); (u "B", 7)].
Definition ex_disc : disc := mkDisc (pr_init [CS2_SERVICE_TYPE] 0) (lv_run [] 5 [LAdd "A"]).
Example C48_ex : let s' := fst (got_document ex_pt ex_doc ex_disc) in
  vectors_of (dc_vec s') "A" "b1" = Some [("D", 3); ("B", 1); ("B2", 1)]%string /\ vectors_of (dc_vec s') "A" "b2" = Some [("D", 3); ("B", 1); ("B2", 1)]%string /\
  vectors_of (dc_vec s') "A" "c" = None /\ vectors_of (dc_vec s') "A" "ps" = None /\
  pr_spawned (dc_prov s') = [(0%nat, mkAgent (u "b:nsa") (Some CS2_SERVICE_TYPE) "http://new/")] /\
  pr_providers (dc_prov s') = [("B", 0%nat); ("B2", 0%nat)]%string /\ lv_path "D" "A" (dc_vec s') = Ok (Some [("A", "b1")]%string).
Proof. vm_compute. repeat split. Qed.
Example C48_ex_hyp : url_of (d_interface ex_doc) " http://new/".
Proof. apply (url_provider _ [(CS2_SERVICE_TYPE, "http://old/"%string)] _ [(CS2_SERVICE_TYPE, "http://x/"%string)]); [reflexivity|]. intros x [E|[]]. discriminate. Qed.

(** As stated it fails: a port that already has a vector keeps the old cost, and
    a port that is not next to the agent changes when it shares a dictionary. *)
Theorem C48_ports_refuted :
  ~ (forall pt docs d net port n c, next_to pt d net port -> wanted d n (Some c) ->
     let s := fold_left (fun s d => fst (got_document pt d s)) docs ex_disc in
     exists dict, vectors_of (dc_vec (fst (got_document pt d s))) net port = Some dict /\ aget n dict = Some c) /\
  ~ (forall pt docs d net port, ~ next_to pt d net port ->
     let s := fold_left (fun s d => fst (got_document pt d s)) docs ex_disc in
     vectors_of (dc_vec (fst (got_document pt d s))) net port = vectors_of (dc_vec s) net port).
Proof.
  pose (d2 := mkDoc (u "b:nsa") [(CS2_PROVIDER, "http://new/"%string)] [u "B"] [(u "D", 9); (u "E", 1)]).
  split; intros H.
  - specialize (H ex_pt [ex_doc] d2 "A"%string "b1"%string "D"%string 10). destruct H as (dict & H1 & H2).
    + exists [("ps", None); ("b1", Some "B"); ("b2", Some "B2"); ("c", Some "C")]%string, "B"%string. split; [left; reflexivity|]. split; [right; left; reflexivity|left; reflexivity].
    + apply (want_other d2 "D" 9); [intros [E|[]]; discriminate|]. exists [], [(u "E", 1)]. split; [reflexivity|]. intros c' [E|[]]. discriminate.
    + vm_compute in H1. injection H1 as <-. vm_compute in H2. discriminate.
  - specialize (H ex_pt [ex_doc] d2 "A"%string "b2"%string).
    assert (N : ~ next_to ex_pt d2 "A" "b2").
    { intros (ports & r & [E|[]] & H2 & [H3|[]]). injection E as <-. assert (Hr : r = "B"%string) by (vm_compute in H3; injection H3 as <-; reflexivity). subst r.
      destruct H2 as [E|[E|[E|[E|[]]]]]; discriminate. }
    specialize (H N). vm_compute in H. discriminate.
Qed.
Print Assumptions C48_ports_refuted.
