(** Properties C25 and C26: outgoing requests. *)
From Verif Require Import Base ModelRequester SpecRequester ProofsRequester.
Open Scope Z_scope.

(** no deferred fires twice *)
Theorem C25_at_most_once : forall timeout evs, NoDup (fired_ids (log timeout init evs)).
Proof. exact c25_once. Qed.
Print Assumptions C25_at_most_once.

(** a deferred fires only after the one request that returned it, and because of an
    event with the key and action of that request, with the result this event carries *)
Theorem C25_own_answer : forall timeout evs l1 ev d o l2,
  log timeout init evs = l1 ++ (ev, Fired d o) :: l2 ->
  exists k a, returns l1 k a d /\ answers ev k a o /\
    (forall k' a', returns (log timeout init evs) k' a' d -> k' = k /\ a' = a).
Proof. exact c25_own_answer. Qed.
Print Assumptions C25_own_answer.

(** late or unknown answers change nothing *)
Theorem C25_late_answer : forall timeout evs ev k a,
  (forall a' d, returns (log timeout init evs) k a' d -> fires (log timeout init evs) d) ->
  carries ev = Some (k, a) -> is_request ev = false ->
  fst (step timeout (final timeout init evs) ev) = final timeout init evs /\
  forall d o, ~ In (Fired d o) (snd (step timeout (final timeout init evs) ev)).
Proof. exact c25_late. Qed.
Print Assumptions C25_late_answer.

Example C25_case :
  let k1 := ("urn:p", "c1") in let k2 := ("urn:p", "c2") in
  log 60 init [Request k1 AReserve; Request k2 AProvision; Advance 10; Confirmed k1 AReserve "id-1"; Confirmed k1 AReserve "id-1";
               Advance 70; FailedMsg k2 AProvision ENSI]
  = [(Request k1 AReserve, Returned 0%nat); (Request k2 AProvision, Returned 1%nat); (Confirmed k1 AReserve "id-1", Fired 0 (Value "id-1"));
     (Advance 70, Fired 1 (Failed ECallbackTimeout))].
Proof. reflexivity. Qed.

(** a message of another kind with the same provider and correlation id uses the
    request up: it never completes *)
Theorem C26_completes_refuted : ~ (forall timeout evs1 evs2 k a d t,
  0 < timeout ->
  snd (step timeout (final timeout init evs1) (Request k a)) = [Returned d] ->
  (forall t', In (Advance t') evs2 -> t' < now (final timeout init evs1) + timeout) ->
  ~ fires (log timeout (fst (step timeout (final timeout init evs1) (Request k a))) evs2) d ->
  now (final timeout init evs1) + timeout <= t ->
  In (Fired d (Failed ECallbackTimeout))
     (snd (step timeout (final timeout (fst (step timeout (final timeout init evs1) (Request k a))) evs2) (Advance t)))).
Proof.
  intros H. specialize (H 60 [] [Confirmed ("p", "c") AProvision "x"] ("p", "c") AReserve 0%nat 60).
  cbn in H. assert (Hf : False); [|exact Hf]. apply H; try lia; try reflexivity.
  - intros t' [E|[]]. discriminate.
  - intros (ev & o & [E|[]]). discriminate.
Qed.
Print Assumptions C26_completes_refuted.

(** if every message with the key of the request carries its action, a request that is
    unanswered at its deadline fails with the timeout error then *)
Theorem C26_completes_partial : forall timeout evs1 evs2 k a d t,
  0 < timeout ->
  snd (step timeout (final timeout init evs1) (Request k a)) = [Returned d] ->
  Forall (fun ev => forall k' a', carries ev = Some (k', a') -> k' = k -> a' = a) (evs1 ++ evs2) ->
  (forall t', In (Advance t') evs2 -> t' < now (final timeout init evs1) + timeout) ->
  ~ fires (log timeout (fst (step timeout (final timeout init evs1) (Request k a))) evs2) d ->
  now (final timeout init evs1) + timeout <= t ->
  In (Fired d (Failed ECallbackTimeout))
     (snd (step timeout (final timeout (fst (step timeout (final timeout init evs1) (Request k a))) evs2) (Advance t))).
Proof. exact c26_deadline. Qed.
Print Assumptions C26_completes_partial.

(** and not earlier: before the deadline no passing of time completes it *)
Theorem C26_not_early_partial : forall timeout evs1 evs2 k a d ev o,
  snd (step timeout (final timeout init evs1) (Request k a)) = [Returned d] ->
  Forall (fun ev => forall k' a', carries ev = Some (k', a') -> k' = k -> a' = a) (evs1 ++ evs2) ->
  (forall t', In (Advance t') evs2 -> t' < now (final timeout init evs1) + timeout) ->
  In (ev, Fired d o) (log timeout (fst (step timeout (final timeout init evs1) (Request k a))) evs2) ->
  forall t, ev <> Advance t.
Proof. exact c26_not_early. Qed.
Print Assumptions C26_not_early_partial.

(** The timeout is the one the requester is made with; without one, a minute. *)
Theorem C26_timeout_partial : forall configured timeout evs1 evs2 k a d t,
  (configured = Some timeout \/ (configured = None /\ timeout = 60)) -> 0 < timeout ->
  let s := final (timeout_used configured) init evs1 in let '(s1, o) := step (timeout_used configured) s (Request k a) in
  o = [Returned d] -> Forall (fun ev => forall k' a', carries ev = Some (k', a') -> k' = k -> a' = a) (evs1 ++ evs2) ->
  (forall t', In (Advance t') evs2 -> t' < now s + timeout) -> ~ fires (log (timeout_used configured) s1 evs2) d -> now s + timeout <= t ->
  In (Fired d (Failed ECallbackTimeout)) (snd (step (timeout_used configured) (final (timeout_used configured) s1 evs2) (Advance t))).
Proof.
  intros configured timeout evs1 evs2 k a d t C Hp. assert (E : timeout_used configured = timeout).
  { destruct C as [->|[-> ->]]; [|reflexivity]. unfold timeout_used. destruct (Z.eqb_spec timeout 0); [lia|reflexivity]. }
  rewrite E. cbv zeta. pose proof (c26_deadline timeout evs1 evs2 k a d t Hp) as X. destruct (step timeout (final timeout init evs1) (Request k a)) as [s1 o].
  cbn [fst snd] in X. exact X.
Qed.
Print Assumptions C26_timeout_partial.

Example C26_case :
  let k := ("urn:p", "c1") in
  snd (step 60 (final 60 init [Advance 5; Request k AReserve; Advance 30; Request ("urn:q", "c1") ATerminate]) (Advance 64)) = []
  /\ snd (step 60 (final 60 init [Advance 5; Request k AReserve; Advance 30; Request ("urn:q", "c1") ATerminate]) (Advance 65)) = [Fired 0 (Failed ECallbackTimeout)].
Proof. split; reflexivity. Qed.
