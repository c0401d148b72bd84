(** C52, C53: the REST interface. *)
From Verif Require Import Base ModelAuthz ModelLabel ModelSTP ModelTime ModelErrors ModelState ModelRest SpecErrors SpecRest ProofsRest ProofsRestWatch.
Open Scope Z_scope.

(** C52.  A permitted request whose body is one of the five words, in any mix of
    cases, is executed as exactly that operation on the addressed connection,
    and answered with 200, 400 (NSI error) or 500 (other error). *)
Theorem C52_command :
  forall allowed rq ri cid body c provider,
  check_authz allowed rq = Ok (true, ri) -> same_text body (word c) ->
  exists r, status_post allowed rq cid body provider = ([operation c cid ri], r) /\
  (forall u, provider (operation c cid ri) = Ok u -> delivered r = 200) /\
  (forall e k, provider (operation c cid ri) = Err e -> nsi_class e = Some k -> subclass k NSIError -> delivered r = 400) /\
  (forall e, provider (operation c cid ri) = Err e -> nsi_class e = None -> delivered r = 500).
Proof.
  intros allowed rq ri cid body c provider A S. rewrite (status_command _ _ _ _ _ _ provider A S). eexists. split; [reflexivity|].
  repeat split; intros; match goal with H : provider _ = _ |- _ => rewrite H end; cbn [delivered]; eauto using error_code_nsi, error_code_other.
Qed.
Print Assumptions C52_command.
Definition ex_rq : http_request := mkReq true (Some [("CN", "host")]) None.
Example C52_command_ex :
  check_authz None ex_rq = Ok (true, mkRI (Some (PBytes "host"))) /\ same_text "coMMit" (word Commit) /\
  status_post None ex_rq "c1" "coMMit" (fun _ => Err EConnectionGone) = ([CCommit "c1" (mkRI (Some (PBytes "host")))], Later 400).
Proof.
  split; [reflexivity|]. split; [|vm_compute; reflexivity].
  apply same_word. reflexivity.
Qed.

(** Anything else causes no operation; and there is never more than the one
    operation that the body names, on the connection addressed. *)
Theorem C52_no_other_operation :
  forall allowed rq cid body provider calls r,
  status_post allowed rq cid body provider = (calls, r) ->
  calls = [] \/ exists c ri, check_authz allowed rq = Ok (true, ri) /\ same_text body (word c) /\ calls = [operation c cid ri].
Proof. exact status_calls. Qed.
Print Assumptions C52_no_other_operation.
Example C52_no_other_operation_ex : fst (status_post None ex_rq "c1" "COMMIT " (fun _ => Ok tt)) = [].
Proof. vm_compute. reflexivity. Qed.

(** Creation: whatever is created was asked for by a permitted request with a
    body that is neither empty nor longer than 32 KiB and is JSON; there is one
    reserve, with the end points, times and capacity of the body. *)
Theorem C52_create_guard :
  forall loads allowed rq body provider calls r,
  create_post loads allowed rq body provider = (calls, r) ->
  calls = [] \/
  exists ri data s d st en cap, check_authz allowed rq = Ok (true, ri) /\ body <> "" /\ Z.of_nat (String.length body) <= 32768 /\
    loads body = Ok data /\ asks_stp "source" data s /\ asks_stp "destination" data d /\
    asks_time "start_time" data st /\ asks_time "end_time" data en /\ asks_capacity data cap /\
    calls = [CReserve s d st en cap ri].
Proof. exact create_asked. Qed.
Print Assumptions C52_create_guard.
Definition ex_body : json :=
  JObj [("source", JStr "a.net:p1?vlan=5"); ("destination", JStr "a.net:p2?vlan=5"); ("auto_provision", JInt 1)].
Example C52_create_guard_ex :
  fst (create_post (fun _ => Ok ex_body) None ex_rq "x" (fun _ => Ok tt)) =
    [CReserve (mkSTP "a.net" "p1" (Some (mkLabel "vlan" [(5, 5)]))) (mkSTP "a.net" "p2" (Some (mkLabel "vlan" [(5, 5)])))
       None None (JInt 0) (mkRI (Some (PBytes "host")))] /\
  fst (create_post (fun _ => Ok ex_body) None ex_rq "" (fun _ => Ok tt)) = [] /\
  fst (create_post (fun _ => Err EValue) None ex_rq "x" (fun _ => Ok tt)) = [].
Proof. vm_compute. auto. Qed.

(** And what such a request asks for is created, unless it declines auto-commit
    and asks for auto-provision. *)
Theorem C52_create_done :
  forall loads allowed rq ri body provider data s d st en cap,
  check_authz allowed rq = Ok (true, ri) -> body <> "" -> Z.of_nat (String.length body) <= 32768 ->
  loads body = Ok data -> asks_stp "source" data s -> asks_stp "destination" data d ->
  asks_time "start_time" data st -> asks_time "end_time" data en -> asks_capacity data cap ->
  (forall p, field "auto_provision" p data -> ~ truthy p) \/ (forall c, field "auto_commit" c data -> truthy c) ->
  fst (create_post loads allowed rq body provider) = [CReserve s d st en cap ri].
Proof. exact create_done. Qed.
Print Assumptions C52_create_done.
Example C52_create_done_ex :
  fst (create_post (fun _ => Ok (JObj [("destination", JStr "urn:ogf:network:a.net:p2"); ("auto_commit", JInt 0); ("source", JStr "a.net:p1"); ("auto_provision", JNull)]))
    None ex_rq "x" (fun _ => Ok tt)) = [CReserve (mkSTP "a.net" "p1" None) (mkSTP "a.net" "p2" None) None None (JInt 0) (mkRI (Some (PBytes "host")))] /\ ~ truthy JNull.
Proof. split; [vm_compute; reflexivity|]. intros H. inversion H. Qed.

(** 201 is answered exactly when the provider accepted the reserve. *)
Theorem C52_created_status :
  forall loads allowed rq body provider calls r,
  create_post loads allowed rq body provider = (calls, r) ->
  (delivered r = 201 <-> exists c, calls = [c] /\ exists u, provider c = Ok u).
Proof. exact created_only. Qed.
Print Assumptions C52_created_status.
Example C52_created_status_ex : delivered (snd (create_post (fun _ => Ok ex_body) None ex_rq "x" (fun _ => Ok tt))) = 201.
Proof. vm_compute. reflexivity. Qed.

(** Auto-provision without auto-commit is refused. *)
Theorem C52_auto_provision_needs_auto_commit :
  forall loads allowed rq body provider data p c calls r,
  loads body = Ok data -> field "auto_provision" p data -> truthy p -> field "auto_commit" c data -> ~ truthy c ->
  create_post loads allowed rq body provider = (calls, r) -> calls = [].
Proof. exact auto_refused. Qed.
Print Assumptions C52_auto_provision_needs_auto_commit.
Definition ex_fields : list (string * json) := [("source", JStr "a.net:p1"); ("destination", JStr "a.net:p2"); ("auto_provision", JBool true)].
Definition ex_auto : json := JObj (ex_fields ++ [("auto_commit", JBool false)]).
Example C52_auto_provision_ex :
  field "auto_provision" (JBool true) ex_auto /\ truthy (JBool true) /\ field "auto_commit" (JBool false) ex_auto /\ ~ truthy (JBool false) /\
  create_post (fun _ => Ok ex_auto) None ex_rq "x" (fun _ => Ok tt) =
    ([], Returned 400 (PStr "Cannot have auto-provision without auto-commit")).
Proof.
  split; [apply (field_intro "auto_provision" [("source", JStr "a.net:p1"); ("destination", JStr "a.net:p2")] (JBool true) [("auto_commit", JBool false)]);
          intros w [E|[]]; discriminate E|].
  split; [constructor|]. split; [apply (field_intro "auto_commit" ex_fields (JBool false) []); intros w []|].
  split; [intros H; inversion H|]. vm_compute. reflexivity.
Qed.

(** The status codes of the immediate refusals are not delivered: the handlers
    return text where twisted.web wants bytes, so the client sees 500. *)
Theorem C52_refusal_codes_refuted :
  ~ (forall allowed rq cid body provider, check_authz allowed rq = Ok (true, mkRI None) -> (forall c, ~ same_text body (word c)) ->
     delivered (snd (status_post allowed rq cid body provider)) = 400) /\
  (forall rq cid body provider, check_authz None rq = Ok (true, mkRI None) -> (forall c, ~ same_text body (word c)) ->
     delivered (snd (status_post None rq cid body provider)) = 500) /\
  delivered (snd (create_post (fun _ => Ok ex_auto) None ex_rq "x" (fun _ => Ok tt))) = 500.
Proof.
  assert (forall rq cid body provider, check_authz None rq = Ok (true, mkRI None) -> (forall c, ~ same_text body (word c)) ->
     delivered (snd (status_post None rq cid body provider)) = 500) as K.
  { intros rq cid body provider A N. unfold status_post. rewrite A. cbn zeta. destruct (mem (upper body) ACTIONS) eqn:M; [|reflexivity].
    destruct (actions_words _ M) as (c & E). destruct (N c). apply same_word. exact E. }
  split; [|split; [exact K|vm_compute; reflexivity]]. intros H.
  assert (forall c, ~ same_text "GO" (word c)) as N by (intros c S; apply same_word in S; destruct c; vm_compute in S; discriminate S).
  specialize (H None (mkReq false None None) "c" "GO" (fun _ => Ok tt) eq_refl N).
  rewrite (K (mkReq false None None) "c" "GO" (fun _ => Ok tt) eq_refl N) in H. discriminate H.
Qed.
Print Assumptions C52_refusal_codes_refuted.

(** C53.  A commit is issued only while the reservation is held, and once the
    watcher is subscribed (and the connection not yet provisioned) every saved
    change to held is answered with a commit. *)
Theorem C53_commit_only_held :
  forall auto s0 evs pre post, w_log (ev_run auto s0 evs) = pre ++ OCommit :: post -> st_r (state_after s0 pre) = RHeld.
Proof. intros auto s0 evs pre post E. destruct (run_inv auto s0 evs) as (_ & H). exact (H pre OCommit post E). Qed.
Print Assumptions C53_commit_only_held.
Theorem C53_commit_when_held_partial :
  forall auto s0 evs o d1 d2 c, st_p s0 <> PProvisioned -> In EvSubscribe evs ->
  (forall s, In (OState s) (w_log (ev_run auto s0 evs)) -> st_p s <> PProvisioned) ->
  op_mem o (state_after s0 (w_log (ev_run auto s0 evs))) = (c, None) -> st_r c = RHeld ->
  exists vs g, w_log (ev_run auto s0 (evs ++ [EvOp o true d1 d2])) = w_log (ev_run auto s0 evs) ++ map OState vs ++ OCommit :: g.
Proof. exact held_commits. Qed.
Print Assumptions C53_commit_when_held_partial.
Definition ex_checking : states := mkStates RChecking PReleased LCreated.
(** subscribe; held: commit; the commit is saved; committed: provision *)
Definition ex_life : list ev :=
  [EvSubscribe; EvOp OpReserveHeld true [OpReserveCommit] []; EvForeign [] []; EvOp OpReserved true [] [OpProvisioning]].
Example C53_ex :
  w_log (ev_run true ex_checking ex_life) =
  [OState (mkStates RHeld PReleased LCreated); OCommit; OState (mkStates RCommitting PReleased LCreated);
   OState (mkStates RStart PReleased LCreated); OProvision; OState (mkStates RStart PProvisioning LCreated)].
Proof. vm_compute. reflexivity. Qed.

(** A provision is issued only if it was asked for, while the reservation is
    idle and the connection released; ... *)
Theorem C53_provision_only_asked :
  forall auto s0 evs pre post, w_log (ev_run auto s0 evs) = pre ++ OProvision :: post ->
  auto = true /\ st_r (state_after s0 pre) = RStart /\ st_p (state_after s0 pre) = PReleased.
Proof. intros auto s0 evs pre post E. destruct (run_inv auto s0 evs) as (_ & H). exact (H pre OProvision post E). Qed.
Print Assumptions C53_provision_only_asked.
(** ... and after a commit, if the reservation was never aborted. *)
Theorem C53_provision_after_commit_partial :
  forall auto s0 evs pre post, w_log (ev_run auto s0 evs) = pre ++ OProvision :: post ->
  st_r s0 <> RStart -> st_r s0 <> RCommitting -> st_r s0 <> RAborting -> ~ passed_through RAborting pre ->
  passed_through RCommitting pre.
Proof.
  intros auto s0 evs pre post E N1 N2 N3 N4. destruct (run_inv auto s0 evs) as (_ & H).
  destruct (H pre OProvision post E) as (_ & S & _).
  assert (hist_ok auto s0 pre) as HP by (intros p x q F; apply (H p x (q ++ OProvision :: post)); rewrite E, F, <- app_assoc; reflexivity).
  destruct (start_reached auto s0 pre HP S) as [A|[A|[A|[A|A]]]]; try contradiction. exact A.
Qed.
Print Assumptions C53_provision_after_commit_partial.
Example C53_provision_after_commit_ex :
  exists pre post, w_log (ev_run true ex_checking ex_life) = pre ++ OProvision :: post /\ ~ passed_through RAborting pre /\ passed_through RCommitting pre.
Proof.
  exists [OState (mkStates RHeld PReleased LCreated); OCommit; OState (mkStates RCommitting PReleased LCreated); OState (mkStates RStart PReleased LCreated)],
    [OState (mkStates RStart PProvisioning LCreated)]. split; [vm_compute; reflexivity|]. split.
  - intros (s & I & E). repeat (destruct I as [I|I]; [try discriminate I; injection I as <-; discriminate E|]). destruct I.
  - eexists. split; [right; right; left; reflexivity|reflexivity].
Qed.

(** The full statement fails: (1) a reservation held before the watcher has
    subscribed is never committed by it; (2) an aborted (or timed out)
    reservation is provisioned although it was never committed; (3) any other
    notification while the reservation is held causes a second commit. *)
Theorem C53_refuted :
  ~ (forall auto s0 evs, In EvSubscribe evs -> becomes_held s0 (w_log (ev_run auto s0 evs)) -> In OCommit (w_log (ev_run auto s0 evs))) /\
  ~ (forall s0 evs pre post, st_r s0 = RChecking -> w_log (ev_run true s0 evs) = pre ++ OProvision :: post -> passed_through RCommitting pre) /\
  ~ (forall auto s0 evs, st_r s0 = RChecking -> st_l s0 = LCreated -> (count is_commit (w_log (ev_run auto s0 evs)) <= 1)%nat).
Proof.
  split; [|split].
  - intros H. specialize (H true ex_checking [EvOp OpReserveHeld true [] []; EvSubscribe] (or_intror (or_introl eq_refl))).
    destruct H as [H|[]]; [|discriminate H]. exists [], (mkStates RHeld PReleased LCreated), []. repeat split. discriminate.
  - intros H.
    specialize (H ex_checking [EvOp OpReserveHeld true [] []; EvSubscribe; EvOp OpReserveAbort true [] []; EvOp OpReserved true [] []]
      [OState (mkStates RHeld PReleased LCreated); OState (mkStates RAborting PReleased LCreated); OState (mkStates RStart PReleased LCreated)] []
      eq_refl ltac:(vm_compute; reflexivity)).
    destruct H as (s & I & E). repeat (destruct I as [I|I]; [injection I as <-; discriminate E|]). destruct I.
  - intros H. specialize (H true ex_checking [EvSubscribe; EvOp OpReserveHeld true [] []; EvOp OpTerminating true [] []] eq_refl eq_refl).
    vm_compute in H. lia.
Qed.
Print Assumptions C53_refuted.
