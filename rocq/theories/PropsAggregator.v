(** Properties C38-C40, C43-C45: single operations of the aggregator. *)
From Verif Require Import Base BaseProofs ModelLabel ModelSTP ModelAuthz ModelNRM ModelState ModelLinkVector ModelProvreg ModelAggregator ModelBackendQuery
  SpecAggregator ProofsAggregator ProofsAggPath ProofsAggOps ProofsAggClean ProofsAggQuery ProofsAggKinds.
Open Scope Z_scope.

(** ** Two local networks A and B for the examples; B is connected to X *)
Definition ag_label : option label := Some (mkLabel "vlan" [(100, 110)]).
Definition ag_port (n : string) (rn rp : option string) : nrm_port := mkPort "ethernet" n rn rp None None ag_label 1000 n [] [] false.
Definition ag_cfg (trace user aggr : bool) : cfg := mkCfg "agg" trace user aggr true
  [("A", [("src", ag_port "src" None None); ("p1", ag_port "p1" (Some "B") (Some "q1"))]);
   ("B", [("q1", ag_port "q1" (Some "A") (Some "p1")); ("p2", ag_port "p2" (Some "X") (Some "in"))])] ["admin"].
Definition ag_rv : lvec := lv_run [] 5 [LAdd "A"; LAdd "B"; LDict [("B", 1)]; LUpdate "A" "p1" 0; LDict [("X", 1)]; LUpdate "B" "p2" 1].
Definition ag_reg : provreg := pr_run [] 10 [PAdd "agg" "A" 0; PAdd "agg" "B" 1; PAdd "urn:X" "X" 2].
Definition ag_hdr (requester : string) (corr : nat) : header := mkHeader requester "agg" corr [] (Some ["up:1"]).
(** an answer from provider [u] to call [k] *)
Definition re (u : string) (k : nat) : header := mkHeader "agg" u k [] None.
Definition ag_req : areq := mkAReq None "gid" (mkSTP "A" "src" ag_label) (mkSTP "X" "out" ag_label) (Some 10) (Some 20) 7.
Definition ag_start : mach := minit ag_reg ag_rv.
(** the events up to the three reservation calls *)
Definition ag_reserve : list event := [EvCall (CReserve (ag_hdr "req" 100) ag_req); EvAnswer 0 AnsOk; EvAnswer 0 (AnsId "C")].
Definition ag_run (l : list event) : mach := mrun (ag_cfg false false false) true ag_start l.
Definition ag_outs (l : list event) : list output := outs (m_st (ag_run l)).
Definition ag_ups (l : list event) : list (string * ubody) := flat_map (fun o => match o with OUp r b => [(r, b)] | _ => [] end) (ag_outs l).
Definition ag_downs (l : list event) : list (nat * string * dbody) := flat_map (fun o => match o with ODown p h b => [(p, hd_provider h, b)] | _ => [] end) (ag_outs l).

(** ** C39 *)
Theorem C39_policy : forall g locals h q (P : st -> Prop) Q l r,
  against_policy g locals h q -> (forall s, P s -> lv_local (a_rv s) = locals) ->
  exec P Q (reserve g h q) l r -> acts l = [] /\ forall a, r <> Some (inl a).
Proof. exact c39_policy. Qed.
Print Assumptions C39_policy.

Theorem C39_trace : forall g h q l r, exec any_state any_answer (reserve g h q) l r ->
  (forall p hd gid a b x y z, In (OAct (AOut (ODown p hd (DReserve gid a b x y z)))) l ->
    exists c, In (OAct (AInsertConn c)) l /\ hd_trace hd = Some (extended_trace g h (cn_cid c)) /\ hd_sas hd = hd_sas h).
Proof.
  intros g h q l r E p hd gid a b x y z HI.
  pose proof (all_use _ _ _ _ (c39_trace_claim any_state any_answer g h q) l r E) as [F|(c & HC & F)].
  - rewrite Forall_forall in F. apply F in HI. contradiction.
  - exists c. split; auto. rewrite Forall_forall in F. apply F in HI. exact HI.
Qed.
Print Assumptions C39_trace.

(** no provider is asked for a connection of a port with itself, unless allowed *)
Theorem C39_hairpin : forall g locals h q (P : st -> Prop) Q l r,
  hairpin g locals q -> (forall s, P s -> lv_local (a_rv s) = locals) ->
  exec P Q (reserve g h q) l r -> downs l = [] /\ forall a, r <> Some (inl a).
Proof. exact hairpin_fails. Qed.
Print Assumptions C39_hairpin.
Definition ag_no_hairpins : cfg := mkCfg "agg" false false false false (a_ports (ag_cfg false false false)) [].
Definition ag_turn : areq := mkAReq None "gid" (mkSTP "A" "src" ag_label) (mkSTP "A" "src" None) (Some 10) (Some 20) 7.
Example C39_ex_hairpin : hairpin ag_no_hairpins ["A"; "B"] ag_turn /\
  m_done (mrun ag_no_hairpins true ag_start [EvCall (CReserve (ag_hdr "req" 1) ag_turn); EvAnswer 0 AnsOk; EvAnswer 0 (AnsId "C")]) = [(0%nat, inr (EService, ""))] /\
  List.length (filter (fun o => match o with ODown _ _ _ => true | _ => false end)
    (outs (m_st (ag_run [EvCall (CReserve (ag_hdr "req" 1) ag_turn); EvAnswer 0 AnsOk; EvAnswer 0 (AnsId "C")])))) = 1%nat.
Proof. repeat split; try (vm_compute; reflexivity). left. reflexivity. Qed.

(** beyond the property: a request whose source only is outside is never accepted *)
Theorem C39_remote_source : forall (P : st -> Prop) Q g h q rv l r,
  (forall s, P s -> a_rv s = rv) -> ~ In (s_network (q_src q)) (lv_local rv) -> In (s_network (q_dst q)) (lv_local rv) ->
  exec P Q (reserve g h q) l r -> acts l = [] /\ forall a, r <> Some (inl a).
Proof. exact remote_source_quiet. Qed.
Print Assumptions C39_remote_source.

Example C39_ex :
  against_policy (ag_cfg true false false) ["A"; "B"] (mkHeader "req" "agg" 1 [] (Some [])) ag_req /\
  against_policy (ag_cfg false true false) ["A"; "B"] (ag_hdr "req" 1) ag_req /\
  against_policy (ag_cfg false false false) ["C"] (ag_hdr "req" 1) ag_req /\
  ~ against_policy (ag_cfg true false false) ["A"; "B"] (ag_hdr "req" 1) ag_req /\
  (forall s, s = m_st ag_start -> lv_local (a_rv s) = ["A"; "B"]) /\
  flat_map (fun o => match o with ODown p h b => [hd_trace h] | _ => [] end) (ag_outs ag_reserve) =
    [Some ["up:1"; "agg:C"]; Some ["up:1"; "agg:C"]; Some ["up:1"; "agg:C"]] /\
  m_done (mrun (ag_cfg true false false) true ag_start [EvCall (CReserve (mkHeader "req" "agg" 1 [] (Some [])) ag_req); EvAnswer 0 AnsOk]) = [(0%nat, inr (ESecurity, ""))] /\
  m_done (mrun (ag_cfg false true false) true ag_start [EvCall (CReserve (ag_hdr "req" 1) ag_req); EvAnswer 0 AnsOk]) = [(0%nat, inr (ESecurity, ""))] /\
  m_done (ag_run [EvCall (CReserve (ag_hdr "req" 1) (mkAReq None "gid" (mkSTP "X" "out" None) (mkSTP "A" "src" None) None None 7)); EvAnswer 0 AnsOk]) = [(0%nat, inr (EValue, ""))].
Proof.
  repeat split; try (vm_compute; reflexivity).
  - left. cbn; auto.
  - right; left. cbn. split; [auto|]. intros a [].
  - right; right. cbn. repeat split; intros [H|[]]; discriminate H.
  - intros [[H1 [H2|H2]]|[[H _]|(_ & H & _)]]; try discriminate. apply H. cbn; auto.
  - intros s ->. vm_compute. reflexivity.
Qed.

(** ** C40 *)
Theorem C40_chain : forall (P : st -> Prop) Q g h q rv l r,
  (forall s, P s -> a_rv s = rv) -> In (s_network (q_src q)) (lv_local rv) -> s_network (q_src q) <> s_network (q_dst q) ->
  exec P Q (reserve g h q) l r ->
  (segments l = [] /\ acks_in l = []) \/
  exists path p rest ls, lv_path (s_network (q_dst q)) (s_network (q_src q)) rv = Ok (Some path) /\
    filter (fun np => mem (fst np) (lv_local rv)) path = (s_network (q_src q), p) :: rest /\
    joins_up (a_ports g) (q_src q) (q_dst q) ((s_network (q_src q), p) :: rest) ls /\
    (exists s, P s /\ served (lv_local rv) (a_reg s) ls) /\
    prefix_of (segments l) ls /\ (acks_in l <> [] -> segments l = ls).
Proof.
  intros P Q g h q rv l r HP HI HN E.
  destruct (all_use _ _ _ _ (reserve_asks P Q g h q rv HP) l r E) as [H|(ls & B & SV & PF & A)]; [left; exact H|right].
  destruct (build_links_leaving g rv _ _ _ HI HN B) as (path & p & rest & H1 & H2 & H3).
  exists path, p, rest, ls. auto 7.
Qed.
Print Assumptions C40_chain.

Example C40_ex :
  lv_local ag_rv = ["A"; "B"] /\ lv_path "X" "A" ag_rv = Ok (Some [("A", "p1"); ("B", "p2")]) /\
  ag_downs ag_reserve =
    [(0%nat, "agg", DReserve "gid" (mkSTP "A" "src" ag_label) (mkSTP "A" "p1" ag_label) (Some 10) (Some 20) 7);
     (1%nat, "agg", DReserve "gid" (mkSTP "B" "q1" ag_label) (mkSTP "B" "p2" ag_label) (Some 10) (Some 20) 7);
     (2%nat, "urn:X", DReserve "gid" (mkSTP "X" "in" ag_label) (mkSTP "X" "out" ag_label) (Some 10) (Some 20) 7)].
Proof. repeat split; vm_compute; reflexivity. Qed.

(** ** C38 *)
Theorem C38_summary : forall (P : st -> Prop) Q g h cids l r, exec P Q (query_summary g h cids []) l r ->
  (ups l = [] /\ forall x, r <> Some (inl x)) \/
  exists s f rs, P s /\ (forall c, f c = true <-> visible g h cids c) /\
    Forall2 (describes g) (filter f (map snd (t_conns s))) rs /\ ups l = [(hd_requester h, UQuerySummary rs)].
Proof. intros P Q g h cids. apply all_use, query_summary_answer. Qed.
Print Assumptions C38_summary.

(** the same of the local backend's query *)
Theorem C38_backend : forall g requester cids gids s rs, query_rows g requester cids gids s = Ok rs ->
  exists f, (forall r, f r = true <-> ModelBackend.c_requester r = requester /\ In (ModelBackend.c_id r) cids) /\
    map bi_cid rs = map ModelBackend.c_id (filter f (map snd (ModelBackend.db s))) /\
    map bi_states rs = map ModelBackend.c_states (filter f (map snd (ModelBackend.db s))) /\
    map bi_active rs = map ModelBackend.c_active (filter f (map snd (ModelBackend.db s))).
Proof.
  intros g requester cids gids s rs H. unfold query_rows in H. destruct cids as [|c cids]; [destruct gids; discriminate|].
  inversion H; subst. eexists; split; [|repeat split; rewrite map_map; reflexivity].
  intros r. cbn beta. rewrite andb_true_iff, eqb_true, mem_In. tauto.
Qed.
Print Assumptions C38_backend.

(** selecting by global reservation id always fails, in both *)
Theorem C38_global_id_refuted : forall g h gids s g' requester s', gids <> [] ->
  select_conns g h [] gids s = Err EDatabase /\ query_rows g' requester [] gids s' = Err EDatabase.
Proof. intros g h [|x gids] s g' requester s' H; [contradiction|]. split; reflexivity. Qed.
Print Assumptions C38_global_id_refuted.

(** and a recursive query does not look whose connection it is: here "other" is
    told about the connection of "req" *)
Definition ag_info (cid : string) : cinfo :=
  mkCInfo cid "" (mkSTP "" "" None) (mkSTP "" "" None) None None 0 "" "" (mkStates RHeld PReleased LCreated) (true, 0, true) 0 0 [].
Definition ag_pair (a b : string) : areq := mkAReq None "gid" (mkSTP "A" a ag_label) (mkSTP "A" b ag_label) (Some 10) (Some 20) 7.
Definition ag_one : list event :=
  [EvCall (CReserve (ag_hdr "req" 100) (ag_pair "src" "p1")); EvAnswer 0 AnsOk; EvAnswer 0 (AnsId "C");
   EvCall (CReserveConfirmed (re "agg" 0) "s0" (mkSTP "A" "src" ag_label) (mkSTP "A" "p1" ag_label)); EvAnswer 0 (AnsAcks [Acked "s0"])].
Theorem C38_recursive_refuted : ~ (forall g l requester corr i,
  In (OUp requester (UQueryRecursive corr [i])) (outs (m_st (mrun g true ag_start l))) -> ci_requester i = requester \/ In requester (a_admins g)).
Proof.
  intros H. specialize (H (ag_cfg false false false)
    (ag_one ++ [EvCall (CQueryRecursive (ag_hdr "other" 200) ["C"] []); EvCall (CQueryRecursiveConfirmed (re "agg" 1) [ag_info "s0"])]) "other" 200%nat).
  match type of H with forall i, In _ ?o -> _ => assert (V : exists i, In (OUp "other" (UQueryRecursive 200 [i])) o /\ ci_requester i = "req") end.
  { eexists. split; [vm_compute; do 3 right; left; reflexivity|reflexivity]. }
  destruct V as (i & V & E). apply H in V. destruct V as [V|V]; [rewrite E in V; discriminate|].
  cbn in V. destruct V as [V|[]]. discriminate.
Qed.
Print Assumptions C38_recursive_refuted.

Example C38_ex :
  (forall c, cn_requester c = "req" -> cn_cid c = "C" -> visible (ag_cfg false false false) (ag_hdr "req" 1) ["C"; "D"] c) /\
  map (fun rb => match snd rb with UQuerySummary l => (fst rb, map ci_cid l) | _ => ("", []) end)
    (ag_ups (ag_one ++ [EvCall (CQuerySummary (ag_hdr "req" 1) [] []); EvCall (CQuerySummary (ag_hdr "other" 1) ["C"] []); EvCall (CQuerySummary (ag_hdr "admin" 1) ["C"; "D"] [])])) =
    [("", []); ("req", ["C"]); ("other", []); ("admin", ["C"])].
Proof.
  split; [|vm_compute; reflexivity]. intros c H1 H2. split; [right; exact H1|right; rewrite H2; cbn; auto].
Qed.

(** ** C43 *)
Theorem C43_query : forall l, conservative l (summary_status l).
Proof. exact summary_conservative. Qed.
Print Assumptions C43_query.
Theorem C43_recursive : forall l d, recursive_status l = Ok d -> conservative l d.
Proof. exact recursive_conservative. Qed.
Print Assumptions C43_recursive.
(** what is notified is conservative, and consistent exactly if all agree; the
    connection notified about has at least the segment the news came from *)
Theorem C43_notified : forall l, l <> [] ->
  conservative l (notify_status l) /\ (snd (notify_status l) = true <-> (forall x, In x l -> sb_consistent x = Some true) /\ agreeing l).
Proof. exact notify_conservative. Qed.
Print Assumptions C43_notified.

Definition ag_seg (a : bool) (v : option Z) (c : option bool) : sub := mkSub 0 0 "s" "u" 0 (mkStates RStart PProvisioned LCreated) a v c (mkSTP "A" "a" None) (mkSTP "A" "b" None).
Example C43_ex :
  summary_status [ag_seg true (Some 3) (Some true); ag_seg true (Some 5) (Some true)] = (true, 5, true) /\
  notify_status [ag_seg true (Some 3) (Some true); ag_seg false None (Some true)] = (false, 3, false) /\
  summary_status [ag_seg true (Some 3) (Some true); ag_seg false None None] = (false, 3, false) /\
  recursive_status [ag_seg true (Some 3) (Some true); ag_seg true (Some 5) (Some true)] = Ok (true, 5, true) /\
  summary_status [] = (false, 0, false).
Proof. repeat split. Qed.

(** the query does not agree with the notification: two segments, both have
    reported, one of them active *)
Definition ag_three : list event := ag_reserve ++
  [EvCall (CReserveConfirmed (re "agg" 0) "s0" (mkSTP "A" "src" ag_label) (mkSTP "A" "p1" ag_label));
   EvCall (CReserveConfirmed (re "agg" 1) "s1" (mkSTP "B" "q1" ag_label) (mkSTP "B" "p2" ag_label));
   EvCall (CReserveConfirmed (re "urn:X" 2) "s2" (mkSTP "X" "in" ag_label) (mkSTP "X" "out" ag_label));
   EvAnswer 0 (AnsAcks [Acked "s0"; Acked "s1"; Acked "s2"])].
Theorem C43_agreement_refuted : ~ (forall g l cid requester d, forall infos i,
  let os := outs (m_st (mrun g true ag_start (l ++ [EvCall (CQuerySummary (ag_hdr requester 1) [cid] [])]))) in
  last (flat_map (fun o => match o with OUp _ (UDataPlane c d) => if eqb c cid then [d] else [] | _ => [] end) os) (true, -1, true) = d -> fst (fst d) = false -> 0 <= snd (fst d) ->
  last os (OCreated "") = OUp requester (UQuerySummary infos) -> In i infos -> ci_dps i = d).
Proof.
  intros H.
  specialize (H (ag_cfg false false false)
    (ag_three ++ [EvCall (CDataPlane (re "agg" 7) "s0" (true, 1, true)); EvCall (CDataPlane (re "agg" 7) "s1" (false, 1, true)); EvCall (CDataPlane (re "urn:X" 7) "s2" (false, 1, true))])
    "C" "req" (false, 1, false)).
  match type of H with forall infos i, let os := ?o in _ => assert (V : exists i, last o (OCreated "") = OUp "req" (UQuerySummary [i]) /\ ci_dps i = (false, 1, true)) end.
  { eexists. split; [vm_compute; reflexivity|reflexivity]. }
  destruct V as (i & V & E). specialize (H [i] i). cbv zeta in H. rewrite V in H.
  rewrite E in H. discriminate H; [vm_compute; reflexivity|reflexivity|cbn; lia|reflexivity|cbn; auto].
Qed.
Print Assumptions C43_agreement_refuted.

(** ** C44 *)
(** the providers are asked for what was asked for, and for nothing else *)
Theorem C44_kinds : forall (P : st -> Prop) Q g c l r, exec P Q (call_prog g c) l r -> forall p h b, In (p, h, b) (downs l) -> handed_down c b.
Proof.
  intros P Q g c l r E p h b H. pose proof (all_use _ _ _ _ (kinds P Q g c) l r E) as F. rewrite Forall_forall in F.
  unfold downs in H. apply in_flat_map in H as (a & Ha & Hb). unfold acts in Ha. apply in_flat_map in Ha as (o & Ho & Ha).
  destruct o as [a'|]; [|destruct Ha]. destruct Ha as [->|[]]. apply F in Ho. destruct a; try contradiction. match goal with x : output |- _ => destruct x end; try contradiction. destruct Hb as [[= -> -> ->]|[]]. exact Ho.
Qed.
Print Assumptions C44_kinds.
(** one behaviour: in a state that stays as it is, with these answers *)
Fixpoint behave {A} (s : st) (p : prog A) (xs : list ans) : list obs * option (A + err) :=
  match p with
  | Ret a => ([], Some (inl a))
  | Throw e => ([], Some (inr e))
  | Get k => behave s (k s) xs
  | Do a k => let lr := behave s k xs in (OAct a :: fst lr, snd lr)
  | Await w k => match xs with
                 | x :: xs' => if answers w x then let lr := behave s (k x) xs' in (OAns w x :: fst lr, snd lr) else ([], None)
                 | [] => ([], None)
                 end
  end.
Lemma behave_exec {A} s (p : prog A) : forall xs, exec any_state any_answer p (fst (behave s p xs)) (snd (behave s p xs)).
Proof.
  induction p as [a|e|k IH|a k IH|w k IH]; intros xs; cbn [behave fst snd]; try (constructor; fail).
  - apply ex_get with s; [exact I|apply IH].
  - apply ex_do, IH.
  - destruct xs as [|x xs]; [apply ex_cut|]. destruct (answers w x) eqn:E; [|apply ex_cut].
    cbn [fst snd]. apply ex_await; [exact E|exact I|apply IH].
Qed.
Example C44_ex_kinds : let s := m_st (ag_run ag_three) in
  let b := behave s (call_prog (ag_cfg false false false) (CAbort (ag_hdr "req" 1) "C")) (AnsOk :: AnsOk :: AnsOk :: AnsOk :: AnsOk :: [AnsAcks [Acked ""; Acked ""; Acked ""]]) in
  exec any_state any_answer (call_prog (ag_cfg false false false) (CAbort (ag_hdr "req" 1) "C")) (fst b) (snd b) /\
  map snd (downs (fst b)) = [DAbort "s0"; DAbort "s1"; DAbort "s2"].
Proof. cbv zeta. split; [apply behave_exec|vm_compute; reflexivity]. Qed.
Theorem C44_commit : forall P Q g h cid l r, exec P Q (reserve_commit g h cid) l r -> answered cid l r.
Proof. intros P Q g h cid. apply all_use, commit_answered. Qed.
Print Assumptions C44_commit.
Theorem C44_provision : forall P Q g h cid l r, exec P Q (provision g h cid) l r -> answered cid l r.
Proof. intros P Q g h cid. apply all_use, provision_answered. Qed.
Print Assumptions C44_provision.
Theorem C44_release : forall P Q g h cid l r, exec P Q (release g h cid) l r -> answered cid l r.
Proof. intros P Q g h cid. apply all_use, release_answered. Qed.
Print Assumptions C44_release.
Theorem C44_terminate : forall P Q g h cid l r, exec P Q (terminate g h cid) l r -> answered_t cid l r.
Proof. intros P Q g h cid. apply all_use, terminate_answered. Qed.
Print Assumptions C44_terminate.
(** the abort fails as it should but with an error of its own making *)
Theorem C44_abort_partial : forall P Q g h cid l r, exec P Q (reserve_abort g h cid) l r -> answered_a cid l r.
Proof. intros P Q g h cid. apply all_use, abort_answered. Qed.
Print Assumptions C44_abort_partial.

(** all the events of a run in which the three providers have been asked *)
Definition ag_answer (c : call) (l : list ack) : list (nat * (string + err)) :=
  m_done (ag_run (ag_three ++ [EvCall c; EvAnswer 4 (AnsAcks l)])).
Theorem C44_abort_refuted : ~ (forall P Q g h cid l r, exec P Q (reserve_abort g h cid) l (Some r) ->
  (acks_in l = [] /\ exists e, r = inr e) \/ (exists a, acks_in l = [a] /\ reports cid (urns_of l) a r)).
Proof.
  intros H.
  set (c := mkConn 0 "C" "" "req" (mkStates RHeld PReleased LCreated) (mkSTP "" "" None) (mkSTP "" "" None) None None 0).
  set (x := mkSub 1 0 "s" "u" 0 (mkStates RHeld PReleased LCreated) false None None (mkSTP "A" "" None) (mkSTP "" "" None)).
  set (s := mkSt [(0%nat, c)] [(1%nat, x)] 2 [(0%nat, c)] [(1%nat, x)] 2 [("C", 0%nat)] [("s", 1%nat)] [] [] [] 0 0 ag_reg ag_rv []).
  specialize (H (eq s) any_answer (ag_cfg false false false) (ag_hdr "req" 1) "C").
  assert (E : exists l, exec (eq s) any_answer (reserve_abort (ag_cfg false false false) (ag_hdr "req" 1) "C") l (Some (inr (EType, ""))) /\ acks_in l = [[Nacked ESecurity "no"]]).
  { pose proof (play_exec s [Nacked ESecurity "no"] (reserve_abort (ag_cfg false false false) (ag_hdr "req" 1) "C")) as E.
    eexists. split; [replace (Some (inr (EType, ""))) with (snd (play s [Nacked ESecurity "no"] (reserve_abort (ag_cfg false false false) (ag_hdr "req" 1) "C"))); [exact E|vm_compute; reflexivity]|].
    vm_compute. reflexivity. }
  destruct E as (l & E & A). apply H in E. destruct E as [[E _]|(a & E & R)]; [congruence|].
  rewrite A in E. inversion E; subst a. destruct R as (_ & R & _).
  specialize (R O ESecurity "no" eq_refl). discriminate R. intros j (e & m & Ej). destruct j as [|[|j]]; [reflexivity|discriminate|discriminate].
Qed.
Print Assumptions C44_abort_refuted.

Example C44_ex :
  ag_answer (CCommit (ag_hdr "req" 1) "C") [Acked ""; Acked ""; Acked ""] = [(1%nat, inl ""); (2%nat, inl ""); (3%nat, inl ""); (0%nat, inl "C"); (4%nat, inl "C")] /\
  last (ag_answer (CCommit (ag_hdr "req" 1) "C") [Acked ""; Nacked ESecurity "no"; Acked ""]) (9%nat, inl "") = (4%nat, inr (ESecurity, "no")) /\
  last (ag_answer (CCommit (ag_hdr "req" 1) "C") [Acked ""; Nacked ESecurity "no"; Nacked EConnection "gone"]) (9%nat, inl "") =
    (4%nat, inr (EConnection, "2/3 committed failed:" +++ newline +++ "  agg: no" +++ newline +++ "  urn:X: gone")) /\
  last (ag_answer (CAbort (ag_hdr "req" 1) "C") [Acked ""; Nacked ESecurity "no"; Acked ""]) (9%nat, inl "") = (4%nat, inr (EType, "")) /\
  last (ag_answer (CTerminate (ag_hdr "req" 1) "C") [Acked ""; Nacked ESecurity "no"; Acked ""]) (9%nat, inl "") = (4%nat, inr (ESecurity, "no")).
Proof. repeat split; vm_compute; reflexivity. Qed.

(** If several agents fail, the answer has a line for each of them, with its name and what it said. *)
Lemma told_failures us l ls : failures_told us l ls -> provider_failures us l = ls /\ List.length (failures l) = List.length ls.
Proof.
  intros T. induction T as [|u us x l ls T [IH1 IH2]|u us e m l ls T [IH1 IH2]]; [split; reflexivity|split; assumption|].
  split; [|cbn; f_equal; exact IH2]. unfold provider_failures in *. cbn [combine flat_map fst snd app]. f_equal. exact IH1.
Qed.
Lemma join_lines ls : forall x, join (newline +++ "  ") (x :: ls) = x +++ fold_right (fun y r => String "010" ("  " +++ y +++ r)) "" ls.
Proof.
  induction ls as [|y ls IH]; intros x; [symmetry; apply append_nil_r|].
  change (join (newline +++ "  ") (x :: y :: ls)) with (x +++ (newline +++ "  ") +++ join (newline +++ "  ") (y :: ls)). rewrite IH. reflexivity.
Qed.
Theorem C44_message : forall action us l ls default, failures_told us l ls -> (2 <= List.length ls)%nat ->
  aggregate action l us default =
  (default, py_str (Z.of_nat (List.length ls)) +++ "/" +++ py_str (Z.of_nat (List.length us)) +++ " " +++ action +++ " failed:" +++
            fold_right (fun y r => String "010" ("  " +++ y +++ r)) "" ls).
Proof.
  intros action us l ls default T N. destruct (told_failures _ _ _ T) as [E1 E2].
  assert (List.length l = List.length us) as El by (clear - T; induction T; cbn; congruence).
  unfold aggregate. rewrite E1, <- El. destruct (failures l) as [|f [|f' fs]]; [cbn in E2; lia|cbn in E2; lia|]. rewrite E2.
  destruct ls as [|x ls]; [cbn in N; lia|]. rewrite join_lines. reflexivity.
Qed.
Print Assumptions C44_message.
Example C44_message_ex : failures_told ["a"; "b"; "c"] [Nacked ESecurity "no"; Acked ""; Nacked EConnection "gone"] ["a: no"; "c: gone"].
Proof. apply told_one, told_not, told_one, told_nobody. Qed.

(** ** C45 *)
(** with a database that works and providers that do not change meanwhile.
    Missing: the header is addressed to the wrong agent, see below. *)
Theorem C45_cleanup_partial : forall (P : st -> Prop) Q g h q reg l a rest x,
  (forall s, P s -> a_reg s = reg) -> no_db_errors Q -> exec P Q (reserve g h q) l (Some x) ->
  acks_in l = a :: rest -> (exists i, failed_at a i) ->
  exists rs ts, downs l = rs ++ ts /\ List.length rs = List.length a /\ Forall (fun d => is_reserve (snd d)) rs /\
    terminations ts = accepted_at rs a /\
    Forall (fun d => hd_provider (snd (fst d)) = last (map (fun d => hd_provider (snd (fst d))) rs) "" /\ exists i, snd d = DTerminate i) ts /\
    (exists e, x = inr e) /\
    exists as1 c c0, acts l = as1 ++ [AWriteConn c] /\ In (AInsertConn c0) as1 /\ cn_cid c = cn_cid c0 /\ st_l (cn_states c) = LTerminated.
Proof.
  intros P Q g h q reg l a rest x HP HQ E A [i Hi].
  apply (all_use _ _ _ _ (reserve_cleaned P Q g h q reg HP HQ) l _ E a rest x A (not_all_acked a i Hi) eq_refl).
Qed.
Print Assumptions C45_cleanup_partial.

Definition ag_refused : list event := ag_reserve ++ [EvAnswer 0 (AnsAcks [Acked "s0"; Nacked ESecurity "no"; Acked "s2"]); EvAnswer 0 (AnsAcks [Acked ""; Acked ""])].
Example C45_ex :
  map (fun d => match snd d with DReserve _ _ _ _ _ _ => (fst d, "") | DTerminate i => (fst d, i) | _ => (fst d, "?") end) (ag_downs ag_refused) =
    [((0%nat, "agg"), ""); ((1%nat, "agg"), ""); ((2%nat, "urn:X"), ""); ((0%nat, "urn:X"), "s0"); ((2%nat, "urn:X"), "s2")] /\
  m_done (ag_run ag_refused) = [(0%nat, inr (ESecurity, "no"))] /\
  map (fun e => st_l (cn_states (snd e))) (t_conns (m_st (ag_run ag_refused))) = [LTerminated] /\
  accepted_at [(0%nat, re "agg" 0, DCommit ""); (1%nat, re "agg" 1, DCommit ""); (2%nat, re "urn:X" 2, DCommit "")] [Acked "s0"; Nacked ESecurity "no"; Acked "s2"] = [(0%nat, "s0"); (2%nat, "s2")].
Proof. repeat split; vm_compute; reflexivity. Qed.

(** each termination should be addressed to the agent the provider's reservation
    was addressed to *)
Theorem C45_addressed_refuted : ~ (forall g l p h i h' gid a b s e bw,
  In (ODown p h (DTerminate i)) (outs (m_st (mrun g true ag_start l))) ->
  In (ODown p h' (DReserve gid a b s e bw)) (outs (m_st (mrun g true ag_start l))) -> hd_provider h = hd_provider h').
Proof.
  intros H.
  specialize (H (ag_cfg false false false) ag_refused 0%nat (mkHeader "agg" "urn:X" 3 [] None) "s0" (mkHeader "agg" "agg" 0 [] (Some ["up:1"; "agg:C"]))
    "gid" (mkSTP "A" "src" ag_label) (mkSTP "A" "p1" ag_label) (Some 10) (Some 20) 7).
  discriminate H; vm_compute; auto 10.
Qed.
Print Assumptions C45_addressed_refuted.
