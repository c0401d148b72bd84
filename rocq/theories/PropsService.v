(** Properties C89 and C90: the aggregator with its local backend. *)
From Verif Require Import Base BaseProofs ModelLabel ModelSTP ModelAuthz ModelNRM ModelState ModelLinkVector ModelProvreg ModelAggregator SpecAggregator SpecAggInv.
From Verif Require ModelBackend ModelBackendConc SpecBackend PropsBackend.
From Verif Require Import ModelService SpecService ProofsService PropsAggregator.
Open Scope Z_scope.

(** ** C89 *)
(** whatever the interleaving: a link is set up only for a segment the aggregator
    asked for, of a connection that was reserved, committed and provisioned at the
    aggregator, with attributes the ports accept, and on the ports and with labels
    of that segment.  Missing: ids given twice, messages of other agents about the
    backend's segments ([C89_apart_refuted]), and that it is the agent that
    reserved the connection who commits and provisions it
    ([C89_requester_refuted]). *)
Theorem C89_setup_partial : forall g reg rv t l sc a b, let v := srun g (sinit reg rv t) l in
  fresh_ids v -> apart v -> did v (ModelBackend.OSetup sc a b) ->
  exists cid h q h1 h2 hd src dst l1 l2,
    segment_of g v cid h q hd src dst /\ local_id v sc (py_str (Z.of_nat (hd_corr hd))) /\ stored_for v cid h q /\
    asked v (CCommit h1 cid) /\ may_use g h1 src dst /\ asked v (CProvision h2 cid) /\ may_use g h2 src dst /\ chosen g src dst l1 l2 /\
    a = ModelBackend.get_target (sv_back g) (s_port src) l1 /\ b = ModelBackend.get_target (sv_back g) (s_port dst) l2.
Proof. intros g reg rv t l sc a b v. eapply setup_traced. apply run_ok. Qed.
Print Assumptions C89_setup_partial.

(** A network A with a link to X, reserved from src to out. *)
Definition sx_ports : list (string * nrm_port) := [("src", ag_port "src" None None); ("out", ag_port "out" (Some "X") (Some "in"))].
Definition sx_agg : cfg := mkCfg "agg" false false false true [("A", sx_ports)] [].
Definition sx_back : bcfg := ModelBackend.mkCfg "A" sx_ports (PropsBackend.ex_res ":") (PropsBackend.ex_res "#") None (fun _ => false) 60 false.
Definition sx_cfg : scfg := mkSCfg sx_agg true sx_back 0.
Definition sx_rv : lvec := lv_run [] 5 [LAdd "A"; LDict [("X", 1)]; LUpdate "A" "out" 0].
Definition sx_reg : provreg := pr_run [] 10 [PAdd "agg" "A" 0; PAdd "urn:X" "X" 2].
Definition sx_run (l : list sevent) : svc := srun sx_cfg (sinit sx_reg sx_rv 0) l.
Definition sx_req : areq := mkAReq None "gid" (mkSTP "A" "src" ag_label) (mkSTP "A" "out" ag_label) None None 7.
Definition sx_ans (i n : nat) : list sevent := repeat (SBack (ModelBackendConc.EAnswer i None)) n.
Definition sx_down (n : nat) (new : string) : sevent := SDown n (mkRI None) new.
Definition sx_up (n k : nat) : sevent := SUp n k "agg" 0.
Definition sx_reserve : list sevent :=
  [SCall (CReserve (ag_hdr "req" 100) sx_req); SAnswer 0 AnsOk; SAnswer 0 (AnsId "C"); sx_down 0 "s0"] ++ sx_ans 0 3 ++
  [SBack (ModelBackendConc.EStart 0)] ++ sx_ans 1 3 ++ [sx_up 0 0; SAnswer 0 (AnsAcks [Acked "s0"])].
Definition sx_commit (who : string) : list sevent := sx_reserve ++ [SCall (CCommit (ag_hdr who 101) "C"); sx_down 2 ""] ++ sx_ans 2 5 ++ [sx_up 1 50].
Definition sx_prov (who : string) : list sevent :=
  sx_commit who ++ [SCall (CProvision (ag_hdr who 102) "C"); sx_down 5 ""] ++ sx_ans 3 4 ++ [SBack (ModelBackendConc.EStart 0)] ++ sx_ans 3 2.
Definition sx_active (who : string) : list sevent := sx_prov who ++ [sx_up 3 60] ++ sx_ans 4 4 ++ [sx_up 5 61].
Definition sx_end (who : string) : list sevent := sx_active who ++ [SCall (CTerminate (ag_hdr who 103) "C"); sx_down 8 ""] ++ sx_ans 5 9 ++ [sx_up 9 70].
Definition sx_ups (v : svc) : list (string * ubody) := flat_map (fun o => match o with OUp r b => [(r, b)] | _ => [] end) (outs (m_st (v_agg v))).

(** the backend's ids, with the correlation ids they were asked for with *)
Definition ids (v : svc) : list (string * string) :=
  flat_map (fun e => match snd e with ModelBackend.Reserve h q => [(ModelBackend.rs_new q, ModelBackend.h_correlation h)] | _ => [] end) (ModelBackendConc.m_log (v_back v)).
Lemma local_ids v sc k : local_id v sc k <-> In (sc, k) (ids v).
Proof.
  unfold local_id, ids. rewrite in_flat_map. split.
  - intros (t & h & q & H1 & <- & <-). exists (t, ModelBackend.Reserve h q). split; [exact H1|left; reflexivity].
  - intros ([t o] & H1 & H2). cbn in H2. destruct o; try contradiction. destruct H2 as [[= <- <-]|[]]. exists t. do 2 eexists. split; [exact H1|auto].
Qed.
Lemma fresh_sx v : ids v = [("s0", "0")] \/ ids v = [("s0", "0"); ("s1", "1")] -> fresh_ids v.
Proof. intros H sc k k' H1 H2. apply local_ids in H1, H2. destruct H as [H|H]; rewrite H in *; cbn in *; repeat match goal with H : _ \/ _ |- _ => destruct H end; try contradiction; congruence. Qed.
Lemma apart_sx v : forallb (fun c => match names c with Some sc => negb (mem sc (map fst (ids v))) | None => true end) (v_ext v) = true -> apart v.
Proof.
  intros H c sc k H1 H2 H3. rewrite forallb_forall in H. specialize (H c H1). rewrite H2 in H. apply local_ids in H3. apply (in_map fst) in H3. cbn in H3.
  apply mem_In in H3. rewrite H3 in H. discriminate.
Qed.

Example C89_ex : let v := sx_run (sx_end "req") in
  fresh_ids v /\ apart v /\ unclaimed "agg" v /\ did v (ModelBackend.OSetup "s0" "src#100" "out#100") /\
  ModelBackend.outs (ModelBackendConc.m_st (v_back v)) =
    [ModelBackend.OReserveConfirmed "s0" "0"; ModelBackend.OCommitConfirmed "s0"; ModelBackend.OSetup "s0" "src#100" "out#100";
     ModelBackend.OProvisionConfirmed "s0"; ModelBackend.OSetupDone "s0" true; ModelBackend.ODataPlane "s0" true;
     ModelBackend.OTeardown "s0" "src#100" "out#100"; ModelBackend.OTeardownDone "s0" true; ModelBackend.ODataPlane "s0" false; ModelBackend.OTerminateConfirmed "s0"] /\
  map (fun x => (fst x, match snd x with UReserveConfirmed c _ _ _ _ _ _ => "held " +++ c | UCommitConfirmed c => "committed " +++ c | UProvisionConfirmed c => "provisioned " +++ c
    | UDataPlane c (a, _, _) => (if a then "up " else "down ") +++ c | UTerminateConfirmed c => "terminated " +++ c | _ => "?" end)) (sx_ups v) =
    [("req", "held C"); ("req", "committed C"); ("req", "provisioned C"); ("req", "up C"); ("req", "terminated C")].
Proof.
  cbv zeta. split; [apply fresh_sx; left; vm_compute; reflexivity|]. split; [apply apart_sx; vm_compute; reflexivity|]. split.
  - assert (E : forallb (fun c => match c with CReserveConfirmed _ _ _ _ => false | _ => true end) (v_ext (sx_run (sx_end "req"))) = true) by (vm_compute; reflexivity).
    intros h sc a b H. rewrite forallb_forall in E. apply E in H. discriminate.
  - split; [vm_compute; do 2 right; left; reflexivity|]. split; vm_compute; reflexivity.
Qed.

(** with a restart in the middle *)
Definition sx_restarted : list sevent := sx_commit "req" ++ SRestart sx_reg sx_rv :: sx_ans 3 3 ++ [SCall (CProvision (ag_hdr "req" 102) "C"); sx_down 5 ""] ++
  sx_ans 4 4 ++ [SBack (ModelBackendConc.EStart 0)] ++ sx_ans 4 2 ++ [sx_up 3 60] ++ sx_ans 5 4 ++ [sx_up 5 61].
Example C89_ex_restart : let v := sx_run sx_restarted in
  fresh_ids v /\ apart v /\ did v (ModelBackend.OSetup "s0" "src#100" "out#100") /\ did v (ModelBackend.ODataPlane "s0" true) /\
  map snd (skipn 2 (sx_ups v)) = [UProvisionConfirmed "C"; UDataPlane "C" (true, 0, true)].
Proof.
  cbv zeta. split; [apply fresh_sx; left; vm_compute; reflexivity|]. split; [apply apart_sx; vm_compute; reflexivity|].
  split; [vm_compute; do 2 right; left; reflexivity|]. split; [vm_compute; do 5 right; left; reflexivity|vm_compute; reflexivity].
Qed.

(** committed and provisioned by an agent that did not reserve it *)
Theorem C89_requester_refuted : ~ (forall g reg rv t l sc a b, let v := srun g (sinit reg rv t) l in
  fresh_ids v -> apart v -> did v (ModelBackend.OSetup sc a b) ->
  exists cid h q h1 hd src dst, segment_of g v cid h q hd src dst /\ local_id v sc (py_str (Z.of_nat (hd_corr hd))) /\
    asked v (CCommit h1 cid) /\ hd_requester h1 = hd_requester h).
Proof.
  intros H. specialize (H sx_cfg sx_reg sx_rv 0 (sx_prov "other") "s0" "src#100" "out#100"). cbv zeta in H.
  set (v := srun sx_cfg (sinit sx_reg sx_rv 0) (sx_prov "other")) in H.
  assert (V1 : ids v = [("s0", "0")]) by (vm_compute; reflexivity).
  assert (V2 : apart v) by (apply apart_sx; vm_compute; reflexivity).
  assert (V3 : did v (ModelBackend.OSetup "s0" "src#100" "out#100")) by (vm_compute; do 2 right; left; reflexivity).
  assert (X : forallb (fun c => match c with CReserve h _ => eqb (hd_requester h) "req" | CCommit h _ => eqb (hd_requester h) "other" | _ => true end) (m_log (v_agg v)) = true) by (vm_compute; reflexivity).
  clearbody v.
  destruct (H (fresh_sx v (or_introl V1)) V2 V3) as (cid & h & q & h1 & hd & src & dst & (S & _) & _ & C & E).
  rewrite forallb_forall in X. pose proof (X _ S) as X1. pose proof (X _ C) as X2. cbv beta iota in X1, X2. apply (proj1 (eqb_true _ _)) in X1. apply (proj1 (eqb_true _ _)) in X2. rewrite E, X1 in X2. discriminate.
Qed.
Print Assumptions C89_requester_refuted.

(** Another agent reserves a connection of its own, D, from A to X.  X confirms its
    segment with the id of A's segment of C: with D, A's segment of C is committed
    and provisioned, though nobody asked for that. *)
Definition sx_far : areq := mkAReq None "gid" (mkSTP "A" "src" ag_label) (mkSTP "X" "far" ag_label) None None 7.
Definition sx_hijack : list sevent := sx_reserve ++
  [SCall (CReserve (ag_hdr "other" 200) sx_far); SAnswer 2 AnsOk; SAnswer 2 (AnsId "D"); sx_down 2 "s1"] ++ sx_ans 2 3 ++
  [SBack (ModelBackendConc.EStart 0)] ++ sx_ans 3 3 ++
  [sx_up 1 1; SCall (CReserveConfirmed (re "urn:X" 2) "s0" (mkSTP "X" "in" ag_label) (mkSTP "X" "far" ag_label));
   SAnswer 2 (AnsAcks [Acked "s1"; Acked "s0"]); SCall (CCommit (ag_hdr "other" 201) "D"); sx_down 5 ""; sx_down 6 ""] ++ sx_ans 4 5 ++ sx_ans 5 5 ++
  [sx_up 2 50; sx_up 3 51; SCall (CProvision (ag_hdr "other" 202) "D"); sx_down 8 ""] ++ sx_ans 6 4 ++ [SBack (ModelBackendConc.EStart 0)] ++ sx_ans 6 2.
Lemma hijack_false v : ids v = [("s0", "0"); ("s1", "1")] ->
  forallb (fun o => match o with ODown _ h (DReserve _ _ _ _ _ _) => negb (eqb (py_str (Z.of_nat (hd_corr h))) "0") || eqb (hd_trace h) (Some ["up:1"; "agg:C"]) | _ => true end) (outs (m_st (v_agg v))) = true ->
  forallb (fun c => match c with CCommit _ cid => eqb cid "D" | _ => true end) (m_log (v_agg v)) = true ->
  (exists cid h q h1 hd src dst, segment_of sx_cfg v cid h q hd src dst /\ local_id v "s0" (py_str (Z.of_nat (hd_corr hd))) /\ asked v (CCommit h1 cid)) -> False.
Proof.
  intros V X1 X2 (cid & h & q & h1 & hd & src & dst & (_ & T & Et & _) & I & C). apply local_ids in I. rewrite V in I.
  rewrite forallb_forall in X1, X2. pose proof (X1 _ T) as Y1. pose proof (X2 _ C) as Y2. cbv beta iota in Y1, Y2. apply (proj1 (eqb_true _ _)) in Y2. subst cid.
  destruct I as [I|[I|[]]]; [|discriminate I]. injection I as I. rewrite <- I, eqb_refl in Y1. cbn [negb orb] in Y1.
  apply (proj1 (eqb_true _ _)) in Y1. rewrite Y1 in Et. injection Et as Et. unfold extended_trace in Et.
  change ["up:1"; "agg:C"] with (["up:1"] ++ ["agg:C"]) in Et. apply app_inj_tail in Et as [_ Et]. discriminate.
Qed.
Theorem C89_apart_refuted : ~ (forall g reg rv t l sc a b, let v := srun g (sinit reg rv t) l in
  fresh_ids v -> did v (ModelBackend.OSetup sc a b) ->
  exists cid h q h1 hd src dst, segment_of g v cid h q hd src dst /\ local_id v sc (py_str (Z.of_nat (hd_corr hd))) /\ asked v (CCommit h1 cid)).
Proof.
  intros H. apply (hijack_false (sx_run sx_hijack)); [vm_compute; reflexivity..|]. apply (H sx_cfg sx_reg sx_rv 0 sx_hijack "s0" "src#100" "out#100").
  - apply fresh_sx. right. vm_compute. reflexivity.
  - vm_compute. do 4 right. left. reflexivity.
Qed.
Print Assumptions C89_apart_refuted.

(** ** C90 *)
(** What the aggregator reports, its backend has done, for each of its segments.
    Missing: interleaving within database operations (C41, C42) and messages of
    other agents about the backend's segments ([C90_active_refuted]). *)
Theorem C90_held_partial : forall g reg rv t l r cid gid a b x y bw hd gid' a' b' x' y' bw' tr, let v := srun g (sinit reg rv t) l in
  sv_prompt g = true -> unclaimed (a_urn (sv_agg g)) v -> In (OUp r (UReserveConfirmed cid gid a b x y bw)) (outs (m_st (v_agg v))) ->
  told g v hd (DReserve gid' a' b' x' y' bw') -> hd_provider hd = a_urn (sv_agg g) -> hd_trace hd = Some (tr ++ [a_urn (sv_agg g) +++ ":" +++ cid]) ->
  exists sc, did v (ModelBackend.OReserveConfirmed sc (py_str (Z.of_nat (hd_corr hd)))).
Proof. intros g reg rv t l r cid gid a b x y bw hd gid' a' b' x' y' bw' tr v. eapply reserve_reported. apply run_ok. Qed.
Print Assumptions C90_held_partial.
Theorem C90_provisioned_partial : forall g reg rv t l e s r cid, let v := srun g (sinit reg rv t) l in
  sv_prompt g = true -> apart (sstep g v e) -> reports g v e s r (UProvisionConfirmed cid) -> each_done ModelBackend.OProvisionConfirmed cid s (sstep g v e).
Proof. intros g reg rv t l e s r cid v. eapply provision_reported. apply run_ok. Qed.
Print Assumptions C90_provisioned_partial.
Theorem C90_active_partial : forall g reg rv t l e s r cid n k, let v := srun g (sinit reg rv t) l in
  sv_prompt g = true -> apart (sstep g v e) -> reports g v e s r (UDataPlane cid (true, n, k)) -> each_done (fun sc => ModelBackend.OSetupDone sc true) cid s (sstep g v e).
Proof. intros g reg rv t l e s r cid n k v. eapply active_reported. apply run_ok. Qed.
Print Assumptions C90_active_partial.
Theorem C90_terminated_partial : forall g reg rv t l e s r cid, let v := srun g (sinit reg rv t) l in
  sv_prompt g = true -> apart (sstep g v e) -> reports g v e s r (UTerminateConfirmed cid) -> each_done ModelBackend.OTerminateConfirmed cid s (sstep g v e).
Proof. intros g reg rv t l e s r cid v. eapply terminate_reported. apply run_ok. Qed.
Print Assumptions C90_terminated_partial.
(** [agg_event] is what [sstep] does to the aggregator *)
Theorem C90_event : forall g v e, v_agg (sstep g v e) =
  match agg_event g v e with Some ev => mstep (sv_agg g) (sv_prompt g) (v_agg v) ev | None => v_agg v end.
Proof. exact agg_step. Qed.
Print Assumptions C90_event.

Definition tells (f : ubody -> bool) (sa : st * act) : bool := match snd sa with AOut (OUp _ b) => f b | _ => false end.
Definition with_segment (sc : string) (sa : st * act) : bool := existsb (fun y => eqb (sb_cid y) sc) (subs_of 0 (fst sa)).
Example C90_ex : let v n := sx_run (firstn n (sx_end "req")) in
  let at_ n f := match agg_event sx_cfg (v n) (nth n (sx_end "req") (SAnswer 0 AnsOk)) with
                 | Some ev => existsb (fun sa => tells f sa && with_segment "s0" sa) (step_acts sx_agg true (v_agg (v n)) ev) | None => false end in
  at_ 30%nat (m_prov "C") = true /\ at_ 35%nat (fun b => match b with UDataPlane _ (a, _, _) => a | _ => false end) = true /\ at_ 47%nat (m_term "C") = true /\
  In ("s0", "0") (ids (v 30%nat)) /\ (0 < List.length (filter (says (m_conf "C")) (outs (m_st (v_agg (v 30%nat))))))%nat.
Proof. cbv zeta. split; [vm_compute; reflexivity|]. split; [vm_compute; reflexivity|]. split; [vm_compute; reflexivity|]. split; [vm_compute; left; reflexivity|vm_compute; repeat constructor]. Qed.

(** a notification from any agent about the backend's segment is believed *)
Definition sx_lie : sevent := SCall (CDataPlane (re "urn:X" 7) "s0" (true, 0, true)).
Theorem C90_active_refuted : ~ (forall g reg rv t l e s r cid n k, let v := srun g (sinit reg rv t) l in
  sv_prompt g = true -> reports g v e s r (UDataPlane cid (true, n, k)) -> each_done (fun sc => ModelBackend.OSetupDone sc true) cid s (sstep g v e)).
Proof.
  intros H. specialize (H sx_cfg sx_reg sx_rv 0 (sx_commit "req") sx_lie). cbv zeta in H. set (v := srun sx_cfg (sinit sx_reg sx_rv 0) (sx_commit "req")) in H.
  assert (V : existsb (fun sa => tells (fun b => match b with UDataPlane c (a, n, k) => eqb c "C" && a && (n =? 0)%Z && k | _ => false end) sa &&
      match t_conns (fst sa) with [(O, c)] => eqb (cn_cid c) "C" | _ => false end && with_segment "s0" sa)
    (step_acts sx_agg true (v_agg v) (EvCall (CDataPlane (re "urn:X" 7) "s0" (true, 0, true)))) = true) by (vm_compute; reflexivity).
  apply existsb_exists in V as ([s a] & Hin & V). apply andb_true_iff in V as [V V3]. apply andb_true_iff in V as [V1 V2]. unfold tells in V1. unfold with_segment in V3. cbn [fst snd] in V1, V2, V3.
  destruct a; try discriminate V1. match type of V1 with match ?o with _ => _ end = true => destruct o as [|r b| |]; try discriminate V1 end.
  destruct b; try discriminate V1. match type of V1 with match ?d with _ => _ end = true => destruct d as [[a n] k] end. rewrite !andb_true_iff in V1. destruct V1 as [[[V0 ->] Vn] ->]. apply (proj1 (eqb_true _ _)) in V0. subst. apply Z.eqb_eq in Vn. subst n.
  assert (Hr : reports sx_cfg v sx_lie s r (UDataPlane "C" (true, 0, true))).
  { exists (EvCall (CDataPlane (re "urn:X" 7) "s0" (true, 0, true))). split; [reflexivity|exact Hin]. }
  assert (W1 : ids (sstep sx_cfg v sx_lie) = [("s0", "0")]) by (vm_compute; reflexivity).
  assert (W2 : forallb (fun x => match x with ModelBackend.OSetupDone _ _ => false | _ => true end) (ModelBackend.outs (ModelBackendConc.m_st (v_back (sstep sx_cfg v sx_lie)))) = true) by (vm_compute; reflexivity).
  specialize (H s r "C" 0 true eq_refl Hr). set (w := sstep sx_cfg v sx_lie) in *. clearbody w. destruct H as (k & c & C1 & C2 & C3).
  destruct (t_conns s) as [|[[|k0] c0] [|]]; try discriminate V2. cbn [aget] in C1. destruct (eqb_ok k 0%nat) as [->|]; [|discriminate C1].
  apply existsb_exists in V3 as (y & Y1 & Y2). apply (proj1 (eqb_true _ _)) in Y2.
  assert (D : did w (ModelBackend.OSetupDone (sb_cid y) true)). { apply (C3 y "0" Y1). apply local_ids. rewrite W1, Y2. left. reflexivity. }
  rewrite forallb_forall in W2. apply W2 in D. discriminate.
Qed.
Print Assumptions C90_active_refuted.
