(** C105: the segments of connections stay what their agents confirmed, and requests about
    them are addressed to these agents. *)
From Verif Require Import Base BaseProofs ModelLabel ModelSTP ModelAuthz ModelNRM ModelState ModelLinkVector ModelProvreg ModelAggregator
  SpecAggregator ProofsAggregator SpecAggInv ProofsAggInv ProofsAggTab ProofsAggRun2 SpecSegment ProofsSegment PropsAggregator PropsAggInv.
Open Scope Z_scope.

(** A stored segment stays stored and part of the same connection, at the same place, with
    the same id at the same agent and the same ends, whatever happens later, restarts
    included. *)
Theorem C105_kept : forall g prompt reg rv l l' k x, aget k (t_subs (m_st (mrun g prompt (minit reg rv) l))) = Some x ->
  exists x', aget k (t_subs (m_st (mrun g prompt (minit reg rv) (l ++ l')))) = Some x' /\ same_segment x x'.
Proof. intros g prompt reg rv l l' k x H. unfold mrun. rewrite fold_left_app. exact (skept g prompt reg rv l l' k x H). Qed.
Print Assumptions C105_kept.
(** No two stored segments have the same id at the same agent. *)
Theorem C105_apart : forall g prompt reg rv l, segments_apart (m_st (mrun g prompt (minit reg rv) l)).
Proof. intros g prompt reg rv l. destruct (sreach g prompt reg rv l) as [_ [T _]]. apply T. Qed.
Print Assumptions C105_apart.
(** Every stored segment is one that its agent confirmed, with that id and these ends. *)
Theorem C105_confirmed : forall g prompt reg rv l k x, let m := mrun g prompt (minit reg rv) l in
  aget k (t_subs (m_st m)) = Some x -> as_confirmed (m_log m) x.
Proof. intros g prompt reg rv l k x m H. destruct (sreach g prompt reg rv l) as [_ (_ & C & _)]. exact (C k x H). Qed.
Print Assumptions C105_confirmed.
(** The log is of the calls that came in. *)
Theorem C105_log : forall g prompt reg rv l c, In c (m_log (mrun g prompt (minit reg rv) l)) -> In (EvCall c) l.
Proof.
  intros g prompt reg rv l c. assert (X : forall l m, In c (m_log (mrun g prompt m l)) -> In c (m_log m) \/ In (EvCall c) l); [|intros H; destruct (X _ _ H) as [[]|H']; exact H'].
  clear. induction l as [|e l IH]; intros m H; [auto|]. apply (IH (mstep g prompt m e)) in H. destruct H as [H|H]; [|cbn; auto].
  assert (R : forall i r m', m_log (record i r m') = m_log m') by (intros i [[a|er|w k] s] m'; reflexivity).
  destruct e as [c'|i a|r v|r v]; cbn [mstep] in H.
  - rewrite R in H. cbn [m_log] in H. apply in_app_or in H. destruct H as [H|[->|[]]]; cbn; auto.
  - destruct (aget i (m_tasks m)) as [[w k]|]; [|auto]. destruct (answers w a); [rewrite R in H|]; auto.
  - auto.
  - auto.
Qed.
Print Assumptions C105_log.
(** A request to commit, abort, provision, release or query a segment is addressed to an
    agent that has a segment of that id. *)
Theorem C105_addressed : forall g prompt reg rv l e s a, In (s, a) (step_acts g prompt (mrun g prompt (minit reg rv) l) e) -> at_home s a.
Proof. exact home_step. Qed.
Print Assumptions C105_addressed.
(** A segment whose id its agent has used before is refused and nothing is stored; *)
Theorem C105_taken : forall x s, (exists y, In y (map snd (t_subs s)) /\ sb_provider y = sb_provider x /\ sb_cid y = sb_cid x) ->
  exists e, advance true (insert_sub x) s = (Failed e, s).
Proof.
  intros x s (y & H & E1 & E2). eexists. unfold insert_sub. cbn [bind await get advance].
  destruct (find_sub (sb_provider x) (sb_cid x) s) as [r|] eqn:F; [reflexivity|]. pose proof (find_none _ _ F y H) as N. cbn in N. rewrite E1, E2, !eqb_refl in N. discriminate.
Qed.
Print Assumptions C105_taken.
(** the same id at another agent is not. *)
Theorem C105_free : forall x s, (forall y, In y (map snd (t_subs s)) -> sb_provider y = sb_provider x -> sb_cid y <> sb_cid x) ->
  exists s', advance true (insert_sub x) s = (Done tt, s') /\ aget (n_key s) (t_subs s') = Some (sb_set_key (n_key s) x) /\
    (forall k, k <> n_key s -> aget k (t_subs s') = aget k (t_subs s)) /\ t_conns s' = t_conns s /\ outs s' = outs s.
Proof.
  intros x s N. assert (F : find_sub (sb_provider x) (sb_cid x) s = None).
  { destruct (find_sub (sb_provider x) (sb_cid x) s) as [d|] eqn:F; [|reflexivity]. unfold find_sub in F. apply find_some in F. destruct F as [F1 F2]. apply andb_true_iff in F2. destruct F2 as [F2 F3].
    apply (proj1 (eqb_true _ _)) in F2. apply (proj1 (eqb_true _ _)) in F3. destruct (N _ F1); congruence. }
  eexists. unfold insert_sub. cbn [bind await get advance]. rewrite F. cbn. split; [reflexivity|]. destruct s. cbn.
  split; [rewrite aget_aset, eqb_refl; reflexivity|]. split; [|auto]. intros k Hk. rewrite aget_aset. destruct (eqb_ok k n_key) as [->|_]; [contradiction|reflexivity].
Qed.
Print Assumptions C105_free.

(** The first agent uses an id twice: the second segment is refused; another agent may use
    it too. *)
Definition sg_same : list event := ag_reserve ++
  [EvCall (CReserveConfirmed (re "agg" 0) "s" (mkSTP "A" "src" ag_label) (mkSTP "A" "p1" ag_label));
   EvCall (CReserveConfirmed (re "agg" 1) "s" (mkSTP "B" "q1" ag_label) (mkSTP "B" "p2" ag_label));
   EvCall (CReserveConfirmed (re "urn:X" 2) "s" (mkSTP "X" "in" ag_label) (mkSTP "X" "out" ag_label))].
Definition sg_rows (l : list event) := map (fun kx => (fst kx, (sb_conn (snd kx), sb_order (snd kx), sb_cid (snd kx), sb_provider (snd kx)))) (t_subs (m_st (ag_run l))).
Example C105_ex :
  sg_rows sg_same = [(1%nat, (0%nat, 0%nat, "s", "agg")); (2%nat, (0%nat, 2%nat, "s", "urn:X"))] /\
  m_done (ag_run sg_same) = [(1%nat, inl ""); (2%nat, inr (EDatabase, "")); (3%nat, inl "")] /\
  sg_rows ag_committed = [(1%nat, (0%nat, 0%nat, "s0", "agg")); (2%nat, (0%nat, 1%nat, "s1", "agg")); (3%nat, (0%nat, 2%nat, "s2", "urn:X"))] /\
  sg_rows (ag_provisioned ++ [EvRestart ag_reg ag_rv]) = sg_rows ag_committed /\
  skipn 3 (ag_downs ag_committed) = [(0%nat, "agg", DCommit "s0"); (1%nat, "agg", DCommit "s1"); (2%nat, "urn:X", DCommit "s2")] /\
  In (CReserveConfirmed (re "urn:X" 2) "s2" (mkSTP "X" "in" ag_label) (mkSTP "X" "out" ag_label)) (m_log (ag_run ag_committed)).
Proof. do 5 (split; [vm_compute; reflexivity|]). vm_compute. repeat first [left; reflexivity|right]. Qed.

(** What carries the request is looked up by the network of the end that was confirmed,
    not by the agent: an agent that confirms an end in a network of another one is sent
    no requests; they are handed to what reaches the other one. *)
Definition sg_strange : list event := ag_reserve ++
  [EvCall (CReserveConfirmed (re "agg" 0) "s0" (mkSTP "A" "src" ag_label) (mkSTP "A" "p1" ag_label));
   EvCall (CReserveConfirmed (re "agg" 1) "s1" (mkSTP "B" "q1" ag_label) (mkSTP "B" "p2" ag_label));
   EvCall (CReserveConfirmed (re "urn:X" 2) "s2" (mkSTP "A" "in" ag_label) (mkSTP "X" "out" ag_label));
   EvAnswer 0 (AnsAcks [Acked "s0"; Acked "s1"; Acked "s2"])].
Definition sg_odd (sa : st * act) : bool :=
  match snd sa with
  | AOut (ODown p h b) => eqb p 0%nat && eqb (concerns b) (Some "s2") && eqb (hd_provider h) "urn:X" && eqb (pr_urns (a_reg (fst sa))) (pr_urns ag_reg) && eqb (aget "X" (pr_providers (a_reg (fst sa)))) (Some 2%nat)
  | _ => false
  end.
Lemma sg_odd_not L : existsb sg_odd L = true -> (forall s a, In (s, a) L -> well_carried s a) -> False.
Proof.
  intros X H. apply existsb_exists in X. destruct X as ([s a] & HI & X). pose proof (H _ _ HI) as W. clear HI H. unfold sg_odd in X. cbn [fst snd] in X.
  destruct a; try discriminate. destruct x as [p h b| | |]; try discriminate. rewrite !andb_true_iff in X. destruct X as ((((X1 & X2) & X3) & X4) & X5).
  apply (proj1 (eqb_true _ _)) in X1, X2, X3, X4, X5. subst p.
  destruct (W _ X2) as (net & W1 & W2). rewrite X3 in W1. unfold get_provider_urn in W1. rewrite X4 in W1.
  assert (E : pr_urns ag_reg = [("A", "agg"); ("B", "agg"); ("X", "urn:X")]) by (vm_compute; reflexivity). rewrite E in W1. cbn [aget] in W1.
  destruct (eqb_ok net "A"); [discriminate|]. destruct (eqb_ok net "B"); [discriminate|]. destruct (eqb_ok net "X"); [|discriminate].
  subst net. unfold get_provider in W2. rewrite X5 in W2. discriminate.
Qed.
Lemma sg_odd_found : existsb sg_odd (step_acts (ag_cfg false false false) true (mrun (ag_cfg false false false) true (minit ag_reg ag_rv) sg_strange) (EvCall (CCommit (ag_hdr "req" 101) "C"))) = true.
Proof. vm_compute. reflexivity. Qed.
Theorem C105_carried_refuted : ~ (forall g prompt reg rv l e s a, In (s, a) (step_acts g prompt (mrun g prompt (minit reg rv) l) e) -> well_carried s a).
Proof. intros H. exact (sg_odd_not _ sg_odd_found (H (ag_cfg false false false) true ag_reg ag_rv sg_strange (EvCall (CCommit (ag_hdr "req" 101) "C")))). Qed.
Print Assumptions C105_carried_refuted.
(** Where the confirmed source is in a network of the agent, requests to commit, abort,
    provision and release are carried by what the registry has for it. *)
Theorem C105_carried_partial : forall g h b o prompt s x t a, aget o (h_subs s) = Some x -> get_provider_urn (s_network (sb_src x)) (a_reg s) = Ok (sb_provider x) ->
  In (t, a) (steps prompt (call_sub g h b o) s) -> well_carried t a.
Proof.
  intros g h b o prompt s x t a Hx Hu. unfold call_sub, sub_obj, new_corr. cbn [bind get steps]. rewrite Hx. cbn [bind get steps].
  destruct (get_provider (s_network (sb_src x)) (a_reg s)) as [p|e] eqn:E; cbn [lift bind get steps act1 out]; [|contradiction].
  intros [H|[H|[]]]; injection H as <- <-; [exact I|]. cbn. intros c _. exists (s_network (sb_src x)). destruct s. auto.
Qed.
Print Assumptions C105_carried_partial.
Example C105_ex_carried : let s := m_st (ag_run ag_three) in
  List.length (h_subs s) = 3%nat /\
  forallb (fun ox => match get_provider_urn (s_network (sb_src (snd ox))) (a_reg s) with Ok u => eqb u (sb_provider (snd ox)) | Err _ => false end) (h_subs s) = true.
Proof. split; vm_compute; reflexivity. Qed.
