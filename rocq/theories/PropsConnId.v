(** C104: every connection has an id of its own, under which it stays known. *)
From Verif Require Import Base BaseProofs ModelRest ModelPlugins ModelConnId ModelLabel ModelSTP ModelAuthz ModelNRM ModelState ModelLinkVector ModelProvreg ModelAggregator
  SpecAggregator ProofsAggregator SpecAggInv ProofsAggInv ProofsAggTab ProofsAggRun2 SpecConnId ProofsConnId PropsAggregator.
Open Scope Z_scope.

(** An id is the prefix of the agent and ten digits. *)
Theorem C104_shape : forall domain l, ten_draws l ->
  exists t, create_connection_id domain l = conn_prefix domain +++ t /\ String.length t = 10%nat /\ each hex t.
Proof. intros domain l [L F]. destruct (drawn_text l F) as [A B]. eexists. split; [reflexivity|]. rewrite A, L. auto. Qed.
Print Assumptions C104_shape.
(** The prefix is the first two letters of the domain, as capitals, and a hyphen. *)
Theorem C104_prefix : forall a b rest, 97 <= Z.of_nat (nat_of_ascii a) <= 122 -> 97 <= Z.of_nat (nat_of_ascii b) <= 122 ->
  exists a' b', conn_prefix (String a (String b rest)) = String a' (String b' "-") /\
    Z.of_nat (nat_of_ascii a') = Z.of_nat (nat_of_ascii a) - 32 /\ Z.of_nat (nat_of_ascii b') = Z.of_nat (nat_of_ascii b) - 32.
Proof.
  intros a b rest Ha Hb. exists (upper_char a), (upper_char b). split; [destruct rest; reflexivity|].
  assert (U : forall c, 97 <= Z.of_nat (nat_of_ascii c) <= 122 -> Z.of_nat (nat_of_ascii (upper_char c)) = Z.of_nat (nat_of_ascii c) - 32).
  { intros c [H1 H2]. unfold upper_char. cbv zeta. rewrite (proj2 (Z.leb_le _ _) H1), (proj2 (Z.leb_le _ _) H2). cbn [andb]. rewrite nat_ascii_embedding by lia. lia. }
  split; apply U; assumption.
Qed.
Print Assumptions C104_prefix.
(** Different draws give different ids, *)
Theorem C104_distinct : forall domain l l', ten_draws l -> ten_draws l' -> create_connection_id domain l = create_connection_id domain l' -> l = l'.
Proof.
  intros domain l l' [_ F] [_ F'] E. unfold create_connection_id in E.
  assert (I : forall p a b, p +++ a = p +++ b -> a = b) by (induction p as [|c p IH]; cbn; intros a b H; [exact H|injection H as H; apply IH; exact H]).
  apply I in E. apply drawn_text_inj; auto.
Qed.
Print Assumptions C104_distinct.
(** and every id of that shape can come up. *)
Theorem C104_any : forall domain t, String.length t = 10%nat -> each hex t -> exists l, ten_draws l /\ create_connection_id domain l = conn_prefix domain +++ t.
Proof.
  intros domain t L H. destruct (hex_text t H) as (l & F & Ll & E). exists l. split; [split; [congruence|exact F]|]. unfold create_connection_id. rewrite E. reflexivity.
Qed.
Print Assumptions C104_any.
(** An id can be written in a URL, a trace or a table as it is, when the domain can. *)
Theorem C104_safe : forall domain l, ten_draws l -> each host_char domain -> each host_char (create_connection_id domain l).
Proof.
  intros domain l [_ F] H. unfold create_connection_id, conn_prefix. apply each_app. split; [apply each_app; split|].
  - apply upper_host, stake_each, H.
  - cbn. unfold host_char. cbn. split; [lia|exact I].
  - eapply each_imp; [apply hex_host|]. apply drawn_text, F.
Qed.
Print Assumptions C104_safe.

Example C104_ex : ten_draws [0; 1; 9; 10; 15; 3; 3; 3; 12; 5]%nat /\
  create_connection_id "nordu.net" [0; 1; 9; 10; 15; 3; 3; 3; 12; 5]%nat = "NO-019af333c5" /\
  create_connection_id "nordu.net" [0; 1; 9; 10; 15; 3; 3; 3; 12; 6]%nat = "NO-019af333c6" /\
  each host_char "nordu.net" /\ conn_prefix "x" = "X-".
Proof.
  split; [split; [reflexivity|repeat constructor; lia]|]. split; [reflexivity|]. split; [reflexivity|]. split; [|reflexivity].
  cbn. unfold host_char. cbn. repeat split; lia.
Qed.

(** Ids of agents whose domains start alike may coincide; a connection is known by its
    id and the agent that made it. *)
Theorem C104_agents_refuted : ~ (forall d d' l l', d <> d' -> ten_draws l -> ten_draws l' -> create_connection_id d l <> create_connection_id d' l').
Proof.
  intros H. apply (H "nordu.net" "northernlight" (repeat 0%nat 10) (repeat 0%nat 10)); [discriminate| | |reflexivity]; (split; [reflexivity|repeat constructor; lia]).
Qed.
Print Assumptions C104_agents_refuted.

(** The id a requester is told, and the one the row has, is the one that was made; the row
    has what was asked for. *)
Theorem C104_given : forall (P : st -> Prop) Q g h q l r, exec P Q (reserve g h q) l r ->
  (forall c, In (OAct (AInsertConn c)) l -> In (OAns WId (AnsId (cn_cid c))) l /\ made_for c h q) /\
  forall cid, r = Some (inl cid) -> In (OAns WId (AnsId cid)) l.
Proof. intros P Q g h q l r. exact (all_use _ _ _ _ (reserve_given P Q g h q) l r). Qed.
Print Assumptions C104_given.

(** An id that is taken is refused and nothing is stored; *)
Theorem C104_taken : forall c s, (exists c', In c' (map snd (t_conns s)) /\ cn_cid c' = cn_cid c) ->
  exists e, advance true (insert_conn c) s = (Failed e, s).
Proof.
  intros c s (c' & H & E). destruct (find_conn_taken _ s c' H E) as (d & F). eexists. unfold insert_conn. cbn. rewrite F. reflexivity.
Qed.
Print Assumptions C104_taken.
(** one that is free is not, unless the connection ends before it starts: the
    connection gets a row of its own, and no other row changes. *)
Theorem C104_free : forall c s, (forall c', In c' (map snd (t_conns s)) -> cn_cid c' <> cn_cid c) ->
  (forall b e, cn_start c = Some b -> cn_end c = Some e -> b < e) ->
  exists s', advance true (insert_conn c) s = (Done (cn_set_key (n_key s) c), s') /\
    aget (n_key s) (t_conns s') = Some (cn_set_key (n_key s) c) /\ (forall k, k <> n_key s -> aget k (t_conns s') = aget k (t_conns s)) /\
    t_subs s' = t_subs s /\ outs s' = outs s.
Proof.
  intros c s N T. assert (F : find_conn (cn_cid c) s = None).
  { destruct (find_conn (cn_cid c) s) as [d|] eqn:F; [|reflexivity]. unfold find_conn in F. apply find_some in F. destruct F as [F1 F2]. apply (proj1 (eqb_true _ _)) in F2. destruct (N _ F1 F2). }
  assert (S : span_ok (cn_start c) (cn_end c) = true).
  { unfold span_ok. destruct (cn_start c) as [b|]; [|reflexivity]. destruct (cn_end c) as [e|]; [|reflexivity]. apply Z.ltb_lt, T; reflexivity. }
  eexists. unfold insert_conn. cbn [bind await get advance]. rewrite F, S. cbn [orb negb]. cbn. split; [reflexivity|]. destruct s. cbn.
  split; [rewrite aget_aset, eqb_refl; reflexivity|]. split; [|auto]. intros k Hk. rewrite aget_aset. destruct (eqb_ok k n_key) as [->|_]; [contradiction|reflexivity].
Qed.
Print Assumptions C104_free.
(** and so are connections that would end before they start. *)
Theorem C104_times : forall c s b e, cn_start c = Some b -> cn_end c = Some e -> e <= b -> exists x, advance true (insert_conn c) s = (Failed x, s).
Proof.
  intros c s b e Hb He L. eexists. unfold insert_conn. cbn [bind await get advance]. rewrite Hb, He. unfold span_ok.
  assert (X : (b <? e) = false) by (apply Z.ltb_ge; exact L). rewrite X. cbn [negb]. rewrite orb_true_r. reflexivity.
Qed.
Print Assumptions C104_times.

(** Whatever ids the plugin gives, and however calls interleave, stored connections have
    different ones. *)
Theorem C104_apart : forall g prompt reg rv l, ids_apart (m_st (mrun g prompt (minit reg rv) l)).
Proof. exact all_apart. Qed.
Print Assumptions C104_apart.
(** A stored connection stays stored, with its id and its requester, whatever happens
    later, restarts included. *)
Theorem C104_kept : forall g prompt reg rv l l' k c, aget k (t_conns (m_st (mrun g prompt (minit reg rv) l))) = Some c ->
  exists c', aget k (t_conns (m_st (mrun g prompt (minit reg rv) (l ++ l')))) = Some c' /\ cn_cid c' = cn_cid c /\ cn_requester c' = cn_requester c.
Proof. intros g prompt reg rv l l' k c H. unfold mrun. rewrite fold_left_app. exact (all_kept g prompt reg rv l l' k c H). Qed.
Print Assumptions C104_kept.

(** The plugin gives the same id twice: the second reservation fails, the first one stays
    across a restart. *)
Definition ci_again : list event := [EvCall (CReserve (ag_hdr "req2" 101) ag_req); EvAnswer 1 AnsOk; EvAnswer 1 (AnsId "C")].
Example C104_ex_run :
  map (fun kc => (fst kc, cn_cid (snd kc), cn_requester (snd kc))) (t_conns (m_st (ag_run ag_reserve))) = [(0%nat, "C", "req")] /\
  map (fun kc => (fst kc, cn_cid (snd kc), cn_requester (snd kc))) (t_conns (m_st (ag_run (ag_reserve ++ ci_again ++ [EvRestart ag_reg ag_rv])))) = [(0%nat, "C", "req")] /\
  m_done (ag_run (ag_reserve ++ ci_again)) = [(1%nat, inr (EDatabase, ""))] /\
  ag_outs (ag_reserve ++ ci_again) = ag_outs ag_reserve.
Proof. repeat split; vm_compute; reflexivity. Qed.
