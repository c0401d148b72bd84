(** The aggregator's methods keep [J] (ProofsServiceInv.v). *)
From Verif Require Import Base BaseProofs ModelLabel ModelSTP ModelAuthz ModelNRM ModelState ModelLinkVector ModelProvreg ModelAggregator SpecAggregator SpecAggInv
  ProofsAggregator ProofsAggPath ProofsServiceWp ProofsServiceInv.
From Verif Require ModelBackend ModelBackendConc.
From Verif Require Import ModelService SpecService.
Open Scope Z_scope.

Lemma one_path g q : path_of g q [(q_src q, q_dst q)].
Proof.
  exists []. split; [reflexivity|]. split; [intros l [= <-]; reflexivity|]. split; [intros l [= <-]; reflexivity|]. intros i n p l m H. destruct i; discriminate.
Qed.
(** a request from elsewhere to a local network does not pass the check *)
Lemma build_path g rv rv' q x ls : route_check (lv_local rv) rv q = Ok x -> build_links g (lv_local rv) rv' (q_src q) (q_dst q) = Ok ls -> path_of g q ls.
Proof.
  intros HR. set (locals := lv_local rv) in *. unfold build_links. intros H.
  destruct (eqb (s_network (q_src q)) (s_network (q_dst q)) && mem (s_network (q_src q)) locals).
  { destruct (negb (pol_hairpin g) && eqb (s_port (q_src q)) (s_port (q_dst q))); [discriminate|]. injection H as <-. apply one_path. }
  destruct (mem (s_network (q_src q)) locals || mem (s_network (q_dst q)) locals) eqn:EO.
  2:{ destruct (pol_aggr g); [|discriminate]. injection H as <-. apply one_path. }
  destruct (mem (s_network (q_src q)) locals) eqn:EM.
  2:{ unfold route_check in HR. cbv zeta in HR. rewrite EM, EO in HR. unfold lv_vector, lv_path in HR. fold locals in HR. rewrite EM in HR. discriminate. }
  destruct (lv_path (s_network (q_dst q)) (s_network (q_src q)) rv') as [[path|]|] eqn:E; try discriminate. cbn in H.
  destruct (cross_connects (a_ports g) (q_src q) (filter (fun np => mem (fst np) locals) path)) as [[ls' last]|] eqn:E5; [|discriminate]. cbn in H. injection H as <-.
  apply (cross_connects_joins _ _ _ _ _ (q_dst q)) in E5. eexists. exact E5.
Qed.
Lemma number_nth {A} (l : list A) : forall i j x, In (j, x) (number i l) -> exists k, (j = i + k)%nat /\ nth_error l k = Some x.
Proof.
  induction l as [|y l IH]; cbn; intros i j x; [contradiction|]. intros [[= <- <-]|H]; [exists O; split; [lia|reflexivity]|].
  destruct (IH _ _ _ H) as (k & -> & E). exists (S k). split; [lia|exact E].
Qed.
Lemma number_In {A} (l : list A) : forall i j x, In (j, x) (number i l) -> In x l.
Proof. induction l as [|y l IH]; cbn; intros i j x; [auto|]. intros [[= _ <-]|H]; [auto|right; eauto]. Qed.

Section Prog.
Variables (g : cfg) (L : list call).
Notation J0 := (J0 g L). Notation J := (J g L).
Notation T := (triple J0 J grows).
Lemma j0 s : J s -> J0 s. Proof. intros [H _]. exact H. Qed.
Hint Resolve j0 gr_refl : core.
Lemma seq {A B} (p : prog A) (f : A -> prog B) s Q Q' : T p s Q -> (forall a s', J s' -> grows s s' -> Q a s' -> T (f a) s' Q') -> T (bind p f) s Q'.
Proof. apply t_seq. intros a b c. apply gr_trans. Qed.
Lemma awaits w s : J s -> T (await w) s (fun _ _ => True).
Proof. apply t_await; [apply gr_refl|intros a b c; apply gr_trans]. Qed.
Lemma seq_await {A} w (p : prog A) s Q : J s -> (forall s', J s' -> grows s s' -> T p s' Q) -> T (await w ;;; p) s Q.
Proof. intros Hj H. eapply seq; [apply awaits; exact Hj|]. intros _ s' Hj' G _. apply H; auto. Qed.
Lemma rets {A} (a : A) s (Q : A -> st -> Prop) : J s -> Q a s -> T (Ret a) s Q.
Proof. apply t_ret. apply gr_refl. Qed.
Lemma throws {A} e s (Q : A -> st -> Prop) : J s -> T (Throw e) s Q.
Proof. apply t_throw. apply gr_refl. Qed.
Lemma throws' {A} e s (Q : A -> st -> Prop) : J s -> T (throw e) s Q.
Proof. apply throws. Qed.
Lemma lifts {A} (r : result A) s : J s -> T (lift r) s (fun a s' => s' = s /\ r = Ok a).
Proof. apply t_lift. apply gr_refl. Qed.
Lemma maps {A B} (f : A -> prog B) (P : st -> Prop) (Q : B -> st -> Prop) (l : list A) :
  (forall s s', grows s s' -> P s -> P s') -> (forall b s s', grows s s' -> Q b s -> Q b s') ->
  (forall x s, In x l -> J s -> P s -> T (f x) s (fun b s' => Q b s')) ->
  forall s, J s -> P s -> T (mapP f l) s (fun bs s' => Forall (fun b => Q b s') bs).
Proof. apply t_map; [apply gr_refl|intros a b c; apply gr_trans]. Qed.
Lemma iters {A} (f : A -> prog unit) (P : st -> Prop) (l : list A) :
  (forall s s', grows s s' -> P s -> P s') -> (forall x s, In x l -> J s -> P s -> T (f x) s (fun _ _ => True)) ->
  forall s, J s -> P s -> T (iterP f l) s (fun _ _ => True).
Proof. apply t_iter; [apply gr_refl|intros a b c; apply gr_trans]. Qed.

(** acts *)
Lemma acts a s : J s -> fine g L s (do_act a s) -> (forall k i, In (k, i) (resvs (do_act a s)) -> In (k, i) (resvs s)) ->
  T (act1 a) s (fun _ s' => s' = do_act a s).
Proof.
  intros [H0 HR] [F1 F2] HS. apply t_act; [apply j0|split; auto|]. split; [exact F1|]. split; [exact F2|]. eapply JR_gr; eauto.
Qed.
Lemma same_acts a s : J s -> same s (do_act a s) -> (forall k i, In (k, i) (resvs (do_act a s)) -> In (k, i) (resvs s)) -> T (act1 a) s (fun _ s' => s' = do_act a s).
Proof. intros Hj HS HR. apply acts; auto. split; [apply same_gr; exact HS|]. eapply same_J0; eauto. Qed.
Lemma t_pop k s : J s -> T (act1 (AResvPop k)) s (fun _ _ => True).
Proof.
  intros Hj. eapply t_mono; [|apply same_acts; [exact Hj|..]]; [auto|destruct s; cbn; unfold same; cbn; repeat split; auto|].
  destruct s; cbn. intros k' i H. eapply In_adel; eauto.
Qed.
Lemma t_note s : J s -> T notification_id s (fun _ _ => True).
Proof.
  intros Hj. unfold notification_id. apply t_get. eapply seq; [apply same_acts; [exact Hj|destruct s; cbn; unfold same; cbn; repeat split; auto|destruct s; cbn; auto]|].
  intros _ s' Hj' G _. apply rets; auto.
Qed.
Lemma t_q a s : J s -> (forall x, a <> AOut x) -> match a with AQreq _ _ | AQreqPop _ | AQcall _ _ | AQcallPop _ => True | _ => False end -> T (act1 a) s (fun _ _ => True).
Proof.
  intros Hj _ Ha. eapply t_mono; [|apply same_acts; [exact Hj|..]]; [auto| |]; destruct a; try contradiction; destruct s; cbn; unfold same; cbn; repeat split; auto.
Qed.
Lemma t_up r b s : J s -> oj g L (OUp r b) s -> T (up r b) s (fun _ _ => True).
Proof.
  intros Hj Ho. eapply t_mono; [|apply acts; [exact Hj|..]]; [auto| |destruct s; auto]. apply a_out; auto. discriminate.
Qed.
Lemma t_up0 r b s : J s -> about b = None -> T (up r b) s (fun _ _ => True).
Proof. intros Hj Hb. apply t_up; auto. intros cid E. congruence. Qed.
(** a message about a connection, from its object *)
Lemma t_upc o c b s : J s -> aget o (h_conns s) = Some c -> about b = Some (cn_cid c) ->
  match b with UReserveConfirmed _ gid u v x e bw => (gid, u, v, x, e, bw) = (cn_gid c, cn_src c, cn_dst c, cn_start c, cn_end c, cn_bw c) | _ => True end ->
  T (up (cn_requester c) b) s (fun _ _ => True).
Proof.
  intros Hj Ho Hb Hc. apply t_up; auto. intros cid E. rewrite Hb in E. injection E as <-.
  destruct (j_hc _ _ _ (j0 _ Hj) _ _ Ho) as (_ & HC). pose proof HC as (c' & R1 & R2).
  destruct (j_ck _ _ _ (j0 _ Hj) _ _ R1) as (_ & _ & h & q & H1 & H2). apply (made_core c' c) in H2; auto.
  exists c, h, q. split; [exact HC|]. split; [reflexivity|]. split; [exact H1|]. split; [exact H2|]. destruct (made_fields _ _ _ H2) as (E1 & E2 & E3 & E4 & E5).
  split; [exact E2|]. destruct b; try exact I. injection Hc as -> -> -> -> -> ->. unfold made, ccore in H2. cbn. repeat split; congruence.
Qed.
Lemma t_plug f cid s : J s -> (f = OCreated \/ f = OTerminated) -> T (out (f cid)) s (fun _ _ => True).
Proof.
  intros Hj Hf. eapply t_mono; [|apply acts; [exact Hj|..]]; [auto| |destruct s; auto]. apply a_out; auto; destruct Hf as [-> | ->]; cbn; auto; discriminate.
Qed.
Lemma corr_same s : same s (do_act ACorr s).
Proof. destruct s; cbn; unfold same; cbn; repeat split; auto. Qed.
(** sending *)
Lemma t_send {A} s p (mk : nat -> header) b (f : nat -> prog A) Q : J s -> (forall k, hd_corr (mk k) = k) -> oj g L (ODown p (mk (n_corr s)) b) s ->
  (forall s', J s' -> grows s s' -> T (f (n_corr s)) s' Q) -> T (k <- new_corr ;; out (ODown p (mk k) b) ;;; f k) s Q.
Proof.
  intros Hj Hk Ho Hf. unfold new_corr. eapply seq.
  { apply t_get. eapply seq; [apply (same_acts ACorr); [exact Hj|apply corr_same|destruct s; auto]|]. intros u s1 Hj1 G1 E1. apply (rets (n_corr s) s1 (fun a s' => a = n_corr s /\ s' = do_act ACorr s)); auto. }
  intros k s1 Hj1 G1 (-> & E1). eapply seq; [apply acts; [exact Hj1| |clear; destruct s1; auto]|].
  { apply a_out; auto; [eapply oj_gr; eauto|]. intros p0 hd0 b0 [= <- <- <-]. rewrite Hk. split; [subst s1; destruct s; cbn; lia|].
    intros p' hd' b' Hi. assert (In (ODown p' hd' b') (outs s)) by (subst s1; destruct s; exact Hi). pose proof (j_lt _ _ _ (j0 _ Hj) _ _ _ H). lia. }
  intros _ s2 Hj2 G2 _. assert (G : grows s s2) by (eapply gr_trans; eauto). specialize (Hf s2 Hj2 G). exact Hf.
Qed.

(** objects *)
Lemma t_cobj o s : J s -> T (conn_obj o) s (fun c s' => s' = s /\ aget o (h_conns s) = Some c).
Proof. intros Hj. unfold conn_obj. apply t_get. destruct (aget o (h_conns s)) eqn:E; [apply rets; auto|apply throws'; auto]. Qed.
Lemma t_sobj o s : J s -> T (sub_obj o) s (fun c s' => s' = s /\ aget o (h_subs s) = Some c).
Proof. intros Hj. unfold sub_obj. apply t_get. destruct (aget o (h_subs s)) eqn:E; [apply rets; auto|apply throws'; auto]. Qed.
Lemma t_sobjs os s : J s -> T (sub_objs os) s (fun _ _ => True).
Proof.
  intros Hj. unfold sub_objs. eapply t_mono; [|eapply (maps sub_obj (fun _ => True) (fun _ _ => True)); auto]; auto.
  intros x s1 _ Hj1 _. eapply t_mono; [|apply t_sobj; auto]. auto.
Qed.
Lemma t_setc o c0 c s : J s -> aget o (h_conns s) = Some c0 -> ccore c = ccore c0 -> T (act1 (ASetConn o c)) s (fun _ _ => True).
Proof. intros Hj E C. eapply t_mono; [|apply acts; [exact Hj| |destruct s; auto]]; [auto|]. eapply a_set_conn; eauto. Qed.
Lemma t_sets o c0 c s : J s -> aget o (h_subs s) = Some c0 -> score c = score c0 -> sa L c -> T (act1 (ASetSub o c)) s (fun _ _ => True).
Proof. intros Hj E C Ha. eapply t_mono; [|apply acts; [exact Hj| |destruct s; auto]]; [auto|]. eapply a_set_sub; eauto. Qed.
Lemma t_savec o s : J s -> T (save_conn o) s (fun _ _ => True).
Proof.
  intros Hj. unfold save_conn. apply seq_await; auto. intros s1 Hj1 _. eapply seq; [apply t_cobj; auto|]. intros c s2 Hj2 _ [-> Ec].
  eapply seq; [apply acts; [exact Hj1| |destruct s1; auto]|]; [|intros _ s3 Hj3 _ _; apply awaits; auto].
  apply a_write_conn; auto. eapply j_hc; eauto.
Qed.
Lemma t_saves o s : J s -> T (save_sub o) s (fun _ _ => True).
Proof.
  intros Hj. unfold save_sub. apply seq_await; auto. intros s1 Hj1 _. eapply seq; [apply t_sobj; auto|]. intros c s2 Hj2 _ [-> Ec].
  destruct (j_hs _ _ _ (j0 _ Hj1) _ _ Ec) as (_ & H1 & H2).
  eapply seq; [apply acts; [exact Hj1| |destruct s1; auto]|]; [|intros _ s3 Hj3 _ _; apply awaits; auto].
  apply a_write_sub; auto.
Qed.
Lemma t_saveval c s : J s -> has_conn c s -> T (save_conn_val c) s (fun _ _ => True).
Proof.
  intros Hj Hc. unfold save_conn_val. apply seq_await; auto. intros s1 Hj1 G1.
  eapply seq; [apply acts; [exact Hj1| |destruct s1; auto]|]; [|intros _ s3 Hj3 _ _; apply awaits; auto].
  apply a_write_conn; auto. apply (r_conn _ _ G1); auto.
Qed.
Lemma t_setcs x o s : J s -> T (set_conn_state x o) s (fun _ _ => True).
Proof.
  intros Hj. unfold set_conn_state. eapply seq; [apply t_cobj; auto|]. intros c s2 Hj2 _ [-> Ec]. destruct (op_mem x (cn_states c)) as [y [e|]]; [apply throws'; auto|].
  eapply t_setc; eauto.
Qed.
Lemma t_cs x o s : J s -> T (conn_state x o) s (fun _ _ => True).
Proof. intros Hj. unfold conn_state. eapply seq; [apply t_setcs; auto|]. intros _ s1 Hj1 _ _. apply t_savec; auto. Qed.
Lemma t_setss x o s : J s -> T (set_sub_state x o) s (fun _ _ => True).
Proof.
  intros Hj. unfold set_sub_state. eapply seq; [apply t_sobj; auto|]. intros c s2 Hj2 _ [-> Ec]. destruct (op_mem x (sb_states c)) as [y [e|]]; [apply throws'; auto|].
  eapply t_sets; eauto. destruct (j_hs _ _ _ (j0 _ Hj) _ _ Ec) as (_ & _ & H2). exact H2.
Qed.
Lemma t_ss x o s : J s -> T (sub_state x o) s (fun _ _ => True).
Proof. intros Hj. unfold sub_state. eapply seq; [apply t_setss; auto|]. intros _ s1 Hj1 _ _. apply t_saves; auto. Qed.
Lemma t_own x c s : J s -> has_conn c s -> T (own_state x c) s (fun c' s' => ccore c' = ccore c /\ has_conn c' s').
Proof.
  intros Hj Hc. unfold own_state. destruct (op_mem x (cn_states c)) as [y [e|]]; [apply throws'; auto|].
  assert (Hc' : has_conn (cn_set_states y c) s) by exact Hc.
  eapply seq; [apply t_saveval; auto|]. intros _ s1 Hj1 G1 _. apply rets; auto. split; [reflexivity|]. apply (r_conn _ _ G1). exact Hc'.
Qed.

Lemma row_conn s c : J s -> In c (map snd (t_conns s)) -> has_conn c s.
Proof.
  intros Hj H. apply in_map_iff in H as ([k c'] & <- & H). cbn. apply In_aget in H; [|eapply j_nc; eauto]. destruct (j_ck _ _ _ (j0 _ Hj) _ _ H) as (<- & _). exists c'. auto.
Qed.
Lemma row_sub s c : J s -> In c (map snd (t_subs s)) -> has_sub c s /\ sa L c.
Proof.
  intros Hj H. apply in_map_iff in H as ([k c'] & <- & H). cbn. apply In_aget in H; [|eapply j_ns; eauto]. destruct (j_sk _ _ _ (j0 _ Hj) _ _ H) as (<- & _ & _ & H1). split; [exists c'; auto|auto].
Qed.
Lemma find_conn_in cid s c : find_conn cid s = Some c -> In c (map snd (t_conns s)) /\ cn_cid c = cid.
Proof. unfold find_conn. intros H. apply find_some in H as [H1 H2]. split; [auto|]. apply (proj1 (eqb_true _ _)) in H2. auto. Qed.
Lemma find_conn_no cid s k c : find_conn cid s = None -> aget k (t_conns s) = Some c -> cn_cid c <> cid.
Proof.
  intros H E. unfold find_conn in H. pose proof (find_none _ _ H c) as X. cbn in X. intros E'. assert (eqb (cn_cid c) cid = true) by (apply eqb_true; auto).
  rewrite X in H0; [discriminate|]. apply aget_In in E. apply (in_map snd) in E. exact E.
Qed.
Lemma find_sub_in p cid s c : find_sub p cid s = Some c -> In c (map snd (t_subs s)) /\ sb_cid c = cid.
Proof. unfold find_sub. intros H. apply find_some in H as [H1 H2]. split; [auto|]. apply andb_true_iff in H2 as [_ H2]. apply (proj1 (eqb_true _ _)) in H2. auto. Qed.

Lemma find_sub_no p cid s k c : find_sub p cid s = None -> aget k (t_subs s) = Some c -> sb_provider c = p -> sb_cid c <> cid.
Proof.
  intros H E E1 E2. unfold find_sub in H. pose proof (find_none _ _ H c) as X. cbn in X. rewrite E1, E2, !eqb_refl in X. cbn in X. assert (true = false); [|discriminate].
  apply X. apply aget_In in E. apply (in_map snd) in E. exact E.
Qed.
Definition conn_at (o : nat) (cid : string) (s : st) : Prop := exists c, obj_conn o c s /\ cn_cid c = cid.
Definition sub_at (o : nat) (cid : string) (s : st) : Prop := exists x, obj_sub o x s /\ sb_cid x = cid.
Lemma conn_at_gr o cid s s' : grows s s' -> conn_at o cid s -> conn_at o cid s'.
Proof. intros G (c & H1 & H2). exists c. split; [apply (r_oc _ _ G); auto|auto]. Qed.
Lemma sub_at_gr o cid s s' : grows s s' -> sub_at o cid s -> sub_at o cid s'.
Proof. intros G (c & H1 & H2). exists c. split; [apply (r_os _ _ G); auto|auto]. Qed.
Lemma t_getc cid s : J s -> T (get_connection cid) s (fun o s' => conn_at o cid s').
Proof.
  intros Hj. unfold get_connection. apply t_get. destruct (aget cid (c_conns s)) as [o|] eqn:E.
  { apply rets; auto. destruct (j_cc _ _ _ (j0 _ Hj) _ _ E) as (c & H1 & H2). exists c. split; [exists c; auto|auto]. }
  apply seq_await; auto. intros s1 Hj1 _. apply t_get. destruct (find_conn cid s1) as [c|] eqn:F.
  - apply find_conn_in in F as [F1 F2]. pose proof (row_conn _ _ Hj1 F1) as Hc. apply seq_await; auto. intros s2 Hj2 G2. apply t_get.
    apply (r_conn _ _ G2) in Hc. destruct (a_load_conn g L c s2 (j0 _ Hj2) Hc) as [HF HO].
    eapply seq; [apply acts; [exact Hj2|exact HF|destruct s2; auto]|]. intros _ s3 Hj3 _ ->. apply rets; auto. exists c. auto.
  - apply seq_await; auto. intros s2 Hj2 _. apply throws'; auto.
Qed.
Lemma t_bykey k s : J s -> T (get_connection_by_key k) s (fun o s' => exists cid, conn_at o cid s').
Proof.
  intros Hj. unfold get_connection_by_key. apply seq_await; auto. intros s1 Hj1 _. apply t_get. destruct (aget k (t_conns s1)) as [c|].
  - apply seq_await; auto. intros s2 Hj2 _. eapply t_mono; [|apply t_getc; auto]. cbn. eauto.
  - apply seq_await; auto. intros s2 Hj2 _. apply throws'; auto.
Qed.
Lemma t_fetch p cid s : J s -> T (fetch_sub p cid) s (fun o s' => sub_at o cid s').
Proof.
  intros Hj. unfold fetch_sub. apply seq_await; auto. intros s1 Hj1 _. apply t_get. destruct (find_sub p cid s1) as [c|] eqn:F.
  - apply find_sub_in in F as [F1 F2]. destruct (row_sub _ _ Hj1 F1) as [Hc Ha]. apply seq_await; auto. intros s2 Hj2 G2. apply t_get.
    apply (r_sub _ _ G2) in Hc. destruct (a_load_sub g L c s2 (j0 _ Hj2) Hc Ha) as [HF HO].
    eapply seq; [apply acts; [exact Hj2|exact HF|destruct s2; auto]|]. intros _ s3 Hj3 _ ->. apply rets; auto. exists c. auto.
  - apply seq_await; auto. intros s2 Hj2 _. apply throws'; auto.
Qed.
Lemma cached s cid o : J s -> aget cid (c_subs s) = Some o -> sub_at o cid s.
Proof. intros Hj E. destruct (j_cs _ _ _ (j0 _ Hj) _ _ E) as (c & H1 & H2). exists c. split; [exists c; auto|auto]. Qed.
Lemma t_getsub p cid s : J s -> T (get_sub p cid) s (fun o s' => sub_at o cid s').
Proof.
  intros Hj. unfold get_sub. apply t_get. destruct (aget cid (c_subs s)) as [o|] eqn:E; [apply rets; auto; apply cached; auto|apply t_fetch; auto].
Qed.
(** one of the segments of the connection *)
Definition seg_at (key o : nat) (s : st) : Prop := exists y, has_sub y s /\ sb_conn y = key /\ sub_at o (sb_cid y) s.
Lemma seg_at_gr key o s s' : grows s s' -> seg_at key o s -> seg_at key o s'.
Proof. intros G (c & H1 & H2 & H3). exists c. split; [apply (r_sub _ _ G); auto|]. split; [auto|]. eapply sub_at_gr; eauto. Qed.
Lemma t_getsubs key s : J s -> T (get_subs key) s (fun os s' => Forall (fun o => seg_at key o s') os).
Proof.
  intros Hj. unfold get_subs. apply seq_await; auto. intros s1 Hj1 _. apply t_get. cbv zeta.
  assert (HR : forall x, In x (subs_of key s1) -> has_sub x s1 /\ sb_conn x = key).
  { intros x Hx. apply filter_In in Hx as [H1 H2]. apply (proj1 (eqb_true _ _)) in H2. split; [apply row_sub; auto|auto]. }
  generalize dependent (subs_of key s1). intros rows HR. apply seq_await; auto. intros s2 Hj2 G2. apply t_get.
  apply (maps _ (fun s => grows s2 s) (fun o s => seg_at key o s)); auto.
  - intros a b G H. eapply gr_trans; eauto.
  - intros o a b G H. eapply seg_at_gr; eauto.
  - intros x s3 Hx Hj3 G3. destruct (HR x Hx) as [H1 H2]. apply (r_sub _ _ G2) in H1. destruct (aget (sb_cid x) (c_subs s2)) as [o|] eqn:E.
    + apply rets; auto. exists x. split; [apply (r_sub _ _ G3); auto|]. split; [auto|]. eapply sub_at_gr; [exact G3|]. apply cached; auto.
    + eapply t_mono; [|apply t_fetch; auto]. intros o s4 Hj4 G4 Ho. exists x. split; [apply (r_sub _ _ G4), (r_sub _ _ G3); auto|]. auto.
Qed.

(** * Requests *)
Definition conn_of (cid : string) (key : nat) (s : st) : Prop := exists c, has_conn c s /\ cn_cid c = cid /\ cn_key c = key.
Lemma conn_of_gr cid key s s' : grows s s' -> conn_of cid key s -> conn_of cid key s'.
Proof. intros G (c & H1 & H2). exists c. split; [apply (r_conn _ _ G); auto|auto]. Qed.
Lemma at_of o cid s c : J s -> conn_at o cid s -> aget o (h_conns s) = Some c -> conn_of cid (cn_key c) s.
Proof.
  intros Hj (c0 & (c1 & H1 & H2) & H3) E. assert (c1 = c) by congruence. subst c1. destruct (j_hc _ _ _ (j0 _ Hj) _ _ E) as (_ & H4).
  exists c. split; [exact H4|]. split; [|reflexivity]. rewrite (cc_cid _ _ H2). exact H3.
Qed.
Lemma part_of cid key s y : conn_of cid key s -> has_sub y s -> sb_conn y = key -> part cid (sb_cid y) s.
Proof. intros (c & H1 & H2 & H3) Hy E. exists c, y. repeat split; auto. congruence. Qed.
Lemma t_call h cid key (b : string -> dbody) o s : J s -> seg_at key o s -> conn_of cid key s ->
  (forall p hd sc s', hd_requester hd = a_urn g -> hd_sas hd = hd_sas h -> part cid sc s' -> oj g L (ODown p hd (b sc)) s') -> T (call_sub g h b o) s (fun _ _ => True).
Proof.
  intros Hj (y & H1 & H2 & (z & (x' & Z1 & Z2) & Z3)) Hc Ho. unfold call_sub. eapply seq; [apply t_sobj; auto|]. intros x s1 Hj1 _ [-> Ex]. apply t_get.
  assert (x' = x) by congruence. subst x'.
  eapply seq; [apply lifts; auto|]. intros p s1 _ _ [-> Ep].
  apply (t_send s p (fun k => mkHeader (a_urn g) (sb_provider x) k (hd_sas h) None)); auto.
  - apply Ho; [reflexivity|reflexivity|]. rewrite (sc_cid _ _ Z2), Z3. eapply part_of; eauto.
  - intros s2 Hj2 _. apply rets; auto.
Qed.
Lemma t_calls h cid key (b : string -> dbody) os s : J s -> Forall (fun o => seg_at key o s) os -> conn_of cid key s ->
  (forall p hd sc s', hd_requester hd = a_urn g -> hd_sas hd = hd_sas h -> part cid sc s' -> oj g L (ODown p hd (b sc)) s') -> T (mapP (call_sub g h b) os) s (fun _ _ => True).
Proof.
  intros Hj Hs Hc Ho. eapply t_mono; [|apply (maps _ (fun s => Forall (fun o => seg_at key o s) os /\ conn_of cid key s) (fun _ _ => True)); auto]; auto.
  - intros a b0 G [A1 A2]. split; [|eapply conn_of_gr; eauto]. eapply Forall_impl; [|exact A1]. intros; eapply seg_at_gr; eauto.
  - intros o s1 Hi Hj1 [A1 A2]. rewrite Forall_forall in A1. eapply t_call; eauto.
Qed.
Lemma t_fin cid a urns s : J s -> T (finish cid a urns) s (fun _ _ => True).
Proof.
  intros Hj. unfold finish. eapply seq; [apply t_acks; auto; intros a1 b c; apply gr_trans|]. intros l s1 Hj1 _ _. destruct (all_acked l); [apply rets; auto|apply throws; auto].
Qed.
Lemma t_open cid s : J s -> T (open_connection cid) s (fun oc s' => conn_of cid (cn_key (snd oc)) s').
Proof.
  intros Hj. unfold open_connection. eapply seq; [apply t_getc; auto|]. intros o s1 Hj1 _ Ho. eapply seq; [apply t_cobj; auto|]. intros c s2 Hj2 _ [-> Ec].
  destruct (eqb (cn_l c) LTerminated); [apply throws'; auto|]. apply rets; auto. exact (at_of _ _ _ _ Hj1 Ho Ec).
Qed.
Ltac stepc H := eapply seq; [apply H; auto|].
Lemma segs_gr key os s s' : grows s s' -> Forall (fun o => seg_at key o s) os -> Forall (fun o => seg_at key o s') os.
Proof. intros G H. eapply Forall_impl; [|exact H]. intros; eapply seg_at_gr; eauto. Qed.

Lemma t_commit h cid s : In (CCommit h cid) L -> J s -> T (reserve_commit g h cid) s (fun _ _ => True).
Proof.
  intros HL Hj. unfold reserve_commit. stepc t_open. intros oc s1 Hj1 G1 Ho. stepc t_cs. intros _ s2 Hj2 G2 _. stepc t_getsubs. intros os s3 Hj3 G3 Hs.
  eapply seq; [apply (t_calls h cid (cn_key (snd oc))); auto|].
  - eapply conn_of_gr; [exact G3|]. eapply conn_of_gr; eauto.
  - intros p hd sc s' Hr Hsas Hp. split; [exact Hr|]. exists h, cid. auto.
  - intros urns s4 Hj4 _ _. apply t_fin; auto.
Qed.
Lemma t_abort h cid s : In (CAbort h cid) L -> J s -> T (reserve_abort g h cid) s (fun _ _ => True).
Proof.
  intros HL Hj. unfold reserve_abort. stepc t_open. intros oc s1 Hj1 G1 Ho. stepc t_cs. intros _ s2 Hj2 G2 _. stepc t_getsubs. intros os s3 Hj3 G3 Hs.
  eapply seq; [apply (maps _ (fun s => Forall (fun o => seg_at (cn_key (snd oc)) o s) os /\ conn_of cid (cn_key (snd oc)) s) (fun _ _ => True)); auto|].
  - intros a b0 G [A1 A2]. split; [eapply segs_gr; eauto|eapply conn_of_gr; eauto].
  - intros o s4 Hi Hj4 [A1 A2]. stepc t_setss. intros _ s5 Hj5 G5 _. eapply (t_call h cid (cn_key (snd oc))); auto.
    + rewrite Forall_forall in A1. eapply seg_at_gr; eauto.
    + eapply conn_of_gr; eauto.
    + intros p hd sc s' Hr Hsas Hp. split; [exact Hr|]. exists h, cid. auto.
  - split; [exact Hs|]. eapply conn_of_gr; [exact G3|]. eapply conn_of_gr; eauto.
  - intros urns s4 Hj4 _ _. eapply seq; [apply (iters save_sub (fun _ => True)); auto; intros; apply t_saves; auto|]. intros _ s5 Hj5 _ _.
    eapply seq; [apply t_acks; auto; intros a1 b c; apply gr_trans|]. intros l s6 Hj6 _ _. destruct (all_acked l); [apply rets; auto|apply throws'; auto].
Qed.
Lemma t_provision h cid s : In (CProvision h cid) L -> J s -> T (provision g h cid) s (fun _ _ => True).
Proof.
  intros HL Hj. unfold provision. stepc t_open. intros oc s1 Hj1 G1 Ho. stepc t_cs. intros _ s2 Hj2 G2 _. stepc t_getsubs. intros os s3 Hj3 G3 Hs.
  eapply seq; [apply (maps _ (fun _ => True) (fun _ _ => True)); auto|].
  { intros o s4 _ Hj4 _. stepc t_sobj. intros x s5 Hj5 _ _. destruct (eqb (sb_p x) PProvisioning); [apply rets; auto|]. stepc t_setss. intros _ s6 Hj6 _ _. apply rets; auto. }
  intros ch s4 Hj4 G4 _. eapply seq; [apply (iters save_sub (fun _ => True)); auto; intros; apply t_saves; auto|]. intros _ s5 Hj5 G5 _.
  assert (G : grows s3 s5) by (eapply gr_trans; eauto).
  eapply seq; [apply (t_calls h cid (cn_key (snd oc))); auto|].
  - eapply segs_gr; eauto.
  - eapply conn_of_gr; [exact G|]. eapply conn_of_gr; [exact G3|]. eapply conn_of_gr; eauto.
  - intros p hd sc s' Hr Hsas Hp. split; [exact Hr|]. exists h, cid. auto.
  - intros urns s6 Hj6 _ _. apply t_fin; auto.
Qed.
Lemma t_release h cid s : In (CRelease h cid) L -> J s -> T (release g h cid) s (fun _ _ => True).
Proof.
  intros HL Hj. unfold release. stepc t_open. intros oc s1 Hj1 G1 Ho. stepc t_cs. intros _ s2 Hj2 G2 _. stepc t_getsubs. intros os s3 Hj3 G3 Hs.
  eapply seq; [apply (iters _ (fun _ => True)); auto; intros; apply t_setss; auto|]. intros _ s4 Hj4 G4 _.
  eapply seq; [apply (iters save_sub (fun _ => True)); auto; intros; apply t_saves; auto|]. intros _ s5 Hj5 G5 _.
  assert (G : grows s3 s5) by (eapply gr_trans; eauto).
  eapply seq; [apply (t_calls h cid (cn_key (snd oc))); auto|].
  - eapply segs_gr; eauto.
  - eapply conn_of_gr; [exact G|]. eapply conn_of_gr; [exact G3|]. eapply conn_of_gr; eauto.
  - intros p hd sc s' Hr Hsas Hp. split; [exact Hr|]. exists h, cid. auto.
  - intros urns s6 Hj6 _ _. apply t_fin; auto.
Qed.
Lemma t_terminate h cid s : In (CTerminate h cid) L -> J s -> T (terminate g h cid) s (fun _ _ => True).
Proof.
  intros HL Hj. unfold terminate. stepc t_getc. intros o s1 Hj1 G1 Ho. stepc t_cobj. intros c s' Hj' _ [-> Ec]. pose proof (at_of _ _ _ _ Hj1 Ho Ec) as Hc.
  destruct (eqb (cn_l c) LTerminated); [apply rets; auto|]. stepc t_cs. intros _ s2 Hj2 G2 _. stepc t_getsubs. intros os s3 Hj3 G3 Hs.
  eapply seq; [apply (t_calls h cid (cn_key c)); auto|].
  - eapply conn_of_gr; [exact G3|]. eapply conn_of_gr; eauto.
  - intros p hd sc s' Hr Hsas Hp. split; [exact Hr|]. left. exists h, cid. auto.
  - intros urns s4 Hj4 _ _. apply t_fin; auto.
Qed.

(** * Reserving *)
Lemma t_insert c s : J s -> cj L c -> T (insert_conn c) s (fun c' s' => has_conn c' s' /\ exists k, c' = cn_set_key k c).
Proof.
  intros Hj Hc. unfold insert_conn. apply seq_await; auto. intros s1 Hj1 _. apply t_get. destruct (find_conn (cn_cid c) s1) eqn:F; cbn [orb]; [apply throws'; auto|].
  destruct (negb (span_ok (cn_start c) (cn_end c))); [apply throws'; auto|].
  destruct (a_insert_conn g L c s1 (j0 _ Hj1) Hc) as [HF HO]; [intros; eapply find_conn_no; eauto|].
  eapply seq; [apply acts; [exact Hj1|exact HF|destruct s1; auto]|]. intros _ s2 Hj2 _ ->.
  apply seq_await; auto. intros s3 Hj3 G3. apply rets; auto. split; [apply (r_conn _ _ G3); auto|eauto].
Qed.
Lemma t_link h q c ls ci s : J s -> In (CReserve h q) L -> made c h q -> has_conn c s -> path_of g q ls -> nth_error ls (fst ci) = Some (snd ci) ->
  T (reserve_link g h c ci) s (fun _ _ => True).
Proof.
  intros Hj HL HM Hc Hls Hn. destruct ci as [idx [src dst]]. cbn in Hn. assert (Hp : on_path g q src dst) by (exists ls; split; [exact Hls|eapply nth_error_In; eauto]).
  unfold reserve_link. apply t_get. stepc @lifts. intros p s' _ _ [-> _]. stepc @lifts. intros u s' _ _ [-> _].
  set (hd := mkHeader (a_urn g) u (n_corr s) (hd_sas h) (Some (match hd_trace h with Some t => t | None => [] end ++ [a_urn g +++ ":" +++ cn_cid c]))).
  set (b := DReserve (cn_gid c) src dst (cn_start c) (cn_end c) (cn_bw c)).
  set (i := mkRInfo u (cn_key c) idx).
  assert (HO : oj g L (ODown p hd b) s).
  { split; [reflexivity|]. exists c, h, q. destruct (made_fields _ _ _ HM) as (E1 & E2 & E3 & E4 & E5). repeat split; auto. }
  set (s1 := do_act ACorr s). set (s2 := do_act (AResv (n_corr s) i) s1). set (s3 := do_act (AOut (ODown p hd b)) s2).
  assert (S2 : same s s2) by (subst s2 s1; destruct s; cbn; unfold same; cbn; repeat split; auto).
  assert (F1 : J0 s1) by (eapply same_J0; [apply corr_same|auto]). assert (F2 : J0 s2) by (eapply same_J0; eauto).
  assert (G12 : grows s1 s2) by (apply same_gr; subst s2 s1; destruct s; cbn; unfold same; cbn; repeat split; auto).
  assert (F3 : fine g L s2 s3).
  { apply a_out; auto; [eapply oj_gr; [apply same_gr; exact S2|exact HO]|]. intros p0 hd0 b0 [= <- <- <-]. split; [subst s2 s1; destruct s; cbn; lia|].
    intros p' hd' b' Hi. assert (Hi' : In (ODown p' hd' b') (outs s)) by (subst s2 s1; destruct s; exact Hi). pose proof (j_lt _ _ _ (j0 _ Hj) _ _ _ Hi'). cbn. lia. }
  assert (G : grows s s3) by (eapply gr_trans; [apply same_gr; exact S2|apply F3]).
  assert (J3 : J s3).
  { split; [apply F3|]. intros k j Hin. assert (Hin' : In (k, j) (aset (n_corr s) i (resvs s))) by (subst s3 s2 s1; destruct s; exact Hin).
    apply In_aset in Hin' as [[-> ->]|Hin'].
    - exists c. split; [apply (r_conn _ _ G); auto|]. split; [reflexivity|].
      assert (HI : In (ODown p hd b) (outs s3)) by (subst s3; destruct s2; cbn; apply in_or_app; right; left; reflexivity). split.
      + exists p, hd, (cn_gid c), src, dst, (cn_start c), (cn_end c), (cn_bw c), (match hd_trace h with Some t => t | None => [] end). split; [exact HI|]. repeat split; auto.
      + exists h, q, ls, p, hd, (cn_gid c), src, dst, (cn_start c), (cn_end c), (cn_bw c). split; [exact HL|]. split; [exact HM|]. split; [exact HI|]. repeat split; auto.
    - destruct Hj as [_ HR]. destruct (HR _ _ Hin') as (c0 & H1 & H2 & H3 & H4). exists c0. split; [apply (r_conn _ _ G); auto|]. split; [auto|].
      split; [eapply seg_incl; [apply (r_out _ _ G)|exact H3]|eapply pl_gr; [apply (r_out _ _ G)|exact H4]]. }
  split; [apply same_gr, corr_same|]. split; [exact F1|]. split; [exact G12|]. split; [exact F2|]. split; [apply F3|]. split; [apply F3|]. split; [exact J3|]. split; [exact G|auto].
Qed.
Lemma t_clean h q u sn s : J s -> In (CReserve h q) L -> T (cleanup_one g h u sn) s (fun _ _ => True).
Proof.
  intros Hj HL. unfold cleanup_one. apply t_get. stepc @lifts. intros p s' _ _ [-> _].
  apply (t_send s p (fun k => mkHeader (a_urn g) u k (hd_sas h) None) (DTerminate (fst sn)) (fun _ => Ret tt) (fun _ _ => True)); auto.
  - split; [reflexivity|]. right. eauto.
  - intros s1 Hj1 _. apply rets; auto.
Qed.
Lemma t_reserve_acks h q c info s : J s -> In (CReserve h q) L -> has_conn c s -> T (reserve_acks g h c info) s (fun _ _ => True).
Proof.
  intros Hj HL Hc. unfold reserve_acks. eapply seq; [apply t_acks; auto; intros a1 b1 c1; apply gr_trans|]. intros l s1 Hj1 G1 _. apply (r_conn _ _ G1) in Hc.
  destruct (all_acked l); [apply rets; auto|]. eapply seq; [apply t_own; auto|]. intros c2 s2 Hj2 G2 [E2 Hc2]. cbv zeta.
  eapply seq; [apply (iters _ (fun _ => True)); auto; intros; eapply t_clean; eauto|]. intros _ s3 Hj3 G3 _.
  eapply seq; [apply t_acks; auto; intros a1 b1 c1; apply gr_trans|]. intros l' s4 Hj4 G4 _.
  eapply seq; [apply t_own; auto; apply (r_conn _ _ G4), (r_conn _ _ G3); auto|]. intros c5 s5 Hj5 _ _. apply throws; auto.
Qed.
Lemma t_reserve h q s : In (CReserve h q) L -> J s -> T (reserve g h q) s (fun _ _ => True).
Proof.
  intros HL Hj. unfold reserve. destruct (q_cid q) as [cid|].
  { apply seq_await; auto. intros s1 Hj1 _. apply t_get. apply seq_await; auto. intros s2 Hj2 _. destruct (find_conn cid s1); apply throws'; auto. }
  apply seq_await; auto. intros s1 Hj1 _. apply t_get. cbv zeta.
  eapply seq; [apply lifts; auto|]. intros ? s' _ _ [-> _]. eapply seq; [apply lifts; auto|]. intros ? s' _ _ [-> ER].
  eapply seq; [apply t_id; auto; intros a1 b1 c1; apply gr_trans|]. intros cid s2 Hj2 _ _.
  eapply seq; [apply t_insert; auto|].
  { exists h, q. split; [exact HL|]. reflexivity. }
  intros c s3 Hj3 _ [Hc [k Ek]].
  eapply seq; [apply t_own; auto|]. intros c1 s4 Hj4 G4 [E1 Hc1]. apply t_get.
  assert (HM : made c1 h q) by (apply (made_core c); [auto|]; subst c; reflexivity).
  eapply seq; [apply lifts; auto|]. intros links s' _ _ [-> EB]. eapply seq; [apply lifts; auto|]. intros ? s' _ _ [-> _].
  eapply seq; [apply (maps _ (fun s => has_conn c1 s) (fun _ _ => True)); auto|].
  - intros ? ? G H. apply (r_conn _ _ G). auto.
  - intros [i [a9 b9]] s5 Hi Hj5 Hc5. eapply t_link; eauto; [eapply build_path; eauto|]. cbn. destruct (number_nth _ _ _ _ Hi) as (k9 & -> & E9). exact E9.
  - intros info s5 Hj5 G5 _. eapply t_reserve_acks; eauto. apply (r_conn _ _ G5). auto.
Qed.

(** * Queries *)
Lemma t_qs h a b s : J s -> T (query_summary g h a b) s (fun _ _ => True).
Proof.
  intros Hj. unfold query_summary. apply seq_await; auto. intros s1 Hj1 _. apply t_get. eapply seq; [apply lifts; auto|]. intros cs s' _ _ [-> _].
  apply seq_await; auto. intros s2 Hj2 _. eapply seq; [apply (maps _ (fun _ => True) (fun _ _ => True)); auto|].
  { intros c s3 _ Hj3 _. stepc t_getsubs. intros os s4 Hj4 _ _. stepc t_sobjs. intros xs s5 Hj5 _ _. stepc t_note. intros n s6 Hj6 _ _. apply rets; auto. }
  intros rs s3 Hj3 _ _. stepc t_up0. intros _ s4 Hj4 _ _. apply rets; auto.
Qed.
Lemma t_qr h a b s : J s -> T (query_recursive g h a b) s (fun _ _ => True).
Proof.
  intros Hj. unfold query_recursive. destruct b; [|apply throws'; auto]. destruct a as [|cid [|]]; [apply throws'; auto| |apply throws'; auto].
  stepc t_getc. intros o s1 Hj1 _ _. stepc t_cobj. intros c s2 Hj2 _ _. stepc t_getsubs. intros os s3 Hj3 _ _. eapply seq; [apply t_q; auto; discriminate|]. intros _ s4 Hj4 _ _.
  eapply seq; [apply (maps _ (fun _ => True) (fun _ _ => True)); auto|].
  { intros so s5 _ Hj5 _. stepc t_sobj. intros x s6 Hj6 _ [-> Ex]. apply t_get. eapply seq; [apply lifts; auto|]. intros p s' _ _ [-> _].
    apply (t_send s5 p (fun k => mkHeader (a_urn g) (sb_provider x) k (hd_sas h) None) (DQuery (sb_cid x)) (fun k => act1 (AQcall k (hd_corr h, None)) ;;; Ret (sb_provider x)) (fun _ _ => True)); auto.
    - split; reflexivity || exact I.
    - intros s6 Hj6' _. eapply seq; [apply t_q; auto; discriminate|]. intros _ s7 Hj7 _ _. apply rets; auto. }
  intros urns s5 Hj5 _ _. eapply seq; [apply t_acks; auto; intros a1 b1 c1; apply gr_trans|]. intros l s6 Hj6 _ _. destruct (all_acked l); [apply rets; auto|apply throws; auto].
Qed.
Lemma t_qrc h r s : J s -> T (query_recursive_confirmed g h r) s (fun _ _ => True).
Proof.
  intros Hj. unfold query_recursive_confirmed. apply t_get.
  assert (X : forall req, T (act1 (AQcall (hd_corr h) (req, Some r)) ;;;
      s <- get ;;
      match aget req (qreqs s) with
      | None => throw EKey
      | Some (requester, o, count) =>
          let scr := sub_results req s in
          if (List.length scr =? count)%nat then
            act1 (AQreqPop req) ;;; act1 (AQcallPop req) ;;;
            c <- conn_obj o ;; os <- get_subs (cn_key c) ;; xs <- sub_objs os ;;
            d <- lift (recursive_status xs) ;; n <- notification_id ;; c <- conn_obj o ;;
            up requester (UQueryRecursive req [conn_info g c d n n scr]) ;;; Ret ""
          else Ret ""
      end) s (fun _ _ => True)).
  { intros req. eapply seq; [apply t_q; auto; discriminate|]. intros _ s1 Hj1 _ _. apply t_get. destruct (aget req (qreqs s1)) as [[[rq o] n]|]; [|apply throws'; auto]. cbv zeta.
    destruct (List.length (sub_results req s1) =? n)%nat; [|apply rets; auto].
    eapply seq; [apply t_q; auto; discriminate|]. intros _ s2 Hj2 _ _. eapply seq; [apply t_q; auto; discriminate|]. intros _ s3 Hj3 _ _.
    stepc t_cobj. intros c s4 Hj4 _ _. stepc t_getsubs. intros os s5 Hj5 _ _. stepc t_sobjs. intros xs s6 Hj6 _ _. eapply seq; [apply lifts; auto|]. intros d s' _ _ [-> _].
    stepc t_note. intros k s7 Hj7 _ _. stepc t_cobj. intros c' s8 Hj8 _ _. stepc t_up0. intros _ s9 Hj9 _ _. apply rets; auto. }
  destruct (aget (hd_corr h) (qcalls s)) as [[req [[|x l]|]]|]; [apply X|apply rets; auto|apply X|apply rets; auto].
Qed.

(** * Answers *)
Lemma t_insub x s : J s -> sj g L x s -> sa L x -> T (insert_sub x) s (fun _ _ => True).
Proof.
  intros Hj Hx Ha. unfold insert_sub. apply seq_await; auto. intros s1 Hj1 G1. apply t_get. destruct (find_sub (sb_provider x) (sb_cid x) s1) eqn:F; [apply throws'; auto|].
  eapply seq; [apply acts; [exact Hj1| |destruct s1; auto]|]; [|intros _ s3 Hj3 _ _; apply awaits; auto].
  apply a_insert_sub; auto; [eapply sj_gr; eauto|]. intros; eapply find_sub_no; eauto.
Qed.
Lemma t_known h s : J s -> T (lift (known_reservation h s)) s (fun i s' => s' = s /\ hd_provider h = ri_provider i /\ In (hd_corr h, i) (resvs s)).
Proof.
  intros Hj. eapply t_mono; [|apply lifts; auto]. cbn beta. intros i s' _ _ [-> E]. split; [auto|]. unfold known_reservation in E.
  destruct (aget (hd_corr h) (resvs s)) as [j|] eqn:Ej; [|discriminate]. destruct (eqb_ok (hd_provider h) (ri_provider j)); [|discriminate]. injection E as <-. split; [auto|]. apply aget_In. auto.
Qed.
Lemma t_rc h cid a b s : In (CReserveConfirmed h cid a b) L -> J s -> T (reserve_confirmed g h cid a b) s (fun _ _ => True).
Proof.
  intros HL Hj. unfold reserve_confirmed. apply t_get. eapply seq; [apply t_known; auto|]. intros i s' _ _ (-> & Hp & Hi). stepc t_pop. intros _ s1 Hj1 G1 _.
  eapply seq; [apply t_insub; auto|].
  - destruct Hj as [_ HR]. destruct (HR _ _ Hi) as (c & H1 & H2 & H3 & H4). exists h, c. split; [exact HL|]. split; [exact Hp|]. split; [apply (r_conn _ _ G1); auto|]. split; [exact H2|].
    split; [eapply seg_incl; [apply (r_out _ _ G1)|exact H3]|eapply pl_gr; [apply (r_out _ _ G1)|exact H4]].
  - discriminate.
  - intros _ s2 Hj2 _ _. stepc t_bykey. intros o s3 Hj3 _ _. stepc t_cobj. intros c s4 Hj4 _ [-> _]. stepc t_getsubs. intros os s5 Hj5 _ _. stepc t_cobj. intros c1 s6 Hj6 _ [-> Ec].
    cbv zeta. eapply seq; [eapply (t_setc o c1); auto|].
    + destruct (eqb (ri_order i) 0%nat), (eqb (Z.of_nat (ri_order i)) (Z.of_nat (List.length os) - 1)); reflexivity.
    + intros _ s6 Hj6' _ _. stepc t_savec. intros _ s7 Hj7 _ _. apply t_get. destruct (existsb _ (resvs s7)); [apply rets; auto|].
      stepc t_sobjs. intros xs s8 Hj8 _ _. stepc t_cobj. intros c2 s9 Hj9 _ _. destruct (forallb _ xs && _); [|apply rets; auto].
      stepc t_cs. intros _ s10 Hj10 _ _. stepc t_cobj. intros c3 s11 Hj11 _ [-> Ec3]. eapply seq; [eapply t_upc; eauto|]. intros _ s12 Hj12 _ _. apply rets; auto.
Qed.
Lemma t_rf h e s : J s -> T (reserve_failed g h e) s (fun _ _ => True).
Proof.
  intros Hj. unfold reserve_failed. apply t_get. eapply seq; [apply t_known; auto|]. intros i s' _ _ (-> & Hp & Hi). stepc t_pop. intros _ s1 Hj1 G1 _.
  stepc t_bykey. intros o s3 Hj3 _ _. stepc t_cobj. intros c s4 Hj4 _ [-> _].
  eapply (seq _ _ _ (fun _ _ => True)); [destruct (eqb (cn_r c) RFailed); [apply rets; auto|apply t_cs; auto]|]. intros _ s5 Hj5 _ _.
  stepc t_cobj. intros c3 s11 Hj11 _ [-> Ec3]. eapply seq; [eapply t_upc; eauto|]. intros _ s12 Hj12 _ _. apply rets; auto.
Qed.
Lemma t_collect chg ok cok x msg after h cid s : J s -> (forall o s, J s -> T (chg o) s (fun _ _ => True)) -> (forall f, In f after -> f = OCreated \/ f = OTerminated) ->
  (forall c, about (msg c) = Some c) -> (forall c, match msg c with UReserveConfirmed _ _ _ _ _ _ _ => False | _ => True end) ->
  T (collect chg ok cok x msg after h cid) s (fun _ _ => True).
Proof.
  intros Hj Hchg Haf Hab Hnc. unfold collect. stepc t_getsub. intros so s1 Hj1 _ _. stepc Hchg. intros _ s2 Hj2 _ _. stepc t_sobj. intros sc s3 Hj3 _ _.
  stepc t_bykey. intros o s4 Hj4 _ _. stepc t_cobj. intros c s5 Hj5 _ _. stepc t_getsubs. intros os s6 Hj6 _ _. stepc t_sobjs. intros xs s7 Hj7 _ _. stepc t_cobj. intros c1 s8 Hj8 _ _.
  destruct (forallb ok xs && negb (cok c1)); [|apply rets; auto]. stepc t_cs. intros _ s9 Hj9 _ _. stepc t_cobj. intros c3 s11 Hj11 _ [-> Ec3].
  eapply seq; [eapply (t_upc o c3); eauto; specialize (Hnc (cn_cid c3)); destruct (msg (cn_cid c3)); auto; contradiction|]. intros _ s12 Hj12 _ _.
  eapply seq; [apply (iters _ (fun _ => True)); auto|]. { intros f s13 Hf Hj13 _. apply (t_plug f); auto. }
  intros _ s13 Hj13 _ _. apply rets; auto.
Qed.
Lemma t_force_r r o s : J s -> T (force_sub_r r o) s (fun _ _ => True).
Proof.
  intros Hj. unfold force_sub_r. stepc t_sobj. intros x s1 Hj1 _ [-> Ex]. destruct (j_hs _ _ _ (j0 _ Hj) _ _ Ex) as (_ & _ & H2).
  eapply seq; [eapply (t_sets o x); auto|]. intros _ s2 Hj2 _ _. apply t_saves; auto.
Qed.
Lemma t_force_l r o s : J s -> T (force_sub_l r o) s (fun _ _ => True).
Proof.
  intros Hj. unfold force_sub_l. stepc t_sobj. intros x s1 Hj1 _ [-> Ex]. destruct (j_hs _ _ _ (j0 _ Hj) _ _ Ex) as (_ & _ & H2).
  eapply seq; [eapply (t_sets o x); auto|]. intros _ s2 Hj2 _ _. apply t_saves; auto.
Qed.
Lemma t_timeout h cid n a b s : J s -> T (reserve_timeout h cid n a b) s (fun _ _ => True).
Proof.
  intros Hj. unfold reserve_timeout. stepc t_getsub. intros so s1 Hj1 _ _. stepc t_ss. intros _ s2 Hj2 _ _. stepc t_sobj. intros sc s3 Hj3 _ _.
  stepc t_bykey. intros o s4 Hj4 _ _. stepc t_cobj. intros c s5 Hj5 _ _. stepc t_getsubs. intros os s6 Hj6 _ _. stepc t_sobjs. intros xs s7 Hj7 _ _. stepc t_cobj. intros c1 s8 Hj8 _ [-> Ec1].
  destruct (eqb (cn_r c1) RFailed); [apply rets; auto|]. destruct (_ =? 1)%nat; [|apply rets; auto]. eapply seq; [eapply t_upc; eauto|]. intros _ s12 Hj12 _ _. apply rets; auto.
Qed.
Lemma t_dp h cid d s : In (CDataPlane h cid d) L -> J s -> T (data_plane h cid d) s (fun _ _ => True).
Proof.
  intros HL Hj. destruct d as [[a v] k]. unfold data_plane. stepc t_getsub. intros so s1 Hj1 _ Hso. stepc t_sobj. intros x s' _ _ [-> Ex].
  destruct Hso as (z & (x' & Z1 & Z2) & Z3). assert (x' = x) by congruence. subst x'. pose proof (sc_cid _ _ Z2) as Ec. rewrite Z3 in Ec.
  eapply seq; [eapply (t_sets so x); auto|].
  { intros Ha. cbn in Ha. subst a. exists h, v, k. cbn. rewrite Ec. exact HL. }
  intros _ s2 Hj2 _ _. stepc t_saves. intros _ s3 Hj3 _ _. stepc t_sobj. intros sc s4 Hj4 _ _.
  stepc t_bykey. intros o s5 Hj5 _ _. stepc t_cobj. intros c s6 Hj6 _ _. stepc t_getsubs. intros os s7 Hj7 _ _. stepc t_sobjs. intros xs s8 Hj8 _ _. stepc t_cobj. intros c1 s9 Hj9 _ [-> Ec1].
  eapply seq; [eapply t_upc; eauto|]. intros _ s12 Hj12 _ _. apply rets; auto.
Qed.
Lemma t_err h a b c s : J s -> T (error h a b c) s (fun _ _ => True).
Proof. intros Hj. unfold error. destruct (eqb (hd_provider h) a); [|apply rets; auto]. stepc t_up0. intros _ s12 Hj12 _ _. apply rets; auto. Qed.
Lemma t_ev h cid n e s : J s -> T (error_event h cid n e) s (fun _ _ => True).
Proof.
  intros Hj. unfold error_event. stepc t_getsub. intros so s1 Hj1 _ _. stepc t_sobj. intros sc s3 Hj3 _ _.
  stepc t_bykey. intros o s4 Hj4 _ _. stepc t_cobj. intros c s5 Hj5 _ _. stepc t_getsubs. intros os s6 Hj6 _ _. stepc t_cobj. intros c1 s8 Hj8 _ [-> Ec1].
  destruct os as [|o1 [|]]; [apply throws'; auto| |apply throws'; auto]. eapply seq; [eapply t_upc; eauto|]. intros _ s12 Hj12 _ _. apply rets; auto.
Qed.
Lemma t_callp c s : In c L -> J s -> T (call_prog g c) s (fun _ _ => True).
Proof.
  intros HL Hj. destruct c; cbn [call_prog].
  - apply t_reserve; auto. - apply t_commit; auto. - apply t_abort; auto. - apply t_provision; auto. - apply t_release; auto. - apply t_terminate; auto.
  - apply t_qs; auto. - apply t_qr; auto. - apply t_rc; auto. - apply t_rf; auto.
  - apply t_collect; auto; [intros; apply t_force_r; auto|]. intros f [<-|[]]; auto.
  - apply t_collect; auto; [intros; apply t_force_r; auto|]. intros f [].
  - apply t_collect; auto; [intros; apply t_ss; auto|]. intros f [].
  - apply t_collect; auto; [intros; apply t_ss; auto|]. intros f [].
  - apply t_collect; auto; [intros; apply t_force_l; auto|]. intros f [<-|[]]; auto.
  - apply t_timeout; auto. - apply t_dp; auto. - apply t_err; auto. - apply t_ev; auto. - apply t_qrc; auto.
Qed.

(** * Runs *)
Variable pr : bool.
Definition good (m : mach) : Prop := minv J0 J grows m.
Lemma top_ok s reg rv : J s -> grows s (set_topology reg rv s) /\ J (set_topology reg rv s).
Proof.
  intros [H0 HR]. assert (HS : same s (set_topology reg rv s)) by (destruct s; cbn; unfold same; cbn; repeat split; auto).
  split; [apply same_gr; auto|]. split; [eapply same_J0; eauto|]. eapply JR_gr; [apply same_gr; eauto| |exact HR]. destruct s; auto.
Qed.
Lemma restart_ok s reg rv : J s -> J (restart_st reg rv s).
Proof. intros [[A1 A2 A3 A4 A5 A6 A7 A8 A9 A10 A11 A12 A13] _]. split; [|intros k i []]. split; auto; cbn; discriminate. Qed.
Lemma good_step m e : good m -> (forall c, e = EvCall c -> In c L) -> good (mstep g pr m e) /\ forall s1 a, In (s1, a) (step_acts g pr m e) -> J0 s1.
Proof.
  intros HG HL. eapply minv_step; eauto using j0, gr_refl, top_ok, restart_ok.
  - intros a b c. apply gr_trans.
  - intros c E. eapply t_wp. apply t_callp; auto. destruct HG; auto.
Qed.
Lemma good_init reg rv : good (minit reg rv).
Proof. split; [|intros i w k []]. split; [|intros k i []]. split; cbn; try constructor; try discriminate; try contradiction; intros; try discriminate; contradiction. Qed.
End Prog.
