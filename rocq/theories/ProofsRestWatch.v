(** Proofs about the watcher of auto-committed connections. *)
From Verif Require Import Base BaseProofs ModelState ModelRest SpecRest.

Definition obs_ok (auto : bool) (s0 : states) (pre : list obs) (x : obs) : Prop :=
  match x with
  | OCommit => st_r (state_after s0 pre) = RHeld
  | OProvision => auto = true /\ st_r (state_after s0 pre) = RStart /\ st_p (state_after s0 pre) = PReleased
  | OState s => st_r s = st_r (state_after s0 pre) \/ In (st_r s) (reserve_transitions (st_r (state_after s0 pre)))
  end.
Definition hist_ok (auto : bool) (s0 : states) (h : list obs) : Prop :=
  forall pre x post, h = pre ++ x :: post -> obs_ok auto s0 pre x.
Lemma hist_nil auto s0 : hist_ok auto s0 [].
Proof. intros pre x post E. destruct pre; discriminate. Qed.
Lemma hist_snoc auto s0 h x : hist_ok auto s0 h -> obs_ok auto s0 h x -> hist_ok auto s0 (h ++ [x]).
Proof.
  intros H X pre y post E. destruct post as [|z post] using rev_ind.
  - apply app_inj_tail in E as (<- & <-). exact X.
  - clear IHpost. rewrite app_comm_cons, app_assoc in E. apply app_inj_tail in E as (E & _). exact (H pre y post E).
Qed.
Lemma hist_cut auto s0 h x : hist_ok auto s0 (h ++ [x]) -> hist_ok auto s0 h /\ obs_ok auto s0 h x.
Proof.
  intros H. split; [|apply (H h x []); reflexivity]. intros pre y post E. apply (H pre y (post ++ [x])).
  rewrite E, <- app_assoc. reflexivity.
Qed.
Lemma after_app s0 h g : state_after s0 (h ++ g) = state_after (state_after s0 h) g.
Proof. revert s0. induction h as [|[s| |] h IH]; intros s0; cbn; auto. Qed.

(** legal chains of states *)
Fixpoint chain (s : states) (l : list states) : Prop :=
  match l with [] => True | t :: r => (st_r t = st_r s \/ In (st_r t) (reserve_transitions (st_r s))) /\ chain t r end.
Fixpoint final (s : states) (l : list states) : states := match l with [] => s | t :: r => final t r end.
Lemma hist_chain auto s0 l : forall h, hist_ok auto s0 h -> chain (state_after s0 h) l ->
  hist_ok auto s0 (h ++ map OState l) /\ state_after s0 (h ++ map OState l) = final (state_after s0 h) l.
Proof.
  induction l as [|t l IH]; intros h H C; cbn [map final].
  - rewrite app_nil_r. auto.
  - destruct C as (C1 & C2). replace (h ++ OState t :: map OState l) with ((h ++ [OState t]) ++ map OState l) by (rewrite <- app_assoc; reflexivity).
    assert (state_after s0 (h ++ [OState t]) = t) as A by (rewrite after_app; reflexivity).
    destruct (IH (h ++ [OState t])) as (H2 & F); [apply hist_snoc; assumption|rewrite A; exact C2|].
    rewrite A in F. auto.
Qed.

Lemma set_r_ok s c c' : set_r s c = Ok c' -> In (st_r c') (reserve_transitions (st_r c)).
Proof.
  unfold set_r, switch_state. destruct (mem s (reserve_transitions (st_r c))) eqn:M; cbn; [|discriminate].
  intros H. injection H as <-. cbn. apply mem_In. exact M.
Qed.
Lemma set_p_ok s c c' : set_p s c = Ok c' -> st_r c' = st_r c.
Proof. unfold set_p. destruct (switch_state _ _ _); cbn; [|discriminate]. intros H. injection H as <-. reflexivity. Qed.
Lemma set_l_ok s c c' : set_l s c = Ok c' -> st_r c' = st_r c.
Proof. unfold set_l. destruct (switch_state _ _ _); cbn; [|discriminate]. intros H. injection H as <-. reflexivity. Qed.
Lemma multi_visits_ok ts : forall c, chain c (multi_visits ts c) /\ final c (multi_visits ts c) = fst (multi_switch ts c).
Proof.
  induction ts as [|t ts IH]; intros c; cbn; [auto|].
  destruct (set_r t c) as [c'|e] eqn:S; cbn; [|auto]. destruct (IH c') as (C & F). repeat split; auto.
  right. exact (set_r_ok _ _ _ S).
Qed.
Lemma visits_ok o c : chain c (visits o c) /\ final c (visits o c) = fst (op_mem o c).
Proof.
  destruct o; try apply multi_visits_ok; cbn [visits op_mem];
  match goal with |- context [match ?x with Ok _ => _ | Err _ => _ end] => destruct x as [c'|e] eqn:S end;
  cbn; repeat split; auto.
  all: first [right; exact (set_r_ok _ _ _ S) | left; exact (set_p_ok _ _ _ S) | left; exact (set_l_ok _ _ _ S)].
Qed.

Definition winv (auto : bool) (s0 : states) (w : watch) : Prop :=
  w_obj w = state_after s0 (w_log w) /\ hist_ok auto s0 (w_log w).
Lemma do_op_inv auto s0 o w : winv auto s0 w -> winv auto s0 (do_op w o).
Proof.
  intros (O & H). unfold do_op, winv. cbn [w_obj w_log]. destruct (visits_ok o (w_obj w)) as (C & F).
  rewrite O in C. destruct (hist_chain auto s0 (visits o (w_obj w)) (w_log w) H) as (H2 & A); [rewrite O; exact C|].
  split; [|exact H2]. rewrite A, <- O. symmetry. exact F.
Qed.
Lemma do_ops_inv auto s0 l : forall w, winv auto s0 w -> winv auto s0 (fold_left do_op l w).
Proof. induction l as [|o l IH]; intros w H; cbn; [exact H|]. apply IH, do_op_inv, H. Qed.
Lemma emit_inv auto s0 w x : (forall s, x <> OState s) -> winv auto s0 w -> obs_ok auto s0 (w_log w) x -> winv auto s0 (emit w x).
Proof.
  intros N (O & H) X. split; cbn [emit w_obj w_log]; [|apply hist_snoc; assumption].
  rewrite O, after_app. destruct x as [s| |]; [destruct (N s); reflexivity|reflexivity|reflexivity].
Qed.
Lemma update_inv auto s0 d1 d2 w : winv auto s0 w -> winv auto s0 (state_update auto d1 d2 w).
Proof.
  intros W. unfold state_update. cbn zeta.
  assert (winv auto s0 match st_r (w_obj w) with RHeld => fold_left do_op d1 (emit w OCommit) | _ => w end) as W1.
  { destruct (st_r (w_obj w)) eqn:R; try exact W. apply do_ops_inv, emit_inv; [discriminate|exact W|].
    cbn. destruct W as (O & _). rewrite <- O. exact R. }
  revert W1. generalize (match st_r (w_obj w) with RHeld => fold_left do_op d1 (emit w OCommit) | _ => w end). clear W w. intros w W.
  assert (winv auto s0 match st_r (w_obj w) with
                       | RStart => match st_p (w_obj w) with PReleased => if auto then fold_left do_op d2 (emit w OProvision) else w | _ => w end
                       | _ => w end) as W1.
  { destruct (st_r (w_obj w)) eqn:R; try exact W. destruct (st_p (w_obj w)) eqn:P; try exact W. destruct auto; [|exact W].
    apply do_ops_inv, emit_inv; [discriminate|exact W|]. cbn. destruct W as (O & _). rewrite <- O. auto. }
  revert W1. generalize (match st_r (w_obj w) with
                       | RStart => match st_p (w_obj w) with PReleased => if auto then fold_left do_op d2 (emit w OProvision) else w | _ => w end
                       | _ => w end). clear W w. intros w W.
  destruct (st_p (w_obj w)); exact W.
Qed.
Lemma step_inv auto s0 w e : winv auto s0 w -> winv auto s0 (ev_step auto w e).
Proof.
  intros W. destruct e as [|o saved d1 d2|o|d1 d2]; cbn [ev_step].
  - exact W.
  - destruct (op_mem o (w_obj w)) as [c' [x|]]; [apply do_op_inv, W|]. destruct saved; [|apply do_op_inv, W].
    unfold notified. destruct (w_sub (do_op w o)); [apply update_inv|]; apply do_op_inv, W.
  - apply do_op_inv, W.
  - unfold notified. destruct (w_sub w); [apply update_inv|]; exact W.
Qed.
Lemma run_inv auto s0 evs : winv auto s0 (ev_run auto s0 evs).
Proof.
  unfold ev_run. assert (winv auto s0 (mkW s0 false [])) as W by (split; [reflexivity|apply hist_nil]).
  revert W. generalize (mkW s0 false []). induction evs as [|e evs IH]; intros w W; cbn; [exact W|]. apply IH, step_inv, W.
Qed.

Lemma after_in s0 h : state_after s0 h = s0 \/ In (OState (state_after s0 h)) h.
Proof.
  revert s0. induction h as [|[s| |] h IH]; intros s0; cbn; auto.
  - destruct (IH s) as [->|I]; auto.
  - destruct (IH s0) as [E|I]; auto.
  - destruct (IH s0) as [E|I]; auto.
Qed.
Lemma passed_app r h x : passed_through r h -> passed_through r (h ++ [x]).
Proof. intros (s & I & E). exists s. split; [apply in_or_app; auto|exact E]. Qed.
Lemma start_reached auto s0 h : hist_ok auto s0 h -> st_r (state_after s0 h) = RStart ->
  st_r s0 = RStart \/ st_r s0 = RCommitting \/ st_r s0 = RAborting \/ passed_through RCommitting h \/ passed_through RAborting h.
Proof.
  induction h as [|x h IH] using rev_ind; intros H S; [auto|].
  apply hist_cut in H as (H & X). rewrite after_app in S.
  assert (st_r (state_after s0 h) = RStart -> st_r s0 = RStart \/ st_r s0 = RCommitting \/ st_r s0 = RAborting \/
          passed_through RCommitting (h ++ [x]) \/ passed_through RAborting (h ++ [x])) as K.
  { intros E. destruct (IH H E) as [A|[A|[A|[A|A]]]]; auto 10 using passed_app. }
  destruct x as [s| |]; cbn in S; try (apply K, S). cbn in X. destruct X as [X|X].
  - apply K. congruence.
  - rewrite S in X. destruct (after_in s0 h) as [E|I].
    + rewrite E in X. destruct (st_r s0); cbn in X; intuition discriminate.
    + destruct (st_r (state_after s0 h)) eqn:R; cbn in X; try (intuition discriminate; fail).
      * right; right; right; left. exists (state_after s0 h). split; [apply in_or_app; auto|exact R].
      * right; right; right; right. exists (state_after s0 h). split; [apply in_or_app; auto|exact R].
Qed.

Lemma run_snoc auto s0 evs e : ev_run auto s0 (evs ++ [e]) = ev_step auto (ev_run auto s0 evs) e.
Proof. unfold ev_run. rewrite fold_left_app. reflexivity. Qed.
Lemma do_op_log w o : exists g, w_log (do_op w o) = w_log w ++ g.
Proof. eexists. reflexivity. Qed.
Lemma do_ops_log l : forall w, exists g, w_log (fold_left do_op l w) = w_log w ++ g.
Proof.
  induction l as [|o l IH]; intros w; cbn; [exists []; rewrite app_nil_r; reflexivity|].
  destruct (IH (do_op w o)) as (g & E). rewrite E. cbn [do_op w_log]. eexists. rewrite <- app_assoc. reflexivity.
Qed.
(** the subscribed watcher commits as soon as it is told of a held reservation *)
Lemma update_commits auto d1 d2 w : st_r (w_obj w) = RHeld ->
  exists g, w_log (state_update auto d1 d2 w) = w_log w ++ OCommit :: g.
Proof.
  intros R. unfold state_update. cbn zeta. rewrite R.
  destruct (do_ops_log d1 (emit w OCommit)) as (g & E). revert E.
  generalize (fold_left do_op d1 (emit w OCommit)). cbn [emit w_log]. intros w1 E.
  assert (exists g', w_log match st_r (w_obj w1) with
                       | RStart => match st_p (w_obj w1) with PReleased => if auto then fold_left do_op d2 (emit w1 OProvision) else w1 | _ => w1 end
                       | _ => w1 end = w_log w1 ++ g') as (g' & E').
  { assert (exists g', w_log w1 = w_log w1 ++ g') as Z by (exists []; rewrite app_nil_r; reflexivity).
    destruct (st_r (w_obj w1)); try exact Z. destruct (st_p (w_obj w1)); try exact Z. destruct auto; [|exact Z].
    destruct (do_ops_log d2 (emit w1 OProvision)) as (g' & E'). rewrite E'. cbn [emit w_log]. eexists. rewrite <- app_assoc. reflexivity. }
  exists (g ++ g'). rewrite E, <- !app_assoc in E'. cbn [app] in E'.
  match goal with |- w_log (match ?x with _ => _ end) = _ => destruct x end; exact E'.
Qed.

(** the watcher stays subscribed until the connection is provisioned *)
Lemma do_ops_sub l : forall w, w_sub (fold_left do_op l w) = w_sub w.
Proof. induction l as [|o l IH]; intros w; cbn; [reflexivity|]. rewrite IH. reflexivity. Qed.
Lemma update_sub auto d1 d2 w : st_p (w_obj (state_update auto d1 d2 w)) <> PProvisioned -> w_sub (state_update auto d1 d2 w) = w_sub w.
Proof.
  unfold state_update. cbn zeta.
  assert (w_sub match st_r (w_obj w) with RHeld => fold_left do_op d1 (emit w OCommit) | _ => w end = w_sub w) as E.
  { destruct (st_r (w_obj w)); try reflexivity. rewrite do_ops_sub. reflexivity. }
  rewrite <- E. generalize (match st_r (w_obj w) with RHeld => fold_left do_op d1 (emit w OCommit) | _ => w end). clear E w. intros w.
  assert (w_sub match st_r (w_obj w) with
                       | RStart => match st_p (w_obj w) with PReleased => if auto then fold_left do_op d2 (emit w OProvision) else w | _ => w end
                       | _ => w end = w_sub w) as E.
  { destruct (st_r (w_obj w)); try reflexivity. destruct (st_p (w_obj w)); try reflexivity. destruct auto; [|reflexivity].
    rewrite do_ops_sub. reflexivity. }
  rewrite <- E. match goal with |- context [w_sub ?x = _] => idtac | _ => idtac end.
  generalize (match st_r (w_obj w) with
                       | RStart => match st_p (w_obj w) with PReleased => if auto then fold_left do_op d2 (emit w OProvision) else w | _ => w end
                       | _ => w end). clear E w. intros w.
  destruct (st_p (w_obj w)) eqn:P; cbn; intros N; try reflexivity. contradiction.
Qed.
Lemma step_sub auto w e : w_sub w = true -> st_p (w_obj (ev_step auto w e)) <> PProvisioned -> w_sub (ev_step auto w e) = true.
Proof.
  destruct e as [|o saved d1 d2|o|d1 d2]; cbn [ev_step]; intros S.
  - reflexivity.
  - destruct (op_mem o (w_obj w)) as [c' [x|]]; [intros _; exact S|]. destruct saved; [|intros _; exact S].
    unfold notified. change (w_sub (do_op w o)) with (w_sub w). rewrite S. intros N. rewrite update_sub by exact N. exact S.
  - intros _. exact S.
  - unfold notified. rewrite S. intros N. rewrite update_sub by exact N. exact S.
Qed.
Lemma update_log auto d1 d2 w : exists g, w_log (state_update auto d1 d2 w) = w_log w ++ g.
Proof.
  unfold state_update. cbn zeta.
  assert (exists g, w_log match st_r (w_obj w) with RHeld => fold_left do_op d1 (emit w OCommit) | _ => w end = w_log w ++ g) as (g & E).
  { destruct (st_r (w_obj w)); try (exists []; rewrite app_nil_r; reflexivity).
    destruct (do_ops_log d1 (emit w OCommit)) as (g & E). rewrite E. cbn [emit w_log]. eexists. rewrite <- app_assoc. reflexivity. }
  revert E. generalize (match st_r (w_obj w) with RHeld => fold_left do_op d1 (emit w OCommit) | _ => w end). intros w1 E.
  assert (exists g', w_log match st_r (w_obj w1) with
                       | RStart => match st_p (w_obj w1) with PReleased => if auto then fold_left do_op d2 (emit w1 OProvision) else w1 | _ => w1 end
                       | _ => w1 end = w_log w1 ++ g') as (g' & E').
  { assert (exists g', w_log w1 = w_log w1 ++ g') as Z by (exists []; rewrite app_nil_r; reflexivity).
    destruct (st_r (w_obj w1)); try exact Z. destruct (st_p (w_obj w1)); try exact Z. destruct auto; [|exact Z].
    destruct (do_ops_log d2 (emit w1 OProvision)) as (g' & E'). rewrite E'. cbn [emit w_log]. eexists. rewrite <- app_assoc. reflexivity. }
  exists (g ++ g'). rewrite E, <- !app_assoc in E'.
  match goal with |- w_log (match ?x with _ => _ end) = _ => destruct x end; exact E'.
Qed.
Lemma step_log auto w e : exists g, w_log (ev_step auto w e) = w_log w ++ g.
Proof.
  destruct e as [|o saved d1 d2|o|d1 d2]; cbn [ev_step].
  - exists []. rewrite app_nil_r. reflexivity.
  - destruct (op_mem o (w_obj w)) as [c' [x|]]; [apply do_op_log|]. destruct saved; [|apply do_op_log].
    unfold notified. destruct (w_sub (do_op w o)); [|apply do_op_log].
    destruct (do_op_log w o) as (g1 & E1), (update_log auto d1 d2 (do_op w o)) as (g2 & E2).
    rewrite E2, E1. eexists. rewrite <- app_assoc. reflexivity.
  - apply do_op_log.
  - unfold notified. destruct (w_sub w); [apply update_log|]. exists []. rewrite app_nil_r. reflexivity.
Qed.
Lemma run_sub auto s0 evs : st_p s0 <> PProvisioned -> In EvSubscribe evs ->
  (forall s, In (OState s) (w_log (ev_run auto s0 evs)) -> st_p s <> PProvisioned) -> w_sub (ev_run auto s0 evs) = true.
Proof.
  intros S0. induction evs as [|e evs IH] using rev_ind; intros I N; [destruct I|].
  assert (st_p (w_obj (ev_run auto s0 (evs ++ [e]))) <> PProvisioned) as O.
  { destruct (run_inv auto s0 (evs ++ [e])) as (O & _). rewrite O.
    destruct (after_in s0 (w_log (ev_run auto s0 (evs ++ [e])))) as [-> |J]; [exact S0|apply N, J]. }
  rewrite run_snoc in *. apply in_app_or in I as [I|[->|[]]]; [|reflexivity].
  apply step_sub; [|exact O]. apply IH; [exact I|]. intros s J. apply N.
  destruct (step_log auto (ev_run auto s0 evs) e) as (g & ->). apply in_or_app. auto.
Qed.
Lemma held_commits auto s0 evs o d1 d2 c : st_p s0 <> PProvisioned -> In EvSubscribe evs ->
  (forall s, In (OState s) (w_log (ev_run auto s0 evs)) -> st_p s <> PProvisioned) ->
  op_mem o (state_after s0 (w_log (ev_run auto s0 evs))) = (c, None) -> st_r c = RHeld ->
  exists vs g, w_log (ev_run auto s0 (evs ++ [EvOp o true d1 d2])) = w_log (ev_run auto s0 evs) ++ map OState vs ++ OCommit :: g.
Proof.
  intros S0 I N M R. rewrite run_snoc. cbn [ev_step]. destruct (run_inv auto s0 evs) as (O & _).
  rewrite O, M. unfold notified. change (w_sub (do_op ?w o)) with (w_sub w).
  rewrite (run_sub auto s0 evs S0 I N).
  destruct (update_commits auto d1 d2 (do_op (ev_run auto s0 evs) o)) as (g & E).
  - cbn [do_op w_obj]. rewrite O, M. exact R.
  - rewrite E. cbn [do_op w_log]. rewrite <- app_assoc. eauto.
Qed.
