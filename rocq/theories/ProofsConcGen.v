(** What every program of the backend leaves alone: the objects it was not
    given, and everything of the connections it is not about. *)
From Verif Require Import Base BaseProofs ModelLabel ModelSTP ModelAuthz ModelNRM ModelCalendar ModelState ModelScheduler ModelBackend ModelBackendConc SpecBackendConc
  ProofsBackendWp ProofsBackendFoc ProofsConcWp.
Open Scope Z_scope.
Notation wp := ProofsConcWp.wp.
Notation any := ProofsConcWp.any.

(** objects are numbered in order; their constant columns stay *)
Definition wf (s : st) : Prop :=
  (forall o r, aget o (heap s) = Some r -> (o < nobj s)%nat) /\ (forall k r, aget k (db s) = Some r -> c_id r = k) /\ NoDup (akeys (db s)).
Definition evolves (s s' : st) : Prop :=
  wf s -> wf s' /\ (nobj s <= nobj s')%nat /\ now s <= now s' /\
    forall o r, aget o (heap s) = Some r -> exists r', aget o (heap s') = Some r' /\ core r' = core r.
Lemma ev_refl s : evolves s s.
Proof. intros W. split; [exact W|]. split; [lia|]. split; [lia|]. eauto. Qed.
Lemma ev_trans a b c : evolves a b -> evolves b c -> evolves a c.
Proof.
  intros H1 H2 W. destruct (H1 W) as (W1 & N1 & T1 & C1). destruct (H2 W1) as (W2 & N2 & T2 & C2).
  split; [exact W2|]. split; [lia|]. split; [lia|]. intros o r Ho. destruct (C1 o r Ho) as (r1 & E1 & F1).
  destruct (C2 o r1 E1) as (r2 & E2 & F2). exists r2. split; [exact E2|congruence].
Qed.
(** a scheduled call that has not started *)
Definition pending (s : st) (id : nat) (t : task) : Prop := aget id (calls s) = Some t /\ ahas id (s_queue (sch s)) = true.

Lemma ahas_adel_sub {V} (k k' : nat) (d : list (nat * V)) : ahas k (adel k' d) = true -> ahas k d = true.
Proof.
  unfold ahas. destruct (aget k (adel k' d)) eqn:E; [|discriminate]. intros _.
  apply aget_Some_In_keys in E. apply In_akeys_adel in E. destruct (aget k d) eqn:E2; [reflexivity|].
  exfalso. apply (proj1 (aget_None k d) E2). exact E.
Qed.
Lemma cancel_queue cid x id : ahas id (s_queue (cancel_call cid x)) = true -> ahas id (s_queue x) = true.
Proof.
  unfold cancel_call, defer_cancel. destruct (aget cid (s_dict x)); [|auto].
  destruct (s_pending _ _); cbn; [apply ahas_adel_sub|]. destruct (mem _ _); auto.
Qed.
Lemma cancel_now cid x : s_now (cancel_call cid x) = s_now x.
Proof.
  unfold cancel_call, defer_cancel. destruct (aget cid (s_dict x)); [|auto].
  destruct (s_pending _ _); cbn; [auto|]. destruct (mem _ _); auto.
Qed.

Section Gen.
(** the object and the connection left alone *)
Variables (oi : option nat) (ck : option string).
Definition mayk (k : string) : Prop := ck <> Some k.
Definition mayo (o : nat) : Prop := oi <> Some o.
Definition handles (o : nat) (s : st) : Prop := mayo o /\ exists r, aget o (heap s) = Some r /\ mayk (c_id r).
Lemma handles_ev o s s' : wf s -> evolves s s' -> handles o s -> handles o s'.
Proof.
  intros W H [H1 (r & H2 & H3)]. destruct (H W) as (_ & _ & _ & C). destruct (C o r H2) as (r' & E1 & E2).
  split; [exact H1|]. exists r'. split; [exact E1|]. apply core_fields in E2 as (-> & _). exact H3.
Qed.
Lemma handles_row o s r : handles o s -> aget o (heap s) = Some r -> mayk (c_id r).
Proof. intros [_ (r' & E & H)] E'. congruence. Qed.

Record apart (s s' : st) : Prop := {
  a_obj : forall o r, aget o (heap s) = Some r -> oi = Some o \/ ck = Some (c_id r) -> aget o (heap s') = Some r;
  a_row : forall k, ck = Some k -> aget k (db s') = aget k (db s);
  a_out : exists l, outs s' = outs s ++ l /\ Forall (fun x => mayk (out_id x)) l;
  a_ready : forall t, In t (ready s') -> In t (ready s) \/ handles (task_obj t) s';
  a_call : forall id t, pending s' id t -> pending s id t \/ handles (task_obj t) s' }.
Definition old (s : st) : Prop := forall o, oi = Some o -> (o < nobj s)%nat.
Definition guar (s s' : st) : Prop := evolves s s' /\ (wf s -> old s -> apart s s').

Lemma guar_apart s s' : wf s -> old s -> guar s s' -> apart s s'.
Proof. intros W O [_ H]. auto. Qed.

Ltac simple_apart := constructor; [auto|auto|exists []; rewrite app_nil_r; auto|auto|auto].
Lemma g_put o r r' s : handles o s -> aget o (heap s) = Some r -> core r' = core r -> guar s (put_obj o r' s).
Proof.
  intros H E C. split.
  - intros W. unfold put_obj. cbn. split; [|split; [lia|split; [reflexivity|]]].
    + split; [|apply W]. intros o' x. cbn. rewrite aget_aset. destruct (eqb_ok o' o) as [E'|N]; [intros _; subst; eapply W; exact E|apply W].
    + intros o' x Ho. rewrite aget_aset. destruct (eqb_ok o' o) as [E'|N]; [|eauto]. subst o'. exists r'. split; [reflexivity|congruence].
  - intros W O. constructor; cbn; auto.
    + intros o' x Ho Hn. rewrite aget_aset. destruct (eqb_ok o' o) as [E'|N]; [exfalso|exact Ho]. subst o'.
      destruct H as [H1 (y & H2 & H3)]. assert (x = y) by congruence. subst y. destruct Hn; [apply H1; auto|apply H3; auto].
    + exists []. rewrite app_nil_r. auto.
Qed.
Lemma g_db o r s : handles o s -> aget o (heap s) = Some r -> guar s (set_db (aset (c_id r) r (db s)) s).
Proof.
  intros H E. split.
  { intros W. split; [|split; [reflexivity|split; [cbn; reflexivity|eauto]]]. split; [apply W|]. split; [|apply NoDup_akeys_aset; apply W]. intros k x. cbn. rewrite aget_aset.
    destruct (eqb_ok k (c_id r)) as [E'|N]; [intros [= <-]; auto|apply W]. }
  intros W O. constructor; cbn; auto.
  - intros k Hk. rewrite aget_aset. destruct (eqb_ok k (c_id r)) as [E'|N]; [|reflexivity]. exfalso. subst k. exact (handles_row _ _ _ H E Hk).
  - exists []. rewrite app_nil_r. auto.
Qed.
Lemma g_cal c s : guar s (set_cal c s).
Proof. split; [exact (ev_refl s)|]. intros W O. constructor; cbn; auto. exists []. rewrite app_nil_r. auto. Qed.
Lemma g_sch x s : s_now (sch s) <= s_now x -> (forall id, ahas id (s_queue x) = true -> ahas id (s_queue (sch s)) = true) -> guar s (set_sch x s).
Proof.
  intros Ht Hq. split; [intros W; split; [exact W|split; [reflexivity|split; [exact Ht|eauto]]]|]. intros W O. constructor; cbn; auto.
  - exists []. rewrite app_nil_r. auto.
  - intros id t [H1 H2]. left. split; [exact H1|]. apply Hq. exact H2.
Qed.
Lemma g_schedule cid t k s x : handles (task_obj k) s -> schedule_call cid t (sch s) = Ok x ->
  guar s (mkSt (db s) (heap s) (nobj s) (cal s) x (aset (s_next (sch s)) k (calls s)) (ready s) (outs s)).
Proof.
  intros H E. unfold schedule_call in E.
  destruct (match aget cid (s_dict (sch s)) with Some id => s_pending (sch s) id | None => false end); [discriminate|].
  destruct (negb _); [discriminate|]. injection E as <-. split.
  - intros W; split; [exact W|split; [reflexivity|split; [cbn; reflexivity|eauto]]].
  - intros W O. constructor; cbn; auto.
    + exists []. rewrite app_nil_r. auto.
    + intros id k' [H1 H2]. cbn in H1, H2. rewrite aget_aset in H1. destruct (eqb_ok id (s_next (sch s))) as [E'|N].
      * injection H1 as <-. right. exact H.
      * left. split; [exact H1|]. unfold ahas in *. destruct (aget id (s_queue (sch s))) eqn:Eq; [reflexivity|].
        exfalso. revert H2. assert (X : aget id (s_queue (sch s) ++ [(s_next (sch s), s_now (sch s) + Z.max (t - s_now (sch s)) 0)]) = None); [|cbn; rewrite X; discriminate].
        apply aget_None. apply aget_None in Eq. intros HI. apply Eq. unfold akeys in *. rewrite map_app in HI. apply in_app_or in HI as [HI|[HI|[]]]; [exact HI|]. cbn in HI. congruence.
Qed.
Lemma g_emit x s : mayk (out_id x) -> guar s (emit x s).
Proof. intros H. split; [exact (ev_refl s)|]. intros W O. constructor; cbn; auto. exists [x]. auto. Qed.
Lemma g_push t s : handles (task_obj t) s -> guar s (push t s).
Proof.
  intros H. split; [exact (ev_refl s)|]. intros W O. constructor; cbn; auto.
  - exists []. rewrite app_nil_r. auto.
  - intros t' HI. apply in_app_or in HI as [HI|[HI|[]]]; [auto|]. subst t'. right. exact H.
Qed.
Lemma g_new r s : guar s (new_obj r s).
Proof.
  split.
  - intros W. split; [|split; [cbn; lia|split; [reflexivity|]]].
    + split; [|apply W]. intros o x. cbn. rewrite aget_aset. destruct (eqb_ok o (nobj s)) as [E'|N]; [intros _; lia|]. intros H. apply W in H. lia.
    + intros o x Ho. cbn. rewrite aget_aset. destruct (eqb_ok o (nobj s)) as [E'|N]; [|eauto]. apply W in Ho. lia.
  - intros W O. constructor; cbn; auto.
    + intros o x Ho _. rewrite aget_aset. destruct (eqb_ok o (nobj s)) as [E'|N]; [|exact Ho]. apply W in Ho. lia.
    + exists []. rewrite app_nil_r. auto.
Qed.

(** * The programs *)
Variable J : st -> Prop.
Hypothesis Jwf : forall s, J s -> wf s.
Hypothesis Jold : forall s, J s -> old s.
Hypothesis GJ : forall s s', guar s s' -> J s -> J s'.
(** what the others may do *)
Variable rl : st -> st -> Prop.
Hypothesis rl_ev : forall s s', rl s s' -> evolves s s'.
Hypothesis rl_refl : forall s, rl s s.
Hypothesis rl_tr : forall a b c, rl a b -> rl b c -> rl a c.
Hypothesis rl_g : forall s s', guar s s' -> rl s s'.
Local Notation T := (triple J rl guar).
Local Notation tt' := (fun _ _ => True).

Lemma keep o s s' : J s -> rl s s' -> handles o s -> handles o s'.
Proof. intros Hj He. apply handles_ev; auto. Qed.

Ltac mv := match goal with [Hh : handles ?o ?s, Hj : J ?s, Hr : rl ?s ?s' |- handles ?o ?s'] => exact (keep o s s' Hj Hr Hh) end.
Lemma tseq {A B} (p : prog A) (f : A -> prog B) s Q Q' : T p s Q ->
  (forall a s', J s' -> rl s s' -> Q a s' -> T (f a) s' Q') -> T (bind p f) s Q'.
Proof. apply t_seq; auto. Qed.
Lemma tupd f s (Q : unit -> st -> Prop) : J s -> guar s (f s) -> Q tt (f s) -> T (upd f) s Q.
Proof. intros. apply t_upd; auto. Qed.
Lemma tobj o s : J s -> T (obj o) s (fun r s' => s' = s /\ aget o (heap s) = Some r).
Proof. intros. apply t_obj; auto. Qed.
Lemma tret {A} (a : A) s (Q : A -> st -> Prop) : J s -> Q a s -> T (Ret a) s Q.
Proof. intros. apply t_ret; auto. Qed.
Lemma tthrow {A} e s (Q : A -> st -> Prop) : J s -> T (Throw e) s Q.
Proof. intros. apply t_throw; auto. Qed.
Lemma tawait w s : T (await w) s tt'.
Proof. apply t_await; auto. Qed.
Lemma tAwait {A} w (k : option exn -> prog A) s Q : (forall x s', rl s s' -> J s' -> T (k x) s' Q) -> T (Await w k) s Q.
Proof. apply t_Await; auto. Qed.
Lemma tcatch {A} (p : prog A) h s Q : T p s Q -> (forall e s', J s' -> rl s s' -> T (h e) s' Q) -> T (catch p h) s Q.
Proof. apply t_catch; auto. Qed.
Lemma temit x s : J s -> mayk (out_id x) -> T (emits x) s tt'.
Proof. intros Hj H. apply tupd; auto. apply g_emit. exact H. Qed.

Lemma t_modify o f s : J s -> handles o s -> (forall r, core (f r) = core r) -> T (modify o f) s tt'.
Proof.
  intros Hj Hh Hf. unfold modify. eapply tseq; [apply tobj; auto|]. intros r s' Hj' Hr [-> E]. apply tupd; auto. eapply g_put; eauto.
Qed.
Lemma t_save o s : J s -> handles o s -> T (save o) s tt'.
Proof.
  intros Hj Hh. unfold save. eapply tseq; [apply tawait|]. intros _ s1 Hj1 Hr1 _.
  eapply tseq; [apply tobj; auto|]. intros r s2 Hj2 Hr2 [-> E].
  eapply tseq; [apply (tupd _ _ tt'); auto; eapply g_db; [|exact E]; mv|]. intros _ s3 Hj3 Hr3 _. apply tawait.
Qed.
Lemma t_state x o s : J s -> handles o s -> T (state_change x o) s tt'.
Proof.
  intros Hj Hh. unfold state_change. eapply tseq; [apply tobj; auto|]. intros r s1 Hj1 Hr1 [-> E].
  destruct (op_mem x (c_states r)) as [c e]. eapply tseq; [apply (tupd _ _ tt'); auto; eapply g_put; eauto|].
  intros _ s2 Hj2 Hr2 _. destruct e; [apply tthrow; auto|]. apply t_save; auto. mv.
Qed.
Lemma t_cancel cid s : J s -> T (cancel cid) s tt'.
Proof. intros Hj. apply tupd; auto. apply g_sch; [rewrite cancel_now; lia|]. apply cancel_queue. Qed.
Lemma t_schedule cid t k s : J s -> handles (task_obj k) s -> T (schedule cid t k) s tt'.
Proof.
  intros Hj Hh. unfold schedule. apply t_get. destruct (schedule_call cid t (sch s)) as [x|e] eqn:E; [|apply tthrow; auto].
  apply tupd; auto. eapply g_schedule; eauto.
Qed.
Lemma t_remove res b e s : J s -> T (remove_reservation res b e) s tt'.
Proof.
  intros Hj. unfold remove_reservation. apply t_get. destruct (cal_remove _ _ _ _); [|apply tthrow; auto]. apply tupd; auto. apply g_cal.
Qed.
Lemma t_add res b e s : J s -> T (add_reservation res b e) s tt'.
Proof. intros Hj. apply tupd; auto. apply g_cal. Qed.
Lemma t_remove_both g r s : J s -> T (remove_both g r) s tt'.
Proof. intros Hj. eapply tseq; [apply t_remove; auto|]. intros _ s1 Hj1 _ _. apply t_remove; auto. Qed.
Lemma t_alloc r s : J s -> T (alloc r) s (fun o s' => s' = new_obj r s /\ o = nobj s /\ mayo o).
Proof.
  intros Hj. unfold alloc. apply t_get. eapply tseq; [apply (tupd _ _ (fun _ s' => s' = new_obj r s)); auto; apply g_new|].
  intros _ s1 Hj1 Hr1 ->. apply tret; auto. split; [reflexivity|]. split; [reflexivity|]. intros E. pose proof (Jold _ Hj _ E). lia.
Qed.
Lemma new_handles r s o : o = nobj s -> mayo o -> mayk (c_id r) -> handles o (new_obj r s).
Proof. intros -> H K. split; [exact H|]. exists r. split; [|exact K]. cbn. apply aget_aset_eq. Qed.

Section WithCfg.
Variable g : cfg.
Ltac st L := eapply tseq; [apply L; auto; try (mv; fail)|].
Ltac nx s := let Hj := fresh "Hj" in let Hr := fresh "Hr" in intros _ s Hj Hr _.
Lemma cond {A} (b : bool) (p q : prog A) s Q : (b = true -> T p s Q) -> (b = false -> T q s Q) -> T (if b then p else q) s Q.
Proof. destruct b; auto. Qed.

Lemma t_teardown o s : J s -> handles o s -> T (do_teardown g o) s tt'.
Proof.
  intros Hj Hh. unfold do_teardown. eapply tseq; [apply tobj; auto|]. intros r s1 Hj1 Hr1 [-> E].
  pose proof (handles_row _ _ _ Hh E) as Hk. eapply tseq; [apply temit; auto|]. nx s2. apply tAwait. intros res s3 Hr3 Hj3.
  assert (Hh3 : handles o s3) by (assert (handles o s2) by mv; mv).
  eapply tseq; [apply temit; auto|]. nx s4. assert (Hh4 : handles o s4) by (mv).
  eapply tseq; [apply t_modify; auto|]. nx s5. assert (Hh5 : handles o s5) by (mv).
  destruct res.
  - eapply tseq; [apply t_save; auto|]. nx s6. apply temit; auto.
  - apply tcatch; [|intros; apply tret; auto]. eapply tseq; [apply t_save; auto|]. nx s6. apply temit; auto.
Qed.
Lemma t_free o s : J s -> handles o s -> T (do_free g o) s tt'.
Proof.
  intros Hj Hh. unfold do_free. eapply tseq; [apply tobj; auto|]. intros r s1 Hj1 Hr1 [-> E].
  apply cond; intros _.
  - eapply tseq; [apply t_teardown; auto|]. nx s2. eapply tseq; [apply tobj; auto|]. intros r' s3 Hj3 _ [-> _]. apply t_remove_both; auto.
  - apply cond; intros _; [apply t_remove_both; auto|apply tret; auto].
Qed.
Lemma t_endtime o s : J s -> handles o s -> T (do_endtime g o) s tt'.
Proof.
  intros Hj Hh. unfold do_endtime. eapply tseq; [apply tobj; auto|]. intros r s1 Hj1 Hr1 [-> E].
  apply cond; intros _; [apply tthrow; auto|]. eapply tseq; [apply t_cancel; auto|]. nx s2. assert (Hh2 : handles o s2) by (mv).
  eapply tseq; [apply t_state; auto|]. nx s3. apply t_free; auto. mv.
Qed.
Lemma t_rollback o s : J s -> handles o s -> T (do_rollback g o) s tt'.
Proof.
  intros Hj Hh. unfold do_rollback. apply tcatch; [|intros; apply tret; auto].
  eapply tseq; [apply t_state; auto|]. intros _ s1 Hj1 Hr1 _. assert (Hh1 : handles o s1) by (mv).
  eapply tseq; [apply tobj; auto|]. intros r ? _ _ [-> E].
  eapply tseq; [apply t_cancel; auto|]. intros _ s2 Hj2 Hr2 _. assert (Hh2 : handles o s2) by (mv).
  eapply tseq; [apply t_remove_both; auto|]. intros _ s3 Hj3 Hr3 _. assert (Hh3 : handles o s3) by (mv).
  eapply tseq; [apply t_state; auto|]. intros _ s4 Hj4 Hr4 _. assert (Hh4 : handles o s4) by (mv).
  eapply tseq; [apply tobj; auto|]. intros r' ? _ _ [-> E']. apply t_get. destruct (c_end r'); [|apply tret; auto].
  apply cond; intros _; [apply t_endtime; auto|apply t_schedule; auto].
Qed.
Lemma t_timeout o s : J s -> handles o s -> T (do_timeout g o) s tt'.
Proof.
  intros Hj Hh. unfold do_timeout. apply tcatch; [|intros; apply tret; auto].
  eapply tseq; [apply t_state; auto|]. intros _ s1 Hj1 Hr1 _. assert (Hh1 : handles o s1) by (mv).
  eapply tseq; [apply t_rollback; auto|]. intros _ s2 Hj2 Hr2 _. assert (Hh2 : handles o s2) by (mv).
  eapply tseq; [instantiate (1 := fun _ s' => s' = s2); apply cond; intros _; [apply tthrow; auto|apply tret; auto]|]. intros _ ? _ _ ->.
  eapply tseq; [apply tobj; auto|]. intros r' ? _ _ [-> E']. apply temit; auto. cbn. eapply handles_row; eauto.
Qed.
Lemma t_activate o s : J s -> handles o s -> T (do_activate g o) s tt'.
Proof.
  intros Hj Hh. unfold do_activate. eapply tseq; [apply tobj; auto|]. intros r s1 Hj1 Hr1 [-> E].
  pose proof (handles_row _ _ _ Hh E) as Hk. eapply tseq; [apply temit; auto|]. nx s2. apply tAwait. intros res s3 Hr3 Hj3.
  assert (Hh3 : handles o s3) by (assert (handles o s2) by mv; mv).
  eapply tseq; [apply temit; auto|]. nx s4. assert (Hh4 : handles o s4) by (mv).
  destruct res.
  - eapply tseq; [apply t_modify; auto|]. intros _ s5 Hj5 Hr5 _. assert (Hh5 : handles o s5) by (mv).
    eapply tseq; [apply t_save; auto|]. nx s6. apply temit; auto.
  - apply tcatch; [|intros; apply tret; auto].
    eapply tseq; [apply t_modify; auto|]. intros _ s5 Hj5 Hr5 _. assert (Hh5 : handles o s5) by (mv).
    eapply tseq; [apply t_save; auto|]. intros _ s6 Hj6 Hr6 _. assert (Hh6 : handles o s6) by (mv).
    apply t_get. eapply tseq; [instantiate (1 := tt'); destruct (c_end r); [apply t_schedule; auto|apply tret; auto]|]. nx s7. apply temit; auto.
Qed.
Lemma t_reserve_task o c s : J s -> handles o s -> T (do_reserve o c) s tt'.
Proof.
  intros Hj Hh. unfold do_reserve. eapply tseq; [apply t_state; auto|]. intros _ s1 Hj1 Hr1 _. assert (Hh1 : handles o s1) by (mv).
  eapply tseq; [apply tobj; auto|]. intros r ? _ _ [-> E]. apply t_get.
  eapply tseq; [instantiate (1 := tt'); apply cond; intros _; [apply t_cancel; auto|apply tret; auto]|]. intros _ s2 Hj2 Hr2 _.
  assert (Hh2 : handles o s2) by (mv).
  eapply tseq; [apply t_schedule; auto|]. nx s3. eapply tseq; [apply temit; auto; eapply handles_row; [exact Hh1|exact E]|]. intros. apply tawait.
Qed.
Lemma t_task t s : J s -> handles (task_obj t) s -> T (task_prog g t) s tt'.
Proof.
  destruct t; cbn [task_prog task_obj]; [apply t_reserve_task|apply t_timeout|apply t_activate|apply t_endtime].
Qed.

(** requests on a connection that is not left alone *)
Lemma t_get_connection cid s : J s -> mayk cid -> T (get_connection cid) s (fun o s' => handles o s').
Proof.
  intros Hj Hk. unfold get_connection. eapply tseq; [apply tawait|]. intros _ s1 Hj1 Hr1 _. apply t_get.
  destruct (aget cid (db s1)) as [r|] eqn:E.
  - eapply tseq; [apply t_alloc; auto|]. intros o s2 Hj2 Hr2 (-> & Ho & Hm). eapply tseq; [apply tawait|]. intros _ s3 Hj3 Hr3 _.
    apply tret; auto. eapply keep; [|exact Hr3|]; auto. apply new_handles; auto. rewrite (proj1 (proj2 (Jwf _ Hj1)) _ _ E). exact Hk.
  - eapply tseq; [apply tawait|]. intros. apply tthrow; auto.
Qed.
Lemma t_open h cid s : J s -> mayk cid -> T (open_connection g h cid) s (fun o s' => handles o s').
Proof.
  intros Hj Hk. unfold open_connection. eapply tseq; [apply t_get_connection; auto|]. intros o s1 Hj1 Hr1 Hh.
  eapply tseq; [apply tobj; auto|]. intros r ? _ _ [-> E]. eapply tseq; [apply t_lift; auto|]. intros _ ? _ _ [-> _]. apply tret; auto.
Qed.
Ltac opened s Hj Hh r E := eapply tseq; [apply t_open; auto|]; intros o s Hj ? Hh; cbn beta in Hh; eapply tseq; [apply tobj; auto|]; intros r ? _ _ [-> E].
Ltac go s := intros _ s ? ? _;
  match goal with [Hh : handles ?o ?a, Hj : J ?a, Hr : rl ?a ?b |- _] => pose proof (keep o a b Hj Hr Hh) end.
Lemma t_commit h cid s : J s -> mayk cid -> T (reserve_commit g h cid) s tt'.
Proof.
  intros Hj Hk. unfold reserve_commit. opened s1 Hj1 Hh1 r E. apply cond; intros _; [apply tthrow; auto|].
  eapply tseq; [apply t_modify; auto|]. go s2. eapply tseq; [apply t_state; auto|]. go s3. eapply tseq; [apply t_cancel; auto|]. go s4.
  eapply tseq; [instantiate (1 := tt'); destruct (c_end r); [apply t_schedule; auto|apply tret; auto]|]. go s5.
  eapply tseq; [apply temit; auto|]. go s6. eapply tseq; [apply tawait|]. intros. apply tret; auto.
Qed.
Lemma t_abort h cid s : J s -> mayk cid -> T (reserve_abort g h cid) s tt'.
Proof.
  intros Hj Hk. unfold reserve_abort. opened s1 Hj1 Hh1 r E. apply cond; intros _; [apply tthrow; auto|].
  eapply tseq; [apply t_rollback; auto|]. go s2. eapply tseq; [apply temit; auto|]. intros. apply tret; auto.
Qed.
Lemma t_provision h cid s : J s -> mayk cid -> T (provision g h cid) s tt'.
Proof.
  intros Hj Hk. unfold provision. opened s1 Hj1 Hh1 r E. do 3 (apply cond; intros _; [apply tthrow; auto|]).
  apply t_get. apply cond; intros _; [apply tthrow; auto|].
  eapply tseq; [apply t_state; auto|]. go s2. eapply tseq; [apply t_cancel; auto|]. go s3.
  eapply tseq; [instantiate (1 := tt'); apply cond; intros _; [apply tupd; auto; apply g_push; auto|destruct (c_start r); [apply t_schedule; auto|apply tret; auto]]|]. go s4.
  eapply tseq; [apply t_state; auto|]. go s5. eapply tseq; [apply temit; auto|]. intros. apply tret; auto.
Qed.
Lemma t_release h cid s : J s -> mayk cid -> T (release g h cid) s tt'.
Proof.
  intros Hj Hk. unfold release. opened s1 Hj1 Hh1 r E. apply cond; intros _; [apply tthrow; auto|].
  eapply tseq; [apply t_state; auto|]. go s2. eapply tseq; [apply t_cancel; auto|]. go s3.
  eapply tseq; [apply tobj; auto|]; intros r' ? _ _ [-> E'].
  eapply tseq; [instantiate (1 := tt'); apply cond; intros _; [apply tcatch; [apply t_teardown; auto|intros; apply tret; auto]|apply tret; auto]|]. go s4.
  eapply tseq; [instantiate (1 := tt'); destruct (c_end r'); [apply t_schedule; auto|apply tret; auto]|]. go s5.
  eapply tseq; [apply t_state; auto|]. go s6. eapply tseq; [apply temit; auto|]. intros. apply tret; auto.
Qed.
Lemma t_terminate h cid s : J s -> mayk cid -> T (terminate g h cid) s tt'.
Proof.
  intros Hj Hk. unfold terminate. opened s1 Hj1 Hh1 r E. apply cond; intros _; [apply tthrow; auto|].
  eapply tseq; [apply t_cancel; auto|]. go s2. eapply tseq; [apply t_state; auto|]. go s3.
  eapply tseq; [instantiate (1 := tt'); apply cond; intros _; [apply t_free; auto|apply tret; auto]|]. go s4.
  eapply tseq; [apply temit; auto|]. go s5. eapply tseq; [apply tawait|]. go s6.
  eapply tseq; [apply t_state; auto|]. intros. apply tret; auto.
Qed.
Lemma t_get_any cid s : J s -> T (get_connection cid) s tt'.
Proof.
  intros Hj. unfold get_connection. eapply tseq; [apply tawait|]. intros _ s1 Hj1 Hr1 _. apply t_get.
  destruct (aget cid (db s1)) as [r|] eqn:E.
  - eapply tseq; [apply t_alloc; auto|]. intros o s2 Hj2 Hr2 _. eapply tseq; [apply tawait|]. intros _ s3 Hj3 Hr3 _. apply tret; auto.
  - eapply tseq; [apply tawait|]. intros. apply tthrow; auto.
Qed.
Lemma t_unused q s : J s -> T (check_unused q) s tt'.
Proof.
  intros Hj. unfold check_unused. destruct (rs_cid q) as [c|]; [|apply tret; auto]. apply cond; intros _; [apply tret; auto|].
  eapply tseq; [apply (tcatch _ _ _ tt')|].
  - eapply tseq; [apply t_get_any; auto|]. intros. apply tret; auto.
  - intros e s1 Hj1 _. destruct e; try (apply tthrow; auto; fail). apply tret; auto.
  - intros b s1 Hj1 _ _. apply cond; intros _; [apply tret; auto|apply tthrow; auto].
Qed.
(** a new reservation may have the id of the connection left alone, if that is stored *)
Lemma t_insert o s : J s -> mayo o -> (forall s, J s -> forall k, ck = Some k -> ahas k (db s) = true) -> T (insert o) s (fun _ s' => handles o s').
Proof.
  intros Hj Hm Hs. unfold insert. eapply tseq; [apply tawait|]. intros _ s1 Hj1 Hr1 _.
  eapply tseq; [apply tobj; auto|]; intros r ? _ _ [-> E]. apply t_get. destruct (ahas (c_id r) (db s1) || _) eqn:Eh.
  - eapply tseq; [apply (tthrow _ _ (fun _ _ => False)); auto|]. intros ? ? ? ? [].
  - assert (Hh : handles o s1).
    { split; [exact Hm|]. exists r. split; [exact E|]. intros K. rewrite (Hs _ Hj1 _ K) in Eh. discriminate. }
    eapply tseq; [apply (tupd _ _ (fun _ s' => handles o s')); auto|].
    + eapply g_db; eauto.
    + intros ? s2 Hj2 Hr2 Hh2; cbn beta in Hh2. eapply t_mono; [|apply tawait]. intros _ s3 Hj3 Hr3 _. mv.
Qed.
Lemma t_insert_may o s : J s -> handles o s -> T (insert o) s (fun _ s' => handles o s').
Proof.
  intros Hj Hh0. unfold insert. eapply tseq; [apply tawait|]. intros _ s1 Hj1 Hr1 _. pose proof (keep _ _ _ Hj Hr1 Hh0) as Hh.
  eapply tseq; [apply tobj; auto|]; intros r ? _ _ [-> E]. apply t_get. destruct (ahas (c_id r) (db s1) || _) eqn:Eh.
  - eapply tseq; [apply (tthrow _ _ (fun _ _ => False)); auto|]. intros ? ? ? ? [].
  - eapply tseq; [apply (tupd _ _ (fun _ s' => handles o s')); auto|].
    + eapply g_db; eauto.
    + intros ? s2 Hj2 Hr2 Hh2; cbn beta in Hh2. eapply t_mono; [|apply tawait]. intros _ s3 Hj3 Hr3 _. mv.
Qed.
Lemma t_reserve h q s : J s -> mayk (resv_id q) \/ (forall s, J s -> forall k, ck = Some k -> ahas k (db s) = true) -> T (reserve g h q) s tt'.
Proof.
  intros Hj Hk. unfold reserve. apply cond; intros _; [apply tthrow; auto|].
  eapply tseq; [apply t_unused; auto|]. intros _ s1 Hj1 Hr1 _. apply t_get. eapply tseq; [apply t_lift; auto|]. intros [l1 l2] ? _ _ [-> _].
  eapply tseq; [apply t_add; auto|]. intros _ s2 Hj2 Hr2 _. eapply tseq; [apply t_add; auto|]. intros _ s3 Hj3 Hr3 _. fold (resv_id q).
  eapply tseq; [apply t_alloc; auto|]. intros o s4 Hj4 Hr4 (E4 & Ho & Hm).
  eapply tseq; [instantiate (1 := fun _ s' => handles o s'); destruct Hk as [Hk|Hk]; [apply t_insert_may; auto; subst s4; apply new_handles; auto|apply t_insert; auto]|].
  intros ? s5 Hj5 Hr5 Hh5; cbn beta in Hh5. eapply tseq; [apply (tupd _ _ tt'); auto; apply g_push; auto|]. intros. apply tret; auto.
Qed.

Lemma t_op o s : J s -> (forall k, op_id o = Some k -> mayk k) -> T (op_prog g o) s tt'.
Proof.
  intros Hj Hk. destruct o; cbn [op_prog op_id] in *;
    [apply t_reserve; auto|apply t_commit; auto|apply t_abort; auto|apply t_provision; auto|apply t_release; auto|apply t_terminate; auto|apply tret; auto..].
Qed.

(** ** A connection left alone because it is terminated *)
Hypothesis Jend : forall s, J s -> forall k, ck = Some k -> exists r, aget k (db s) = Some r /\ c_l r = LTerminated.
Hypothesis rl_obj : forall s s', J s -> rl s s' -> forall o r, aget o (heap s) = Some r -> ck = Some (c_id r) -> aget o (heap s') = Some r.
Definition dead (o : nat) (s : st) : Prop := exists r, aget o (heap s) = Some r /\ ck = Some (c_id r) /\ c_l r = LTerminated.
Lemma t_open_dead h k s : J s -> ck = Some k -> T (open_connection g h k) s (fun o s' => dead o s').
Proof.
  intros Hj Hk. unfold open_connection.
  assert (H : T (get_connection k) s (fun o s' => dead o s')).
  { unfold get_connection. eapply tseq; [apply tawait|]. intros _ s1 Hj1 Hr1 _. apply t_get.
    destruct (Jend _ Hj1 _ Hk) as (r & E & Hl). rewrite E. pose proof (proj1 (proj2 (Jwf _ Hj1)) _ _ E) as Hid.
    eapply tseq; [apply t_alloc; auto|]. intros o s2 Hj2 Hr2 (E2 & Ho & Hm). eapply tseq; [apply tawait|]. intros _ s3 Hj3 Hr3 _.
    apply tret; auto. exists r. split; [|split; [congruence|exact Hl]]. apply (rl_obj s2 s3); auto; [|congruence]. rewrite E2, Ho. cbn. apply aget_aset_eq. }
  eapply tseq; [exact H|]. intros o s1 Hj1 Hr1 Hd. cbn beta in Hd.
  eapply tseq; [apply tobj; auto|]. intros r ? _ _ [-> E]. eapply tseq; [apply t_lift; auto|]. intros _ ? _ _ [-> _]. apply tret; auto.
Qed.
Ltac dead_open := eapply tseq; [apply t_open_dead; auto|]; intros o s1 Hj1 Hr1 Hd; cbn beta in Hd; destruct Hd as (r0 & E0 & _ & Hl);
  eapply tseq; [apply tobj; auto|]; intros r ? _ _ [-> E]; assert (r = r0) by congruence; subst r0; rewrite Hl.
Lemma t_op_all o s : J s -> T (op_prog g o) s tt'.
Proof.
  intros Hj.
  assert (D : (forall k, op_id o = Some k -> mayk k) \/ exists k, op_id o = Some k /\ ck = Some k).
  { destruct (op_id o) as [k|]; [|left; discriminate]. destruct (eqb_ok ck (Some k)) as [E|N]; [right; eauto|left]. intros k' [= <-]. exact N. }
  destruct D as [D|(k & D & Hk)]; [apply t_op; auto|].
  assert (St : forall s, J s -> forall k, ck = Some k -> ahas k (db s) = true).
  { intros s' Hs' k' Hk'. destruct (Jend _ Hs' _ Hk') as (r & E & _). unfold ahas. rewrite E. reflexivity. }
  destruct o as [h q|h k'|h k'|h k'|h k'|h k'| | |]; cbn [op_prog op_id] in *; try discriminate; try (injection D as ->).
  - apply t_reserve; auto.
  - unfold reserve_commit. dead_open. cbn [gone]. apply tthrow; auto.
  - unfold reserve_abort. dead_open. cbn [gone]. apply tthrow; auto.
  - unfold provision. dead_open. cbn [gone]. apply cond; intros _; apply tthrow; auto.
  - unfold release. dead_open. cbn [gone]. apply tthrow; auto.
  - unfold terminate. dead_open. rewrite eqb_refl. apply tthrow; auto.
Qed.
(** a restart *)
Definition not_dead (s : st) (os : list nat) : Prop := Forall (fun o => handles o s) os.
Lemma t_restore_one o s : J s -> handles o s -> T (restore_one g o) s tt'.
Proof.
  intros Hj Hh. unfold restore_one. eapply tseq; [apply tobj; auto|]. intros r ? _ _ [-> E]. apply t_get.
  do 3 (apply cond; intros _; [apply tret; auto|]).
  eapply tseq; [apply t_add; auto|]. go s1. eapply tseq; [apply t_add; auto|]. go s2.
  apply cond; intros _; [apply t_endtime; auto|]. apply cond; intros _; [apply cond; intros _; [apply t_rollback; auto|apply t_schedule; auto]|].
  apply cond; intros _.
  { destruct (c_p r); try (apply tret; auto; fail).
    - destruct (c_end r); [apply t_schedule; auto|apply tret; auto].
    - apply cond; intros _; [destruct (c_end r); [apply t_schedule; auto|apply tret; auto]|apply t_activate; auto]. }
  apply cond; intros _; [|apply tret; auto]. apply cond; intros _.
  - eapply tseq; [instantiate (1 := tt'); destruct (c_start r); [apply t_schedule; auto|apply tret; auto]|]. intros _ s3 Hj3 _ _.
    destruct (c_end r); [apply tret; auto|apply tthrow; auto].
  - apply cond; intros _; [|apply tret; auto]. destruct (c_end r); [apply t_schedule; auto|apply tthrow; auto].
Qed.
Lemma t_restore os : forall s, J s -> Forall (fun o => handles o s) os -> T (restore_loop g os) s tt'.
Proof.
  induction os as [|o os IH]; cbn [restore_loop]; intros s Hj H; [apply tret; auto|]. inversion H as [|? ? H1 H2]; subst.
  eapply tseq; [apply t_restore_one; auto|]. intros _ s1 Hj1 Hr1 _. apply IH; auto. rewrite Forall_forall in *. intros x Hx. specialize (H2 x Hx). mv.
Qed.
Lemma t_alloc_all rs : forall s, J s -> Forall (fun r => mayk (c_id r)) rs -> T (alloc_all rs) s (fun os s' => Forall (fun o => handles o s') os).
Proof.
  induction rs as [|r rs IH]; cbn [alloc_all]; intros s Hj H; [apply tret; auto|]. inversion H as [|? ? H1 H2]; subst.
  eapply tseq; [apply t_alloc; auto|]. intros o s1 Hj1 Hr1 (E & Ho & Hm). assert (Hh : handles o s1) by (rewrite E; apply new_handles; auto).
  eapply tseq; [apply IH; auto|]. intros os s2 Hj2 Hr2 Hos. cbn beta in Hos. apply tret; auto. constructor; [mv|exact Hos].
Qed.
Lemma t_build s : J s -> T (build_schedule g) s tt'.
Proof.
  intros Hj. unfold build_schedule. eapply tseq; [apply tawait|]. intros _ s1 Hj1 Hr1 _. apply t_get.
  eapply tseq; [apply t_alloc_all; auto|].
  { apply Forall_forall. intros r Hr. apply filter_In in Hr as [Hr Hl]. apply in_map_iff in Hr as ([k r'] & E & Hr). cbn in E. subst r'.
    pose proof (In_aget _ _ _ (proj2 (proj2 (Jwf _ Hj1))) Hr) as Eg. pose proof (proj1 (proj2 (Jwf _ Hj1)) _ _ Eg) as Hid. intros Hc. rewrite Hid in Hc.
    destruct (Jend _ Hj1 _ Hc) as (r2 & E2 & L2). assert (r2 = r) by congruence. subst r2. rewrite L2, eqb_refl in Hl. discriminate. }
  intros os s2 Hj2 Hr2 Hos. cbn beta in Hos. eapply tseq; [apply tawait|]. intros _ s3 Hj3 Hr3 _. apply t_restore; auto.
  rewrite Forall_forall in *. intros o Ho. specialize (Hos o Ho). mv.
Qed.
End WithCfg.
End Gen.
