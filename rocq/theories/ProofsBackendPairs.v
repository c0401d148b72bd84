(** Every teardown the device is told of is answered before anything else is
    put out. *)
From Verif Require Import Base ModelLabel ModelSTP ModelNRM ModelCalendar ModelState ModelScheduler ModelBackend ProofsBackendWp SpecDeployment.
Open Scope Z_scope.

Lemma answered_app l l' : answered l -> answered l' -> answered (l ++ l').
Proof. induction 1; intros H'; cbn [app]; auto; [apply an_plain|apply an_pair]; auto. Qed.
Definition pext (s s' : st) : Prop := exists l, answered l /\ outs s' = outs s ++ l.
Lemma pext_refl s : pext s s.
Proof. exists []. split; [constructor|]. symmetry. apply app_nil_r. Qed.
Lemma pext_trans s s1 s2 : pext s s1 -> pext s1 s2 -> pext s s2.
Proof. intros (l & A & H) (l' & A' & H'). exists (l ++ l'). split; [apply answered_app; assumption|]. rewrite H', H, app_assoc. reflexivity. Qed.

Inductive pairs {A} : prog A -> Prop :=
| pr_ret a : pairs (Ret a)
| pr_throw e : pairs (Throw e)
| pr_get k : (forall s, pairs (k s)) -> pairs (Get k)
| pr_upd f k : (forall s, pext s (f s)) -> pairs k -> pairs (Upd f k)
| pr_await w k : (forall o, pairs (k o)) -> pairs (Await w k)
| pr_tear cid a b w k (ok : option exn -> bool) rest :
    (forall o, k o = Upd (emit (OTeardownDone cid (ok o))) (rest o)) -> (forall o, pairs (rest o)) ->
    pairs (Upd (emit (OTeardown cid a b)) (Await w k)).
Lemma pairs_bind {A B} (p : prog A) (f : A -> prog B) : pairs p -> (forall a, pairs (f a)) -> pairs (bind p f).
Proof.
  induction 1 as [| | | | |cid a b w k ok rest Hk _ IH]; intros Hf; cbn [bind]; auto; try (constructor; auto; fail).
  eapply (pr_tear cid a b w _ ok (fun o => bind (rest o) f)); [|auto]. intros o. rewrite Hk. reflexivity.
Qed.
Lemma pairs_catch {A} (p : prog A) h : pairs p -> (forall e, pairs (h e)) -> pairs (catch p h).
Proof.
  induction 1 as [| | | | |cid a b w k ok rest Hk _ IH]; intros Hf; cbn [catch]; auto; try (constructor; auto; fail).
  eapply (pr_tear cid a b w _ ok (fun o => catch (rest o) h)); [|auto]. intros o. rewrite Hk. reflexivity.
Qed.
Lemma pairs_run {A} (p : prog A) : pairs p -> forall e s, pext s (snd (fst (run p e s))).
Proof.
  induction 1 as [a|x|k _ IH|f k Hf _ IH|w k _ IH|cid a b w k ok rest Hk _ IH]; intros e s; cbn [run fst snd]; try apply pext_refl; auto.
  - eapply pext_trans; [apply Hf|apply IH].
  - destruct (next_env e) as [[x dt] e']. specialize (IH (answer w x) e' (tick dt s)). exact IH.
  - destruct (next_env e) as [[x dt] e']. rewrite Hk. cbn [run].
    match goal with |- context [run (rest ?y) ?e ?z] => specialize (IH y e z); set (z0 := z) in * end.
    eapply pext_trans; [|exact IH]. exists [OTeardown cid a b; OTeardownDone cid (ok (answer w x))]. split; [apply an_pair, an_nil|].
    unfold z0. cbn. rewrite <- app_assoc. reflexivity.
Qed.

Lemma pairs_upd f : (forall s, pext s (f s)) -> pairs (upd f).
Proof. intros H. constructor; [exact H|constructor]. Qed.
Lemma pairs_get : pairs get.
Proof. constructor. intros. constructor. Qed.
Lemma pairs_await w : pairs (await w).
Proof. constructor. intros [e|]; constructor. Qed.
Lemma pairs_lift {A} (r : result A) : pairs (lift r).
Proof. destruct r; constructor. Qed.
Lemma pairs_emits x : plain_output x -> pairs (emits x).
Proof. intros H. apply pairs_upd. intros s. exists [x]. split; [apply an_plain; [exact H|apply an_nil]|reflexivity]. Qed.
Create HintDb pr.
Global Hint Resolve pairs_get pairs_await : pr.
Ltac pr := repeat first
  [ solve [auto with pr nocore]
  | match goal with
    | |- pairs (bind _ _) => apply pairs_bind; [|intros ?]
    | |- pairs (catch _ _) => apply pairs_catch; [|intros ?]
    | |- pairs (upd _) => apply pairs_upd; intros ?; exact (pext_refl _)
    | |- pairs (emits _) => apply pairs_emits; exact Logic.I
    | |- pairs (lift _) => apply pairs_lift
    | |- pairs (if ?b then _ else _) => destruct b
    | |- pairs (let '(_, _) := ?x in _) => destruct x
    | |- pairs (match ?x with _ => _ end) => destruct x
    | |- pairs (Ret _) => constructor
    | |- pairs (Throw _) => constructor
    | |- pairs (Await _ _) => constructor; intros ?
    end ].
Lemma pairs_obj o : pairs (obj o).
Proof. unfold obj. pr. Qed.
Global Hint Resolve pairs_obj : pr.
Lemma pairs_modify o f : pairs (modify o f).
Proof. unfold modify. pr. Qed.
Lemma pairs_save o : pairs (save o).
Proof. unfold save. pr. Qed.
Lemma pairs_alloc r : pairs (alloc r).
Proof. unfold alloc. pr. Qed.
Lemma pairs_insert o : pairs (insert o).
Proof. unfold insert. pr. Qed.
Global Hint Resolve pairs_modify pairs_save pairs_alloc pairs_insert : pr.
Lemma pairs_get_connection cid : pairs (get_connection cid).
Proof. unfold get_connection. pr. Qed.
Lemma pairs_state_change x o : pairs (state_change x o).
Proof. unfold state_change. pr. Qed.
Lemma pairs_schedule cid t k : pairs (schedule cid t k).
Proof. unfold schedule. pr. Qed.
Lemma pairs_cancel cid : pairs (cancel cid).
Proof. unfold cancel. pr. Qed.
Lemma pairs_remove r b e : pairs (remove_reservation r b e).
Proof. unfold remove_reservation. pr. Qed.
Lemma pairs_add r b e : pairs (add_reservation r b e).
Proof. unfold add_reservation. pr. Qed.
Global Hint Resolve pairs_get_connection pairs_state_change pairs_schedule pairs_cancel pairs_remove pairs_add : pr.
Lemma pairs_teardown g o : pairs (do_teardown g o).
Proof.
  unfold do_teardown. apply pairs_bind; [apply pairs_obj|]. intros r. unfold emits at 1, upd at 1. cbn [bind].
  eapply (pr_tear _ _ _ WDevice _ (fun res => match res with None => true | Some _ => false end)); [intros res; reflexivity|]. intros res. cbn [bind]. pr.
Qed.
Lemma pairs_remove_both g r : pairs (remove_both g r).
Proof. unfold remove_both. pr. Qed.
Global Hint Resolve pairs_teardown pairs_remove_both : pr.
Lemma pairs_free g o : pairs (do_free g o).
Proof. unfold do_free. pr. Qed.
Global Hint Resolve pairs_free : pr.
Lemma pairs_endtime g o : pairs (do_endtime g o).
Proof. unfold do_endtime. pr. Qed.
Global Hint Resolve pairs_endtime : pr.
Lemma pairs_rollback g o : pairs (do_rollback g o).
Proof. unfold do_rollback. pr. Qed.
Lemma pairs_activate g o : pairs (do_activate g o).
Proof. unfold do_activate. pr. Qed.
Global Hint Resolve pairs_rollback pairs_activate : pr.
Lemma pairs_task g t : pairs (task_prog g t).
Proof. destruct t; cbn [task_prog]; unfold do_reserve, do_timeout; pr. Qed.
Lemma pairs_open g h cid : pairs (open_connection g h cid).
Proof. unfold open_connection. pr. Qed.
Global Hint Resolve pairs_open : pr.
Lemma pairs_unused q : pairs (check_unused q).
Proof. unfold check_unused. pr. Qed.
Global Hint Resolve pairs_unused : pr.
Lemma pairs_op g o : pairs (op_prog g o).
Proof. destruct o; cbn [op_prog]; unfold reserve, reserve_commit, reserve_abort, provision, release, terminate; pr. Qed.
Lemma pairs_restore_one g o : pairs (restore_one g o).
Proof. unfold restore_one. pr. Qed.
Lemma pairs_restore g os : pairs (restore_loop g os).
Proof. induction os as [|o os IH]; cbn [restore_loop]; [constructor|]. apply pairs_bind; [apply pairs_restore_one|intros _; exact IH]. Qed.
Lemma pairs_alloc_all rs : pairs (alloc_all rs).
Proof. induction rs as [|r rs IH]; cbn [alloc_all]; [constructor|]. pr. Qed.
Global Hint Resolve pairs_restore pairs_alloc_all : pr.
Lemma pairs_build g : pairs (build_schedule g).
Proof. unfold build_schedule. pr. Qed.

Lemma tasks_pext g ts : forall e s, pext s (fst (run_tasks g ts e s)).
Proof.
  induction ts as [|t ts IH]; intros e s; cbn [run_tasks]; [apply pext_refl|].
  pose proof (pairs_run _ (pairs_task g t) e s) as H. destruct (run (task_prog g t) e s) as [[r s'] e']. eapply pext_trans; [exact H|apply IH].
Qed.
Lemma run_op_pext {A} g (p : prog A) e s : pairs p -> pext s (snd (run_op g p e s)).
Proof.
  intros H. unfold run_op. pose proof (pairs_run p H e s) as H1. destruct (run p e s) as [[r s1] e1].
  pose proof (tasks_pext g (ready s1) e1 (set_ready [] s1)) as H2. destruct (run_tasks g (ready s1) e1 (set_ready [] s1)) as [s2 e2].
  eapply pext_trans; [exact H1|exact H2].
Qed.
Lemma step_pext g s oe : pext s (snd (serial_step g s oe)).
Proof.
  destruct oe as [o e]. destruct o; try (apply run_op_pext; exact (pairs_op g (Reserve h q)) || exact (pairs_op g (Commit h cid)) || exact (pairs_op g (Abort h cid))
    || exact (pairs_op g (Provision h cid)) || exact (pairs_op g (Release h cid)) || exact (pairs_op g (Terminate h cid))); cbn [serial_step].
  - destruct (aget id (s_queue (sch s))) as [due|]; [|apply pext_refl]. destruct (aget id (calls s)) as [t|]; [|apply pext_refl].
    destruct (due <=? now s); [|apply pext_refl].
    pose proof (run_op_pext g (task_prog g t) e (set_sch (sched_step (sch s) (SFire id)) s) (pairs_task g t)) as H.
    destruct (run_op g (task_prog g t) e _) as [x s']. exact H.
  - exact (pext_refl s).
  - pose proof (run_op_pext g (build_schedule g) e (reboot s) (pairs_build g)) as H.
    destruct (run_op g (build_schedule g) e (reboot s)) as [x s']. exact H.
Qed.

Lemma run_answered g t l : answered (outs (serial_run g (start t) l)).
Proof.
  assert (G : forall s, pext s (serial_run g s l)).
  { induction l as [|oe l IH]; intros s; [apply pext_refl|]. cbn [serial_run fold_left]. eapply pext_trans; [apply step_pext|apply IH]. }
  destruct (G (start t)) as (x & A & ->). exact A.
Qed.
