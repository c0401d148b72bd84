(** Outputs are only ever added. *)
From Verif Require Import Base ModelLabel ModelSTP ModelNRM ModelCalendar ModelState ModelScheduler ModelBackend ProofsBackendWp.
Open Scope Z_scope.

Definition ext (s s' : st) : Prop := exists l, outs s' = outs s ++ l.
Lemma ext_refl s : ext s s.
Proof. exists []. symmetry. apply app_nil_r. Qed.
Lemma ext_trans s s1 s2 : ext s s1 -> ext s1 s2 -> ext s s2.
Proof. intros [l H] [l' H']. exists (l ++ l'). rewrite H', H, app_assoc. reflexivity. Qed.

Inductive grows {A} : prog A -> Prop :=
| gr_ret a : grows (Ret a)
| gr_throw e : grows (Throw e)
| gr_get k : (forall s, grows (k s)) -> grows (Get k)
| gr_upd f k : (forall s, ext s (f s)) -> grows k -> grows (Upd f k)
| gr_await w k : (forall o, grows (k o)) -> grows (Await w k).
Lemma grows_bind {A B} (p : prog A) (f : A -> prog B) : grows p -> (forall a, grows (f a)) -> grows (bind p f).
Proof. induction 1; intros Hf; cbn [bind]; auto; constructor; auto. Qed.
Lemma grows_catch {A} (p : prog A) h : grows p -> (forall e, grows (h e)) -> grows (catch p h).
Proof. induction 1; intros Hf; cbn [catch]; auto; constructor; auto. Qed.
Lemma grows_run {A} (p : prog A) : grows p -> forall e s, ext s (snd (fst (run p e s))).
Proof.
  induction 1 as [a|x|k _ IH|f k Hf _ IH|w k _ IH]; intros e s; cbn [run fst snd]; try apply ext_refl; auto.
  - eapply ext_trans; [apply Hf|apply IH].
  - destruct (next_env e) as [[x dt] e']. specialize (IH (answer w x) e' (tick dt s)). exact IH.
Qed.

Lemma grows_upd f : (forall s, ext s (f s)) -> grows (upd f).
Proof. intros H. constructor; [exact H|constructor]. Qed.
Lemma grows_get : grows get.
Proof. constructor. intros. constructor. Qed.
Lemma grows_await w : grows (await w).
Proof. constructor. intros [e|]; constructor. Qed.
Lemma grows_lift {A} (r : result A) : grows (lift r).
Proof. destruct r; constructor. Qed.
Lemma grows_emits x : grows (emits x).
Proof. apply grows_upd. intros s. exists [x]. reflexivity. Qed.
Create HintDb gr.
Global Hint Resolve grows_get grows_await grows_emits : gr.
Ltac gr := repeat first
  [ solve [auto with gr nocore]
  | match goal with
    | |- grows (bind _ _) => apply grows_bind; [|intros ?]
    | |- grows (catch _ _) => apply grows_catch; [|intros ?]
    | |- grows (upd _) => apply grows_upd; intros ?; exact (ext_refl _)
    | |- grows (lift _) => apply grows_lift
    | |- grows (if ?b then _ else _) => destruct b
    | |- grows (let '(_, _) := ?x in _) => destruct x
    | |- grows (match ?x with _ => _ end) => destruct x
    | |- grows (Ret _) => constructor
    | |- grows (Throw _) => constructor
    | |- grows (Await _ _) => constructor; intros ?
    end ].
Lemma grows_obj o : grows (obj o).
Proof. unfold obj. gr. Qed.
Global Hint Resolve grows_obj : gr.
Lemma grows_modify o f : grows (modify o f).
Proof. unfold modify. gr. Qed.
Lemma grows_save o : grows (save o).
Proof. unfold save. gr. Qed.
Lemma grows_alloc r : grows (alloc r).
Proof. unfold alloc. gr. Qed.
Lemma grows_insert o : grows (insert o).
Proof. unfold insert. gr. Qed.
Global Hint Resolve grows_modify grows_save grows_alloc grows_insert : gr.
Lemma grows_get_connection cid : grows (get_connection cid).
Proof. unfold get_connection. gr. Qed.
Lemma grows_state_change x o : grows (state_change x o).
Proof. unfold state_change. gr. Qed.
Lemma grows_schedule cid t k : grows (schedule cid t k).
Proof. unfold schedule. gr. Qed.
Lemma grows_cancel cid : grows (cancel cid).
Proof. unfold cancel. gr. Qed.
Lemma grows_remove r b e : grows (remove_reservation r b e).
Proof. unfold remove_reservation. gr. Qed.
Lemma grows_add r b e : grows (add_reservation r b e).
Proof. unfold add_reservation. gr. Qed.
Global Hint Resolve grows_get_connection grows_state_change grows_schedule grows_cancel grows_remove grows_add : gr.
Lemma grows_teardown g o : grows (do_teardown g o).
Proof. unfold do_teardown. gr. Qed.
Lemma grows_remove_both g r : grows (remove_both g r).
Proof. unfold remove_both. gr. Qed.
Global Hint Resolve grows_teardown grows_remove_both : gr.
Lemma grows_free g o : grows (do_free g o).
Proof. unfold do_free. gr. Qed.
Global Hint Resolve grows_free : gr.
Lemma grows_endtime g o : grows (do_endtime g o).
Proof. unfold do_endtime. gr. Qed.
Global Hint Resolve grows_endtime : gr.
Lemma grows_rollback g o : grows (do_rollback g o).
Proof. unfold do_rollback. gr. Qed.
Lemma grows_activate g o : grows (do_activate g o).
Proof. unfold do_activate. gr. Qed.
Global Hint Resolve grows_rollback grows_activate : gr.
Lemma grows_task g t : grows (task_prog g t).
Proof. destruct t; cbn [task_prog]; unfold do_reserve, do_timeout; gr. Qed.
Lemma grows_open g h cid : grows (open_connection g h cid).
Proof. unfold open_connection. gr. Qed.
Global Hint Resolve grows_open : gr.
Lemma grows_unused q : grows (check_unused q).
Proof. unfold check_unused. gr. Qed.
Global Hint Resolve grows_unused : gr.
Lemma grows_op g o : grows (op_prog g o).
Proof. destruct o; cbn [op_prog]; unfold reserve, reserve_commit, reserve_abort, provision, release, terminate; gr. Qed.
Lemma grows_restore_one g o : grows (restore_one g o).
Proof. unfold restore_one. gr. Qed.
Lemma grows_restore g os : grows (restore_loop g os).
Proof. induction os as [|o os IH]; cbn [restore_loop]; [constructor|]. apply grows_bind; [apply grows_restore_one|intros _; exact IH]. Qed.
Lemma grows_alloc_all rs : grows (alloc_all rs).
Proof. induction rs as [|r rs IH]; cbn [alloc_all]; [constructor|]. gr. Qed.
Global Hint Resolve grows_restore grows_alloc_all : gr.
Lemma grows_build g : grows (build_schedule g).
Proof. unfold build_schedule. gr. Qed.

Lemma tasks_ext g ts : forall e s, ext s (fst (run_tasks g ts e s)).
Proof.
  induction ts as [|t ts IH]; intros e s; cbn [run_tasks]; [apply ext_refl|].
  pose proof (grows_run _ (grows_task g t) e s) as H. destruct (run (task_prog g t) e s) as [[r s'] e']. eapply ext_trans; [exact H|apply IH].
Qed.
Lemma run_op_ext {A} g (p : prog A) e s : grows p -> ext s (snd (run_op g p e s)).
Proof.
  intros H. unfold run_op. pose proof (grows_run p H e s) as H1. destruct (run p e s) as [[r s1] e1].
  pose proof (tasks_ext g (ready s1) e1 (set_ready [] s1)) as H2. destruct (run_tasks g (ready s1) e1 (set_ready [] s1)) as [s2 e2].
  eapply ext_trans; [exact H1|exact H2].
Qed.
Lemma step_ext g s oe : ext s (snd (serial_step g s oe)).
Proof.
  destruct oe as [o e]. destruct o; try (apply run_op_ext; exact (grows_op g (Reserve h q)) || exact (grows_op g (Commit h cid)) || exact (grows_op g (Abort h cid))
    || exact (grows_op g (Provision h cid)) || exact (grows_op g (Release h cid)) || exact (grows_op g (Terminate h cid))); cbn [serial_step].
  - destruct (aget id (s_queue (sch s))) as [due|]; [|apply ext_refl]. destruct (aget id (calls s)) as [t|]; [|apply ext_refl].
    destruct (due <=? now s); [|apply ext_refl].
    pose proof (run_op_ext g (task_prog g t) e (set_sch (sched_step (sch s) (SFire id)) s) (grows_task g t)) as H.
    destruct (run_op g (task_prog g t) e _) as [x s']. exact H.
  - exact (ext_refl s).
  - pose proof (run_op_ext g (build_schedule g) e (reboot s) (grows_build g)) as H.
    destruct (run_op g (build_schedule g) e (reboot s)) as [x s']. exact H.
Qed.
