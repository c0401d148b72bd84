(** The ports, labels and times of a reservation stay as they are, in every
    interleaving; and links are set up and torn down as they say. *)
From Verif Require Import Base BaseProofs ModelLabel ModelSTP ModelAuthz ModelNRM ModelCalendar ModelState ModelScheduler ModelBackend ModelBackendConc SpecBackend SpecBackendConc
  ProofsBackendWp ProofsBackendFoc ProofsBackendAdmission ProofsConcWp ProofsConcGen ProofsConcEnd ProofsConcSetup.
Open Scope Z_scope.

Section Kept.
Variables (g : cfg) (P : row -> Prop).
Hypothesis Pcore : forall r r', core r' = core r -> P r -> P r'.
Definition just (x : output) : Prop :=
  match x with
  | OSetup k a b | OTeardown k a b => exists r, P r /\ c_id r = k /\ a = get_target g (c_sport r) (c_slabel r) /\ b = get_target g (c_dport r) (c_dlabel r)
  | _ => True
  end.
Record im (s : st) : Prop := {
  i_wf : wf s;
  i_db : forall k r, aget k (db s) = Some r -> P r;
  i_heap : forall o r, aget o (heap s) = Some r -> P r;
  i_out : Forall just (outs s) }.
Definition gim (s s' : st) : Prop := evs s s' /\ (im s -> im s').
Lemma via s s' : guar None None s s' -> incl (outs s) (outs s') ->
  (im s -> (forall k r, aget k (db s') = Some r -> P r) /\ (forall o r, aget o (heap s') = Some r -> P r) /\ Forall just (outs s')) -> gim s s'.
Proof.
  intros [E A] Hi H. split; [split; [exact E|exact Hi]|]. intros I. destruct (H I) as (H1 & H2 & H3). destruct I as [I1 I2 I3 I4]. split; auto. apply (E I1).
Qed.
Ltac three := (split; [auto|split; auto]).
Lemma q_put o r r' s : aget o (heap s) = Some r -> core r' = core r -> gim s (put_obj o r' s).
Proof.
  intros E C. apply via; [eapply g_put; eauto; eapply ex_handles; eauto|apply incl_refl|]. intros [I1 I2 I3 I4]. cbn. three.
  intros o' x. rewrite aget_aset. destruct (eqb_ok o' o) as [E'|N]; [intros [= <-]; eapply Pcore; eauto|apply I3].
Qed.
Lemma q_db o r s : aget o (heap s) = Some r -> gim s (set_db (aset (c_id r) r (db s)) s).
Proof.
  intros E. apply via; [eapply g_db; eauto; eapply ex_handles; eauto|apply incl_refl|]. intros [I1 I2 I3 I4]. cbn. three.
  intros k x. rewrite aget_aset. destruct (eqb_ok k (c_id r)) as [E'|N]; [intros [= <-]; eapply I3; exact E|apply I2].
Qed.
Lemma q_cal c s : gim s (set_cal c s).
Proof. apply via; [apply g_cal|apply incl_refl|]. intros [I1 I2 I3 I4]. cbn. three. Qed.
Lemma q_sch x s : s_now (sch s) <= s_now x -> (forall id, ahas id (s_queue x) = true -> ahas id (s_queue (sch s)) = true) -> gim s (set_sch x s).
Proof. intros Ht Hq. apply via; [apply g_sch; auto|apply incl_refl|]. intros [I1 I2 I3 I4]. cbn. three. Qed.
Lemma q_schedule cid t k s x : aget (task_obj k) (heap s) <> None -> schedule_call cid t (sch s) = Ok x ->
  gim s (mkSt (db s) (heap s) (nobj s) (cal s) x (aset (s_next (sch s)) k (calls s)) (ready s) (outs s)).
Proof.
  intros Hn E.
  assert (Hh : handles None None (task_obj k) s) by (destruct (aget (task_obj k) (heap s)) eqn:Eo; [eapply ex_handles; eauto|congruence]).
  pose proof (g_schedule None None cid t k s x Hh E) as Gs. apply via; [exact Gs|apply incl_refl|]. intros [I1 I2 I3 I4]. cbn. three.
Qed.
Lemma q_emit x s : just x -> gim s (emit x s).
Proof.
  intros H. assert (Hi : incl (outs s) (outs s ++ [x])) by (apply incl_appl, incl_refl). apply via; [apply g_emit; discriminate|exact Hi|]. intros [I1 I2 I3 I4]. cbn. three.
  apply Forall_app. split; auto.
Qed.
Lemma q_push t s : aget (task_obj t) (heap s) <> None -> gim s (push t s).
Proof.
  intros Hn. assert (Hh : handles None None (task_obj t) s) by (destruct (aget (task_obj t) (heap s)) eqn:Eo; [eapply ex_handles; eauto|congruence]).
  apply via; [apply g_push; exact Hh|apply incl_refl|]. intros [I1 I2 I3 I4]. cbn. three.
Qed.
Lemma q_new r s : P r -> gim s (new_obj r s).
Proof.
  intros H. apply via; [apply g_new|apply incl_refl|]. intros [I1 I2 I3 I4]. cbn. three.
  intros o x. rewrite aget_aset. destruct (eqb_ok o (nobj s)) as [E'|N]; [intros [= <-]; exact H|apply I3].
Qed.

(** * The programs *)
Local Notation T := (triple im evs gim).
Local Notation tt' := (fun _ _ => True).
Lemma gim_ev s s' : gim s s' -> evs s s'. Proof. intros [H _]. exact H. Qed.
Lemma gim_im s s' : gim s s' -> im s -> im s'. Proof. intros [_ H]. exact H. Qed.
Local Hint Resolve evs_refl evs_trans gim_ev gim_im : core.
Lemma tseq1 {A B} (p : prog A) (f : A -> prog B) s Q Q' : T p s Q ->
  (forall a s', im s' -> evs s s' -> Q a s' -> T (f a) s' Q') -> T (bind p f) s Q'.
Proof. apply t_seq; eauto. Qed.
Lemma tupd1 f s (Q : unit -> st -> Prop) : im s -> gim s (f s) -> Q tt (f s) -> T (upd f) s Q.
Proof. intros. apply t_upd; eauto. Qed.
Lemma tobj1 o s : im s -> T (obj o) s (fun r s' => s' = s /\ aget o (heap s) = Some r).
Proof. intros. apply t_obj; eauto. Qed.
Lemma tret1 {A} (a : A) s (Q : A -> st -> Prop) : im s -> Q a s -> T (Ret a) s Q.
Proof. intros. apply t_ret; eauto. Qed.
Lemma tthrow1 {A} e s (Q : A -> st -> Prop) : im s -> T (Throw e) s Q.
Proof. intros. apply t_throw; eauto. Qed.
Lemma tawait1 w s : T (await w) s tt'.
Proof. apply t_await; eauto. Qed.
Lemma tAwait1 {A} w (k : option exn -> prog A) s Q : (forall x s', evs s s' -> im s' -> T (k x) s' Q) -> T (Await w k) s Q.
Proof. apply t_Await; eauto. Qed.
Lemma tcatch1 {A} (p : prog A) h s Q : T p s Q -> (forall e s', im s' -> evs s s' -> T (h e) s' Q) -> T (catch p h) s Q.
Proof. apply t_catch; eauto. Qed.
Lemma temit1 x s : im s -> just x -> T (emits x) s tt'.
Proof. intros Hj H. apply tupd1; auto. apply q_emit. exact H. Qed.
Lemma temit2 x s : im s -> just x -> T (emits x) s (fun _ s' => In x (outs s')).
Proof. intros Hj H. apply tupd1; auto; [apply q_emit; exact H|]. cbn. apply in_or_app. right. left. reflexivity. Qed.
Lemma cond1 {A} (b : bool) (p q : prog A) s Q : (b = true -> T p s Q) -> (b = false -> T q s Q) -> T (if b then p else q) s Q.
Proof. destruct b; auto. Qed.

Lemma s_modify o f s : im s -> (forall r, core (f r) = core r) -> T (modify o f) s tt'.
Proof.
  intros Hj Hf. unfold modify. eapply tseq1; [apply tobj1; auto|]. intros r s' Hj' Hr [-> E]. apply tupd1; auto. eapply q_put; eauto.
Qed.
Lemma s_save o s : im s -> T (save o) s tt'.
Proof.
  intros Hj. unfold save. eapply tseq1; [apply tawait1|]. intros _ s1 Hj1 Hr1 _.
  eapply tseq1; [apply tobj1; auto|]. intros r s2 Hj2 Hr2 [-> E].
  eapply tseq1; [apply (tupd1 _ _ tt'); auto; eapply q_db; eauto|]. intros _ s3 Hj3 Hr3 _. apply tawait1.
Qed.
Lemma s_state x o s : im s -> T (state_change x o) s tt'.
Proof.
  intros Hj. unfold state_change. eapply tseq1; [apply tobj1; auto|]. intros r s1 Hj1 Hr1 [-> E].
  destruct (op_mem x (c_states r)) as [c e] eqn:Eo. eapply tseq1; [apply (tupd1 _ _ tt'); auto; eapply q_put; eauto|].
  intros _ s2 Hj2 Hr2 _. destruct e; [apply tthrow1; auto|]. apply s_save; auto.
Qed.
Lemma s_cancel cid s : im s -> T (cancel cid) s tt'.
Proof. intros Hj. apply tupd1; auto. apply q_sch; [rewrite cancel_now; lia|]. apply cancel_queue. Qed.
Lemma s_schedule cid t k s : im s -> aget (task_obj k) (heap s) <> None -> T (schedule cid t k) s tt'.
Proof.
  intros Hj Hn. unfold schedule. apply t_get. destruct (schedule_call cid t (sch s)) as [x|e] eqn:E; [|apply tthrow1; auto].
  apply tupd1; auto. eapply q_schedule; eauto.
Qed.
Lemma s_remove res b e s : im s -> T (remove_reservation res b e) s tt'.
Proof.
  intros Hj. unfold remove_reservation. apply t_get. destruct (cal_remove _ _ _ _); [|apply tthrow1; auto]. apply tupd1; auto. apply q_cal.
Qed.
Lemma s_add res b e s : im s -> T (add_reservation res b e) s tt'.
Proof. intros Hj. apply tupd1; auto. apply q_cal. Qed.
Lemma s_remove_both r s : im s -> T (remove_both g r) s tt'.
Proof. intros Hj. eapply tseq1; [apply s_remove; auto|]. intros _ s1 Hj1 _ _. apply s_remove; auto. Qed.
Lemma s_alloc r s : im s -> P r -> T (alloc r) s (fun o s' => aget o (heap s') = Some r).
Proof.
  intros Hj Hg. unfold alloc. apply t_get. eapply tseq1; [apply (tupd1 _ _ (fun _ s' => s' = new_obj r s)); auto; apply q_new; exact Hg|].
  intros _ s1 Hj1 Hr1 ->. apply tret1; auto. cbn. apply aget_aset_eq.
Qed.
(** the object exists *)
Definition here (o : nat) (s : st) : Prop := aget o (heap s) <> None.
Lemma here_ev o s s' : im s -> evs s s' -> here o s -> here o s'.
Proof.
  intros Hj E H. unfold here in *. destruct (aget o (heap s)) eqn:Eo; [|congruence]. destruct (proj1 E (i_wf _ Hj)) as (_ & _ & _ & C). destruct (C _ _ Eo) as (r' & -> & _). discriminate.
Qed.
Ltac go s := intros ? s ? ? ?; cbn beta in *;
  try match goal with [Hh : here ?o ?a, Hj : im ?a, Hr : evs ?a ?b |- _] => pose proof (here_ev o a b Hj Hr Hh) end.
Ltac hmv := match goal with [H : here ?o ?a, Hj : im ?a, Hr : evs ?a ?b |- here ?o ?b] => exact (here_ev o a b Hj Hr H) end.
Ltac ob r E := eapply tseq1; [apply tobj1; auto|]; intros r ? _ _ [-> E].
Lemma here_row o s r : aget o (heap s) = Some r -> here o s. Proof. unfold here. congruence. Qed.
Ltac ne := first [assumption|exact I|discriminate|solve [cbn; auto]|solve [unfold here in *; cbn; auto]].

Lemma s_set_active o b s : im s -> T (modify o (set_active b)) s tt'.
Proof. intros Hj. apply s_modify; auto. Qed.
Lemma s_teardown o s : im s -> T (do_teardown g o) s tt'.
Proof.
  intros Hj. unfold do_teardown. ob r E. eapply tseq1; [apply temit1; auto; exists r; split; [eapply i_heap; eauto|auto]|]. go s2. apply tAwait1. intros res s3 Hr3 Hj3.
  eapply tseq1; [apply temit1; auto; exact I|]. go s4. eapply tseq1; [apply s_set_active; auto|]. go s5. destruct res.
  - eapply tseq1; [apply s_save; auto|]. go s6. apply temit1; auto; exact I.
  - apply tcatch1; [|intros; apply tret1; auto]. eapply tseq1; [apply s_save; auto|]. go s6. apply temit1; auto; exact I.
Qed.
Lemma s_free o s : im s -> T (do_free g o) s tt'.
Proof.
  intros Hj. unfold do_free. ob r E. apply cond1; intros _.
  - eapply tseq1; [apply s_teardown; auto|]. go s2. ob r' E'. apply s_remove_both; auto.
  - apply cond1; intros _; [apply s_remove_both; auto|apply tret1; auto].
Qed.
Lemma s_endtime o s : im s -> T (do_endtime g o) s tt'.
Proof.
  intros Hj. unfold do_endtime. ob r E. apply cond1; intros _; [apply tthrow1; auto|]. eapply tseq1; [apply s_cancel; auto|]. go s2.
  eapply tseq1; [apply s_state; auto|]. go s3. apply s_free; auto.
Qed.
Lemma s_rollback o s : im s -> T (do_rollback g o) s tt'.
Proof.
  intros Hj. unfold do_rollback. apply tcatch1; [|intros; apply tret1; auto].
  eapply tseq1; [apply s_state; auto|]. go s1. ob r E. pose proof (here_row _ _ _ E) as Hh.
  eapply tseq1; [apply s_cancel; auto|]. go s2. eapply tseq1; [apply s_remove_both; auto|]. go s3.
  eapply tseq1; [apply s_state; auto|]. go s4. ob r' E'. apply t_get. destruct (c_end r'); [|apply tret1; auto].
  apply cond1; intros _; [apply s_endtime; auto|apply s_schedule; ne].
Qed.
Lemma s_timeout o s : im s -> T (do_timeout g o) s tt'.
Proof.
  intros Hj. unfold do_timeout. apply tcatch1; [|intros; apply tret1; auto].
  eapply tseq1; [apply s_state; auto|]. go s1. eapply tseq1; [apply s_rollback; auto|]. go s2.
  eapply tseq1; [instantiate (1 := fun _ s' => s' = s2); apply cond1; intros _; [apply tthrow1; auto|apply tret1; auto]|]. intros ? ? _ _ ->.
  ob r' E'. apply temit1; auto; exact I.
Qed.
Lemma s_activate o s : im s -> T (do_activate g o) s tt'.
Proof.
  intros Hj. unfold do_activate. ob r E. pose proof (here_row _ _ _ E) as Hh.
  eapply tseq1; [apply temit1; auto; exists r; split; [eapply i_heap; eauto|auto]|].
  go s2. apply tAwait1. intros res s3 Hr3 Hj3. assert (Hh3 : here o s3) by hmv. destruct res.
  - eapply tseq1; [apply temit1; auto; exact I|]. go s4. eapply tseq1; [apply s_set_active; auto|]. go s5. eapply tseq1; [apply s_save; auto|]. go s6. apply temit1; auto; exact I.
  - eapply tseq1; [apply temit1; auto; exact I|]. intros ? s4 Hj4 Hr4 _. assert (Hh4 : here o s4) by hmv.
    apply tcatch1; [|intros; apply tret1; auto]. eapply tseq1; [apply s_set_active; auto|]. intros ? s5 Hj5 Hr5 _. assert (Hh5 : here o s5) by hmv.
    eapply tseq1; [apply s_save; auto|]. intros ? s6 Hj6 Hr6 _. assert (Hh6 : here o s6) by hmv.
    apply t_get. eapply tseq1; [instantiate (1 := tt'); destruct (c_end r); [apply s_schedule; ne|apply tret1; auto]|]. intros ? s7 Hj7 Hr7 _. apply temit1; auto; exact I.
Qed.
Lemma s_reserve_task o c s : im s -> T (do_reserve o c) s tt'.
Proof.
  intros Hj. unfold do_reserve. eapply tseq1; [apply s_state; auto|]. intros ? s1 Hj1 Hr1 _.
  ob r E. pose proof (here_row _ _ _ E) as Hh. apply t_get.
  eapply tseq1; [instantiate (1 := tt'); apply cond1; intros _; [apply s_cancel; auto|apply tret1; auto]|]. go s2.
  eapply tseq1; [apply s_schedule; ne|]. go s3. eapply tseq1; [apply temit1; auto; exact I|]. go s4. apply tawait1.
Qed.
Lemma s_task t s : im s -> T (task_prog g t) s tt'.
Proof. destruct t; cbn [task_prog]; intros Hj; [apply s_reserve_task|apply s_timeout|apply s_activate|apply s_endtime]; auto. Qed.

Lemma s_get_connection cid s : im s -> T (get_connection cid) s (fun o s' => exists r, aget o (heap s') = Some r /\ c_id r = cid).
Proof.
  intros Hj. unfold get_connection. eapply tseq1; [apply tawait1|]. intros _ s1 Hj1 Hr1 _. apply t_get.
  destruct (aget cid (db s1)) as [r|] eqn:E.
  - eapply tseq1; [apply s_alloc; auto; eapply i_db; eauto|]. intros o s2 Hj2 Hr2 Ho. cbn beta in Ho. eapply tseq1; [apply tawait1|]. intros _ s3 Hj3 Hr3 _.
    apply tret1; auto. destruct (proj1 Hr3 (i_wf _ Hj2)) as (_ & _ & _ & C). destruct (C _ _ Ho) as (r' & E1 & E2). exists r'. split; [exact E1|].
    apply core_fields in E2 as (-> & _). exact (proj1 (proj2 (i_wf _ Hj1)) _ _ E).
  - eapply tseq1; [apply tawait1|]. intros. apply tthrow1; auto.
Qed.
Lemma s_open h cid s : im s -> T (open_connection g h cid) s (fun o s' => exists r, aget o (heap s') = Some r /\ c_id r = cid /\ authorize g (c_sport r) (c_dport r) h = Ok tt).
Proof.
  intros Hj. unfold open_connection. eapply tseq1; [apply s_get_connection; auto|]. intros o s1 Hj1 Hr1 (r0 & E0 & H0).
  ob r E. assert (r = r0) by congruence. subst r0. eapply tseq1; [apply t_lift; auto|]. intros [] ? _ _ [-> Ha]. apply tret1; auto. eauto.
Qed.
Ltac opened s Hj o r E Hid Ha := eapply tseq1; [apply s_open; auto|]; intros o s Hj ? Hx; cbn beta in Hx; destruct Hx as (r & E & Hid & Ha);
  let r' := fresh in let E' := fresh in eapply tseq1; [apply tobj1; auto|]; intros r' ? _ _ [-> E']; assert (r' = r) by congruence; subst r'; clear E';
  pose proof (here_row _ _ _ E) as Hh.
Lemma s_commit h cid s : im s -> T (reserve_commit g h cid) s tt'.
Proof.
  intros Hj. unfold reserve_commit. opened s1 Hj1 o r E Hid Ha. apply cond1; intros _; [apply tthrow1; auto|].
  eapply tseq1; [apply s_modify; auto|].
  go s2. eapply tseq1; [apply s_state; auto|]. go s3. eapply tseq1; [apply s_cancel; auto|]. go s4.
  eapply tseq1; [instantiate (1 := tt'); destruct (c_end r); [apply s_schedule; ne|apply tret1; auto]|]. go s5.
  eapply tseq1; [apply temit1; auto; exact I|]. go s6. eapply tseq1; [apply tawait1|]. intros. apply tret1; auto.
Qed.
Lemma s_abort h cid s : im s -> T (reserve_abort g h cid) s tt'.
Proof.
  intros Hj. unfold reserve_abort. opened s1 Hj1 o r E Hid Ha. apply cond1; intros _; [apply tthrow1; auto|].
  eapply tseq1; [apply s_rollback; auto|]. go s2. eapply tseq1; [apply temit1; auto; exact I|]. intros. apply tret1; auto.
Qed.
Lemma s_provision h cid s : im s -> T (provision g h cid) s tt'.
Proof.
  intros Hj. unfold provision. opened s1 Hj1 o r E Hid Ha. apply cond1; intros Hal; [apply tthrow1; auto|].
  do 2 (apply cond1; intros _; [apply tthrow1; auto|]). apply t_get. apply cond1; intros Hen; [apply tthrow1; auto|].
  eapply tseq1; [apply s_state; auto|]. go s2. eapply tseq1; [apply s_cancel; auto|]. go s3.
  eapply tseq1; [instantiate (1 := tt'); apply cond1; intros _; [apply tupd1; auto; apply q_push; ne|destruct (c_start r); [apply s_schedule; ne|apply tret1; auto]]|]. go s4.
  eapply tseq1; [apply s_state; auto|]. go s5. eapply tseq1; [apply temit1; auto; exact I|]. intros. apply tret1; auto.
Qed.
Lemma s_release h cid s : im s -> T (release g h cid) s tt'.
Proof.
  intros Hj. unfold release. opened s1 Hj1 o r E Hid Ha. apply cond1; intros _; [apply tthrow1; auto|].
  eapply tseq1; [apply s_state; auto|]. go s2. eapply tseq1; [apply s_cancel; auto|]. go s3. ob r' E'.
  eapply tseq1; [instantiate (1 := tt'); apply cond1; intros _; [apply tcatch1; [apply s_teardown; auto|intros; apply tret1; auto]|apply tret1; auto]|]. go s4.
  eapply tseq1; [instantiate (1 := tt'); destruct (c_end r'); [apply s_schedule; ne|apply tret1; auto]|]. go s5.
  eapply tseq1; [apply s_state; auto|]. go s6. eapply tseq1; [apply temit1; auto; exact I|]. intros. apply tret1; auto.
Qed.
Lemma s_terminate h cid s : im s -> T (terminate g h cid) s tt'.
Proof.
  intros Hj. unfold terminate. opened s1 Hj1 o r E Hid Ha. apply cond1; intros _; [apply tthrow1; auto|].
  eapply tseq1; [apply s_cancel; auto|]. go s2. eapply tseq1; [apply s_state; auto|]. go s3.
  eapply tseq1; [instantiate (1 := tt'); apply cond1; intros _; [apply s_free; auto|apply tret1; auto]|]. go s4.
  eapply tseq1; [apply temit1; auto; exact I|]. go s5. eapply tseq1; [apply tawait1|]. go s6.
  eapply tseq1; [apply s_state; auto|]. intros. apply tret1; auto.
Qed.
Lemma s_insert o s : im s -> T (insert o) s tt'.
Proof.
  intros Hj. unfold insert. eapply tseq1; [apply tawait1|]. go s1. ob r E. apply t_get. destruct (ahas (c_id r) (db s1) || _) eqn:Eh.
  - eapply tseq1; [apply (tthrow1 _ _ (fun _ _ => False)); auto|]. intros ? ? ? ? [].
  - eapply tseq1; [apply (tupd1 _ _ tt'); auto; eapply q_db; eauto|]. go s2. apply tawait1.
Qed.
(** what [P] must say of a new row, if there will be one *)
Definition fits (s : st) (o : op) : Prop :=
  match o with
  | Reserve h q => rs_cid q = None /\ forall l1 l2, admission g (now s) (cal s) h q = Ok (l1, l2) -> P (new_row h q (rs_new q) (now s) l1 l2)
  | _ => True
  end.
Lemma s_reserve h q s : im s -> fits s (Reserve h q) -> T (reserve g h q) s tt'.
Proof.
  intros Hj [Hn Hin]. unfold reserve, check_unused. rewrite Hn. apply cond1; intros Hp; [apply tthrow1; auto|].
  eapply tseq1; [apply (tret1 tt _ (fun _ s' => s' = s)); auto|]. intros _ s1 _ _ ->. apply t_get. eapply tseq1; [apply t_lift; auto|]. intros [l1 l2] ? _ _ [-> Hadm].
  eapply tseq1; [apply s_add; auto|]. go s2. eapply tseq1; [apply s_add; auto|]. go s3.
  eapply tseq1; [apply s_alloc; auto|].
  intros o s4 Hj4 Hr4 Ho. cbn beta in Ho. pose proof (here_row _ _ _ Ho) as Hh.
  eapply tseq1; [apply s_insert; auto|]. intros ? s5 Hj5 Hr5 _. assert (Hh5 : here o s5) by hmv.
  eapply tseq1; [apply (tupd1 _ _ tt'); auto; apply q_push; ne|]. intros. apply tret1; auto.
Qed.
Lemma s_op o s : im s -> fits s o -> T (op_prog g o) s tt'.
Proof.
  intros Hj Hin. destruct o; cbn [op_prog];
    [apply s_reserve; auto|apply s_commit; auto|apply s_abort; auto|apply s_provision; auto|apply s_release; auto|apply s_terminate; auto|apply tret1; auto..].
Qed.
Lemma s_restore_one o s : im s -> here o s -> T (restore_one g o) s tt'.
Proof.
  intros Hj Hh. unfold restore_one. ob r E. apply t_get. do 3 (apply cond1; intros _; [apply tret1; auto|]).
  eapply tseq1; [apply s_add; auto|]. intros _ s1 Hj1 Hr1 _. eapply tseq1; [apply s_add; auto|]. intros _ s2 Hj2 Hr2 _.
  assert (Hh2 : here o s2) by (exact (here_ev o s1 s2 Hj1 Hr2 (here_ev o s s1 Hj Hr1 Hh))).
  apply cond1; intros _; [apply s_endtime; auto|]. apply cond1; intros _; [apply cond1; intros _; [apply s_rollback; auto|apply s_schedule; ne]|].
  apply cond1; intros _.
  { destruct (c_p r); try (apply tret1; auto; fail).
    - destruct (c_end r); [apply s_schedule; ne|apply tret1; auto].
    - apply cond1; intros _; [destruct (c_end r); [apply s_schedule; ne|apply tret1; auto]|apply s_activate; auto]. }
  apply cond1; intros _; [|apply tret1; auto]. apply cond1; intros Hc.
  - eapply tseq1; [instantiate (1 := tt'); destruct (c_start r); [apply s_schedule; ne|apply tret1; auto]|]. go s3.
    destruct (c_end r); [apply tret1; auto|apply tthrow1; auto].
  - apply cond1; intros _; [|apply tret1; auto]. destruct (c_end r); [apply s_schedule; ne|apply tthrow1; auto].
Qed.
Lemma s_restore os : forall s, im s -> Forall (fun o => here o s) os -> T (restore_loop g os) s tt'.
Proof.
  induction os as [|o os IH]; cbn [restore_loop]; intros s Hj H; [apply tret1; auto|]. inversion H as [|? ? H1 H2]; subst.
  eapply tseq1; [apply s_restore_one; auto|]. intros _ s1 Hj1 Hr1 _. apply IH; auto. rewrite Forall_forall in *. intros x Hx. eapply here_ev; [exact Hj|exact Hr1|]. auto.
Qed.
Lemma s_alloc_all rs : forall s, im s -> Forall P rs -> T (alloc_all rs) s (fun os s' => Forall (fun o => here o s') os).
Proof.
  induction rs as [|r rs IH]; cbn [alloc_all]; intros s Hj H; [apply tret1; auto|]. inversion H as [|? ? H1 H2]; subst.
  eapply tseq1; [apply s_alloc; auto|]. intros o s1 Hj1 Hr1 E. cbn beta in E. pose proof (here_row _ _ _ E) as Hh.
  eapply tseq1; [apply IH; auto|]. intros os s2 Hj2 Hr2 Hos. cbn beta in Hos. apply tret1; auto. constructor; [eapply here_ev; [exact Hj1|exact Hr2|exact Hh]|exact Hos].
Qed.
Lemma s_build s : im s -> T (build_schedule g) s tt'.
Proof.
  intros Hj. unfold build_schedule. eapply tseq1; [apply tawait1|]. go s1. apply t_get. rename H into Hj1.
  eapply tseq1; [apply s_alloc_all; auto|].
  { apply Forall_forall. intros r Hr. apply filter_In in Hr as [Hr _]. apply in_map_iff in Hr as ([k r'] & E & Hr). cbn in E. subst r'.
    eapply i_db; [exact Hj1|]. eapply In_aget; [apply Hj1|exact Hr]. }
  intros os s2 Hj2 Hr2 Hos. cbn beta in Hos. eapply tseq1; [apply tawait1|]. intros _ s3 Hj3 Hr3 _. apply s_restore; auto.
  rewrite Forall_forall in *. intros o Ho. eapply here_ev; [exact Hj2|exact Hr3|]. auto.
Qed.

(** * The machine *)
Notation minv1 := (minv im evs gim).
Lemma gim_sch x s : s_now (sch s) <= s_now x -> (forall id, ahas id (s_queue x) = true -> ahas id (s_queue (sch s)) = true) -> evs s (set_sch x s) /\ (im s -> im (set_sch x s)).
Proof. intros. apply q_sch; auto. Qed.
Lemma kept_step m e : minv1 m -> (forall o, e = ECall o -> fits (m_st m) o) -> minv1 (mstep g m e).
Proof.
  intros Hm Hc. apply (minv_step im evs gim); eauto.
  - intros s dt Hj. destruct (gim_sch (sch (tick dt s)) s) as [A B]; cbn; [lia|auto|]. split; [exact A|exact (B Hj)].
  - intros s f Hj. destruct f as [o|t [id|]|]; cbn [finish]; try (split; [apply evs_refl|exact Hj]).
    destruct (gim_sch (sched_step (sch s) (SFinish id)) s) as [A B]; cbn; [lia|auto|]. split; [exact A|exact (B Hj)].
  - intros s n t Hj Hn s'.
    assert (Gs : gim s s') by (apply via; [apply guar_start|apply incl_refl|]; intros [I1 I2 I3 I4]; cbn; three).
    split; [eauto|]. split; [eauto|]. eapply t_wp. apply s_task. eauto.
  - intros s id due t Hj Hq Hcl s'.
    assert (Gs : gim s s') by (apply q_sch; [rewrite (sched_now (sch s) (SFire id)); lia|apply fire_queue]).
    split; [eauto|]. split; [eauto|]. eapply t_wp. apply s_task. eauto.
  - destruct Hm as [Hj _]. destruct e; cbn [call_ok]; auto.
    + eapply t_wp. apply s_op; auto.
    + assert (Hj' : im (reboot (m_st m))).
      { destruct Hj as [(W1 & W2 & W3) I2 I3 I4]. split; cbn; auto; try discriminate.
        split; [|split; [exact W2|exact W3]]. cbn. discriminate. }
      split; [exact Hj'|]. eapply t_wp. apply s_build. exact Hj'.
Qed.
End Kept.

Lemma kept_init g P t0 : minv (im g P) evs (gim g P) (minit t0).
Proof.
  split; [|intros ? ? ? ? []]. split; cbn; try discriminate; auto. split; [|split]; cbn; try discriminate. constructor.
Qed.
Lemma kept_run g (P : row -> Prop) t0 l : (forall r r', core r' = core r -> P r -> P r') ->
  (forall p o l2, l = p ++ ECall o :: l2 -> fits g P (m_st (mrun g (minit t0) p)) o) ->
  forall l1 l2, l = l1 ++ l2 -> im g P (m_st (mrun g (minit t0) l1)).
Proof.
  intros HP Hf l1 l2 E. assert (X : minv (im g P) evs (gim g P) (mrun g (minit t0) l1)); [|apply X]. revert l2 E.
  induction l1 as [|e l1 IH] using rev_ind; intros l2 E; [apply kept_init|].
  unfold mrun. rewrite fold_left_app. cbn [fold_left]. rewrite <- app_assoc in E. cbn [app] in E. apply kept_step; [exact HP|eapply IH; exact E|].
  intros o ->. eapply Hf. exact E.
Qed.

(** * Ids given once *)
Definition call_ids (e : event) : list string := match e with ECall (Reserve _ q) => [rs_new q] | _ => [] end.
Lemma new_ids_run g l : forall m, flat_map (fun e => match snd e with Reserve _ q => [rs_new q] | _ => [] end) (m_log (mrun g m l)) =
  flat_map (fun e => match snd e with Reserve _ q => [rs_new q] | _ => [] end) (m_log m) ++ flat_map call_ids l.
Proof.
  induction l as [|e l IH]; intros m; cbn [flat_map]; [rewrite app_nil_r; reflexivity|]. unfold mrun. cbn [fold_left]. unfold mrun in IH. rewrite IH, log_exact, flat_map_app, <- app_assoc. do 2 f_equal.
  destruct e as [o| | | | |]; try reflexivity. cbn. rewrite app_nil_r. reflexivity.
Qed.
Lemma nd_r {A} (l l' : list A) : NoDup (l ++ l') -> NoDup l'.
Proof. induction l as [|a l IH]; cbn; [auto|]. intros H. inversion H; auto. Qed.
Lemma nd_disj {A} (l l' : list A) x : NoDup (l ++ l') -> In x l -> In x l' -> False.
Proof. induction l as [|a l IH]; cbn; [auto|]. intros H [->|Hl] H'; inversion H as [|? ? N D]; subst; [apply N; apply in_or_app; auto|auto]. Qed.
Lemma one_place {A B} (f : A -> list B) x : forall p l e r p' e' r', NoDup (flat_map f l) -> l = p ++ e :: r -> l = p' ++ e' :: r' -> In x (f e) -> In x (f e') -> p = p' /\ e = e'.
Proof.
  intros p. induction p as [|a p IH]; intros l e r [|a' p'] e' r' N -> E H H'; cbn in *.
  - injection E as -> ->. auto.
  - injection E as -> ->. exfalso. apply (nd_disj _ _ x N H). apply in_flat_map. exists e'. split; [apply in_or_app; right; left; reflexivity|exact H'].
  - injection E as -> <-. exfalso. apply (nd_disj _ _ x N H'). apply in_flat_map. exists e. split; [apply in_or_app; right; left; reflexivity|exact H].
  - injection E as -> E. destruct (IH _ e r p' e' r' (nd_r _ _ N) eq_refl E H H') as [-> ->]. auto.
Qed.
(** a row is that of a reservation asked for *)
Definition from_req (l : list event) (r : row) : Prop := exists h q, In (ECall (Reserve h q)) l /\ c_id r = rs_new q /\ c_sport r = s_port (rs_src q) /\ c_dport r = s_port (rs_dst q).
(** whatever happens: one set of ports, labels and times for the id *)
Theorem kept g t0 l sc : NoDup (flat_map call_ids l) -> (forall h q, In (ECall (Reserve h q)) l -> rs_cid q = None) ->
  exists x, forall l1 l2, l = l1 ++ l2 -> im g (fun r => from_req l r /\ (c_id r = sc -> core r = x)) (m_st (mrun g (minit t0) l1)).
Proof.
  intros N Hn.
  assert (D : In sc (flat_map call_ids l) \/ ~ In sc (flat_map call_ids l)) by (destruct (in_dec string_dec sc (flat_map call_ids l)); auto).
  assert (C : forall x r r', core r' = core r -> from_req l r /\ (c_id r = sc -> core r = x) -> from_req l r' /\ (c_id r' = sc -> core r' = x)).
  { intros x r r' E [(h & q & H1 & H2 & H3 & H4) H]. pose proof E as F. apply core_fields in F as (E1 & _ & _ & E2 & _ & E3 & _). split.
    - exists h, q. split; [exact H1|]. repeat split; congruence.
    - intros E'. rewrite E. apply H. congruence. }
  assert (F : forall p o r x, l = p ++ ECall o :: r -> (forall h q l1 l2, o = Reserve h q -> rs_new q = sc -> admission g (now (m_st (mrun g (minit t0) p))) (cal (m_st (mrun g (minit t0) p))) h q = Ok (l1, l2) ->
    core (new_row h q (rs_new q) (now (m_st (mrun g (minit t0) p))) l1 l2) = x) -> fits g (fun r => from_req l r /\ (c_id r = sc -> core r = x)) (m_st (mrun g (minit t0) p)) o).
  { intros p o r x E H. destruct o as [h q| | | | | | | |]; cbn [fits]; auto. assert (X : In (ECall (Reserve h q)) l) by (rewrite E; apply in_or_app; right; left; reflexivity).
    split; [apply (Hn h); exact X|]. intros l1 l2 Ha. split; [exists h, q; auto|]. intros Hid. apply (H h q l1 l2 eq_refl Hid Ha). }
  destruct D as [D|D].
  - apply in_flat_map in D as (e & He & D). destruct e as [o| | | | |]; try contradiction D. destruct o as [h q| | | | | | | |]; try contradiction D. destruct D as [D|[]].
    apply in_split in He as (p & r & El). set (s := m_st (mrun g (minit t0) p)).
    exists (match admission g (now s) (cal s) h q with Ok (l1, l2) => core (new_row h q (rs_new q) (now s) l1 l2) | Err _ => new_row h q "" 0 None None end).
    apply kept_run; [apply C|]. intros p' o r' E'. eapply F; [exact E'|]. intros h' q' l1 l2 -> Hid Ha.
    destruct (one_place call_ids sc p l (ECall (Reserve h q)) r p' (ECall (Reserve h' q')) r' N El E') as [Ep Ee]; [left; exact D|left; exact Hid|].
    subst p'. injection Ee as <- <-. fold s in Ha |- *. rewrite Ha. reflexivity.
  - exists (mkRow "" "" "" 0 (mkStates RStart PReleased LCreated) false false "" None "" None None None 0).
    apply kept_run; [apply C|]. intros p' o r' E'. eapply F; [exact E'|]. intros h' q' l1 l2 -> Hid Ha.
    exfalso. apply D. apply in_flat_map. exists (ECall (Reserve h' q')). split; [rewrite E'; apply in_or_app; right; left; reflexivity|left; exact Hid].
Qed.
