(** Why a link is set up, in every interleaving. *)
From Verif Require Import Base BaseProofs ModelLabel ModelSTP ModelAuthz ModelNRM ModelCalendar ModelState ModelScheduler ModelBackend ModelBackendConc SpecBackend SpecBackendConc
  ProofsBackendWp ProofsBackendFoc ProofsBackendAdmission ProofsConcWp ProofsConcGen ProofsConcEnd.
Open Scope Z_scope.

Section Setup.
Variables (g : cfg) (L : list (Z * op)).   (* [L]: all requests *)
Definition rsv (r : row) : Prop := reserved g L (c_id r) (c_sport r) (c_slabel r) (c_dport r) (c_dlabel r) (c_end r).
Definition com (r : row) : Prop := committed g L (c_id r) (c_sport r) (c_dport r).
Definition prv (r : row) : Prop := provisioned g L (c_id r) (c_sport r) (c_dport r) (c_end r).
Definition up (p : pstate) : bool := match p with PProvisioning | PProvisioned => true | _ => false end.
Record good (r : row) : Prop := {
  g_rsv : rsv r;
  g_com : c_alloc r = true -> com r;
  g_prv : up (c_p r) = true -> com r /\ prv r }.
Lemma core_rsv r r' : core r' = core r -> rsv r -> rsv r'.
Proof. intros H. apply core_fields in H as (H1 & _ & _ & H4 & H5 & H6 & H7 & _ & H9). unfold rsv. rewrite H1, H4, H5, H6, H7, H9. auto. Qed.
Lemma core_com r r' : core r' = core r -> com r -> com r'.
Proof. intros H. apply core_fields in H as (H1 & _ & _ & H4 & _ & H6 & _ & _ & H9). unfold com. rewrite H1, H4, H6. auto. Qed.
Lemma core_prv r r' : core r' = core r -> prv r -> prv r'.
Proof. intros H. apply core_fields in H as (H1 & _ & _ & H4 & _ & H6 & _ & _ & H9). unfold prv. rewrite H1, H4, H6, H9. auto. Qed.
(** an object that may be activated *)
Definition lic (o : nat) (s : st) : Prop := exists r, aget o (heap s) = Some r /\ com r /\ prv r.
(** later, with everything said so far *)
Definition evs (s s' : st) : Prop := evolves s s' /\ incl (outs s) (outs s').
Lemma evs_refl s : evs s s. Proof. split; [apply ev_refl|apply incl_refl]. Qed.
Lemma evs_trans a b c : evs a b -> evs b c -> evs a c.
Proof. intros [H1 H2] [H3 H4]. split; [eapply ev_trans; eauto|eapply incl_tran; eauto]. Qed.
Lemma lic_ev o s s' : wf s -> evs s s' -> lic o s -> lic o s'.
Proof.
  intros W [E _] (r & H1 & H2 & H3). destruct (E W) as (_ & _ & _ & C). destruct (C o r H1) as (r' & E1 & E2).
  exists r'. split; [exact E1|]. split; [eapply core_com; eauto|eapply core_prv; eauto].
Qed.
(** a reservation that awaits its answer *)
Definition ans (o : nat) (corr : string) (s : st) : Prop := exists r, aget o (heap s) = Some r /\ asked_for L (c_id r) corr.
Lemma ans_ev o c s s' : wf s -> evs s s' -> ans o c s -> ans o c s'.
Proof.
  intros W [E _] (r & H1 & H2). destruct (E W) as (_ & _ & _ & C). destruct (C o r H1) as (r' & E1 & E2).
  exists r'. split; [exact E1|]. apply core_fields in E2 as (-> & _). exact H2.
Qed.
Definition just (os : list output) (x : output) : Prop :=
  match x with
  | OReserveConfirmed k corr => asked_for L k corr
  | ODataPlane k a => In (if a then OSetupDone k true else OTeardownDone k true) os
  | OErrorEvent k e => e = "activateFailed" /\ In (OSetupDone k false) os \/ e = "deactivateFailed" /\ In (OTeardownDone k false) os
  | OSetup k a b => exists sp sl dp dl en, a = get_target g sp sl /\ b = get_target g dp dl /\ reserved g L k sp sl dp dl en /\ committed g L k sp dp /\ provisioned g L k sp dp en
  | _ => True
  end.
Lemma just_ev x s s' : incl s s' -> just s x -> just s' x.
Proof. intros I. destruct x as [| | | | | | |k [|]|k e| | | |]; cbn; auto. intros [[A B]|[A B]]; auto. Qed.
Definition tk (t : task) (s : st) : Prop := match t with TActivate o => lic o s | TReserve o c => ans o c s | _ => True end.
Record im (s : st) : Prop := {
  i_wf : wf s;
  i_db : forall k r, aget k (db s) = Some r -> good r;
  i_heap : forall o r, aget o (heap s) = Some r -> good r;
  i_ready : forall t, In t (ready s) -> tk t s;
  i_call : forall id t, pending s id t -> tk t s;
  i_out : Forall (just (outs s)) (outs s) }.
Definition gim (s s' : st) : Prop := evs s s' /\ (im s -> im s').
Lemma tk_ev t s s' : wf s -> evs s s' -> tk t s -> tk t s'.
Proof. destruct t; cbn; auto; [apply ans_ev|apply lic_ev]. Qed.

(** from what the generic lemmas say of one update *)
Lemma via s s' : guar None None s s' -> incl (outs s) (outs s') ->
  (im s -> (forall k r, aget k (db s') = Some r -> good r) /\ (forall o r, aget o (heap s') = Some r -> good r) /\
    (forall t, In t (ready s') -> In t (ready s) \/ tk t s') /\ (forall id t, pending s' id t -> pending s id t \/ tk t s') /\
    Forall (just (outs s')) (outs s')) -> gim s s'.
Proof.
  intros [E A] Hi H. assert (ES : evs s s') by (split; [exact E|exact Hi]). split; [exact ES|]. intros I. destruct (H I) as (H1 & H2 & H3 & H4 & H5). destruct I as [I1 I2 I3 I4 I5 I6].
  split; auto.
  - apply (E I1).
  - intros t Ht. destruct (H3 t Ht) as [X|X]; [|exact X]. eapply tk_ev; eauto.
  - intros id t Ht. destruct (H4 id t Ht) as [X|X]; [|exact X]. eapply tk_ev; eauto.
Qed.
Lemma ex_handles o s r : aget o (heap s) = Some r -> handles None None o s.
Proof. intros E. split; [discriminate|]. exists r. split; [exact E|discriminate]. Qed.

Ltac five := (split; [auto|split; [auto|split; [auto|split; [auto|auto]]]]).
Lemma q_put o r r' s : aget o (heap s) = Some r -> core r' = core r -> (im s -> good r') -> gim s (put_obj o r' s).
Proof.
  intros E C Hg. apply via; [eapply g_put; eauto; eapply ex_handles; eauto|apply incl_refl|]. intros I. destruct I as [I1 I2 I3 I4 I5 I6] eqn:EI. cbn.
  split; [exact I2|]. split; [|split; [auto|split; [auto|exact I6]]].
  intros o' x. rewrite aget_aset. destruct (eqb_ok o' o) as [E'|N]; [intros [= <-]; apply Hg; exact I|apply I3].
Qed.
Lemma q_db o r s : aget o (heap s) = Some r -> gim s (set_db (aset (c_id r) r (db s)) s).
Proof.
  intros E. apply via; [eapply g_db; eauto; eapply ex_handles; eauto|apply incl_refl|]. intros [I1 I2 I3 I4 I5 I6]. cbn.
  split; [|split; [exact I3|split; [auto|split; [auto|exact I6]]]].
  intros k x. rewrite aget_aset. destruct (eqb_ok k (c_id r)) as [E'|N]; [intros [= <-]; eapply I3; exact E|apply I2].
Qed.
Lemma q_cal c s : gim s (set_cal c s).
Proof. apply via; [apply g_cal|apply incl_refl|]. intros [I1 I2 I3 I4 I5 I6]. cbn. five. Qed.
Lemma q_sch x s : s_now (sch s) <= s_now x -> (forall id, ahas id (s_queue x) = true -> ahas id (s_queue (sch s)) = true) -> gim s (set_sch x s).
Proof.
  intros Ht Hq. apply via; [apply g_sch; auto|apply incl_refl|]. intros [I1 I2 I3 I4 I5 I6]. cbn. five.
  intros id t [H1 H2]. left. split; [exact H1|]. apply Hq. exact H2.
Qed.
Lemma q_schedule cid t k s x : aget (task_obj k) (heap s) <> None -> tk k s -> schedule_call cid t (sch s) = Ok x ->
  gim s (mkSt (db s) (heap s) (nobj s) (cal s) x (aset (s_next (sch s)) k (calls s)) (ready s) (outs s)).
Proof.
  intros Hn Hk E.
  assert (Hh : handles None None (task_obj k) s) by (destruct (aget (task_obj k) (heap s)) eqn:Eo; [eapply ex_handles; eauto|congruence]).
  pose proof (g_schedule None None cid t k s x Hh E) as Gs. apply via; [exact Gs|apply incl_refl|]. intros [I1 I2 I3 I4 I5 I6]. cbn. five.
  unfold schedule_call in E. destruct (match aget cid (s_dict (sch s)) with Some id => s_pending (sch s) id | None => false end); [discriminate|].
  destruct (negb _); [discriminate|]. injection E as <-.
  intros id k' [H1 H2]. cbn in H1, H2. rewrite aget_aset in H1. destruct (eqb_ok id (s_next (sch s))) as [E'|N].
  - injection H1 as <-. right. destruct k; exact Hk.
  - left. split; [exact H1|]. unfold ahas in *. destruct (aget id (s_queue (sch s))) eqn:Eq; [reflexivity|].
    exfalso. revert H2. assert (X : aget id (s_queue (sch s) ++ [(s_next (sch s), s_now (sch s) + Z.max (t - s_now (sch s)) 0)]) = None); [|cbn; rewrite X; discriminate].
    apply aget_None. apply aget_None in Eq. intros HI. apply Eq. unfold akeys in *. rewrite map_app in HI. apply in_app_or in HI as [HI|[HI|[]]]; [exact HI|]. cbn in HI. congruence.
Qed.
Lemma q_emit x s : just (outs s) x -> gim s (emit x s).
Proof.
  intros H. assert (Hi : incl (outs s) (outs s ++ [x])) by (apply incl_appl, incl_refl). apply via; [apply g_emit; discriminate|exact Hi|]. intros [I1 I2 I3 I4 I5 I6]. cbn. five.
  apply Forall_app. split; [|constructor; [|constructor]]; [eapply Forall_impl; [|exact I6]; intros; eapply just_ev; eauto|eapply just_ev; eauto].
Qed.
Lemma q_push t s : aget (task_obj t) (heap s) <> None -> tk t s -> gim s (push t s).
Proof.
  intros Hn Hk. assert (Hh : handles None None (task_obj t) s) by (destruct (aget (task_obj t) (heap s)) eqn:Eo; [eapply ex_handles; eauto|congruence]).
  apply via; [apply g_push; exact Hh|apply incl_refl|]. intros [I1 I2 I3 I4 I5 I6]. cbn. five.
  intros t' HI. apply in_app_or in HI as [HI|[HI|[]]]; [auto|]. subst t'. right. destruct t; exact Hk.
Qed.
Lemma q_new r s : good r -> gim s (new_obj r s).
Proof.
  intros H. apply via; [apply g_new|apply incl_refl|]. intros [I1 I2 I3 I4 I5 I6]. cbn.
  split; [exact I2|]. split; [|split; [auto|split; [auto|exact I6]]].
  intros o x. rewrite aget_aset. destruct (eqb_ok o (nobj s)) as [E'|N]; [intros [= <-]; exact H|apply I3].
Qed.

(** * The programs *)
Local Notation T := (triple im evs gim).
Local Notation tt' := (fun _ _ => True).
Lemma gim_ev s s' : gim s s' -> evs s s'. Proof. intros [H _]. exact H. Qed.
Lemma gim_im s s' : gim s s' -> im s -> im s'. Proof. intros [_ H]. exact H. Qed.
Local Hint Resolve evs_refl evs_trans gim_ev gim_im : core.
Lemma tseq1 {A B} (p : prog A) (f : A -> prog B) s Q Q' : T p s Q ->
  (forall a s', im s' -> evs s s' -> Q a s' -> T (f a) s' Q') -> T (bind p f) s Q'.
Proof. apply t_seq; eauto. Qed.
Lemma tupd1 f s (Q : unit -> st -> Prop) : im s -> gim s (f s) -> Q tt (f s) -> T (upd f) s Q.
Proof. intros. apply t_upd; eauto. Qed.
Lemma tobj1 o s : im s -> T (obj o) s (fun r s' => s' = s /\ aget o (heap s) = Some r).
Proof. intros. apply t_obj; eauto. Qed.
Lemma tret1 {A} (a : A) s (Q : A -> st -> Prop) : im s -> Q a s -> T (Ret a) s Q.
Proof. intros. apply t_ret; eauto. Qed.
Lemma tthrow1 {A} e s (Q : A -> st -> Prop) : im s -> T (Throw e) s Q.
Proof. intros. apply t_throw; eauto. Qed.
Lemma tawait1 w s : T (await w) s tt'.
Proof. apply t_await; eauto. Qed.
Lemma tAwait1 {A} w (k : option exn -> prog A) s Q : (forall x s', evs s s' -> im s' -> T (k x) s' Q) -> T (Await w k) s Q.
Proof. apply t_Await; eauto. Qed.
Lemma tcatch1 {A} (p : prog A) h s Q : T p s Q -> (forall e s', im s' -> evs s s' -> T (h e) s' Q) -> T (catch p h) s Q.
Proof. apply t_catch; eauto. Qed.
Lemma temit1 x s : im s -> just (outs s) x -> T (emits x) s tt'.
Proof. intros Hj H. apply tupd1; auto. apply q_emit. exact H. Qed.
Lemma temit2 x s : im s -> just (outs s) x -> T (emits x) s (fun _ s' => In x (outs s')).
Proof. intros Hj H. apply tupd1; auto; [apply q_emit; exact H|]. cbn. apply in_or_app. right. left. reflexivity. Qed.
Lemma cond1 {A} (b : bool) (p q : prog A) s Q : (b = true -> T p s Q) -> (b = false -> T q s Q) -> T (if b then p else q) s Q.
Proof. destruct b; auto. Qed.

Lemma s_modify o f s : im s -> (forall r, core (f r) = core r) -> (forall r, aget o (heap s) = Some r -> good r -> good (f r)) -> T (modify o f) s tt'.
Proof.
  intros Hj Hf Hg. unfold modify. eapply tseq1; [apply tobj1; auto|]. intros r s' Hj' Hr [-> E]. apply tupd1; auto. eapply q_put; eauto.
  intros I. apply Hg; auto. eapply i_heap; eauto.
Qed.
Lemma s_save o s : im s -> T (save o) s tt'.
Proof.
  intros Hj. unfold save. eapply tseq1; [apply tawait1|]. intros _ s1 Hj1 Hr1 _.
  eapply tseq1; [apply tobj1; auto|]. intros r s2 Hj2 Hr2 [-> E].
  eapply tseq1; [apply (tupd1 _ _ tt'); auto; eapply q_db; eauto|]. intros _ s3 Hj3 Hr3 _. apply tawait1.
Qed.
Lemma multi_p ts : forall c, st_p (fst (multi_switch ts c)) = st_p c.
Proof.
  induction ts as [|t ts IH]; intros c; cbn; [reflexivity|]. unfold set_r. destruct (switch_state _ _ _); cbn; [|reflexivity]. rewrite IH. reflexivity.
Qed.
Lemma op_up x c : x <> OpProvisioning -> up (st_p (fst (op_mem x c))) = true -> up (st_p c) = true.
Proof.
  destruct c as [a p l]. destruct x; cbn -[multi_switch]; intros N H; try congruence;
  try (rewrite multi_p in H; exact H);
  unfold set_r, set_l, set_p in H; cbn in H;
  try (destruct (switch_state reserve_transitions a _); exact H);
  try (destruct (switch_state lifecycle_transitions l _); exact H); destruct p; cbn in *; auto.
Qed.
Lemma s_state x o s : im s -> (x = OpProvisioning -> lic o s) -> T (state_change x o) s tt'.
Proof.
  intros Hj Hx. unfold state_change. eapply tseq1; [apply tobj1; auto|]. intros r s1 Hj1 Hr1 [-> E].
  destruct (op_mem x (c_states r)) as [c e] eqn:Eo. eapply tseq1; [apply (tupd1 _ _ tt'); auto; eapply q_put; eauto|].
  - intros I. pose proof (i_heap _ I _ _ E) as [G1 G2 G3]. assert (C : core (set_states c r) = core r) by reflexivity. split.
    + eapply core_rsv; eauto.
    + intros Ha. eapply core_com; eauto.
    + intros Hu. destruct (up (c_p r)) eqn:Eu.
      * destruct (G3 eq_refl). split; [eapply core_com; eauto|eapply core_prv; eauto].
      * assert (x = OpProvisioning).
        { assert (D : x = OpProvisioning \/ x <> OpProvisioning) by (destruct x; auto; right; discriminate). destruct D as [D|D]; [exact D|]. exfalso.
          pose proof (op_up x (c_states r) D) as P. rewrite Eo in P. cbn in P. unfold c_p in *. rewrite P in Eu; [discriminate|exact Hu]. }
        destruct (Hx H) as (r' & E' & A1 & A2). assert (r' = r) by congruence. subst r'. split; [eapply core_com; eauto|eapply core_prv; eauto].
  - intros _ s2 Hj2 Hr2 _. destruct e; [apply tthrow1; auto|]. apply s_save; auto.
Qed.
Lemma s_state' x o s : im s -> x <> OpProvisioning -> T (state_change x o) s tt'.
Proof. intros Hj N. apply s_state; auto. congruence. Qed.
Lemma s_cancel cid s : im s -> T (cancel cid) s tt'.
Proof. intros Hj. apply tupd1; auto. apply q_sch; [rewrite cancel_now; lia|]. apply cancel_queue. Qed.
Lemma s_schedule cid t k s : im s -> aget (task_obj k) (heap s) <> None -> tk k s -> T (schedule cid t k) s tt'.
Proof.
  intros Hj Hn Hh. unfold schedule. apply t_get. destruct (schedule_call cid t (sch s)) as [x|e] eqn:E; [|apply tthrow1; auto].
  apply tupd1; auto. eapply q_schedule; eauto.
Qed.
Lemma s_remove res b e s : im s -> T (remove_reservation res b e) s tt'.
Proof.
  intros Hj. unfold remove_reservation. apply t_get. destruct (cal_remove _ _ _ _); [|apply tthrow1; auto]. apply tupd1; auto. apply q_cal.
Qed.
Lemma s_add res b e s : im s -> T (add_reservation res b e) s tt'.
Proof. intros Hj. apply tupd1; auto. apply q_cal. Qed.
Lemma s_remove_both r s : im s -> T (remove_both g r) s tt'.
Proof. intros Hj. eapply tseq1; [apply s_remove; auto|]. intros _ s1 Hj1 _ _. apply s_remove; auto. Qed.
Lemma s_alloc r s : im s -> good r -> T (alloc r) s (fun o s' => aget o (heap s') = Some r).
Proof.
  intros Hj Hg. unfold alloc. apply t_get. eapply tseq1; [apply (tupd1 _ _ (fun _ s' => s' = new_obj r s)); auto; apply q_new; exact Hg|].
  intros _ s1 Hj1 Hr1 ->. apply tret1; auto. cbn. apply aget_aset_eq.
Qed.
(** the object exists *)
Definition here (o : nat) (s : st) : Prop := aget o (heap s) <> None.
Lemma here_ev o s s' : im s -> evs s s' -> here o s -> here o s'.
Proof.
  intros Hj E H. unfold here in *. destruct (aget o (heap s)) eqn:Eo; [|congruence]. destruct (proj1 E (i_wf _ Hj)) as (_ & _ & _ & C). destruct (C _ _ Eo) as (r' & -> & _). discriminate.
Qed.
Lemma lic_im o s s' : im s -> evs s s' -> lic o s -> lic o s'.
Proof. intros Hj. apply lic_ev. apply Hj. Qed.
Ltac go s := intros ? s ? ? ?; cbn beta in *;
  try match goal with [Hh : here ?o ?a, Hj : im ?a, Hr : evs ?a ?b |- _] => pose proof (here_ev o a b Hj Hr Hh) end;
  try match goal with [Hh : lic ?o ?a, Hj : im ?a, Hr : evs ?a ?b |- _] => pose proof (lic_im o a b Hj Hr Hh) end.
Ltac hmv := match goal with [H : here ?o ?a, Hj : im ?a, Hr : evs ?a ?b |- here ?o ?b] => exact (here_ev o a b Hj Hr H) end.
Ltac ob r E := eapply tseq1; [apply tobj1; auto|]; intros r ? _ _ [-> E].
Lemma here_row o s r : aget o (heap s) = Some r -> here o s. Proof. unfold here. congruence. Qed.
Ltac ne := first [assumption|exact I|discriminate|solve [cbn; auto]|solve [unfold here in *; cbn; auto]].

Lemma s_set_active o b s : im s -> T (modify o (set_active b)) s tt'.
Proof. intros Hj. apply s_modify; auto. intros r _ [G1 G2 G3]. split; auto. Qed.
Lemma s_teardown o s : im s -> T (do_teardown g o) s tt'.
Proof.
  intros Hj. unfold do_teardown. ob r E. pose proof (here_row _ _ _ E) as Hh. eapply tseq1; [apply temit1; auto; exact I|]. go s2. apply tAwait1. intros res s3 Hr3 Hj3. assert (Hh3 : here o s3) by hmv.
  eapply tseq1; [apply temit2; auto; exact I|]. intros ? s4 Hj4 Hr4 Hd. cbn beta in Hd. assert (Hh4 : here o s4) by hmv.
  eapply tseq1; [apply s_set_active; auto|]. intros ? s5 Hj5 Hr5 _. assert (Hh5 : here o s5) by hmv. destruct res.
  - eapply tseq1; [apply s_save; auto|]. intros ? s6 Hj6 Hr6 _. apply temit1; auto. cbn. right. split; [reflexivity|]. apply Hr6, Hr5. exact Hd.
  - apply tcatch1; [|intros; apply tret1; auto]. eapply tseq1; [apply s_save; auto|]. intros ? s6 Hj6 Hr6 _. apply temit1; auto. cbn. apply Hr6, Hr5. exact Hd.
Qed.
Lemma s_free o s : im s -> T (do_free g o) s tt'.
Proof.
  intros Hj. unfold do_free. ob r E. apply cond1; intros _.
  - eapply tseq1; [apply s_teardown; auto|]. go s2. ob r' E'. apply s_remove_both; auto.
  - apply cond1; intros _; [apply s_remove_both; auto|apply tret1; auto].
Qed.
Lemma s_endtime o s : im s -> T (do_endtime g o) s tt'.
Proof.
  intros Hj. unfold do_endtime. ob r E. apply cond1; intros _; [apply tthrow1; auto|]. eapply tseq1; [apply s_cancel; auto|]. go s2.
  eapply tseq1; [apply s_state'; auto; discriminate|]. go s3. apply s_free; auto.
Qed.
Lemma s_rollback o s : im s -> T (do_rollback g o) s tt'.
Proof.
  intros Hj. unfold do_rollback. apply tcatch1; [|intros; apply tret1; auto].
  eapply tseq1; [apply s_state'; auto; discriminate|]. go s1. ob r E. pose proof (here_row _ _ _ E) as Hh.
  eapply tseq1; [apply s_cancel; auto|]. go s2. eapply tseq1; [apply s_remove_both; auto|]. go s3.
  eapply tseq1; [apply s_state'; auto; discriminate|]. go s4. ob r' E'. apply t_get. destruct (c_end r'); [|apply tret1; auto].
  apply cond1; intros _; [apply s_endtime; auto|apply s_schedule; ne].
Qed.
Lemma s_timeout o s : im s -> T (do_timeout g o) s tt'.
Proof.
  intros Hj. unfold do_timeout. apply tcatch1; [|intros; apply tret1; auto].
  eapply tseq1; [apply s_state'; auto; discriminate|]. go s1. eapply tseq1; [apply s_rollback; auto|]. go s2.
  eapply tseq1; [instantiate (1 := fun _ s' => s' = s2); apply cond1; intros _; [apply tthrow1; auto|apply tret1; auto]|]. intros ? ? _ _ ->.
  ob r' E'. apply temit1; auto; exact I.
Qed.
Lemma s_activate o s : im s -> lic o s -> T (do_activate g o) s tt'.
Proof.
  intros Hj Hl. unfold do_activate. ob r E. pose proof (here_row _ _ _ E) as Hh.
  eapply tseq1; [apply temit1; auto|].
  { destruct Hl as (r' & E' & A1 & A2). assert (r' = r) by congruence. subst r'. pose proof (g_rsv _ (i_heap _ Hj _ _ E)) as A0.
    exists (c_sport r), (c_slabel r), (c_dport r), (c_dlabel r), (c_end r). auto 6. }
  go s2. apply tAwait1. intros res s3 Hr3 Hj3. assert (Hh3 : here o s3) by hmv. destruct res.
  - eapply tseq1; [apply temit2; auto; exact I|]. intros ? s4 Hj4 Hr4 Hd. cbn beta in Hd. assert (Hh4 : here o s4) by hmv.
    eapply tseq1; [apply s_set_active; auto|]. intros ? s5 Hj5 Hr5 _. assert (Hh5 : here o s5) by hmv.
    eapply tseq1; [apply s_save; auto|]. intros ? s6 Hj6 Hr6 _. apply temit1; auto. cbn. left. split; [reflexivity|]. apply Hr6, Hr5. exact Hd.
  - eapply tseq1; [apply temit2; auto; exact I|]. intros ? s4 Hj4 Hr4 Hd. cbn beta in Hd. assert (Hh4 : here o s4) by hmv.
    apply tcatch1; [|intros; apply tret1; auto]. eapply tseq1; [apply s_set_active; auto|]. intros ? s5 Hj5 Hr5 _. assert (Hh5 : here o s5) by hmv.
    eapply tseq1; [apply s_save; auto|]. intros ? s6 Hj6 Hr6 _. assert (Hh6 : here o s6) by hmv.
    apply t_get. eapply tseq1; [instantiate (1 := tt'); destruct (c_end r); [apply s_schedule; ne|apply tret1; auto]|]. intros ? s7 Hj7 Hr7 _. apply temit1; auto.
    cbn. apply Hr7, Hr6, Hr5. exact Hd.
Qed.
Lemma ans_im o c s s' : im s -> evs s s' -> ans o c s -> ans o c s'.
Proof. intros Hj. apply ans_ev. apply Hj. Qed.
Lemma s_reserve_task o c s : im s -> ans o c s -> T (do_reserve o c) s tt'.
Proof.
  intros Hj Ha. unfold do_reserve. eapply tseq1; [apply s_state'; auto; discriminate|]. intros ? s1 Hj1 Hr1 _. apply (ans_im _ _ _ _ Hj Hr1) in Ha.
  ob r E. pose proof (here_row _ _ _ E) as Hh. destruct Ha as (r' & E' & Ha). assert (r' = r) by congruence. subst r'. apply t_get.
  eapply tseq1; [instantiate (1 := tt'); apply cond1; intros _; [apply s_cancel; auto|apply tret1; auto]|]. go s2.
  eapply tseq1; [apply s_schedule; ne|]. go s3. eapply tseq1; [apply temit1; auto|]. go s4. apply tawait1.
Qed.
Lemma s_task t s : im s -> tk t s -> T (task_prog g t) s tt'.
Proof. destruct t; cbn [task_prog tk]; intros Hj Ht; [apply s_reserve_task|apply s_timeout|apply s_activate|apply s_endtime]; auto. Qed.

Lemma s_get_connection cid s : im s -> T (get_connection cid) s (fun o s' => exists r, aget o (heap s') = Some r /\ c_id r = cid).
Proof.
  intros Hj. unfold get_connection. eapply tseq1; [apply tawait1|]. intros _ s1 Hj1 Hr1 _. apply t_get.
  destruct (aget cid (db s1)) as [r|] eqn:E.
  - eapply tseq1; [apply s_alloc; auto; eapply i_db; eauto|]. intros o s2 Hj2 Hr2 Ho. cbn beta in Ho. eapply tseq1; [apply tawait1|]. intros _ s3 Hj3 Hr3 _.
    apply tret1; auto. destruct (proj1 Hr3 (i_wf _ Hj2)) as (_ & _ & _ & C). destruct (C _ _ Ho) as (r' & E1 & E2). exists r'. split; [exact E1|].
    apply core_fields in E2 as (-> & _). exact (proj1 (proj2 (i_wf _ Hj1)) _ _ E).
  - eapply tseq1; [apply tawait1|]. intros. apply tthrow1; auto.
Qed.
Lemma s_open h cid s : im s -> T (open_connection g h cid) s (fun o s' => exists r, aget o (heap s') = Some r /\ c_id r = cid /\ authorize g (c_sport r) (c_dport r) h = Ok tt).
Proof.
  intros Hj. unfold open_connection. eapply tseq1; [apply s_get_connection; auto|]. intros o s1 Hj1 Hr1 (r0 & E0 & H0).
  ob r E. assert (r = r0) by congruence. subst r0. eapply tseq1; [apply t_lift; auto|]. intros [] ? _ _ [-> Ha]. apply tret1; auto. eauto.
Qed.
Ltac opened s Hj o r E Hid Ha := eapply tseq1; [apply s_open; auto|]; intros o s Hj ? Hx; cbn beta in Hx; destruct Hx as (r & E & Hid & Ha);
  let r' := fresh in let E' := fresh in eapply tseq1; [apply tobj1; auto|]; intros r' ? _ _ [-> E']; assert (r' = r) by congruence; subst r'; clear E';
  pose proof (here_row _ _ _ E) as Hh.
Lemma s_commit h cid s : im s -> In (now s, Commit h cid) L -> T (reserve_commit g h cid) s tt'.
Proof.
  intros Hj Hin. unfold reserve_commit. opened s1 Hj1 o r E Hid Ha. apply cond1; intros _; [apply tthrow1; auto|].
  eapply tseq1; [apply s_modify; auto|].
  { intros r' E' [G1 G2 G3]. assert (r' = r) by congruence. subst r'. split; auto. intros _. exists (now s), h. cbn. rewrite Hid. auto. }
  go s2. eapply tseq1; [apply s_state'; auto; discriminate|]. go s3. eapply tseq1; [apply s_cancel; auto|]. go s4.
  eapply tseq1; [instantiate (1 := tt'); destruct (c_end r); [apply s_schedule; ne|apply tret1; auto]|]. go s5.
  eapply tseq1; [apply temit1; auto; exact I|]. go s6. eapply tseq1; [apply tawait1|]. intros. apply tret1; auto.
Qed.
Lemma s_abort h cid s : im s -> T (reserve_abort g h cid) s tt'.
Proof.
  intros Hj. unfold reserve_abort. opened s1 Hj1 o r E Hid Ha. apply cond1; intros _; [apply tthrow1; auto|].
  eapply tseq1; [apply s_rollback; auto|]. go s2. eapply tseq1; [apply temit1; auto; exact I|]. intros. apply tret1; auto.
Qed.
Lemma s_provision h cid s : im s -> In (now s, Provision h cid) L -> T (provision g h cid) s tt'.
Proof.
  intros Hj Hin. unfold provision. opened s1 Hj1 o r E Hid Ha. apply cond1; intros Hal; [apply tthrow1; auto|].
  do 2 (apply cond1; intros _; [apply tthrow1; auto|]). apply t_get. apply cond1; intros Hen; [apply tthrow1; auto|].
  assert (Hl : lic o s1).
  { exists r. split; [exact E|]. split; [apply (g_com _ (i_heap _ Hj1 _ _ E)); destruct (c_alloc r); auto; discriminate|].
    exists (now s), h. rewrite Hid. split; [exact Hin|]. split; [exact Ha|]. intros e He. rewrite He in Hen. apply Z.leb_gt in Hen.
    match goal with H : evs s s1 |- _ => destruct (proj1 H (i_wf _ Hj)) as (_ & _ & Ht & _) end. lia. }
  eapply tseq1; [apply s_state; auto|]. go s2. eapply tseq1; [apply s_cancel; auto|]. go s3.
  eapply tseq1; [instantiate (1 := tt'); apply cond1; intros _; [apply tupd1; auto; apply q_push; ne|destruct (c_start r); [apply s_schedule; ne|apply tret1; auto]]|]. go s4.
  eapply tseq1; [apply s_state'; auto; discriminate|]. go s5. eapply tseq1; [apply temit1; auto; exact I|]. intros. apply tret1; auto.
Qed.
Lemma s_release h cid s : im s -> T (release g h cid) s tt'.
Proof.
  intros Hj. unfold release. opened s1 Hj1 o r E Hid Ha. apply cond1; intros _; [apply tthrow1; auto|].
  eapply tseq1; [apply s_state'; auto; discriminate|]. go s2. eapply tseq1; [apply s_cancel; auto|]. go s3. ob r' E'.
  eapply tseq1; [instantiate (1 := tt'); apply cond1; intros _; [apply tcatch1; [apply s_teardown; auto|intros; apply tret1; auto]|apply tret1; auto]|]. go s4.
  eapply tseq1; [instantiate (1 := tt'); destruct (c_end r'); [apply s_schedule; ne|apply tret1; auto]|]. go s5.
  eapply tseq1; [apply s_state'; auto; discriminate|]. go s6. eapply tseq1; [apply temit1; auto; exact I|]. intros. apply tret1; auto.
Qed.
Lemma s_terminate h cid s : im s -> T (terminate g h cid) s tt'.
Proof.
  intros Hj. unfold terminate. opened s1 Hj1 o r E Hid Ha. apply cond1; intros _; [apply tthrow1; auto|].
  eapply tseq1; [apply s_cancel; auto|]. go s2. eapply tseq1; [apply s_state'; auto; discriminate|]. go s3.
  eapply tseq1; [instantiate (1 := tt'); apply cond1; intros _; [apply s_free; auto|apply tret1; auto]|]. go s4.
  eapply tseq1; [apply temit1; auto; exact I|]. go s5. eapply tseq1; [apply tawait1|]. go s6.
  eapply tseq1; [apply s_state'; auto; discriminate|]. intros. apply tret1; auto.
Qed.
Lemma s_unused q s : im s -> T (check_unused q) s tt'.
Proof.
  intros Hj. unfold check_unused. destruct (rs_cid q) as [c|]; [|apply tret1; auto]. apply cond1; intros _; [apply tret1; auto|].
  eapply tseq1; [apply (tcatch1 _ _ _ tt')|].
  - eapply tseq1; [apply s_get_connection; auto|]. intros. apply tret1; auto.
  - intros e s1 Hj1 _. destruct e; try (apply tthrow1; auto; fail). apply tret1; auto.
  - intros b s1 Hj1 _ _. apply cond1; intros _; [apply tret1; auto|apply tthrow1; auto].
Qed.
Lemma s_insert o s : im s -> T (insert o) s tt'.
Proof.
  intros Hj. unfold insert. eapply tseq1; [apply tawait1|]. go s1. ob r E. apply t_get. destruct (ahas (c_id r) (db s1) || _) eqn:Eh.
  - eapply tseq1; [apply (tthrow1 _ _ (fun _ _ => False)); auto|]. intros ? ? ? ? [].
  - eapply tseq1; [apply (tupd1 _ _ tt'); auto; eapply q_db; eauto|]. go s2. apply tawait1.
Qed.
Lemma s_reserve h q s : im s -> In (now s, Reserve h q) L -> T (reserve g h q) s tt'.
Proof.
  intros Hj Hin. unfold reserve. apply cond1; intros Hp; [apply tthrow1; auto|]. apply negb_false_iff in Hp.
  eapply tseq1; [apply s_unused; auto|]. go s1. apply t_get. eapply tseq1; [apply t_lift; auto|]. intros [l1 l2] ? _ _ [-> Hadm]. apply admission_inv in Hadm as [Hpick Hacc].
  eapply tseq1; [apply s_add; auto|]. go s2. eapply tseq1; [apply s_add; auto|]. go s3. fold (resv_id q).
  eapply tseq1; [apply s_alloc; auto|].
  { split; cbn; try discriminate. exists (now s), h, q. repeat (split; [auto; fail|]). intros W1 W2 W3. split; [|auto]. eapply pick_labels_ok; eauto. }
  intros o s4 Hj4 Hr4 Ho. cbn beta in Ho. pose proof (here_row _ _ _ Ho) as Hh.
  assert (Ha : ans o (h_correlation h) s4) by (eexists; split; [exact Ho|]; exists (now s), h, q; auto).
  eapply tseq1; [apply s_insert; auto|]. intros ? s5 Hj5 Hr5 _. assert (Hh5 : here o s5) by hmv. apply (ans_im _ _ _ _ Hj4 Hr5) in Ha.
  eapply tseq1; [apply (tupd1 _ _ tt'); auto; apply q_push; ne|]. intros. apply tret1; auto.
Qed.
Lemma s_op o s : im s -> In (now s, o) L -> T (op_prog g o) s tt'.
Proof.
  intros Hj Hin. destruct o; cbn [op_prog];
    [apply s_reserve; auto|apply s_commit; auto|apply s_abort; auto|apply s_provision; auto|apply s_release; auto|apply s_terminate; auto|apply tret1; auto..].
Qed.
Lemma s_restore_one o s : im s -> here o s -> T (restore_one g o) s tt'.
Proof.
  intros Hj Hh. unfold restore_one. ob r E. apply t_get. do 3 (apply cond1; intros _; [apply tret1; auto|]).
  assert (Hl : c_p r = PProvisioned -> lic o s). { intros Hp. exists r. split; [exact E|]. apply (g_prv _ (i_heap _ Hj _ _ E)). rewrite Hp. reflexivity. }
  eapply tseq1; [apply s_add; auto|]. intros _ s1 Hj1 Hr1 _. eapply tseq1; [apply s_add; auto|]. intros _ s2 Hj2 Hr2 _.
  assert (Hh2 : here o s2) by (exact (here_ev o s1 s2 Hj1 Hr2 (here_ev o s s1 Hj Hr1 Hh))).
  assert (Hl2 : c_p r = PProvisioned -> lic o s2) by (intros Hp; exact (lic_im o s1 s2 Hj1 Hr2 (lic_im o s s1 Hj Hr1 (Hl Hp)))).
  apply cond1; intros _; [apply s_endtime; auto|]. apply cond1; intros _; [apply cond1; intros _; [apply s_rollback; auto|apply s_schedule; ne]|].
  apply cond1; intros _.
  { destruct (c_p r); try (apply tret1; auto; fail).
    - destruct (c_end r); [apply s_schedule; ne|apply tret1; auto].
    - apply cond1; intros _; [destruct (c_end r); [apply s_schedule; ne|apply tret1; auto]|apply s_activate; auto]. }
  apply cond1; intros _; [|apply tret1; auto]. apply cond1; intros Hc.
  - apply andb_true_iff in Hc as [Hc _]. apply (proj1 (eqb_true (c_p r) PProvisioned)) in Hc.
    eapply tseq1; [instantiate (1 := tt'); destruct (c_start r); [apply s_schedule; ne|apply tret1; auto]|]. go s3.
    destruct (c_end r); [apply tret1; auto|apply tthrow1; auto].
  - apply cond1; intros _; [|apply tret1; auto]. destruct (c_end r); [apply s_schedule; ne|apply tthrow1; auto].
Qed.
Lemma s_restore os : forall s, im s -> Forall (fun o => here o s) os -> T (restore_loop g os) s tt'.
Proof.
  induction os as [|o os IH]; cbn [restore_loop]; intros s Hj H; [apply tret1; auto|]. inversion H as [|? ? H1 H2]; subst.
  eapply tseq1; [apply s_restore_one; auto|]. intros _ s1 Hj1 Hr1 _. apply IH; auto. rewrite Forall_forall in *. intros x Hx. eapply here_ev; [exact Hj|exact Hr1|]. auto.
Qed.
Lemma s_alloc_all rs : forall s, im s -> Forall good rs -> T (alloc_all rs) s (fun os s' => Forall (fun o => here o s') os).
Proof.
  induction rs as [|r rs IH]; cbn [alloc_all]; intros s Hj H; [apply tret1; auto|]. inversion H as [|? ? H1 H2]; subst.
  eapply tseq1; [apply s_alloc; auto|]. intros o s1 Hj1 Hr1 E. cbn beta in E. pose proof (here_row _ _ _ E) as Hh.
  eapply tseq1; [apply IH; auto|]. intros os s2 Hj2 Hr2 Hos. cbn beta in Hos. apply tret1; auto. constructor; [eapply here_ev; [exact Hj1|exact Hr2|exact Hh]|exact Hos].
Qed.
Lemma s_build s : im s -> T (build_schedule g) s tt'.
Proof.
  intros Hj. unfold build_schedule. eapply tseq1; [apply tawait1|]. go s1. apply t_get. rename H into Hj1.
  eapply tseq1; [apply s_alloc_all; auto|].
  { apply Forall_forall. intros r Hr. apply filter_In in Hr as [Hr _]. apply in_map_iff in Hr as ([k r'] & E & Hr). cbn in E. subst r'.
    eapply i_db; [exact Hj1|]. eapply In_aget; [apply Hj1|exact Hr]. }
  intros os s2 Hj2 Hr2 Hos. cbn beta in Hos. eapply tseq1; [apply tawait1|]. intros _ s3 Hj3 Hr3 _. apply s_restore; auto.
  rewrite Forall_forall in *. intros o Ho. eapply here_ev; [exact Hj2|exact Hr3|]. auto.
Qed.

(** * The machine *)
Notation minv1 := (minv im evs gim).
Lemma gim_sch x s : s_now (sch s) <= s_now x -> (forall id, ahas id (s_queue x) = true -> ahas id (s_queue (sch s)) = true) -> evs s (set_sch x s) /\ (im s -> im (set_sch x s)).
Proof. intros. apply q_sch; auto. Qed.
Lemma setup_step_R m e : minv1 m -> (forall o, e = ECall o -> In (now (m_st m), o) L) -> minv1 (mstep g m e) /\ evs (base m e) (m_st (mstep g m e)).
Proof.
  intros Hm Hc. apply (minv_step_R im evs gim); eauto.
  - intros s dt Hj. destruct (gim_sch (sch (tick dt s)) s) as [A B]; cbn; [lia|auto|]. split; [exact A|exact (B Hj)].
  - intros s f Hj. destruct f as [o|t [id|]|]; cbn [finish]; try (split; [apply evs_refl|exact Hj]).
    destruct (gim_sch (sched_step (sch s) (SFinish id)) s) as [A B]; cbn; [lia|auto|]. split; [exact A|exact (B Hj)].
  - intros s n t Hj Hn s'.
    assert (Gs : gim s s').
    { apply via; [apply guar_start|apply incl_refl|]. intros [I1 I2 I3 I4 I5 I6]. cbn. five. intros t' Ht'. left. eapply In_drop; eauto. }
    split; [eauto|]. split; [eauto|]. eapply t_wp. apply s_task; [eauto|]. apply tk_ev with (s := s); [apply Hj|eauto|]. apply (i_ready _ Hj). eapply nth_error_In. exact Hn.
  - intros s id due t Hj Hq Hcl s'.
    assert (Gs : gim s s') by (apply q_sch; [rewrite (sched_now (sch s) (SFire id)); lia|apply fire_queue]).
    split; [eauto|]. split; [eauto|]. eapply t_wp. apply s_task; [eauto|]. apply tk_ev with (s := s); [apply Hj|eauto|]. apply (i_call _ Hj id). split; [exact Hcl|]. unfold ahas. rewrite Hq. reflexivity.
  - destruct Hm as [Hj _]. destruct e; cbn [call_ok]; auto.
    + eapply t_wp. apply s_op; auto.
    + assert (Hj' : im (reboot (m_st m))).
      { destruct Hj as [(W1 & W2 & W3) I2 I3 I4 I5 I6]. split; cbn; auto; try discriminate.
        - split; [|split; [exact W2|exact W3]]. cbn. discriminate.
        - intros t [].
        - intros id t [H _]. discriminate. }
      split; [exact Hj'|]. eapply t_wp. apply s_build. exact Hj'.
Qed.
Lemma setup_step m e : minv1 m -> (forall o, e = ECall o -> In (now (m_st m), o) L) -> minv1 (mstep g m e).
Proof. intros H1 H2. apply setup_step_R; auto. Qed.
Lemma outs_step m e : minv1 m -> (forall o, e = ECall o -> In (now (m_st m), o) L) -> incl (outs (m_st m)) (outs (m_st (mstep g m e))).
Proof. intros H1 H2. destruct (setup_step_R m e H1 H2) as [_ [_ H]]. destruct e; exact H. Qed.
End Setup.

Lemma log_step g m e : exists l, m_log (mstep g m e) = m_log m ++ l /\ forall o, e = ECall o -> In (now (m_st m), o) l.
Proof.
  assert (Hr : forall i from p m, m_log (resume i from p m) = m_log m).
  { intros i from p m0. unfold resume. destruct (advance p (m_st m0)) as [[r|w k] s]; reflexivity. }
  destruct e as [o|n|id|i x|dt|]; cbn [mstep].
  - unfold launch. rewrite Hr. cbn. eexists. split; [reflexivity|]. intros o' [= ->]. left. reflexivity.
  - destruct (nth_error _ _); [unfold launch; rewrite Hr; cbn|]; exists []; rewrite app_nil_r; (split; [reflexivity|discriminate]).
  - destruct (aget _ _); [destruct (aget _ _); [destruct (_ <=? _); [unfold launch; rewrite Hr; cbn|]|]|]; exists []; rewrite app_nil_r; (split; [reflexivity|discriminate]).
  - destruct (aget _ _) as [[from [w k]]|]; [rewrite Hr; cbn|]; exists []; rewrite app_nil_r; (split; [reflexivity|discriminate]).
  - exists []. rewrite app_nil_r. split; [reflexivity|discriminate].
  - unfold launch. rewrite Hr. cbn. exists []. rewrite app_nil_r. split; [reflexivity|discriminate].
Qed.
Lemma log_run g l : forall m, exists l', m_log (mrun g m l) = m_log m ++ l'.
Proof.
  induction l as [|e l IH]; intros m; cbn; [exists []; rewrite app_nil_r; reflexivity|].
  destruct (IH (mstep g m e)) as (l2 & E2). destruct (log_step g m e) as (l1 & E1 & _). exists (l1 ++ l2). unfold mrun in E2. rewrite E2, E1, app_assoc. reflexivity.
Qed.
Lemma setup_run g L l : forall m, minv (im g L) evs (gim g L) m -> incl (m_log (mrun g m l)) L -> minv (im g L) evs (gim g L) (mrun g m l).
Proof.
  induction l as [|e l IH]; intros m Hm Hi; [exact Hm|]. cbn in *. apply IH; [|exact Hi]. apply setup_step; [exact Hm|].
  intros o He. apply Hi. destruct (log_run g l (mstep g m e)) as (l2 & E2). unfold mrun in E2. rewrite E2. destruct (log_step g m e) as (l1 & E1 & H1).
  rewrite E1. apply in_or_app. left. apply in_or_app. right. apply H1. exact He.
Qed.
Lemma setup_init g L t0 : minv (im g L) evs (gim g L) (minit t0).
Proof.
  split; [|intros ? ? ? ? []]. split; cbn; try discriminate; auto.
  - split; [|split]; cbn; try discriminate. constructor.
  - intros t [].
  - intros id t [H _]. discriminate.
Qed.
Lemma log_exact g m e : m_log (mstep g m e) = m_log m ++ match e with ECall o => [(now (m_st m), o)] | _ => [] end.
Proof.
  assert (Hr : forall i from p m, m_log (resume i from p m) = m_log m).
  { intros i from p m0. unfold resume. destruct (advance p (m_st m0)) as [[r|w k] s]; reflexivity. }
  destruct e as [o|n|id|i x|dt|]; cbn [mstep]; rewrite ?app_nil_r.
  - unfold launch. rewrite Hr. reflexivity.
  - destruct (nth_error _ _); [unfold launch; rewrite Hr; cbn|]; reflexivity.
  - destruct (aget _ _); [destruct (aget _ _); [destruct (_ <=? _); [unfold launch; rewrite Hr; cbn|]|]|]; reflexivity.
  - destruct (aget _ _) as [[from [w k]]|]; [rewrite Hr; cbn|]; reflexivity.
  - reflexivity.
  - unfold launch. rewrite Hr. reflexivity.
Qed.
Lemma out_justified g t0 l x : let m := mrun g (minit t0) l in In x (outs (m_st m)) -> just g (m_log m) (outs (m_st m)) x.
Proof.
  intros m Hin. assert (Hm : minv (im g (m_log m)) evs (gim g (m_log m)) m).
  { apply setup_run; [apply setup_init|apply incl_refl]. }
  destruct Hm as [Hj _]. pose proof (i_out _ _ _ Hj) as Ho. rewrite Forall_forall in Ho. exact (Ho _ Hin).
Qed.
Lemma setup_justified g t0 l cid a b : let m := mrun g (minit t0) l in In (OSetup cid a b) (outs (m_st m)) ->
  exists sp sl dp dl en, a = get_target g sp sl /\ b = get_target g dp dl /\
    reserved g (m_log m) cid sp sl dp dl en /\ committed g (m_log m) cid sp dp /\ provisioned g (m_log m) cid sp dp en.
Proof. exact (out_justified g t0 l (OSetup cid a b)). Qed.
Lemma answer_justified g t0 l cid corr : let m := mrun g (minit t0) l in In (OReserveConfirmed cid corr) (outs (m_st m)) -> asked_for (m_log m) cid corr.
Proof. exact (out_justified g t0 l (OReserveConfirmed cid corr)). Qed.
Lemma active_justified g t0 l cid : let m := mrun g (minit t0) l in In (ODataPlane cid true) (outs (m_st m)) -> In (OSetupDone cid true) (outs (m_st m)).
Proof. exact (out_justified g t0 l (ODataPlane cid true)). Qed.
