(** The serial invariant holds along every legal history. *)
From Coq Require Import Permutation.
From Verif Require Import Base ModelLabel ModelSTP ModelAuthz ModelNRM ModelCalendar ModelState ModelScheduler ModelBackend
  SpecCalendar SpecBackend ProofsCalendar ProofsScheduler ProofsBackendWp ProofsBackendFoc ProofsBackendOps ProofsBackendInv ProofsBackendRow
  ProofsBackendApi ProofsBackendFire ProofsBackendAdmission ProofsBackendReserve ProofsBackendRestart ProofsBackendGrow.
Open Scope Z_scope.

Definition any : Z -> Prop := fun _ => True.
Lemma any_env (e : env) : Forall (fun x => any (snd x)) e.
Proof. apply Forall_forall. intros; exact Logic.I. Qed.
Lemma any_sound {A} g (p : prog A) Q s e : wpo any g p Q s -> Q (fst (run_op g p e s)) (snd (run_op g p e s)).
Proof. apply (wpo_sound any Logic.I). apply any_env. Qed.

(** a link up after a restart off its start has its end armed *)
Lemma restored_armed s0 s1 t k r r' v v' tm e : s0 <= t <= s1 -> c_id r = k /\ row_ok s0 v r -> c_id r' = k /\ row_ok s1 v' r' ->
  evolves r r' -> restored t s1 r r' tm -> (c_active r = true -> c_start r <> Some s0) -> c_active r' = true -> c_end r' = Some e ->
  exists o due, tm = Some (TEndtime o, due) /\ due <= Z.max e s1.
Proof.
  intros Ht [_ K] [_ K'] Ev Z Hoff Hact He. pose proof Ev as (Hcore & Hl & _). pose proof (active_live _ _ _ K' Hact) as Hl'.
  specialize (Hl Hl'). apply core_fields in Hcore as (_ & _ & _ & _ & _ & _ & _ & _ & C9). 
  assert (Her : c_end r = Some e) by congruence.
  assert (Hnov : forall x, c_end r = Some x -> t <= x).
  { intros x Hx. destruct (Z_lt_le_dec x t) as [Hlt|]; [|assumption]. destruct (z_over _ _ _ _ _ Z Hl x Hx Hlt) as [-> _]. discriminate Hact. }
  assert (Hal' : c_alloc r' = true) by (destruct (c_alloc r') eqn:E; [reflexivity|destruct (k_unalloc _ _ _ K' E); congruence]).
  assert (Hnh : c_r r <> RHeld).
  { intros Hh. destruct (Z_lt_le_dec (deadline r) t) as [Hlt|Hle].
    - destruct (z_exp _ _ _ _ _ Z Hl Hh Hnov Hlt) as (_ & Hx & _). congruence.
    - destruct (z_held _ _ _ _ _ Z Hl Hh Hle) as [-> _]. apply (k_alloc _ _ _ K') in Hal'. congruence. }
  assert (Hal : c_alloc r = true) by (destruct (proj1 Hl); [contradiction|assumption]).
  destruct (c_active r) eqn:Ea.
  - assert (Hp : c_p r = PProvisioned).
    { destruct (c_p r) eqn:Ep; try reflexivity; exfalso; assert (c_active r = false) by (apply (k_prov _ _ _ K); rewrite Ep; discriminate); congruence. }
    assert (Hs : started r t).
    { unfold started. pose proof (k_begun _ _ _ K Ea) as Hb. destruct (c_start r) as [b|]; [|exact Logic.I]. specialize (Hb b eq_refl).
      specialize (Hoff eq_refl). assert (b <> s0) by congruence. lia. }
    destruct (z_wait _ _ _ _ _ Z Hl Hal (or_intror (conj Hp (conj Ea Hs)))) with (e := e) as [_ (o & ->)]; auto.
    + unfold started in Hs. intros E. rewrite E in Hs. lia.
    + exists o, e. split; [reflexivity|lia].
  - destruct (z_idle _ _ _ _ _ Z Ea Hact) as [Hp Hs]. destruct (z_up _ _ _ _ _ Z Hl Hal Hnov Hp Ea Hs) as (b & -> & Hb).
    destruct (Hb Hact e Her) as (o & due & -> & Hd). exists o, due. split; [reflexivity|lia].
Qed.

Section Serial.
Variables (arm : bool -> Prop) (g : cfg).
Notation Inv := (Inv arm g).

Lemma step_commit h cid e s : Inv s -> Post arm g cid p_commit s (fst (serial_step g s (Commit h cid, e))) (snd (serial_step g s (Commit h cid, e))).
Proof. intros I. exact (any_sound g _ _ s e (w_commit arm g any h cid s I)). Qed.
Lemma step_abort h cid e s : Inv s -> Post arm g cid p_abort s (fst (serial_step g s (Abort h cid, e))) (snd (serial_step g s (Abort h cid, e))).
Proof. intros I. exact (any_sound g _ _ s e (w_abort arm g any h cid s I)). Qed.
Lemma step_provision h cid e s : Inv s -> Post arm g cid p_provision s (fst (serial_step g s (Provision h cid, e))) (snd (serial_step g s (Provision h cid, e))).
Proof. intros I. exact (any_sound g _ _ s e (w_provision arm g any h cid s I)). Qed.
Lemma step_release h cid e s : Inv s -> Post arm g cid p_release s (fst (serial_step g s (Release h cid, e))) (snd (serial_step g s (Release h cid, e))).
Proof. intros I. exact (any_sound g _ _ s e (w_release arm g any h cid s I)). Qed.
Lemma step_terminate h cid e s : Inv s -> Post arm g cid p_terminate s (fst (serial_step g s (Terminate h cid, e))) (snd (serial_step g s (Terminate h cid, e))).
Proof. intros I. exact (any_sound g _ _ s e (w_terminate arm g any h cid s I)). Qed.
Lemma step_reserve h q e s : Inv s -> legal_reserve q e s -> PostR arm g h q s (fst (serial_step g s (Reserve h q, e))) (snd (serial_step g s (Reserve h q, e))).
Proof. intros I L. apply (reserve_post arm g any Logic.I h q e s I L), any_env. Qed.
Lemma step_restart e s : Inv s -> restartable s ->
  PostB g s (Ok tt) (snd (serial_step g s (Restart, e))) /\ fst (serial_step g s (Restart, e)) = Ok "".
Proof.
  intros I L. pose proof (any_sound g _ _ _ e (w_restart g any arm s I L)) as P.
  unfold serial_step. destruct (run_op g (build_schedule g) e (reboot s)) as [x s']. cbn [fst snd] in *.
  destruct P as (P1 & P2 & -> & P3 & P4). split; [|reflexivity]. split; [exact P1|]. split; [exact P2|]. split; [reflexivity|]. split; [exact P3|exact P4].
Qed.

(** what a scheduled call does *)
Definition PostF (id : nat) (s : st) (s' : st) : Prop :=
  Inv s' /\ now s <= now s' /\
  ((s' = s /\ forall due, aget id (s_queue (sch s)) = Some due -> now s < due) \/
   exists cid t due r r', pend s cid = Some (t, due) /\ aget cid (s_dict (sch s)) = Some id /\ due <= now s /\
     aget cid (db s) = Some r /\ aget cid (db s') = Some r' /\ evolves r r' /\ p_fire t r r' /\ told g t cid s' /\
     forall k, k <> cid -> aget k (db s') = aget k (db s)).
Lemma now_finish id s : now (set_sch (sched_step (sch s) (SFinish id)) s) = now s.
Proof. unfold now. cbn. destruct (mem id (s_running (sch s))); reflexivity. Qed.
Lemma step_fire id e s : Inv s -> PostF id s (snd (serial_step g s (Fire id, e))).
Proof.
  intros I. unfold serial_step. destruct (aget id (s_queue (sch s))) as [due|] eqn:Eq.
  2:{ split; [exact I|]. split; [cbn [snd]; lia|]. left. split; [reflexivity|]. intros due E. rewrite Eq in E. discriminate. }
  destruct (inv_pend_of arm g s id due I Eq) as (cid & t & H1 & H2 & H3). rewrite H2.
  destruct (due <=? now s) eqn:Ed.
  2:{ split; [exact I|]. split; [cbn [snd]; lia|]. left. split; [reflexivity|]. intros d E. rewrite Eq in E. injection E as <-. lia. }
  pose proof (any_sound g _ _ _ e (w_fire arm g any s id cid t due I Eq ltac:(lia) H1 H2)) as P. fold (fired id s).
  destruct (run_op g (task_prog g t) e (fired id s)) as [x s']. cbn [fst snd] in *. destruct P as ((P1 & P2 & P3 & P4) & P5).
  split; [apply inv_finish, P1|]. split; [rewrite now_finish; exact P2|]. right.
  destruct (n_tms _ _ _ _ I cid t due H3) as (r & Hr & _). rewrite Hr in P4. destruct P4 as (r' & P6 & P7 & P8).
  exists cid, t, due, r, r'. split; [exact H3|]. split; [exact H1|]. split; [lia|]. split; [exact Hr|]. split; [exact P6|]. split; [exact P7|].
  split; [exact P8|]. split; [exact P5|exact P3].
Qed.

Lemma step_inv s oe : Inv s -> legal_step s oe -> (arm true -> fst oe = Restart -> off_start s) -> Inv (snd (serial_step g s oe)).
Proof.
  intros I L Hr. destruct oe as [o e]. destruct o; cbn [legal_step fst snd] in L.
  - apply (step_reserve h q e s I L).
  - apply (step_commit h cid e s I).
  - apply (step_abort h cid e s I).
  - apply (step_provision h cid e s I).
  - apply (step_release h cid e s I).
  - apply (step_terminate h cid e s I).
  - apply (step_fire id e s I).
  - apply inv_tick, I.
  - destruct (step_restart e s I L) as [(P1 & P0 & _ & P2 & P3) _]. revert P0 P1 P2 P3. generalize (snd (serial_step g s (Restart, e))). intros s' P0 P1 P2 P3.
    pose proof (n_rows _ _ _ _ I) as Irows. pose proof (n_rows _ _ _ _ P1) as Prows.
    destruct P1. constructor; auto. intros k r' Hk. split.
    { intros A Hact x Hx. specialize (Hr A eq_refl).
      destruct (aget k (db s)) as [r|] eqn:Er; [|rewrite P2 in Hk by exact Er; discriminate].
      destruct (P3 k r Er) as (t & r1 & Ht & Hr1 & Ev & Z). assert (r1 = r') by congruence. subst r1.
      eapply restored_armed; [exact Ht|exact (Irows k r Er)|exact (Prows k r' Hk)|exact Ev|exact Z|exact (Hr k r Er)|exact Hact|exact Hx]. }
    intros _ Hh Hc.
    destruct (aget k (db s)) as [r|] eqn:Er; [|rewrite P2 in Hk by exact Er; discriminate].
    destruct (P3 k r Er) as (t & r1 & Ht & Hr1 & Ev & Z). assert (r1 = r') by congruence. subst r1.
    pose proof Ev as (Hcore & Hl & _). assert (Hlr : live r) by (apply Hl; split; [left; exact Hh|exact Hc]).
    destruct (Irows k r Er) as [_ K]. destruct (Prows k r' Hk) as [_ K'].
    apply core_fields in Hcore as (_ & _ & C3 & _ & _ & _ & _ & _ & C9).
    assert (Hrh : c_r r = RHeld).
    { destruct (proj1 Hlr) as [Hx|Hx]; [exact Hx|]. apply (z_alloc _ _ _ _ _ Z) in Hx. apply (k_alloc _ _ _ K') in Hx. congruence. }
    assert (Hnov : forall e, c_end r = Some e -> t <= e).
    { intros x Hx. destruct (Z_lt_le_dec x t) as [Hlt|]; [|assumption]. destruct (z_over _ _ _ _ _ Z Hlr x Hx Hlt) as [-> _]. discriminate Hc. }
    destruct (Z_lt_le_dec (deadline r) t) as [Hlt|Hle].
    + destruct (z_exp _ _ _ _ _ Z Hlr Hrh Hnov Hlt) as [Hx _]. congruence.
    + destruct (z_held _ _ _ _ _ Z Hlr Hrh Hle) as [-> (o & Ho)]. left. exists o, (deadline r). split; [exact Ho|].
      pose proof (k_rt _ _ _ K) as Hrt. unfold deadline. split; [destruct (c_end r); lia|]. intros x Hx. rewrite Hx. lia.
Qed.
Lemma run_inv l : forall s, Inv s -> legal g s l -> (arm true -> calm_restarts g s l) -> Inv (serial_run g s l).
Proof.
  induction l as [|oe l IH]; intros s I L Hr; [exact I|]. destruct L as [L1 L2]. cbn [serial_run fold_left].
  apply IH; [|exact L2|intros A; apply (Hr A)]. apply step_inv; auto. intros A. apply (Hr A).
Qed.
End Serial.

Lemma legal_inv g t l : legal g (start t) l -> Inv holdarm g (serial_run g (start t) l).
Proof. intros L. apply run_inv; [apply inv_start|exact L|discriminate]. Qed.
Lemma legal_inv_arm g t l : legal g (start t) l -> calm_restarts g (start t) l -> Inv allarm g (serial_run g (start t) l).
Proof. intros L H. apply run_inv; [apply inv_start|exact L|intros _; exact H]. Qed.

(** * Calendar and separation *)
Lemma calendar_exact g t l : legal g (start t) l ->
  Permutation (cal (serial_run g (start t) l)) (bookings g (db (serial_run g (start t) l))).
Proof. intros L. apply (n_cal _ _ _ _ (legal_inv g t l L)). Qed.
Lemma no_double_booking g t l : legal g (start t) l -> forall k1 k2 r1 r2 res x, k1 <> k2 ->
  aget k1 (db (serial_run g (start t) l)) = Some r1 -> aget k2 (db (serial_run g (start t) l)) = Some r2 ->
  live r1 -> live r2 -> uses g r1 res -> uses g r2 res -> occupies r1 x -> occupies r2 x -> False.
Proof.
  intros L k1 k2 r1 r2 res x Hk E1 E2 L1 L2 U1 U2 O1 O2.
  destruct (n_sep _ _ _ _ (legal_inv g t l L) k1 k2 r1 r2 Hk E1 E2) as [S _]. exact (S L1 L2 res x U1 U2 O1 O2).
Qed.

(** * What the outputs say *)
Lemma view_up k l : v_up (view_of k l) = link_up k l.
Proof.
  induction l as [|x l IH] using rev_ind; [reflexivity|]. rewrite view_snoc. unfold link_up in *. rewrite fold_left_app. cbn [fold_left].
  rewrite <- IH. unfold see. destruct x; cbn -[eqb]; repeat match goal with |- context [eqb ?a ?b] => destruct (eqb a b) end; try reflexivity; destruct ok; reflexivity.
Qed.
Lemma view_com k l : v_com (view_of k l) = true <-> In (OCommitConfirmed k) l.
Proof.
  induction l as [|x l IH] using rev_ind; [cbn; split; [discriminate|tauto]|]. rewrite view_snoc, in_app_iff, <- IH. cbn [In].
  unfold see. destruct (eqb_ok (out_id x) k) as [E|E].
  - destruct x; cbn in *; try (destruct ok); intuition (try congruence).
  - split; [auto|]. intros [H|[->|[]]]; [exact H|]. exfalso. apply E. reflexivity.
Qed.
Lemma view_exp k l : v_exp (view_of k l) = true <-> In (OReserveTimeout k) l.
Proof.
  induction l as [|x l IH] using rev_ind; [cbn; split; [discriminate|tauto]|]. rewrite view_snoc, in_app_iff, <- IH. cbn [In].
  unfold see. destruct (eqb_ok (out_id x) k) as [E|E].
  - destruct x; cbn in *; try (destruct ok); intuition (try congruence).
  - split; [auto|]. intros [H|[->|[]]]; [exact H|]. exfalso. apply E. reflexivity.
Qed.

(** * Expiry (C33) *)
Definition dropped (r : row) : Prop := c_r r <> RHeld /\ c_alloc r = false.
Lemma post_row {A} arm g cid P s (x : result A) s' k r : Post arm g cid P s x s' -> aget k (db s) = Some r ->
  exists r', aget k (db s') = Some r' /\ (k <> cid -> r' = r) /\ (k = cid -> P x r r').
Proof.
  intros (_ & _ & H1 & H2) Hk. destruct (eqb_ok k cid) as [->|Hn].
  - rewrite Hk in H2. destruct H2 as (r' & H3 & _ & H4). exists r'. split; [exact H3|]. split; [congruence|auto].
  - exists r. rewrite H1 by exact Hn. split; [exact Hk|]. split; [reflexivity|congruence].
Qed.
Lemma dropped_step arm g s oe k r : Inv arm g s -> legal_step s oe -> aget k (db s) = Some r -> dropped r ->
  exists r', aget k (db (snd (serial_step g s oe))) = Some r' /\ dropped r'.
Proof.
  intros I L Hk [D1 D2]. destruct oe as [o e]. destruct o; cbn [legal_step fst snd] in L.
  - destruct (step_reserve arm g h q e s I L) as (_ & _ & P). revert P. destruct (fst (serial_step g s (Reserve h q, e))) as [cid|x].
    + intros (_ & Hn & t & l1 & l2 & r' & _ & _ & _ & _ & Ho & _). exists r. rewrite Ho by congruence. split; [exact Hk|split; assumption].
    + intros (E & _). exists r. rewrite E. split; [exact Hk|split; assumption].
  - destruct (post_row _ _ _ _ _ _ _ k r (step_commit arm g h cid e s I) Hk) as (r' & H1 & H2 & H3). exists r'. split; [exact H1|].
    destruct (eqb_ok k cid) as [E|E]; [|rewrite H2 by exact E; split; assumption]. specialize (H3 E).
    unfold p_commit in H3. destruct (fst _) in H3; [destruct H3; congruence|]. destruct H3 as [->|(H3 & _)]; [split; assumption|congruence].
  - destruct (post_row _ _ _ _ _ _ _ k r (step_abort arm g h cid e s I) Hk) as (r' & H1 & H2 & H3). exists r'. split; [exact H1|].
    destruct (eqb_ok k cid) as [E|E]; [|rewrite H2 by exact E; split; assumption]. specialize (H3 E).
    unfold p_abort in H3. destruct (fst _) in H3; [|subst r'; split; assumption]. destruct H3 as [[_ ->]|(_ & H3 & H4)]; split; assumption.
  - destruct (post_row _ _ _ _ _ _ _ k r (step_provision arm g h cid e s I) Hk) as (r' & H1 & H2 & H3). exists r'. split; [exact H1|].
    destruct (eqb_ok k cid) as [E|E]; [|rewrite H2 by exact E; split; assumption]. specialize (H3 E).
    unfold p_provision in H3. destruct (fst _) in H3; [destruct H3; congruence|]. destruct H3 as [->| ->]; split; assumption.
  - destruct (post_row _ _ _ _ _ _ _ k r (step_release arm g h cid e s I) Hk) as (r' & H1 & H2 & H3). exists r'. split; [exact H1|].
    destruct (eqb_ok k cid) as [E|E]; [|rewrite H2 by exact E; split; assumption]. specialize (H3 E).
    unfold p_release in H3. destruct (fst _) in H3; [subst r'; split; assumption|]. destruct H3 as [->| ->]; split; assumption.
  - destruct (post_row _ _ _ _ _ _ _ k r (step_terminate arm g h cid e s I) Hk) as (r' & H1 & H2 & H3). exists r'. split; [exact H1|].
    destruct (eqb_ok k cid) as [E|E]; [|rewrite H2 by exact E; split; assumption]. specialize (H3 E).
    unfold p_terminate in H3. destruct (fst _) in H3; subst r'; split; assumption.
  - destruct (step_fire arm g id e s I) as (_ & _ & [[-> _]|(cid & t & due & r0 & r' & Hpd & _ & _ & Hr0 & Hr' & _ & Hp & _ & Ho)]).
    + exists r. split; [exact Hk|split; assumption].
    + destruct (eqb_ok k cid) as [->|E]; [|exists r; rewrite Ho by exact E; split; [exact Hk|split; assumption]].
      rewrite Hk in Hr0. injection Hr0 as <-. exists r'. split; [exact Hr'|]. unfold p_fire in Hp. destruct t.
      * destruct (n_tms _ _ _ _ I _ _ _ Hpd) as (r1 & _ & _ & []).
      * destruct Hp as (Hp & _). congruence.
      * destruct Hp as (b & ->). split; assumption.
      * subst r'. destruct (eqb (c_l r) LCreated); split; assumption.
  - exists r. split; [exact Hk|split; assumption].
  - destruct (step_restart arm g e s I L) as [(_ & _ & _ & _ & P) _]. destruct (P k r Hk) as (t & r' & _ & H1 & _ & Z). exists r'. split; [exact H1|].
    destruct (z_dead _ _ _ _ _ Z) as [-> _]; [|split; assumption]. intros [[H|H] _]; congruence.
Qed.
Lemma dropped_run arm g l : forall s k r, Inv arm g s -> legal g s l -> (arm true -> calm_restarts g s l) -> aget k (db s) = Some r -> dropped r ->
  exists r', aget k (db (serial_run g s l)) = Some r' /\ dropped r'.
Proof.
  induction l as [|oe l IH]; intros s k r I L Hr Hk D; cbn [serial_run fold_left]; [eauto|].
  destruct L as [L1 L2].
  destruct (dropped_step arm g s oe k r I L1 Hk D) as (r1 & H1 & D1).
  apply (IH _ k r1); auto; [|intros A; apply (Hr A)]. apply step_inv; auto. intros A. apply (Hr A).
Qed.
Lemma commit_refused arm g h cid e s r : Inv arm g s -> aget cid (db s) = Some r -> c_r r <> RHeld ->
  (exists x, fst (serial_step g s (Commit h cid, e)) = Err x) /\ forall k, aget k (db (snd (serial_step g s (Commit h cid, e)))) = aget k (db s).
Proof.
  intros I Hr Hn. destruct (step_commit arm g h cid e s I) as (_ & _ & Ho & P). rewrite Hr in P. destruct P as (r' & H1 & _ & P).
  unfold p_commit in P. destruct (fst _) as [a|x]; [destruct P; congruence|]. split; [eauto|].
  intros k. destruct (eqb_ok k cid) as [->|E]; [|apply Ho, E]. rewrite H1, Hr. destruct P as [->|[P _]]; [reflexivity|congruence].
Qed.

Section Reach.
Variables (g : cfg) (t0 : Z) (l : list (op * env)).
Hypothesis L : legal g (start t0) l.
Notation s := (serial_run g (start t0) l).

Lemma expiry_fires cid id o due r e : aget cid (db s) = Some r -> aget cid (s_dict (sch s)) = Some id ->
  pend s cid = Some (TTimeout o, due) -> due <= now s ->
  let s' := snd (serial_step g s (Fire id, e)) in
  c_r r = RHeld /\ exists r', aget cid (db s') = Some r' /\ c_r r' = RStart /\ c_alloc r' = false /\
  Permutation (cal s') (bookings g (db s')) /\ (forall k, k <> cid -> aget k (db s') = aget k (db s)) /\
  (self_cancel g = false -> In (OReserveTimeout cid) (outs s')).
Proof.
  intros Hr Hid Hp Hdue s'. pose proof (legal_inv g t0 l L) as I. destruct (step_fire holdarm g id e s I) as (I' & _ & [[_ Hx]|HF]).
  - unfold pend in Hp. rewrite Hid in Hp. destruct (aget id (s_queue (sch s))) as [d|] eqn:Eq; [|discriminate].
    destruct (aget id (calls s)); [|discriminate]. injection Hp as _ <-. specialize (Hx d eq_refl). lia.
  - destruct HF as (cid' & t & due' & r0 & r' & Hp' & Hid' & _ & Hr0 & Hr' & _ & Hf & Ht & Ho).
    assert (cid' = cid) by (eapply dict_inj_sinv; [apply (n_sinv _ _ _ _ I)|exact Hid'|exact Hid]). subst cid'.
    rewrite Hp in Hp'. injection Hp' as <- <-. rewrite Hr in Hr0. injection Hr0 as <-. cbn [p_fire told] in Hf, Ht.
    destruct Hf as (F1 & F2 & F3). split; [exact F1|]. exists r'. split; [exact Hr'|]. split; [exact F2|]. split; [exact F3|].
    split; [apply (n_cal _ _ _ _ I')|]. split; [exact Ho|exact Ht].
Qed.
Lemma expiry_or_commit cid : ~ (In (OCommitConfirmed cid) (outs s) /\ In (OReserveTimeout cid) (outs s)).
Proof.
  intros [H1 H2]. apply view_com in H1. apply view_exp in H2. pose proof (legal_inv g t0 l L) as I.
  destruct (aget cid (db s)) as [r|] eqn:Er.
  - destruct (n_rows _ _ _ _ I cid r Er) as [_ K]. apply (k_com _ _ _ K) in H1. apply (k_exp _ _ _ K) in H2 as [H2 _]. congruence.
  - rewrite (n_new _ _ _ _ I cid Er) in H1. discriminate.
Qed.
Lemma commit_after_expiry cid h e : In (OReserveTimeout cid) (outs s) ->
  (exists x, fst (serial_step g s (Commit h cid, e)) = Err x) /\ forall k, aget k (db (snd (serial_step g s (Commit h cid, e)))) = aget k (db s).
Proof.
  intros H. apply view_exp in H. pose proof (legal_inv g t0 l L) as I. destruct (aget cid (db s)) as [r|] eqn:Er.
  - destruct (n_rows _ _ _ _ I cid r Er) as [_ K]. apply (k_exp _ _ _ K) in H as [_ H]. eapply commit_refused; eauto.
  - rewrite (n_new _ _ _ _ I cid Er) in H. discriminate.
Qed.
Lemma commit_after_abort cid h e h' e' r c l' : aget cid (db s) = Some r -> c_r r = RHeld ->
  fst (serial_step g s (Abort h cid, e)) = Ok c ->
  let s1 := snd (serial_step g s (Abort h cid, e)) in legal g s1 l' ->
  let s2 := serial_run g s1 l' in
  (exists x, fst (serial_step g s2 (Commit h' cid, e')) = Err x) /\ forall k, aget k (db (snd (serial_step g s2 (Commit h' cid, e')))) = aget k (db s2).
Proof.
  intros Hr Hh Ha s1 L1 s2. pose proof (legal_inv g t0 l L) as I. pose proof (step_abort holdarm g h cid e s I) as P.
  rewrite Ha in P. fold s1 in P. destruct P as (I1 & _ & _ & P). rewrite Hr in P. destruct P as (r' & Hr' & _ & P). cbn [p_abort] in P.
  destruct P as [[P _]|(_ & D1 & D2)]; [congruence|].
  destruct (dropped_run holdarm g l' s1 cid r' I1 L1 ltac:(discriminate) Hr' (conj D1 D2)) as (r2 & H2 & D3 & _).
  eapply commit_refused; [apply (run_inv holdarm); [exact I1|exact L1|discriminate]|exact H2|exact D3].
Qed.

Lemma held_timer cid r : aget cid (db s) = Some r -> c_r r = RHeld -> c_l r = LCreated ->
  (exists o due, pend s cid = Some (TTimeout o, due) /\ due <= now s + 120 * 1000000 /\ forall e, c_end r = Some e -> due <= Z.max e (now s)) \/
  exists e, c_end r = Some e /\ e < now s.
Proof. intros Hr H1 H2. exact (proj2 (n_arm _ _ _ _ (legal_inv g t0 l L) cid r Hr) eq_refl H1 H2). Qed.
Lemma active_timer cid r e : calm_restarts g (start t0) l -> aget cid (db s) = Some r -> c_active r = true -> c_end r = Some e ->
  exists o due, pend s cid = Some (TEndtime o, due) /\ due <= Z.max e (now s).
Proof. intros Hf Hr H1 H2. exact (proj1 (n_arm _ _ _ _ (legal_inv_arm g t0 l L Hf) cid r Hr) Logic.I H1 e H2). Qed.

(** * Links (C35) *)
Lemma active_begun cid r b : aget cid (db s) = Some r -> c_active r = true -> c_start r = Some b -> b <= now s.
Proof. intros Hr Ha Hb. destruct (n_rows _ _ _ _ (legal_inv g t0 l L) cid r Hr) as [_ K]. exact (k_begun _ _ _ K Ha b Hb). Qed.
Lemma link_active cid : link_up cid (outs s) = match aget cid (db s) with Some r => c_active r | None => false end.
Proof.
  rewrite <- view_up. pose proof (legal_inv g t0 l L) as I. destruct (aget cid (db s)) as [r|] eqn:Er.
  - destruct (n_rows _ _ _ _ I cid r Er) as [_ K]. apply (k_up _ _ _ K).
  - rewrite (n_new _ _ _ _ I cid Er). reflexivity.
Qed.
Lemma ended_inactive cid r : aget cid (db s) = Some r -> c_l r <> LCreated \/ c_p r = PReleased -> c_active r = false.
Proof.
  intros Hr H. destruct (n_rows _ _ _ _ (legal_inv g t0 l L) cid r Hr) as [_ K].
  destruct H as [H|H]; [apply (k_ended _ _ _ K H)|apply (k_prov _ _ _ K); congruence].
Qed.
End Reach.

(** a link that was up and is so no more has been told down in between *)
Lemma link_down cid s s' : ext s s' -> link_up cid (outs s) = true -> link_up cid (outs s') = false ->
  exists pre src dst post, outs s' = outs s ++ pre ++ OTeardown cid src dst :: post.
Proof.
  intros [x Hx] H1. rewrite Hx. unfold link_up in *. rewrite fold_left_app, H1. clear H1 Hx. intros H.
  assert (G : exists pre src dst post, x = pre ++ OTeardown cid src dst :: post).
  { revert H. induction x as [|y x IH]; cbn [fold_left]; [discriminate|]. intros H.
    destruct (out_link cid true y) eqn:Ey.
    - destruct (IH H) as (pre & src & dst & post & ->). exists (y :: pre), src, dst, post. reflexivity.
    - destruct y; cbn -[eqb] in Ey; try discriminate; try (destruct ok; try discriminate).
      + destruct (eqb cid0 cid); discriminate.
      + destruct (eqb_ok cid0 cid) as [->|]; [|discriminate]. exists [], src, dst, x. reflexivity. }
  destruct G as (pre & src & dst & post & ->). exists pre, src, dst, post. reflexivity.
Qed.
