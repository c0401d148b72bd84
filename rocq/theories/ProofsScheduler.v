From Verif Require Import Base ModelScheduler.
Open Scope Z_scope.

(** which pending ids: everything pending is registered under exactly one
    connection, was scheduled in the past and neither cancelled nor fired *)
Record sinv (s : sched) : Prop := {
  i_dict_nd : NoDup (akeys (s_dict s));
  i_queue_nd : NoDup (akeys (s_queue s));
  i_dict_inj : NoDup (map snd (s_dict s));
  i_dict_lt : forall c id, In (c, id) (s_dict s) -> (id < s_next s)%nat;
  i_queue_dict : forall id due, In (id, due) (s_queue s) -> exists c t,
      In (c, id) (s_dict s) /\ In (EvScheduled id c t) (s_trace s) /\ t <= due;
  i_queue_fresh : forall id due, In (id, due) (s_queue s) ->
      ~ In (EvCancelled id) (s_trace s) /\ forall a, ~ In (EvFired id a) (s_trace s);
  i_trace_lt : forall ev, In ev (s_trace s) ->
      match ev with EvScheduled id _ _ | EvCancelled id | EvInterrupt id | EvFired id _ => (id < s_next s)%nat end;
  i_fired : forall l1 l2 id a, s_trace s = l1 ++ EvFired id a :: l2 ->
      (exists c t, In (EvScheduled id c t) l1 /\ t <= a) /\
      ~ In (EvCancelled id) l1 /\ forall a', ~ In (EvFired id a') l1;
  i_sched_uniq : forall l1 l2 id c t, s_trace s = l1 ++ EvScheduled id c t :: l2 ->
      forall c' t', ~ In (EvScheduled id c' t') (l1 ++ l2);
  i_running_lt : forall id, In id (s_running s) -> (id < s_next s)%nat
}.

Lemma sinv_init now : sinv (sched_init now).
Proof.
  constructor; cbn.
  1-3: apply NoDup_nil.
  1-4: intros; tauto.
  1-2: intros [|? l1]; cbn; intros; discriminate.
  intros; tauto.
Qed.

Lemma snoc_split {A} (x y : A) tr l1 l2 : tr ++ [x] = l1 ++ y :: l2 ->
  (l2 = [] /\ x = y /\ l1 = tr) \/ exists l2', l2 = l2' ++ [x] /\ tr = l1 ++ y :: l2'.
Proof.
  destruct l2 as [|z l2'] using rev_ind.
  - intros H. apply app_inj_tail in H as [-> ->]. auto.
  - intros H. right. rewrite app_comm_cons, app_assoc in H. apply app_inj_tail in H as [-> ->]. eauto.
Qed.

Lemma In_adel_queue (q : list (nat * Z)) id x : NoDup (akeys q) -> In x (adel id q) -> In x q /\ fst x <> id.
Proof.
  induction q as [|[k v] q IH]; cbn; [tauto|]. intros Hnd. inversion Hnd as [|? ? Hni Hnd']; subst.
  destruct (eqb_ok id k) as [->|Hn].
  - intros Hx. split; [auto|]. intros E. apply Hni. rewrite <- E. apply (in_map fst). exact Hx.
  - cbn. intros [<-|Hx]; [split; [auto|cbn; congruence]|]. destruct (IH Hnd' Hx). auto.
Qed.
Lemma In_adel_dict (d : list (string * nat)) c x : NoDup (akeys d) -> In x (adel c d) -> In x d /\ fst x <> c.
Proof.
  induction d as [|[k v] q IH]; cbn; [tauto|]. intros Hnd. inversion Hnd as [|? ? Hni Hnd']; subst.
  destruct (eqb_ok c k) as [->|Hn].
  - intros Hx. split; [auto|]. intros E. apply Hni. rewrite <- E. apply (in_map fst). exact Hx.
  - cbn. intros [<-|Hx]; [split; [auto|cbn; congruence]|]. destruct (IH Hnd' Hx). auto.
Qed.
Lemma In_adel_other (d : list (string * nat)) c x : In x d -> fst x <> c -> In x (adel c d).
Proof.
  induction d as [|[k v] q IH]; cbn; [tauto|]. intros [<-|Hx] Hn; cbn in *.
  - destruct (eqb_ok c k); [congruence|]. left; reflexivity.
  - destruct (eqb_ok c k); [auto|]. right; auto.
Qed.
Lemma NoDup_snd_adel (d : list (string * nat)) c : NoDup (map snd d) -> NoDup (map snd (adel c d)).
Proof.
  induction d as [|[k v] q IH]; cbn; [auto|]. intros Hnd. inversion Hnd as [|? ? Hni Hnd']; subst.
  destruct (eqb c k); [auto|]. cbn. constructor; [|auto]. intros Hin. apply Hni.
  clear -Hin. induction q as [|[k' v'] q IH]; cbn in *; [tauto|]. destruct (eqb c k'); cbn in *; tauto.
Qed.
Lemma In_aset_dict (d : list (string * nat)) c id x : In x (aset c id d) -> x = (c, id) \/ (In x d).
Proof.
  induction d as [|[k v] q IH]; cbn; [intros [<-|[]]; auto|].
  destruct (eqb_ok c k) as [->|Hn]; cbn; intros [<-|Hx]; auto. destruct (IH Hx); auto.
Qed.
Lemma In_aset_new (d : list (string * nat)) c id : In (c, id) (aset c id d).
Proof.
  induction d as [|[k v] q IH]; cbn; [auto|]. destruct (eqb_ok c k) as [->|Hn]; cbn; auto.
Qed.
Lemma In_aset_other (d : list (string * nat)) c id x : In x d -> fst x <> c -> In x (aset c id d).
Proof.
  induction d as [|[k v] q IH]; cbn; [tauto|]. intros [<-|Hx] Hn; cbn in *.
  - destruct (eqb_ok c k); [congruence|]. left; reflexivity.
  - destruct (eqb_ok c k); right; auto.
Qed.
Lemma NoDup_snd_aset (d : list (string * nat)) c id : NoDup (map snd d) -> ~ In id (map snd d) -> NoDup (map snd (aset c id d)).
Proof.
  induction d as [|[k v] q IH]; cbn; intros Hnd Hid; [constructor; [tauto|constructor]|].
  inversion Hnd as [|? ? Hni Hnd']; subst.
  destruct (eqb c k); cbn.
  - constructor; tauto.
  - constructor; [|apply IH; tauto]. intros Hin. apply in_map_iff in Hin as ([k' v'] & E & Hin). cbn in E. subst v'.
    apply In_aset_dict in Hin as [E|Hin]; [injection E as _ ->; tauto|].
    apply Hni. apply in_map_iff. exists (k', v). auto.
Qed.
Lemma ahas_In (q : list (nat * Z)) id : ahas id q = true <-> exists due, In (id, due) q.
Proof.
  unfold ahas. destruct (aget id q) as [due|] eqn:E.
  - split; [|auto]. intros _. exists due. apply aget_In, E.
  - split; [discriminate|]. intros [due Hin]. apply aget_None in E. exfalso. apply E. apply (in_map fst) in Hin. exact Hin.
Qed.

Lemma defer_cancel_inv id s : sinv s -> sinv (defer_cancel id s).
Proof.
  intros I. unfold defer_cancel. destruct (s_pending s id) eqn:Ep; [|destruct (mem id (s_running s)) eqn:Er; [|exact I]].
  - unfold s_pending in Ep. apply ahas_In in Ep as [due Hin]. destruct I as [I1 I2 I3 I4 I5 I6 I7 I8 I9 I10].
    constructor; cbn [s_dict s_queue s_next s_trace s_now s_running]; auto.
    + apply NoDup_akeys_adel, I2.
    + intros id' due' Hq. apply In_adel_queue in Hq as [Hq _]; [|exact I2]. destruct (I5 _ _ Hq) as (c & t & H1 & H2 & H3).
      exists c, t. repeat split; auto. apply in_app_iff; auto.
    + intros id' due' Hq. apply In_adel_queue in Hq as [Hq Hne]; [|exact I2]. cbn in Hne. destruct (I6 _ _ Hq) as [H1 H2]. split.
      * intros H. apply in_app_iff in H as [H|[H|[]]]; [auto|]. congruence.
      * intros a H. apply in_app_iff in H as [H|[H|[]]]; [eapply H2; eauto|]. discriminate.
    + intros ev H. apply in_app_iff in H as [H|[<-|[]]]; [apply I7, H|]. destruct (I5 _ _ Hin) as (c & t & H1 & _). eauto.
    + intros l1 l2 id' a H. apply snoc_split in H as [(_ & H & _)|(l2' & -> & H)]; [discriminate|]. eauto.
    + intros l1 l2 id' c t H c' t'. apply snoc_split in H as [(_ & H & _)|(l2' & -> & H)]; [discriminate|].
      intros Hi. rewrite app_assoc in Hi. apply in_app_iff in Hi as [Hi|[Hi|[]]]; [eapply I9; eauto|discriminate].
  - apply mem_In in Er. destruct I as [I1 I2 I3 I4 I5 I6 I7 I8 I9 I10].
    constructor; cbn [s_dict s_queue s_next s_trace s_now s_running]; auto.
    + intros id' due' Hq. destruct (I5 _ _ Hq) as (c & t & H1 & H2 & H3).
      exists c, t. repeat split; auto. apply in_app_iff; auto.
    + intros id' due' Hq. destruct (I6 _ _ Hq) as [H1 H2]. split.
      * intros H. apply in_app_iff in H as [H|[H|[]]]; [auto|]. congruence.
      * intros a H. apply in_app_iff in H as [H|[H|[]]]; [eapply H2; eauto|]. discriminate.
    + intros ev H. apply in_app_iff in H as [H|[<-|[]]]; [apply I7, H|auto].
    + intros l1 l2 id' a H. apply snoc_split in H as [(_ & H & _)|(l2' & -> & H)]; [discriminate|]. eauto.
    + intros l1 l2 id' c t H c' t'. apply snoc_split in H as [(_ & H & _)|(l2' & -> & H)]; [discriminate|].
      intros Hi. rewrite app_assoc in Hi. apply in_app_iff in Hi as [Hi|[Hi|[]]]; [eapply I9; eauto|discriminate].
    + intros id' Hi. apply in_remove in Hi as [Hi _]. auto.
Qed.

Lemma defer_cancel_dict id s : s_dict (defer_cancel id s) = s_dict s.
Proof. unfold defer_cancel. destruct (s_pending s id); [reflexivity|]. destruct (mem id (s_running s)); reflexivity. Qed.
Lemma defer_cancel_set_dict id d s : defer_cancel id (set_dict d s) = set_dict d (defer_cancel id s).
Proof.
  unfold defer_cancel, set_dict, s_pending. cbn. destruct (ahas id (s_queue s)); [reflexivity|].
  destruct (mem id (s_running s)); reflexivity.
Qed.
Lemma defer_cancel_queue id s : NoDup (akeys (s_queue s)) ->
  (forall due, ~ In (id, due) (s_queue (defer_cancel id s))) /\
  (forall x, In x (s_queue (defer_cancel id s)) -> In x (s_queue s)).
Proof.
  intros Hnd. unfold defer_cancel. destruct (s_pending s id) eqn:E.
  - cbn. split.
    + intros due H. apply In_adel_queue in H as [_ H]; [|exact Hnd]. cbn in H. congruence.
    + intros x H. apply In_adel_queue in H as [H _]; [exact H|exact Hnd].
  - assert (Hno : forall due, ~ In (id, due) (s_queue s)).
    { intros due H. unfold s_pending in E. assert (ahas id (s_queue s) = true) by (apply ahas_In; eauto). congruence. }
    destruct (mem id (s_running s)); cbn; auto.
Qed.

Lemma set_dict_inv d s : sinv s -> NoDup (akeys d) -> NoDup (map snd d) ->
  (forall x, In x d -> In x (s_dict s)) ->
  (forall c id due, In (c, id) (s_dict s) -> In (id, due) (s_queue s) -> In (c, id) d) ->
  sinv (set_dict d s).
Proof.
  intros [I1 I2 I3 I4 I5 I6 I7 I8 I9 I10] H1 H2 H3 H4. constructor; cbn [set_dict s_dict s_queue s_next s_trace s_now s_running]; auto.
  - intros c id Hin. eapply I4. apply H3. exact Hin.
  - intros id due Hin. destruct (I5 _ _ Hin) as (c & t & G1 & G2 & G3). exists c, t. split; [eapply H4; eauto|auto].
Qed.

Lemma cancel_call_inv cid s : sinv s -> sinv (cancel_call cid s).
Proof.
  intros I. unfold cancel_call. destruct (aget cid (s_dict s)) as [id|] eqn:E; [|exact I].
  rewrite defer_cancel_set_dict. apply aget_In in E.
  pose proof (defer_cancel_inv id s I) as I'. pose proof (defer_cancel_queue id s (i_queue_nd _ I)) as [Hq _].
  apply set_dict_inv; auto; rewrite ?defer_cancel_dict.
  - apply NoDup_akeys_adel, I.
  - apply NoDup_snd_adel, I.
  - intros x Hx. apply In_adel_dict in Hx; [tauto|apply I].
  - intros c id' due Hc Hd. apply In_adel_other; [exact Hc|]. cbn. intros ->.
    assert (id' = id) by (assert (Ha := In_aget _ _ _ (i_dict_nd _ I) Hc); assert (Hb := In_aget _ _ _ (i_dict_nd _ I) E); congruence).
    subst id'. eapply Hq; eauto.
Qed.

Lemma fold_cancel d : forall s, sinv s ->
  let s' := fold_left (fun s (ce : string * nat) => defer_cancel (snd ce) s) d s in
  sinv s' /\ s_dict s' = s_dict s /\
  (forall x, In x (s_queue s') -> In x (s_queue s)) /\
  (forall c id due, In (c, id) d -> ~ In (id, due) (s_queue s')).
Proof.
  induction d as [|[c id] d IH]; cbn [fold_left]; intros s I.
  - split; [exact I|]. split; [reflexivity|]. split; [auto|]. intros c id due [].
  - destruct (IH (defer_cancel id s) (defer_cancel_inv id s I)) as (H1 & H2 & H3 & H4). cbn [snd].
    pose proof (defer_cancel_queue id s (i_queue_nd _ I)) as [Hq1 Hq2].
    split; [exact H1|]. split; [rewrite H2; apply defer_cancel_dict|]. split.
    + intros x Hx. apply Hq2, H3, Hx.
    + intros c' id' due [E|Hin]; [|eauto]. injection E as <- <-. intros Hx. eapply Hq1, H3, Hx.
Qed.
Lemma cancel_all_queue s : sinv s -> sinv (cancel_all s) /\ s_queue (cancel_all s) = [] /\ s_dict (cancel_all s) = [].
Proof.
  intros I. unfold cancel_all. destruct (fold_cancel (s_dict s) s I) as (H1 & H2 & H3 & H4).
  set (s' := fold_left _ _ _) in *.
  assert (Hq : s_queue s' = []).
  { destruct (s_queue s') as [|[id due] q] eqn:E; [reflexivity|]. exfalso.
    assert (Hin : In (id, due) (s_queue s')) by (rewrite E; left; reflexivity).
    destruct (i_queue_dict _ H1 _ _ Hin) as (c & t & Hd & _). rewrite H2 in Hd. rewrite <- E in *. eapply H4; eauto. }
  split; [|split; [exact Hq|reflexivity]].
  apply set_dict_inv; auto; try constructor; [intros x []|]. intros c id due _ Hin. rewrite Hq in Hin. destruct Hin.
Qed.

Lemma schedule_call_inv cid t s s' : sinv s -> schedule_call cid t s = Ok s' -> sinv s'.
Proof.
  intros I. unfold schedule_call.
  destruct (match aget cid (s_dict s) with Some id => s_pending s id | None => false end) eqn:E1; [discriminate|].
  destruct (negb (t >=? s_now s - second)) eqn:E2; [discriminate|]. intros [= <-].
  destruct I as [I1 I2 I3 I4 I5 I6 I7 I8 I9 I10].
  assert (Hold : forall c id due, In (c, id) (s_dict s) -> In (id, due) (s_queue s) -> c <> cid).
  { intros c id due Hc Hd ->. rewrite (In_aget _ _ _ I1 Hc) in E1. unfold s_pending in E1.
    assert (ahas id (s_queue s) = true) by (apply ahas_In; eauto). congruence. }
  assert (Hnew : forall due, ~ In (s_next s, due) (s_queue s)).
  { intros due Hin. destruct (I5 _ _ Hin) as (c & t0 & Hd & _). specialize (I4 _ _ Hd). lia. }
  assert (Htr : forall ev, In ev (s_trace s) -> match ev with EvScheduled id _ _ | EvCancelled id | EvInterrupt id | EvFired id _ => id <> s_next s end).
  { intros ev Hev. specialize (I7 _ Hev). destruct ev; lia. }
  constructor; cbn [s_dict s_queue s_next s_trace s_now s_running].
  - apply NoDup_akeys_aset, I1.
  - unfold akeys. rewrite map_app. cbn [map fst]. apply NoDup_snoc; [exact I2|].
    intros Hin. apply in_map_iff in Hin as ([id due] & E & Hin). cbn in E. subst id. eapply Hnew; eauto.
  - apply NoDup_snd_aset; [exact I3|]. intros Hin. apply in_map_iff in Hin as ([c id] & E & Hin). cbn in E. subst id.
    specialize (I4 _ _ Hin). lia.
  - intros c id Hin. apply In_aset_dict in Hin as [E|Hin]; [injection E as _ ->; lia|]. specialize (I4 _ _ Hin). lia.
  - intros id due Hin. apply in_app_iff in Hin as [Hin|[E|[]]].
    + destruct (I5 _ _ Hin) as (c & t0 & H1 & H2 & H3). exists c, t0. split; [|split; [apply in_app_iff; auto|auto]].
      apply In_aset_other; [exact H1|]. cbn. eapply Hold; eauto.
    + injection E as <- <-. exists cid, t. split; [apply In_aset_new|]. split; [apply in_app_iff; right; left; reflexivity|]. lia.
  - intros id due Hin. apply in_app_iff in Hin as [Hin|[E|[]]].
    + destruct (I6 _ _ Hin) as [H1 H2]. split.
      * intros H. apply in_app_iff in H as [H|[H|[]]]; [auto|discriminate].
      * intros a H. apply in_app_iff in H as [H|[H|[]]]; [eapply H2; eauto|discriminate].
    + injection E as <- <-. split.
      * intros H. apply in_app_iff in H as [H|[H|[]]]; [|discriminate]. apply Htr in H. congruence.
      * intros a H. apply in_app_iff in H as [H|[H|[]]]; [|discriminate]. apply Htr in H. congruence.
  - intros ev H. apply in_app_iff in H as [H|[<-|[]]]; [specialize (I7 _ H); destruct ev; lia|lia].
  - intros l1 l2 id a H. apply snoc_split in H as [(_ & H & _)|(l2' & -> & H)]; [discriminate|]. eauto.
  - intros l1 l2 id c t0 H c' t'. apply snoc_split in H as [(-> & H & ->)|(l2' & -> & H)].
    + injection H as <- _ _. rewrite app_nil_r. intros Hi. apply Htr in Hi. congruence.
    + intros Hi. rewrite app_assoc in Hi. apply in_app_iff in Hi as [Hi|[Hi|[]]]; [eapply I9; eauto|].
      injection Hi as <- _ _. assert (Hin : In (EvScheduled (s_next s) c t0) (s_trace s)) by (rewrite H; apply in_elt).
      apply Htr in Hin. congruence.
  - intros id Hin. specialize (I10 _ Hin). lia.
Qed.

Lemma fire_inv id s : sinv s -> sinv (sched_step s (SFire id)).
Proof.
  intros I. cbn [sched_step]. destruct (aget id (s_queue s)) as [due|] eqn:E; [|exact I].
  destruct (Z.leb_spec due (s_now s)) as [Hle|]; [|exact I]. apply aget_In in E.
  destruct I as [I1 I2 I3 I4 I5 I6 I7 I8 I9 I10].
  destruct (I5 _ _ E) as (c0 & t0 & G1 & G2 & G3). destruct (I6 _ _ E) as [G4 G5].
  constructor; cbn [s_dict s_queue s_next s_trace s_now s_running]; auto.
  - apply NoDup_akeys_adel, I2.
  - intros id' due' Hq. apply In_adel_queue in Hq as [Hq _]; [|exact I2]. destruct (I5 _ _ Hq) as (c & t & H1 & H2 & H3).
    exists c, t. repeat split; auto. apply in_app_iff; auto.
  - intros id' due' Hq. apply In_adel_queue in Hq as [Hq Hne]; [|exact I2]. cbn in Hne. destruct (I6 _ _ Hq) as [H1 H2]. split.
    + intros H. apply in_app_iff in H as [H|[H|[]]]; [auto|]. congruence.
    + intros a H. apply in_app_iff in H as [H|[H|[]]]; [eapply H2; eauto|]. congruence.
  - intros ev H. apply in_app_iff in H as [H|[<-|[]]]; [apply I7, H|eauto].
  - intros l1 l2 id' a H. apply snoc_split in H as [(-> & H & ->)|(l2' & -> & H)]; [|eauto].
    injection H as <- <-. split; [exists c0, t0; split; [exact G2|lia]|]. auto.
  - intros l1 l2 id' c t H c' t'. apply snoc_split in H as [(_ & H & _)|(l2' & -> & H)]; [discriminate|].
    intros Hi. rewrite app_assoc in Hi. apply in_app_iff in Hi as [Hi|[Hi|[]]]; [eapply I9; eauto|discriminate].
  - intros id' Hi. apply in_app_iff in Hi as [Hi|[<-|[]]]; eauto.
Qed.

Lemma sched_step_inv s o : sinv s -> sinv (sched_step s o).
Proof.
  intros I. destruct o as [cid t|cid| |dt|id|id].
  - cbn. destruct (schedule_call cid t s) eqn:E; [eapply schedule_call_inv; eauto|exact I].
  - apply cancel_call_inv, I.
  - apply cancel_all_queue, I.
  - destruct I as [I1 I2 I3 I4 I5 I6 I7 I8 I9 I10]. constructor; cbn; auto.
  - apply fire_inv, I.
  - destruct I as [I1 I2 I3 I4 I5 I6 I7 I8 I9 I10]. constructor; cbn; auto.
    intros id' Hi. apply in_remove in Hi as [Hi _]. auto.
Qed.
Lemma sched_run_inv now ops : sinv (sched_run now ops).
Proof.
  unfold sched_run. assert (G : forall ops s, sinv s -> sinv (fold_left sched_step ops s)).
  { clear. induction ops as [|o ops IH]; cbn [fold_left]; intros s I; [exact I|]. apply IH, sched_step_inv, I. }
  apply G, sinv_init.
Qed.

(** ** C12 *)
Lemma c12_one_pending now ops id1 id2 c due1 due2 t1 t2 :
  let s := sched_run now ops in
  In (id1, due1) (s_queue s) -> In (id2, due2) (s_queue s) ->
  In (EvScheduled id1 c t1) (s_trace s) -> In (EvScheduled id2 c t2) (s_trace s) -> id1 = id2.
Proof.
  intros s Hq1 Hq2 Ht1 Ht2. pose proof (sched_run_inv now ops) as I. fold s in I.
  assert (Huniq : forall id c1 x1 c2 x2, In (EvScheduled id c1 x1) (s_trace s) -> In (EvScheduled id c2 x2) (s_trace s) -> c1 = c2).
  { intros id c1 x1 c2 x2 H1 H2. apply in_split in H1 as (l1 & l2 & E). pose proof (i_sched_uniq _ I _ _ _ _ _ E c2 x2) as Hn.
    rewrite E in H2. apply in_app_iff in H2 as [H2|[H2|H2]]; [exfalso; apply Hn, in_app_iff; auto|congruence|exfalso; apply Hn, in_app_iff; auto]. }
  destruct (i_queue_dict _ I _ _ Hq1) as (c1 & x1 & D1 & T1 & _). destruct (i_queue_dict _ I _ _ Hq2) as (c2 & x2 & D2 & T2 & _).
  assert (c1 = c) by eauto. assert (c2 = c) by eauto. subst c1 c2.
  pose proof (In_aget _ _ _ (i_dict_nd _ I) D1). pose proof (In_aget _ _ _ (i_dict_nd _ I) D2). congruence.
Qed.
Lemma c12_trace now ops l1 l2 id a : s_trace (sched_run now ops) = l1 ++ EvFired id a :: l2 ->
  (exists c t, In (EvScheduled id c t) l1 /\ t <= a) /\ ~ In (EvCancelled id) l1 /\
  (forall a', ~ In (EvFired id a') (l1 ++ l2)).
Proof.
  intros E. pose proof (sched_run_inv now ops) as I. destruct (i_fired _ I _ _ _ _ E) as (H1 & H2 & H3).
  split; [exact H1|]. split; [exact H2|]. intros a' Hin. apply in_app_iff in Hin as [Hin|Hin]; [eapply H3; eauto|].
  apply in_split in Hin as (m1 & m2 & ->).
  assert (E' : s_trace (sched_run now ops) = (l1 ++ EvFired id a :: m1) ++ EvFired id a' :: m2) by (rewrite E, <- app_assoc; reflexivity).
  destruct (i_fired _ I _ _ _ _ E') as (_ & _ & H). eapply H. apply in_elt.
Qed.
Lemma c12_refuse cid t s : 
  (exists id, aget cid (s_dict s) = Some id /\ s_pending s id = true) \/ t < s_now s - second ->
  schedule_call cid t s = Err EAssertion /\ sched_step s (SSchedule cid t) = s.
Proof.
  intros H. assert (E : schedule_call cid t s = Err EAssertion).
  { unfold schedule_call. destruct H as [(id & -> & ->)|H]; [reflexivity|].
    destruct (match aget cid (s_dict s) with Some id => s_pending s id | None => false end); [reflexivity|].
    replace (negb (t >=? s_now s - second)) with true by lia. reflexivity. }
  split; [exact E|]. cbn. rewrite E. reflexivity.
Qed.
Lemma c12_accept cid t s : (forall id, aget cid (s_dict s) = Some id -> s_pending s id = false) -> s_now s - second <= t ->
  exists s', schedule_call cid t s = Ok s' /\ In (s_next s, Z.max t (s_now s)) (s_queue s') /\ s_trace s' = s_trace s ++ [EvScheduled (s_next s) cid t].
Proof.
  intros H Ht. unfold schedule_call.
  assert (E : (match aget cid (s_dict s) with Some id => s_pending s id | None => false end) = false)
    by (destruct (aget cid (s_dict s)); auto).
  rewrite E. replace (negb (t >=? s_now s - second)) with false by lia. eexists. split; [reflexivity|]. cbn. split; [|reflexivity].
  apply in_app_iff. right. left. f_equal. lia.
Qed.
(** a due call can be started by the reactor, so a pending one is not lost *)
Lemma c12_fires s id due : NoDup (akeys (s_queue s)) -> In (id, due) (s_queue s) -> due <= s_now s ->
  s_trace (sched_step s (SFire id)) = s_trace s ++ [EvFired id (s_now s)].
Proof.
  intros Hnd Hin Hle. cbn. rewrite (In_aget _ _ _ Hnd Hin). replace (due <=? s_now s) with true by lia. reflexivity.
Qed.
