(** Scheduled calls preserve the serial invariant. *)
From Coq Require Import Permutation.
From Verif Require Import Base ModelLabel ModelSTP ModelAuthz ModelNRM ModelCalendar ModelState ModelScheduler ModelBackend
  SpecCalendar SpecBackend ProofsCalendar ProofsScheduler ProofsBackendWp ProofsBackendFoc ProofsBackendOps ProofsBackendInv ProofsBackendRow ProofsBackendApi.
Open Scope Z_scope.

Section Fire.
Variables (arm : bool -> Prop) (g : cfg) (Dl : Z -> Prop).
Notation WP := (wp Dl).
Notation Inv := (Inv arm g).

Lemma inv_pend_of s id due : Inv s -> aget id (s_queue (sch s)) = Some due ->
  exists cid t, aget cid (s_dict (sch s)) = Some id /\ aget id (calls s) = Some t /\ pend s cid = Some (t, due).
Proof.
  intros I Hq. assert (Hc : aget id (calls s) <> None) by (apply (n_calls _ _ _ _ I); congruence).
  destruct (aget id (calls s)) as [t|] eqn:Et; [|congruence].
  destruct (i_queue_dict _ (n_sinv _ _ _ _ I) id due (aget_In _ _ _ Hq)) as (cid & t0 & Hd & _).
  apply In_aget in Hd; [|apply (n_sinv _ _ _ _ I)]. exists cid, t. split; [exact Hd|]. split; [reflexivity|].
  unfold pend. rewrite Hd, Hq, Et. reflexivity.
Qed.

Definition fired (id : nat) (s : st) : st := set_sch (sched_step (sch s) (SFire id)) s.
Lemma now_fired id s : now (fired id s) = now s.
Proof. unfold fired, now. cbn. destruct (aget id _); [|reflexivity]. destruct (_ <=? _); reflexivity. Qed.
Lemma pend_fired s id cid due k : Inv s -> aget id (s_queue (sch s)) = Some due -> due <= now s -> aget cid (s_dict (sch s)) = Some id ->
  pend (fired id s) k = if eqb k cid then None else pend s k.
Proof.
  intros I Hq Hdue Hd. unfold pend, fired. cbn [set_sch sch calls sched_step]. rewrite Hq.
  replace (due <=? s_now (sch s)) with true by (symmetry; apply Z.leb_le; exact Hdue). cbn [s_dict s_queue].
  destruct (eqb_ok k cid) as [->|Hn].
  - rewrite Hd, aget_adel_eq by apply (n_sinv _ _ _ _ I). reflexivity.
  - destruct (aget k (s_dict (sch s))) as [id'|] eqn:Ek; [|reflexivity].
    rewrite aget_adel_ne; [reflexivity|]. intros ->. apply Hn. eapply dict_inj_sinv; [apply I|exact Ek|exact Hd].
Qed.

Lemma inv_fire s id cid t due : Inv s -> aget id (s_queue (sch s)) = Some due -> due <= now s -> aget cid (s_dict (sch s)) = Some id ->
  aget id (calls s) = Some t ->
  exists r, aget cid (db s) = Some r /\ timer_ok t due r /\ row_ok (now s) (view_of cid (outs s)) r /\
   Foc (armed arm) g cid (adel cid (db s)) (bookings g (adel cid (db s))) [] (task_obj t)
      (mkLoc r (liveb r) None (view_of cid (outs s)) r []) (fired id s) /\
   Ctx g cid (adel cid (db s)) (bookings g (adel cid (db s))) r.
Proof.
  intros I Hq Hdue Hd Ht.
  assert (Hp : pend s cid = Some (t, due)) by (unfold pend; rewrite Hd, Hq, Ht; reflexivity).
  destruct (n_tms _ _ _ _ I cid t due Hp) as (r & Hr & Ho & Htm). exists r. split; [exact Hr|]. split; [exact Htm|].
  destruct (inv_open arm g [] s cid r I Hr) as (H & F & _ & C).
  split; [apply (n_rows _ _ _ _ I cid r Hr)|]. split; [|exact C].
  pose proof (pend_fired s id cid due) as HP.
  assert (HD : forall k r', aget k (adel cid (db s)) = Some r' -> k <> cid).
  { intros k r'. rewrite aget_adel by apply (n_nd _ _ _ _ I). destruct (eqb_ok k cid); [discriminate|auto]. }
  destruct F. constructor; cbn [lr lheld ltm lv lo lrd] in *; auto.
  - intros k r' Hk. rewrite now_fired. apply (f_oth k r' Hk).
  - rewrite HP by assumption. rewrite eqb_refl. reflexivity.
  - intros k t' due' Hk. rewrite HP by assumption. rewrite eqb_neq by exact Hk. intros Hp'.
    destruct (n_tms _ _ _ _ I k t' due' Hp') as (r' & H1 & H2 & H3). exists r'. rewrite aget_adel_ne by exact Hk. auto.
  - intros k r' Hk. rewrite HP by assumption. rewrite eqb_neq by (apply (HD k r' Hk)). rewrite now_fired. apply (f_arm k r' Hk).
  - apply (n_heap _ _ _ _ I).
  - intros o' r' [].
  - intros o' r' [].
  - apply (sched_step_inv (sch s) (SFire id)), (n_sinv _ _ _ _ I).
  - intros id'. unfold fired. cbn [set_sch sch calls sched_step]. rewrite Hq. destruct (due <=? _); [|apply f_calls].
    cbn [s_queue]. rewrite aget_adel_n by apply (n_sinv _ _ _ _ I). destruct (eqb id' id); [congruence|apply f_calls].
  - intros id' Hc. apply f_fresh in Hc. unfold fired. cbn [set_sch sch sched_step]. rewrite Hq. destruct (due <=? _); exact Hc.
Qed.

Lemma inv_finish X s id : InvX arm g X s -> InvX arm g X (set_sch (sched_step (sch s) (SFinish id)) s).
Proof. intros I. pose proof (n_sinv _ _ _ _ I) as Hs. destruct I. constructor; auto. apply (sched_step_inv _ (SFinish id)), Hs. Qed.

Definition p_fire (t : task) (r0 r' : row) : Prop :=
  match t with
  | TTimeout _ => c_r r0 = RHeld /\ c_r r' = RStart /\ c_alloc r' = false
  | TActivate _ => exists b, r' = set_active b r0
  | TEndtime _ => r' = if eqb (c_l r0) LCreated then set_active false (with_l LPassedEnd r0) else r0
  | TReserve _ _ => True
  end.
Definition told (t : task) (cid : string) (s : st) : Prop :=
  match t with TTimeout _ => self_cancel g = false -> In (OReserveTimeout cid) (outs s) | _ => True end.
Lemma w_fire s id cid t due : Inv s -> aget id (s_queue (sch s)) = Some due -> due <= now s -> aget cid (s_dict (sch s)) = Some id ->
  aget id (calls s) = Some t ->
  wpo Dl g (task_prog g t) (fun x s' => Post arm g cid (fun _ => p_fire t) s x s' /\ told t cid s') (fired id s).
Proof.
  intros I Hq Hdue Hd Ht. destruct (inv_fire s id cid t due I Hq Hdue Hd Ht) as (r & Hr & Htm & K & F & C).
  set (D := adel cid (db s)) in *. set (R := bookings g D) in *. set (o := task_obj t) in *.
  assert (Hnow : now (fired id s) = now s) by apply now_fired.
  assert (HE : forall (x : result unit) x' s', Foc (armed arm) g cid D R [] o x' s' -> now s <= now s' -> Fin arm [] o x' s' -> evolves r (lr x') -> p_fire t r (lr x') -> told t cid s' ->
     wpt Dl g (ready s') (fun s' => Post arm g cid (fun _ => p_fire t) s x s' /\ told t cid s') (set_ready [] s')).
  { intros x x' s' F' N' G' Ev HP HT. assert (I' : Inv s') by (eapply foc_inv; eauto). rewrite (n_rd _ _ _ _ I'), (inv_ready _ _ _ _ I'). cbn [wpt].
    split; [|exact HT]. eapply post_done; eauto. }
  unfold wpo. destruct t as [o' corr|o'|o'|o']; cbn [task_prog task_obj timer_ok] in *; subst o.
  - destruct Htm.
  - destruct Htm as [Er El].
    assert (Ha : c_alloc r = false).
    { pose proof (k_alloc _ _ _ K) as Ka. destruct (c_alloc r); [|reflexivity]. rewrite Er in Ka. discriminate Ka; reflexivity. }
    destruct (k_unalloc _ _ _ K Ha) as [Hact _].
    eapply w_timeout; [exact F|exact Er|exact El|exact Ha|exact Hact| |].
    { cbn [lheld]. apply liveb_live. split; auto. }
    intros x' s' F' N' Ho HT.
    destruct (rolled_fin arm Dl [] o' _ _ x' r (view_of cid (outs s)) s' Ho) as (G2 & Ev & E1 & E2 & E3 & E4); try reflexivity; auto; [eapply row_ok_mono; [|exact K]; lia|].
    eapply HE; [exact F'|lia| |exact Ev|split; [exact Er|split; [exact E1|exact E2]]|exact HT].
    destruct G2 as (G1 & G2 & G3 & G4 & G5). split; [exact G1|]. split; [|split; [exact G3|split; [exact G4|exact G5]]].
    cbn [with_v lv lr]. rewrite E3 in G2. destruct (self_cancel g); [exact G2|]. apply ok_exp; [exact G2|exact E2|congruence].
  - destruct Htm as (Ea & Er & Ep & El & Hact & Hbg).
    eapply w_activate; [exact F|reflexivity|eapply ctx_apart; [exact F|eassumption|split; [right; assumption|assumption]|reflexivity]|]. intros x' s' F' N' Ho.
    assert (K9 : row_ok (now s') (view_of cid (outs s)) r) by (eapply row_ok_mono; [|exact K]; lia).
    assert (Hlb : forall b, liveb r = liveb (set_active b r)) by (intros b; apply liveb_eq; [reflexivity|]; cbn; tauto).
    assert (Hevb : forall b, evolves r (set_active b r)) by (intros b; ev).
    destruct Ho as [->|[(He & ->)|(e & due' & He & H1 & H2 & ->)]]; loc_cbn;
      (eapply HE; [exact F'|lia| |apply Hevb|eexists; reflexivity|exact Logic.I]); (split; [apply Hlb|]); loc_cbn.
    + rewrite (set_active_same false r Hact). split; [exact K9|]. split; [reflexivity|]. split; [apply armed_idle; [exact Hact|nh]|discriminate].
    + split; [apply ok_up; auto; intros b0 Hb0; specialize (Hbg b0 Hb0); lia|]. split; [reflexivity|]. split; [|discriminate].
      apply armed_up; [exact Er|]. intros e E'. change (c_end (set_active true r)) with (c_end r) in E'. congruence.
    + split; [apply ok_up; auto; intros b0 Hb0; specialize (Hbg b0 Hb0); lia|]. split; [reflexivity|]. split.
      * apply armed_up; [exact Er|]. intros e' E'. change (c_end (set_active true r)) with (c_end r) in E'. assert (e' = e) by congruence. subst e'. exists o', due'. split; [reflexivity|exact H2].
      * intros t d [= <- <-]. split; [|left; split; reflexivity]. split; [exact Er|]. exists e. split; [exact He|exact H1].
  - destruct Htm as (Er & e & Ee & Hle). destruct (eqb_ok (c_l r) LCreated) as [El|El].
    + eapply w_endtime; [exact F|exact El| |].
      { loc_cbn. intros Hc. apply liveb_live. split; [|exact El]. destruct Hc as [Hc|[Hc|Hc]]; auto.
        right. destruct (c_alloc r) eqn:E; [reflexivity|]. destruct (k_unalloc _ _ _ K E). congruence. }
      loc_cbn. intros s' F' N'. unfold free_loc in F'. loc_cbn.
      change (c_active (with_l LPassedEnd r)) with (c_active r) in F'. change (c_alloc (with_l LPassedEnd r)) with (c_alloc r) in F'.
      change (c_r (with_l LPassedEnd r)) with (c_r r) in F'.
      assert (K9 : row_ok (now s') (view_of cid (outs s)) r) by (eapply row_ok_mono; [|exact K]; lia).
      assert (Hov : exists e, c_end r = Some e /\ e <= now s') by (exists e; split; [exact Ee|lia]).
      assert (Hdead : forall b, liveb (set_active b (with_l LPassedEnd r)) = false) by (intros b; unfold liveb; cbn; apply andb_false_r).
      assert (Hdead' : liveb (with_l LPassedEnd r) = false) by (unfold liveb; cbn; apply andb_false_r).
      destruct (c_active r) eqn:Eact; [|destruct (c_alloc r || eqb (c_r r) RHeld) eqn:Eb].
      * eapply HE; [exact F'|lia| |cbn [lr]; ev|unfold p_fire; rewrite El; reflexivity|exact Logic.I].
        split; loc_cbn; [symmetry; apply Hdead|]. split; [|split; [reflexivity|split; [apply armed_idle; [reflexivity|nh]|discriminate]]].
        change (set_active false (with_l LPassedEnd r)) with (with_l LPassedEnd (set_active false r)). apply ok_over; [apply ok_down; [exact K9|exact Eact]|reflexivity|auto].
      * eapply HE; [exact F'|lia| |cbn [lr]; ev|cbn [lr]; unfold p_fire; rewrite El; symmetry; apply set_active_same; exact Eact|exact Logic.I].
        split; loc_cbn; [symmetry; apply Hdead'|]. split; [|split; [reflexivity|split; [apply armed_idle; [exact Eact|nh]|discriminate]]].
        apply ok_over; [exact K9|exact Eact|auto].
      * eapply HE; [exact F'|lia| |cbn [lr]; ev|cbn [lr]; unfold p_fire; rewrite El; symmetry; apply set_active_same; exact Eact|exact Logic.I].
        split; loc_cbn; [rewrite Hdead'; unfold liveb; apply orb_false_iff in Eb as [-> ->]; reflexivity|]. split; [|split; [reflexivity|split; [apply armed_idle; [exact Eact|nh]|discriminate]]].
        apply ok_over; [exact K9|exact Eact|auto].
    + eapply w_endtime_bad; [exact F|exact El|].
      eapply HE; [exact F|lia| |apply evolves_refl|unfold p_fire; rewrite (eqb_neq _ _ El); reflexivity|exact Logic.I].
      split; [reflexivity|]. loc_cbn. split; [rewrite Hnow; exact K|]. split; [reflexivity|]. split; [|discriminate].
      apply armed_idle; [apply (k_ended _ _ _ K El)|intros _; exact El].
Qed.
End Fire.
