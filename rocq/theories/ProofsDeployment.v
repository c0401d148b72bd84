(** A device under a backend carries the links of the active connections. *)
From Coq Require Import Permutation.
From Verif Require Import Base ModelLabel ModelSTP ModelAuthz ModelNRM ModelCalendar ModelState ModelScheduler ModelBackend ModelDrivers
  SpecLabel SpecCalendar SpecBackend SpecDrivers SpecDeployment ProofsLabel ProofsCalendar ProofsScheduler ProofsBackendWp ProofsBackendFoc ProofsBackendOps
  ProofsBackendInv ProofsBackendRow ProofsBackendApi ProofsBackendFire ProofsBackendAdmission ProofsBackendReserve ProofsBackendRestart
  ProofsBackendSerial ProofsBackendPairs.
Open Scope Z_scope.

(** * Labels of stored connections have one value *)
Definition single (l : option label) : Prop := forall x, l = Some x -> single_value x = true.
Definition row_picked (r : row) : Prop := single (c_slabel r) /\ single (c_dlabel r).
Lemma enum_single req l : In l (label_enum req) -> single l.
Proof.
  intros H x ->. apply label_enum_one_of in H. destruct req as [L|]; [|destruct H]. destruct H as (_ & v & Hv & _).
  unfold single_value. rewrite Hv. apply Z.eqb_refl.
Qed.
Lemma pick_single g t c src dst b e l1 l2 : pick_labels g t c src dst b e = Ok (l1, l2) -> single l1 /\ single l2.
Proof.
  unfold pick_labels. destruct (_ && _).
  - destruct (first_free t c (get_resource g (s_port src)) b e _) as [x|] eqn:E1; cbn [Base.bind]; [|discriminate].
    destruct (first_free t c (get_resource g (s_port dst)) b e _) as [y|] eqn:E2; cbn [Base.bind]; [|discriminate].
    intros [= <- <-]. apply first_free_ok in E1 as [I1 _]. apply first_free_ok in E2 as [I2 _]. split; eapply enum_single; eassumption.
  - destruct (match s_label src with Some _ => _ | None => _ end) as [cand|]; cbn [Base.bind]; [|discriminate].
    destruct (first_free2 _ _ _ _ _ _ _) as [y|] eqn:E1; cbn [Base.bind]; [|discriminate]. intros [= <- <-].
    apply first_free2_ok in E1 as (I1 & _). split; eapply enum_single; eassumption.
Qed.
Lemma core_picked r r' : core r' = core r -> row_picked r -> row_picked r'.
Proof. intros H. apply core_fields in H as (_ & _ & _ & _ & H1 & _ & H2 & _). unfold row_picked. rewrite H1, H2. auto. Qed.

(** every row either was there, with the same unchanging columns, or has just
    been booked *)
Lemma post_core {A} arm g cid P s (x : result A) s' k r' : Post arm g cid P s x s' -> aget k (db s') = Some r' ->
  exists r, aget k (db s) = Some r /\ core r' = core r.
Proof.
  intros (_ & _ & H1 & H2) Hk. destruct (eqb_ok k cid) as [->|Hn].
  - destruct (aget cid (db s)) as [r|] eqn:E.
    + destruct H2 as (r1 & H3 & (H4 & _) & _). exists r. split; [reflexivity|]. congruence.
    + destruct H2 as (e & _ & (H3 & _)). congruence.
  - rewrite H1 in Hk by exact Hn. eauto.
Qed.
Lemma step_core arm g s oe k r' : Inv arm g s -> legal_step s oe -> aget k (db (snd (serial_step g s oe))) = Some r' ->
  (exists r, aget k (db s) = Some r /\ core r' = core r) \/
  exists t h q l1 l2, fst oe = Reserve h q /\ k = chosen_id q /\ admission g t (cal s) h q = Ok (l1, l2) /\ r' = with_r RHeld (new_row h q k t l1 l2).
Proof.
  intros I L Hk. destruct oe as [o e]. destruct o; cbn [legal_step fst snd] in L.
  - destruct (step_reserve arm g h q e s I L) as (_ & _ & P). revert P. destruct (fst (serial_step g s (Reserve h q, e))) as [cid|x].
    + intros (Hc & Hn & t & l1 & l2 & r1 & _ & Ha & Hr & Hr1 & Ho & _). destruct (eqb_ok k cid) as [->|N].
      * right. exists t, h, q, l1, l2. split; [reflexivity|]. split; [exact Hc|]. split; [exact Ha|]. congruence.
      * left. rewrite Ho in Hk by exact N. eauto.
    + intros (E & _). left. rewrite E in Hk. eauto.
  - left. exact (post_core _ _ _ _ _ _ _ k r' (step_commit arm g h cid e s I) Hk).
  - left. exact (post_core _ _ _ _ _ _ _ k r' (step_abort arm g h cid e s I) Hk).
  - left. exact (post_core _ _ _ _ _ _ _ k r' (step_provision arm g h cid e s I) Hk).
  - left. exact (post_core _ _ _ _ _ _ _ k r' (step_release arm g h cid e s I) Hk).
  - left. exact (post_core _ _ _ _ _ _ _ k r' (step_terminate arm g h cid e s I) Hk).
  - left. destruct (step_fire arm g id e s I) as (_ & _ & [[E _]|(cid & t & due & r0 & r1 & _ & _ & _ & Hr0 & Hr1 & (Hc & _) & _ & _ & Ho)]).
    + rewrite E in Hk. eauto.
    + destruct (eqb_ok k cid) as [->|N]; [|rewrite Ho in Hk by exact N; eauto]. exists r0. split; [exact Hr0|]. congruence.
  - left. exists r'. split; [exact Hk|reflexivity].
  - left. destruct (step_restart arm g e s I L) as [(_ & _ & _ & Pn & P) _]. destruct (aget k (db s)) as [r|] eqn:E.
    + destruct (P k r E) as (t & r1 & _ & H1 & (H2 & _) & _). exists r. split; [reflexivity|]. congruence.
    + rewrite (Pn k E) in Hk. discriminate.
Qed.
Lemma run_picked g l : forall s, Inv holdarm g s -> legal g s l -> (forall k r, aget k (db s) = Some r -> row_picked r) ->
  forall k r, aget k (db (serial_run g s l)) = Some r -> row_picked r.
Proof.
  induction l as [|oe l IH]; intros s I L H k r Hk; [exact (H k r Hk)|]. destruct L as [L1 L2]. cbn [serial_run fold_left] in Hk.
  revert k r Hk. apply (IH (snd (serial_step g s oe))); [apply step_inv; auto; discriminate|exact L2|]. intros k r Hk.
  destruct (step_core holdarm g s oe k r I L1 Hk) as [(r0 & H0 & Hc)|(t & h & q & l1 & l2 & _ & _ & Ha & ->)].
  - eapply core_picked; [exact Hc|exact (H k r0 H0)].
  - apply admission_inv in Ha as [Ha _]. exact (pick_single _ _ _ _ _ _ _ _ _ Ha).
Qed.

(** * Ups and downs by turns *)
Lemma see_hist k v x :
  (v_hist (see k v x) = v_hist v /\ v_up (see k v x) = v_up v) \/ exists b, v_hist (see k v x) = b :: v_hist v /\ v_up (see k v x) = b.
Proof. unfold see. destruct (eqb (out_id x) k); [|auto]. destruct x; cbn; eauto. destruct ok; cbn; eauto. Qed.
Lemma turns_prefix k p q : turns (v_hist (view_of k (p ++ q))) (v_up (view_of k (p ++ q))) -> turns (v_hist (view_of k p)) (v_up (view_of k p)).
Proof.
  induction q as [|x q IH] using rev_ind; [rewrite app_nil_r; auto|]. rewrite app_assoc, view_snoc. intros H. apply IH.
  destruct (see_hist k (view_of k (p ++ q)) x) as [[E1 E2]|(b & E1 & E2)]; rewrite E1, E2 in H; [exact H|]. destruct H as [_ H].
  revert H. destruct (view_of k (p ++ q)) as [u c ex h] eqn:Ev. cbn [v_hist v_up]. intros H.
  assert (Hh : u = hd false h).
  { clear -Ev. replace u with (v_up (view_of k (p ++ q))) by (rewrite Ev; reflexivity). replace h with (v_hist (view_of k (p ++ q))) by (rewrite Ev; reflexivity).
    clear Ev. induction (p ++ q) as [|y l IH] using rev_ind; [reflexivity|]. rewrite view_snoc.
    destruct (see_hist k (view_of k l) y) as [[E1 E2]|(b' & E1 & E2)]; rewrite E1, E2; [exact IH|reflexivity]. }
  destruct h as [|b' h']; cbn [turns hd] in *; [exact Hh|]. destruct H as [H1 H2]. split; [congruence|]. exact H2.
Qed.

Section Deployed.
Context {C S : Type} (D : driver C) (exec : S -> C -> S) (may : link -> Prop).
Variables (g : cfg) (rows : list (string * row)) (l : list output).
Hypothesis Dp : deployed D may g rows l.
Hypothesis Du : undoes D may.
Hypothesis Hw : teardowns_work l.
Hypothesis Ht : timely g rows l.
Hypothesis Hpick : forall k r, aget k rows = Some r -> row_picked r.
Hypothesis Hid : forall k r, aget k rows = Some r -> c_id r = k.
Hypothesis Hmet : met g rows l.
Hypothesis Hturn : forall k, turns (v_hist (view_of k l)) (v_up (view_of k l)).
Hypothesis Hrow : forall k, aget k rows = None -> v_hist (view_of k l) = [].
Hypothesis Han : answered l.

Definition Follows (d : S) (p : list output) (d0 : S) : Prop :=
  exists ks, reach D exec may d0 d ks /\ NoDup (map k_id ks) /\
  forall k, In k ks <-> exists cid r, aget cid rows = Some r /\ link_up cid p = true /\ k = link_of r.

Lemma picked_row k r : aget k rows = Some r -> picked (link_of r).
Proof. intros H port x [[_ E]|[_ E]]; destruct (Hpick k r H) as [H1 H2]; [apply H1|apply H2]; symmetry; exact E. Qed.
Lemma holds_uses r res : holds D (link_of r) res -> uses g r res.
Proof.
  intros (port & lb & [[-> ->]|[-> ->]] & H); apply (dp_names _ _ _ _ _ Dp) in H; [left|right]; symmetry; exact H.
Qed.
Lemma up_snoc k p x : link_up k (p ++ [x]) = out_link k (link_up k p) x.
Proof. unfold link_up. rewrite fold_left_app. reflexivity. Qed.
Lemma device_snoc p x d0 : device D exec rows d0 (p ++ [x]) = undergo D exec rows (device D exec rows d0 p) x.
Proof. unfold device. rewrite fold_left_app. reflexivity. Qed.
Lemma stored_setup k p q : l = p ++ OSetupDone k true :: q -> exists r, aget k rows = Some r.
Proof.
  intros E. destruct (aget k rows) as [r|] eqn:Er; [eauto|]. exfalso. apply (hist_none k l); [apply Hrow, Er|].
  rewrite E. apply in_app_iff. right. left. reflexivity.
Qed.
Lemma turns_at k p q : l = p ++ q -> turns (v_hist (view_of k p)) (v_up (view_of k p)).
Proof. intros E. apply (turns_prefix k p q). rewrite <- E. apply Hturn. Qed.

Lemma follow d0 : forall q p, l = p ++ q -> answered q -> Follows (device D exec rows d0 p) p d0 -> Follows (device D exec rows d0 l) l d0.
Proof.
  intros q p E A. revert p E. induction A as [|x q Hx A IH|k a b ok q A IH]; intros p E F.
  - rewrite app_nil_r in E. subst p. exact F.
  - apply (IH (p ++ [x])); [rewrite <- app_assoc; exact E|]. rewrite device_snoc. clear IH.
    destruct F as (ks & Hr & Hn & Hk).
    assert (P0 : undergo D exec rows (device D exec rows d0 p) x = device D exec rows d0 p -> (forall k, link_up k (p ++ [x]) = link_up k p) ->
      Follows (undergo D exec rows (device D exec rows d0 p) x) (p ++ [x]) d0).
    { intros -> Hu. exists ks. split; [exact Hr|]. split; [exact Hn|]. intros k. rewrite Hk. split; intros (cid & r & H1 & H2 & H3); exists cid, r;
      (split; [exact H1|]); (split; [|exact H3]); [rewrite Hu|rewrite Hu in H2]; exact H2. }
    destruct x; try contradiction; try (apply P0; [reflexivity|intros k; rewrite up_snoc; reflexivity]).
    destruct ok; [|apply P0; [reflexivity|intros k; rewrite up_snoc; reflexivity]]. clear P0 Hx.
    destruct (stored_setup cid p q E) as (r & Er).
    assert (Hdown : link_up cid p = false).
    { assert (T : turns (v_hist (view_of cid (p ++ [OSetupDone cid true]))) (v_up (view_of cid (p ++ [OSetupDone cid true]))))
        by (apply (turns_at cid _ q); rewrite <- app_assoc; exact E).
      rewrite view_snoc in T. unfold see in T. cbn [out_id] in T. rewrite eqb_refl in T. cbn [v_hist v_up turns negb] in T. destruct T as [_ T].
      rewrite <- view_up. pose proof (turns_at cid p _ E) as T'. revert T T'. destruct (view_of cid p) as [u c ex h]; cbn. destruct h as [|b h]; cbn.
      - intros _ H. exact H.
      - intros [H1 _] [H2 _]. congruence. }
    destruct (dp_makes _ _ _ _ _ Dp cid r) as (cs & Hcs); [rewrite E; apply in_app_iff; right; left; reflexivity|exact Er|].
    cbn [undergo]. unfold send. rewrite Er, Hcs. destruct (dp_rows _ _ _ _ _ Dp cid r Er) as [Hmay Hname].
    exists (link_of r :: ks). split; [|split].
    + apply reach_up; auto; [eapply picked_row, Er|]. intros k' Hin. apply Hk in Hin as (cid' & r' & Er' & Hu' & ->).
      assert (Hne : cid' <> cid) by (intros ->; congruence). split.
      * cbn [link_of k_id]. rewrite (Hid _ _ Er), (Hid _ _ Er'). congruence.
      * intros res [H1 H2]. apply holds_uses in H1, H2.
        destruct (Ht p cid q E cid' r r' Hne Hu' Er Er' res H1 H2) as (t & T1 & T2).
        refine (Hmet p cid q E cid' r r' Hne _ Er Er' res t H1 H2 T1 T2). rewrite view_up. exact Hu'.
    + cbn [map]. constructor; [|exact Hn]. intros Hin. apply in_map_iff in Hin as (k' & E1 & Hin).
      apply Hk in Hin as (cid' & r' & Er' & Hu' & ->). cbn [link_of k_id] in E1. rewrite (Hid _ _ Er), (Hid _ _ Er') in E1. congruence.
    + intros k. cbn [In]. rewrite Hk. split.
      * intros [<-|(cid' & r' & Er' & Hu' & ->)].
        -- exists cid, r. split; [exact Er|]. split; [|reflexivity]. rewrite up_snoc. cbn [out_link]. rewrite eqb_refl. reflexivity.
        -- exists cid', r'. split; [exact Er'|]. split; [|reflexivity]. rewrite up_snoc, Hu'. cbn [out_link]. destruct (eqb _ _); reflexivity.
      * intros (cid' & r' & Er' & Hu' & ->). rewrite up_snoc in Hu'. cbn [out_link] in Hu'. destruct (eqb_ok cid cid') as [->|N].
        -- left. congruence.
        -- right. exists cid', r'. auto.
  - apply (IH (p ++ [OTeardown k a b; OTeardownDone k ok])); [rewrite <- app_assoc; exact E|]. clear IH.
    destruct ok.
    2:{ exfalso. apply (Hw k). rewrite E. apply in_app_iff. right. right. left. reflexivity. }
    replace (p ++ [OTeardown k a b; OTeardownDone k true]) with ((p ++ [OTeardown k a b]) ++ [OTeardownDone k true]) by (rewrite <- app_assoc; reflexivity).
    rewrite !device_snoc. cbn [undergo].
    assert (Hup : link_up k p = true).
    { assert (T : turns (v_hist (view_of k (p ++ [OTeardown k a b]))) (v_up (view_of k (p ++ [OTeardown k a b]))))
        by (apply (turns_at k _ (OTeardownDone k true :: q)); rewrite <- app_assoc; exact E).
      rewrite view_snoc in T. unfold see in T. cbn [out_id] in T. rewrite eqb_refl in T. cbn [v_hist v_up turns negb] in T. destruct T as [_ T].
      rewrite <- view_up. pose proof (turns_at k p _ E) as T'. revert T T'. destruct (view_of k p) as [u c ex h]; cbn. destruct h as [|b' h]; cbn.
      - discriminate.
      - intros [H1 _] [H2 _]. congruence. }
    destruct F as (ks & Hr & Hn & Hk).
    assert (Er : exists r, aget k rows = Some r).
    { rewrite <- view_up in Hup. apply up_setup in Hup. apply in_split in Hup as (p1 & p2 & ->).
      apply (stored_setup k p1 (p2 ++ OTeardown k a b :: OTeardownDone k true :: q)). rewrite E, <- app_assoc. reflexivity. }
    destruct Er as (r & Er). assert (Hin : In (link_of r) ks) by (apply Hk; exists k, r; auto).
    destruct (dp_makes _ _ _ _ _ Dp k r) as (cs & Hcs); [|exact Er|].
    { rewrite <- view_up in Hup. apply up_setup in Hup. rewrite E. apply in_app_iff. left. exact Hup. }
    destruct (dp_rows _ _ _ _ _ Dp k r Er) as [Hmay Hname].
    destruct (Du (link_of r) cs Hmay (picked_row k r Er) Hcs) as (cs' & Hcs').
    unfold send. rewrite Er. cbn [link_of k_id k_sp k_sl k_dp k_dl] in Hcs'. rewrite Hcs'.
    apply in_split in Hin as (ks1 & ks2 & ->). exists (ks1 ++ ks2). split; [|split].
    + eapply reach_down; [exact Hr|exact Hcs'].
    + rewrite map_app in *. cbn [map] in Hn. apply NoDup_remove_1 in Hn. exact Hn.
    + rewrite map_app in Hn. cbn [map] in Hn. apply NoDup_remove_2 in Hn. rewrite <- map_app in Hn.
      assert (Hsplit : forall x, In x (ks1 ++ ks2) <-> In x (ks1 ++ link_of r :: ks2) /\ x <> link_of r).
      { intros x. rewrite !in_app_iff. cbn [In]. split.
        - intros H. split; [tauto|]. intros ->. apply Hn. apply in_map. apply in_app_iff. exact H.
        - intros [H Hne]. destruct H as [H|[H|H]]; auto. congruence. }
      intros x. rewrite Hsplit, Hk. split.
      * intros [(cid' & r' & Er' & Hu' & ->) Hne]. exists cid', r'. split; [exact Er'|]. split; [|reflexivity].
        rewrite !up_snoc. cbn [out_link]. destruct (eqb_ok k cid') as [->|N]; [congruence|exact Hu'].
      * intros (cid' & r' & Er' & Hu' & ->). rewrite !up_snoc in Hu'. cbn [out_link] in Hu'. destruct (eqb_ok k cid') as [->|N]; [discriminate|].
        split; [exists cid', r'; auto|]. intros Ex. apply N. rewrite <- (Hid _ _ Er), <- (Hid _ _ Er').
        change (k_id (link_of r) = k_id (link_of r')). rewrite Ex. reflexivity.
Qed.
End Deployed.

Theorem deployment {C S : Type} (D : driver C) (exec : S -> C -> S) (may : link -> Prop) g t0 l (d0 : S) :
  let s := serial_run g (start t0) l in
  legal g (start t0) l -> deployed D may g (db s) (outs s) -> undoes D may -> teardowns_work (outs s) -> timely g (db s) (outs s) ->
  exists ks, reach D exec may d0 (device D exec (db s) d0 (outs s)) ks /\ NoDup (map k_id ks) /\
    forall k, In k ks <-> active_link (db s) k.
Proof.
  intros s L Dp Du Hw Ht. pose proof (legal_inv g t0 l L) as I. fold s in I.
  assert (F : Follows D exec may (db s) (device D exec (db s) d0 (outs s)) (outs s) d0).
  { apply (follow D exec may g (db s) (outs s) Dp Du Hw Ht) with (p := []) (q := outs s).
    - apply (run_picked g l (start t0)); [apply inv_start|exact L|discriminate].
    - intros k r Hk. apply (n_rows _ _ _ _ I k r Hk).
    - apply (n_met _ _ _ _ I).
    - intros k. destruct (aget k (db s)) as [r|] eqn:Er.
      + destruct (n_rows _ _ _ _ I k r Er) as [_ K]. rewrite (k_up _ _ _ K). pose proof (k_turns _ _ _ K) as T. rewrite (k_up _ _ _ K) in T. exact T.
      + rewrite (n_new _ _ _ _ I k Er). reflexivity.
    - intros k Er. rewrite (n_new _ _ _ _ I k Er). reflexivity.
    - reflexivity.
    - apply run_answered.
    - exists []. split; [apply reach_start|]. split; [constructor|]. intros k. split; [intros []|]. intros (cid & r & _ & H & _). discriminate. }
  destruct F as (ks & H1 & H2 & H3). exists ks. split; [exact H1|]. split; [exact H2|]. intros k. rewrite H3. unfold active_link.
  split; intros (cid & r & Er & Hu & ->); exists cid, r; (split; [exact Er|]); (split; [|reflexivity]);
    pose proof (link_active g t0 l L cid) as Hla; fold s in Hla; rewrite Er in Hla; congruence.
Qed.
