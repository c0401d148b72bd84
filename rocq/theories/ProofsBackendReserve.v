(** Reserving preserves the serial invariant (C29, C31-C33). *)
From Coq Require Import Permutation.
From Verif Require Import Base ModelLabel ModelSTP ModelAuthz ModelNRM ModelCalendar ModelState ModelScheduler ModelBackend
  SpecLabel SpecCalendar SpecBackend ProofsCalendar ProofsScheduler ProofsBackendWp ProofsBackendFoc ProofsBackendOps ProofsBackendInv ProofsBackendRow
  ProofsBackendApi ProofsBackendAdmission.
Open Scope Z_scope.

Definition chosen_id (q : resv) : string := match rs_cid q with Some c => c | None => rs_new q end.
(** what follows the check for an existing connection *)
Definition reserve_rest (g : cfg) (h : hdr) (q : resv) : prog string :=
  s <- get ;;
  ll <- lift (admission g (now s) (cal s) h q) ;;
  let '(l1, l2) := ll in
  add_reservation (get_resource g (s_port (rs_src q)) l1) (rs_start q) (rs_end q) ;;;
  add_reservation (get_resource g (s_port (rs_dst q)) l2) (rs_start q) (rs_end q) ;;;
  o <- alloc (new_row h q (chosen_id q) (now s) l1 l2) ;;
  insert o ;;;
  upd (push (TReserve o (h_correlation h))) ;;;
  Ret (chosen_id q).
Lemma reserve_split g h q e s : rs_p2p q = true -> run_op g (reserve g h q) e s =
  let '(r, s1, e1) := run (check_unused q) e s in
  match r with Ok _ => run_op g (reserve_rest g h q) e1 s1
             | Err x => (Err x, fst (run_tasks g (ready s1) e1 (set_ready [] s1))) end.
Proof.
  intros Hp. unfold run_op, reserve. rewrite Hp. cbn [negb]. rewrite run_bind.
  destruct (run (check_unused q) e s) as [[[[]|x] s1] e1]; [reflexivity|].
  destruct (run_tasks g (ready s1) e1 (set_ready [] s1)). reflexivity.
Qed.

Section Res.
Variables (arm : bool -> Prop) (g : cfg) (Dl : Z -> Prop).
Notation WP := (wp Dl).
Notation Inv := (Inv arm g).

Lemma w_unused q s : Inv s -> (rs_cid q = None -> ahas (rs_new q) (db s) = false) -> (rs_cid q = Some "" -> ahas "" (db s) = false) ->
  WP (check_unused q) (fun _ s' => Inv s' /\ same s s' /\ aget (chosen_id q) (db s') = None) (fun _ s' => Inv s' /\ same s s') s.
Proof.
  intros I H1 H2. unfold check_unused, chosen_id.
  assert (HA : forall k, ahas k (db s) = false -> aget k (db s) = None) by (intros k; unfold ahas; destruct (aget k (db s)); [discriminate|reflexivity]).
  destruct (rs_cid q) as [cid|].
  - destruct (eqb_ok cid "") as [->|Hn].
    + cbn [wp]. split; [exact I|]. split; [apply same_refl|apply HA; auto].
    + apply w_bind, w_catch, w_bind. apply (w_get arm g Dl []); [exact I| |].
      * intros Hd s' I' S'. cbn [wp]. split; [exact I'|]. split; [exact S'|]. destruct S' as (-> & _). exact Hd.
      * intros r Hr H o s' S' F G C I'. cbn [wp]. split; [exact I'|exact S'].
  - cbn [wp]. split; [exact I|]. split; [apply same_refl|apply HA; auto].
Qed.

Lemma foc_insert cid o nr s : InvX arm g (bk g nr) s -> aget cid (db s) = None -> c_id nr = cid -> aget o (heap s) = Some nr ->
  Foc (armed arm) g cid (db s) (bookings g (db s)) [] o (mkLoc nr true None v0 nr []) (set_db (aset cid nr (db s)) s).
Proof.
  intros I Hd Hid Ho. destruct I. constructor; loc_cbn; cbn [set_db db heap nobj cal sch calls ready outs]; auto.
  - apply aget_aset_eq.
  - rewrite adel_aset. apply adel_absent, Hd.
  - apply NoDup_akeys_aset, n_nd.
  - change (pend s cid = None). destruct (pend s cid) as [[t due]|] eqn:E; [|reflexivity].
    destruct (n_tms _ _ _ E) as (r & Hr & _). congruence.
  - intros t t' tm r'. apply armed_mono.
  - intros o' r [].
  - intros o' r [].
  - apply met_new; [exact n_met|]. rewrite n_new by exact Hd. reflexivity.
Qed.

(** when the request was looked at, what was booked, the row and its timer *)
Definition booked (h : hdr) (q : resv) (s s' : st) (cid : string) : Prop :=
  cid = chosen_id q /\ aget cid (db s) = None /\
  exists t l1 l2 r', now s <= t <= now s' /\ admission g t (cal s) h q = Ok (l1, l2) /\
  r' = with_r RHeld (new_row h q cid t l1 l2) /\ aget cid (db s') = Some r' /\
  (forall k, k <> cid -> aget k (db s') = aget k (db s)) /\
  Permutation (cal s') (bk g r' ++ cal s) /\
  ((exists o t1 due, t <= t1 <= now s' /\ pend s' cid = Some (TTimeout o, due) /\
      due = Z.max (match rs_end q with Some e => Z.min (t1 + TPC_TIMEOUT) e | None => t1 + TPC_TIMEOUT end) t1) \/
   exists e, rs_end q = Some e /\ e < now s' - second).
Definition PostR (h : hdr) (q : resv) (s : st) (x : result string) (s' : st) : Prop :=
  Inv s' /\ now s <= now s' /\ match x with Err _ => same s s' | Ok cid => booked h q s s' cid end.

Lemma new_sep h q cid s l1 l2 : Inv s -> forward forever (now s) (rs_start q) (rs_end q) ->
  cal_check (now s) (cal s) (get_resource g (s_port (rs_src q)) l1) (rs_start q) (rs_end q) = Ok tt ->
  cal_check (now s) (cal s) (get_resource g (s_port (rs_dst q)) l2) (rs_start q) (rs_end q) = Ok tt ->
  let r := with_r RHeld (new_row h q cid (now s) l1 l2) in
  forall k r', aget k (db s) = Some r' -> sep2 g r r' /\ sep2 g r' r.
Proof.
  intros I Hf C1 C2 r k r' Hk.
  assert (Hap : live r' -> apart g r r').
  { intros Hl res t U1 U2 O1 O2. destruct (n_rows _ _ _ _ I k r' Hk) as [_ K].
    assert (Hin : In (mk_entry res (c_start r') (c_end r')) (cal s)).
    { eapply Permutation_in; [apply Permutation_sym, (n_cal _ _ _ _ I)|]. cbn [app]. unfold bookings. apply in_flat_map. exists (k, r').
      split; [apply aget_In, Hk|]. cbn [snd]. apply liveb_live in Hl. rewrite Hl. destruct U2 as [->| ->]; [left|right; left]; reflexivity. }
    assert (Hc : cal_check (now s) (cal s) res (rs_start q) (rs_end q) = Ok tt) by (destruct U1 as [->| ->]; assumption).
    eapply check_disjoint; [exact Hc|apply (k_rt _ _ _ K)|exact Hin|]. exists t. split; [exact O2|exact O1]. }
  split; split.
  - intros _ Hl. apply Hap, Hl.
  - intros [_ Hx]. discriminate.
  - intros Hl _. apply apart_sym, Hap, Hl.
  - intros [_ Hend] _ e He He'. destruct (n_rows _ _ _ _ I k r' Hk) as [_ K]. destruct (k_end _ _ _ K Hend) as (en & E1 & E2).
    assert (Hs : rs_end q = c_end r').
    { assert (G : forall x, In e (bk g x) -> snd (snd e) = c_end x) by (intros x [<-|[<-|[]]]; reflexivity).
      apply G in He, He'. change (c_end r) with (rs_end q) in He'. congruence. }
    unfold forward in Hf. rewrite Hs, E1 in Hf. destruct (rs_start q) as [b|] eqn:Eb; [|lia].
    destruct (legal_dec (now s) (Some b) (rs_end q)) as [[[_ Hl] _]|[_ Hx]]; [|rewrite Hx in C1; discriminate].
    specialize (Hl b eq_refl). lia.
Qed.

Lemma w_reserve_rest h q s : Inv s -> aget (chosen_id q) (db s) = None -> forward forever (now s) (rs_start q) (rs_end q) ->
  wpo Dl g (reserve_rest g h q) (PostR h q s) s.
Proof.
  intros I Hd Hf. unfold wpo, reserve_rest. apply w_bind. cbn [get wp]. apply w_bind.
  destruct (admission g (now s) (cal s) h q) as [[l1 l2]|x] eqn:Ea; cbn [lift wp].
  2:{ rewrite (n_rd _ _ _ _ I), (inv_ready _ _ _ _ I). cbn [wpt]. split; [exact I|]. split; [lia|]. apply same_refl. }
  pose proof (admission_inv g (now s) (cal s) h q l1 l2 Ea) as [Hpick _]. apply pick_labels_free in Hpick as [C1 C2].
  set (cid := chosen_id q) in *. set (nr := new_row h q cid (now s) l1 l2).
  set (r1 := with_r RHeld nr).
  pose proof (new_sep h q cid s l1 l2 I Hf C1 C2) as Hsep. cbn zeta in Hsep. fold nr r1 in Hsep.
  apply w_bind. cbn [add_reservation upd wp]. apply w_bind. cbn [add_reservation upd wp]. apply w_bind. cbn [alloc get bind upd wp].
  set (s2 := set_cal _ (set_cal _ s)).
  assert (I2 : InvX arm g (bk g nr) s2).
  { pose proof (n_cal _ _ _ _ I) as Hc. destruct I. constructor; auto. unfold s2. cbn [set_cal cal db]. unfold cal_add. rewrite <- app_assoc.
    eapply Permutation_trans; [apply Permutation_app_comm|]. apply Permutation_app_head. exact Hc. }
  change (nobj s2) with (nobj s). 
  pose proof (inv_alloc arm g _ nr s2 I2) as I3. set (s3 := new_obj nr s2) in *.
  apply w_bind. unfold insert. apply w_bind. cbn [await wp]. intros y dt _. cbn [answer wp].
  pose proof (inv_tick arm g _ dt s3 I3) as I4. set (s4 := tick dt s3) in *.
  assert (Hn4 : now s <= now s4) by (pose proof (now_tick dt s3); exact H).
  assert (Hdb4 : db s4 = db s) by reflexivity.
  assert (Ho : aget (nobj s) (heap s4) = Some nr) by (cbn; apply aget_aset_eq).
  apply w_bind. unfold obj. cbn [get bind wp]. rewrite Ho. cbn [wp bind]. change (c_id nr) with cid.
  unfold ahas. rewrite Hdb4, Hd. change (c_start nr) with (rs_start q). change (c_end nr) with (rs_end q).
  replace (span_check (rs_start q) (rs_end q)) with true.
  2:{ unfold span_check, forward in *. destruct (rs_start q), (rs_end q); auto. symmetry. lia. }
  cbn [orb negb upd bind wp].
  pose proof (foc_insert cid (nobj s) nr s4 I4 Hd eq_refl Ho) as F5.
  eapply w_await; [discriminate|exact F5|]. intros s6 F6 N6. cbn [bind wp upd].
  apply (foc_push _ _ _ _ _ _ _ _ _ (TReserve (nobj s) (h_correlation h))) in F6.
  rewrite (f_rd _ _ _ _ _ _ _ _ _ F6). loc_cbn. cbn [app wpt].
  apply (foc_ready _ _ _ _ _ _ _ _ _ []) in F6. loc_cbn.
  set (s7 := set_ready [] (push _ s6)) in *.
  assert (Hn7 : now s4 <= now s7) by exact N6.
  assert (Hfin : forall x s', Foc (armed arm) g cid (db s) (bookings g (db s)) [] (nobj s) x s' -> now s7 <= now s' ->
     (exists tm, x = mkLoc r1 true tm v0 r1 [] /\ match tm with
        | None => exists e, rs_end q = Some e /\ e < now s' - second
        | Some (t, due) => t = TTimeout (nobj s) /\ exists t1, now s <= t1 <= now s' /\ due = Z.max (match rs_end q with Some e => Z.min (t1 + TPC_TIMEOUT) e | None => t1 + TPC_TIMEOUT end) t1
        end) -> PostR h q s (Ok cid) s').
  { intros x s' F N (tm & -> & Htm). assert (I' : Inv s').
    { eapply (foc_inv arm g cid (db s) (bookings g (db s)) [] (nobj s) _ s' r1); [exact F| | |apply evolves_refl]; loc_cbn.
      - split; [reflexivity|]. loc_cbn. split; [|split; [reflexivity|split; [|]]].
        2:{ split; [discriminate|]. intros _ _ _. change (c_end r1) with (rs_end q). destruct tm as [[t due]|].
            - destruct Htm as (-> & t1 & Ht1 & ->). left. exists (nobj s). eexists. split; [reflexivity|].
              assert (0 <= TPC_TIMEOUT) by (vm_compute; discriminate).
              split; [destruct (rs_end q); lia|]. intros x Hx. rewrite Hx. lia.
            - destruct Htm as (e & E & Hlt). right. exists e. split; [exact E|]. assert (0 <= second) by (vm_compute; discriminate). lia. }
        + constructor; try (cbn; intros; congruence); try (left; reflexivity).
          all: try exact Hf. all: try (right; left; reflexivity). all: try (change (c_rtime r1) with (now s); lia).
          all: try reflexivity. all: cbn; auto.
        + intros t due ->. destruct Htm as [-> _]. split; [split; reflexivity|left; split; reflexivity].
      - constructor.
        + apply Permutation_refl.
        + apply (n_sep _ _ _ _ I).
        + exact Hf.
        + intros k r' Hk. apply (Hsep k r' Hk).
        + intros k r' Hk. apply (Hsep k r' Hk). }
    split; [exact I'|]. split; [lia|]. split; [reflexivity|]. split; [exact Hd|]. exists (now s), l1, l2, r1.
    split; [lia|]. split; [exact Ea|]. split; [reflexivity|]. split; [apply (f_row _ _ _ _ _ _ _ _ _ F)|]. split.
    { intros k Hk. rewrite <- (f_D _ _ _ _ _ _ _ _ _ F). rewrite aget_adel_ne; auto. }
    split; [eapply Permutation_trans; [apply (f_cal _ _ _ _ _ _ _ _ _ F)|]; loc_cbn; apply Permutation_app_head, Permutation_sym, (n_cal _ _ _ _ I)|].
    pose proof (f_tm _ _ _ _ _ _ _ _ _ F) as Hp. loc_cbn. destruct tm as [[t due]|].
    - left. destruct Htm as (-> & t1 & Ht1 & Hdue). exists (nobj s), t1, due. auto.
    - right. exact Htm. }
  assert (Hq : forall s', PostR h q s (Ok cid) s' -> PostR h q s (Ok (chosen_id q)) s') by auto.
  eapply w_reserve_task; [exact F6|reflexivity|reflexivity| |]; loc_cbn.
  - intros x' s' F' N' (t1 & due & Ht1 & Hdue & ->). eapply Hfin; [exact F'|exact N'|].
    exists (Some (TTimeout (nobj s), due)). split; [reflexivity|]. split; [reflexivity|]. exists t1. split; [lia|exact Hdue].
  - intros x' s' e F' N' He Hlt ->. eapply Hfin; [exact F'|exact N'|]. exists None. split; [reflexivity|]. exists e. split; [exact He|exact Hlt].
Qed.
Hypothesis D0 : Dl 0.
Lemma reserve_post h q e s : Inv s -> legal_reserve q e s -> Forall (fun x => Dl (snd x)) e ->
  PostR h q s (fst (run_op g (reserve g h q) e s)) (snd (run_op g (reserve g h q) e s)).
Proof.
  intros I (L1 & L2 & L3) He. destruct (rs_p2p q) eqn:Ep.
  - rewrite reserve_split by exact Ep. unfold looked_at in L3.
    pose proof (wp_sound Dl D0 (check_unused q) _ _ s e He (w_unused q s I L1 L2)) as Hs.
    destruct (run (check_unused q) e s) as [[r s1] e1]. cbn [fst snd] in L3. destruct Hs as [He1 Hs].
    destruct r as [[]|x].
    + destruct Hs as (I1 & S1 & Hd).
      pose proof (wpo_sound Dl D0 g _ _ s1 e1 He1 (w_reserve_rest h q s1 I1 Hd L3)) as Hp. 
      destruct (run_op g (reserve_rest g h q) e1 s1) as [x s']. cbn [fst snd] in *.
      destruct Hp as (I' & N' & Hx). pose proof S1 as (Sd & Sc & So & Sp & Sn). split; [exact I'|]. split; [lia|]. destruct x as [cid|x].
      * unfold booked in *. rewrite Sd, Sc in Hx. destruct Hx as (Hc & Hd' & t & l1 & l2 & r' & Ht & Hr). split; [exact Hc|]. split; [exact Hd'|].
        exists t, l1, l2, r'. split; [lia|]. exact Hr.
      * destruct Hx as (X1 & X2 & X3 & X4 & X5). split; [congruence|]. split; [congruence|]. split; [congruence|]. split; [|lia].
        intros k. rewrite X4. apply Sp.
    + destruct Hs as [I1 S1]. cbn [fst snd]. rewrite (n_rd _ _ _ _ I1), (inv_ready _ _ _ _ I1). cbn [run_tasks fst].
      split; [exact I1|]. split; [apply S1|exact S1].
  - unfold run_op, reserve. rewrite Ep. cbn [negb run]. rewrite (n_rd _ _ _ _ I), (inv_ready _ _ _ _ I). cbn.
    split; [exact I|]. split; [lia|]. apply same_refl.
Qed.
End Res.
