(** Which answers to reservations are taken (C41), with any interleaving. *)
From Verif Require Import Base BaseProofs ModelLabel ModelSTP ModelAuthz ModelNRM ModelState ModelLinkVector ModelProvreg ModelAggregator SpecAggInv ProofsAggInv ProofsAggTab ProofsAggAct ProofsAggQRun.

(** every pending reservation is entered under a new number and asked for at once *)
Fixpoint orderly {A} (p : prog A) (s : st) : Prop :=
  match p with
  | Ret _ | Throw _ => True
  | Get k => orderly (k s) s
  | Do a q =>
      match a with
      | AResv _ _ | AOut (ODown _ _ (DReserve _ _ _ _ _ _)) => False
      | ACorr =>
          match q with
          | Do (AResv k i) r =>
              match r with
              | Do (AOut (ODown p hd (DReserve gid a b x y z))) r' =>
                  k = n_corr s /\ hd_corr hd = n_corr s /\ hd_provider hd = ri_provider i /\
                  orderly r' (do_act (AOut (ODown p hd (DReserve gid a b x y z))) (do_act (AResv k i) (do_act ACorr s)))
              | _ => False
              end
          | _ => orderly q (do_act ACorr s)
          end
      | _ => orderly q (do_act a s)
      end
  | Await _ k => forall a s', orderly (k a) s'
  end.
Definition plain (a : act) : Prop := match a with AResv _ _ | AOut (ODown _ _ (DReserve _ _ _ _ _ _)) => False | _ => True end.
Lemma calm_orderly {A} (p : prog A) : calmN plain p -> forall s, orderly p s.
Proof.
  induction p as [a|e|k IH|a k IH|w k IH]; cbn; intros H s; auto.
  - destruct H as [H1 H2]. specialize (IH H2).
    destruct a; auto; try contradiction.
    + destruct k as [| | |a k|]; auto. destruct a; auto. cbn in H2. destruct H2. contradiction.
    + destruct x; auto. destruct b; auto.
Qed.
Lemma orderly_bind {A B} (p : prog A) (f : A -> prog B) : forall s, orderly p s -> (forall a s', orderly (f a) s') -> orderly (bind p f) s.
Proof.
  intros s H HF. revert s H.
  assert (M : forall p : prog A, (forall s, orderly p s -> orderly (bind p f) s) /\
                                 (forall s, match p with Do a q => orderly q s -> orderly (bind q f) s | _ => True end) /\
                                 (forall s, match p with Do a (Do b q) => orderly q s -> orderly (bind q f) s | _ => True end)).
  { clear p. induction p as [a|e|k IH|a k IH|w k IH].
    - cbn; repeat split; auto.
    - cbn; repeat split; auto.
    - repeat split; auto. intros s. cbn. apply IH.
    - destruct IH as (I1 & I2 & I3). split; [|split; [intros s; apply I1|]].
      + intros s H. cbn [bind]. destruct a; cbn [orderly] in H |- *; try contradiction; try (apply I1; exact H).
        * destruct k as [b|e|k|b k|w k]; cbn [bind] in H |- *.
          -- specialize (HF b (do_act ACorr s)). destruct (f b) as [| | |c q|]; auto. destruct c; auto. cbn in HF. contradiction.
          -- exact I.
          -- apply (I1 _ H).
          -- destruct b; try (apply (I1 _ H)).
             destruct k as [| | |c q|]; cbn [bind] in H |- *; try contradiction. destruct c; try contradiction. match goal with o : output |- _ => destruct o; try contradiction end. match goal with d : dbody |- _ => destruct d; try contradiction end.
             destruct H as (H1 & H2 & H3 & H4). repeat split; auto.
          -- apply (I1 _ H).
        * destruct x; try (apply I1; exact H). destruct b; try contradiction; apply I1; exact H.
      + intros s. destruct k as [| | |b q|]; auto.
    - repeat split; auto. intros s. cbn. intros H a s'. apply IH; auto. }
  intros s H. apply M; auto.
Qed.
Lemma orderly_mapP {A B} (f : A -> prog B) l : (forall a s, orderly (f a) s) -> forall s, orderly (mapP f l) s.
Proof. intros H. induction l as [|a l IH]; cbn [mapP]; intros s; [exact I|]. apply orderly_bind; auto. intros b s'. apply orderly_bind; auto. intros c s2. exact I. Qed.
Lemma strict_plain a : strict a -> plain a.
Proof. destruct a; cbn; try tauto. destruct x; auto. destruct b; auto. Qed.
Lemma mild_plain {A} (p : prog A) : mild p -> calmN plain p.
Proof. apply calm_mono, strict_plain. Qed.
Lemma mild_orderly {A} (p : prog A) s : mild p -> orderly p s.
Proof. intros H. apply calm_orderly, mild_plain, H. Qed.
#[local] Hint Resolve mild_plain calm_conn_obj calm_sub_obj calm_save_conn calm_save_sub calm_get_connection calm_get_by_key calm_fetch_sub calm_get_sub calm_get_subs
  calm_sub_objs calm_new_corr calm_note calm_own_state calm_set_conn_state calm_conn_state calm_set_sub_state calm_sub_state calm_finish
  calm_open : calm.
Ltac calmp := repeat first [solve [auto with calm] | calm1 | apply calm_act; exact I].
Lemma plain_query g h cids gids : calmN plain (query_recursive g h cids gids).
Proof. unfold query_recursive. calmp. Qed.
Lemma plain_answer g h res : calmN plain (query_recursive_confirmed g h res).
Proof. unfold query_recursive_confirmed. calmp. Qed.
Lemma orderly_link g h c ci s : orderly (reserve_link g h c ci) s.
Proof.
  destruct ci as [idx [src dst]]. unfold reserve_link, get, new_corr, out, act1. cbn [bind orderly].
  destruct (get_provider (s_network src) (a_reg s)) as [p|e]; cbn [bind orderly lift]; [|exact I].
  destruct (get_provider_urn (s_network src) (a_reg s)) as [u|e]; cbn -[do_act]; auto.
Qed.
Lemma orderly_reserve g h q s : orderly (reserve g h q) s.
Proof.
  unfold reserve.
  repeat match goal with
  | |- orderly (mapP (reserve_link _ _ _) _) _ => apply orderly_mapP; intros; apply orderly_link
  | |- orderly (bind ?p _) _ =>
      apply orderly_bind; [solve [apply orderly_mapP; intros; apply orderly_link
                                 |apply calm_orderly; unfold insert_conn; calmp]|intros]
  | |- orderly (match ?x with _ => _ end) _ => destruct x
  | |- orderly (let '(_, _) := ?x in _) _ => destruct x
  | |- orderly (reserve_acks _ _ _ _) _ => apply calm_orderly; unfold reserve_acks, cleanup_one; calmp
  | |- orderly (Throw _) _ => exact I
  | |- orderly (throw _) _ => exact I
  end.
Qed.
Lemma orderly_call g c s : orderly (call_prog g c) s.
Proof.
  destruct (is_query c) eqn:E; [|destruct (is_reserve c) eqn:E'; [|apply mild_orderly, mild_call; auto]].
  - destruct c; try discriminate; apply calm_orderly; [apply plain_query|apply plain_answer].
  - destruct c; try discriminate. apply orderly_reserve.
Qed.

(** * The invariant *)
Record pend (s : st) : Prop := {
  pn_keys : NoDup (akeys (resvs s));
  pn_ask : forall k i, aget k (resvs s) = Some i -> asked_of (outs s) k (ri_provider i);
  pn_low : forall k u, asked_of (outs s) k u -> (k < n_corr s)%nat;
  pn_one : forall k u u', asked_of (outs s) k u -> asked_of (outs s) k u' -> u = u' }.
(** the answer to [k] has been taken *)
Definition taken (d : option nat) (s : st) : Prop := match d with Some k => (k < n_corr s)%nat /\ aget k (resvs s) = None | None => True end.
Lemma asked_more os o k u : asked_of os k u -> asked_of (os ++ [o]) k u.
Proof. intros (p & hd & gid & a & b & x & y & z & H & H'). exists p, hd, gid, a, b, x, y, z. split; auto. apply in_or_app; auto. Qed.
Lemma asked_less os o k u : plain (AOut o) -> asked_of (os ++ [o]) k u -> asked_of os k u.
Proof.
  intros N (p & hd & gid & a & b & x & y & z & H & H'). exists p, hd, gid, a, b, x, y, z. split; auto.
  apply in_app_iff in H. destruct H as [H|[H|[]]]; auto. subst. contradiction.
Qed.
Lemma pend_plain d a s : plain a -> pend s /\ taken d s -> pend (do_act a s) /\ taken d (do_act a s).
Proof.
  intros N [[H1 H2 H3 H4] HT].
  assert (X : (forall k u, asked_of (outs (do_act a s)) k u <-> asked_of (outs s) k u) /\ (n_corr s <= n_corr (do_act a s))%nat).
  { destruct a; try contradiction; try (destruct s; cbn; split; [tauto|lia]).
    split; [|destruct s; cbn; lia]. replace (outs (do_act (AOut x) s)) with (outs s ++ [x]) by (destruct s; reflexivity).
    intros k u. split; [apply asked_less; auto|apply asked_more]. }
  destruct X as [X1 X2].
  assert (Y : resvs (do_act a s) = resvs s \/ exists k, a = AResvPop k) by (destruct a; try contradiction; try (left; destruct s; reflexivity); eauto).
  assert (Z : NoDup (akeys (resvs (do_act a s))) /\ forall k i, aget k (resvs (do_act a s)) = Some i -> aget k (resvs s) = Some i).
  { destruct Y as [-> |[k ->]]; auto. replace (resvs (do_act (AResvPop k) s)) with (adel k (resvs s)) by (destruct s; reflexivity).
    split; [apply NoDup_akeys_adel; auto|]. intros k' i. destruct (Nat.eq_dec k' k) as [->|NE]; [rewrite aget_adel_eq by auto; discriminate|rewrite aget_adel_ne; auto]. }
  destruct Z as [Z1 Z2]. split; [constructor; auto|].
  - intros k i H. apply X1. eauto.
  - intros k u H. apply X1 in H. apply H3 in H. lia.
  - intros k u u' Ha Hb. apply X1 in Ha, Hb. eauto.
  - destruct d as [k|]; auto. destruct HT as [T1 T2]. split; [lia|]. destruct (aget k (resvs (do_act a s))) eqn:E; auto. apply Z2 in E. congruence.
Qed.
Lemma pend_ask d p hd gid a b x y z i s : hd_corr hd = n_corr s -> hd_provider hd = ri_provider i -> pend s /\ taken d s ->
  let s' := do_act (AOut (ODown p hd (DReserve gid a b x y z))) (do_act (AResv (n_corr s) i) (do_act ACorr s)) in pend s' /\ taken d s'.
Proof.
  intros HC HP [[H1 H2 H3 H4] HT] s'.
  assert (R : resvs s' = aset (n_corr s) i (resvs s)) by (unfold s'; destruct s; reflexivity).
  assert (O : outs s' = outs s ++ [ODown p hd (DReserve gid a b x y z)]) by (unfold s'; destruct s; reflexivity).
  assert (C : n_corr s' = S (n_corr s)) by (unfold s'; destruct s; reflexivity).
  assert (A : forall k u, asked_of (outs s') k u <-> asked_of (outs s) k u \/ (k = n_corr s /\ u = ri_provider i)).
  { intros k u. rewrite O. split.
    - intros (p0 & hd0 & g0 & a0 & b0 & x0 & y0 & z0 & H & E1 & E2). apply in_app_iff in H. destruct H as [H|[H|[]]].
      + left. exists p0, hd0, g0, a0, b0, x0, y0, z0. auto.
      + inversion H; subst. right. auto.
    - intros [H|[-> ->]]; [apply asked_more; auto|]. exists p, hd, gid, a, b, x, y, z. split; auto. apply in_or_app; cbn; auto. }
  assert (F : forall u, ~ asked_of (outs s) (n_corr s) u) by (intros u H; apply H3 in H; lia).
  clearbody s'. split; [constructor|].
  - rewrite R. apply NoDup_akeys_aset; auto.
  - rewrite R. intros k j. rewrite aget_aset. destruct (eqb_ok k (n_corr s)) as [->|NE]; intros E; apply A; [inversion E; auto|left; auto].
  - intros k u H. apply A in H. rewrite C. destruct H as [H|[-> _]]; [apply H3 in H|]; lia.
  - intros k u u' Ha Hb. apply A in Ha, Hb. destruct Ha as [Ha|[-> ->]], Hb as [Hb|[Eb ->]]; eauto; subst; exfalso; eapply F; eauto.
  - destruct d as [k|]; auto. destruct HT as [T1 T2]. split; [lia|]. rewrite R, aget_aset_ne; auto. lia.
Qed.
Lemma advance_pend d pr (p : prog string) : forall s, orderly p s -> pend s /\ taken d s ->
  let r := advance pr p s in
  (pend (snd r) /\ taken d (snd r)) /\ forall w k, fst r = Waits w k -> forall a s', orderly (k a) s'.
Proof.
  cbv zeta.
  assert (M : forall p : prog string,
    (forall s, orderly p s -> pend s /\ taken d s -> (pend (snd (advance pr p s)) /\ taken d (snd (advance pr p s))) /\ forall w k, fst (advance pr p s) = Waits w k -> forall a s', orderly (k a) s') /\
    match p with
    | Do _ (Do _ q) => forall s, orderly q s -> pend s /\ taken d s -> (pend (snd (advance pr q s)) /\ taken d (snd (advance pr q s))) /\ forall w k, fst (advance pr q s) = Waits w k -> forall a s', orderly (k a) s'
    | _ => True end /\
    match p with
    | Do _ q => forall s, orderly q s -> pend s /\ taken d s -> (pend (snd (advance pr q s)) /\ taken d (snd (advance pr q s))) /\ forall w k, fst (advance pr q s) = Waits w k -> forall a s', orderly (k a) s'
    | _ => True end).
  { clear p. induction p as [a|e|k IH|a k IH|w k IH].
    - split; [|split; exact I]. intros s H HP. cbn. split; [exact HP|]. intros w k E. discriminate E.
    - split; [|split; exact I]. intros s H HP. cbn. split; [exact HP|]. intros w k E. discriminate E.
    - split; [|auto]. intros s. cbn. apply (proj1 (IH s)).
    - destruct IH as (I1 & I2 & I3). split; [|split; [destruct k; auto|exact I1]].
      intros s H HP. cbn [advance].
      destruct a; cbn [orderly] in H; try contradiction; try (apply I1; [exact H|apply pend_plain; [exact I|auto]]).
      + destruct k as [b|e|k|b q|w k]; try (apply I1; [exact H|apply pend_plain; [exact I|auto]]).
        destruct b; try (apply I1; [exact H|apply pend_plain; [exact I|auto]]).
        destruct q as [| | |c q|]; try contradiction. destruct c; try contradiction.
        match goal with o : output |- _ => destruct o; try contradiction end. match goal with d : dbody |- _ => destruct d; try contradiction end.
        destruct H as (-> & E2 & E3 & H). cbn [advance]. apply I2; [exact H|]. apply pend_ask; auto.
      + destruct x as [p hd b|r b|c|c]; try (apply I1; [exact H|apply pend_plain; [exact I|auto]]).
        destruct b; try contradiction; (apply I1; [exact H|apply pend_plain; [exact I|auto]]).
    - split; [|auto]. intros s H HP. cbn [orderly] in H. cbn [advance]. 
      destruct w; try (destruct pr; cbn; (split; [exact HP|]); intros w0 k0 E; inversion E; subst; auto; fail).
      destruct pr; [apply (proj1 (IH AnsOk)); auto|]. cbn. split; [exact HP|]. intros w0 k0 E; inversion E; subst; auto. }
  intros s. apply (proj1 (M p)).
Qed.
Definition mpend (d : option nat) (m : mach) : Prop :=
  (pend (m_st m) /\ taken d (m_st m)) /\ forall i w k, aget i (m_tasks m) = Some (w, k) -> forall a s', orderly (k a) s'.
Lemma record_pend d i pr p s m : orderly p s -> pend s /\ taken d s -> (forall i w k, aget i (m_tasks m) = Some (w, k) -> forall a s', orderly (k a) s') ->
  mpend d (record i (advance pr p s) m).
Proof.
  intros H HP HT. destruct (advance_pend d pr p s H HP) as [A B]. unfold record.
  destruct (advance pr p s) as [[a|e|w k] s']; cbn in *; split; auto.
  intros j w' k' E. cbn in E. rewrite aget_aset in E. destruct (eqb j i); [inversion E; subst; eauto|eauto].
Qed.
Lemma mstep_pend d g pr m e : mfresh m -> mpend d m -> mpend d (mstep g pr m e).
Proof.
  intros HF [H HT]. destruct e as [c|i a|reg rv|reg rv]; cbn [mstep].
  - apply record_pend; auto. apply orderly_call.
  - destruct (aget i (m_tasks m)) as [[w k]|] eqn:E; [|split; auto]. destruct (answers w a); [|split; auto].
    apply record_pend; eauto. intros j w' k' Ej. cbn in Ej. destruct (Nat.eq_dec j i) as [->|N].
    + rewrite aget_adel_eq in Ej; [discriminate|]. apply HF.
    + rewrite aget_adel_ne in Ej by auto. eauto.
  - split; auto. destruct H as [[H1 H2 H3 H4] H5]. split; [constructor; auto|auto].
  - split; [|intros i w k E; discriminate]. destruct H as [[H1 H2 H3 H4] H5].
    split; [constructor; cbn; auto; try constructor; discriminate|]. destruct d; auto. destruct H5. split; auto.
Qed.
Lemma mrun_pend d g pr l : forall m, mfresh m -> mpend d m -> mpend d (mrun g pr m l).
Proof. induction l as [|e l IH]; intros m H1 H2; cbn; auto. apply IH; [apply mstep_fresh; auto|apply mstep_pend; auto]. Qed.
Lemma pend_reach g pr reg rv l : mpend None (mrun g pr (minit reg rv) l) /\ mfresh (mrun g pr (minit reg rv) l).
Proof.
  assert (F : mfresh (minit reg rv)) by (split; [constructor|contradiction]).
  split; [|apply mrun_fresh; auto]. apply mrun_pend; auto. split; [|intros i w k E; discriminate]. split; [|exact I].
  constructor; cbn; try discriminate; try constructor.
  - intros k u (p & hd & gid & a & b & x & y & z & [] & _).
  - intros k u u' (p & hd & gid & a & b & x & y & z & [] & _).
Qed.

(** * Refusals *)
Lemma refused_step g pr m h c e : reply_of h c -> known_reservation h (m_st m) = Err e ->
  m_st (mstep g pr m (EvCall c)) = m_st m /\ m_done (mstep g pr m (EvCall c)) = m_done m ++ [(m_next m, inr (e, ""))].
Proof.
  intros H E. destruct H; cbn [mstep call_prog]; unfold reserve_confirmed, reserve_failed, get; cbn [bind advance]; rewrite E; cbn; auto.
Qed.
Lemma stranger g pr reg rv l h c : let m := mrun g pr (minit reg rv) l in reply_of h c -> ~ asked_of (outs (m_st m)) (hd_corr h) (hd_provider h) ->
  m_st (mstep g pr m (EvCall c)) = m_st m /\ exists e, m_done (mstep g pr m (EvCall c)) = m_done m ++ [(m_next m, inr (e, ""))] /\
    (e = EConnectionNonExistent \/ e = ESecurity /\ exists u, asked_of (outs (m_st m)) (hd_corr h) u).
Proof.
  intros m H N. destruct (pend_reach g pr reg rv l) as [[[P _] _] _]. fold m in P.
  assert (K : exists e, known_reservation h (m_st m) = Err e /\ (e = EConnectionNonExistent \/ e = ESecurity /\ exists u, asked_of (outs (m_st m)) (hd_corr h) u)).
  { unfold known_reservation. destruct (aget (hd_corr h) (resvs (m_st m))) as [i|] eqn:E; [|eauto].
    pose proof (pn_ask _ P _ _ E) as A. destruct (eqb_ok (hd_provider h) (ri_provider i)) as [Ep|Np]; [|eauto 6]. exfalso. apply N. rewrite Ep. exact A. }
  destruct K as (e & K & D). destruct (refused_step g pr m h c e H K). eauto.
Qed.
Lemma second g pr reg rv l1 h c l2 h' c' :
  let m1 := mrun g pr (minit reg rv) l1 in
  let m2 := mrun g pr (mstep g pr m1 (EvCall c)) l2 in
  reply_of h c -> reply_of h' c' -> asked_of (outs (m_st m1)) (hd_corr h) (hd_provider h) -> hd_corr h' = hd_corr h ->
  m_st (mstep g pr m2 (EvCall c')) = m_st m2 /\ m_done (mstep g pr m2 (EvCall c')) = m_done m2 ++ [(m_next m2, inr (EConnectionNonExistent, ""))].
Proof.
  intros m1 m2 H H' HA HE. destruct (pend_reach g pr reg rv l1) as [[[P _] HT] HF]. fold m1 in P, HT, HF.
  assert (MP : mpend (Some (hd_corr h)) (mstep g pr m1 (EvCall c))).
  { cbn [mstep]. pose proof (pn_low _ P _ _ HA) as LOW.
    assert (NOW : aget (hd_corr h) (resvs (m_st m1)) = None \/ exists i p, known_reservation h (m_st m1) = Ok i /\ aget (hd_corr h) (resvs (m_st m1)) = Some i /\
              advance pr (call_prog g c) (m_st m1) = advance pr p (do_act (AResvPop (hd_corr h)) (m_st m1)) /\ orderly p (do_act (AResvPop (hd_corr h)) (m_st m1))).
    { destruct (aget (hd_corr h) (resvs (m_st m1))) as [i|] eqn:E; [right|left; auto].
      assert (K : known_reservation h (m_st m1) = Ok i).
      { unfold known_reservation. rewrite E. rewrite (pn_one _ P _ _ _ HA (pn_ask _ P _ _ E)), eqb_refl. reflexivity. }
      pose proof (orderly_call g c (m_st m1)) as O.
      destruct H; cbn [call_prog] in *; unfold reserve_confirmed, reserve_failed, get in *; cbn [bind orderly advance] in *; rewrite K in *; cbn [bind lift act1 orderly advance] in *;
        eexists i, _; (split; [reflexivity|]); (split; [reflexivity|]); (split; [reflexivity|exact O]). }
    destruct NOW as [NOW|(i & p & K & E & -> & O)].
    - apply record_pend; auto; [apply orderly_call|]. split; [constructor; apply P|]. split; auto.
    - apply record_pend; auto. destruct (pend_plain None (AResvPop (hd_corr h)) (m_st m1) I (conj P I)) as [P' _]. split; auto.
      split; [destruct (m_st m1); exact LOW|]. replace (resvs (do_act (AResvPop (hd_corr h)) (m_st m1))) with (adel (hd_corr h) (resvs (m_st m1))) by (destruct (m_st m1); reflexivity).
      apply aget_adel_eq. apply P. }
  assert (MP2 : mpend (Some (hd_corr h)) m2) by (apply mrun_pend; auto; apply mstep_fresh; auto).
  destruct MP2 as [[_ [_ T]] _].
  assert (K : known_reservation h' (m_st m2) = Err EConnectionNonExistent) by (unfold known_reservation; rewrite HE, T; reflexivity).
  destruct (refused_step g pr m2 h' c' _ H' K). eauto.
Qed.
