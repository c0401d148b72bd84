(** Proofs about reply book-keeping. *)
From Verif Require Import Base BaseProofs ModelProvider SpecProvider.

Lemma header_eqb_ok a b : reflect (a = b) (header_eqb a b).
Proof.
  destruct a as [a1 a2 a3 a4], b as [b1 b2 b3 b4]. unfold header_eqb. cbn [reply_to requester_nsa provider_nsa correlation_id].
  destruct (eqb_ok a1 b1); [|constructor; congruence]. destruct (eqb_ok a2 b2); [|constructor; congruence].
  destruct (eqb_ok a3 b3); [|constructor; congruence]. destruct (eqb_ok a4 b4); constructor; congruence.
Qed.
Lemma header_eqb_refl h : header_eqb h h = true. Proof. destruct (header_eqb_ok h h); congruence. Qed.

(** [p] does not tell apart kinds with the same key *)
Definition respects (p : rkind -> bool) : Prop := forall k k', store_key k = store_key k' -> p k = p k'.
Lemma lookup_store c : lookup_key c = store_key (answers_kind c). Proof. destruct c; reflexivity. Qed.
Lemma store_not_query k : store_key k <> QUERY_SUMMARY_RESPONSE. Proof. destruct k; discriminate. Qed.
Lemma store_not_recursive k : store_key k <> QUERY_RECURSIVE_RESPONSE. Proof. destruct k; discriminate. Qed.
(** the events without effect on the state *)
Lemma query_state s q h a : fst (step s (Query q h a)) = s.
Proof. cbn [step]. destruct (negb (has_reply h)); [reflexivity|]. destruct (eqb _ ""); reflexivity. Qed.
Lemma notify_state s q h a : fst (step s (Notify q h a)) = s.
Proof. cbn [step]. destruct q, (reply_to h); reflexivity. Qed.
Lemma query_out s q h a : In (snd (step s (Query q h a))) [[Raised EValue]; [Forwarded (FQuery q h a)]].
Proof. cbn [step]. destruct (negb (has_reply h)); [left; reflexivity|]. destruct (eqb _ ""); [left|right; left]; reflexivity. Qed.
Lemma notify_out s q h a : In (snd (step s (Notify q h a))) [[]; [SentNote q (reply_to h) (requester_nsa h) (provider_nsa h) (correlation_id h) a]].
Proof. cbn [step]. destruct q, (reply_to h) eqn:E; cbn [snd In]; rewrite ?E; auto. Qed.

(** entries waiting for (cid, h) under a key of a kind in [p] *)
Definition kinds : list rkind := [KReserve; KCommit; KProvision; KRelease; KTerminate].
Definition holds (s : pst) (cid : string) (h : header) (k : rkind) : bool :=
  match aget (cid, store_key k) s with Some (NHeader h') => header_eqb h' h | _ => false end.
Definition pending (p : rkind -> bool) (cid : string) (h : header) (s : pst) : nat :=
  List.length (filter (fun k => p k && holds s cid h k) kinds).

Lemma pending_bound p cid h s s' : (forall k, holds s' cid h k = true -> holds s cid h k = true) -> (pending p cid h s' <= pending p cid h s)%nat.
Proof.
  intros H. unfold pending. induction kinds as [|k ks IH]; [apply le_n|]. cbn [filter].
  destruct (p k); cbn [andb]; [|exact IH]. specialize (H k). destruct (holds s' cid h k) eqn:E1, (holds s cid h k) eqn:E2; cbn [List.length]; try lia;
  specialize (H eq_refl); discriminate.
Qed.
Definition canon (k : rkind) : rkind := merge_kind k.
Lemma canon_key k : store_key (canon k) = store_key k. Proof. destruct k; reflexivity. Qed.
Lemma holds_canon s cid h k : holds s cid h (canon k) = holds s cid h k. Proof. unfold holds. rewrite canon_key. reflexivity. Qed.
Lemma store_key_inj k k' : store_key k = store_key k' <-> canon k = canon k'.
Proof. split; destruct k, k'; intros H; try reflexivity; try discriminate H. Qed.

(** exactly one entry changed: the count changes by at most that one *)
Definition b2n (b : bool) : nat := if b then 1%nat else 0%nat.
Lemma pending_sum p cid h s : pending p cid h s =
  (b2n (p KReserve && holds s cid h KReserve) + b2n (p KCommit && holds s cid h KCommit) + b2n (p KProvision && holds s cid h KProvision) +
   b2n (p KRelease && holds s cid h KRelease) + b2n (p KTerminate && holds s cid h KTerminate))%nat.
Proof.
  unfold pending, kinds. cbn [filter].
  assert (Hc : forall (b : bool) (k : rkind) l, List.length (if b then k :: l else l) = (b2n b + List.length l)%nat) by (intros [] k l; reflexivity).
  rewrite !Hc. cbn [List.length]. lia.
Qed.
Lemma pending_change p cid h s s' k0 : respects p ->
  (forall k, store_key k <> store_key k0 -> holds s' cid h k = holds s cid h k) ->
  (pending p cid h s' + (if p k0 && holds s cid h k0 then 1 else 0) = pending p cid h s + (if p k0 && holds s' cid h k0 then 1 else 0))%nat.
Proof.
  intros Hp Hs. rewrite !pending_sum.
  assert (Hpc : p k0 = p (canon k0)) by (apply Hp; symmetry; apply canon_key).
  rewrite <- (holds_canon s cid h k0), <- (holds_canon s' cid h k0), Hpc.
  assert (H : forall k, canon k <> canon k0 -> holds s' cid h k = holds s cid h k).
  { intros k Hk. apply Hs. rewrite store_key_inj. exact Hk. }
  change (if p (canon k0) && holds s cid h (canon k0) then 1 else 0)%nat with (b2n (p (canon k0) && holds s cid h (canon k0))).
  change (if p (canon k0) && holds s' cid h (canon k0) then 1 else 0)%nat with (b2n (p (canon k0) && holds s' cid h (canon k0))).
  destruct k0; cbn [canon merge_kind] in *;
  try rewrite (H KReserve) by discriminate; try rewrite (H KCommit) by discriminate; try rewrite (H KProvision) by discriminate;
  try rewrite (H KRelease) by discriminate; try rewrite (H KTerminate) by discriminate; lia.
Qed.
Lemma pending_same p cid h s s' : (forall k, holds s' cid h k = holds s cid h k) -> pending p cid h s' = pending p cid h s.
Proof. intros H. unfold pending. f_equal. apply filter_ext. intros k. rewrite H. reflexivity. Qed.

Lemma requested_app p cid h a b : requested p cid h (a ++ b) = (requested p cid h a + requested p cid h b)%nat.
Proof. unfold requested. rewrite filter_app, app_length. reflexivity. Qed.
Lemma replied_app p cid h a b : replied p cid h (a ++ b) = (replied p cid h a + replied p cid h b)%nat.
Proof. unfold replied. rewrite filter_app, app_length. reflexivity. Qed.

Lemma holds_aset_ne s cid h k cid' x e : (cid', x) <> (cid, store_key k) -> holds (aset (cid', x) e s) cid h k = holds s cid h k.
Proof. intros H. unfold holds. rewrite aget_aset_ne by congruence. reflexivity. Qed.
Lemma holds_adel_ne s cid h k cid' x : (cid', x) <> (cid, store_key k) -> holds (adel (cid', x) s) cid h k = holds s cid h k.
Proof. intros H. unfold holds. rewrite aget_adel_ne by congruence. reflexivity. Qed.

Lemma NoDup_step s ev : NoDup (akeys s) -> NoDup (akeys (fst (step s ev))).
Proof.
  intros H. destruct ev as [h a|h cid|k h cid|c cid|h a n|h res|q h a|h res|q h a]; cbn [step fst]; auto.
  - destruct (has_reply h); [apply NoDup_akeys_aset|]; exact H.
  - destruct (has_reply h); [apply NoDup_akeys_aset|]; exact H.
  - destruct (aget _ s) as [[h|n]|]; cbn [fst]; auto; apply NoDup_akeys_adel, H.
  - destruct (negb (has_reply h)); [exact H|]. destruct (eqb _ ""); [exact H|]. apply NoDup_akeys_aset, H.
  - destruct (reply_to h); [|exact H]. destruct (aget _ s) as [[h'|n]|]; cbn [fst]; auto; apply NoDup_akeys_adel, H.
  - destruct (negb (has_reply h)); [exact H|]. destruct (eqb _ ""); exact H.
  - destruct (aget _ s) as [[h'|n]|]; cbn [fst]; auto; apply NoDup_akeys_adel, H.
  - destruct q, (reply_to h); exact H.
Qed.

Lemma store_count p cid h s cid' h' k : respects p ->
  (pending p cid h (aset (cid', store_key k) (NHeader h') s) <= pending p cid h s + (if p k && eqb cid' cid && header_eqb h' h then 1 else 0))%nat.
Proof.
  intros Hp. destruct (eqb_ok cid' cid) as [->|Hne].
  - rewrite andb_true_r. pose proof (pending_change p cid h s (aset (cid, store_key k) (NHeader h') s) k Hp) as Hc.
    assert (Hh : holds (aset (cid, store_key k) (NHeader h') s) cid h k = header_eqb h' h) by (unfold holds; rewrite aget_aset_eq; reflexivity).
    rewrite Hh in Hc. 
    assert (Ho : forall k', store_key k' <> store_key k -> holds (aset (cid, store_key k) (NHeader h') s) cid h k' = holds s cid h k') by (intros k' Hk'; apply holds_aset_ne; congruence).
    specialize (Hc Ho).
    destruct (p k && header_eqb h' h), (p k && holds s cid h k); lia.
  - rewrite (pending_same p cid h s); [lia|]. intros k'. apply holds_aset_ne. congruence.
Qed.

Lemma step_count p cid h s ev : respects p -> NoDup (akeys s) ->
  (replied p cid h (snd (step s ev)) + pending p cid h (fst (step s ev)) <= pending p cid h s + requested p cid h [ev])%nat.
Proof.
  intros Hp Hnd. destruct ev as [h' a|h' cid'|k h' cid'|c cid'|h' a n|h' res|q h' a|h' res|q h' a]; cbn [step fst snd].
  - unfold replied, requested. cbn. lia.
  - assert (Hr : requested p cid h [ReserveAck h' cid'] = (if p KReserve && eqb cid' cid && header_eqb h' h then 1 else 0)%nat).
    { unfold requested. cbn [filter request_of]. destruct (_ && _); reflexivity. }
    rewrite Hr. unfold replied. cbn [filter List.length]. destruct (has_reply h'); [|lia].
    pose proof (store_count p cid h s cid' h' KReserve Hp) as H. cbn [store_key] in H. lia.
  - assert (Hr : requested p cid h [Recv k h' cid'] = (if p k && eqb cid' cid && header_eqb h' h then 1 else 0)%nat).
    { unfold requested. cbn [filter request_of]. destruct (_ && _); reflexivity. }
    rewrite Hr. unfold replied. cbn [filter List.length]. destruct (has_reply h'); [|lia].
    pose proof (store_count p cid h s cid' h' k Hp) as H. lia.
  - unfold requested. cbn [filter request_of List.length]. rewrite (lookup_store c). set (k := answers_kind c).
    destruct (aget (cid', store_key k) s) as [[h1|n]|] eqn:E; cbn [fst snd].
    + assert (Er : replied p cid h [Sent c (reply_to h1) (requester_nsa h1) (provider_nsa h1) (correlation_id h1) cid'] = (if p k && eqb cid' cid && header_eqb h1 h then 1 else 0)%nat).
      { unfold replied. cbn [filter]. fold k. replace (mkH (reply_to h1) (requester_nsa h1) (provider_nsa h1) (correlation_id h1)) with h1 by (destruct h1; reflexivity).
        destruct (_ && _); reflexivity. }
      rewrite Er. destruct (eqb_ok cid' cid) as [->|Hne].
      * rewrite andb_true_r. pose proof (pending_change p cid h s (adel (cid, store_key k) s) k Hp) as Hc.
        assert (Hh' : holds (adel (cid, store_key k) s) cid h k = false) by (unfold holds; rewrite aget_adel_eq by exact Hnd; reflexivity).
        assert (Hh : holds s cid h k = header_eqb h1 h) by (unfold holds; rewrite E; reflexivity).
        rewrite Hh', Hh in Hc. 
        assert (Ho : forall k', store_key k' <> store_key k -> holds (adel (cid, store_key k) s) cid h k' = holds s cid h k') by (intros k' Hk'; apply holds_adel_ne; congruence).
        specialize (Hc Ho). rewrite andb_false_r in Hc. lia.
      * rewrite andb_false_r. cbn [andb]. rewrite (pending_same p cid h s); [lia|]. intros k'. apply holds_adel_ne. congruence.
    + assert (pending p cid h (adel (cid', store_key k) s) <= pending p cid h s)%nat; [|unfold replied; cbn [filter List.length]; lia].
      apply pending_bound. intros k' H. unfold holds in *. destruct (eqb_ok (cid, store_key k') (cid', store_key k)) as [Ek|Hne].
      * rewrite Ek, aget_adel_eq in H by exact Hnd. discriminate.
      * rewrite aget_adel_ne in H by exact Hne. exact H.
    + unfold replied. cbn. lia.
  - unfold requested. cbn [filter request_of List.length]. destruct (negb (has_reply h')); [unfold replied; cbn; lia|].
    destruct (eqb (correlation_id h') ""); [unfold replied; cbn; lia|]. unfold replied. cbn [fst snd filter List.length].
    rewrite (pending_same p cid h s); [lia|]. intros k. apply holds_aset_ne. intros [= _ E]. symmetry in E. exact (store_not_query k E).
  - unfold requested. cbn [filter request_of List.length]. destruct (reply_to h') as [r|]; [|unfold replied; cbn; lia].
    destruct (aget _ s) as [[h1|n]|]; unfold replied; cbn [fst snd filter List.length]; try lia;
    rewrite (pending_same p cid h s); try lia; intros k; apply holds_adel_ne; intros [= _ E]; symmetry in E; exact (store_not_query k E).
  - change (let r := step s (Query q h' a) in (replied p cid h (snd r) + pending p cid h (fst r) <= pending p cid h s + requested p cid h [Query q h' a])%nat).
    cbv zeta. rewrite query_state. destruct (query_out s q h' a) as [<-|[<-|[]]]; unfold replied; cbn; lia.
  - unfold requested. cbn [filter request_of List.length].
    destruct (aget _ s) as [[h1|n]|]; unfold replied; cbn [fst snd filter List.length]; try lia;
    rewrite (pending_same p cid h s); try lia; intros k; apply holds_adel_ne; intros [= _ E]; symmetry in E; exact (store_not_recursive k E).
  - change (let r := step s (Notify q h' a) in (replied p cid h (snd r) + pending p cid h (fst r) <= pending p cid h s + requested p cid h [Notify q h' a])%nat).
    cbv zeta. rewrite notify_state. destruct (notify_out s q h' a) as [<-|[<-|[]]]; unfold replied; cbn; lia.
Qed.

Lemma requested_cons p cid h ev r : requested p cid h (ev :: r) = (requested p cid h [ev] + requested p cid h r)%nat.
Proof. apply (requested_app p cid h [ev] r). Qed.
Lemma run_count p cid h evs : respects p -> forall s, NoDup (akeys s) ->
  (replied p cid h (outputs s evs) <= pending p cid h s + requested p cid h evs)%nat.
Proof.
  intros Hp. induction evs as [|ev r IH]; intros s Hnd; [unfold replied; cbn; lia|].
  cbn [outputs]. rewrite replied_app, requested_cons.
  pose proof (step_count p cid h s ev Hp Hnd). pose proof (IH _ (NoDup_step s ev Hnd)). lia.
Qed.

Definition same_class (k : rkind) : rkind -> bool := fun k' => rkind_eqb (merge_kind k') (merge_kind k).
Lemma rkind_eqb_ok a b : reflect (a = b) (rkind_eqb a b).
Proof. destruct a, b; constructor; congruence. Qed.
Lemma respects_class k : respects (same_class k).
Proof. intros a b H. apply store_key_inj in H. unfold same_class. unfold canon in H. rewrite H. reflexivity. Qed.

Theorem c27_once k cid h evs :
  (replied (fun k' => rkind_eqb (merge_kind k') (merge_kind k)) cid h (outputs init evs)
   <= requested (fun k' => rkind_eqb (merge_kind k') (merge_kind k)) cid h evs)%nat.
Proof. pose proof (run_count (same_class k) cid h evs (respects_class k) init ltac:(constructor)) as H.
  rewrite pending_sum in H. cbn [init holds aget] in H. unfold holds in H. cbn [aget init] in H. rewrite !andb_false_r in H. exact H. Qed.

Lemma outputs_app s a b : outputs s (a ++ b) = outputs s a ++ outputs (final s a) b.
Proof. revert s. induction a as [|ev r IH]; intros s; [reflexivity|]. cbn [app outputs]. rewrite IH, app_assoc. reflexivity. Qed.

Theorem c27_answers c to rq pr corr cid evs :
  In (Sent c to rq pr corr cid) (outputs init evs) ->
  exists ev k, In ev evs /\ request_of ev = Some (k, cid, mkH to rq pr corr) /\ merge_kind k = merge_kind (answers_kind c).
Proof.
  intros Hin. pose proof (c27_once (answers_kind c) cid (mkH to rq pr corr) evs) as H.
  assert (H1 : (1 <= replied (fun k' => rkind_eqb (merge_kind k') (merge_kind (answers_kind c))) cid (mkH to rq pr corr) (outputs init evs))%nat).
  { unfold replied. match goal with |- (1 <= List.length ?l)%nat => assert (Hi : In (Sent c to rq pr corr cid) l) end.
    { apply filter_In. split; [exact Hin|]. rewrite eqb_refl, header_eqb_refl. destruct (answers_kind c); reflexivity. }
    destruct (filter _ (outputs init evs)); [destruct Hi|cbn; lia]. }
  unfold requested in H. destruct (filter _ evs) as [|ev l] eqn:E; [cbn in H; lia|].
  assert (Hi : In ev (filter (fun ev => match request_of ev with Some (k, cid', h') => rkind_eqb (merge_kind k) (merge_kind (answers_kind c)) && eqb cid' cid && header_eqb h' (mkH to rq pr corr) | None => false end) evs)) by (rewrite E; left; reflexivity).
  apply filter_In in Hi as [Hi Hb]. exists ev. destruct (request_of ev) as [[[k cid'] h']|]; [|discriminate]. exists k. split; [exact Hi|].
  apply andb_prop in Hb as [Hb Hh]. apply andb_prop in Hb as [Hk Hc]. destruct (header_eqb_ok h' (mkH to rq pr corr)); [|discriminate].
  destruct (eqb_ok cid' cid); [|discriminate]. destruct (rkind_eqb_ok (merge_kind k) (merge_kind (answers_kind c))); [|discriminate]. subst. auto.
Qed.

Lemma step_other s ev cid k : ~ concerns cid k ev -> aget (cid, store_key k) (fst (step s ev)) = aget (cid, store_key k) s.
Proof.
  intros Hc. destruct ev as [h a|h cid'|k' h cid'|c cid'|h a n|h res|q h a|h res|q h a]; cbn [step fst]; auto.
  - destruct (has_reply h); [|reflexivity]. apply aget_aset_ne. intros [= E1 E2]. apply Hc. left. exists KReserve, h. subst cid'. split; [reflexivity|].
    symmetry. apply store_key_inj. exact E2.
  - destruct (has_reply h); [|reflexivity]. apply aget_aset_ne. intros [= E1 E2]. apply Hc. left. exists k', h. subst cid'. split; [reflexivity|].
    symmetry. apply store_key_inj. exact E2.
  - assert (Hne : (cid, store_key k) <> (cid', lookup_key c)).
    { intros [= E1 E2]. apply Hc. right. exists c. subst cid'. split; [reflexivity|]. rewrite lookup_store in E2. symmetry. apply store_key_inj. exact E2. }
    destruct (aget _ s) as [[h|n]|]; cbn [fst]; auto; apply aget_adel_ne; exact Hne.
  - destruct (negb (has_reply h)); [reflexivity|]. destruct (eqb _ ""); [reflexivity|]. cbn [fst]. apply aget_aset_ne. intros [= _ E]. exact (store_not_query k E).
  - destruct (reply_to h); [|reflexivity]. destruct (aget _ s) as [[h'|n]|]; cbn [fst]; auto; apply aget_adel_ne; intros [= _ E]; exact (store_not_query k E).
  - destruct (negb (has_reply h)); [reflexivity|]. destruct (eqb _ ""); reflexivity.
  - destruct (aget _ s) as [[h'|n]|]; cbn [fst]; auto; apply aget_adel_ne; intros [= _ E]; exact (store_not_recursive k E).
  - destruct q, (reply_to h); reflexivity.
Qed.
Lemma run_other evs cid k : forall s, Forall (fun ev => ~ concerns cid k ev) evs -> aget (cid, store_key k) (final s evs) = aget (cid, store_key k) s.
Proof.
  induction evs as [|ev r IH]; intros s H; [reflexivity|]. inversion H; subst. unfold final. cbn [fold_left]. fold (final (fst (step s ev)) r).
  rewrite IH by assumption. apply step_other. assumption.
Qed.
Lemma NoDup_final evs : forall s, NoDup (akeys s) -> NoDup (akeys (final s evs)).
Proof. induction evs as [|ev r IH]; intros s H; [exact H|]. unfold final. cbn [fold_left]. apply IH, NoDup_step, H. Qed.

Lemma confirm_none s c cid : aget (cid, store_key (answers_kind c)) s = None -> step s (Confirm c cid) = (s, []).
Proof. intros H. cbn [step]. rewrite lookup_store, H. reflexivity. Qed.

Theorem c27_never_requested c cid evs :
  (forall ev k h, In ev evs -> request_of ev = Some (k, cid, h) -> merge_kind k <> merge_kind (answers_kind c)) ->
  step (final init evs) (Confirm c cid) = (final init evs, []).
Proof.
  intros H. apply confirm_none. induction evs as [|ev evs IH] using rev_ind; [reflexivity|].
  unfold final. rewrite fold_left_app. cbn [fold_left]. fold (final init evs).
  assert (IH' : aget (cid, store_key (answers_kind c)) (final init evs) = None) by (apply IH; intros ev' k h Hin; apply H; apply in_app_iff; auto).
  assert (Hev : forall k h, request_of ev = Some (k, cid, h) -> merge_kind k <> merge_kind (answers_kind c)) by (intros k h; apply H; apply in_app_iff; right; left; reflexivity).
  destruct (aget (cid, store_key (answers_kind c)) (fst (step (final init evs) ev))) as [e|] eqn:E; [|reflexivity]. exfalso.
  destruct ev as [h a|h cid'|k' h cid'|c' cid'|h a n|h res|q h a|h res|q h a]; cbn [step fst] in E; try congruence.
  - destruct (has_reply h); [|congruence]. rewrite aget_aset in E. destruct (eqb_ok (cid, store_key (answers_kind c)) (cid', RESERVE_RESPONSE)) as [[= -> Ek]|]; [|congruence].
    apply (Hev KReserve h eq_refl). symmetry. apply store_key_inj. exact Ek.
  - destruct (has_reply h); [|congruence]. rewrite aget_aset in E. destruct (eqb_ok (cid, store_key (answers_kind c)) (cid', store_key k')) as [[= -> Ek]|]; [|congruence].
    apply (Hev k' h eq_refl). symmetry. apply store_key_inj. exact Ek.
  - assert (Hd : forall x, aget (cid, store_key (answers_kind c)) (adel x (final init evs)) = None).
    { intros x. destruct (eqb_ok (cid, store_key (answers_kind c)) x) as [<-|Hn]; [apply aget_adel_eq, NoDup_final; constructor|]. rewrite aget_adel_ne by exact Hn. exact IH'. }
    destruct (aget (cid', lookup_key c') (final init evs)) as [[h|n]|]; cbn [fst] in E; rewrite ?Hd in E; congruence.
  - destruct (negb (has_reply h)); [cbn in E; congruence|]. destruct (eqb _ ""); [cbn in E; congruence|]. cbn [fst] in E.
    rewrite aget_aset_ne in E; [congruence|]. intros [= _ Ex]. exact (store_not_query _ Ex).
  - assert (Hd : forall x, aget (cid, store_key (answers_kind c)) (adel x (final init evs)) = None).
    { intros x. destruct (eqb_ok (cid, store_key (answers_kind c)) x) as [<-|Hn]; [apply aget_adel_eq, NoDup_final; constructor|]. rewrite aget_adel_ne by exact Hn. exact IH'. }
    destruct (reply_to h); [|cbn in E; congruence].
    destruct (aget (correlation_id h, QUERY_SUMMARY_RESPONSE) (final init evs)) as [[h'|n]|]; cbn [fst] in E; rewrite ?Hd in E; congruence.
  - destruct (negb (has_reply h)); [cbn in E; congruence|]. destruct (eqb _ ""); cbn in E; congruence.
  - assert (Hd : forall x, aget (cid, store_key (answers_kind c)) (adel x (final init evs)) = None).
    { intros x. destruct (eqb_ok (cid, store_key (answers_kind c)) x) as [<-|Hn]; [apply aget_adel_eq, NoDup_final; constructor|]. rewrite aget_adel_ne by exact Hn. exact IH'. }
    destruct (aget (correlation_id h, QUERY_RECURSIVE_RESPONSE) (final init evs)) as [[h'|n]|]; cbn [fst] in E; rewrite ?Hd in E; congruence.
  - destruct q, (reply_to h); cbn [fst] in E; congruence.
Qed.

(** used up *)
Theorem c27_used_up c c' cid evs1 evs2 :
  merge_kind (answers_kind c') = merge_kind (answers_kind c) ->
  Forall (fun ev => ~ concerns cid (answers_kind c) ev) evs2 ->
  let s := final init (evs1 ++ Confirm c' cid :: evs2) in
  step s (Confirm c cid) = (s, []).
Proof.
  intros Hm Ho s. apply confirm_none. unfold s, final. rewrite fold_left_app. cbn [fold_left]. fold (final init evs1).
  fold (final (fst (step (final init evs1) (Confirm c' cid))) evs2). rewrite run_other by exact Ho.
  assert (Ek : store_key (answers_kind c) = store_key (answers_kind c')) by (apply store_key_inj; symmetry; exact Hm).
  cbn [step]. rewrite lookup_store, <- Ek. destruct (aget (cid, store_key (answers_kind c)) (final init evs1)) as [[h|n]|] eqn:E; cbn [fst]; try exact E;
  apply aget_adel_eq, NoDup_final; constructor.
Qed.

(** delivery *)
Theorem c28_delivered c cid k h ev evs1 evs2 :
  request_of ev = Some (k, cid, h) -> has_reply h = true -> merge_kind (answers_kind c) = merge_kind k ->
  Forall (fun ev => ~ concerns cid k ev) evs2 ->
  snd (step (final init (evs1 ++ ev :: evs2)) (Confirm c cid)) = [Sent c (reply_to h) (requester_nsa h) (provider_nsa h) (correlation_id h) cid].
Proof.
  intros Hr Hh Hm Ho. unfold final. rewrite fold_left_app. cbn [fold_left]. fold (final init evs1). fold (final (fst (step (final init evs1) ev)) evs2).
  cbn [step]. assert (Ek : lookup_key c = store_key k) by (rewrite lookup_store; apply store_key_inj; exact Hm).
  rewrite Ek, run_other by exact Ho.
  assert (E : aget (cid, store_key k) (fst (step (final init evs1) ev)) = Some (NHeader h)).
  { destruct ev as [h0 a|h0 cid0|k0 h0 cid0|c0 cid0|h0 a n|h0 res|q h0 a|h0 res|q h0 a]; try discriminate; cbn [request_of] in Hr; injection Hr; intros; subst; cbn [step fst];
    rewrite Hh; apply aget_aset_eq. }
  rewrite E. reflexivity.
Qed.

(** kinds other than commit and abort are never mixed up *)
Lemma requested_ext p q cid h evs : (forall ev k h', In ev evs -> request_of ev = Some (k, cid, h') -> p k = q k) -> requested p cid h evs = requested q cid h evs.
Proof.
  intros H. unfold requested. f_equal. induction evs as [|ev r IH]; [reflexivity|]. cbn [filter].
  assert (E : (match request_of ev with Some (k, cid', h') => p k && eqb cid' cid && header_eqb h' h | None => false end) =
              (match request_of ev with Some (k, cid', h') => q k && eqb cid' cid && header_eqb h' h | None => false end)).
  { destruct (request_of ev) as [[[k cid'] h']|] eqn:Er; [|reflexivity]. destruct (eqb_ok cid' cid) as [->|]; [|rewrite !andb_false_r; reflexivity].
    rewrite (H ev k h' (or_introl eq_refl) Er). reflexivity. }
  rewrite E, IH; [reflexivity|]. intros ev' k h' Hin. apply H. right. exact Hin.
Qed.
Lemma replied_mono p q cid h outs : (forall k, p k = true -> q k = true) -> (replied p cid h outs <= replied q cid h outs)%nat.
Proof.
  intros H. unfold replied. induction outs as [|o r IH]; [apply le_n|]. cbn [filter]. destruct o as [|c to rq pr corr cid'| | | | |]; try exact IH.
  destruct (p (answers_kind c)) eqn:E1, (q (answers_kind c)) eqn:E2; cbn [andb]; try exact IH.
  - destruct (_ && _); cbn [List.length]; lia.
  - apply H in E1. congruence.
  - destruct (_ && _); cbn [List.length]; lia.
Qed.

Theorem c28_kind k cid h evs :
  (k = KCommit \/ k = KAbort -> forall ev k' h', In ev evs -> request_of ev = Some (k', cid, h') -> merge_kind k' = KCommit -> k' = k) ->
  (replied (rkind_eqb k) cid h (outputs init evs) <= requested (rkind_eqb k) cid h evs)%nat.
Proof.
  intros H. pose proof (c27_once k cid h evs) as H1.
  assert (H2 : (replied (rkind_eqb k) cid h (outputs init evs) <= replied (fun k' => rkind_eqb (merge_kind k') (merge_kind k)) cid h (outputs init evs))%nat).
  { apply replied_mono. intros k' E. destruct k, k'; try discriminate E; reflexivity. }
  assert (H3 : requested (fun k' => rkind_eqb (merge_kind k') (merge_kind k)) cid h evs = requested (rkind_eqb k) cid h evs).
  { apply requested_ext. intros ev k' h' Hin Hr. destruct k; destruct k'; try reflexivity; exfalso.
    - specialize (H (or_introl eq_refl) ev KAbort h' Hin Hr eq_refl). discriminate.
    - specialize (H (or_intror eq_refl) ev KCommit h' Hin Hr eq_refl). discriminate. }
  lia.
Qed.

Definition sync_pending (n : nat) (s : pst) : nat :=
  List.length (filter (fun kv => match snd kv with NDeferred m => (m =? n)%nat | _ => false end) s).

Lemma sync_pending_aset_h n x h s : (sync_pending n (aset x (NHeader h) s) <= sync_pending n s)%nat.
Proof.
  unfold sync_pending. induction s as [|[k v] r IH]; cbn [aset filter snd List.length]; [lia|].
  destruct (eqb x k); cbn [filter snd]; destruct v as [h'|m]; try lia; destruct (m =? n)%nat; cbn [List.length]; lia.
Qed.
Lemma sync_pending_aset_d n m x s : (sync_pending n (aset x (NDeferred m) s) <= sync_pending n s + (if (m =? n)%nat then 1 else 0))%nat.
Proof.
  unfold sync_pending. induction s as [|[k v] r IH]; cbn [aset filter snd List.length]; [destruct (m =? n)%nat; cbn; lia|].
  destruct (eqb x k); cbn [filter snd]; destruct v as [h'|m']; destruct (m =? n)%nat; try (destruct (m' =? n)%nat); cbn [List.length]; lia.
Qed.
Lemma sync_pending_adel n x s : (sync_pending n (adel x s) <= sync_pending n s)%nat.
Proof.
  unfold sync_pending. induction s as [|[k v] r IH]; cbn [adel filter snd List.length]; [lia|].
  destruct (eqb x k); cbn [filter snd]; destruct v as [h'|m']; try lia; destruct (m' =? n)%nat; cbn [List.length]; lia.
Qed.
Lemma sync_pending_pop n m x s : aget x s = Some (NDeferred m) -> (sync_pending n (adel x s) + (if (m =? n)%nat then 1 else 0) <= sync_pending n s)%nat.
Proof.
  unfold sync_pending. induction s as [|[k v] r IH]; cbn [aget adel filter snd List.length]; [discriminate|].
  destruct (eqb x k).
  - intros [= ->]. cbn [snd]. destruct (m =? n)%nat; cbn [List.length]; lia.
  - intros E. specialize (IH E). cbn [filter snd]. destruct v as [h'|m']; try lia; destruct (m' =? n)%nat; cbn [List.length]; lia.
Qed.
Lemma sync_step n s ev : (sync_fired n (snd (step s ev)) + sync_pending n (fst (step s ev)) <= sync_pending n s + sync_made n [ev])%nat.
Proof.
  unfold sync_fired, sync_made. destruct ev as [h a|h cid|k h cid|c cid|h a m|h res|q h a|h res|q h a]; cbn [step fst snd filter List.length].
  - lia.
  - destruct (has_reply h); [|lia]. pose proof (sync_pending_aset_h n (cid, RESERVE_RESPONSE) h s). lia.
  - destruct (has_reply h); [|lia]. pose proof (sync_pending_aset_h n (cid, store_key k) h s). lia.
  - destruct (aget _ s) as [[h|m]|]; cbn [fst snd filter List.length]; try lia; pose proof (sync_pending_adel n (cid, lookup_key c) s); lia.
  - destruct (negb (has_reply h)); [cbn [fst snd filter List.length]; lia|]. destruct (eqb _ ""); [cbn [fst snd filter List.length]; lia|]. cbn [fst snd filter List.length].
    pose proof (sync_pending_aset_d n m (correlation_id h, QUERY_SUMMARY_RESPONSE) s). destruct (m =? n)%nat; cbn [List.length]; lia.
  - destruct (reply_to h); [|cbn [fst snd filter List.length]; lia]. destruct (aget (correlation_id h, QUERY_SUMMARY_RESPONSE) s) as [[h'|m]|] eqn:E; cbn [fst snd filter List.length]; try lia.
    + pose proof (sync_pending_adel n (correlation_id h, QUERY_SUMMARY_RESPONSE) s). lia.
    + pose proof (sync_pending_pop n m _ s E). destruct (m =? n)%nat; cbn [List.length]; lia.
  - destruct (negb (has_reply h)); [cbn [fst snd filter List.length]; lia|]. destruct (eqb _ ""); cbn [fst snd filter List.length]; lia.
  - destruct (aget (correlation_id h, QUERY_RECURSIVE_RESPONSE) s) as [[h'|m]|] eqn:E; cbn [fst snd filter List.length]; try lia.
    + pose proof (sync_pending_adel n (correlation_id h, QUERY_RECURSIVE_RESPONSE) s). lia.
    + pose proof (sync_pending_pop n m _ s E). destruct (m =? n)%nat; cbn [List.length]; lia.
  - destruct q, (reply_to h); cbn [fst snd filter List.length]; lia.
Qed.
Theorem c27_sync n evs : (sync_fired n (outputs init evs) <= sync_made n evs)%nat.
Proof.
  assert (H : forall s, (sync_fired n (outputs s evs) <= sync_pending n s + sync_made n evs)%nat).
  { induction evs as [|ev r IH]; intros s; [cbn; lia|]. cbn [outputs]. unfold sync_fired in *. rewrite filter_app, app_length.
    pose proof (sync_step n s ev) as Hs. specialize (IH (fst (step s ev))). unfold sync_fired in *.
    change (ev :: r) with ([ev] ++ r). unfold sync_made in *. rewrite filter_app, app_length. lia. }
  specialize (H init). cbn in H. exact H.
Qed.

(** * Requests handed on, notifications, query results *)
Lemma answerable_ok h : answerable h = has_reply h && negb (eqb (correlation_id h) "").
Proof. reflexivity. Qed.
Lemma asked_app a b : asked (a ++ b) = asked a ++ asked b.
Proof. apply flat_map_app. Qed.
Lemma step_asks s ev : asked (snd (step s ev)) = asks ev.
Proof.
  destruct ev as [h a|h cid|k h cid|c cid|h a n|h res|q h a|h res|q h a]; cbn [step]; try reflexivity.
  - destruct (aget _ s) as [[h|n]|]; reflexivity.
  - cbn [asks]. rewrite answerable_ok. destruct (has_reply h); [|reflexivity]. destruct (eqb (correlation_id h) ""); reflexivity.
  - destruct (reply_to h); [|reflexivity]. destruct (aget _ s) as [[h'|n]|]; reflexivity.
  - cbn [asks]. rewrite answerable_ok. destruct (has_reply h); [|reflexivity]. destruct (eqb (correlation_id h) ""); reflexivity.
  - destruct (aget _ s) as [[h'|n]|]; reflexivity.
  - destruct q, (reply_to h); reflexivity.
Qed.
Theorem c67_asked evs : asked (outputs init evs) = flat_map asks evs.
Proof.
  generalize init. induction evs as [|ev r IH]; intros s; [reflexivity|]. cbn [outputs flat_map]. rewrite asked_app, step_asks, IH. reflexivity.
Qed.
Theorem c67_refused s ev h : (exists q a, ev = Query q h a) \/ (exists a n, ev = QuerySync h a n) -> answerable h = false ->
  step s ev = (s, [Raised EValue]).
Proof.
  rewrite answerable_ok. intros [(q & a & ->)|(a & n & ->)]; cbn [step]; (destruct (has_reply h); cbn [negb andb]; [|reflexivity]);
  destruct (eqb (correlation_id h) ""); cbn [negb]; congruence.
Qed.

(** nothing is ever stored under a recursive query's key *)
Definition no_recursive (s : pst) : Prop := forall c, aget (c, QUERY_RECURSIVE_RESPONSE) s = None.
Lemma no_recursive_aset s c x e : x <> QUERY_RECURSIVE_RESPONSE -> no_recursive s -> no_recursive (aset (c, x) e s).
Proof. intros N H c'. rewrite aget_aset_ne; [apply H|congruence]. Qed.
Lemma no_recursive_adel s c x : x <> QUERY_RECURSIVE_RESPONSE -> no_recursive s -> no_recursive (adel (c, x) s).
Proof. intros N H c'. rewrite aget_adel_ne; [apply H|congruence]. Qed.
Lemma no_recursive_step s ev : no_recursive s -> no_recursive (fst (step s ev)).
Proof.
  intros H. destruct ev as [h a|h cid|k h cid|c cid|h a n|h res|q h a|h res|q h a]; cbn [step fst]; auto.
  - destruct (has_reply h); [|exact H]. apply no_recursive_aset; [discriminate|exact H].
  - destruct (has_reply h); [|exact H]. apply no_recursive_aset; [apply store_not_recursive|exact H].
  - destruct (aget _ s) as [[h|n]|]; cbn [fst]; auto; (apply no_recursive_adel; [destruct c; discriminate|exact H]).
  - destruct (negb (has_reply h)); [exact H|]. destruct (eqb _ ""); [exact H|]. apply no_recursive_aset; [discriminate|exact H].
  - destruct (reply_to h); [|exact H]. destruct (aget _ s) as [[h'|n]|]; cbn [fst]; auto; (apply no_recursive_adel; [discriminate|exact H]).
  - destruct (negb (has_reply h)); [exact H|]. destruct (eqb _ ""); exact H.
  - rewrite H. exact H.
  - destruct q, (reply_to h); exact H.
Qed.
Lemma noted_app a b : noted (a ++ b) = noted a ++ noted b.
Proof. apply filter_app. Qed.
Lemma step_notes s ev : no_recursive s -> noted (snd (step s ev)) = notes (is_error_event ev) ev.
Proof.
  intros H. destruct ev as [h a|h cid|k h cid|c cid|h a n|h res|q h a|h res|q h a]; cbn [step]; try reflexivity.
  - destruct (aget _ s) as [[h|n]|]; reflexivity.
  - destruct (negb (has_reply h)); [reflexivity|]. destruct (eqb _ ""); reflexivity.
  - destruct (reply_to h); [|reflexivity]. destruct (aget _ s) as [[h'|n]|]; reflexivity.
  - destruct (negb (has_reply h)); [reflexivity|]. destruct (eqb _ ""); reflexivity.
  - rewrite H. reflexivity.
  - cbn [notes is_error_event]. destruct q, (reply_to h); reflexivity.
Qed.
Theorem c68_noted evs : noted (outputs init evs) = flat_map (fun ev => notes (is_error_event ev) ev) evs.
Proof.
  assert (forall s, no_recursive s -> noted (outputs s evs) = flat_map (fun ev => notes (is_error_event ev) ev) evs) as K; [|apply K; intros c; reflexivity].
  induction evs as [|ev r IH]; intros s H; [reflexivity|]. cbn [outputs flat_map]. rewrite noted_app, (step_notes s ev H), (IH _ (no_recursive_step s ev H)). reflexivity.
Qed.

(** the deferred waiting for a synchronous query's result *)
Lemma confirm_key_not_query c : lookup_key c <> QUERY_SUMMARY_RESPONSE. Proof. destruct c; discriminate. Qed.
Definition waits (s : pst) (corr : string) (w : option nat) : Prop :=
  aget (corr, QUERY_SUMMARY_RESPONSE) s = option_map NDeferred w.
Lemma step_waits s ev corr w : NoDup (akeys s) -> no_recursive s -> waits s corr w ->
  waits (fst (step s ev)) corr
    match ev with
    | QuerySync h _ n => if answerable h && String.eqb (correlation_id h) corr then Some n else w
    | QueryConfirmed h _ => if (match reply_to h with None => false | _ => true end) && String.eqb (correlation_id h) corr then None else w
    | _ => w end.
Proof.
  unfold waits. intros ND NR H. destruct ev as [h a|h cid|k h cid|c cid|h a n|h res|q h a|h res|q h a]; cbn [step fst]; auto.
  - destruct (has_reply h); [|exact H]. rewrite aget_aset_ne; [exact H|discriminate].
  - destruct (has_reply h); [|exact H]. rewrite aget_aset_ne; [exact H|]. intros [= _ E]. exact (store_not_query k (eq_sym E)).
  - assert ((corr, QUERY_SUMMARY_RESPONSE) <> (cid, lookup_key c)) as N by (intros [= _ E]; exact (confirm_key_not_query c (eq_sym E))).
    destruct (aget (cid, lookup_key c) s) as [[h|n]|]; cbn [fst]; [rewrite aget_adel_ne by exact N|rewrite aget_adel_ne by exact N|]; exact H.
  - rewrite answerable_ok. destruct (has_reply h); cbn [negb andb]; [|exact H]. destruct (eqb (correlation_id h) ""); cbn [negb andb fst]; [exact H|].
    change (String.eqb (correlation_id h) corr) with (eqb (correlation_id h) corr). destruct (eqb_ok (correlation_id h) corr) as [E|N].
    + rewrite E. apply aget_aset_eq.
    + rewrite aget_aset_ne; [exact H|congruence].
  - destruct (reply_to h); [|exact H]. cbn [andb]. change (String.eqb (correlation_id h) corr) with (eqb (correlation_id h) corr).
    destruct (eqb_ok (correlation_id h) corr) as [E|N].
    + subst corr. rewrite H. destruct w as [n|]; cbn [option_map fst].
      * apply aget_adel_eq, ND.
      * exact H.
    + destruct (aget (correlation_id h, QUERY_SUMMARY_RESPONSE) s) as [[h'|n]|]; cbn [fst]; try exact H; (rewrite aget_adel_ne; [exact H|congruence]).
  - destruct (negb (has_reply h)); [exact H|]. destruct (eqb _ ""); exact H.
  - rewrite NR. exact H.
  - destruct q, (reply_to h); exact H.
Qed.
Lemma final_app s a b : final s (a ++ b) = final (final s a) b.
Proof. apply fold_left_app. Qed.
Lemma final_waits evs corr : NoDup (akeys (final init evs)) /\ no_recursive (final init evs) /\ waits (final init evs) corr (sync_waits evs corr).
Proof.
  induction evs as [|ev evs (A & B & C)] using rev_ind.
  - split; [constructor|]. split; [intros c|]; reflexivity.
  - rewrite final_app. change (final (final init evs) [ev]) with (fst (step (final init evs) ev)).
    split; [apply NoDup_step, A|]. split; [apply no_recursive_step, B|].
    unfold sync_waits. rewrite fold_left_app. cbn [fold_left]. apply (step_waits _ ev corr _ A B C).
Qed.
Theorem c68_summary evs h res r : reply_to h = Some r ->
  snd (step (final init evs) (QueryConfirmed h res)) =
  match sync_waits evs (correlation_id h) with
  | Some n => [SyncFired n res]
  | None => [SentQuery (Some r) (requester_nsa h) (provider_nsa h) (correlation_id h) res]
  end.
Proof.
  intros R. destruct (final_waits evs (correlation_id h)) as (_ & _ & W). unfold waits in W. cbn [step]. rewrite R, W.
  destruct (sync_waits evs (correlation_id h)); reflexivity.
Qed.
