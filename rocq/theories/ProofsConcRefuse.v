(** Requests on unknown, unauthorized or terminated connections. *)
From Verif Require Import Base BaseProofs ModelLabel ModelSTP ModelAuthz ModelNRM ModelCalendar ModelState ModelScheduler ModelBackend ModelBackendConc SpecBackendConc.
Open Scope Z_scope.

Section Refuse.
Variables (g : cfg) (P : st -> Prop).
Definition fails {A} (u : list (st * st)) (r : result A) : Prop := (exists e, r = Err e) /\ Forall (fun x => quiet (fst x) (snd x)) u.

(** what happens after the object was loaded *)
Lemma open_refused {A} h cid (rest : nat -> prog A) s u r :
  (forall s row, P s -> aget cid (db s) = Some row -> authorize g (c_sport row) (c_dport row) h = Ok tt ->
     forall o own s1 u1 r1, aget o (heap s1) = Some row -> among P own (rest o) s1 u1 r1 -> fails u1 r1) ->
  among P [] (bind (open_connection g h cid) rest) s u r -> fails u r.
Proof.
  intros Hrest H. unfold open_connection, get_connection, await in H. cbn in H.
  inversion H as [| | | |own w k s0 x s1 u1 r1 Hp Ho H1]; subst. destruct x as [e|]; cbn in H1.
  { inversion H1; subst. split; eauto. }
  inversion H1 as [| |own k s0 u2 r2 H2| |]; subst. destruct (aget cid (db s1)) as [row|] eqn:E; cbn in H2.
  - inversion H2 as [| |own k s0 u3 r3 H3| |]; subst. inversion H3 as [| | |own f k s0 u4 r4 H4|]; subst.
    inversion H4 as [| | | |own w k s0 x s2 u5 r5 Hp2 Ho2 H5]; subst. clear H H1 H2 H3 H4.
    assert (Hq : quiet s1 (new_obj row s1)) by (unfold quiet; cbn; auto 7).
    assert (Hh : aget (nobj s1) (heap s2) = Some row).
    { rewrite Ho2; [cbn; apply aget_aset_eq|]. unfold made. cbn [nobj new_obj]. replace (S (nobj s1) - nobj s1)%nat with 1%nat by lia. apply in_or_app. right. left. reflexivity. }
    destruct x as [e|]; cbn in H5.
    { inversion H5; subst. split; [eauto|]. constructor; [exact Hq|constructor]. }
    unfold obj in H5. cbn in H5. inversion H5 as [| |own k s0 u6 r6 H6| |]; subst. rewrite Hh in H6. cbn in H6.
    destruct (authorize g (c_sport row) (c_dport row) h) as [[]|e] eqn:Ea; cbn in H6.
    + destruct (Hrest s1 row Hp E Ea _ _ _ _ _ Hh H6) as [R1 R2]. split; [exact R1|]. constructor; auto.
    + inversion H6; subst. split; [eauto|]. constructor; auto.
  - inversion H2 as [| | | |own w k s0 x s2 u5 r5 Hp2 Ho2 H5]; subst. destruct x; cbn in H5; inversion H5; subst; split; eauto.
Qed.
End Refuse.

Lemma among_obj {A} P own (k : row -> prog A) o s u r row : aget o (heap s) = Some row -> among P own (bind (obj o) k) s u r -> among P own (k row) s u r.
Proof. intros E H. unfold obj in H. cbn in H. inversion H as [| |own' k' s0 u6 r6 H6| |]; subst. rewrite E in H6. exact H6. Qed.
Lemma among_throw_inv {A} P own e s u (r : result A) : among P own (Throw e) s u r -> fails u r.
Proof. intros H. inversion H; subst. split; eauto. Qed.
Lemma refused g o h cid s u r : aimed o h cid -> among (refusable g o h cid) [] (op_prog g o) s u r ->
  (exists e, r = Err e) /\ Forall (fun x => quiet (fst x) (snd x)) u.
Proof.
  intros Ha H. change (fails u r). destruct Ha as [->|[->|[->|[->| ->]]]]; cbn [op_prog] in H;
  (eapply open_refused; [|exact H]); intros s0 row Hp E Hau o own s1 u1 r1 Hh H1; apply (among_obj _ _ _ _ _ _ _ row Hh) in H1; cbn beta in H1;
  (destruct (Hp row E) as [N|[L|[L N]]]; [congruence|rewrite L in H1|rewrite ?L in H1]); cbn [gone] in H1; try congruence; rewrite ?eqb_refl in H1;
  try (apply among_throw_inv in H1; exact H1); destruct (negb (c_alloc row)); apply among_throw_inv in H1; exact H1.
Qed.
