(** Proofs about sessions with a device: the lock, and requests that do not end. *)
From Verif Require Import Base BaseProofs ModelChannel SpecChannel ProofsChannel ProofsTalks ModelSession SpecSession ProofsSession ProofsSessionReq.
Open Scope Z_scope.

(** * Writing in turn *)
Lemma unint_snoc l i : uninterrupted l -> (~ In i l \/ exists l', l = l' ++ [i]) -> uninterrupted (l ++ [i]).
Proof.
  intros H D a b c j E x Hx.
  destruct c as [|y c] using rev_ind.
  - assert (E2 : l ++ [i] = (a ++ j :: b) ++ [j]) by (rewrite E, <- !app_assoc; reflexivity). apply app_inj_tail in E2 as [E2 <-].
    destruct D as [D|(l' & D)]; [elim D; rewrite E2; apply in_or_app; right; left; reflexivity|].
    destruct b as [|z b] using rev_ind; [destruct Hx|]. clear IHb.
    assert (E3 : l' ++ [i] = (a ++ i :: b) ++ [z]) by (rewrite <- D, E2, <- !app_assoc; reflexivity). apply app_inj_tail in E3 as [E3 <-].
    apply in_app_or in Hx as [Hx|[<-|[]]]; [|reflexivity]. apply (H a b [] i); [|exact Hx]. rewrite D, E3, <- app_assoc. reflexivity.
  - assert (E2 : l ++ [i] = (a ++ j :: b ++ j :: c) ++ [y]). { rewrite E. repeat (cbn [app]; rewrite <- ?app_assoc; f_equal). }
    apply app_inj_tail in E2 as [E2 _]. exact (H a b c j E2 x Hx).
Qed.
Lemma unint_repeat n : forall (l : list nat) (i : nat), uninterrupted l -> (~ In i l \/ exists l', l = l' ++ [i]) -> uninterrupted (l ++ repeat i n).
Proof.
  induction n as [|n IH]; intros l i H D; cbn [repeat]; [rewrite app_nil_r; exact H|].
  replace (l ++ i :: repeat i n) with ((l ++ [i]) ++ repeat i n) by (rewrite <- app_assoc; reflexivity).
  apply IH; [apply unint_snoc; assumption|right; eauto].
Qed.
Lemma last_repeat n : forall (l : list nat) (i : nat), (~ In i l \/ exists l', l = l' ++ [i]) -> ~ In i (l ++ repeat i n) \/ exists l', l ++ repeat i n = l' ++ [i].
Proof.
  induction n as [|n IH]; intros l i D; cbn [repeat]; [rewrite app_nil_r; exact D|].
  replace (l ++ i :: repeat i n) with ((l ++ [i]) ++ repeat i n) by (rewrite <- app_assoc; reflexivity). apply IH. right. eauto.
Qed.
Lemma writers_app a b : writers (a ++ b) = writers a ++ writers b. Proof. apply flat_map_app. Qed.
Lemma writers_lines k i l : writers (map (Wrote k i) l) = repeat i (List.length l).
Proof. induction l as [|x r IH]; [reflexivity|]. cbn [map List.length repeat]. rewrite <- IH. reflexivity. Qed.

(** * The lock *)
Definition busy (p : progress) : Prop := match p with WantsShell _ | Talking _ _ => True | _ => False end.
Definition idle (p : progress) : Prop := match p with WantsWire _ | WantsChannel _ | Failed _ => True | _ => False end.
Definition says_last (s : session) (i : nat) : Prop := ~ In i (writers (ss_sent s)) \/ exists l, writers (ss_sent s) = l ++ [i].
Record lock_ok (s : session) : Prop := mkLock {
  l_busy : forall i ts p, req s i = Some (ts, p) -> busy p -> ss_lock s = Some i;
  l_held : forall i, ss_lock s = Some i -> exists ts p, req s i = Some (ts, p) /\ busy p;
  l_queue : forall j, In j (ss_queue s) <-> exists ts k, req s j = Some (ts, WantsLock k);
  l_once : NoDup (ss_queue s);
  l_free : ss_lock s = None -> ss_queue s = [];
  l_turn : uninterrupted (writers (ss_sent s));
  l_wrote : forall i, In i (writers (ss_sent s)) -> exists ts p, req s i = Some (ts, p) /\ (p = Succeeded \/ exists k c, p = Talking k c);
  l_last : forall i ts k c, req s i = Some (ts, Talking k c) -> says_last s i }.

(** the parts of a session the lock is about *)
Lemma lock_same s s' : lock_ok s -> (forall i, req s' i = req s i) -> ss_lock s' = ss_lock s -> ss_queue s' = ss_queue s ->
  writers (ss_sent s') = writers (ss_sent s) -> lock_ok s'.
Proof.
  intros [L1 L2 L3 L4 L5 L6 L7 L8] R Lk Q W. split.
  - intros i ts p. rewrite R, Lk. apply L1.
  - intros i. rewrite Lk. intros H. setoid_rewrite R. exact (L2 i H).
  - intros j. rewrite Q. setoid_rewrite R. apply L3.
  - rewrite Q. exact L4.
  - rewrite Lk, Q. exact L5.
  - rewrite W. exact L6.
  - intros i. rewrite W. setoid_rewrite R. apply L7.
  - intros i ts k c. rewrite R. unfold says_last. rewrite W. apply L8.
Qed.
Lemma lock_stage k x s : lock_ok s -> lock_ok (set_stage k x s).
Proof. intros L. apply (lock_same s); auto; [intros i; apply req_set_stage|apply lock_set_stage|apply queue_set_stage|rewrite sent_set_stage; reflexivity]. Qed.
(** from idle to idle *)
Lemma lock_idle i p p0 ts s s' : lock_ok s -> req s i = Some (ts, p0) -> idle p0 -> idle p ->
  (forall j, req s' j = if eqb j i then Some (ts, p) else req s j) -> ss_lock s' = ss_lock s -> ss_queue s' = ss_queue s ->
  writers (ss_sent s') = writers (ss_sent s) -> lock_ok s'.
Proof.
  intros [L1 L2 L3 L4 L5 L6 L7 L8] Ri I0 I1 R Lk Q W. split.
  - intros j t q. rewrite R, Lk. destruct (eqb_ok j i) as [->|]; [intros [= _ <-] B; destruct p; contradiction|apply L1].
  - intros j. rewrite Lk. intros H. destruct (L2 j H) as (t & q & A & B). exists t, q. rewrite R. destruct (eqb_ok j i) as [->|]; [|auto].
    rewrite Ri in A. injection A as _ <-. destruct p0; contradiction.
  - intros j. rewrite Q, L3. setoid_rewrite R. destruct (eqb_ok j i) as [->|]; [|reflexivity]. rewrite Ri.
    split; intros (t & k & [= _ E]); subst; contradiction.
  - rewrite Q. exact L4.
  - rewrite Lk, Q. exact L5.
  - rewrite W. exact L6.
  - intros j. rewrite W. intros H. destruct (L7 j H) as (t & q & A & B). exists t, q. rewrite R. destruct (eqb_ok j i) as [->|]; [|auto].
    rewrite Ri in A. injection A as _ <-. destruct B as [->|(k & c & ->)]; contradiction.
  - intros j t k c. rewrite R. unfold says_last. rewrite W. destruct (eqb_ok j i) as [->|]; [intros [= _ E]; subst; contradiction|apply L8].
Qed.

(** the holder has ended: the lock goes on *)
Lemma lock_release s i : (forall j ts p, req s j = Some (ts, p) -> ~ busy p) -> ss_lock s = Some i ->
  (forall j, In j (ss_queue s) <-> exists ts k, req s j = Some (ts, WantsLock k)) -> NoDup (ss_queue s) -> uninterrupted (writers (ss_sent s)) ->
  (forall i, In i (writers (ss_sent s)) -> exists ts, req s i = Some (ts, Succeeded)) -> lock_ok (release_lock s).
Proof.
  intros Nb Lk Q ND It Wr. unfold release_lock. destruct (ss_queue s) as [|j r] eqn:Eq.
  - split; cbn [ss_lock ss_queue ss_sent]; auto.
    + intros j ts p R B. elim (Nb j ts p R B).
    + discriminate.
    + intros k H. destruct (Wr k H) as (ts & R). exists ts, Succeeded. auto.
    + intros k ts k' c R. elim (Nb k ts _ R I).
  - cbv zeta. set (s1 := mkSession _ _ _ _ _ _). destruct (proj1 (Q j) (or_introl eq_refl)) as (ts & k & R).
    assert (P1 : progress_of s1 j = Some (WantsLock k)). { rewrite progress_req. change (req s1 j) with (req s j). rewrite R. reflexivity. }
    rewrite P1. assert (Rq : forall j', req (set_progress j (WantsShell k) s1) j' = if eqb j' j then Some (ts, WantsShell k) else req s j').
    { intros j'. rewrite req_set_progress. change (req s1 j) with (req s j). rewrite R. reflexivity. }
    inversion ND as [|? ? Nj ND']; subst. split.
    + intros j' t p. rewrite Rq, lock_set_progress. destruct (eqb_ok j' j) as [->|]; [intros _ _; reflexivity|]. intros R' B. elim (Nb _ _ _ R' B).
    + intros j'. rewrite lock_set_progress. intros [= <-]. exists ts, (WantsShell k). rewrite Rq, eqb_refl. split; [reflexivity|exact I].
    + intros j'. rewrite queue_set_progress. cbn [s1 ss_queue]. setoid_rewrite Rq. destruct (eqb_ok j' j) as [->|N].
      * split; [intros H; contradiction|intros (t & k' & [=])].
      * rewrite <- Q. cbn [In]. split; [auto|intros [H|H]; [congruence|exact H]].
    + rewrite queue_set_progress. exact ND'.
    + rewrite lock_set_progress. discriminate.
    + rewrite sent_set_progress. exact It.
    + intros j'. rewrite sent_set_progress. cbn [s1 ss_sent]. intros H. destruct (Wr j' H) as (t & R'). exists t, Succeeded. rewrite Rq. destruct (eqb_ok j' j) as [->|]; [congruence|auto].
    + intros j' t k' c. rewrite Rq. destruct (eqb_ok j' j) as [->|]; [discriminate|]. intros R'. elim (Nb _ _ _ R' I).
Qed.
Lemma lock_finish sk i k x s ts p0 : sk_locks sk = true -> lock_ok s -> req s i = Some (ts, p0) -> busy p0 ->
  (x = Succeeded \/ (exists e, x = Failed e) /\ ~ In i (writers (ss_sent s))) -> lock_ok (finish sk i k x s).
Proof.
  intros Hl L R B Hx. unfold finish. cbv zeta. rewrite Hl.
  set (s2 := match sk_keeps sk with EachTime => _ | Kept _ => _ end).
  assert (Rq : forall j, req s2 j = if eqb j i then Some (ts, x) else req s j).
  { intros j. unfold s2. destruct (sk_keeps sk); rewrite ?req_set_stage, req_set_progress, R; reflexivity. }
  assert (Lk : ss_lock s2 = ss_lock s) by (unfold s2; destruct (sk_keeps sk); rewrite ?lock_set_stage, lock_set_progress; reflexivity).
  assert (Qq : ss_queue s2 = ss_queue s) by (unfold s2; destruct (sk_keeps sk); rewrite ?queue_set_stage, queue_set_progress; reflexivity).
  assert (Sn : ss_sent s2 = ss_sent s) by (unfold s2; destruct (sk_keeps sk); rewrite ?sent_set_stage, sent_set_progress; reflexivity).
  pose proof (l_busy _ L _ _ _ R B) as Li.
  assert (Nx : ~ busy x /\ forall k, x <> WantsLock k) by (destruct Hx as [->|[(e & ->) _]]; split; try discriminate; intros []).
  apply (lock_release s2 i).
  - intros j t p. rewrite Rq. destruct (eqb_ok j i) as [->|N]; [intros [= _ <-]; apply Nx|]. intros R' B'. pose proof (l_busy _ L _ _ _ R' B'). congruence.
  - rewrite Lk. exact Li.
  - intros j. rewrite Qq, (l_queue _ L). setoid_rewrite Rq. destruct (eqb_ok j i) as [->|N]; [|reflexivity]. rewrite R.
    split; intros (t & k' & [= _ E]); [subst p0; contradiction|]. elim (proj2 Nx k' E).
  - rewrite Qq. apply L.
  - rewrite Sn. apply L.
  - intros j. rewrite Sn. intros H. rewrite Rq. destruct (eqb_ok j i) as [->|N].
    + exists ts. destruct Hx as [->|[_ W]]; [reflexivity|contradiction].
    + destruct (l_wrote _ L j H) as (t & p & R' & [->|(k' & c & ->)]); [eauto|]. pose proof (l_busy _ L _ _ _ R' I). congruence.
Qed.
Lemma lock_talk sk i k n c s ts p0 : sk_locks sk = true -> lock_ok s -> req s i = Some (ts, p0) -> busy p0 -> lock_ok (talk_on sk i k n c s).
Proof.
  intros Hl L R B. unfold talk_on. cbv zeta. set (s1 := if is_up s k then _ else s).
  assert (La : says_last s i).
  { destruct p0; try contradiction; [|exact (l_last _ L _ _ _ _ R)]. left. intros H. destruct (l_wrote _ L i H) as (t & p & R' & Hp). rewrite R in R'. injection R' as _ <-.
    destruct Hp as [|(? & ? & ?)]; discriminate. }
  assert (W1 : exists m, writers (ss_sent s1) = writers (ss_sent s) ++ repeat i m).
  { unfold s1. destruct (is_up s k); [|exists O; rewrite app_nil_r; reflexivity]. eexists. rewrite sent_leaves, writers_app, writers_lines. reflexivity. }
  destruct W1 as (m & W1).
  assert (R1 : forall j, req s1 j = req s j) by (intros j; unfold s1; destruct (is_up s k); reflexivity).
  assert (Lk : ss_lock s1 = ss_lock s) by (unfold s1; destruct (is_up s k); reflexivity).
  assert (Qq : ss_queue s1 = ss_queue s) by (unfold s1; destruct (is_up s k); reflexivity).
  assert (It : uninterrupted (writers (ss_sent s1))) by (rewrite W1; apply unint_repeat; [apply L|exact La]).
  assert (La1 : says_last s1 i) by (unfold says_last; rewrite W1; apply last_repeat; exact La).
  assert (K : lock_ok (set_progress i (Talking k c) s1)).
  { assert (Rq : forall j, req (set_progress i (Talking k c) s1) j = if eqb j i then Some (ts, Talking k c) else req s j).
    { intros j. rewrite req_set_progress, !R1, R. reflexivity. }
    pose proof (l_busy _ L _ _ _ R B) as Li. split.
    - intros j t p. rewrite Rq, lock_set_progress, Lk. destruct (eqb_ok j i) as [->|]; [intros _ _; exact Li|apply L].
    - intros j. rewrite lock_set_progress, Lk. rewrite Li. intros [= <-]. exists ts, (Talking k c). rewrite Rq, eqb_refl. split; [reflexivity|exact I].
    - intros j. rewrite queue_set_progress, Qq, (l_queue _ L). setoid_rewrite Rq. destruct (eqb_ok j i) as [->|]; [|reflexivity]. rewrite R.
      split; intros (t & k' & [= _ E]); subst; contradiction.
    - rewrite queue_set_progress, Qq. apply L.
    - rewrite lock_set_progress, Lk, Li. discriminate.
    - rewrite sent_set_progress. exact It.
    - intros j. rewrite sent_set_progress, W1, Rq. intros H. destruct (eqb_ok j i) as [->|N]; [exists ts, (Talking k c); eauto|].
      apply in_app_or in H as [H|H]; [exact (l_wrote _ L j H)|]. apply repeat_spec in H. contradiction.
    - intros j t k' c'. rewrite Rq. unfold says_last. rewrite sent_set_progress. destruct (eqb_ok j i) as [->|N]; [intros _; exact La1|].
      intros R'. pose proof (l_busy _ L _ _ _ R' I). congruence. }
  destruct (ch_done c); [|exact K].
  (* the end: as from talking *)
  assert (E : finish sk i k Succeeded s1 = finish sk i k Succeeded (set_progress i (Talking k c) s1)).
  { unfold finish. cbv zeta. assert (E : set_progress i Succeeded (set_progress i (Talking k c) s1) = set_progress i Succeeded s1); [|rewrite E; reflexivity].
    pose proof (R1 i) as Ri. rewrite R in Ri. unfold req in Ri. unfold set_progress at 2. rewrite Ri. unfold set_progress. cbn [ss_reqs]. rewrite aget_aset_eq, Ri. cbn [ss_wires ss_kept ss_lock ss_queue ss_sent].
    f_equal. clear. induction (ss_reqs s1) as [|[k' v] r IH]; cbn [aset]; [rewrite eqb_refl; reflexivity|].
    destruct (eqb i k') eqn:E; cbn [aset]; rewrite E; [reflexivity|f_equal; exact IH]. }
  rewrite E. apply (lock_finish sk i k Succeeded _ ts (Talking k c)); auto; [|exact I].
  rewrite req_set_progress, eqb_refl, R1, R. reflexivity.
Qed.

Lemma lock_step sk lg b s e : sk_locks sk = true -> good lg s -> lock_ok s -> lock_ok (happen sk lg b s e).
Proof.
  intros Hl G L. destruct e as [i ts|k0|k0 x|k0 fp|k0|i|i yes|i data|k0]; cbn [happen].
  - unfold ask. destruct (aget i (ss_reqs s)) eqn:E; [exact L|]. unfold choose. set (s1 := mkSession _ _ _ _ _ _) in *.
    assert (R1 : forall j, req s1 j = if eqb j i then Some (ts, Failed EFuel) else req s j).
    { intros j. unfold req, s1. cbn [ss_reqs]. rewrite aget_snoc. destruct (eqb_ok j i) as [->|]; [rewrite E; reflexivity|]. destruct (aget j (ss_reqs s)); reflexivity. }
    assert (L1 : lock_ok s1).
    { destruct L as [L1 L2 L3 L4 L5 L6 L7 L8]. change (req s i = None) in E. split; auto.
      - intros j t p. rewrite R1. destruct (eqb_ok j i) as [->|]; [intros [= _ <-] []|apply L1].
      - intros j H. destruct (L2 j H) as (t & p & A & B). exists t, p. rewrite R1. destruct (eqb_ok j i) as [->|]; [congruence|auto].
      - intros j. setoid_rewrite R1. destruct (eqb_ok j i) as [->|]; [|apply L3]. change (ss_queue s1) with (ss_queue s). rewrite (L3 i), E. split; intros (t & k & [=]).
      - intros j H. destruct (L7 j H) as (t & p & A & B). exists t, p. rewrite R1. destruct (eqb_ok j i) as [->|]; [congruence|auto].
      - intros j t k c. rewrite R1. destruct (eqb_ok j i) as [->|]; [discriminate|apply L8]. }
    assert (Ri : req s1 i = Some (ts, Failed EFuel)) by (rewrite R1, eqb_refl; reflexivity).
    assert (D : lock_ok (dial i s1)).
    { apply (lock_idle i (WantsWire (List.length (ss_wires s1))) (Failed EFuel) ts s1); auto; try exact I.
      - intros j. rewrite req_dial, Ri. reflexivity.
      - apply lock_dial.
      - apply queue_dial.
      - rewrite sent_dial. reflexivity. }
    destruct (sk_keeps sk) as [|looks]; [exact D|]. destruct (ss_kept s1) as [k1|] eqn:K; [|exact D].
    destruct (looks && stopped s1 k1); [exact D|].
    apply (lock_idle i (WantsChannel k1) (Failed EFuel) ts s1); auto; try exact I.
    + intros j. rewrite req_set_progress, Ri. reflexivity.
    + apply lock_set_progress.
    + apply queue_set_progress.
    + rewrite sent_set_progress. reflexivity.
  - destruct (aget k0 (ss_wires s)) as [[[] j]|]; try exact L. apply lock_stage. exact L.
  - destruct (aget k0 (ss_wires s)) as [[[] j]|] eqn:E; try exact L. destruct (f_young _ _ _ G _ _ _ E (or_introl eq_refl)) as (ts & R).
    apply (lock_idle j (Failed x) (WantsWire k0) ts s); auto; try exact I.
    + intros j'. rewrite req_set_progress, !req_set_stage, R. reflexivity.
    + rewrite lock_set_progress. apply lock_set_stage.
    + rewrite queue_set_progress. apply queue_set_stage.
    + rewrite sent_set_progress, sent_set_stage. reflexivity.
  - unfold host_key. destruct (aget k0 (ss_wires s)) as [[[] j]|] eqn:E; try exact L.
    + destruct (verify_host_key lg fp); [|apply lock_stage; exact L].
      destruct (offer lg) as [c|e].
      * pose proof (lock_stage k0 LoggingIn s L) as L1. apply (lock_same _ _ L1); auto. rewrite sent_leaves, writers_app. apply app_nil_r.
      * destruct (f_young _ _ _ G _ _ _ E (or_intror (or_introl eq_refl))) as (ts & R).
        apply (lock_idle j (Failed e) (WantsWire k0) ts s); auto; try exact I.
        -- intros j'. rewrite req_set_progress, !req_set_stage, R. reflexivity.
        -- rewrite lock_set_progress. apply lock_set_stage.
        -- rewrite queue_set_progress. apply queue_set_stage.
        -- rewrite sent_set_progress, sent_set_stage. reflexivity.
    + destruct (verify_host_key lg fp); [exact L|apply lock_stage; exact L].
    + destruct (verify_host_key lg fp); [exact L|apply lock_stage; exact L].
  - unfold logged_in. destruct (aget k0 (ss_wires s)) as [[[] j]|] eqn:E; try exact L. destruct (offer lg) as [c|] eqn:O; [|exact L]. cbv zeta.
    destruct (f_young _ _ _ G _ _ _ E (or_intror (or_intror (conj eq_refl (ex_intro _ c O))))) as (ts & R).
    assert (L1 : lock_ok (set_progress j (WantsChannel k0) (set_stage k0 Up s))).
    { apply (lock_idle j (WantsChannel k0) (WantsWire k0) ts s); auto; try exact I.
      - intros j'. rewrite req_set_progress, !req_set_stage, R. reflexivity.
      - rewrite lock_set_progress. apply lock_set_stage.
      - rewrite queue_set_progress. apply queue_set_stage.
      - rewrite sent_set_progress, sent_set_stage. reflexivity. }
    destruct (sk_keeps sk); [exact L1|]. apply (lock_same _ _ L1); auto.
  - unfold channel_open. destruct (progress_of s i) as [[|k1| | | | |]|] eqn:E; try exact L. destruct (is_up s k1); [|exact L].
    rewrite progress_req in E. destruct (req s i) as [[ts p]|] eqn:R; [|discriminate]. injection E as ->. rewrite Hl.
    assert (Nw : ~ In i (writers (ss_sent s))).
    { intros H. destruct (l_wrote _ L i H) as (t & p & R' & Hp). rewrite R in R'. injection R' as _ <-. destruct Hp as [|(? & ? & ?)]; discriminate. }
    assert (Nq : ~ In i (ss_queue s)). { intros H. apply (l_queue _ L) in H as (t & k & H). congruence. }
    destruct L as [L1 L2 L3 L4 L5 L6 L7 L8]. destruct (ss_lock s) as [h|] eqn:Lk.
    + set (s1 := mkSession _ _ _ _ _ _).
      assert (Rq : forall j, req (set_progress i (WantsLock k1) s1) j = if eqb j i then Some (ts, WantsLock k1) else req s j).
      { intros j. rewrite req_set_progress. change (req s1 i) with (req s i). rewrite R. reflexivity. }
      split.
      * intros j t p. rewrite Rq, lock_set_progress. destruct (eqb_ok j i) as [->|]; [intros [= _ <-] []|apply L1].
      * intros j. rewrite lock_set_progress. intros H. destruct (L2 j H) as (t & p & A & B). exists t, p. rewrite Rq. destruct (eqb_ok j i) as [->|]; [|auto].
        rewrite R in A. injection A as _ <-. contradiction.
      * intros j. rewrite queue_set_progress. cbn [s1 ss_queue]. rewrite in_app_iff. setoid_rewrite Rq. destruct (eqb_ok j i) as [->|N].
        -- split; [eauto|]. intros _. right. left. reflexivity.
        -- rewrite L3. split; [intros [H|[H|[]]]; [exact H|congruence]|auto].
      * rewrite queue_set_progress. cbn [s1 ss_queue]. apply NoDup_Add with i (ss_queue s); [|split; assumption].
        rewrite <- (app_nil_r (ss_queue s)) at 1. apply Add_app.
      * rewrite lock_set_progress. discriminate.
      * rewrite sent_set_progress. exact L6.
      * intros j. rewrite sent_set_progress. intros H. destruct (L7 j H) as (t & p & A & B). exists t, p. rewrite Rq. destruct (eqb_ok j i) as [->|]; [contradiction|auto].
      * intros j t k c. rewrite Rq. unfold says_last. rewrite sent_set_progress. destruct (eqb_ok j i) as [->|]; [discriminate|apply L8].
    + set (s1 := mkSession _ _ _ _ _ _).
      assert (Rq : forall j, req (set_progress i (WantsShell k1) s1) j = if eqb j i then Some (ts, WantsShell k1) else req s j).
      { intros j. rewrite req_set_progress. change (req s1 i) with (req s i). rewrite R. reflexivity. }
      split.
      * intros j t p. rewrite Rq, lock_set_progress. destruct (eqb_ok j i) as [->|]; [reflexivity|]. intros A B. specialize (L1 _ _ _ A B). discriminate.
      * intros j. rewrite lock_set_progress. intros [= <-]. exists ts, (WantsShell k1). rewrite Rq, eqb_refl. split; [reflexivity|exact I].
      * intros j. rewrite queue_set_progress. cbn [s1 ss_queue]. setoid_rewrite Rq. destruct (eqb_ok j i) as [->|N]; [|apply L3].
        split; [intros H; contradiction|intros (t & k & [=])].
      * rewrite queue_set_progress. exact L4.
      * rewrite lock_set_progress. discriminate.
      * rewrite sent_set_progress. exact L6.
      * intros j. rewrite sent_set_progress. intros H. destruct (L7 j H) as (t & p & A & B). exists t, p. rewrite Rq. destruct (eqb_ok j i) as [->|]; [contradiction|auto].
      * intros j t k c. rewrite Rq. unfold says_last. rewrite sent_set_progress. destruct (eqb_ok j i) as [->|]; [discriminate|apply L8].
  - unfold shell. destruct (aget i (ss_reqs s)) as [[ts [| | |k1| | |]]|] eqn:E; try exact L. destruct yes.
    + exact (lock_talk sk i k1 0 (begin ts) s ts _ Hl L E I).
    + apply (lock_finish sk i k1 _ s ts (WantsShell k1) Hl L E I). right. split; [eauto|].
      intros H. destruct (l_wrote _ L i H) as (t & p & R' & Hp). change (req s i = Some (ts, WantsShell k1)) in E. rewrite E in R'. injection R' as _ <-. destruct Hp as [|(? & ? & ?)]; discriminate.
  - unfold arrived. destruct (progress_of s i) as [[| | | |k1 c| |]|] eqn:E; try exact L. destruct (is_up s k1); [|exact L].
    rewrite progress_req in E. destruct (req s i) as [[ts p]|] eqn:R; [|discriminate]. injection E as ->.
    destruct (data_received _ _ _ _) as [c'|]; [|apply lock_stage; exact L]. exact (lock_talk sk i k1 _ c' s ts _ Hl L R I).
  - destruct (stage_of s k0) as [[]|]; try exact L; apply lock_stage; exact L.
Qed.
Lemma lock0 : lock_ok session0.
Proof.
  split; try discriminate; try constructor.
  - intros [].
  - intros (ts & k & [=]).
  - intros a b c i E. destruct a; discriminate.
  - intros i [].
Qed.
Lemma lock_run sk lg b es : sk_locks sk = true -> lock_ok (session_run sk lg b es).
Proof.
  intros Hl. induction es as [|e es IH] using rev_ind; [apply lock0|]. rewrite run_snoc. apply lock_step; [exact Hl|apply good_run|exact IH].
Qed.

(** * Requests that hang *)
Lemma finish_others sk i k x s j p : j <> i -> progress_of s j = Some p -> (forall k, p <> WantsLock k) -> progress_of (finish sk i k x s) j = Some p.
Proof.
  intros N P NL. unfold finish. cbv zeta. set (s2 := match sk_keeps sk with EachTime => _ | Kept _ => _ end).
  assert (P2 : progress_of s2 j = Some p).
  { rewrite progress_req in *. unfold s2. destruct (sk_keeps sk); rewrite ?req_set_stage, req_set_progress, (eqb_neq j i N); exact P. }
  destruct (sk_locks sk); [|exact P2]. unfold release_lock. destruct (ss_queue s2) as [|h r]; [exact P2|]. cbv zeta.
  set (s3 := mkSession _ _ _ _ _ _). assert (P3 : progress_of s3 j = Some p) by exact P2.
  destruct (progress_of s3 h) as [[| |k'| | | |]|] eqn:E; try exact P3.
  rewrite progress_req in *. rewrite req_set_progress. destruct (eqb_ok j h) as [->|]; [|exact P3]. rewrite P3 in E. injection E as ->. elim (NL k' eq_refl).
Qed.
Lemma talk_others sk i k n c s j p : j <> i -> progress_of s j = Some p -> (forall k, p <> WantsLock k) -> progress_of (talk_on sk i k n c s) j = Some p.
Proof.
  intros N P NL. unfold talk_on. cbv zeta. set (s1 := if is_up s k then _ else s).
  assert (P1 : progress_of s1 j = Some p) by (unfold s1; destruct (is_up s k); exact P).
  destruct (ch_done c); [apply finish_others; assumption|]. rewrite progress_req in *. rewrite req_set_progress, (eqb_neq j i N). exact P1.
Qed.

Lemma hang_step sk lg b s e i p k : good lg s -> progress_of s i = Some p -> hangs_on k p -> stage_of s k = Some Gone ->
  progress_of (happen sk lg b s e) i = Some p.
Proof.
  intros G P H Gn. assert (NL : forall k, p <> WantsLock k) by (intros k' ->; contradiction).
  assert (Not : forall k' x, wire s k' = Some (x, i) -> young lg x -> False).
  { intros k' x W Y. destruct (f_young _ _ _ G _ _ _ W Y) as (t & R). rewrite progress_req, R in P. injection P as <-. cbn in H. subst k'.
    rewrite stage_wire, W in Gn. injection Gn as ->. destruct Y as [|[|[? _]]]; discriminate. }
  assert (Sp : forall j x s', j <> i -> progress_of s' i = Some p -> progress_of (set_progress j x s') i = Some p).
  { intros j x s' N P'. rewrite progress_req in *. rewrite req_set_progress, (eqb_neq i j) by congruence. exact P'. }
  assert (Ss : forall k' x s', progress_of s' i = Some p -> progress_of (set_stage k' x s') i = Some p).
  { intros k' x s' P'. rewrite progress_req in *. rewrite req_set_stage. exact P'. }
  assert (Up0 : is_up s k = false) by (unfold is_up; rewrite Gn; reflexivity).
  destruct e as [j ts|k0|k0 x|k0 fp|k0|j|j yes|j data|k0]; cbn [happen].
  - unfold ask. destruct (aget j (ss_reqs s)) eqn:E; [exact P|]. unfold choose. set (s1 := mkSession _ _ _ _ _ _).
    assert (N : j <> i). { intros ->. rewrite progress_req in P. unfold req in P. rewrite E in P. discriminate. }
    assert (P1 : progress_of s1 i = Some p).
    { rewrite progress_req in *. unfold req, s1 in *. cbn [ss_reqs]. rewrite aget_snoc. destruct (aget i (ss_reqs s)); [exact P|discriminate]. }
    assert (D : progress_of (dial j s1) i = Some p). { unfold dial. apply Sp; [exact N|exact P1]. }
    destruct (sk_keeps sk) as [|looks]; [exact D|]. destruct (ss_kept s1) as [k1|]; [|exact D].
    destruct (looks && stopped s1 k1); [exact D|]. apply Sp; assumption.
  - destruct (aget k0 (ss_wires s)) as [[[] j]|]; try exact P. apply Ss, P.
  - destruct (aget k0 (ss_wires s)) as [[[] j]|] eqn:E; try exact P.
    apply Sp; [|apply Ss, P]. intros ->. apply (Not _ _ E). left. reflexivity.
  - unfold host_key. destruct (aget k0 (ss_wires s)) as [[[] j]|] eqn:E; try exact P.
    + destruct (verify_host_key lg fp); [|apply Ss, P]. destruct (offer lg); [apply (Ss k0 LoggingIn), P|].
      apply Sp; [|apply Ss, P]. intros ->. apply (Not _ _ E). right. left. reflexivity.
    + destruct (verify_host_key lg fp); [exact P|apply Ss, P].
    + destruct (verify_host_key lg fp); [exact P|apply Ss, P].
  - unfold logged_in. destruct (aget k0 (ss_wires s)) as [[[] j]|] eqn:E; try exact P. destruct (offer lg) as [c|] eqn:O; [|exact P]. cbv zeta.
    assert (P1 : progress_of (set_progress j (WantsChannel k0) (set_stage k0 Up s)) i = Some p).
    { apply Sp; [|apply Ss, P]. intros ->. apply (Not _ _ E). right. right. eauto. }
    destruct (sk_keeps sk); exact P1.
  - unfold channel_open. destruct (progress_of s j) as [[|k1| | | | |]|] eqn:E; try exact P. destruct (is_up s k1) eqn:U; [|exact P].
    assert (N : j <> i). { intros ->. rewrite P in E. injection E as ->. cbn in H. congruence. }
    destruct (sk_locks sk); [destruct (ss_lock s)|]; apply Sp; assumption.
  - unfold shell. destruct (aget j (ss_reqs s)) as [[ts [| | |k1| | |]]|] eqn:E; try exact P.
    assert (N : i <> j). { intros ->. rewrite progress_req in P. unfold req in P. rewrite E in P. injection P as <-. contradiction. }
    destruct yes; [apply talk_others; assumption|apply finish_others; assumption].
  - unfold arrived. destruct (progress_of s j) as [[| | | |k1 c| |]|] eqn:E; try exact P. destruct (is_up s k1) eqn:U; [|exact P].
    assert (N : i <> j). { intros ->. rewrite P in E. injection E as ->. cbn in H. congruence. }
    destruct (data_received _ _ _ _); [apply talk_others; assumption|apply Ss, P].
  - destruct (stage_of s k0) as [[]|]; try exact P; apply Ss, P.
Qed.
Lemma hang_run sk lg b es : forall s i p k, good lg s -> progress_of s i = Some p -> hangs_on k p -> stage_of s k = Some Gone ->
  progress_of (fold_left (happen sk lg b) es s) i = Some p.
Proof.
  induction es as [|e es IH]; intros s i p k G P H Gn; [exact P|]. cbn [fold_left].
  apply (IH _ i p k); [apply good_step; exact G|exact (hang_step sk lg b s e i p k G P H Gn)|exact H|exact (proj1 (gone_step sk lg b s e k Gn))].
Qed.

(** a lock held by a request whose connection is gone: nobody writes any more *)
Lemma stuck_step sk lg b s e i k c : sk_locks sk = true -> good lg s -> lock_ok s -> progress_of s i = Some (Talking k c) -> stage_of s k = Some Gone ->
  writers (ss_sent (happen sk lg b s e)) = writers (ss_sent s).
Proof.
  intros Hl G L P Gn. destruct (happen_sent sk lg b s e) as (l & E & N). rewrite E, writers_app.
  assert (Li : ss_lock s = Some i). { rewrite progress_req in P. destruct (req s i) as [[ts p]|] eqn:R; [|discriminate]. injection P as ->. exact (l_busy _ L _ _ _ R I). }
  destruct N as [|k' fp c' He Hf Ho Hs|k' j l Hs Hp]; [apply app_nil_r|apply app_nil_r|].
  exfalso. assert (Lj : ss_lock s = Some j).
  { rewrite progress_req in Hp. destruct (req s j) as [[ts p]|] eqn:R; [|destruct Hp as [|(? & ?)]; discriminate].
    apply (l_busy _ L _ _ _ R). destruct Hp as [[= ->]|(? & [= ->])]; exact I. }
  rewrite Li in Lj. injection Lj as <-. destruct Hp as [Hp|(c0 & Hp)]; rewrite P in Hp; [discriminate|]. injection Hp as -> ->. congruence.
Qed.
Lemma stuck_run sk lg b es : forall s i k c, sk_locks sk = true -> good lg s -> lock_ok s -> progress_of s i = Some (Talking k c) -> stage_of s k = Some Gone ->
  writers (ss_sent (fold_left (happen sk lg b) es s)) = writers (ss_sent s).
Proof.
  induction es as [|e es IH]; intros s i k c Hl G L P Gn; [reflexivity|]. cbn [fold_left].
  rewrite (IH _ i k c); [exact (stuck_step sk lg b s e i k c Hl G L P Gn)|exact Hl|apply good_step; exact G|apply lock_step; assumption| |exact (proj1 (gone_step sk lg b s e k Gn))].
  exact (hang_step sk lg b s e i _ k G P eq_refl Gn).
Qed.

(** * Conversations belong to requests *)
Lemma ts_set_progress i x s j : option_map fst (req (set_progress i x s) j) = option_map fst (req s j).
Proof. rewrite req_set_progress. destruct (eqb_ok j i) as [->|]; [|reflexivity]. destruct (req s i) as [[]|]; reflexivity. Qed.
Lemma ts_set_stage k x s j : option_map fst (req (set_stage k x s) j) = option_map fst (req s j).
Proof. rewrite req_set_stage. reflexivity. Qed.
Lemma ts_release s j : option_map fst (req (release_lock s) j) = option_map fst (req s j).
Proof.
  unfold release_lock. destruct (ss_queue s) as [|h r]; [reflexivity|]. cbv zeta. destruct (progress_of _ h) as [[]|]; try reflexivity.
  rewrite ts_set_progress. reflexivity.
Qed.
Lemma ts_finish sk i k x s j : option_map fst (req (finish sk i k x s) j) = option_map fst (req s j).
Proof. unfold finish. cbv zeta. destruct (sk_locks sk); rewrite ?ts_release; destruct (sk_keeps sk); rewrite ?ts_set_stage, ts_set_progress; reflexivity. Qed.
Lemma ts_talk sk i k n c s j : option_map fst (req (talk_on sk i k n c s) j) = option_map fst (req s j).
Proof. unfold talk_on. cbv zeta. destruct (ch_done c); rewrite ?ts_finish, ?ts_set_progress; destruct (is_up s k); reflexivity. Qed.
Lemma ts_step sk lg b s e j ts : option_map fst (req (happen sk lg b s e) j) = Some ts -> option_map fst (req s j) = Some ts \/ e = Request j ts.
Proof.
  destruct e as [i ts'|k0|k0 x|k0 fp|k0|i|i yes|i data|k0]; cbn [happen].
  - unfold ask. destruct (aget i (ss_reqs s)) eqn:E; [auto|]. unfold choose. set (s1 := mkSession _ _ _ _ _ _) in *.
    assert (H1 : option_map fst (req s1 j) = Some ts -> option_map fst (req s j) = Some ts \/ Request i ts' = Request j ts).
    { unfold req, s1. cbn [ss_reqs]. rewrite aget_snoc. destruct (aget j (ss_reqs s)); [auto|]. destruct (eqb_ok j i) as [->|]; [|discriminate]. intros [= ->]. auto. }
    assert (D : option_map fst (req (dial i s1) j) = option_map fst (req s1 j)) by (unfold dial; rewrite ts_set_progress; reflexivity).
    destruct (sk_keeps sk) as [|looks]; [rewrite D; exact H1|]. destruct (ss_kept s1); [|rewrite D; exact H1].
    destruct (looks && stopped s1 n); [rewrite D|rewrite ts_set_progress]; exact H1.
  - destruct (aget k0 (ss_wires s)) as [[[] i]|]; rewrite ?ts_set_stage; auto.
  - destruct (aget k0 (ss_wires s)) as [[[] i]|]; rewrite ?ts_set_progress, ?ts_set_stage; auto.
  - unfold host_key. destruct (aget k0 (ss_wires s)) as [[[] i]|]; auto; destruct (verify_host_key lg fp); rewrite ?ts_set_stage; auto.
    destruct (offer lg); [rewrite req_leaves|rewrite ts_set_progress]; rewrite ts_set_stage; auto.
  - unfold logged_in. destruct (aget k0 (ss_wires s)) as [[[] i]|]; auto. destruct (offer lg); auto. cbv zeta.
    destruct (sk_keeps sk); [|change (req (mkSession _ _ _ _ _ _) j) with (req (set_progress i (WantsChannel k0) (set_stage k0 Up s)) j)]; rewrite ts_set_progress, ts_set_stage; auto.
  - unfold channel_open. destruct (progress_of s i) as [[|k1| | | | |]|]; auto. destruct (is_up s k1); auto.
    destruct (sk_locks sk); [destruct (ss_lock s)|]; rewrite ts_set_progress; auto.
  - unfold shell. destruct (aget i (ss_reqs s)) as [[ts0 [| | |k1| | |]]|]; auto. destruct yes; [rewrite ts_talk|rewrite ts_finish]; auto.
  - unfold arrived. destruct (progress_of s i) as [[| | | |k1 c| |]|]; auto. destruct (is_up s k1); auto.
    destruct (data_received _ _ _ _); [rewrite ts_talk|rewrite ts_set_stage]; auto.
  - destruct (stage_of s k0) as [[]|]; rewrite ?ts_set_stage; auto.
Qed.
Lemma req_asked sk lg b es i ts : option_map fst (req (session_run sk lg b es) i) = Some ts -> In (Request i ts) es.
Proof.
  induction es as [|e es IH] using rev_ind; [discriminate|]. rewrite run_snoc. intros H. apply in_or_app.
  destruct (ts_step _ _ _ _ _ _ _ H) as [H'| ->]; [left; exact (IH H')|right; left; reflexivity].
Qed.
Lemma lines_run sk lg b es i : let s := session_run sk lg b es in let w := written i (ss_sent s) in
  w = [] \/ exists ts k, In (Request i ts) es /\ (forall x, In x w -> fst x = k) /\ beginning (map snd w) (all_lines ts).
Proof.
  intros s w. pose proof (f_lines _ _ _ (good_run sk lg b es) i I) as L. fold s in L.
  assert (A : forall ts p, req s i = Some (ts, p) -> In (Request i ts) es) by (intros ts p R; apply (req_asked sk lg b); fold s; rewrite R; reflexivity).
  destruct (req s i) as [[ts p]|] eqn:R; [|left; exact L]. specialize (A ts p eq_refl). destruct p; try (left; exact L); right; exists ts.
  - destruct L as (L1 & L2 & _). exists k. split; [exact A|]. split; [exact L1|]. destruct (f_chan _ _ _ (good_run sk lg b es) _ _ _ _ R) as (_ & pre & T).
    apply (beginning_trans _ _ _ L2). exact (proj1 (at_order ts c pre T)).
  - destruct L as ((k & L1) & L2 & _). exists k. auto.
Qed.
Lemma talk_wait cmds k ts lines : talk_of cmds k ts lines -> waits ts.
Proof. intros []; eexists; (split; [left; reflexivity|discriminate]). Qed.
Lemma success_run sk lg b es i ts cmds kind lines : let s := session_run sk lg b es in
  aget i (ss_reqs s) = Some (ts, Succeeded) -> talk_of cmds kind ts lines -> exists k, written i (ss_sent s) = map (pair k) lines.
Proof.
  intros s R T. pose proof (f_lines _ _ _ (good_run sk lg b es) i I) as L. fold s in L. unfold req in L. rewrite R in L.
  destruct L as ((k & L1) & _ & L2). exists k. specialize (L2 (talk_wait _ _ _ _ T)). unfold all_lines in L2. rewrite (talk_lines _ _ _ _ T) in L2. rewrite <- L2.
  clear - L1. induction (written i (ss_sent s)) as [|[k' x] r IH]; [reflexivity|]. cbn [map snd]. rewrite <- IH by (intros y Hy; apply L1; right; exact Hy).
  pose proof (L1 _ (or_introl eq_refl)) as E. cbn in E. subst k'. reflexivity.
Qed.

(** * How requests end *)
Lemma wants_its sk lg b es i k x : let s := session_run sk lg b es in
  progress_of s i = Some (WantsWire k) -> stage_of s k = Some x -> wire s k = Some (x, i) /\ exists ts, req s i = Some (ts, WantsWire k).
Proof.
  intros s P S. rewrite progress_req in P. destruct (req s i) as [[ts p]|] eqn:R; [|discriminate]. injection P as ->.
  destruct (f_wants _ _ _ (good_run sk lg b es) _ _ _ R) as (y & W & _). fold s in W. rewrite stage_wire, W in S. injection S as ->. eauto.
Qed.
Lemma no_route sk lg b es i k e : let s := session_run sk lg b es in
  progress_of s i = Some (WantsWire k) -> stage_of s k = Some Dialing -> progress_of (session_run sk lg b (es ++ [Refused k e])) i = Some (Failed e).
Proof.
  intros s P S. destruct (wants_its sk lg b es i k _ P S) as (W & ts & R). fold s in W, R. rewrite run_snoc. fold s. cbn [happen]. unfold wire in W. rewrite W.
  rewrite progress_req, req_set_progress, !req_set_stage, eqb_refl, R. reflexivity.
Qed.
Lemma no_credentials sk lg b es i k fp : let s := session_run sk lg b es in
  progress_of s i = Some (WantsWire k) -> stage_of s k = Some Unproved -> In fp (lg_fingerprints lg) -> (forall c, ~ configured lg c) ->
  progress_of (session_run sk lg b (es ++ [HostKey k fp])) i = Some (Failed EAssertion).
Proof.
  intros s P S Hf Hc. destruct (wants_its sk lg b es i k _ P S) as (W & ts & R). fold s in W, R. rewrite run_snoc. fold s. cbn [happen]. unfold host_key. unfold wire in W. rewrite W.
  assert (V : verify_host_key lg fp = true) by (apply mem_In; exact Hf). rewrite V.
  assert (O : offer lg = Err EAssertion).
  { destruct (offer lg) as [c|e] eqn:O; [elim (Hc c); apply offer_spec; exact O|]. revert O. unfold offer. destruct (given _); [destruct (given _); [discriminate|]|]; destruct (given _); congruence. }
  rewrite O, progress_req, req_set_progress, !req_set_stage, eqb_refl, R. reflexivity.
Qed.
Lemma finish_own sk i k x s ts p0 : req s i = Some (ts, p0) -> ~ In i (ss_queue s) \/ sk_locks sk = false -> progress_of (finish sk i k x s) i = Some x.
Proof.
  intros R Q. unfold finish. cbv zeta. set (s2 := match sk_keeps sk with EachTime => _ | Kept _ => _ end).
  assert (P2 : progress_of s2 i = Some x) by (rewrite progress_req; unfold s2; destruct (sk_keeps sk); rewrite ?req_set_stage, req_set_progress, eqb_refl, R; reflexivity).
  assert (Q2 : ss_queue s2 = ss_queue s) by (unfold s2; destruct (sk_keeps sk); rewrite ?queue_set_stage, queue_set_progress; reflexivity).
  destruct (sk_locks sk); [|exact P2]. destruct Q as [Q|]; [|discriminate]. unfold release_lock. rewrite Q2. destruct (ss_queue s) as [|h r]; [exact P2|]. cbv zeta.
  destruct (progress_of _ h) as [[]|]; try exact P2. rewrite progress_req, req_set_progress, eqb_neq; [exact P2|]. intros ->. apply Q. left. reflexivity.
Qed.
Lemma not_queued sk lg b es i : let s := session_run sk lg b es in (forall k, progress_of s i <> Some (WantsLock k)) -> ~ In i (ss_queue s) \/ sk_locks sk = false.
Proof.
  intros s P. destruct (sk_locks sk) eqn:L; [left|auto]. intros H. apply (l_queue _ (lock_run sk lg b es L)) in H as (ts & k & R). apply (P k).
  rewrite progress_req. unfold s. rewrite R. reflexivity.
Qed.
Lemma no_shell sk lg b es i k : let s := session_run sk lg b es in let s' := session_run sk lg b (es ++ [Shell i false]) in
  progress_of s i = Some (WantsShell k) -> progress_of s' i = Some (Failed EConnection) /\ (sk_keeps sk = EachTime -> stage_of s' k = Some Gone).
Proof.
  intros s s' P. pose proof (not_queued sk lg b es i) as Q. cbv zeta in Q. fold s in Q. rewrite P in Q. specialize (Q ltac:(discriminate)).
  rewrite progress_req in P. destruct (req s i) as [[ts p]|] eqn:R; [|discriminate]. injection P as ->.
  unfold s'. rewrite run_snoc. fold s. cbn [happen]. unfold shell. pose proof R as R'. unfold req in R'. rewrite R'. split; [exact (finish_own sk i k _ s ts _ R Q)|].
  intros K. unfold finish. rewrite K. cbv zeta. assert (S : exists x, stage_of s k = Some x).
  { destruct (f_placed _ _ _ (good_run sk lg b es) i ts (WantsShell k) k R eq_refl) as [H|H]; fold s in H; eauto. }
  destruct S as (x & S). assert (G : stage_of (set_stage k Gone (set_progress i (Failed EConnection) s)) k = Some Gone).
  { rewrite stage_set_stage, eqb_refl, stage_set_progress, S. reflexivity. }
  destruct (sk_locks sk); rewrite ?stage_release; exact G.
Qed.
Lemma ended_step sk lg b s e i p : good lg s -> progress_of s i = Some p -> ended p -> progress_of (happen sk lg b s e) i = Some p.
Proof.
  intros G P H. assert (NL : forall k, p <> WantsLock k) by (intros k' ->; contradiction).
  assert (Not : forall k' x, wire s k' = Some (x, i) -> young lg x -> False).
  { intros k' x W Y. destruct (f_young _ _ _ G _ _ _ W Y) as (t & R). rewrite progress_req, R in P. injection P as <-. contradiction. }
  assert (Sp : forall j x s', j <> i -> progress_of s' i = Some p -> progress_of (set_progress j x s') i = Some p).
  { intros j x s' N P'. rewrite progress_req in *. rewrite req_set_progress, (eqb_neq i j) by congruence. exact P'. }
  assert (Ss : forall k' x s', progress_of s' i = Some p -> progress_of (set_stage k' x s') i = Some p).
  { intros k' x s' P'. rewrite progress_req in *. rewrite req_set_stage. exact P'. }
  destruct e as [j ts|k0|k0 x|k0 fp|k0|j|j yes|j data|k0]; cbn [happen].
  - unfold ask. destruct (aget j (ss_reqs s)) eqn:E; [exact P|]. unfold choose. set (s1 := mkSession _ _ _ _ _ _).
    assert (N : j <> i). { intros ->. rewrite progress_req in P. unfold req in P. rewrite E in P. discriminate. }
    assert (P1 : progress_of s1 i = Some p).
    { rewrite progress_req in *. unfold req, s1 in *. cbn [ss_reqs]. rewrite aget_snoc. destruct (aget i (ss_reqs s)); [exact P|discriminate]. }
    assert (D : progress_of (dial j s1) i = Some p). { unfold dial. apply Sp; [exact N|exact P1]. }
    destruct (sk_keeps sk) as [|looks]; [exact D|]. destruct (ss_kept s1) as [k1|]; [|exact D].
    destruct (looks && stopped s1 k1); [exact D|]. apply Sp; assumption.
  - destruct (aget k0 (ss_wires s)) as [[[] j]|]; try exact P. apply Ss, P.
  - destruct (aget k0 (ss_wires s)) as [[[] j]|] eqn:E; try exact P.
    apply Sp; [|apply Ss, P]. intros ->. apply (Not _ _ E). left. reflexivity.
  - unfold host_key. destruct (aget k0 (ss_wires s)) as [[[] j]|] eqn:E; try exact P.
    + destruct (verify_host_key lg fp); [|apply Ss, P]. destruct (offer lg); [apply (Ss k0 LoggingIn), P|].
      apply Sp; [|apply Ss, P]. intros ->. apply (Not _ _ E). right. left. reflexivity.
    + destruct (verify_host_key lg fp); [exact P|apply Ss, P].
    + destruct (verify_host_key lg fp); [exact P|apply Ss, P].
  - unfold logged_in. destruct (aget k0 (ss_wires s)) as [[[] j]|] eqn:E; try exact P. destruct (offer lg) as [c|] eqn:O; [|exact P]. cbv zeta.
    assert (P1 : progress_of (set_progress j (WantsChannel k0) (set_stage k0 Up s)) i = Some p).
    { apply Sp; [|apply Ss, P]. intros ->. apply (Not _ _ E). right. right. eauto. }
    destruct (sk_keeps sk); exact P1.
  - unfold channel_open. destruct (progress_of s j) as [[|k1| | | | |]|] eqn:E; try exact P. destruct (is_up s k1) eqn:U; [|exact P].
    assert (N : j <> i). { intros ->. rewrite P in E. injection E as ->. contradiction. }
    destruct (sk_locks sk); [destruct (ss_lock s)|]; apply Sp; assumption.
  - unfold shell. destruct (aget j (ss_reqs s)) as [[ts [| | |k1| | |]]|] eqn:E; try exact P.
    assert (N : i <> j). { intros ->. rewrite progress_req in P. unfold req in P. rewrite E in P. injection P as <-. contradiction. }
    destruct yes; [apply talk_others; assumption|apply finish_others; assumption].
  - unfold arrived. destruct (progress_of s j) as [[| | | |k1 c| |]|] eqn:E; try exact P. destruct (is_up s k1) eqn:U; [|exact P].
    assert (N : i <> j). { intros ->. rewrite P in E. injection E as ->. contradiction. }
    destruct (data_received _ _ _ _); [apply talk_others; assumption|apply Ss, P].
  - destruct (stage_of s k0) as [[]|]; try exact P; apply Ss, P.
Qed.
Lemma ended_run sk lg b es' es i p : progress_of (session_run sk lg b es) i = Some p -> ended p ->
  progress_of (fold_left (happen sk lg b) es' (session_run sk lg b es)) i = Some p.
Proof.
  intros P E. rewrite <- run_app. induction es' as [|e r IH] using rev_ind; [rewrite app_nil_r; exact P|].
  rewrite app_assoc, run_snoc. apply ended_step; [apply good_run|exact IH|exact E].
Qed.
Lemma lock_waits sk lg b es j k : sk_locks sk = true -> let s := session_run sk lg b es in
  progress_of s j = Some (WantsLock k) -> exists i p, i <> j /\ progress_of s i = Some p /\ ((exists k, p = WantsShell k) \/ exists k c, p = Talking k c).
Proof.
  intros Hl s P. pose proof (lock_run sk lg b es Hl) as L. fold s in L. rewrite progress_req in P. destruct (req s j) as [[ts p]|] eqn:R; [|discriminate]. injection P as ->.
  assert (Q : In j (ss_queue s)) by (apply (l_queue _ L); eauto). destruct (ss_lock s) as [i|] eqn:E; [|rewrite (l_free _ L E) in Q; destruct Q].
  destruct (l_held _ L i E) as (t & p & R' & B). exists i, p. split; [intros ->; rewrite R in R'; injection R' as _ <-; contradiction|].
  rewrite progress_req, R'. split; [reflexivity|]. destruct p; try contradiction; eauto.
Qed.

(** * A request *)
Lemma asked_new sk lg b es i ts : progress_of (session_run sk lg b es) i = None ->
  let s := session_run sk lg b es in let s' := session_run sk lg b (es ++ [Request i ts]) in
  (sk_keeps sk = EachTime \/ ss_kept s = None \/ (exists k, ss_kept s = Some k /\ sk_keeps sk = Kept true /\ stage_of s k = Some Gone)) /\
    (exists k, req s' i = Some (ts, WantsWire k) /\ wire s' k = Some (Dialing, i)) \/
  (exists k, ss_kept s = Some k /\ (exists l, sk_keeps sk = Kept l /\ (l = true -> stage_of s k = Some Up)) /\ req s' i = Some (ts, WantsChannel k) /\ stage_of s' k = stage_of s k).
Proof.
  intros P s s'. fold s in P. pose proof (good_run sk lg b es) as G. fold s in G. unfold s'. rewrite run_snoc. fold s. cbn [happen]. unfold ask.
  rewrite progress_req in P. unfold req in P. destruct (aget i (ss_reqs s)) eqn:E; [discriminate|]. unfold choose. set (s1 := mkSession _ _ _ _ _ _).
  assert (Ri : req s1 i = Some (ts, Failed EFuel)) by (unfold req, s1; cbn [ss_reqs]; rewrite aget_snoc, E, eqb_refl; reflexivity).
  assert (D : exists k, req (dial i s1) i = Some (ts, WantsWire k) /\ wire (dial i s1) k = Some (Dialing, i)).
  { exists (List.length (ss_wires s1)). rewrite req_dial, wire_dial, !eqb_refl, Ri. split; [reflexivity|].
    destruct (wire s1 (List.length (ss_wires s1))) eqn:W; [|reflexivity]. pose proof (f_fresh _ _ _ G (List.length (ss_wires s))) as F. change (wire s1) with (wire s) in W. change (ss_wires s1) with (ss_wires s) in W.
    rewrite W in F. specialize (F ltac:(discriminate)). lia. }
  change (ss_kept s1) with (ss_kept s). destruct (sk_keeps sk) as [|l] eqn:K; [left; auto|]. destruct (ss_kept s) as [k|] eqn:Kp; [|left; auto].
  pose proof (f_kept _ _ _ G k Kp) as St. unfold stopped. change (stage_of s1 k) with (stage_of s k).
  assert (U : forall lk, Kept l = Kept lk -> (lk = true -> stage_of s k = Some Up) -> exists k0, Some k = Some k0 /\ (exists lk, Kept l = Kept lk /\ (lk = true -> stage_of s k0 = Some Up)) /\
    req (set_progress i (WantsChannel k) s1) i = Some (ts, WantsChannel k0) /\ stage_of (set_progress i (WantsChannel k) s1) k0 = stage_of s k0).
  { intros lk El Hu. exists k. split; [reflexivity|]. split; [eauto|]. rewrite req_set_progress, eqb_refl, Ri, stage_set_progress. auto. }
  destruct l; cbn [andb].
  - destruct St as [St|St]; rewrite St.
    + right. apply (U true); auto.
    + left. split; [right; right; eauto|exact D].
  - right. apply (U false); [reflexivity|discriminate].
Qed.
Lemma again sk lg b es i ts : sk_keeps sk <> Kept false -> progress_of (session_run sk lg b es) i = None ->
  let s := session_run sk lg b (es ++ [Request i ts]) in
  exists k, progress_of s i = Some (WantsWire k) /\ stage_of s k = Some Dialing \/ progress_of s i = Some (WantsChannel k) /\ stage_of s k = Some Up.
Proof.
  intros N P s. destruct (asked_new sk lg b es i ts P) as [(_ & k & R & W)|(k & _ & (l & El & Hl) & R & S)]; exists k; fold s in R.
  - left. rewrite progress_req, R, stage_wire. fold s in W. rewrite W. auto.
  - right. rewrite progress_req, R. fold s in S. rewrite S. split; [reflexivity|]. apply Hl. destruct l; [reflexivity|contradiction].
Qed.

Lemma hangs sk lg b es i k : let s := session_run sk lg b es in
  (forall fp x, progress_of s i = Some (WantsWire k) -> stage_of s k = Some x -> x <> Dialing -> ~ In fp (lg_fingerprints lg) ->
    forall es', progress_of (session_run sk lg b (es ++ HostKey k fp :: es')) i = Some (WantsWire k)) /\
  (forall x p, progress_of s i = Some p -> hangs_on k p -> stage_of s k = Some x -> x <> Dialing ->
    forall es', progress_of (session_run sk lg b (es ++ Lost k :: es')) i = Some p).
Proof.
  intros s. pose proof (good_run sk lg b es) as G. fold s in G. split.
  - intros fp x P S Hd Hf es'. rewrite run_app. cbn [fold_left]. fold s. destruct (refused_key sk lg b s k fp x S Hd Hf) as [A _].
    apply (hang_run sk lg b es' _ i _ k); [apply good_step; exact G| |reflexivity|exact A].
    destruct (wants_its sk lg b es i k _ P S) as (W & ts & R). fold s in W, R. cbn [happen]. unfold host_key.
    assert (V : verify_host_key lg fp = false) by (unfold verify_host_key; destruct (mem fp (lg_fingerprints lg)) eqn:E; [apply mem_In in E; contradiction|reflexivity]).
    rewrite V. unfold wire in W. rewrite W. destruct x; try exact P; rewrite progress_req, req_set_stage, R; reflexivity.
  - intros x p P H S Hd es'. rewrite run_app. cbn [fold_left]. fold s.
    assert (E : happen sk lg b s (Lost k) = set_stage k Gone s) by (cbn [happen]; rewrite S; destruct x; [contradiction|reflexivity..]).
    apply (hang_run sk lg b es' _ i p k); [apply good_step; exact G| |exact H|].
    + rewrite E, progress_req, req_set_stage, <- progress_req. exact P.
    + rewrite E, stage_set_stage, eqb_refl, S. reflexivity.
Qed.

Lemma kept_step sk lg b s e k : (forall k', e <> LoggedIn k') -> ss_kept s = Some k -> ss_kept (happen sk lg b s e) = Some k.
Proof.
  assert (F : forall i k x s, ss_kept (finish sk i k x s) = ss_kept s).
  { intros i k0 x s0. unfold finish. cbv zeta. destruct (sk_locks sk); rewrite ?kept_release; destruct (sk_keeps sk); rewrite ?kept_set_stage, kept_set_progress; reflexivity. }
  assert (T : forall i k n c s, ss_kept (talk_on sk i k n c s) = ss_kept s).
  { intros i k0 n c s0. unfold talk_on. cbv zeta. destruct (ch_done c); rewrite ?F, ?kept_set_progress; destruct (is_up s0 k0); reflexivity. }
  intros N K. destruct e as [i ts|k0|k0 x|k0 fp|k0|i|i yes|i data|k0]; cbn [happen].
  - unfold ask. destruct (aget i (ss_reqs s)); [exact K|]. unfold choose. set (s1 := mkSession _ _ _ _ _ _). change (ss_kept s1) with (ss_kept s). rewrite K.
    destruct (sk_keeps sk) as [|l]; [rewrite kept_dial; exact K|]. destruct (l && stopped s1 k); [rewrite kept_dial|rewrite kept_set_progress]; exact K.
  - destruct (aget k0 (ss_wires s)) as [[[] i]|]; rewrite ?kept_set_stage; exact K.
  - destruct (aget k0 (ss_wires s)) as [[[] i]|]; rewrite ?kept_set_progress, ?kept_set_stage; exact K.
  - unfold host_key. destruct (aget k0 (ss_wires s)) as [[[] i]|]; try exact K; destruct (verify_host_key lg fp); rewrite ?kept_set_stage; try exact K.
    destruct (offer lg); [change (ss_kept (leaves ?l ?s)) with (ss_kept s)|rewrite kept_set_progress]; rewrite kept_set_stage; exact K.
  - elim (N k0 eq_refl).
  - unfold channel_open. destruct (progress_of s i) as [[|k1| | | | |]|]; try exact K. destruct (is_up s k1); [|exact K].
    destruct (sk_locks sk); [destruct (ss_lock s)|]; rewrite kept_set_progress; exact K.
  - unfold shell. destruct (aget i (ss_reqs s)) as [[ts [| | |k1| | |]]|]; try exact K. destruct yes; [rewrite T|rewrite F]; exact K.
  - unfold arrived. destruct (progress_of s i) as [[| | | |k1 c| |]|]; try exact K. destruct (is_up s k1); [|exact K].
    destruct (data_received _ _ _ _); [rewrite T|rewrite kept_set_stage]; exact K.
  - destruct (stage_of s k0) as [[]|]; rewrite ?kept_set_stage; exact K.
Qed.
Lemma never sk lg b es es' es'' i ts k : sk_keeps sk = Kept false -> let s := session_run sk lg b es in
  ss_kept s = Some k -> stage_of s k = Some Gone -> (forall k', ~ In (LoggedIn k') es') -> progress_of (session_run sk lg b (es ++ es')) i = None ->
  progress_of (session_run sk lg b (es ++ es' ++ Request i ts :: es'')) i = Some (WantsChannel k).
Proof.
  intros Hk s K G N P.
  assert (K' : ss_kept (session_run sk lg b (es ++ es')) = Some k).
  { clear P. induction es' as [|e r IH] using rev_ind; [rewrite app_nil_r; exact K|]. rewrite app_assoc, run_snoc. apply kept_step.
    - intros k' ->. apply (N k'). apply in_or_app. right. left. reflexivity.
    - apply IH. intros k' H. apply (N k'). apply in_or_app. left. exact H. }
  assert (G' : stage_of (session_run sk lg b (es ++ es')) k = Some Gone) by (rewrite run_app; apply gone_for_good; exact G).
  replace (es ++ es' ++ Request i ts :: es'') with (((es ++ es') ++ [Request i ts]) ++ es'') by (rewrite <- !app_assoc; reflexivity). rewrite run_app.
  destruct (asked_new sk lg b _ i ts P) as [([E|[E|(k0 & _ & E & _)]] & _)|(k0 & E & _ & R & S)]; try congruence.
  rewrite K' in E. injection E as <-. apply (hang_run sk lg b es'' _ i _ k); [apply good_run|rewrite progress_req, R; reflexivity|reflexivity|rewrite S; exact G'].
Qed.

(** * A request that works *)
Lemma written_app i a b : written i (a ++ b) = written i a ++ written i b. Proof. apply flat_map_app. Qed.
Lemma written_lines i k l : written i (map (Wrote k i) l) = map (pair k) l.
Proof. induction l as [|x r IH]; [reflexivity|]. cbn [map]. change (written i (Wrote k i x :: ?r)) with ((if Nat.eqb i i then [(k, x)] else []) ++ written i r). rewrite PeanoNat.Nat.eqb_refl, IH. reflexivity. Qed.
Lemma written_talk sk i k n c s : is_up s k = true -> written i (ss_sent (talk_on sk i k n c s)) = written i (ss_sent s) ++ map (pair k) (skipn n (ch_sent c)).
Proof. intros U. rewrite talk_sent, U, written_app, written_lines. reflexivity. Qed.
Lemma progress_talk sk lg b es i k n c ts p0 : let s := session_run sk lg b es in req s i = Some (ts, p0) -> (forall k, p0 <> WantsLock k) ->
  progress_of (talk_on sk i k n c s) i = Some (if ch_done c then Succeeded else Talking k c).
Proof.
  intros s R N. pose proof (not_queued sk lg b es i) as Q. cbv zeta in Q. fold s in Q.
  assert (Q' : ~ In i (ss_queue s) \/ sk_locks sk = false) by (apply Q; intros k'; rewrite progress_req, R; intros [= E]; exact (N k' E)).
  unfold talk_on. cbv zeta. set (s1 := if is_up s k then _ else s). assert (R1 : req s1 i = Some (ts, p0)) by (unfold s1; destruct (is_up s k); exact R).
  assert (Q1 : ss_queue s1 = ss_queue s) by (unfold s1; destruct (is_up s k); reflexivity).
  destruct (ch_done c).
  - apply (finish_own sk i k Succeeded s1 ts p0 R1). rewrite Q1. exact Q'.
  - rewrite progress_req, req_set_progress, eqb_refl, R1. reflexivity.
Qed.
Lemma stage_talk sk i k n c s : ch_done c = false -> stage_of (talk_on sk i k n c s) k = stage_of s k.
Proof. intros D. unfold talk_on. cbv zeta. rewrite D, stage_set_progress. destruct (is_up s k); reflexivity. Qed.
Lemma sent_grows ts k bytes d c c' pre : at_turn ts c pre -> data_received k bytes d c = Ok c' -> ch_sent c' = ch_sent c ++ skipn (List.length (ch_sent c)) (ch_sent c').
Proof.
  intros A D. assert (H : beginning (ch_sent c) (ch_sent c')).
  { destruct (data_place _ _ _ _ _ _ _ A D) as [(_ & _ & E & _)|(p' & A' & [r ->] & _)]; [rewrite E; apply beginning_refl|].
    destruct A as (_ & E & _). destruct A' as (_ & E' & _). rewrite E, E', lines_app. eexists. reflexivity. }
  destruct H as [r E]. rewrite E at 2. rewrite skipn_app, skipn_all, PeanoNat.Nat.sub_diag. exact E.
Qed.
Lemma done_still ts k bytes ps : forall c c' pre, at_turn ts c pre -> ch_done c = true -> received k bytes ps c = Ok c' -> ch_sent c' = ch_sent c /\ ch_done c' = true.
Proof.
  induction ps as [|p r IH]; intros c c' pre A D; cbn [received]; [intros [= <-]; auto|].
  destruct (data_received k bytes p c) as [c1|] eqn:E; cbn [Base.bind]; [|discriminate]. intros H.
  assert (W : ch_wait c = None) by (destruct A as (_ & _ & [[W _]|(w & q & t & _ & X & _)]); [exact W|congruence]).
  destruct (data_place _ _ _ _ _ _ _ A E) as [S|(p' & _ & _ & X & _)]; [|contradiction]. pose proof S as (_ & _ & E1 & E2).
  destruct (IH c1 c' pre (at_same _ _ _ _ A S)) as [A1 A2]; [congruence|exact H|]. split; congruence.
Qed.
Lemma feed sk lg b i k ts ps : forall es c c' pre, let s := session_run sk lg b es in
  at_turn ts c pre -> req s i = Some (ts, if ch_done c then Succeeded else Talking k c) -> (ch_done c = false -> stage_of s k = Some Up) ->
  written i (ss_sent s) = map (pair k) (ch_sent c) -> received (sk_chan sk) b ps c = Ok c' ->
  let s' := session_run sk lg b (es ++ map (Arrived i) ps) in
  written i (ss_sent s') = map (pair k) (ch_sent c') /\ (ch_done c' = true -> progress_of s' i = Some Succeeded).
Proof.
  induction ps as [|p r IH]; intros es c c' pre s A R U W; cbn [received map].
  - intros [= <-]. rewrite app_nil_r. split; [exact W|]. intros D. rewrite progress_req. fold s. rewrite R, D. reflexivity.
  - destruct (data_received (sk_chan sk) b p c) as [c1|] eqn:E; cbn [Base.bind]; [|discriminate]. intros H.
    replace (es ++ Arrived i p :: map (Arrived i) r) with ((es ++ [Arrived i p]) ++ map (Arrived i) r) by (rewrite <- app_assoc; reflexivity).
    assert (Hn : session_run sk lg b (es ++ [Arrived i p]) = arrived sk b i p s) by (rewrite run_snoc; reflexivity).
    destruct (place_at ts pre c c1 A (data_place _ _ _ _ _ _ _ A E)) as (p1 & A1 & _).
    destruct (ch_done c) eqn:D.
    + destruct (done_still ts (sk_chan sk) b [p] c c1 pre A D) as [S1 D1]; [cbn [received]; rewrite E; reflexivity|].
      assert (Hs : arrived sk b i p s = s) by (unfold arrived; rewrite progress_req, R; reflexivity).
      apply (IH (es ++ [Arrived i p]) c1 c' p1); rewrite ?Hn, ?Hs, ?D1, ?S1; auto.
    + assert (Up1 : is_up s k = true) by (unfold is_up; rewrite (U eq_refl); reflexivity).
      assert (Hs : arrived sk b i p s = talk_on sk i k (List.length (ch_sent c)) c1 s) by (unfold arrived; rewrite progress_req, R; cbn [option_map snd]; rewrite Up1, E; reflexivity).
      apply (IH (es ++ [Arrived i p]) c1 c' p1); rewrite ?Hn, ?Hs; auto.
      * pose proof (progress_talk sk lg b es i k (List.length (ch_sent c)) c1 ts _ R ltac:(discriminate)) as P. fold s in P. rewrite progress_req in P.
        pose proof (ts_talk sk i k (List.length (ch_sent c)) c1 s i) as T. rewrite R in T. destruct (req (talk_on _ _ _ _ _ _) i) as [[t q]|]; [|discriminate].
        cbn [option_map fst snd] in P, T. injection P as ->. injection T as ->. reflexivity.
      * intros D1. rewrite (stage_talk sk i k _ c1 s D1). exact (U eq_refl).
      * rewrite written_talk, W by exact Up1. rewrite <- map_app, <- (sent_grows _ _ _ _ _ _ _ A E). reflexivity.
Qed.
Lemma from_channel sk lg b es i ts k ps c : let s0 := session_run sk lg b es in
  (sk_locks sk = true -> ss_lock s0 = None) -> req s0 i = Some (ts, WantsChannel k) -> stage_of s0 k = Some Up -> received (sk_chan sk) b ps (begin ts) = Ok c ->
  let s := session_run sk lg b (es ++ [ChannelOpen i; Shell i true] ++ map (Arrived i) ps) in
  written i (ss_sent s) = map (pair k) (ch_sent c) /\ (ch_done c = true -> progress_of s i = Some Succeeded).
Proof.
  intros s0 Lk R0 S0 Hr s. assert (U0 : is_up s0 k = true) by (unfold is_up; rewrite S0; reflexivity).
  assert (W0 : written i (ss_sent s0) = []). { pose proof (f_lines _ _ _ (good_run sk lg b es) i I) as L. fold s0 in L. rewrite R0 in L. exact L. }
  set (s4 := happen sk lg b s0 (ChannelOpen i)).
  assert (Q4 : stage_of s4 k = Some Up /\ req s4 i = Some (ts, WantsShell k) /\ ss_sent s4 = ss_sent s0).
  { unfold s4. cbn [happen]. unfold channel_open. rewrite progress_req, R0. cbn [option_map snd]. rewrite U0.
    destruct (sk_locks sk); [rewrite (Lk eq_refl)|]; rewrite stage_set_progress, req_set_progress, eqb_refl, sent_set_progress.
    - change (req (mkSession _ _ _ _ _ _) i) with (req s0 i). rewrite R0. split; [exact S0|auto].
    - rewrite R0. auto. }
  destruct Q4 as (S4 & R4 & N4). assert (U4 : is_up s4 k = true) by (unfold is_up; rewrite S4; reflexivity).
  assert (Run4 : session_run sk lg b (es ++ [ChannelOpen i]) = s4) by (rewrite run_app; reflexivity).
  set (s5 := happen sk lg b s4 (Shell i true)).
  assert (Run5 : session_run sk lg b (es ++ [ChannelOpen i; Shell i true]) = s5) by (rewrite run_app; reflexivity).
  assert (E5 : s5 = talk_on sk i k 0 (begin ts) s4) by (unfold s5; cbn [happen]; unfold shell; unfold req in R4; rewrite R4; reflexivity).
  destruct (begin_at ts) as (pre & A).
  assert (Hs : s = session_run sk lg b ((es ++ [ChannelOpen i; Shell i true]) ++ map (Arrived i) ps)) by (unfold s; rewrite <- !app_assoc; reflexivity).
  rewrite Hs. apply (feed sk lg b i k ts ps _ (begin ts) c pre); try exact A; try exact Hr; rewrite ?Run5, ?E5.
  - pose proof (progress_talk sk lg b (es ++ [ChannelOpen i]) i k 0 (begin ts) ts (WantsShell k)) as P. cbv zeta in P. rewrite Run4 in P.
    specialize (P R4 ltac:(discriminate)). rewrite progress_req in P. pose proof (ts_talk sk i k 0 (begin ts) s4 i) as T. rewrite R4 in T.
    destruct (req (talk_on _ _ _ _ _ _) i) as [[t q]|]; [|discriminate]. cbn [option_map fst snd] in P, T. injection P as ->. injection T as ->. reflexivity.
  - intros D. rewrite (stage_talk sk i k 0 (begin ts) s4 D). exact S4.
  - rewrite written_talk by exact U4. rewrite N4, W0. reflexivity.
Qed.
Lemma asked_idle sk lg b es i ts p0 : progress_of (session_run sk lg b es) i = None ->
  (forall j p, progress_of (session_run sk lg b es) j = Some p -> ended p) ->
  let s0 := session_run sk lg b (es ++ [Request i ts]) in req s0 i = Some (ts, p0) -> ~ busy p0 -> sk_locks sk = true -> ss_lock s0 = None.
Proof.
  intros P0 Hl s0 R0 Nb L. destruct (ss_lock s0) as [j|] eqn:E; [|reflexivity].
  destruct (l_held _ (lock_run sk lg b _ L) j E) as (t & p & R & B). fold s0 in R. exfalso.
  assert (N : j <> i) by (intros ->; rewrite R0 in R; injection R as _ <-; contradiction).
  assert (P : progress_of (session_run sk lg b es) j = Some p).
  { rewrite progress_req. revert R. unfold s0. rewrite run_snoc. cbn [happen]. unfold ask.
    rewrite progress_req in P0. unfold req in P0. destruct (aget i (ss_reqs (session_run sk lg b es))) eqn:E0; [discriminate|]. unfold choose. set (s1 := mkSession _ _ _ _ _ _).
    assert (J : req s1 j = req (session_run sk lg b es) j). { unfold req, s1. cbn [ss_reqs]. rewrite aget_snoc. rewrite eqb_neq by assumption. destruct (aget j _); reflexivity. }
    assert (D : req (dial i s1) j = req (session_run sk lg b es) j) by (rewrite req_dial, eqb_neq by assumption; exact J).
    destruct (sk_keeps sk) as [|l]; [rewrite D; intros ->; reflexivity|]. destruct (ss_kept s1); [|rewrite D; intros ->; reflexivity].
    destruct (l && stopped s1 n); [rewrite D; intros ->; reflexivity|]. rewrite req_set_progress, eqb_neq by assumption. rewrite J. intros ->. reflexivity. }
  specialize (Hl j p P). destruct p; contradiction.
Qed.
Lemma reuses sk lg b es i ts k ps c :
  sk_locks sk = false \/ (forall j p, progress_of (session_run sk lg b es) j = Some p -> ended p) ->
  progress_of (session_run sk lg b es) i = None ->
  let s0 := session_run sk lg b (es ++ [Request i ts]) in
  progress_of s0 i = Some (WantsChannel k) -> stage_of s0 k = Some Up -> received (sk_chan sk) b ps (begin ts) = Ok c ->
  let s := session_run sk lg b (es ++ Request i ts :: [ChannelOpen i; Shell i true] ++ map (Arrived i) ps) in
  written i (ss_sent s) = map (pair k) (ch_sent c) /\ (ch_done c = true -> progress_of s i = Some Succeeded).
Proof.
  intros Hl P0 s0 P1 S1 Hr s. assert (R0 : req s0 i = Some (ts, WantsChannel k)).
  { destruct (asked_new sk lg b es i ts P0) as [(_ & k0 & R & _)|(k0 & _ & _ & R & _)]; fold s0 in R; rewrite progress_req, R in P1; [discriminate|]. injection P1 as <-. exact R. }
  assert (Hs : s = session_run sk lg b ((es ++ [Request i ts]) ++ [ChannelOpen i; Shell i true] ++ map (Arrived i) ps)) by (unfold s; rewrite <- !app_assoc; reflexivity).
  rewrite Hs. apply (from_channel sk lg b _ i ts k ps c); auto.
  intros L. destruct Hl as [Hl|Hl]; [congruence|]. exact (asked_idle sk lg b es i ts _ P0 Hl R0 ltac:(intros []) L).
Qed.
Lemma works sk lg b es i ts k fp ps c :
  sk_locks sk = false \/ (forall j p, progress_of (session_run sk lg b es) j = Some p -> ended p) ->
  progress_of (session_run sk lg b es) i = None ->
  progress_of (session_run sk lg b (es ++ [Request i ts])) i = Some (WantsWire k) ->
  In fp (lg_fingerprints lg) -> (exists cr, configured lg cr) -> received (sk_chan sk) b ps (begin ts) = Ok c ->
  let s := session_run sk lg b (es ++ Request i ts :: [Connected k; HostKey k fp; LoggedIn k; ChannelOpen i; Shell i true] ++ map (Arrived i) ps) in
  written i (ss_sent s) = map (pair k) (ch_sent c) /\ (ch_done c = true -> progress_of s i = Some Succeeded).
Proof.
  intros Hl P0 P1 Hf (cr & Hc) Hr s. apply offer_spec in Hc.
  set (es0 := es ++ [Request i ts]) in *. set (s0 := session_run sk lg b es0) in *.
  assert (R0 : req s0 i = Some (ts, WantsWire k) /\ wire s0 k = Some (Dialing, i)).
  { destruct (asked_new sk lg b es i ts P0) as [(_ & k0 & R & W)|(k0 & _ & _ & R & _)]; fold es0 in R; fold s0 in R; rewrite progress_req, R in P1; [|discriminate].
    injection P1 as <-. auto. }
  destruct R0 as [R0 W0].
  assert (Lk : sk_locks sk = true -> ss_lock s0 = None).
  { intros L. destruct Hl as [Hl|Hl]; [congruence|]. exact (asked_idle sk lg b es i ts _ P0 Hl R0 ltac:(intros []) L). }
  (* connected *)
  set (s1 := happen sk lg b s0 (Connected k)). assert (E1 : s1 = set_stage k Unproved s0) by (unfold s1; cbn [happen]; unfold wire in W0; rewrite W0; reflexivity).
  assert (W1 : wire s1 k = Some (Unproved, i)) by (rewrite E1, wire_set_stage, eqb_refl, W0; reflexivity).
  assert (R1 : req s1 i = Some (ts, WantsWire k)) by (rewrite E1, req_set_stage; exact R0).
  (* the key *)
  set (s2 := happen sk lg b s1 (HostKey k fp)).
  assert (E2 : s2 = leaves [Offered k cr] (set_stage k LoggingIn s1)).
  { unfold s2. cbn [happen]. unfold host_key. unfold wire in W1. rewrite W1. assert (V : verify_host_key lg fp = true) by (apply mem_In; exact Hf). rewrite V, Hc. reflexivity. }
  assert (W2 : wire s2 k = Some (LoggingIn, i)) by (rewrite E2, wire_leaves, wire_set_stage, eqb_refl, W1; reflexivity).
  assert (R2 : req s2 i = Some (ts, WantsWire k)) by (rewrite E2, req_leaves, req_set_stage; exact R1).
  (* the login *)
  set (s3 := happen sk lg b s2 (LoggedIn k)).
  assert (Q3 : stage_of s3 k = Some Up /\ req s3 i = Some (ts, WantsChannel k) /\ ss_lock s3 = ss_lock s2).
  { unfold s3. cbn [happen]. unfold logged_in. unfold wire in W2. rewrite W2, Hc. cbv zeta. set (s' := set_progress i (WantsChannel k) (set_stage k Up s2)).
    assert (X : stage_of s' k = Some Up /\ req s' i = Some (ts, WantsChannel k) /\ ss_lock s' = ss_lock s2).
    { unfold s'. rewrite stage_set_progress, stage_set_stage, eqb_refl, req_set_progress, eqb_refl, req_set_stage, R2, lock_set_progress, lock_set_stage, stage_wire.
      unfold wire. rewrite W2. auto. }
    destruct (sk_keeps sk); exact X. }
  destruct Q3 as (S3 & R3 & L3).
  assert (Run3 : session_run sk lg b (es0 ++ [Connected k; HostKey k fp; LoggedIn k]) = s3) by (rewrite run_app; reflexivity).
  assert (Hs : s = session_run sk lg b ((es0 ++ [Connected k; HostKey k fp; LoggedIn k]) ++ [ChannelOpen i; Shell i true] ++ map (Arrived i) ps)).
  { unfold s, es0. rewrite <- !app_assoc. reflexivity. }
  rewrite Hs. apply (from_channel sk lg b _ i ts k ps c); rewrite ?Run3; auto.
  intros L. rewrite L3, E2. change (ss_lock (leaves ?l ?s)) with (ss_lock s). rewrite lock_set_stage, E1, lock_set_stage. exact (Lk L).
Qed.

(** ** Senders without a lock let nobody wait *)
Definition unlocked (s : session) : Prop := forall i ts k, req s i <> Some (ts, WantsLock k).
Lemma unlocked_progress i x s : unlocked s -> (forall k, x <> WantsLock k) -> unlocked (set_progress i x s).
Proof.
  intros H Hx j ts k. rewrite req_set_progress. destruct (eqb_ok j i) as [->|]; [|apply H].
  destruct (req s i) as [[ts' p]|]; intros E; [injection E as _ E; exact (Hx k E)|discriminate E].
Qed.
Lemma unlocked_stage k x s : unlocked s -> unlocked (set_stage k x s).
Proof. intros H j ts n. rewrite req_set_stage. apply H. Qed.
Lemma unlocked_finish sk i k x s : sk_locks sk = false -> unlocked s -> (forall k, x <> WantsLock k) -> unlocked (finish sk i k x s).
Proof.
  intros L H Hx. unfold finish. rewrite L. destruct (sk_keeps sk); [apply unlocked_stage|]; apply unlocked_progress; assumption.
Qed.
Lemma unlocked_talk sk i k n c s : sk_locks sk = false -> unlocked s -> unlocked (talk_on sk i k n c s).
Proof.
  intros L H. unfold talk_on. assert (H' : unlocked (if is_up s k then leaves (map (Wrote k i) (skipn n (ch_sent c))) s else s)) by (destruct (is_up s k); exact H).
  destruct (ch_done c); [apply unlocked_finish|apply unlocked_progress]; auto; discriminate.
Qed.
Lemma unlocked_dial i s : unlocked s -> unlocked (dial i s).
Proof. intros H. unfold dial. apply unlocked_progress; [exact H|discriminate]. Qed.
Lemma unlocked_happen sk lg b s e : sk_locks sk = false -> unlocked s -> unlocked (happen sk lg b s e).
Proof.
  intros L H. destruct e as [i ts|k|k e|k fp|k|i|i yes|i data|k]; cbn [happen].
  - unfold ask. destruct (aget i (ss_reqs s)) eqn:E; [exact H|]. set (s' := mkSession _ _ _ _ _ _).
    assert (H' : unlocked s').
    { intros j ts' k. unfold s', req. cbn [ss_reqs]. rewrite aget_snoc. destruct (aget j (ss_reqs s)) as [q|] eqn:F; [intros G; apply (H j ts' k); unfold req; rewrite F; exact G|].
      destruct (eqb j i); discriminate. }
    clearbody s'. unfold choose. destruct (sk_keeps sk) as [|looks]; [apply unlocked_dial, H'|]. destruct (ss_kept s') as [k|]; [|apply unlocked_dial, H'].
    destruct (looks && stopped s' k); [apply unlocked_dial, H'|apply unlocked_progress; [exact H'|discriminate]].
  - destruct (aget k (ss_wires s)) as [[[] ?]|]; try exact H. apply unlocked_stage, H.
  - destruct (aget k (ss_wires s)) as [[[] ?]|]; try exact H. apply unlocked_progress; [apply unlocked_stage, H|discriminate].
  - unfold host_key. destruct (aget k (ss_wires s)) as [[[] i]|]; try exact H; destruct (verify_host_key lg fp); try exact H; try (apply unlocked_stage, H).
    destruct (offer lg); [exact (unlocked_stage k LoggingIn s H)|]. apply unlocked_progress; [apply unlocked_stage, H|discriminate].
  - unfold logged_in. destruct (aget k (ss_wires s)) as [[[] i]|]; try exact H. destruct (offer lg); [|exact H].
    assert (H' : unlocked (set_progress i (WantsChannel k) (set_stage k Up s))) by (apply unlocked_progress; [apply unlocked_stage, H|discriminate]).
    destruct (sk_keeps sk); exact H'.
  - unfold channel_open. rewrite L. destruct (progress_of s i) as [[]|]; try exact H. destruct (is_up s k); [|exact H]. apply unlocked_progress; [exact H|discriminate].
  - unfold shell. destruct (aget i (ss_reqs s)) as [[ts []]|]; try exact H. destruct yes; [apply unlocked_talk; assumption|apply unlocked_finish; [assumption|assumption|discriminate]].
  - unfold arrived. destruct (progress_of s i) as [[]|]; try exact H. destruct (is_up s k); [|exact H].
    destruct (data_received (sk_chan sk) b data c); [apply unlocked_talk; assumption|apply unlocked_stage, H].
  - destruct (stage_of s k) as [[]|]; try exact H; apply unlocked_stage, H.
Qed.
Lemma nobody_waits sk lg b es i k : sk_locks sk = false -> progress_of (session_run sk lg b es) i <> Some (WantsLock k).
Proof.
  intros L. assert (U : unlocked (session_run sk lg b es)).
  { induction es as [|e es IH] using rev_ind; [intros j ts n E; discriminate E|]. rewrite run_snoc. apply unlocked_happen; assumption. }
  rewrite progress_req. specialize (U i). destruct (req (session_run sk lg b es) i) as [[ts p]|]; [|discriminate]. cbn. intros E. injection E as ->. exact (U ts k eq_refl).
Qed.
