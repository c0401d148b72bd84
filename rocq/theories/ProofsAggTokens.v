(** Recursive queries are answered once, however calls interleave (C46): every query
    received gives one token, which is in a call, then in the table of open
    queries, then in the call that took it from there, and is spent on the answer. *)
From Verif Require Import Base BaseProofs ModelLabel ModelSTP ModelAuthz ModelNRM ModelState ModelLinkVector ModelProvreg ModelAggregator SpecAggInv ProofsAggInv ProofsAggTab ProofsAggAct
  ProofsAggQRun.

Section Tokens.
Context (req : nat).
Definition spend (n : nat) : option nat := match n with O => None | S m => Some m end.
Definition tokens (n : nat) (a : act) (s : st) : option nat :=
  match a with
  | AQreq c _ => if eqb c req && negb (ahas req (qreqs s)) then spend n else Some n
  | AQreqPop c => if eqb c req && ahas req (qreqs s) then Some (S n) else Some n
  | AOut (OUp _ (UQueryRecursive c _)) => if eqb c req then spend n else Some n
  | _ => Some n
  end.
Fixpoint pays {A} (n : nat) (p : prog A) (s : st) : Prop :=
  match p with
  | Ret _ | Throw _ => True
  | Get k => pays n (k s) s
  | Do a k => match tokens n a s with Some m => pays m k (do_act a s) | None => False end
  | Await _ k => forall x s', pays n (k x) s'
  end.
Definition bal (s : st) : nat := (ocnt (m_query req) s + one (ahas req (qreqs s)))%nat.
Definition single (s : st) : Prop := NoDup (akeys (qreqs s)).
Lemma tokens_bal n a s m : single s -> tokens n a s = Some m -> single (do_act a s) /\ (bal (do_act a s) + m <= bal s + n)%nat.
Proof.
  unfold single, bal. intros D H.
  assert (K : forall s', qreqs s' = qreqs s -> outs s' = outs s -> n = m -> NoDup (akeys (qreqs s')) /\ (ocnt (m_query req) s' + one (ahas req (qreqs s')) + m <= ocnt (m_query req) s + one (ahas req (qreqs s)) + n)%nat).
  { intros s' E1 E2 ->. unfold ocnt. rewrite E1, E2. split; [exact D|]. apply Nat.le_refl. }
  destruct a; cbn [tokens] in H; try (injection H as H; apply K; [destruct s; reflexivity|destruct s; reflexivity|exact H]).
  - replace (qreqs (do_act (AQreq k x) s)) with (aset k x (qreqs s)) by (destruct s; reflexivity).
    replace (ocnt (m_query req) (do_act (AQreq k x) s)) with (ocnt (m_query req) s) by (destruct s; reflexivity).
    split; [apply NoDup_akeys_aset, D|]. rewrite ahas_aset. destruct (eqb_ok k req) as [->|N].
    + destruct (eqb_ok req req) as [_|N]; [|congruence]. destruct (ahas req (qreqs s)); cbn [andb negb orb one] in H |- *; [injection H as <-; lia|].
      destruct n; [discriminate|]. injection H as <-. lia.
    + rewrite (eqb_neq req k) by auto. cbn [andb orb] in H |- *. injection H as <-. lia.
  - replace (qreqs (do_act (AQreqPop k) s)) with (adel k (qreqs s)) by (destruct s; reflexivity).
    replace (ocnt (m_query req) (do_act (AQreqPop k) s)) with (ocnt (m_query req) s) by (destruct s; reflexivity).
    split; [apply NoDup_akeys_adel, D|]. destruct (eqb_ok k req) as [->|N].
    + rewrite (ahas_adel_eq req _ D). destruct (ahas req (qreqs s)); cbn in H |- *; injection H as <-; lia.
    + rewrite ahas_adel_ne by auto. cbn in H. injection H as <-. lia.
  - replace (qreqs (do_act (AOut x) s)) with (qreqs s) by (destruct s; reflexivity). split; [exact D|]. rewrite ocnt_out.
    destruct x; cbn [says] in *; try (injection H as <-; cbn [one]; lia). destruct b; cbn [m_query] in *; try (injection H as <-; cbn [one]; lia).
    match type of H with (if ?b then _ else _) = _ => destruct b end; cbn [one]; [destruct n; [discriminate|]|]; injection H as <-; lia.
Qed.
(** programs that do nothing with tokens *)
Definition apart (a : act) : Prop := match a with AQreq _ _ | AQreqPop _ | AOut (OUp _ (UQueryRecursive _ _)) => False | _ => True end.
Lemma apart_tokens a n s : apart a -> tokens n a s = Some n.
Proof. destruct a; cbn; try tauto. destruct x; try tauto. destruct b; tauto. Qed.
Lemma neutral_apart a : neutral a -> apart a.
Proof. destruct a; cbn; try tauto. destruct x; tauto. Qed.
Lemma strict_apart a : strict a -> apart a.
Proof. intros H. apply neutral_apart, strict_neutral, H. Qed.
Lemma pays_apart {A} n (p : prog A) : calmN apart p -> forall s, pays n p s.
Proof.
  induction p as [a|e|k IH|a k IH|w k IH]; cbn [calmN pays]; auto.
  intros [H1 H2] s. rewrite apart_tokens by exact H1. auto.
Qed.
Lemma pays_bind {A B} n (p : prog A) (f : A -> prog B) : calmN apart p -> (forall a s, pays n (f a) s) -> forall s, pays n (bind p f) s.
Proof.
  intros H HF. induction p as [a|e|k IH|a k IH|w k IH]; cbn [calmN bind pays] in *; auto.
  destruct H as [H1 H2]. intros s. rewrite apart_tokens by exact H1. auto.
Qed.
Lemma mild_apart {A} (p : prog A) : mild p -> calmN apart p.
Proof. apply calm_mono, strict_apart. Qed.
#[local] Hint Resolve mild_apart calm_conn_obj calm_sub_obj calm_get_connection calm_get_subs calm_sub_objs calm_new_corr calm_note : calm.
Ltac calmt := repeat first [solve [auto with calm] | calm1 | apply calm_act; exact I].
Lemma pays_query g h cids gids s : pays (one (eqb (hd_corr h) req)) (query_recursive g h cids gids) s.
Proof.
  unfold query_recursive. destruct gids; [|exact I]. destruct cids as [|cid [|? ?]]; try exact I.
  apply pays_bind; [calmt|]. intros o s1. apply pays_bind; [calmt|]. intros c s2. apply pays_bind; [calmt|]. intros os s3.
  cbn [act1 bind pays tokens].
  match goal with |- match (if ?b then _ else _) with _ => _ end => assert (X : exists m, (if b then spend (one (eqb (hd_corr h) req)) else Some (one (eqb (hd_corr h) req))) = Some m) end.
  { destruct (eqb (hd_corr h) req); cbn [andb one spend]; [|eauto]. destruct (negb _); eauto. }
  destruct X as [m ->]. apply pays_apart. calmt.
Qed.
Lemma pays_answer g h res s : pays 0 (query_recursive_confirmed g h res) s.
Proof.
  unfold query_recursive_confirmed. cbn [get bind pays]. destruct (aget (hd_corr h) (qcalls s)) as [[q v]|]; [|exact I].
  destruct v as [[|x r]|]; [|exact I|];
  (cbn [act1 get bind pays tokens]; destruct (aget q _) as [[[requester o] count]|] eqn:E; [|exact I]; cbv zeta; destruct (_ =? count)%nat; [|exact I];
   cbn [act1 bind pays tokens]; unfold ahas;
   match goal with |- match (if ?b then Some 1%nat else _) with _ => _ end =>
     assert (Y : b = eqb q req) by (destruct (eqb_ok q req) as [<-|N]; [rewrite E; reflexivity|reflexivity])
   end;
   rewrite Y; replace (if eqb q req then Some 1%nat else Some 0%nat) with (Some (one (eqb q req))) by (destruct (eqb q req); reflexivity); cbn [pays tokens];
   do 6 (apply pays_bind; [calmt|]; intros ? ?); cbn [up out act1 bind pays tokens]; destruct (eqb q req); exact I).
Qed.
Lemma pays_call g c s : pays (one (q_query req c)) (call_prog g c) s.
Proof.
  destruct (is_query c) eqn:E.
  - destruct c; try discriminate; [apply pays_query|apply pays_answer].
  - apply pays_apart. eapply calm_mono; [apply neutral_apart|]. apply calm_call, E.
Qed.
Lemma advance_pays pr (p : prog string) : forall n s, single s -> pays n p s -> exists m, single (snd (advance pr p s)) /\ (bal (snd (advance pr p s)) + m <= bal s + n)%nat /\
  forall w k, fst (advance pr p s) = Waits w k -> forall x s', pays m (k x) s'.
Proof.
  induction p as [a|e|k IH|a k IH|w k IH]; intros n s D H; cbn [advance pays] in *.
  - exists n. split; [exact D|]. split; [apply Nat.le_refl|discriminate].
  - exists n. split; [exact D|]. split; [apply Nat.le_refl|discriminate].
  - apply IH; auto.
  - destruct (tokens n a s) as [m|] eqn:E; [|contradiction]. destruct (tokens_bal _ _ _ _ D E) as [D' L]. destruct (IH m _ D' H) as (m' & A & B & C).
    exists m'. split; [exact A|]. split; [lia|exact C].
  - assert (W : forall w', exists m, single s /\ (bal s + m <= bal s + n)%nat /\ forall w0 k0, @Waits string w' k = Waits w0 k0 -> forall x s', pays m (k0 x) s').
    { intros w'. exists n. split; [exact D|]. split; [apply Nat.le_refl|]. intros w0 k0 [= _ <-]. exact H. }
    destruct w; try exact (W _). destruct pr; [|exact (W _)]. apply IH; auto.
Qed.
Definition owed (f : nat -> nat) {V} (l : list (nat * V)) : nat := list_sum (map (fun e => f (fst e)) l).
Definition mpays (m : mach) : Prop := single (m_st m) /\ exists f,
  (forall i w k, aget i (m_tasks m) = Some (w, k) -> forall x s', pays (f i) (k x) s') /\ (bal (m_st m) + owed f (m_tasks m) <= cnt (q_query req) (m_log m))%nat.
Lemma owed_other f i v {V} (l : list (nat * V)) : ~ In i (akeys l) -> owed (fun j => if eqb j i then v else f j) l = owed f l.
Proof.
  unfold owed, akeys. intros H. f_equal. apply map_ext_in. intros [j x] Hin. cbn. destruct (eqb_ok j i) as [->|]; [|reflexivity]. destruct H. apply (in_map fst) in Hin. exact Hin.
Qed.
Lemma owed_del f i {V} (l : list (nat * V)) x : aget i l = Some x -> (owed f (adel i l) + f i = owed f l)%nat.
Proof.
  assert (C : forall j y (l : list (nat * V)), owed f ((j, y) :: l) = (f j + owed f l)%nat) by reflexivity.
  induction l as [|[j y] l IH]; [discriminate|]. cbn [aget adel]. destruct (eqb_ok i j) as [->|N]; intros H.
  - rewrite C. apply Nat.add_comm.
  - rewrite !C. specialize (IH H). lia.
Qed.
Lemma record_pays i pr p n s tasks next dn log : single s -> pays n p s -> ~ In i (akeys tasks) -> forall f,
  (forall j w k, aget j tasks = Some (w, k) -> forall x s', pays (f j) (k x) s') -> (bal s + n + owed f tasks <= cnt (q_query req) log)%nat ->
  mpays (record i (advance pr p s) (mkMach s tasks next dn log)).
Proof.
  intros D H Hi f Hf L. destruct (advance_pays pr p n s D H) as (m & A & B & C). unfold record. destruct (advance pr p s) as [[a|e|w k] s1]; cbn [fst snd] in *.
  - split; [exact A|]. exists f. split; [exact Hf|]. cbn [m_st m_tasks m_log]. lia.
  - split; [exact A|]. exists f. split; [exact Hf|]. cbn [m_st m_tasks m_log]. lia.
  - split; [exact A|]. exists (fun j => if eqb j i then m else f j). cbn [m_st m_tasks m_log]. split.
    + intros j w' k' E. rewrite aget_aset in E. destruct (eqb j i); [injection E as <- <-; eapply C; reflexivity|eapply Hf; eauto].
    + rewrite aset_new by exact Hi. unfold owed. rewrite map_app, list_sum_app. fold (owed (fun j => if eqb j i then m else f j) tasks). rewrite owed_other by exact Hi.
      cbn. destruct (eqb_ok i i) as [_|N]; [|congruence]. lia.
Qed.
Lemma mstep_pays g pr m e : mfresh m -> mpays m -> mpays (mstep g pr m e).
Proof.
  intros [F1 F2] (D & f & Hf & L). destruct e as [c|i a|reg rv|reg rv]; cbn [mstep].
  - eapply record_pays; [exact D|apply pays_call| |exact Hf|].
    + intros Hin. apply F2 in Hin. lia.
    + unfold cnt in *. rewrite filter_app, app_length. cbn [filter]. destruct (q_query req c); cbn [one List.length]; lia.
  - destruct (aget i (m_tasks m)) as [[w k]|] eqn:E; [|split; eauto]. destruct (answers w a); [|split; eauto].
    eapply (record_pays i pr (k a) (f i)); [exact D|eapply Hf; eauto| | |].
    + apply aget_None, aget_adel_eq, F1.
    + intros j w' k' Ej. destruct (Nat.eq_dec j i) as [->|N]; [rewrite aget_adel_eq in Ej; [discriminate|exact F1]|rewrite aget_adel_ne in Ej by auto; eauto].
    + pose proof (owed_del f i (m_tasks m) _ E). lia.
  - split; [destruct (m_st m); exact D|]. exists f. split; [exact Hf|]. unfold bal, ocnt in *. destruct (m_st m); exact L.
  - split; [constructor|]. exists f. split; [cbn; discriminate|]. cbn [m_st m_tasks m_log].
    assert (X : bal (restart_st reg rv (m_st m)) = ocnt (m_query req) (m_st m)) by (unfold bal; cbn [restart_st qreqs]; rewrite Nat.add_0_r; reflexivity).
    rewrite X. unfold bal in L. change (owed f []) with 0%nat. lia.
Qed.
Lemma mrun_pays g pr l : forall m, mfresh m -> mpays m -> mpays (mrun g pr m l).
Proof. induction l as [|e l IH]; intros m F H; cbn [mrun fold_left]; auto. apply IH; [apply mstep_fresh, F|apply mstep_pays; auto]. Qed.
Lemma query_once_any g pr reg rv l : (sent (m_query req) (mrun g pr (minit reg rv) l) <= received (q_query req) (mrun g pr (minit reg rv) l))%nat.
Proof.
  assert (H : mpays (mrun g pr (minit reg rv) l)).
  { apply mrun_pays; [split; [constructor|contradiction]|]. split; [constructor|]. exists (fun _ => 0%nat). split; [discriminate|]. cbn. auto. }
  destruct H as (_ & f & _ & L). unfold bal, ocnt, sent, received in *. lia.
Qed.
End Tokens.

(** * Unknown and second answers *)
Section Tidy.
Context (d : option nat).
Definition qinv (s : st) : Prop :=
  NoDup (akeys (qcalls s)) /\ (forall k, In k (akeys (qcalls s)) -> In k (query_corrs (outs s))) /\
  (forall k, In k (query_corrs (outs s)) -> (k < n_corr s)%nat) /\ match d with Some K => done K s | None => True end.
Definition qlegal (a : act) (s : st) : Prop :=
  match a with
  | AQcall k v => In k (query_corrs (outs s)) /\ match d with Some K => k <> K \/ exists x r, snd v = Some (x :: r) | None => True end
  | AOut (ODown _ h (DQuery _)) => (hd_corr h < n_corr s)%nat
  | _ => True
  end.
Lemma qlegal_ok a s : qinv s -> qlegal a s -> qinv (do_act a s).
Proof.
  intros (N & Q & C & D) L. unfold qinv.
  assert (K : forall s', qcalls s' = qcalls s -> outs s' = outs s -> (n_corr s <= n_corr s')%nat ->
    NoDup (akeys (qcalls s')) /\ (forall k, In k (akeys (qcalls s')) -> In k (query_corrs (outs s'))) /\
    (forall k, In k (query_corrs (outs s')) -> (k < n_corr s')%nat) /\ match d with Some K => done K s' | None => True end).
  { intros s' E1 E2 E3. rewrite E1, E2. split; [exact N|]. split; [exact Q|]. split; [intros k Hk; apply C in Hk; lia|].
    destruct d as [K|]; [|exact I]. destruct D as [D1 D2]. unfold done. rewrite E1. split; [lia|exact D2]. }
  destruct a; cbn [qlegal] in L; try (apply K; destruct s; cbn; auto; fail).
  - replace (qcalls (do_act (AQcall k x) s)) with (aset k x (qcalls s)) by (destruct s; reflexivity).
    replace (outs (do_act (AQcall k x) s)) with (outs s) by (destruct s; reflexivity). replace (n_corr (do_act (AQcall k x) s)) with (n_corr s) by (destruct s; reflexivity).
    destruct L as [L1 L2]. split; [apply NoDup_akeys_aset, N|]. split; [|split; [exact C|]].
    + intros j. rewrite akeys_aset. destruct (ahas k (qcalls s)); [apply Q|]. rewrite in_app_iff. intros [H|[<-|[]]]; auto.
    + destruct d as [K'|]; [|exact I]. destruct D as [D1 D2]. unfold done.
      replace (qcalls (do_act (AQcall k x) s)) with (aset k x (qcalls s)) by (destruct s; reflexivity). replace (n_corr (do_act (AQcall k x) s)) with (n_corr s) by (destruct s; reflexivity).
      split; [exact D1|]. rewrite aget_aset. destruct (eqb_ok K' k) as [->|NE]; [|exact D2]. destruct L2 as [L2|(y & r & L2)]; [congruence|]. destruct x as [q v]. cbn in L2. rewrite L2. exact I.
  - match goal with |- context [do_act (AQcallPop ?q) s] => set (f := fun e : qent => negb (eqb (fst (snd e)) q));
      replace (qcalls (do_act (AQcallPop q) s)) with (filter f (qcalls s)) by (destruct s; reflexivity);
      replace (outs (do_act (AQcallPop q) s)) with (outs s) by (destruct s; reflexivity); replace (n_corr (do_act (AQcallPop q) s)) with (n_corr s) by (destruct s; reflexivity);
      assert (DD : forall K, done K s -> done K (do_act (AQcallPop q) s)) end.
    { intros K' [D1 D2]. split; [destruct s; exact D1|]. match goal with |- context [do_act (AQcallPop ?q) s] => replace (qcalls (do_act (AQcallPop q) s)) with (filter f (qcalls s)) by (destruct s; reflexivity) end.
      destruct (aget_filter f K' (qcalls s) N) as [-> | ->]; auto. }
    split; [apply NoDup_keys_filter, N|]. split; [|split; [exact C|destruct d; auto]].
    intros j Hj. apply Q. unfold akeys in *. apply in_map_iff in Hj as (e & <- & He). apply filter_In in He. apply in_map, He.
  - replace (qcalls (do_act (AOut x) s)) with (qcalls s) by (destruct s; reflexivity). replace (outs (do_act (AOut x) s)) with (outs s ++ [x]) by (destruct s; reflexivity).
    replace (n_corr (do_act (AOut x) s)) with (n_corr s) by (destruct s; reflexivity). unfold query_corrs. rewrite flat_map_app. fold (query_corrs (outs s)).
    split; [exact N|]. split; [intros j Hj; apply in_or_app; auto|]. split; [|destruct d; [destruct s; exact D|exact I]].
    intros j Hj. apply in_app_or in Hj as [Hj|Hj]; [auto|]. destruct x; try contradiction. destruct b; try contradiction. cbn in Hj. destruct Hj as [<-|[]]. exact L.
Qed.
Fixpoint tidy {A} (p : prog A) (s : st) : Prop :=
  match p with
  | Ret _ | Throw _ => True
  | Get k => qinv s -> tidy (k s) s
  | Do a k => qlegal a s /\ tidy k (do_act a s)
  | Await _ k => forall x s', tidy (k x) s'
  end.
Lemma tidy_bind {A B} (p : prog A) (f : A -> prog B) : forall s, tidy p s -> (forall a s', tidy (f a) s') -> tidy (bind p f) s.
Proof. induction p as [a|e|k IH|a k IH|w k IH]; intros s H HF; cbn [tidy bind] in *; auto. destruct H; auto. Qed.
Lemma tidy_mapP {A B} (f : A -> prog B) l : (forall a s, tidy (f a) s) -> forall s, tidy (mapP f l) s.
Proof. intros H. induction l as [|a l IH]; intros s; cbn [mapP]; [exact I|]. apply tidy_bind; [apply H|]. intros b s1. apply tidy_bind; [apply IH|]. intros bs s2. exact I. Qed.
Lemma neutral_qlegal a s : neutral a -> qlegal a s.
Proof. destruct a; cbn; try tauto. destruct x; try tauto. destruct b; tauto. Qed.
Lemma calm_tidy {A} (p : prog A) : calm p -> forall s, tidy p s.
Proof. induction p as [a|e|k IH|a k IH|w k IH]; cbn [calmN tidy]; auto. intros [H1 H2] s. split; [apply neutral_qlegal, H1|auto]. Qed.
Definition nocall (a : act) : Prop := match a with AQcall _ _ | AOut (ODown _ _ (DQuery _)) => False | _ => True end.
Lemma nocall_tidy {A} (p : prog A) : calmN nocall p -> forall s, tidy p s.
Proof.
  induction p as [a|e|k IH|a k IH|w k IH]; cbn [calmN tidy]; auto. intros [H1 H2] s. split; [|auto]. destruct a; cbn in *; try tauto. destruct x; try tauto. destruct b; tauto.
Qed.
Lemma advance_tidy pr (p : prog string) : forall s, qinv s -> tidy p s -> qinv (snd (advance pr p s)).
Proof.
  induction p as [a|e|k IH|a k IH|w k IH]; intros s V H; cbn [advance tidy] in *; auto.
  - destruct H as [L H]. apply IH; [apply qlegal_ok; auto|exact H].
  - destruct w; auto. destruct pr; auto.
Qed.
End Tidy.

(** what a waiting call does next is tidy *)
Fixpoint later {A} (p : prog A) : Prop :=
  match p with
  | Ret _ | Throw _ => True
  | Get k => forall s, later (k s)
  | Do _ k => later k
  | Await _ k => forall x, later (k x) /\ forall d s, tidy d (k x) s
  end.
Definition neat {A} (p : prog A) : Prop := later p /\ forall d s, tidy d p s.
Lemma neat_bind {A B} (p : prog A) (f : A -> prog B) : neat p -> (forall a, neat (f a)) -> neat (bind p f).
Proof.
  intros [H HT] HF. split; [|intros d s; apply tidy_bind; [apply HT|intros; apply HF]].
  clear HT. induction p as [a|e|k IH|a k IH|w k IH]; cbn [later bind] in *; auto; [apply HF|].
  intros x. destruct (H x) as [H1 H2]. split; [apply IH, H1|]. intros d s. apply tidy_bind; [auto|]. intros; apply HF.
Qed.
Lemma neat_mapP {A B} (f : A -> prog B) l : (forall a, neat (f a)) -> neat (mapP f l).
Proof.
  intros H. induction l as [|a l IH]; cbn [mapP]; [split; cbn; auto|]. apply neat_bind; [apply H|]. intros b. apply neat_bind; [apply IH|]. intros bs. split; cbn; auto.
Qed.
Lemma neat_nocall {A} (p : prog A) : calmN nocall p -> neat p.
Proof.
  intros H. split; [|intros; apply nocall_tidy, H]. induction p as [a|e|k IH|a k IH|w k IH]; cbn [calmN later] in *; auto; [tauto|].
  intros x. split; [apply IH, H|]. intros d s. apply nocall_tidy, H.
Qed.
Lemma neutral_nocall a : neutral a -> nocall a.
Proof. destruct a; cbn; try tauto. destruct x; tauto. Qed.
Lemma mild_nocall {A} (p : prog A) : mild p -> calmN nocall p.
Proof. intros H. eapply calm_mono; [apply neutral_nocall|]. apply mild_calm, H. Qed.
#[local] Hint Resolve mild_nocall calm_conn_obj calm_sub_obj calm_get_connection calm_get_subs calm_sub_objs calm_note : calm.
Ltac calmq := repeat first [solve [auto with calm] | calm1 | apply calm_act; exact I].
Lemma neat_query g h cids gids : neat (query_recursive g h cids gids).
Proof.
  unfold query_recursive. destruct gids; [|split; cbn; auto]. destruct cids as [|cid [|? ?]]; try (split; cbn; auto; fail).
  do 4 (apply neat_bind; [apply neat_nocall; calmq|intros ?]). apply neat_bind; [|intros urns; apply neat_nocall; calmq].
  apply neat_mapP. intros so. do 3 (apply neat_bind; [apply neat_nocall; calmq|intros ?]).
  split; [unfold new_corr; cbn [get act1 out bind later]; auto|]. intros d s. unfold new_corr. cbn [get act1 out bind tidy]. intros (_ & _ & _ & D). split; [exact I|].
  split; [cbn [qlegal hd_corr]; destruct s; cbn; lia|]. split; [|exact I]. cbn [qlegal]. split.
  - match goal with |- In _ (query_corrs (outs (do_act (AOut ?o) ?t))) => replace (outs (do_act (AOut o) t)) with (outs t ++ [o]) by (destruct s; reflexivity) end.
    unfold query_corrs. rewrite flat_map_app. apply in_or_app. right. cbn. auto.
  - destruct d as [K|]; [|exact I]. left. destruct D as [D _]. intros E. rewrite E in D. lia.
Qed.
Lemma later_get {A} (f : st -> prog A) : (forall s, later (f s)) -> later (bind get f).
Proof. exact (fun H => H). Qed.
Lemma later_act {A} a (f : unit -> prog A) : later (f tt) -> later (bind (act1 a) f).
Proof. exact (fun H => H). Qed.
Lemma tidy_get {A} d (f : st -> prog A) s : (qinv d s -> tidy d (f s) s) -> tidy d (bind get f) s.
Proof. exact (fun H => H). Qed.
Lemma tidy_act {A} d a (f : unit -> prog A) s : qlegal d a s -> tidy d (f tt) (do_act a s) -> tidy d (bind (act1 a) f) s.
Proof. exact (fun H1 H2 => conj H1 H2). Qed.
Lemma neat_answer g h res : neat (query_recursive_confirmed g h res).
Proof.
  split.
  - unfold query_recursive_confirmed. apply later_get. intros s. destruct (aget (hd_corr h) (qcalls s)) as [[q v]|]; [|exact I].
    destruct v as [[|x r]|]; [|exact I|]; apply later_act, neat_nocall; calmq.
  - intros d s. unfold query_recursive_confirmed. apply tidy_get. intros (_ & Q & _ & D). destruct (aget (hd_corr h) (qcalls s)) as [[q v]|] eqn:E; [|exact I].
    assert (L : forall u, (forall x r, v <> Some (x :: r)) -> qlegal d (AQcall (hd_corr h) (q, u)) s).
    { intros u NV. split; [eapply Q, aget_Some_In_keys; exact E|]. destruct d as [K|]; [|exact I]. left. intros EK. destruct D as [_ D]. rewrite <- EK, E in D.
      destruct v as [[|x r]|]; try exact D. exact (NV _ _ eq_refl). }
    destruct v as [[|x r]|]; [|exact I|]; (apply tidy_act; [apply L; discriminate|apply nocall_tidy; calmq]).
Qed.
Lemma neat_call g c : neat (call_prog g c).
Proof.
  destruct (is_query c) eqn:E.
  - destruct c; try discriminate; [apply neat_query|apply neat_answer].
  - apply neat_nocall. eapply calm_mono; [apply neutral_nocall|]. apply calm_call, E.
Qed.
Lemma advance_later pr (p : prog string) : forall s, later p -> forall w k, fst (advance pr p s) = Waits w k -> forall x, neat (k x).
Proof.
  induction p as [a|e|k IH|a k IH|w k IH]; intros s H w0 k0 E x; cbn [advance later] in *; try discriminate; try (eapply IH; eauto; fail).
  assert (W : forall w', @Waits string w' k = Waits w0 k0 -> neat (k0 x)) by (intros w' [= _ <-]; apply H).
  destruct w; try exact (W _ E). destruct pr; [|exact (W _ E)]. eapply (IH AnsOk); [apply H|exact E].
Qed.
Definition mneat (d : option nat) (m : mach) : Prop := qinv d (m_st m) /\ forall i w k, aget i (m_tasks m) = Some (w, k) -> forall x, neat (k x).
Lemma record_neat d i pr p s m : later p -> qinv d (snd (advance pr p s)) -> (forall i w k, aget i (m_tasks m) = Some (w, k) -> forall x, neat (k x)) ->
  mneat d (record i (advance pr p s) m).
Proof.
  intros L V H. pose proof (advance_later pr p s L) as C. unfold record. destruct (advance pr p s) as [[a|e|w k] s1]; cbn [fst snd] in *; (split; [exact V|]); try exact H.
  cbn [m_tasks]. intros j w' k' E. rewrite aget_aset in E. destruct (eqb j i); [injection E as <- <-; eapply C; reflexivity|eauto].
Qed.
Lemma mstep_neat d g pr m e : mfresh m -> mneat d m -> mneat d (mstep g pr m e).
Proof.
  intros F [V H]. destruct e as [c|i a|reg rv|reg rv]; cbn [mstep].
  - apply record_neat; [apply neat_call|apply advance_tidy; [exact V|apply neat_call]|exact H].
  - destruct (aget i (m_tasks m)) as [[w k]|] eqn:E; [|split; auto]. destruct (answers w a); [|split; auto].
    apply record_neat; [eapply H; eauto|apply advance_tidy; [exact V|eapply H; eauto]|]. cbn [m_tasks].
    intros j w' k' Ej. destruct (Nat.eq_dec j i) as [->|N]; [rewrite aget_adel_eq in Ej; [discriminate|apply F]|rewrite aget_adel_ne in Ej by auto; eauto].
  - split; [destruct (m_st m); exact V|exact H].
  - destruct V as (V1 & V2 & V3 & V4). split; [|cbn; discriminate]. split; [constructor|]. split; [contradiction|]. split; [exact V3|]. destruct d; [|exact I]. split; [apply V4|exact I].
Qed.
Lemma mrun_neat d g pr l : forall m, mfresh m -> mneat d m -> mfresh (mrun g pr m l) /\ mneat d (mrun g pr m l).
Proof. induction l as [|e l IH]; intros m F H; cbn [mrun fold_left]; auto. apply IH; [apply mstep_fresh, F|apply mstep_neat; auto]. Qed.
Lemma neat_reach g pr reg rv l : mfresh (mrun g pr (minit reg rv) l) /\ mneat None (mrun g pr (minit reg rv) l).
Proof. apply mrun_neat; [split; [constructor|contradiction]|]. split; [|discriminate]. split; [constructor|]. split; [contradiction|]. split; [contradiction|exact I]. Qed.
Lemma query_unknown_any g pr reg rv l h res : ~ In (hd_corr h) (query_corrs (outs (m_st (mrun g pr (minit reg rv) l)))) ->
  m_st (mstep g pr (mrun g pr (minit reg rv) l) (EvCall (CQueryRecursiveConfirmed h res))) = m_st (mrun g pr (minit reg rv) l).
Proof.
  intros N. destruct (neat_reach g pr reg rv l) as [_ [(_ & Q & _) _]].
  cbn [mstep]. rewrite (proj1 (record_st _ _ _)). cbn [call_prog]. unfold query_recursive_confirmed, get. cbn [bind advance].
  destruct (aget (hd_corr h) (qcalls (m_st (mrun g pr (minit reg rv) l)))) as [v|] eqn:E; [|reflexivity].
  exfalso. apply N, Q. eapply aget_Some_In_keys; exact E.
Qed.
Lemma advance_get {A} pr (f : st -> prog A) s : advance pr (bind get f) s = advance pr (f s) s.
Proof. reflexivity. Qed.
Lemma advance_act {A} pr a (f : unit -> prog A) s : advance pr (bind (act1 a) f) s = advance pr (f tt) (do_act a s).
Proof. reflexivity. Qed.
Lemma first_answer g pr h x r s : qinv None s -> In (hd_corr h) (query_corrs (outs s)) -> qinv (Some (hd_corr h)) (snd (advance pr (query_recursive_confirmed g h (x :: r)) s)).
Proof.
  intros V HI. pose proof V as (N & Q & C & _). unfold query_recursive_confirmed. rewrite advance_get.
  assert (S0 : match aget (hd_corr h) (qcalls s) with None | Some (_, Some (_ :: _)) => True | _ => False end -> qinv (Some (hd_corr h)) s).
  { intros D. split; [exact N|]. split; [exact Q|]. split; [exact C|]. split; [apply C, HI|exact D]. }
  destruct (aget (hd_corr h) (qcalls s)) as [[q v]|] eqn:E; [|apply S0; exact I].
  assert (S1 : qinv (Some (hd_corr h)) (do_act (AQcall (hd_corr h) (q, Some (x :: r))) s)).
  { destruct (qlegal_ok None (AQcall (hd_corr h) (q, Some (x :: r))) s V) as (N1 & Q1 & C1 & _); [split; [exact HI|exact I]|].
    split; [exact N1|]. split; [exact Q1|]. split; [exact C1|]. split; [destruct s; apply C, HI|].
    replace (qcalls (do_act (AQcall (hd_corr h) (q, Some (x :: r))) s)) with (aset (hd_corr h) (q, Some (x :: r)) (qcalls s)) by (destruct s; reflexivity).
    rewrite aget_aset, eqb_refl. exact I. }
  destruct v as [[|y z]|]; [|apply S0; exact I|]; (rewrite advance_act; apply advance_tidy; [exact S1|]; apply nocall_tidy; calmq).
Qed.
Lemma query_twice_any g pr reg rv l1 h x r h' res l2 :
  let m1 := mrun g pr (minit reg rv) l1 in
  let m2 := mrun g pr (mstep g pr m1 (EvCall (CQueryRecursiveConfirmed h (x :: r)))) l2 in
  In (hd_corr h) (query_corrs (outs (m_st m1))) -> hd_corr h' = hd_corr h ->
  m_st (mstep g pr m2 (EvCall (CQueryRecursiveConfirmed h' res))) = m_st m2.
Proof.
  intros m1 m2 HI HE. destruct (neat_reach g pr reg rv l1) as [F [V H]]. fold m1 in F, V, H.
  destruct (mrun_neat (Some (hd_corr h)) g pr l2 (mstep g pr m1 (EvCall (CQueryRecursiveConfirmed h (x :: r))))) as [_ [(_ & _ & _ & [_ D]) _]].
  - apply mstep_fresh, F.
  - cbn [mstep]. apply record_neat; [apply neat_call|apply first_answer; auto|exact H].
  - fold m2 in D. cbn [mstep]. rewrite (proj1 (record_st _ _ _)). cbn [call_prog]. unfold query_recursive_confirmed, get. cbn [bind advance].
    rewrite HE. destruct (aget (hd_corr h) (qcalls (m_st m2))) as [[q [[|y z]|]]|]; try contradiction; reflexivity.
Qed.
