(** Failures of providers (C44) and cleaning up (C45). *)
From Verif Require Import Base BaseProofs ModelLabel ModelSTP ModelAuthz ModelNRM ModelState ModelLinkVector ModelProvreg ModelAggregator SpecAggregator ProofsAggregator ProofsAggPath.
Open Scope Z_scope.

(** * Texts *)
Lemma append_assoc a b c : (a +++ b) +++ c = a +++ (b +++ c).
Proof. induction a as [|x a IH]; cbn; [auto|]. f_equal. exact IH. Qed.
Lemma append_nil a : a +++ "" = a.
Proof. induction a as [|x a IH]; cbn; [auto|]. f_equal. exact IH. Qed.
Lemma within_refl a : within a a.
Proof. exists "", "". rewrite append_nil. reflexivity. Qed.
Lemma within_app_r a b c : within a b -> within a (c +++ b).
Proof. intros (u & v & ->). exists (c +++ u), v. rewrite append_assoc. reflexivity. Qed.
Lemma within_app_l a b c : within a b -> within a (b +++ c).
Proof. intros (u & v & ->). exists u, (v +++ c). rewrite !append_assoc. reflexivity. Qed.
Lemma within_join sep x l : In x l -> within x (join sep l).
Proof.
  induction l as [|y l IH]; intros H; [contradiction|]. destruct H as [->|H].
  - destruct l; cbn; [apply within_refl|]. apply within_app_l, within_refl.
  - destruct l as [|z l]; [contradiction|]. cbn [join]. apply within_app_r, within_app_r. apply IH; auto.
Qed.

(** * One error or several *)
Lemma failures_none l : (forall i, ~ failed_at l i) -> failures l = [] /\ all_acked l = true.
Proof.
  induction l as [|a l IH]; intros H; [auto|].
  assert (H' : forall i, ~ failed_at l i) by (intros i (e & m & E); apply (H (S i)); exists e, m; exact E).
  destruct (IH H') as [E1 E2]. destruct a as [i|e m]; [split; [exact E1|exact E2]|].
  exfalso. apply (H O). exists e, m. reflexivity.
Qed.
Lemma failures_one l i e m : nth_error l i = Some (Nacked e m) -> (forall j, failed_at l j -> j = i) -> failures l = [(e, m)] /\ all_acked l = false.
Proof.
  revert i; induction l as [|a l IH]; intros i E H; [destruct i; discriminate|].
  destruct i as [|i]; cbn in E.
  - inversion E; subst. assert (N : forall j, ~ failed_at l j).
    { intros j (e' & m' & Ej). assert (S j = O) by (apply H; exists e', m'; exact Ej). discriminate. }
    destruct (failures_none l N) as [E1 E2]. split; [|reflexivity]. change (failures (Nacked e m :: l)) with ((e, m) :: failures l). rewrite E1. reflexivity.
  - destruct a as [x|e' m'].
    + destruct (IH i E) as [E1 E2].
      { intros j (e' & m' & Ej). assert (S j = S i) by (apply H; exists e', m'; exact Ej). lia. }
      split; [exact E1|exact E2].
    + assert (O = S i) by (apply H; exists e', m'; reflexivity). discriminate.
Qed.
Lemma failures_in l i e m : nth_error l i = Some (Nacked e m) -> In (e, m) (failures l).
Proof. intros H. apply nth_error_In in H. unfold failures. apply in_flat_map. eexists; split; [exact H|]. cbn; auto. Qed.
Lemma failures_count l i j : failed_at l i -> failed_at l j -> (i < j)%nat -> (2 <= List.length (failures l))%nat.
Proof.
  revert i j; induction l as [|a l IH]; intros i j (e & m & E) (e' & m' & E') L; [destruct i; discriminate|].
  destruct j as [|j]; [lia|]. destruct i as [|i]; cbn in E, E'.
  - inversion E; subst. apply failures_in in E'. change (failures (Nacked e m :: l)) with ((e, m) :: failures l). destruct (failures l); [contradiction|]. cbn [List.length]. lia.
  - assert (Q : (2 <= List.length (failures l))%nat) by (apply (IH i j); [exists e, m; auto|exists e', m'; auto|lia]).
    destruct a as [x|e0 m0]; [exact Q|]. change (failures (Nacked e0 m0 :: l)) with ((e0, m0) :: failures l). cbn [List.length]. lia.
Qed.
Lemma not_all_acked l i : failed_at l i -> all_acked l = false.
Proof.
  intros (e & m & E). destruct (all_acked l) eqn:A; auto. unfold all_acked in A. rewrite forallb_forall in A.
  apply nth_error_In in E. apply A in E. discriminate.
Qed.
Lemma provider_failures_in urns : forall l k u e m,
  nth_error urns k = Some u -> nth_error l k = Some (Nacked e m) -> In (u +++ ": " +++ m) (provider_failures urns l).
Proof.
  induction urns as [|u0 urns IH]; intros l k u e m E1 E2; [destruct k; discriminate|].
  destruct l as [|a l]; [destruct k; discriminate|].
  destruct k as [|k]; cbn in E1, E2.
  - inversion E1; inversion E2; subst. cbn. auto.
  - unfold provider_failures. cbn. apply in_or_app. right. eapply IH; eauto.
Qed.
Lemma aggregate_two action l urns d : (2 <= List.length (failures l))%nat ->
  exists text, aggregate action l urns d = (d, text) /\ forall x, In x (provider_failures urns l) -> within x text.
Proof.
  intros H. unfold aggregate. destruct (failures l) as [|a [|b r]]; cbn in H; try lia.
  eexists. split; [reflexivity|]. intros x Hx. repeat apply within_app_r. apply within_join; auto.
Qed.

Lemma finish_answer cid action urns l :
  reports cid urns l (if all_acked l then inl cid else inr (aggregate action l urns EConnection)).
Proof.
  split; [|split].
  - intros H. destruct (failures_none l H) as [_ ->]. reflexivity.
  - intros i e m E H. destruct (failures_one l i e m E H) as [E1 ->]. unfold aggregate. rewrite E1. reflexivity.
  - intros i j Hi Hj N. rewrite (not_all_acked l i Hi).
    assert (C : (2 <= List.length (failures l))%nat).
    { destruct (Nat.lt_trichotomy i j) as [L|[L|L]]; [exact (failures_count l i j Hi Hj L)|contradiction|exact (failures_count l j i Hj Hi L)]. }
    destruct (aggregate_two action l urns EConnection C) as (text & -> & W).
    exists text. split; auto. intros k u e m E1 E2. apply W. eapply provider_failures_in; eauto.
Qed.

(** * The requests *)
Definition silent (o : obs) : Prop :=
  match o with OAct (AOut (ODown _ _ _)) => False | OAns (WAcks _) _ => False | _ => True end.
Lemma silent_none l : Forall silent l -> downs l = [] /\ acks_in l = [].
Proof.
  induction 1 as [|o l H _ [IH1 IH2]]; [auto|]. change (o :: l) with ([o] ++ l).
  rewrite downs_app, acks_in_app, IH1, IH2, !app_nil_r.
  destruct o as [[]|[] ?]; cbn in *; try contradiction; auto. destruct x; cbn in *; try contradiction; auto.
Qed.
Definition urns_of (l : list obs) : list string := map (fun d => hd_provider (snd (fst d))) (downs l).

Section Ops.
  Context (P : st -> Prop) (Q : wait -> ans -> Prop).
  Notation sil := (only P Q silent).
  Lemma sil_conn_obj o : sil (conn_obj o).
  Proof. unfold conn_obj. repeat only_step. destruct (aget o _); repeat only_step. Qed.
  Lemma sil_sub_obj o : sil (sub_obj o).
  Proof. unfold sub_obj. repeat only_step. destruct (aget o _); repeat only_step. Qed.
  Lemma sil_save_conn o : sil (save_conn o).
  Proof. unfold save_conn. repeat only_step. apply sil_conn_obj. Qed.
  Lemma sil_save_sub o : sil (save_sub o).
  Proof. unfold save_sub. repeat only_step. apply sil_sub_obj. Qed.
  Lemma sil_conn_state x o : sil (conn_state x o).
  Proof.
    unfold conn_state, set_conn_state. repeat only_step; [apply sil_conn_obj| |apply sil_save_conn].
    destruct (op_mem x _) as [y [e|]]; repeat only_step.
  Qed.
  Lemma sil_set_sub_state x o : sil (set_sub_state x o).
  Proof.
    unfold set_sub_state. repeat only_step; [apply sil_sub_obj|].
    destruct (op_mem x _) as [y [e|]]; repeat only_step.
  Qed.
  Lemma sil_get_connection cid : sil (get_connection cid).
  Proof.
    unfold get_connection. repeat only_step. destruct (aget cid _); repeat only_step.
    destruct (find_conn cid _); repeat only_step.
  Qed.
  Lemma sil_open_connection cid : sil (open_connection cid).
  Proof.
    unfold open_connection. repeat only_step; [apply sil_get_connection|apply sil_conn_obj|].
    destruct (eqb _ _); repeat only_step.
  Qed.
  Lemma sil_get_subs k : sil (get_subs k).
  Proof.
    unfold get_subs. repeat only_step. destruct (aget _ _); repeat only_step. unfold fetch_sub. repeat only_step.
    destruct (find_sub _ _ _); repeat only_step.
  Qed.

  Lemma all_silent {A} (p : prog A) (R : list obs -> option (A + err) -> Prop) :
    sil p -> (forall l r, downs l = [] -> acks_in l = [] -> R l r) -> all_exec P Q p R.
  Proof. intros H1 H2. eapply all_mono; [exact H1|]. intros l r F. destruct (silent_none l F). auto. Qed.

  Lemma all_call_sub g h b o (R : list obs -> option (string + err) -> Prop) :
    (forall l r, acks_in l = [] -> (forall u, r = Some (inl u) -> urns_of l = [u]) -> R l r) -> all_exec P Q (call_sub g h b o) R.
  Proof.
    intros H. unfold call_sub, new_corr, out.
    apply all_bind, all_silent; [apply sil_sub_obj|]. intros l r D A.
    destruct r as [[x|e]|]; try (apply H; [auto|discriminate]).
    assert (H' : forall l2 r2, acks_in l2 = [] -> (forall u, r2 = Some (inl u) -> urns_of l2 = [u]) -> R (l ++ l2) r2).
    { intros l2 r2 A2 U2. apply H; [rewrite acks_in_app, A, A2; reflexivity|].
      intros u E. unfold urns_of. rewrite downs_app, D. apply U2; auto. }
    apply all_bind, all_get; [apply H'; [auto|discriminate]|]. intros s _.
    apply all_bind, all_lift; try (intros; apply H'; [auto|discriminate]). intros p _.
    apply all_bind, all_bind, all_get; [apply H'; [auto|discriminate]|]. intros s' _.
    apply all_bind, all_act; try (apply H'; [reflexivity|discriminate]).
    apply all_ret; try (apply H'; [reflexivity|discriminate]).
    apply all_bind, all_act; try (apply H'; [reflexivity|discriminate]).
    apply all_ret; (apply H'; [reflexivity|]); [discriminate|]. intros u E. inversion E; subst. reflexivity.
  Qed.
  Lemma all_mapP_calls (f : nat -> prog string) : forall os,
    (forall o (R : list obs -> option (string + err) -> Prop),
       (forall l r, acks_in l = [] -> (forall u, r = Some (inl u) -> urns_of l = [u]) -> R l r) -> all_exec P Q (f o) R) ->
    forall (R : list obs -> option (list string + err) -> Prop),
    (forall l r, acks_in l = [] -> (forall us, r = Some (inl us) -> urns_of l = us) -> R l r) -> all_exec P Q (mapP f os) R.
  Proof.
    induction os as [|o os IH]; intros Hf R H; cbn [mapP].
    - apply all_ret; (apply H; [reflexivity|]); [discriminate|]. intros us E. inversion E; reflexivity.
    - apply all_bind, Hf. intros l r A U. destruct r as [[u|e]|]; try (apply H; [auto|discriminate]).
      apply all_bind, IH; [exact Hf|]. intros l2 r2 A2 U2.
      assert (AA : acks_in (l ++ l2) = []) by (rewrite acks_in_app, A, A2; reflexivity).
      destruct r2 as [[us|e]|]; try (apply H; [auto|discriminate]).
      apply all_ret; (apply H; rewrite app_nil_r; [auto|]); [discriminate|].
      intros us' E. inversion E; subst. unfold urns_of. rewrite downs_app, map_app.
      change (urns_of l ++ urns_of l2 = u :: us). rewrite (U u eq_refl), (U2 us eq_refl). reflexivity.
  Qed.

  (** what an operation answers *)
  Definition answered (cid : string) (l : list obs) (r : option (string + err)) : Prop :=
    forall x, r = Some x ->
      (acks_in l = [] /\ exists e, x = inr e) \/
      (exists a, acks_in l = [a] /\ List.length a = List.length (downs l) /\ reports cid (urns_of l) a x).
  Lemma answered_none cid l : answered cid l None.
  Proof. intros x H; discriminate. Qed.
  Lemma answered_err cid l e : acks_in l = [] -> answered cid l (Some (inr e)).
  Proof. intros H x E. inversion E. left. eauto. Qed.

  Lemma all_finish cid action urns l0 : acks_in l0 = [] -> urns_of l0 = urns ->
    all_exec P Q (finish cid action urns) (fun l r => answered cid (l0 ++ l) r).
  Proof.
    intros A U. unfold finish. apply all_bind, all_await_acks; [apply answered_none|].
    intros a _ L. split; [apply answered_none|].
    pose proof (finish_answer cid action urns a) as F.
    assert (X : forall x, reports cid urns a x -> answered cid (l0 ++ [OAns (WAcks (List.length urns)) (AnsAcks a)] ++ []) (Some x)).
    { intros x Rx y E. inversion E; subst y. right. exists a. rewrite acks_in_app, A. split; [reflexivity|].
      unfold urns_of in *. rewrite !downs_app. cbn [downs acts flat_map app]. rewrite !app_nil_r. rewrite U. split; auto. rewrite L, <- U. apply map_length. }
    destruct (all_acked a); [apply all_ret|apply all_throw]; try apply answered_none; apply X; exact F.
  Qed.

  Ltac quiet_step := 
    apply all_bind, all_silent; [|
      let l := fresh "l" in let r := fresh "r" in let D := fresh "D" in let A := fresh "A" in
      let v := fresh "v" in let e := fresh "e" in intros l [[v|e]|] D A; [|apply answered_err; rewrite ?acks_in_app; repeat (match goal with E : acks_in _ = [] |- _ => progress rewrite ?E end); reflexivity|apply answered_none]].

  Lemma all_calls_finish cid action (f : nat -> prog string) (os : list nat) l0 :
    (forall o (R : list obs -> option (string + err) -> Prop),
       (forall l r, acks_in l = [] -> (forall u, r = Some (inl u) -> urns_of l = [u]) -> R l r) -> all_exec P Q (f o) R) ->
    downs l0 = [] -> acks_in l0 = [] ->
    all_exec P Q (urns <- mapP f os ;; finish cid action urns) (fun l r => answered cid (l0 ++ l) r).
  Proof.
    intros Hf D0 A0. apply all_bind, all_mapP_calls; [exact Hf|]. intros l r A U.
    destruct r as [[us|e]|]; [|apply answered_err; rewrite acks_in_app, A0; auto|apply answered_none].
    eapply all_mono; [apply (all_finish cid action us (l0 ++ l))|intros l2 r2 H; rewrite app_assoc; exact H].
    - rewrite acks_in_app, A0, A; reflexivity.
    - unfold urns_of. rewrite downs_app, D0. apply U; reflexivity.
  Qed.

  Lemma commit_answered g h cid : all_exec P Q (reserve_commit g h cid) (answered cid).
  Proof.
    unfold reserve_commit.
    quiet_step; [apply sil_open_connection|].
    quiet_step; [apply sil_conn_state|].
    quiet_step; [apply sil_get_subs|].
    eapply all_mono; [apply (all_calls_finish cid "committed" (call_sub g h DCommit) _ (l ++ l0 ++ l1))|].
    - intros o R H. apply all_call_sub; auto.
    - rewrite !downs_app, D, D0, D1. reflexivity.
    - rewrite !acks_in_app, A, A0, A1. reflexivity.
    - intros l2 r2 H. rewrite !app_assoc in *. exact H.
  Qed.
  Lemma provision_answered g h cid : all_exec P Q (provision g h cid) (answered cid).
  Proof.
    unfold provision.
    quiet_step; [apply sil_open_connection|].
    quiet_step; [apply sil_conn_state|].
    quiet_step; [apply sil_get_subs|].
    quiet_step; [|].
    { apply only_mapP. intros. apply only_bind; [apply sil_sub_obj|]. intros. destruct (eqb _ _); [apply only_ret|].
      apply only_bind; [apply sil_set_sub_state|]. intros; apply only_ret. }
    quiet_step; [|].
    { apply only_iterP. intros. apply sil_save_sub. }
    eapply all_mono; [apply (all_calls_finish cid "provision" (call_sub g h DProvision) _ (l ++ l0 ++ l1 ++ l2 ++ l3))|].
    - intros o R H. apply all_call_sub; auto.
    - rewrite !downs_app, D, D0, D1, D2, D3. reflexivity.
    - rewrite !acks_in_app, A, A0, A1, A2, A3. reflexivity.
    - intros l4 r4 H. rewrite !app_assoc in *. exact H.
  Qed.
  Lemma release_answered g h cid : all_exec P Q (release g h cid) (answered cid).
  Proof.
    unfold release.
    quiet_step; [apply sil_open_connection|].
    quiet_step; [apply sil_conn_state|].
    quiet_step; [apply sil_get_subs|].
    quiet_step; [|].
    { apply only_iterP. intros. apply sil_set_sub_state. }
    quiet_step; [|].
    { apply only_iterP. intros. apply sil_save_sub. }
    eapply all_mono; [apply (all_calls_finish cid "release" (call_sub g h DRelease) _ (l ++ l0 ++ l1 ++ l2 ++ l3))|].
    - intros o R H. apply all_call_sub; auto.
    - rewrite !downs_app, D, D0, D1, D2, D3. reflexivity.
    - rewrite !acks_in_app, A, A0, A1, A2, A3. reflexivity.
    - intros l4 r4 H. rewrite !app_assoc in *. exact H.
  Qed.
  (** a connection already terminated is confirmed without asking anybody *)
  Definition answered_t (cid : string) (l : list obs) (r : option (string + err)) : Prop :=
    (r = Some (inl cid) /\ acts l = [] \/ r = Some (inl cid) /\ exists c, acts l = [ALoadConn c]) \/ answered cid l r.
  Lemma get_connection_acts cid : all_exec P Q (get_connection cid) (fun l r =>
    Forall silent l /\ forall o, r = Some (inl o) -> acts l = [] \/ exists c, acts l = [ALoadConn c]).
  Proof.
    unfold get_connection. apply all_bind, all_get; [split; [constructor|discriminate]|]. intros s _.
    destruct (aget cid (c_conns s)); [apply all_ret; (split; [constructor|]); auto; discriminate|].
    apply all_bind, all_await; [split; [constructor|discriminate]|].
    intros x _ _. split; [split; [repeat constructor|discriminate]|].
    destruct x; try (split; [repeat constructor|discriminate]).
    apply all_bind, all_get; [split; [repeat constructor|discriminate]|]. intros s' _.
    destruct (find_conn cid s').
    - apply all_bind, all_await; [split; [repeat constructor|discriminate]|].
      intros x _ _. split; [split; [repeat constructor|discriminate]|].
      destruct x; try (split; [repeat constructor|discriminate]).
      apply all_bind, all_get; [split; [repeat constructor|discriminate]|]. intros s2 _.
      apply all_bind, all_act; try (split; [repeat constructor|discriminate]).
      apply all_ret; (split; [repeat constructor|]); [discriminate|]. intros; right; cbn; eauto.
    - apply all_bind, all_await; [split; [repeat constructor|discriminate]|].
      intros x _ _. split; [split; [repeat constructor|discriminate]|].
      destruct x; try (split; [repeat constructor|discriminate]).
      apply all_throw; (split; [repeat constructor|discriminate]).
  Qed.
  Lemma conn_obj_acts o : all_exec P Q (conn_obj o) (fun l r => l = []).
  Proof.
    unfold conn_obj. apply all_bind, all_get; [auto|]. intros s _. destruct (aget o _); [apply all_ret|apply all_throw]; auto.
  Qed.
  Lemma terminate_answered g h cid : all_exec P Q (terminate g h cid) (answered_t cid).
  Proof.
    unfold terminate.
    apply all_bind. eapply all_mono; [apply get_connection_acts|]. intros l r [F H].
    destruct (silent_none l F) as [D A].
    destruct r as [[o|e]|]; [|right; apply answered_err; auto|right; apply answered_none].
    apply all_bind. eapply all_mono; [apply conn_obj_acts|]. cbn beta. intros l1 r1 ->.
    destruct r1 as [[c|e]|]; [|right; apply answered_err; rewrite app_nil_r; auto|right; apply answered_none].
    destruct (eqb (cn_l c) LTerminated).
    { apply all_ret; [right; apply answered_none|]. left. rewrite app_nil_r. destruct (H o eq_refl) as [E|E]; auto. }
    eapply all_mono with (R := fun l2 r2 => answered cid (l ++ l2) r2); [|intros l2 r2 X; right; exact X].
    quiet_step; [apply sil_conn_state|].
    quiet_step; [apply sil_get_subs|].
    eapply all_mono; [apply (all_calls_finish cid "terminate" (call_sub g h DTerminate) _ (l ++ l0 ++ l1))|].
    - intros o' R H'. apply all_call_sub; auto.
    - rewrite !downs_app, D, D0, D1. reflexivity.
    - rewrite !acks_in_app, A, A0, A1. reflexivity.
    - intros l2 r2 X. rewrite !app_assoc in *. exact X.
  Qed.
  (** the abort: never reports success unless all acknowledged *)
  Definition answered_a (cid : string) (l : list obs) (r : option (string + err)) : Prop :=
    forall x, r = Some x ->
      (acks_in l = [] /\ exists e, x = inr e) \/
      (exists a, acks_in l = [a] /\ List.length a = List.length (downs l) /\
        x = (if all_acked a then inl cid else inr (EType, ""))).
  Lemma abort_answered g h cid : all_exec P Q (reserve_abort g h cid) (answered_a cid).
  Proof.
    assert (N : forall l, answered_a cid l None) by (intros l x E; discriminate).
    assert (Er : forall l e, acks_in l = [] -> answered_a cid l (Some (inr e))) by (intros l e E x X; inversion X; left; eauto).
    unfold reserve_abort.
    apply all_bind, all_silent; [apply sil_open_connection|]. intros l [[oc|?]|] D A; auto.
    apply all_bind, all_silent; [apply sil_conn_state|]. intros l0 [[u0|?]|] D0 A0; auto; [|apply Er; rewrite acks_in_app, A, A0; auto].
    apply all_bind, all_silent; [apply sil_get_subs|]. intros l1 [[os|?]|] D1 A1; auto; [|apply Er; rewrite !acks_in_app, A, A0, A1; auto].
    apply all_bind, all_mapP_calls.
    { intros o R H. apply all_bind, all_silent; [apply sil_set_sub_state|]. intros l2 r2 D2 A2.
      destruct r2 as [[u|e]|]; try (apply H; [auto|discriminate]).
      apply all_call_sub. intros l3 r3 A3 U3. apply H; [rewrite acks_in_app, A2; auto|].
      intros u' E. unfold urns_of. rewrite downs_app, D2. apply U3; auto. }
    intros l2 r2 A2 U2. destruct r2 as [[us|e]|]; auto; [|apply Er; rewrite !acks_in_app, A, A0, A1; auto].
    apply all_bind, all_silent; [apply only_iterP; intros; apply sil_save_sub|].
    intros l3 [[u3|?]|] D3 A3; auto; [|apply Er; rewrite !acks_in_app, A, A0, A1, A2, A3; auto].
    apply all_bind, all_await_acks; auto. intros a _ L. split; auto.
    assert (X : forall x, x = (if all_acked a then inl cid else inr (EType, "")) ->
      answered_a cid (l ++ l0 ++ l1 ++ l2 ++ l3 ++ [OAns (WAcks (List.length us)) (AnsAcks a)] ++ []) (Some x)).
    { intros x -> y E. inversion E; subst y. right. exists a. rewrite !acks_in_app, A, A0, A1, A2, A3. split; [reflexivity|].
      rewrite !downs_app, D, D0, D1, D3. cbn [downs acts flat_map app]. rewrite !app_nil_r. split; auto.
      rewrite L, <- (U2 us eq_refl). apply map_length. }
    destruct (all_acked a); [apply all_ret|apply all_throw]; auto.
  Qed.
End Ops.

(** one behaviour: the state stays the same, the database works, [x] is what the
    providers answer *)
Fixpoint play {A} (s : st) (x : list ack) (p : prog A) : list obs * option (A + err) :=
  match p with
  | Ret a => ([], Some (inl a))
  | Throw e => ([], Some (inr e))
  | Get k => play s x (k s)
  | Do a k => let '(l, r) := play s x k in (OAct a :: l, r)
  | Await WDb k => let '(l, r) := play s x (k AnsOk) in (OAns WDb AnsOk :: l, r)
  | Await (WAcks n) k => if (List.length x =? n)%nat then let '(l, r) := play s x (k (AnsAcks x)) in (OAns (WAcks n) (AnsAcks x) :: l, r) else ([], None)
  | Await _ _ => ([], None)
  end.
Lemma play_exec {A} s x (p : prog A) : exec (eq s) any_answer p (fst (play s x p)) (snd (play s x p)).
Proof.
  induction p as [a|e|k IH|a k IH|w k IH]; cbn [play].
  - apply ex_ret.
  - apply ex_throw.
  - apply (ex_get _ _ _ s); auto.
  - destruct (play s x k) as [l r]. apply ex_do. exact IH.
  - destruct w; try apply ex_cut.
    + specialize (IH AnsOk). destruct (play s x (k AnsOk)) as [l r]. apply ex_await; [reflexivity|exact I|exact IH].
    + destruct (List.length x =? n)%nat eqn:E; [|apply ex_cut].
      specialize (IH (AnsAcks x)). destruct (play s x (k (AnsAcks x))) as [l r]. apply ex_await; [exact E|exact I|exact IH].
Qed.
