(** Cleaning up after a partial reservation (C45). *)
From Verif Require Import Base BaseProofs ModelLabel ModelSTP ModelAuthz ModelNRM ModelState ModelLinkVector ModelProvreg ModelAggregator SpecAggregator ProofsAggregator ProofsAggPath ProofsAggOps.
Open Scope Z_scope.

Definition no_db_errors (Q : wait -> ans -> Prop) : Prop := forall w a, Q w a -> db_ok w a.
Lemma all_own (P : st -> Prop) Q x c y (R : list obs -> option (conn + err) -> Prop) :
  op_mem x (cn_states c) = (y, None) ->
  (forall l r, Forall silent l -> (forall c', r = Some (inl c') -> c' = cn_set_states y c /\ acts l = [AWriteConn c']) ->
     (no_db_errors Q -> forall e, r <> Some (inr e)) -> R l r) ->
  all_exec P Q (own_state x c) R.
Proof.
  intros E H. unfold own_state, save_conn_val. rewrite E.
  apply all_bind, all_bind, all_await; [apply H; [constructor|discriminate|discriminate]|].
  intros z Hz Hw. split; [apply H; [repeat constructor|discriminate|discriminate]|].
  destruct z as [|e| |]; try discriminate; [|apply H; [repeat constructor|discriminate|intros N; specialize (N _ _ Hz eq_refl); discriminate]].
  apply all_bind, all_act; try (apply H; [repeat constructor|discriminate|discriminate]).
  apply all_await; [apply H; [repeat constructor|discriminate|discriminate]|].
  intros z Hz' Hw'. split; [apply H; [repeat constructor|discriminate|discriminate]|].
  destruct z as [|e| |]; try discriminate; [|apply H; [repeat constructor|discriminate|intros N; specialize (N _ _ Hz' eq_refl); discriminate]].
  apply all_ret; (apply H; [repeat constructor| |discriminate]); [discriminate|].
  intros c' Hc. inversion Hc; subst. auto.
Qed.

Lemma all_reserve_shape (P : st -> Prop) Q g h q (R : list obs -> option (string + err) -> Prop) :
  (forall l r, Forall silent l -> (forall a, r <> Some (inl a)) -> R l r) ->
  (forall l c c0 ls, Forall silent l -> In (AInsertConn c0) (acts l) -> cn_cid c = cn_cid c0 ->
     cn_states c = mkStates RChecking PReleased LCreated ->
     all_exec P Q (info <- mapP (reserve_link g h c) (number 0 ls) ;; reserve_acks g h c info) (fun l' r => R (l ++ l') r)) ->
  all_exec P Q (reserve g h q) R.
Proof.
  intros HA HB. unfold reserve. destruct (q_cid q) as [cid|].
  - apply all_bind, all_await; [apply HA; [constructor|discriminate]|].
    intros x _ _; split; [apply HA; [repeat constructor|discriminate]|].
    destruct x; try (apply HA; [repeat constructor|discriminate]).
    apply all_bind, all_get; [apply HA; [repeat constructor|discriminate]|]. intros s _.
    apply all_bind, all_await; [apply HA; [repeat constructor|discriminate]|].
    intros x _ _; split; [apply HA; [repeat constructor|discriminate]|].
    destruct x; try (apply HA; [repeat constructor|discriminate]).
    destruct (find_conn cid s); apply all_throw; (apply HA; [repeat constructor|discriminate]).
  - apply all_bind, all_await; [apply HA; [constructor|discriminate]|].
    intros x _ _; split; [apply HA; [repeat constructor|discriminate]|].
    destruct x; try (apply HA; [repeat constructor|discriminate]).
    apply all_bind, all_get; [apply HA; [repeat constructor|discriminate]|]. intros s Hs.
    apply all_bind, all_lift; try (intros; apply HA; [repeat constructor|discriminate]). intros _ _.
    apply all_bind, all_lift; try (intros; apply HA; [repeat constructor|discriminate]). intros _ _.
    apply all_bind, all_await_id; [apply HA; [repeat constructor|discriminate]|].
    intros x _ _; split; [apply HA; [repeat constructor|discriminate]|].
    destruct x; try (apply HA; [repeat constructor|discriminate]).
    set (c0 := mkConn _ _ _ _ _ _ _ _ _ _).
    assert (OI : all_exec P Q (insert_conn c0) (fun l r => Forall silent l /\ forall c', r = Some (inl c') -> In (AInsertConn c0) (acts l) /\ exists k, c' = cn_set_key k c0)).
    { unfold insert_conn.
      apply all_bind, all_await; [split; [constructor|discriminate]|].
      intros x _ _. split; [split; [repeat constructor|discriminate]|].
      destruct x; try (split; [repeat constructor|discriminate]).
      apply all_bind, all_get; [split; [repeat constructor|discriminate]|]. intros s1 _.
      destruct (_ || _); [apply all_throw; (split; [repeat constructor|discriminate])|].
      apply all_bind, all_act; try (split; [repeat constructor|discriminate]).
      apply all_bind, all_await; [split; [repeat constructor|discriminate]|].
      intros x _ _. split; [split; [repeat constructor|discriminate]|].
      destruct x; try (split; [repeat constructor|discriminate]).
      apply all_ret; (split; [repeat constructor|]); [discriminate|].
      intros c' Hc. inversion Hc; subst. split; [cbn; auto|eauto]. }
    apply all_bind. eapply all_mono; [exact OI|]. cbn beta. intros l1 r1 [F1 H1].
    assert (FA : forall x, Forall silent x -> Forall silent ([OAns WPlugin AnsOk] ++ [] ++ [] ++ [] ++ [OAns WId (AnsId id)] ++ x)).
    { intros x F. cbn. repeat constructor. auto. }
    destruct r1 as [[c1|e1]|]; try (apply HA; [apply FA, F1|discriminate]).
    destruct (H1 c1 eq_refl) as [HI [k ->]].
    apply all_bind, (all_own P Q OpReserveChecking (cn_set_key k c0) (mkStates RChecking PReleased LCreated)); [reflexivity|].
    intros l2 r2 F2 H2 _.
    assert (FB : Forall silent (l1 ++ l2)) by (apply Forall_app; auto).
    destruct r2 as [[c2|e2]|]; try (apply HA; [apply FA, FB|discriminate]).
    destruct (H2 c2 eq_refl) as [-> _].
    apply all_bind, all_get; [apply HA; [rewrite app_nil_r; apply FA, FB|discriminate]|]. intros s2 Hs2.
    apply all_bind, all_lift; try (intros; apply HA; [rewrite !app_nil_r; apply FA, FB|discriminate]). intros ls BL.
    apply all_bind, all_lift; try (intros; apply HA; [rewrite !app_nil_r; apply FA, FB|discriminate]). intros [] CP.
    eapply all_mono; [apply (HB ([OAns WPlugin AnsOk] ++ [] ++ [] ++ [] ++ [OAns WId (AnsId id)] ++ l1 ++ l2) (cn_set_states (mkStates RChecking PReleased LCreated) (cn_set_key k c0)) c0 ls)|].
    + apply FA, FB.
    + rewrite !acts_app. cbn. apply in_or_app. auto.
    + reflexivity.
    + reflexivity.
    + intros l3 r3 H3. cbn in *. rewrite <- !app_assoc in *. exact H3.
Qed.

(** the calls of 384-412 *)
Definition asked (reg : provreg) (ni : string * string) (d : nat * header * dbody) : Prop :=
  get_provider (fst ni) reg = Ok (fst (fst d)) /\ snd ni = hd_provider (snd (fst d)) /\ is_reserve (snd d).
Lemma all_reserve_calls (P : st -> Prop) Q g h c reg : (forall s, P s -> a_reg s = reg) ->
  forall ls i (R : list obs -> option (list (string * string) + err) -> Prop),
  (forall l r, acks_in l = [] -> (forall info, r = Some (inl info) -> Forall2 (asked reg) info (downs l)) -> R l r) ->
  all_exec P Q (mapP (reserve_link g h c) (number i ls)) R.
Proof.
  intros HP. induction ls as [|[src dst] ls IH]; intros i R H; cbn [number mapP].
  - apply all_ret; (apply H; [reflexivity|]); [discriminate|]. intros us E. inversion E. constructor.
  - apply all_bind. unfold reserve_link at 1. unfold new_corr, out.
    assert (H0 : forall l, acks_in l = [] -> R l None) by (intros; apply H; auto; discriminate).
    assert (H1 : forall l e, acks_in l = [] -> R l (Some (inr e))) by (intros; apply H; auto; discriminate).
    apply all_bind, all_get; [apply H0; auto|]. intros s Hs. rewrite (HP s Hs).
    apply all_bind, all_lift; try (intros; first [apply H0|apply H1]; auto). intros p Hp.
    apply all_bind, all_lift; try (intros; first [apply H0|apply H1]; auto). intros u Hu.
    apply all_bind, all_bind, all_get; [apply H0; auto|]. intros s' _.
    apply all_bind, all_act; try (apply H0; auto).
    apply all_ret; try (apply H0; auto).
    apply all_bind, all_act; try (apply H0; auto).
    apply all_bind, all_act; try (apply H0; auto).
    apply all_ret; try (apply H0; auto).
    apply all_bind, IH. intros l2 r2 A2 U2.
    destruct r2 as [[us|e]|]; try (apply H; [exact A2|discriminate]).
    apply all_ret; (apply H; [cbn; rewrite app_nil_r; exact A2|]); [discriminate|].
    intros us' E. inversion E; subst. cbn. rewrite app_nil_r. constructor; [|apply U2; reflexivity].
    repeat split; auto.
Qed.

Definition terminates (reg : provreg) (u : string) (sn : string * string) (d : nat * header * dbody) : Prop :=
  get_provider (snd sn) reg = Ok (fst (fst d)) /\ hd_provider (snd (fst d)) = u /\ snd d = DTerminate (fst sn).
Lemma all_cleanup (P : st -> Prop) Q g h u reg : (forall s, P s -> a_reg s = reg) ->
  forall acc (R : list obs -> option (unit + err) -> Prop),
  (forall l r, acks_in l = [] -> (forall x, r = Some (inl x) -> Forall2 (terminates reg u) acc (downs l)) ->
     ((forall sn, In sn acc -> exists p, get_provider (snd sn) reg = Ok p) -> forall e, r <> Some (inr e)) -> R l r) ->
  all_exec P Q (iterP (cleanup_one g h u) acc) R.
Proof.
  intros HP. induction acc as [|sn acc IH]; intros R H; cbn [iterP].
  - apply all_ret; (apply H; [reflexivity| |discriminate]); [discriminate|constructor].
  - apply all_bind. unfold cleanup_one at 1. unfold new_corr, out.
    assert (H0 : forall l, acks_in l = [] -> R l None) by (intros; apply H; auto; discriminate).
    apply all_bind, all_get; [apply H0; auto|]. intros s Hs. rewrite (HP s Hs).
    apply all_bind, all_lift; [apply H0; auto| |].
    2:{ intros e E. apply H; [auto|discriminate|]. intros X. destruct (X sn (or_introl eq_refl)) as [p Hp]. congruence. }
    intros p Hp.
    apply all_bind, all_bind, all_get; [apply H0; auto|]. intros s' _.
    apply all_bind, all_act; try (apply H0; auto).
    apply all_ret; try (apply H0; auto).
    apply all_act; try (apply H0; auto).
    apply IH. intros l2 r2 A2 U2 E2.
    apply H; [exact A2| |].
    + intros x E. cbn. constructor; [|apply (U2 x E)]. repeat split; auto.
    + intros X. apply E2. intros; apply X; cbn; auto.
Qed.

Lemma accepted_map reg l : forall info ds,
  Forall2 (asked reg) info ds -> List.length l = List.length info ->
  forall ts u, Forall2 (terminates reg u) (accepted l (map fst info)) ts ->
  terminations ts = accepted_at ds l /\ Forall (fun d => hd_provider (snd (fst d)) = u /\ exists i, snd d = DTerminate i) ts.
Proof.
  induction l as [|a l IH]; intros info ds F L ts u T.
  - cbn in T. inversion T; subst. split; [|constructor]. unfold accepted_at. destruct ds; reflexivity.
  - destruct info as [|ni info]; [discriminate|]. inversion F as [|? d ? ds' Ha Fs]; subst.
    unfold accepted in T. cbn [map combine flat_map fst snd] in T. fold (accepted l (map fst info)) in T.
    destruct a as [i|e m].
    + cbn in T. inversion T as [|? t ? ts' Ht Ts]; subst.
      destruct (IH info ds' Fs (eq_add_S _ _ L) ts' u Ts) as [E1 E2].
      destruct Ht as (P1 & P2 & P3). destruct Ha as (Q1 & Q2 & Q3). cbn in P1, P3.
      split; [|constructor; [split; eauto|auto]].
      unfold terminations, accepted_at in *. cbn. rewrite P3, E1. cbn. f_equal. f_equal. congruence.
    + apply (IH info ds' Fs (eq_add_S _ _ L) ts u) in T. exact T.
Qed.

Definition cleaned (l : list obs) (r : option (string + err)) : Prop :=
  forall a rest x, acks_in l = a :: rest -> all_acked a = false -> r = Some x ->
  exists rs ts, downs l = rs ++ ts /\ List.length rs = List.length a /\ Forall (fun d => is_reserve (snd d)) rs /\
    terminations ts = accepted_at rs a /\
    Forall (fun d => hd_provider (snd (fst d)) = last (map (fun d => hd_provider (snd (fst d))) rs) "" /\ exists i, snd d = DTerminate i) ts /\
    (exists e, x = inr e) /\
    exists as1 c c0, acts l = as1 ++ [AWriteConn c] /\ In (AInsertConn c0) as1 /\ cn_cid c = cn_cid c0 /\ st_l (cn_states c) = LTerminated.

Lemma Forall2_asked_urns reg info ds : Forall2 (asked reg) info ds -> map snd info = map (fun d => hd_provider (snd (fst d))) ds /\ Forall (fun d => is_reserve (snd d)) ds /\ List.length info = List.length ds.
Proof.
  induction 1 as [|ni d info ds (H1 & H2 & H3) F (E1 & E2 & E3)]; [cbn; auto|]. cbn. rewrite H2, E1, E3. repeat split; auto.
Qed.
Lemma accepted_known reg l : forall info ds, Forall2 (asked reg) info ds -> forall sn, In sn (accepted l (map fst info)) -> exists p, get_provider (snd sn) reg = Ok p.
Proof.
  induction l as [|a l IH]; intros info ds F sn H; [contradiction|].
  destruct info as [|ni info]; [contradiction|]. inversion F as [|? d ? ds' Ha Fs]; subst.
  unfold accepted in H. cbn [map combine flat_map fst snd] in H. apply in_app_or in H. destruct H as [H|H]; [|eapply IH; eauto].
  destruct a; [|contradiction]. destruct H as [<-|[]]. destruct Ha as (H1 & _). cbn. eauto.
Qed.

Lemma reserve_cleaned (P : st -> Prop) Q g h q reg : (forall s, P s -> a_reg s = reg) -> no_db_errors Q -> all_exec P Q (reserve g h q) cleaned.
Proof.
  intros HP HQ. apply all_reserve_shape.
  { intros l r F _ a rest x E. destruct (silent_none l F) as [_ A]. congruence. }
  intros l0 c c0 ls F0 HI EC ES. destruct (silent_none l0 F0) as [D0 A0].
  assert (N : forall l, cleaned l None) by (intros l a rest x _ _ E; discriminate).
  assert (NA : forall l r, acks_in l = [] -> cleaned l r) by (intros l r E a rest x E2; congruence).
  apply all_bind, (all_reserve_calls P Q g h c reg HP). intros l1 r1 A1 H1.
  destruct r1 as [[info|e]|]; try (apply NA; rewrite acks_in_app, A0, A1; reflexivity).
  specialize (H1 info eq_refl). destruct (Forall2_asked_urns _ _ _ H1) as (U1 & U2 & U3).
  unfold reserve_acks. apply all_bind, all_await_acks; [apply NA; rewrite !acks_in_app, A0, A1; reflexivity|].
  intros a _ La. split; [apply N|].
  destruct (all_acked a) eqn:AA.
  { apply all_ret; [apply N|]. intros a' rest x E AA' _. rewrite !acks_in_app, A0, A1 in E. cbn in E. inversion E; subst. congruence. }
  apply all_bind, (all_own P Q OpTerminating c (mkStates RChecking PReleased LTerminating)); [rewrite ES; reflexivity|].
  intros l2 r2 F2 H2 E2. destruct (silent_none l2 F2) as [D2 A2].
  destruct r2 as [[c2|e]|]; [|exfalso; exact (E2 HQ e eq_refl)|apply N].
  destruct (H2 c2 eq_refl) as [-> W2].
  apply all_bind, (all_cleanup P Q g h _ reg HP). intros l3 r3 A3 T3 E3.
  destruct r3 as [[[]|e]|]; [|exfalso; refine (E3 _ e eq_refl); intros sn Hsn; eapply accepted_known; eauto|apply N].
  specialize (T3 tt eq_refl).
  apply all_bind, all_await_acks; [apply N|]. intros b _ Lb. split; [apply N|].
  apply all_bind, (all_own P Q OpTerminated _ (mkStates RChecking PReleased LTerminated)); [reflexivity|].
  intros l4 r4 F4 H4 E4. destruct (silent_none l4 F4) as [D4 A4].
  destruct r4 as [[c4|e]|]; [|exfalso; exact (E4 HQ e eq_refl)|apply N].
  destruct (H4 c4 eq_refl) as [-> W4].
  apply all_throw; [apply N|]. intros a' rest x E AA' Ex.
  rewrite !acks_in_app, A0, A1 in E. cbn in E. inversion E; subst a'. clear E.
  inversion Ex; subst x.
  destruct (accepted_map reg a info (downs l1) H1 La _ _ T3) as [TE TF].
  exists (downs l1), (downs l3). repeat split.
  - rewrite !downs_app, D0, D2, D4. cbn [downs acts flat_map app]. rewrite !app_nil_r. reflexivity.
  - congruence.
  - auto.
  - auto.
  - rewrite <- U1. exact TF.
  - eauto.
  - exists (acts l0 ++ acts l1 ++ acts l2 ++ acts l3), (cn_set_states (mkStates RChecking PReleased LTerminated) (cn_set_states (mkStates RChecking PReleased LTerminating) c)), c0.
    rewrite !acts_app, W4. cbn [acts flat_map app]. rewrite ?app_nil_r, <- ?app_assoc. repeat split; auto. apply in_or_app; auto.
Qed.
