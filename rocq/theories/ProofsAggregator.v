(** Behaviours of single methods of the aggregator: C39, C40, C44, C45. *)
From Verif Require Import Base BaseProofs ModelLabel ModelSTP ModelAuthz ModelNRM ModelState ModelLinkVector ModelProvreg ModelAggregator SpecAggregator.
Open Scope Z_scope.

(** * All behaviours of a program *)
Inductive all_exec {A} P Q (p : prog A) (R : list obs -> option (A + err) -> Prop) : Prop :=
| AllExec (H : forall l r, exec P Q p l r -> R l r).
Lemma all_use {A} P Q (p : prog A) R : all_exec P Q p R -> forall l r, exec P Q p l r -> R l r.
Proof. intros [H]. exact H. Qed.

Section Rules.
  Context (P : st -> Prop) (Q : wait -> ans -> Prop).
  Lemma exec_bind {A B} (p : prog A) (f : A -> prog B) l r :
    exec P Q (bind p f) l r ->
    (exists a l1 l2, l = l1 ++ l2 /\ exec P Q p l1 (Some (inl a)) /\ exec P Q (f a) l2 r) \/
    (exists e, r = Some (inr e) /\ exec P Q p l (Some (inr e))) \/
    (r = None /\ exec P Q p l None).
  Proof.
    revert l r; induction p as [a|e|k IH|a k IH|w k IH]; intros l r H; cbn in H.
    - left. exists a, [], l. repeat split; auto. constructor.
    - inversion H; subst; [right; right; split; [auto|constructor]|].
      right; left. exists e. split; [auto|constructor].
    - inversion H as [| | |k0 s l0 r0 Hs He| |]; subst; [right; right; split; [auto|constructor]|].
      apply IH in He. destruct He as [(a & l1 & l2 & -> & H4 & H5)|[(e & -> & H4)|(-> & H4)]].
      + left. exists a, l1, l2. repeat split; auto. econstructor; eauto.
      + right; left. exists e. split; auto. econstructor; eauto.
      + right; right. split; auto. econstructor; eauto.
    - inversion H as [| | | |a0 k0 l0 r0 He|]; subst; [right; right; split; [auto|constructor]|].
      apply IH in He. destruct He as [(b & l1 & l2 & -> & H4 & H5)|[(e & -> & H4)|(-> & H4)]].
      + left. exists b, (OAct a :: l1), l2. repeat split; auto. constructor; auto.
      + right; left. exists e. split; auto. constructor; auto.
      + right; right. split; auto. constructor; auto.
    - inversion H as [| | | | |w0 k0 x l0 r0 Hw Hq He]; subst; [right; right; split; [auto|constructor]|].
      apply IH in He. destruct He as [(b & l1 & l2 & -> & H6 & H7)|[(e & -> & H6)|(-> & H6)]].
      + left. exists b, (OAns w x :: l1), l2. repeat split; auto. constructor; auto.
      + right; left. exists e. split; auto. constructor; auto.
      + right; right. split; auto. constructor; auto.
  Qed.

  Lemma all_bind {A B} (p : prog A) (f : A -> prog B) R :
    all_exec P Q p (fun l r => match r with
      | Some (inl a) => all_exec P Q (f a) (fun l2 r2 => R (l ++ l2) r2)
      | Some (inr e) => R l (Some (inr e))
      | None => R l None end) ->
    all_exec P Q (bind p f) R.
  Proof.
    intros [H]. constructor. intros l r E. apply exec_bind in E.
    destruct E as [(a & l1 & l2 & -> & E1 & E2)|[(e & -> & E1)|(-> & E1)]]; apply H in E1; auto.
    apply (all_use _ _ _ _ E1); auto.
  Qed.
  Lemma all_mono {A} (p : prog A) (R R' : list obs -> option (A + err) -> Prop) :
    all_exec P Q p R -> (forall l r, R l r -> R' l r) -> all_exec P Q p R'.
  Proof. intros [H1] H2. constructor. intros l r E. apply H2, H1, E. Qed.

  Lemma all_ret {A} (a : A) (R : list obs -> option (A + err) -> Prop) : R [] None -> R [] (Some (inl a)) -> all_exec P Q (Ret a) R.
  Proof. intros H1 H2. constructor. intros l r E. inversion E; subst; auto. Qed.
  Lemma all_throw {A} e (R : list obs -> option (A + err) -> Prop) : R [] None -> R [] (Some (inr e)) -> all_exec P Q (@Throw A e) R.
  Proof. intros H1 H2. constructor. intros l r E. inversion E; subst; auto. Qed.
  Lemma all_get (R : list obs -> option (st + err) -> Prop) : R [] None -> (forall s, P s -> R [] (Some (inl s))) -> all_exec P Q get R.
  Proof. intros H1 H2. constructor. intros l r E. inversion E as [| | |k0 s l0 r0 Hs He| |]; subst; auto. inversion He; subst; auto. Qed.
  Lemma all_act a (R : list obs -> option (unit + err) -> Prop) :
    R [] None -> R [OAct a] None -> R [OAct a] (Some (inl tt)) -> all_exec P Q (act1 a) R.
  Proof. intros H1 H2 H3. constructor. intros l r E. inversion E as [| | | |a0 k0 l0 r0 He|]; subst; auto. inversion He; subst; auto. Qed.
  Lemma all_lift {A} (x : result A) (R : list obs -> option (A + err) -> Prop) :
    R [] None -> (forall a, x = Ok a -> R [] (Some (inl a))) -> (forall e, x = Err e -> R [] (Some (inr (e, "")))) -> all_exec P Q (lift x) R.
  Proof. intros H1 H2 H3. destruct x; [apply all_ret|apply all_throw]; auto. Qed.
  Lemma all_await w (R : list obs -> option (unit + err) -> Prop) :
    R [] None -> (forall x, Q w x -> answers w x = true ->
       R [OAns w x] None /\ R [OAns w x] (Some (match x with AnsOk => inl tt | AnsFail e => inr (e, "") | _ => inr (EFuel, "") end))) ->
    all_exec P Q (await w) R.
  Proof.
    intros H1 H2. constructor. intros l r E. inversion E as [| | | | |w0 k0 x l0 r0 Hw Hq He]; subst; auto.
    destruct (H2 x Hq Hw) as [A B].
    destruct x; inversion He; subst; auto.
  Qed.
  Lemma all_await_id (R : list obs -> option (string + err) -> Prop) :
    R [] None -> (forall x, Q WId x -> answers WId x = true ->
       R [OAns WId x] None /\ R [OAns WId x] (Some (match x with AnsId i => inl i | AnsFail e => inr (e, "") | _ => inr (EFuel, "") end))) ->
    all_exec P Q await_id R.
  Proof.
    intros H1 H2. constructor. intros l r E. inversion E as [| | | | |w0 k0 x l0 r0 Hw Hq He]; subst; auto.
    destruct (H2 x Hq Hw) as [A B].
    destruct x; inversion He; subst; auto.
  Qed.
  Lemma all_await_acks n (R : list obs -> option (list ack + err) -> Prop) :
    R [] None -> (forall a, Q (WAcks n) (AnsAcks a) -> List.length a = n ->
       R [OAns (WAcks n) (AnsAcks a)] None /\ R [OAns (WAcks n) (AnsAcks a)] (Some (inl a))) ->
    all_exec P Q (await_acks n) R.
  Proof.
    intros H1 H2. constructor. intros l r E. inversion E as [| | | | |w0 k0 x l0 r0 Hw Hq He]; subst; auto.
    destruct x; cbn in Hw; try discriminate. apply Nat.eqb_eq in Hw.
    destruct (H2 _ Hq Hw) as [A B].
    inversion He; subst; auto.
  Qed.

  (** ** Only observations of a kind *)
  Definition only {A} (T : obs -> Prop) (p : prog A) : Prop := all_exec P Q p (fun l _ => Forall T l).
  Lemma only_bind {A B} T (p : prog A) (f : A -> prog B) : only T p -> (forall a, only T (f a)) -> only T (bind p f).
  Proof.
    intros H1 H2. apply all_bind. eapply all_mono; [exact H1|]. intros l [[a|e]|] F; auto.
    eapply all_mono; [apply H2|]. intros; apply Forall_app; auto.
  Qed.
  Lemma only_ret {A} T (a : A) : only T (Ret a).
  Proof. apply all_ret; constructor. Qed.
  Lemma only_throw {A} T e : only T (@Throw A e).
  Proof. apply all_throw; constructor. Qed.
  Lemma only_get T : only T get.
  Proof. apply all_get; constructor. Qed.
  Lemma only_lift {A} T (x : result A) : only T (lift x).
  Proof. destruct x; [apply only_ret|apply only_throw]. Qed.
  Lemma only_act (T : obs -> Prop) a : T (OAct a) -> only T (act1 a).
  Proof. intros. apply all_act; repeat constructor; auto. Qed.
  Lemma only_await (T : obs -> Prop) w : (forall x, T (OAns w x)) -> only T (await w).
  Proof. intros. apply all_await; [constructor|]. intros; split; repeat constructor; auto. Qed.
  Lemma only_await_id (T : obs -> Prop) : (forall x, T (OAns WId x)) -> only T await_id.
  Proof. intros. apply all_await_id; [constructor|]. intros; split; repeat constructor; auto. Qed.
  Lemma only_await_acks (T : obs -> Prop) n : (forall x, T (OAns (WAcks n) x)) -> only T (await_acks n).
  Proof. intros. apply all_await_acks; [constructor|]. intros; split; repeat constructor; auto. Qed.
  Lemma only_mapP {A B} T (f : A -> prog B) l : (forall x, In x l -> only T (f x)) -> only T (mapP f l).
  Proof.
    induction l as [|x r IH]; intros H; cbn; [apply only_ret|].
    apply only_bind; [apply H; cbn; auto|]. intros y. apply only_bind; [apply IH; intros; apply H; cbn; auto|]. intros; apply only_ret.
  Qed.
  Lemma only_iterP {A} T (f : A -> prog unit) l : (forall x, In x l -> only T (f x)) -> only T (iterP f l).
  Proof.
    induction l as [|x r IH]; intros H; cbn; [apply only_ret|].
    apply only_bind; [apply H; cbn; auto|]. intros y. apply IH; intros; apply H; cbn; auto.
  Qed.
End Rules.

Ltac only_step :=
  lazymatch goal with
  | |- forall _, _ => intro
  | |- only _ _ _ (bind _ _) => apply only_bind
  | |- only _ _ _ get => apply only_get
  | |- only _ _ _ (lift _) => apply only_lift
  | |- only _ _ _ (Ret _) => apply only_ret
  | |- only _ _ _ (Throw _) => apply only_throw
  | |- only _ _ _ (throw _) => apply only_throw
  | |- only _ _ _ (act1 _) => apply only_act; cbn; auto
  | |- only _ _ _ (await _) => apply only_await; cbn; auto
  | |- only _ _ _ await_id => apply only_await_id; cbn; auto
  | |- only _ _ _ (await_acks _) => apply only_await_acks; cbn; auto
  | |- only _ _ _ (mapP _ _) => apply only_mapP
  | |- only _ _ _ (iterP _ _) => apply only_iterP
  end.

Lemma acts_app l1 l2 : acts (l1 ++ l2) = acts l1 ++ acts l2.
Proof. apply flat_map_app. Qed.
Lemma downs_app l1 l2 : downs (l1 ++ l2) = downs l1 ++ downs l2.
Proof. unfold downs. rewrite acts_app. apply flat_map_app. Qed.
Lemma acks_in_app l1 l2 : acks_in (l1 ++ l2) = acks_in l1 ++ acks_in l2.
Proof. apply flat_map_app. Qed.

(** * C39 *)
Lemma policy_check_spec g locals h q : against_policy g locals h q -> exists e, policy_check g locals h q = Err e.
Proof.
  intros H. unfold policy_check.
  destruct (pol_trace g && _) eqn:E1; [eauto|].
  destruct (pol_user g && _) eqn:E2; [eauto|].
  destruct H as [[H1 H2]|[[H1 H2]|(H1 & H2 & H3)]].
  - rewrite H1 in E1. destruct H2 as [H2|H2]; rewrite H2 in E1; discriminate.
  - rewrite H1 in E2. cbn in E2. apply negb_false_iff, existsb_exists in E2. destruct E2 as (a & Ha & Et).
    apply (proj1 (eqb_true (sa_type a) "user")) in Et. exfalso. exact (H2 a Ha Et).
  - rewrite H1. cbn.
    destruct (mem (s_network (q_src q)) locals) eqn:M1; [apply mem_In in M1; tauto|].
    destruct (mem (s_network (q_dst q)) locals) eqn:M2; [apply mem_In in M2; tauto|].
    cbn. eauto.
Qed.

Definition quiet (o : obs) : Prop := match o with OAct _ => False | OAns _ _ => True end.
Lemma quiet_acts l : Forall quiet l -> acts l = [].
Proof. induction 1 as [|[a|w x] l H _ IH]; cbn; auto. contradiction. Qed.

Lemma c39_policy g locals h q (P : st -> Prop) Q l r :
  against_policy g locals h q -> (forall s, P s -> lv_local (a_rv s) = locals) ->
  exec P Q (reserve g h q) l r -> acts l = [] /\ forall a, r <> Some (inl a).
Proof.
  intros HA HP. revert l r.
  apply (all_use P Q (reserve g h q) (fun l r => acts l = [] /\ forall a, r <> Some (inl a))).
  unfold reserve. destruct (q_cid q) as [cid|].
  - apply all_bind, all_await; [split; [auto|discriminate]|].
    intros x _ _; split; [split; [auto|discriminate]|].
    destruct x; try (split; [auto|discriminate]).
    apply all_bind, all_get; [split; [auto|discriminate]|]. intros s _.
    apply all_bind, all_await; [split; [auto|discriminate]|].
    intros x _ _; split; [split; [auto|discriminate]|].
    destruct x; try (split; [auto|discriminate]).
    destruct (find_conn cid s); apply all_throw; split; auto; discriminate.
  - apply all_bind, all_await; [split; [auto|discriminate]|].
    intros x _ _; split; [split; [auto|discriminate]|].
    destruct x; try (split; [auto|discriminate]).
    apply all_bind, all_get; [split; [auto|discriminate]|]. intros s Hs.
    rewrite (HP s Hs).
    apply policy_check_spec in HA. destruct HA as [e He]. rewrite He. cbn.
    apply all_throw; split; auto; discriminate.
Qed.

(** the trace sent on *)
Definition trace_ok (g : cfg) (h : header) (c : conn) (o : obs) : Prop :=
  match o with
  | OAct (AOut (ODown p hd (DReserve _ _ _ _ _ _))) => hd_trace hd = Some (extended_trace g h (cn_cid c)) /\ hd_sas hd = hd_sas h
  | _ => True
  end.
Definition no_reserve (o : obs) : Prop := match o with OAct (AOut (ODown _ _ (DReserve _ _ _ _ _ _))) => False | _ => True end.

Lemma only_reserve_link P Q g h c ci : only P Q (trace_ok g h c) (reserve_link g h c ci).
Proof.
  destruct ci as [idx [src dst]]. unfold reserve_link, new_corr, out.
  repeat only_step.
Qed.
Lemma only_save_conn_val P Q (T : obs -> Prop) c : (forall a, T (OAns WDb a)) -> T (OAct (AWriteConn c)) -> only P Q T (save_conn_val c).
Proof.
  intros H1 H2. unfold save_conn_val.
  repeat only_step.
Qed.
Lemma only_own_state P Q (T : obs -> Prop) x c : (forall a, T (OAns WDb a)) -> (forall c, T (OAct (AWriteConn c))) -> only P Q T (own_state x c).
Proof.
  intros H1 H2. unfold own_state. destruct (op_mem x (cn_states c)) as [y [e|]]; [apply only_throw|].
  apply only_bind; [apply only_save_conn_val; auto|]. intros; apply only_ret.
Qed.
Lemma only_cleanup_one P Q g h u sn (T : obs -> Prop) :
  (forall p hd i, T (OAct (AOut (ODown p hd (DTerminate i))))) -> T (OAct ACorr) -> only P Q T (cleanup_one g h u sn).
Proof.
  intros H1 H2. unfold cleanup_one, new_corr, out.
  repeat only_step.
Qed.
Lemma only_reserve_acks P Q g h c info : only P Q no_reserve (reserve_acks g h c info).
Proof.
  unfold reserve_acks. apply only_bind; [apply only_await_acks; intros; exact I|]. intros l.
  destruct (all_acked l); [apply only_ret|].
  apply only_bind; [apply only_own_state; intros; exact I|]. intros c'.
  apply only_bind; [apply only_iterP; intros; apply only_cleanup_one; intros; exact I|]. intros _.
  apply only_bind; [apply only_await_acks; intros; exact I|]. intros _.
  apply only_bind; [apply only_own_state; intros; exact I|]. intros _.
  apply only_throw.
Qed.

(** what the private object of [reserve] is after each step *)
Lemma all_own_state P Q x c (R : list obs -> option (conn + err) -> Prop) :
  (forall l r, Forall (fun o => match o with OAns WDb _ => True | OAct (AWriteConn c') => cn_cid c' = cn_cid c /\ cn_key c' = cn_key c | _ => False end) l ->
     (forall c', r = Some (inl c') -> cn_cid c' = cn_cid c /\ cn_key c' = cn_key c) -> R l r) ->
  all_exec P Q (own_state x c) R.
Proof.
  intros H. constructor. intros l r E. apply H.
  - revert l r E. unfold own_state. destruct (op_mem x (cn_states c)) as [y [e|]].
    { intros l r E. inversion E; constructor. }
    intros l r E.
    assert (O : only P Q (fun o => match o with OAns WDb _ => True | OAct (AWriteConn c') => cn_cid c' = cn_cid c /\ cn_key c' = cn_key c | _ => False end)
              (save_conn_val (cn_set_states y c) ;;; Ret (cn_set_states y c))).
    { apply only_bind; [apply only_save_conn_val; cbn; auto|]. intros; apply only_ret. }
    exact (all_use _ _ _ _ O l r E).
  - unfold own_state in E. destruct (op_mem x (cn_states c)) as [y [e|]]; [inversion E; discriminate|].
    apply exec_bind in E. destruct E as [(u & l1 & l2 & -> & E1 & E2)|[(e & -> & E1)|(-> & E1)]]; try discriminate.
    inversion E2; subst; intros c' Hc; inversion Hc; subst; cbn; auto.
Qed.

Lemma all_insert_conn P Q c (R : list obs -> option (conn + err) -> Prop) :
  (forall l r, Forall no_reserve l ->
     (forall c', r = Some (inl c') -> In (OAct (AInsertConn c)) l /\ exists k, c' = cn_set_key k c) -> R l r) ->
  all_exec P Q (insert_conn c) R.
Proof.
  intros H. unfold insert_conn.
  apply all_bind, all_await; [apply H; [constructor|discriminate]|].
  intros x _ _. split; [apply H; [repeat constructor|discriminate]|].
  destruct x; try (apply H; [repeat constructor|discriminate]).
  apply all_bind, all_get; [apply H; [repeat constructor|discriminate]|]. intros s _.
  destruct (_ || _); [apply all_throw; (apply H; [repeat constructor|discriminate])|].
  apply all_bind, all_act; try (apply H; [repeat constructor|discriminate]).
  apply all_bind, all_await; [apply H; [repeat constructor|discriminate]|].
  intros x _ _. split; [apply H; [repeat constructor|discriminate]|].
  destruct x; try (apply H; [repeat constructor|discriminate]).
  apply all_ret; (apply H; [repeat constructor|]); [discriminate|].
  intros c' Hc. inversion Hc; subst. split; [cbn; auto|eauto].
Qed.

Lemma Forall_imp {A} (T U : A -> Prop) l : (forall x, T x -> U x) -> Forall T l -> Forall U l.
Proof. intros H F. eapply Forall_impl; eauto. Qed.

Definition trace_claim (g : cfg) (h : header) (l : list obs) : Prop :=
  Forall no_reserve l \/ exists c, In (OAct (AInsertConn c)) l /\ Forall (trace_ok g h c) l.
Lemma no_reserve_trace_ok g h c o : no_reserve o -> trace_ok g h c o.
Proof. destruct o as [[]|]; cbn; auto. destruct x; cbn; auto. destruct b; cbn; tauto. Qed.

Lemma c39_trace_claim P Q g h q : all_exec P Q (reserve g h q) (fun l _ => trace_claim g h l).
Proof.
  assert (W : forall A (p : prog A), only P Q no_reserve p -> all_exec P Q p (fun l _ => trace_claim g h l)).
  { intros A p O. eapply all_mono; [exact O|]. left; auto. }
  unfold reserve. destruct (q_cid q) as [cid|].
  - apply W. repeat only_step. destruct (find_conn cid _); repeat only_step.
  - apply all_bind, all_await; [left; constructor|].
    intros x _ _; split; [left; repeat constructor|]. destruct x; try (left; repeat constructor).
    apply all_bind, all_get; [left; repeat constructor|]. intros s _.
    apply all_bind, all_lift; [left; repeat constructor| |left; repeat constructor]. intros _ _.
    apply all_bind, all_lift; [left; repeat constructor| |left; repeat constructor]. intros _ _.
    apply all_bind, all_await_id; [left; repeat constructor|].
    intros x _ _; split; [left; repeat constructor|]. destruct x; try (left; repeat constructor).
    apply all_bind, all_insert_conn. intros l1 r1 F1 H1.
    assert (N1 : Forall no_reserve ([OAns WPlugin AnsOk] ++ [] ++ [] ++ [] ++ [OAns WId (AnsId id)] ++ l1)).
    { cbn. repeat constructor. auto. }
    destruct r1 as [[c1|e]|]; try (left; exact N1).
    destruct (H1 c1 eq_refl) as [HI [k ->]].
    set (c0 := mkConn _ _ _ _ _ _ _ _ _ _) in *.
    match goal with |- all_exec _ _ ?p _ => assert (O : only P Q (trace_ok g h c0) p) end.
    { apply all_bind, all_own_state. intros l r F HC.
      assert (F' : Forall (trace_ok g h c0) l) by (eapply Forall_imp; [|exact F]; intros [[]|[] ?]; cbn; tauto).
      destruct r as [[c2|e]|]; auto. destruct (HC c2 eq_refl) as [EC _].
      eapply all_mono with (R := fun l _ => Forall (trace_ok g h c0) l); [|intros; apply Forall_app; auto].
      change (only P Q (trace_ok g h c0) (s0 <- get ;;
        links <- lift (build_links g (lv_local (a_rv s)) (a_rv s0) (q_src q) (q_dst q)) ;;
        lift (check_providers (lv_local (a_rv s)) (a_reg s0) links) ;;;
        info <- mapP (reserve_link g h c2) (number 0 links) ;;
        reserve_acks g h c2 info)).
      repeat only_step.
      - eapply all_mono; [apply only_reserve_link|]. intros l0 r0 F0. eapply Forall_imp; [|exact F0].
        intros [[]|]; cbn; auto. destruct x0; cbn; auto. destruct b; cbn; auto. change (cn_cid (cn_set_key k c0)) with (cn_cid c0) in EC. rewrite EC. auto.
      - eapply all_mono; [apply only_reserve_acks|]. intros l0 r0 F0. eapply Forall_imp; [|exact F0]. apply no_reserve_trace_ok. }
    eapply all_mono; [exact O|]. intros l2 r2 F2. right. exists c0. split.
    + rewrite !in_app_iff. auto 10.
    + rewrite !app_assoc in *. apply Forall_app. split; auto. eapply Forall_imp; [apply no_reserve_trace_ok|]. exact N1.
Qed.
