(** Proofs about the ids of connections. *)
From Verif Require Import Base BaseProofs ModelRest ModelPlugins ModelConnId ModelLabel ModelSTP ModelAuthz ModelNRM ModelState ModelLinkVector ModelProvreg ModelAggregator
  SpecAggregator ProofsAggregator SpecAggInv ProofsAggInv ProofsAggTab ProofsAggAct ProofsAggHelp ProofsAggRun ProofsAggRun2 SpecConnId.
Open Scope Z_scope.

Lemma each_app P a b : each P (a +++ b) <-> each P a /\ each P b.
Proof. induction a as [|c a IH]; cbn; [tauto|]. change (a ++ b)%string with (a +++ b) in *. rewrite IH. tauto. Qed.
Lemma each_imp (P Q : ascii -> Prop) s : (forall c, P c -> Q c) -> each P s -> each Q s.
Proof. intros H. induction s as [|c s IH]; cbn; [auto|]. intros [A B]. auto. Qed.

Lemma drawn_one k : (k < 16)%nat -> exists c, drawn_digit k = String c "" /\ hex c.
Proof. intros L. do 16 (destruct k as [|k]; [eexists; split; [reflexivity|unfold hex; vm_compute; intuition discriminate]|]). lia. Qed.
Lemma drawn_inj k k' : (k < 16)%nat -> (k' < 16)%nat -> drawn_digit k = drawn_digit k' -> k = k'.
Proof.
  intros L L' E. do 16 (destruct k as [|k]; [do 16 (destruct k' as [|k']; [first [reflexivity|discriminate E]|]); lia|]). lia.
Qed.
Lemma hex_drawn c : hex c -> exists k, (k < 16)%nat /\ drawn_digit k = String c "".
Proof.
  intros H. unfold hex in H. rewrite <- (ascii_nat_embedding c). remember (nat_of_ascii c) as n eqn:E. clear E c.
  assert (n = 48 \/ n = 49 \/ n = 50 \/ n = 51 \/ n = 52 \/ n = 53 \/ n = 54 \/ n = 55 \/ n = 56 \/ n = 57 \/ n = 97 \/ n = 98 \/ n = 99 \/ n = 100 \/ n = 101 \/ n = 102)%nat as C by lia.
  destruct C as [->|[->|[->|[->|[->|[->|[->|[->|[->|[->|[->|[->|[->|[->|[->| ->]]]]]]]]]]]]]]];
    [exists 0%nat|exists 1%nat|exists 2%nat|exists 3%nat|exists 4%nat|exists 5%nat|exists 6%nat|exists 7%nat|exists 8%nat|exists 9%nat|exists 10%nat|exists 11%nat|exists 12%nat|exists 13%nat|exists 14%nat|exists 15%nat];
    (split; [lia|reflexivity]).
Qed.
Lemma join_cons x l : join "" (x :: l) = x +++ join "" l.
Proof. destruct l as [|y l]; [cbn; symmetry; apply append_nil_r|reflexivity]. Qed.
Lemma drawn_text l : Forall (fun k => (k < 16)%nat) l -> String.length (join "" (map drawn_digit l)) = List.length l /\ each hex (join "" (map drawn_digit l)).
Proof.
  intros F. induction F as [|k l L F [IH1 IH2]]; [split; [reflexivity|exact I]|]. cbn [map]. rewrite join_cons.
  destruct (drawn_one k L) as (c & -> & Hc). cbn. split; [f_equal; exact IH1|split; [exact Hc|exact IH2]].
Qed.
Lemma drawn_text_inj l : forall l', Forall (fun k => (k < 16)%nat) l -> Forall (fun k => (k < 16)%nat) l' ->
  join "" (map drawn_digit l) = join "" (map drawn_digit l') -> l = l'.
Proof.
  induction l as [|k l IH]; intros l' F F' E; inversion F as [|? ? L Fr]; inversion F' as [|? ? L' Fr']; subst; cbn [map] in E; try reflexivity.
  - rewrite join_cons in E. destruct (drawn_one _ L') as (c & Ec & _). rewrite Ec in E. discriminate.
  - rewrite join_cons in E. destruct (drawn_one _ L) as (c & Ec & _). rewrite Ec in E. discriminate.
  - rewrite !join_cons in E. destruct (drawn_one _ L) as (c & Ec & _). destruct (drawn_one _ L') as (c' & Ec' & _). rewrite Ec, Ec' in E. cbn in E. injection E as Eh Et.
    f_equal; [apply drawn_inj; auto; congruence|apply IH; auto].
Qed.
Lemma hex_text s : each hex s -> exists l, Forall (fun k => (k < 16)%nat) l /\ List.length l = String.length s /\ join "" (map drawn_digit l) = s.
Proof.
  induction s as [|c s IH]; [exists []; repeat split; constructor|]. intros [Hc Hs]. destruct (IH Hs) as (l & F & Ll & E). destruct (hex_drawn c Hc) as (k & L & Ek).
  exists (k :: l). split; [constructor; auto|]. split; [cbn; f_equal; exact Ll|]. cbn [map]. rewrite join_cons, Ek, E. reflexivity.
Qed.
Lemma hex_host c : hex c -> host_char c.
Proof. unfold hex, host_char. cbv zeta. lia. Qed.
Lemma upper_host s : each host_char s -> each host_char (upper s).
Proof.
  induction s as [|c s IH]; cbn [each upper]; [auto|]. intros [Hc Hs]. split; [|auto]. unfold upper_char. cbv zeta.
  destruct ((97 <=? Z.of_nat (nat_of_ascii c)) && (Z.of_nat (nat_of_ascii c) <=? 122)) eqn:E; [|exact Hc].
  apply andb_true_iff in E. destruct E as [E1 E2]. apply Z.leb_le in E1. apply Z.leb_le in E2.
  unfold host_char. cbv zeta. rewrite nat_ascii_embedding by lia. lia.
Qed.
Lemma stake_each P n : forall s, each P s -> each P (stake n s).
Proof. induction n as [|n IH]; intros [|c s]; cbn; auto. intros [A B]. split; auto. Qed.

(** * Stored connections *)
Lemma find_conn_taken cid s c : In c (map snd (t_conns s)) -> cn_cid c = cid -> exists c', find_conn cid s = Some c'.
Proof.
  intros H E. unfold find_conn. destruct (find _ (map snd (t_conns s))) as [c'|] eqn:F; [eauto|].
  exfalso. pose proof (find_none _ _ F c H) as N. cbn in N. rewrite E, eqb_refl in N. discriminate.
Qed.

(** * The id of a reservation *)
Section Given.
  Context (P : st -> Prop) (Q : wait -> ans -> Prop) (g : cfg) (h : header) (q : areq).
  Definition rows_of (i : string) (o : obs) : Prop := match o with OAct (AInsertConn c) => cn_cid c = i /\ made_for c h q | _ => True end.
  Lemma only_weak {A} (T T' : obs -> Prop) (p : prog A) : (forall o, T o -> T' o) -> only P Q T p -> only P Q T' p.
  Proof. intros H1 H2. eapply all_mono; [exact H2|]. intros l r F. eapply Forall_imp; [|exact F]. exact H1. Qed.
  Lemma rows_own i x c : only P Q (rows_of i) (own_state x c).
  Proof. apply all_own_state. intros l r F _. eapply Forall_imp; [|exact F]. intros [[]|[] ?]; cbn; tauto. Qed.
  Lemma rows_link i c ci : only P Q (rows_of i) (reserve_link g h c ci).
  Proof. unfold reserve_link, new_corr, out. destruct ci as [n [a b]]. repeat only_step. Qed.
  Lemma rows_acks i c info : only P Q (rows_of i) (reserve_acks g h c info).
  Proof.
    unfold reserve_acks. apply only_bind; [apply only_await_acks; intros; exact I|]. intros l. destruct (all_acked l); [apply only_ret|].
    apply only_bind; [apply rows_own|]. intros c'. apply only_bind; [apply only_iterP; intros; apply only_cleanup_one; intros; exact I|]. intros _.
    apply only_bind; [apply only_await_acks; intros; exact I|]. intros _. apply only_bind; [apply rows_own|]. intros _. apply only_throw.
  Qed.
  Lemma acks_result c info l r : exec P Q (reserve_acks g h c info) l r -> forall x, r = Some (inl x) -> x = cn_cid c.
  Proof.
    intros E x ->. unfold reserve_acks in E.
    apply exec_bind in E. destruct E as [(a & l1 & l2 & -> & E1 & E2)|[(e & E0 & E1)|(E0 & E1)]]; try discriminate.
    destruct (all_acked a); [inversion E2; reflexivity|exfalso].
    do 4 (apply exec_bind in E2; destruct E2 as [(? & ? & ? & _ & _ & E2)|[(? & ? & _)|(? & _)]]; try discriminate).
    inversion E2.
  Qed.
End Given.
Definition given (h : header) (q : areq) (l : list obs) (r : option (string + err)) : Prop :=
  (forall c, In (OAct (AInsertConn c)) l -> In (OAns WId (AnsId (cn_cid c))) l /\ made_for c h q) /\ forall x, r = Some (inl x) -> In (OAns WId (AnsId x)) l.
Lemma given_rest h q i l l' r : In (OAns WId (AnsId i)) l -> (forall c, ~ In (OAct (AInsertConn c)) l) -> Forall (rows_of h q i) l' -> (forall x, r = Some (inl x) -> x = i) -> given h q (l ++ l') r.
Proof.
  intros H N F R. split.
  - intros c Hc. apply in_app_or in Hc. destruct Hc as [Hc|Hc]; [destruct (N c Hc)|]. rewrite Forall_forall in F. destruct (F _ Hc) as [-> M].
    split; [apply in_or_app; auto|exact M].
  - intros x E. rewrite (R x E). apply in_or_app. auto.
Qed.
Lemma insert_row P Q h q i c : cn_cid c = i -> made_for c h q ->
  all_exec P Q (insert_conn c) (fun l r => Forall (rows_of h q i) l /\ forall c', r = Some (inl c') -> cn_cid c' = i).
Proof.
  intros Ei M. constructor. intros l r E. split.
  - assert (O : only P Q (rows_of h q i) (insert_conn c)).
    { unfold insert_conn. repeat only_step. destruct (_ || _); repeat only_step. }
    exact (all_use _ _ _ _ O l r E).
  - intros c' ->. unfold insert_conn in E. do 2 (apply exec_bind in E; destruct E as [(? & ? & ? & _ & _ & E)|[(? & ? & _)|(? & _)]]; try discriminate).
    destruct (_ || _); [inversion E|]. do 2 (apply exec_bind in E; destruct E as [(? & ? & ? & _ & _ & E)|[(? & ? & _)|(? & _)]]; try discriminate).
    inversion E. subst. destruct c. reflexivity.
Qed.
Lemma reserve_given P Q g h q : all_exec P Q (reserve g h q) (given h q).
Proof.
  assert (C : forall l (r : option (string + err)), (forall c, ~ In (OAct (AInsertConn c)) l) -> (forall x, r <> Some (inl x)) -> given h q l r).
  { intros l r N R. split; [intros c H; destruct (N c H)|intros x E; destruct (R x E)]. }
  Ltac cc C := apply C; [cbn; intuition discriminate|discriminate].
  unfold reserve. destruct (q_cid q) as [cid|].
  - apply all_bind, all_await; [cc C|]. intros x _ _; split; [cc C|]. destruct x; try cc C.
    apply all_bind, all_get; [cc C|]. intros s _. apply all_bind, all_await; [cc C|]. intros x _ _; split; [cc C|]. destruct x; try cc C.
    destruct (find_conn cid s); apply all_throw; cc C.
  - apply all_bind, all_await; [cc C|]. intros x _ _; split; [cc C|]. destruct x; try cc C.
    apply all_bind, all_get; [cc C|]. intros s _.
    apply all_bind, all_lift; try (intros; cc C). intros _ _. apply all_bind, all_lift; try (intros; cc C). intros _ _.
    apply all_bind, all_await_id; [cc C|]. intros x _ _; split; [cc C|]. destruct x as [|e|i|]; try cc C.
    assert (G : forall l' r, Forall (rows_of h q i) l' -> (forall x, r = Some (inl x) -> x = i) -> given h q ([OAns WPlugin AnsOk] ++ [] ++ [] ++ [] ++ [OAns WId (AnsId i)] ++ l') r).
    { intros l' r F R. apply (given_rest h q i [OAns WPlugin AnsOk; OAns WId (AnsId i)] l' r); auto; [cbn; auto|cbn; intuition discriminate]. }
    apply all_bind. eapply all_mono; [apply (insert_row P Q h q i); [reflexivity|cbn; repeat split]|].
    intros l1 [[c1|e1]|] [F1 R1]; try (apply G; [exact F1|discriminate]).
    pose proof (R1 c1 eq_refl) as Ec1.
    apply all_bind. constructor. intros l2 r2 E2.
    assert (F2 : Forall (rows_of h q i) l2) by exact (all_use _ _ _ _ (rows_own P Q h q i _ _) l2 r2 E2).
    assert (R2 : forall c', r2 = Some (inl c') -> cn_cid c' = i).
    { intros c' ->. assert (K : all_exec P Q (own_state OpReserveChecking c1) (fun _ r => forall c', r = Some (inl c') -> cn_cid c' = cn_cid c1)).
      { apply all_own_state. intros l r _ H c'' E. apply H, E. }
      rewrite (all_use _ _ _ _ K l2 _ E2 c' eq_refl). exact Ec1. }
    clear E2. assert (F12 : Forall (rows_of h q i) (l1 ++ l2)) by (apply Forall_app; auto).
    assert (G2 : forall l' r, Forall (rows_of h q i) l' -> (forall x, r = Some (inl x) -> x = i) -> given h q ([OAns WPlugin AnsOk] ++ [] ++ [] ++ [] ++ [OAns WId (AnsId i)] ++ l1 ++ l2 ++ l') r).
    { intros l' r F R. apply G; [|exact R]. rewrite app_assoc. apply Forall_app; auto. }
    destruct r2 as [[c2|e2]|]; try (rewrite <- (app_nil_r l2); apply G2; [constructor|discriminate]).
    pose proof (R2 c2 eq_refl) as Ec2.
    apply all_bind, all_get; [apply (G2 []); [constructor|discriminate]|]. intros s2 _.
    apply all_bind, all_lift; try (intros; apply (G2 []); [constructor|discriminate]). intros ls _.
    apply all_bind, all_lift; try (intros; apply (G2 []); [constructor|discriminate]). intros _ _.
    apply all_bind. eapply all_mono; [apply (only_mapP P Q (rows_of h q i)); intros ci _; apply rows_link|].
    intros l3 [[info|e3]|] F3; try (apply (G2 l3); [exact F3|discriminate]).
    constructor. intros l4 r4 E4. apply (G2 (l3 ++ l4)).
    + apply Forall_app. split; [exact F3|]. exact (all_use _ _ _ _ (rows_acks P Q g h q i c2 info) l4 r4 E4).
    + intros x Ex. rewrite <- Ec2. exact (acks_result P Q g h c2 info l4 r4 E4 x Ex).
Qed.

(** * Any interleaving *)
(** [c] is an object for a stored row *)
Definition held (c : conn) (s : st) : Prop :=
  exists r, aget (cn_key c) (t_conns s) = Some r /\ cn_cid r = cn_cid c /\ cn_requester r = cn_requester c.
Record tabI (s : st) : Prop := {
  ti_n : NoDup (akeys (t_conns s));
  ti_k : forall k c, aget k (t_conns s) = Some c -> cn_key c = k /\ (k < n_key s)%nat;
  ti_u : ids_apart s;
  ti_h : forall o c, aget o (h_conns s) = Some c -> held c s }.
Definition legal (a : act) (s : st) : Prop :=
  match a with
  | AInsertConn c => forall k r, aget k (t_conns s) = Some r -> cn_cid r <> cn_cid c
  | AWriteConn c | ALoadConn c | ASetConn _ c => held c s
  | _ => addressed s a
  end.
Lemma held_later c s s' : held c s -> keeps s s' -> held c s'.
Proof. intros (r & H1 & H2 & H3) K. destruct (K _ _ H1) as (r' & K1 & K2 & K3). exists r'. repeat split; congruence. Qed.
Lemma tabI_same s s' : t_conns s' = t_conns s -> (n_key s <= n_key s')%nat -> h_conns s' = h_conns s -> tabI s -> tabI s' /\ keeps s s'.
Proof.
  intros E1 E2 E3 [N K U H]. split; [constructor|].
  - rewrite E1. exact N.
  - intros k c Hc. rewrite E1 in Hc. destruct (K k c Hc). split; [assumption|lia].
  - unfold ids_apart. rewrite E1. exact U.
  - intros o c Ho. rewrite E3 in Ho. destruct (H o c Ho) as (r & R). exists r. rewrite E1. exact R.
  - intros k c Hc. exists c. rewrite E1. auto.
Qed.
Lemma legal_ok a s : tabI s -> legal a s -> tabI (do_act a s) /\ keeps s (do_act a s).
Proof.
  intros T L. destruct a; try (apply (tabI_same s); auto; destruct s; cbn; auto; fail).
  - (* a new row *)
    cbn in L. destruct T as [N K U H].
    assert (E1 : t_conns (do_act (AInsertConn c) s) = aset (n_key s) (cn_set_key (n_key s) c) (t_conns s)) by (destruct s; reflexivity).
    assert (E2 : n_key (do_act (AInsertConn c) s) = S (n_key s)) by (destruct s; reflexivity).
    assert (E3 : h_conns (do_act (AInsertConn c) s) = h_conns s) by (destruct s; reflexivity).
    assert (Q1 : cn_key (cn_set_key (n_key s) c) = n_key s) by (destruct c; reflexivity).
    assert (Q2 : cn_cid (cn_set_key (n_key s) c) = cn_cid c) by (destruct c; reflexivity).
    assert (KP : keeps s (do_act (AInsertConn c) s)).
    { intros k r Hr. exists r. rewrite E1, aget_aset. destruct (eqb_ok k (n_key s)) as [->|_]; [destruct (K _ _ Hr); lia|auto]. }
    split; [constructor|exact KP].
    + rewrite E1. apply NoDup_akeys_aset. exact N.
    + intros k r. rewrite E1, E2, aget_aset. destruct (eqb_ok k (n_key s)) as [->|_]; intros Hr; [injection Hr as <-; split; [exact Q1|lia]|].
      destruct (K _ _ Hr). split; [assumption|lia].
    + intros k k' r r'. rewrite E1, !aget_aset. destruct (eqb_ok k (n_key s)) as [->|_], (eqb_ok k' (n_key s)) as [->|_]; intros Hr Hr' E; try reflexivity.
      * injection Hr as <-. rewrite Q2 in E. destruct (L _ _ Hr'). congruence.
      * injection Hr' as <-. rewrite Q2 in E. destruct (L _ _ Hr). congruence.
      * eapply U; eauto.
    + intros o d Ho. rewrite E3 in Ho. eapply held_later; eauto.
  - (* a row written *)
    cbn in L. pose proof T as [N K U H]. destruct L as (r0 & L1 & L2 & L3).
    assert (E1 : t_conns (do_act (AWriteConn c) s) = aset (cn_key c) c (t_conns s)) by (destruct s; reflexivity).
    assert (E2 : n_key (do_act (AWriteConn c) s) = n_key s) by (destruct s; reflexivity).
    assert (E3 : h_conns (do_act (AWriteConn c) s) = h_conns s) by (destruct s; reflexivity).
    assert (KP : keeps s (do_act (AWriteConn c) s)).
    { intros k r Hr. rewrite E1, aget_aset. destruct (eqb_ok k (cn_key c)) as [->|_]; [|eauto]. exists c. assert (r = r0) by congruence. subst. auto. }
    split; [constructor|exact KP].
    + rewrite E1. apply NoDup_akeys_aset. exact N.
    + intros k r. rewrite E1, E2, aget_aset. destruct (eqb_ok k (cn_key c)) as [->|_]; intros Hr; [injection Hr as <-; split; [reflexivity|apply (K _ _ L1)]|apply K, Hr].
    + intros k k' r r'. rewrite E1, !aget_aset. destruct (eqb_ok k (cn_key c)) as [->|_], (eqb_ok k' (cn_key c)) as [->|_]; intros Hr Hr' E; try reflexivity.
      * injection Hr as <-. eapply U; eauto. congruence.
      * injection Hr' as <-. eapply U; eauto. congruence.
      * eapply U; eauto.
    + intros o d Ho. rewrite E3 in Ho. eapply held_later; eauto.
  - (* an object made *)
    cbn in L. destruct T as [N K U H].
    assert (E1 : t_conns (do_act (ALoadConn c) s) = t_conns s) by (destruct s; reflexivity).
    assert (E2 : n_key (do_act (ALoadConn c) s) = n_key s) by (destruct s; reflexivity).
    assert (E3 : h_conns (do_act (ALoadConn c) s) = aset (n_obj s) c (h_conns s)) by (destruct s; reflexivity).
    split; [constructor|intros k r Hr; exists r; rewrite E1; auto]; unfold ids_apart; rewrite ?E1, ?E2; auto.
    intros o d. rewrite E3, aget_aset. unfold held. rewrite E1. destruct (eqb_ok o (n_obj s)) as [->|_]; intros Ho; [injection Ho as <-; exact L|apply (H o d Ho)].
  - (* an object changed *)
    cbn in L. destruct T as [N K U H].
    assert (E1 : t_conns (do_act (ASetConn o c) s) = t_conns s) by (destruct s; reflexivity).
    assert (E2 : n_key (do_act (ASetConn o c) s) = n_key s) by (destruct s; reflexivity).
    assert (E3 : h_conns (do_act (ASetConn o c) s) = aset o c (h_conns s)) by (destruct s; reflexivity).
    split; [constructor|intros k r Hr; exists r; rewrite E1; auto]; unfold ids_apart; rewrite ?E1, ?E2; auto.
    intros o' d. rewrite E3, aget_aset. unfold held. rewrite E1. destruct (eqb_ok o' o) as [->|_]; intros Ho; [injection Ho as <-; exact L|apply (H o' d Ho)].
Qed.
Lemma find_held cid s c : tabI s -> find_conn cid s = Some c -> held c s.
Proof.
  intros T F. unfold find_conn in F. apply find_some in F. destruct F as [F _]. apply in_map_iff in F. destruct F as ([k c'] & E & F). cbn in E. subst c'.
  pose proof (In_aget _ _ _ (ti_n _ T) F) as A. destruct (ti_k _ T _ _ A) as [<- _]. exists c. auto.
Qed.

Fixpoint safe {A} (Post : A -> st -> Prop) (p : prog A) (s : st) : Prop :=
  match p with
  | Ret a => Post a s
  | Throw _ => True
  | Get k => tabI s -> safe Post (k s) s
  | Do a k => legal a s /\ (keeps s (do_act a s) -> safe Post k (do_act a s))
  | Await w k => forall x s', keeps s s' -> safe Post (k x) s'
  end.
Lemma safe_bind {A B} (Post : B -> st -> Prop) (p : prog A) (f : A -> prog B) : forall s, safe (fun a s' => safe Post (f a) s') p s -> safe Post (bind p f) s.
Proof.
  induction p as [a|e|k IH|a k IH|w k IH]; intros s H; cbn in H |- *; auto.
  destruct H as [H1 H2]. split; auto.
Qed.
Lemma safe_mono {A} (Post Post' : A -> st -> Prop) (p : prog A) : forall s, safe Post p s -> (forall a s', keeps s s' -> Post a s' -> Post' a s') -> safe Post' p s.
Proof.
  induction p as [a|e|k IH|a k IH|w k IH]; intros s H HP; cbn in H |- *; auto.
  - apply HP; [apply keeps_refl|exact H].
  - destruct H as [H1 H2]. split; [exact H1|]. intros K. apply IH; [auto|]. intros b s' K' HB. apply HP; [eapply keeps_trans; eauto|exact HB].
  - intros x s' K. apply IH; [auto|]. intros b s2 K' HB. apply HP; [eapply keeps_trans; eauto|exact HB].
Qed.
Definition anyhow {A} (p : prog A) : Prop := forall s, safe (fun _ _ => True) p s.
Lemma any_bind {A B} (p : prog A) (f : A -> prog B) : anyhow p -> (forall a, anyhow (f a)) -> anyhow (bind p f).
Proof. intros H1 H2 s. apply safe_bind. eapply safe_mono; [apply H1|]. intros a s' _ _. apply H2. Qed.
Lemma any_ret {A} (a : A) : anyhow (Ret a). Proof. intros s. exact I. Qed.
Lemma any_throw {A} e : anyhow (@Throw A e). Proof. intros s. exact I. Qed.
Lemma any_get : anyhow get. Proof. intros s _. exact I. Qed.
Lemma any_lift {A} (r : result A) : anyhow (lift r). Proof. intros s. destruct r; exact I. Qed.
Definition off_table (a : act) : Prop :=
  match a with AInsertConn _ | AWriteConn _ | ALoadConn _ | ASetConn _ _ => False | AOut (OUp _ b) => about b = None | _ => True end.
Lemma any_act a : off_table a -> anyhow (act1 a).
Proof. intros H s. cbn [act1 safe]. split; [destruct a; try contradiction; try exact I|auto]. destruct x; try exact I. intros cid E. cbn in H. congruence. Qed.
Lemma any_await w : anyhow (await w). Proof. intros s x s' _. destruct x; exact I. Qed.
Lemma any_await_id : anyhow await_id. Proof. intros s x s' _. destruct x; exact I. Qed.
Lemma any_await_acks n : anyhow (await_acks n). Proof. intros s x s' _. destruct x; exact I. Qed.
Lemma any_mapP {A B} (f : A -> prog B) l : (forall a, anyhow (f a)) -> anyhow (mapP f l).
Proof. intros H. induction l as [|x l IH]; cbn [mapP]; [apply any_ret|]. apply any_bind; [apply H|]. intros y. apply any_bind; [exact IH|]. intros ys. apply any_ret. Qed.
Lemma any_iterP {A} (f : A -> prog unit) l : (forall a, anyhow (f a)) -> anyhow (iterP f l).
Proof. intros H. induction l as [|x l IH]; cbn [iterP]; [apply any_ret|]. apply any_bind; [apply H|]. intros _. exact IH. Qed.
(** an object read *)
Lemma safe_conn_obj o s (Post : conn -> st -> Prop) : (forall c, held c s -> Post c s) -> safe Post (conn_obj o) s.
Proof. intros H. unfold conn_obj. apply safe_bind. intros T. cbn [safe]. destruct (aget o (h_conns s)) as [c|] eqn:E; [|exact I]. apply H. eapply ti_h; eauto. Qed.
Lemma any_conn_obj o : anyhow (conn_obj o). Proof. intros s. apply safe_conn_obj. auto. Qed.
Lemma any_save_conn o : anyhow (save_conn o).
Proof.
  apply any_bind; [apply any_await|]. intros _ s. apply safe_bind, safe_conn_obj. intros c Hc. apply safe_bind. cbn [act1 safe]. split; [exact Hc|]. intros _. apply any_await.
Qed.
Lemma any_set_conn_state x o : anyhow (set_conn_state x o).
Proof.
  intros s. unfold set_conn_state. apply safe_bind, safe_conn_obj. intros c Hc. destruct (op_mem x (cn_states c)) as [y [e|]]; [exact I|]. cbn. split; [destruct c; exact Hc|auto].
Qed.
Lemma any_conn_state x o : anyhow (conn_state x o).
Proof. apply any_bind; [apply any_set_conn_state|]. intros _. apply any_save_conn. Qed.
Lemma safe_own_state x c s (Post : conn -> st -> Prop) : held c s -> (forall c' s', cn_key c' = cn_key c -> cn_cid c' = cn_cid c -> held c' s' -> keeps s s' -> Post c' s') -> safe Post (own_state x c) s.
Proof.
  intros H HP. unfold own_state. destruct (op_mem x (cn_states c)) as [y [e|]]; [exact I|]. apply safe_bind. unfold save_conn_val. apply safe_bind.
  intros a s1 K1. destruct a; try exact I. cbn [safe]. apply safe_bind. cbn [act1 safe].
  assert (H1 : held (cn_set_states y c) s1) by (destruct c; exact (held_later _ _ _ H K1)).
  split; [exact H1|]. intros K2. intros a s3 K3. assert (K : keeps s s3) by (eapply keeps_trans; [exact K1|eapply keeps_trans; eauto]).
  destruct a; try exact I. cbn [safe]. apply HP; try (destruct c; reflexivity); [|exact K].
  eapply held_later; [exact H1|eapply keeps_trans; eauto].
Qed.
Lemma any_get_connection cid : anyhow (get_connection cid).
Proof.
  intros s. unfold get_connection. apply safe_bind. intros T. cbn [safe]. destruct (aget cid (c_conns s)) as [o|]; [exact I|]. apply safe_bind. intros a s1 K1. destruct a; try exact I. cbn [safe].
  apply safe_bind. intros T1. cbn [safe]. destruct (find_conn cid s1) as [c|] eqn:F; [|apply safe_bind; intros x s2 K2; destruct x; exact I].
  pose proof (find_held _ _ _ T1 F) as H1. apply safe_bind. intros a s2 K2. destruct a; try exact I. cbn [safe]. apply safe_bind. intros T2. cbn [safe]. apply safe_bind. cbn [act1 safe].
  split; [eapply held_later; eauto|]. intros _. exact I.
Qed.
Lemma any_get_by_key key : anyhow (get_connection_by_key key).
Proof.
  unfold get_connection_by_key. apply any_bind; [apply any_await|]. intros _. apply any_bind; [apply any_get|]. intros s.
  destruct (aget key (t_conns s)); (apply any_bind; [apply any_await|intros _]); [apply any_get_connection|apply any_throw].
Qed.
Lemma safe_insert c s (Post : conn -> st -> Prop) : (forall c' s', held c' s' -> Post c' s') -> safe Post (insert_conn c) s.
Proof.
  intros HP. unfold insert_conn. apply safe_bind. intros a s1 K1. destruct a; try exact I. cbn [safe]. apply safe_bind. intros T1. cbn [safe].
  destruct (find_conn (cn_cid c) s1) as [r|] eqn:F; [exact I|]. cbn [orb]. destruct (negb _); [exact I|]. apply safe_bind. cbn [act1 safe]. split.
  - intros k r Hr E. apply aget_In in Hr. destruct (find_conn_taken (cn_cid c) s1 r) as [c' E']; [apply in_map_iff; exists (k, r); auto|exact E|congruence].
  - intros _. apply safe_bind. intros a s2 K2. destruct a; try exact I. cbn [safe]. apply HP. eapply held_later; [|exact K2].
    exists (cn_set_key (n_key s1) c). split; [|auto]. replace (cn_key (cn_set_key (n_key s1) c)) with (n_key s1) by (destruct c; reflexivity).
    replace (t_conns (do_act (AInsertConn c) s1)) with (aset (n_key s1) (cn_set_key (n_key s1) c) (t_conns s1)) by (destruct s1; reflexivity).
    rewrite aget_aset, eqb_refl. reflexivity.
Qed.
(** programs that have read the object of a row *)
Definition having {A} (c : conn) (p : prog A) : Prop := forall s, held c s -> safe (fun _ _ => True) p s.
Lemma having_any {A} c (p : prog A) : anyhow p -> having c p.
Proof. intros H s _. apply H. Qed.
Lemma having_bind {A B} c (p : prog A) (f : A -> prog B) : having c p -> (forall a, having c (f a)) -> having c (bind p f).
Proof. intros H1 H2 s H. apply safe_bind. eapply safe_mono; [apply H1, H|]. intros a s' K _. apply H2. eapply held_later; eauto. Qed.
Lemma having_up c b : about b = Some (cn_cid c) -> having c (up (cn_requester c) b).
Proof.
  intros E s (r & H1 & H2 & H3). cbn [up out act1 safe legal addressed]. split; [|auto]. intros cid E'. exists (cn_key c), r. repeat split; congruence.
Qed.
Lemma any_bind_obj {B} o (f : conn -> prog B) : (forall c, having c (f c)) -> anyhow (bind (conn_obj o) f).
Proof. intros H s. apply safe_bind, safe_conn_obj. intros c Hc. apply H, Hc. Qed.
Ltac any1 :=
  lazymatch goal with
  | |- forall _, _ => intro
  | |- anyhow (bind (conn_obj _) _) => apply any_bind_obj
  | |- having ?c (bind (conn_obj _) _) => apply having_any
  | |- having ?c (bind _ _) => apply having_bind
  | |- having ?c (up (cn_requester ?c) _) => apply having_up; reflexivity
  | |- having ?c (match ?x with _ => _ end) => destruct x
  | |- having ?c _ => apply having_any
  | |- anyhow (bind _ _) => apply any_bind
  | |- anyhow get => apply any_get
  | |- anyhow (lift _) => apply any_lift
  | |- anyhow (Ret _) => apply any_ret
  | |- anyhow (Throw _) => apply any_throw
  | |- anyhow (throw _) => apply any_throw
  | |- anyhow (act1 _) => apply any_act; first [exact I|reflexivity]
  | |- anyhow (out _) => apply any_act; first [exact I|reflexivity]
  | |- anyhow (up _ _) => apply any_act; reflexivity
  | |- anyhow (await _) => apply any_await
  | |- anyhow await_id => apply any_await_id
  | |- anyhow (await_acks _) => apply any_await_acks
  | |- anyhow (mapP _ _) => apply any_mapP
  | |- anyhow (iterP _ []) => cbn [iterP]
  | |- anyhow (iterP _ (_ :: _)) => cbn [iterP]
  | |- anyhow (iterP _ _) => apply any_iterP
  | |- anyhow (conn_obj _) => apply any_conn_obj
  | |- anyhow (save_conn _) => apply any_save_conn
  | |- anyhow (set_conn_state _ _) => apply any_set_conn_state
  | |- anyhow (conn_state _ _) => apply any_conn_state
  | |- anyhow (get_connection _) => apply any_get_connection
  | |- anyhow (get_connection_by_key _) => apply any_get_by_key
  | |- anyhow (match ?x with _ => _ end) => destruct x
  | |- anyhow (?f _ _ _ _ _ _ _ _) => unfold f
  | |- anyhow (?f _ _ _ _ _ _) => unfold f
  | |- anyhow (?f _ _ _ _ _) => unfold f
  | |- anyhow (?f _ _ _ _) => unfold f
  | |- anyhow (?f _ _ _) => unfold f
  | |- anyhow (?f _ _) => unfold f
  | |- anyhow (?f _) => unfold f
  | |- anyhow ?f => unfold f
  end.
Lemma any_acks g h c info s : held c s -> safe (fun _ _ => True) (reserve_acks g h c info) s.
Proof.
  intros H. unfold reserve_acks. apply safe_bind. eapply safe_mono; [apply any_await_acks|]. intros l s1 K1 _. destruct (all_acked l); [exact I|].
  apply safe_bind, safe_own_state; [eapply held_later; eauto|]. intros c' s2 _ _ H2 K2. apply safe_bind.
  eapply safe_mono; [assert (X : anyhow (iterP (cleanup_one g h (last (map snd info) "")) (accepted l (map fst info)))) by (repeat any1); apply X|]. intros _ s3 K3 _.
  apply safe_bind. eapply safe_mono; [apply any_await_acks|]. intros _ s4 K4 _. apply safe_bind, safe_own_state; [|intros; exact I].
  eapply held_later; [exact H2|eapply keeps_trans; eauto].
Qed.
Lemma any_reserve g h q : anyhow (reserve g h q).
Proof.
  unfold reserve. destruct (q_cid q) as [cid|]; [repeat any1|].
  apply any_bind; [apply any_await|intros _]. apply any_bind; [apply any_get|intros s0]. cbv zeta. apply any_bind; [apply any_lift|intros _]. apply any_bind; [apply any_lift|intros _].
  apply any_bind; [apply any_await_id|intros cid]. intros s. apply safe_bind, safe_insert. intros c1 s1 H1. apply safe_bind, safe_own_state; [exact H1|]. intros c2 s2 _ _ H2 _.
  apply safe_bind. intros _. cbn [safe]. apply safe_bind. eapply safe_mono; [apply any_lift|]. intros ls s3 K3 _. apply safe_bind. eapply safe_mono; [apply any_lift|]. intros u s4 K4 _.
  apply safe_bind. eapply safe_mono; [assert (X : anyhow (mapP (reserve_link g h c2) (number 0 ls))) by (repeat any1); apply X|]. intros info s5 K5 _.
  apply any_acks. eapply held_later; [exact H2|]. eapply keeps_trans; [exact K3|]. eapply keeps_trans; eauto.
Qed.
Lemma any_confirmed g h cid a b : anyhow (reserve_confirmed g h cid a b).
Proof.
  unfold reserve_confirmed. do 3 (apply any_bind; [repeat any1|intro]). apply any_bind; [repeat any1|intros _]. apply any_bind; [repeat any1|intros o].
  apply any_bind; [repeat any1|intros c]. apply any_bind; [repeat any1|intros os]. intros s1. apply safe_bind, safe_conn_obj. intros c1 H1. cbv zeta. apply safe_bind. cbn [act1 safe].
  split; [destruct (eqb _ _), (eqb _ _), c1; exact H1|]. intros _.
  match goal with |- safe _ ?p ?s => assert (X : anyhow p) by (repeat any1); exact (X s) end.
Qed.
Lemma any_call g c : anyhow (call_prog g c).
Proof. destruct c; cbn [call_prog]; first [apply any_reserve|apply any_confirmed|repeat any1]. Qed.

Definition msafe (m : mach) : Prop := tabI (m_st m) /\ forall i w k, aget i (m_tasks m) = Some (w, k) -> forall x s', keeps (m_st m) s' -> safe (fun _ _ => True) (k x) s'.
Lemma advance_safe pr (p : prog string) : forall s, tabI s -> safe (fun _ _ => True) p s ->
  tabI (snd (advance pr p s)) /\ keeps s (snd (advance pr p s)) /\
  forall w k, fst (advance pr p s) = Waits w k -> forall x s', keeps (snd (advance pr p s)) s' -> safe (fun _ _ => True) (k x) s'.
Proof.
  induction p as [a|e|k IH|a k IH|w k IH]; intros s T H; cbn [advance safe] in *.
  - split; [exact T|]. split; [apply keeps_refl|discriminate].
  - split; [exact T|]. split; [apply keeps_refl|discriminate].
  - apply IH; auto.
  - destruct H as [L H]. destruct (legal_ok a s T L) as [T' K]. destruct (IH _ T' (H K)) as (A & B & C). split; [exact A|]. split; [eapply keeps_trans; eauto|exact C].
  - assert (W : forall w', (forall x s', keeps s s' -> safe (fun _ _ => True) (k x) s') -> tabI s /\ keeps s s /\
      forall w0 k0, @Waits string w' k = Waits w0 k0 -> forall x s', keeps s s' -> safe (fun _ _ => True) (k0 x) s').
    { intros w' Hw. split; [exact T|]. split; [apply keeps_refl|]. intros w0 k0 E. injection E as _ <-. exact Hw. }
    destruct w; try exact (W _ H). destruct pr; [|exact (W _ H)]. apply IH; [exact T|]. apply H, keeps_refl.
Qed.
Lemma record_safe i pr p s m : tabI s -> safe (fun _ _ => True) p s -> keeps (m_st m) s ->
  (forall i w k, aget i (m_tasks m) = Some (w, k) -> forall x s', keeps (m_st m) s' -> safe (fun _ _ => True) (k x) s') ->
  msafe (record i (advance pr p s) m) /\ keeps (m_st m) (m_st (record i (advance pr p s) m)).
Proof.
  intros T H K HT. destruct (advance_safe pr p s T H) as (A & B & C). assert (K2 : keeps (m_st m) (snd (advance pr p s))) by (eapply keeps_trans; eauto).
  unfold record. destruct (advance pr p s) as [[a|e|w k] s1]; cbn in *; (split; [split; cbn; [exact A|]|exact K2]); intros j w' k' E x s' K'.
  - eapply HT; [exact E|]. eapply keeps_trans; eauto.
  - eapply HT; [exact E|]. eapply keeps_trans; eauto.
  - rewrite aget_aset in E. destruct (eqb j i); [injection E as <- <-; eapply C; eauto|]. eapply HT; [exact E|]. eapply keeps_trans; eauto.
Qed.
Lemma mstep_safe g pr m e : mfresh m -> msafe m -> msafe (mstep g pr m e) /\ keeps (m_st m) (m_st (mstep g pr m e)).
Proof.
  intros F [T H]. destruct e as [c|i a|reg rv|reg rv]; cbn [mstep].
  - apply (record_safe (m_next m) pr (call_prog g c) (m_st m) (mkMach (m_st m) (m_tasks m) (S (m_next m)) (m_done m) (m_log m ++ [c]))); cbn; auto using keeps_refl. apply any_call.
  - destruct (aget i (m_tasks m)) as [[w k]|] eqn:E; [|split; [split; auto|apply keeps_refl]]. destruct (answers w a); [|split; [split; auto|apply keeps_refl]].
    apply (record_safe i pr (k a) (m_st m) (mkMach (m_st m) (adel i (m_tasks m)) (m_next m) (m_done m) (m_log m))); cbn; auto using keeps_refl; [eapply H; eauto using keeps_refl|].
    intros j w' k' Ej. destruct (Nat.eq_dec j i) as [->|N]; [rewrite aget_adel_eq in Ej; [discriminate|apply F]|rewrite aget_adel_ne in Ej by auto; eauto].
  - assert (X : tabI (set_topology reg rv (m_st m)) /\ keeps (m_st m) (set_topology reg rv (m_st m))) by (apply tabI_same; auto; destruct (m_st m); cbn; auto).
    destruct X as [X1 X2]. split; [split; [exact X1|]|exact X2]. intros i w k E x s' K. exact (H i w k E x s' (keeps_trans _ _ _ X2 K)).
  - destruct T as [N K U HH]. split; [split; [constructor; cbn; auto; discriminate|cbn; discriminate]|]. intros k c Hc. exists c. cbn. auto.
Qed.
Lemma mrun_safe g pr l : forall m, mfresh m -> msafe m -> mfresh (mrun g pr m l) /\ msafe (mrun g pr m l) /\ keeps (m_st m) (m_st (mrun g pr m l)).
Proof.
  induction l as [|e l IH]; intros m F H; [split; [exact F|split; [exact H|apply keeps_refl]]|]. destruct (mstep_safe g pr m e F H) as [H1 K1].
  destruct (IH (mstep g pr m e) (mstep_fresh g pr m e F) H1) as (F2 & H2 & K2). split; [exact F2|]. split; [exact H2|eapply keeps_trans; eauto].
Qed.
Lemma init_safe reg rv : mfresh (minit reg rv) /\ msafe (minit reg rv).
Proof. split; [split; [constructor|contradiction]|]. split; [constructor; cbn; try discriminate; constructor|discriminate]. Qed.
Lemma all_apart g pr reg rv l : ids_apart (m_st (mrun g pr (minit reg rv) l)).
Proof. destruct (init_safe reg rv) as [F H]. destruct (mrun_safe g pr l _ F H) as (_ & [T _] & _). apply T. Qed.
Lemma all_kept g pr reg rv l l' : keeps (m_st (mrun g pr (minit reg rv) l)) (m_st (mrun g pr (mrun g pr (minit reg rv) l) l')).
Proof. destruct (init_safe reg rv) as [F H]. destruct (mrun_safe g pr l _ F H) as (F1 & H1 & _). apply (mrun_safe g pr l' _ F1 H1). Qed.
(** what is sent *)
Lemma legal_addressed a s : legal a s -> addressed s a.
Proof. destruct a; cbn [legal]; auto; intros; exact I. Qed.
Lemma steps_safe pr (p : prog string) : forall s, tabI s -> safe (fun _ _ => True) p s -> forall t a, In (t, a) (steps pr p s) -> addressed t a.
Proof.
  induction p as [a|e|k IH|a k IH|w k IH]; intros s T H t b Hin; cbn [steps safe] in *; try contradiction.
  - eapply IH; eauto.
  - destruct H as [L H]. destruct (legal_ok a s T L) as [T' K]. destruct Hin as [Hin|Hin]; [injection Hin as <- <-; apply legal_addressed, L|]. eapply IH; eauto.
  - destruct w; try contradiction. destruct pr; [|contradiction]. eapply IH; [exact T| |exact Hin]. apply H, keeps_refl.
Qed.
Lemma all_addressed g pr reg rv l e t a : In (t, a) (step_acts g pr (mrun g pr (minit reg rv) l) e) -> addressed t a.
Proof.
  destruct (init_safe reg rv) as [F H]. destruct (mrun_safe g pr l _ F H) as (_ & [T HT] & _). unfold step_acts. destruct e as [c|i x|r v|r v]; try contradiction.
  - apply steps_safe; [exact T|apply any_call].
  - destruct (aget i _) as [[w k]|] eqn:E; [|contradiction]. destruct (answers w x); [|contradiction]. apply steps_safe; [exact T|]. eapply HT; eauto using keeps_refl.
Qed.
