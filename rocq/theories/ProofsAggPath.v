(** Path segments (C40). *)
From Verif Require Import Base BaseProofs ModelLabel ModelSTP ModelAuthz ModelNRM ModelState ModelLinkVector ModelProvreg ModelAggregator SpecAggregator ProofsAggregator.
Open Scope Z_scope.

Lemma cross_connects_joins ports v : forall prev ls last b,
  cross_connects ports prev v = Ok (ls, last) -> joins_up ports prev b v (ls ++ [(last, b)]).
Proof.
  induction v as [|[n p] r IH]; intros prev ls last b H; cbn in H.
  - inversion H; subst. repeat split; cbn.
    + intros l E. inversion E; auto.
    + intros l E. inversion E; auto.
    + destruct i; discriminate.
    + destruct i; discriminate.
    + destruct i; discriminate.
    + destruct i; discriminate.
  - destruct (eqb_ok (s_network prev) n) as [En|]; [|discriminate]. cbn in H.
    destruct (aget n ports) as [ps|] eqn:E1; [|discriminate].
    destruct (aget p ps) as [port|] eqn:E2; [|discriminate].
    destruct (p_remote_network port) as [rn|] eqn:E3; [|discriminate].
    destruct (p_remote_port port) as [rp|] eqn:E4; [|discriminate].
    destruct (cross_connects ports _ r) as [[ls' last']|] eqn:E5; [|discriminate].
    cbn in H. inversion H; subst. clear H.
    apply (IH _ _ _ b) in E5. destruct E5 as (L & F & Z & S).
    split; [cbn; rewrite L; reflexivity|]. split; [|split].
    + intros l E. inversion E; subst. reflexivity.
    + intros l E. cbn in E. apply Z; auto.
    + intros i n0 p0 l m Hr Hl Hm. destruct i as [|i]; cbn in Hr, Hl, Hm.
      * inversion Hr; subst. inversion Hl; subst. cbn. repeat split; auto.
        exists ps, port. rewrite (F m) by exact Hm. cbn. auto.
      * eapply S; eauto.
Qed.

Lemma path_loop_head fuel prev src : forall at_net acc l,
  (exists p acc', acc = (at_net, p) :: acc') -> path_loop fuel prev src at_net acc = Ok l -> exists p l', l = (src, p) :: l'.
Proof.
  induction fuel as [|f IH]; intros at_net acc l (p & acc' & ->) H; cbn in H.
  - destruct (eqb_ok at_net src) as [->|NE]; [|discriminate]. inversion H; subst. eauto.
  - destruct (eqb_ok at_net src) as [->|NE]; [inversion H; subst; eauto|].
    destruct (aget at_net prev) as [[n q]|]; [|discriminate]. eapply IH; eauto.
Qed.
Lemma lv_path_head dst src rv l : lv_path dst src rv = Ok (Some l) -> exists p l', l = (src, p) :: l'.
Proof.
  unfold lv_path. destruct (negb _); [discriminate|]. destruct (aget src (lv_prev rv)) as [prev|]; [|discriminate].
  unfold path_from. destruct (aget dst prev) as [[n p]|]; [|discriminate].
  destruct (path_loop _ _ _ _ _) as [x|] eqn:E; [|discriminate]. cbn. intros H. inversion H; subst.
  eapply path_loop_head; [|exact E]. eauto.
Qed.
Lemma lv_path_local dst src rv r : lv_path dst src rv = Ok r -> In src (lv_local rv).
Proof. unfold lv_path. destruct (mem src (lv_local rv)) eqn:E; [|discriminate]. intros _. apply mem_In; auto. Qed.

Lemma build_links_leaving g rv src dst ls :
  In (s_network src) (lv_local rv) -> s_network src <> s_network dst ->
  build_links g (lv_local rv) rv src dst = Ok ls ->
  exists path p rest, lv_path (s_network dst) (s_network src) rv = Ok (Some path) /\
    filter (fun np => mem (fst np) (lv_local rv)) path = (s_network src, p) :: rest /\
    joins_up (a_ports g) src dst ((s_network src, p) :: rest) ls.
Proof.
  intros HL HN H. unfold build_links in H. rewrite eqb_neq in H by auto. cbn in H.
  assert (M : mem (s_network src) (lv_local rv) = true) by (apply mem_In; auto). rewrite M in H. cbn in H.
  destruct (lv_path (s_network dst) (s_network src) rv) as [[path|]|] eqn:E; try discriminate. cbn in H.
  destruct (cross_connects _ _ _) as [[xs last]|] eqn:C; [|discriminate]. cbn in H. inversion H; subst. clear H.
  destruct (lv_path_head _ _ _ _ E) as (p & l' & ->).
  exists ((s_network src, p) :: l'), p, (filter (fun np => mem (fst np) (lv_local rv)) l').
  split; [auto|]. cbn [filter fst] in C |- *. rewrite M in C |- *. split; auto. apply cross_connects_joins; auto.
Qed.

Lemma segments_app l1 l2 : segments (l1 ++ l2) = segments l1 ++ segments l2.
Proof. unfold segments. rewrite downs_app. apply flat_map_app. Qed.
Lemma no_reserve_segments l : Forall no_reserve l -> segments l = [].
Proof.
  induction 1 as [|o l H _ IH]; [reflexivity|]. change (o :: l) with ([o] ++ l). rewrite segments_app, IH, app_nil_r.
  destruct o as [[]|]; cbn; auto. destruct x; cbn; auto. destruct b; cbn; auto. contradiction.
Qed.
Lemma prefix_nil {A} (l : list A) : prefix_of [] l.
Proof. exists l; reflexivity. Qed.
Lemma prefix_refl {A} (l : list A) : prefix_of l l.
Proof. exists []. rewrite app_nil_r; reflexivity. Qed.

Lemma all_reserve_link P Q g h c i lk (R : list obs -> option (string * string + err) -> Prop) :
  (forall l r, acks_in l = [] -> (forall x, r = Some (inl x) -> segments l = [lk]) -> prefix_of (segments l) [lk] -> R l r) ->
  all_exec P Q (reserve_link g h c (i, lk)) R.
Proof.
  intros H. destruct lk as [src dst]. unfold reserve_link, new_corr, out.
  assert (H0 : R [] None) by (apply H; [reflexivity|discriminate|apply prefix_nil]).
  apply all_bind, all_get; auto. intros s _.
  apply all_bind, all_lift; auto; [|intros; apply H; [reflexivity|discriminate|apply prefix_nil]]. intros p _.
  apply all_bind, all_lift; auto; [|intros; apply H; [reflexivity|discriminate|apply prefix_nil]]. intros u _.
  apply all_bind, all_bind, all_get; auto. intros s' _.
  apply all_bind, all_act; try (apply H; [reflexivity|discriminate|apply prefix_nil]).
  apply all_ret; try (apply H; [reflexivity|discriminate|apply prefix_nil]).
  apply all_bind, all_act; try (apply H; [reflexivity|discriminate|apply prefix_nil]).
  apply all_bind, all_act; try (apply H; [reflexivity|discriminate|first [apply prefix_nil|apply prefix_refl]]).
  apply all_ret; (apply H; [reflexivity|first [discriminate|reflexivity]|apply prefix_refl]).
Qed.

Lemma all_reserve_links P Q g h c : forall ls i (R : list obs -> option (list (string * string) + err) -> Prop),
  (forall l r, acks_in l = [] -> (forall x, r = Some (inl x) -> segments l = ls) -> prefix_of (segments l) ls -> R l r) ->
  all_exec P Q (mapP (reserve_link g h c) (number i ls)) R.
Proof.
  induction ls as [|lk ls IH]; intros i R H; cbn [number mapP].
  - apply all_ret; (apply H; [reflexivity|first [discriminate|reflexivity]|apply prefix_nil]).
  - apply all_bind, all_reserve_link. intros l r A S Pf.
    destruct r as [[x|e]|]; try (apply H; [auto|discriminate|]; destruct Pf as [y E]; destruct (segments l) as [|a z]; [apply prefix_nil|];
      cbn in E; inversion E; subst; destruct z; [|discriminate]; exists ls; reflexivity).
    pose proof (S x eq_refl) as Sx.
    apply all_bind, IH. intros l2 r2 A2 S2 Pf2.
    assert (PF : prefix_of (segments (l ++ l2)) (lk :: ls)).
    { rewrite segments_app, Sx. destruct Pf2 as [y ->]. exists y. reflexivity. }
    destruct r2 as [[xs|e]|]; try (apply H; [rewrite acks_in_app, A, A2; reflexivity|discriminate|auto]).
    apply all_ret; (apply H; rewrite app_nil_r; [rewrite acks_in_app, A, A2; reflexivity| |auto]); [discriminate|].
    intros y _. rewrite segments_app, Sx, (S2 xs eq_refl). reflexivity.
Qed.

(** what the whole of [reserve] asks for *)
Definition asks (P : st -> Prop) (g : cfg) (rv : lvec) (q : areq) (l : list obs) : Prop :=
  (segments l = [] /\ acks_in l = []) \/
  exists ls, build_links g (lv_local rv) rv (q_src q) (q_dst q) = Ok ls /\ (exists s, P s /\ served (lv_local rv) (a_reg s) ls) /\
    prefix_of (segments l) ls /\ (acks_in l <> [] -> segments l = ls).
Lemma check_served locals reg ls x : check_providers locals reg ls = Ok x -> served locals reg ls.
Proof.
  unfold check_providers. intros H u v Hi. destruct (mapM _ ls) as [ns|] eqn:E; [|discriminate]. clear H. revert ns E Hi.
  induction ls as [|w ls IH]; intros ns E [] ; cbn in E.
  - subst w. cbn [fst] in E. destruct (mem (s_network u) locals) eqn:M; [left; apply mem_In; exact M|]. right.
    destruct (get_provider (s_network u) reg) as [p|]; [eauto|discriminate].
  - destruct (if mem _ _ then _ else _); [cbn in E|discriminate]. destruct (mapM _ ls) as [ns'|] eqn:E'; [eapply IH; eauto|discriminate].
Qed.

Lemma only_no_acks l : Forall (fun o => no_reserve o /\ match o with OAns (WAcks _) _ => False | _ => True end) l -> segments l = [] /\ acks_in l = [].
Proof.
  intros F. split.
  - apply no_reserve_segments. eapply Forall_imp; [|exact F]. intros x [H _]; exact H.
  - induction F as [|o l H _ IH]; [reflexivity|]. change (o :: l) with ([o] ++ l). rewrite acks_in_app, IH, app_nil_r.
    destruct H as [_ H]. destruct o as [|[] ?]; cbn in *; try contradiction; reflexivity.
Qed.

Lemma reserve_asks (P : st -> Prop) Q g h q rv : (forall s, P s -> a_rv s = rv) -> all_exec P Q (reserve g h q) (fun l _ => asks P g rv q l).
Proof.
  intros HP. unfold reserve.
  assert (W : forall l, Forall (fun o => no_reserve o /\ match o with OAns (WAcks _) _ => False | _ => True end) l -> asks P g rv q l).
  { intros l F. left. apply only_no_acks; auto. }
  assert (C : forall l, segments l = [] -> acks_in l = [] -> asks P g rv q l) by (left; auto).
  destruct (q_cid q) as [cid|].
  - eapply all_mono; [|intros l r F; apply W, F].
    match goal with |- all_exec _ _ ?p _ => change (only P Q (fun o => no_reserve o /\ match o with OAns (WAcks _) _ => False | _ => True end) p) end.
    repeat only_step. destruct (find_conn cid _); repeat only_step.
  - apply all_bind, all_await; [apply C; reflexivity|].
    intros x _ _; split; [apply C; reflexivity|]. destruct x; try (apply C; reflexivity).
    apply all_bind, all_get; [apply C; reflexivity|]. intros s Hs. rewrite (HP s Hs).
    apply all_bind, all_lift; try (intros; apply C; reflexivity). intros _ _.
    apply all_bind, all_lift; try (intros; apply C; reflexivity). intros _ _.
    apply all_bind, all_await_id; [apply C; reflexivity|].
    intros x _ _; split; [apply C; reflexivity|]. destruct x; try (apply C; reflexivity).
    set (c0 := mkConn _ _ _ _ _ _ _ _ _ _).
    assert (OI : only P Q (fun o => no_reserve o /\ match o with OAns (WAcks _) _ => False | _ => True end) (insert_conn c0)).
    { unfold insert_conn. repeat only_step. destruct (_ || _); repeat only_step. }
    apply all_bind. eapply all_mono; [exact OI|]. intros l1 [[c1|e1]|] F1; apply only_no_acks in F1; destruct F1 as [S1 A1];
      try (apply C; [rewrite !segments_app, S1|rewrite !acks_in_app, A1]; reflexivity).
    apply all_bind, all_own_state. intros l2 r2 F2 _.
    assert (SA : segments l2 = [] /\ acks_in l2 = []).
    { apply only_no_acks. eapply Forall_imp; [|exact F2]. intros [[]|[] ?]; cbn; tauto. }
    destruct SA as [S2 A2].
    destruct r2 as [[c2|e2]|]; try (apply C; [rewrite !segments_app, S1, S2|rewrite !acks_in_app, A1, A2]; reflexivity).
    apply all_bind, all_get; [apply C; [rewrite !segments_app, S1, S2|rewrite !acks_in_app, A1, A2]; reflexivity|].
    intros s2 Hs2. rewrite (HP s2 Hs2).
    apply all_bind, all_lift; try (intros; apply C; [rewrite !segments_app, S1, S2|rewrite !acks_in_app, A1, A2]; reflexivity).
    intros ls BL.
    apply all_bind, all_lift; try (intros; apply C; [rewrite !segments_app, S1, S2|rewrite !acks_in_app, A1, A2]; reflexivity).
    intros ok CP. apply check_served in CP.
    apply all_bind, all_reserve_links. intros l3 r3 A3 S3 P3.
    assert (PF : forall x, segments x = segments l3 -> acks_in x = [] -> asks P g rv q x).
    { intros y E1 E2. right. exists ls. split; auto. split; [eauto|]. rewrite E1, E2. split; auto. congruence. }
    destruct r3 as [[info|e3]|]; try (apply PF; [rewrite !segments_app, S1, S2|rewrite !acks_in_app, A1, A2, A3]; reflexivity).
    eapply all_mono; [apply only_reserve_acks|]. intros l4 r4 F4. right. exists ls. split; auto. split; [eauto|].
    rewrite !segments_app, S1, S2, (no_reserve_segments l4 F4), (S3 info eq_refl). cbn. rewrite app_nil_r.
    split; [apply prefix_refl|auto].
Qed.

(** a source outside with a destination inside is never accepted *)
Lemma remote_source_quiet (P : st -> Prop) Q g h q rv l r :
  (forall s, P s -> a_rv s = rv) -> ~ In (s_network (q_src q)) (lv_local rv) -> In (s_network (q_dst q)) (lv_local rv) ->
  exec P Q (reserve g h q) l r -> acts l = [] /\ forall a, r <> Some (inl a).
Proof.
  intros HP HS HD. revert l r.
  apply (all_use P Q (reserve g h q) (fun l r => acts l = [] /\ forall a, r <> Some (inl a))).
  unfold reserve. destruct (q_cid q) as [cid|].
  - apply all_bind, all_await; [split; [auto|discriminate]|].
    intros x _ _; split; [split; [auto|discriminate]|].
    destruct x; try (split; [auto|discriminate]).
    apply all_bind, all_get; [split; [auto|discriminate]|]. intros s _.
    apply all_bind, all_await; [split; [auto|discriminate]|].
    intros x _ _; split; [split; [auto|discriminate]|].
    destruct x; try (split; [auto|discriminate]).
    destruct (find_conn cid s); apply all_throw; split; auto; discriminate.
  - apply all_bind, all_await; [split; [auto|discriminate]|].
    intros x _ _; split; [split; [auto|discriminate]|].
    destruct x; try (split; [auto|discriminate]).
    apply all_bind, all_get; [split; [auto|discriminate]|]. intros s Hs. rewrite (HP s Hs).
    apply all_bind, all_lift; [split; [auto|discriminate]| |intros; split; [auto|discriminate]]. intros _ _.
    unfold route_check.
    assert (M1 : mem (s_network (q_src q)) (lv_local rv) = false).
    { destruct (mem _ _) eqn:M; auto. apply mem_In in M. tauto. }
    assert (M2 : mem (s_network (q_dst q)) (lv_local rv) = true) by (apply mem_In; auto).
    rewrite M1, M2. cbn [orb]. unfold lv_vector, lv_path. rewrite M1. cbn.
    apply all_throw; split; auto; discriminate.
Qed.
