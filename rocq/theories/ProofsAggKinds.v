(** Which messages follow from which calls; hairpins. *)
From Verif Require Import Base BaseProofs ModelLabel ModelSTP ModelAuthz ModelNRM ModelState ModelLinkVector ModelProvreg ModelAggregator SpecAggregator ProofsAggregator.
Open Scope Z_scope.

Ltac programs := unfold call_prog, reserve, reserve_commit, reserve_abort, provision, release, terminate, query_summary, query_recursive, reserve_confirmed,
  reserve_failed, commit_confirmed, abort_confirmed, provision_confirmed, release_confirmed, terminate_confirmed, collect, reserve_timeout, data_plane, error, error_event,
  query_recursive_confirmed, force_sub_r, force_sub_l, insert_sub, insert_conn, reserve_link, reserve_acks, cleanup_one, call_sub, finish, open_connection, sub_state, conn_state,
  set_sub_state, set_conn_state, save_sub, save_conn, own_state, save_conn_val, get_connection_by_key, get_connection, get_sub, get_subs, fetch_sub, sub_objs, sub_obj, conn_obj,
  notification_id, new_corr, up, out in *.
Ltac only_all := repeat first
  [ only_step
  | lazymatch goal with
    | |- only _ _ _ (match ?x with _ => _ end) => destruct x
    | |- only _ _ _ (let '(_, _) := ?x in _) => destruct x
    end ].

Definition kind_ok (c : call) (o : obs) : Prop :=
  match o with
  | OAct (AOut (OUp _ b)) => follows c b
  | OAct (AOut (ODown _ _ b)) => handed_down c b
  | _ => True
  end.
Lemma kinds P Q g c : only P Q (kind_ok c) (call_prog g c).
Proof.
  destruct c; programs; only_all; cbn [kind_ok follows handed_down]; eauto 6.
  all: match goal with H : In ?x _ |- match ?x _ with _ => _ end => repeat (destruct H as [<-|H]; [exact I|]); destruct H end.
Qed.

(** * One message up at the most *)
Definition no_up (o : obs) : Prop := match o with OAct (AOut (OUp _ _)) => False | _ => True end.
Lemma ups_app l1 l2 : ups (l1 ++ l2) = ups l1 ++ ups l2.
Proof. unfold ups. rewrite acts_app. apply flat_map_app. Qed.
Lemma ups_one a : ups [OAct a] = match a with AOut (OUp r b) => [(r, b)] | _ => [] end.
Proof. destruct a; try reflexivity. destruct x; reflexivity. Qed.
Lemma no_ups l : Forall no_up l -> ups l = [].
Proof.
  induction 1 as [|o l H _ IH]; [reflexivity|]. change (o :: l) with ([o] ++ l). rewrite ups_app, IH, app_nil_r.
  destruct o as [a|w x]; [|reflexivity]. rewrite ups_one. destruct a; try reflexivity. destruct x; try reflexivity. destruct H.
Qed.
Section Most.
  Context (P : st -> Prop) (Q : wait -> ans -> Prop).
  Definition one {A} (p : prog A) : Prop := all_exec P Q p (fun l _ => (List.length (ups l) <= 1)%nat).
  Lemma one_none {A} (p : prog A) : only P Q no_up p -> one p.
  Proof. intros H. eapply all_mono; [exact H|]. intros l r F. rewrite (no_ups l F). cbn. lia. Qed.
  Lemma one_later {A B} (p : prog A) (f : A -> prog B) : only P Q no_up p -> (forall a, one (f a)) -> one (bind p f).
  Proof.
    intros H1 H2. apply all_bind. eapply all_mono; [exact H1|]. intros l [[a|e]|] F; rewrite ?(no_ups l F); cbn; try lia.
    eapply all_mono; [apply H2|]. intros l2 r2 F2. rewrite ups_app, (no_ups l F). exact F2.
  Qed.
  Lemma one_now {A B} (p : prog A) (f : A -> prog B) : one p -> (forall a, only P Q no_up (f a)) -> one (bind p f).
  Proof.
    intros H1 H2. apply all_bind. eapply all_mono; [exact H1|]. intros l [[a|e]|] F; try exact F.
    eapply all_mono; [apply H2|]. intros l2 r2 F2. rewrite ups_app, (no_ups l2 F2), app_nil_r. exact F.
  Qed.
  Lemma one_act a : one (act1 a).
  Proof. apply all_act; rewrite ?ups_one; cbn [ups acts flat_map List.length]; try lia; destruct a; cbn; try lia; destruct x; cbn; lia. Qed.
End Most.

Ltac one_step :=
  lazymatch goal with
  | |- forall _, _ => intro
  | |- one _ _ (bind (act1 (AOut (OUp _ _))) _) => apply one_now; [apply one_act|intros; only_all;
      match goal with H : In ?x _ |- match ?x _ with _ => _ end => repeat (destruct H as [<-|H]; [exact I|]); destruct H end]
  | |- one _ _ (bind _ _) => apply one_later; [solve [only_all]|intro]
  | |- one _ _ (match ?x with _ => _ end) => destruct x
  | |- one _ _ _ => apply one_none; solve [only_all]
  end.
Lemma one_up P Q g c : one P Q (call_prog g c).
Proof.
  destruct c; programs; repeat one_step.
Qed.

(** * Hairpins (C39) *)
Definition no_down (o : obs) : Prop := match o with OAct (AOut (ODown _ _ _)) => False | _ => True end.
Lemma downs_one a : downs [OAct a] = match a with AOut (ODown p h b) => [(p, h, b)] | _ => [] end.
Proof. destruct a; try reflexivity. destruct x; reflexivity. Qed.
Lemma no_downs l : Forall no_down l -> downs l = [].
Proof.
  induction 1 as [|o l H _ IH]; [reflexivity|]. change (o :: l) with ([o] ++ l). rewrite downs_app, IH, app_nil_r.
  destruct o as [a|w x]; [|reflexivity]. rewrite downs_one. destruct a; try reflexivity. destruct x; try reflexivity. destruct H.
Qed.
Section Fails.
  Context (P : st -> Prop) (Q : wait -> ans -> Prop).
  (** asks no provider for anything, and does not succeed *)
  Definition fails {A} (p : prog A) : Prop := all_exec P Q p (fun l r => Forall no_down l /\ forall a, r <> Some (inl a)).
  Lemma fails_bind {A B} (p : prog A) (f : A -> prog B) : only P Q no_down p -> (forall a, fails (f a)) -> fails (bind p f).
  Proof.
    intros H1 H2. apply all_bind. eapply all_mono; [exact H1|]. intros l [[a|e]|] F; try (split; [exact F|discriminate]).
    eapply all_mono; [apply H2|]. intros l2 r2 [F2 N]. split; [apply Forall_app; auto|exact N].
  Qed.
  Lemma fails_throw {A} e : fails (@Throw A e).
  Proof. apply all_throw; (split; [constructor|discriminate]). Qed.
End Fails.
Lemma hairpin_fails g locals h q (P : st -> Prop) Q l r :
  hairpin g locals q -> (forall s, P s -> lv_local (a_rv s) = locals) ->
  exec P Q (reserve g h q) l r -> downs l = [] /\ forall a, r <> Some (inl a).
Proof.
  intros (H1 & H2 & H3 & H4) HP E.
  assert (F : fails P Q (reserve g h q)).
  { unfold reserve. destruct (q_cid q) as [cid|].
    - apply fails_bind; [only_all|intros _]. apply fails_bind; [only_all|intros s]. apply fails_bind; [only_all|intros _]. destruct (find_conn cid s); apply fails_throw.
    - apply fails_bind; [only_all|intros _]. apply all_bind, all_get; [split; [constructor|discriminate]|]. intros s Hs. rewrite (HP s Hs). cbn [app].
      apply fails_bind; [only_all|intros _]. apply fails_bind; [only_all|intros _]. apply fails_bind; [only_all|intros cid].
      apply fails_bind; [programs; only_all|intros c]. apply fails_bind; [programs; only_all|intros c']. apply fails_bind; [only_all|intros s'].
      assert (B : build_links g locals (a_rv s') (q_src q) (q_dst q) = Err EService).
      { unfold build_links. rewrite <- H3, H1, H4, !eqb_refl. apply mem_In in H2. rewrite H2. reflexivity. }
      rewrite B. cbn [lift bind]. apply fails_throw. }
  apply (all_use _ _ _ _ F) in E as [E1 E2]. split; [apply no_downs; exact E1|exact E2].
Qed.
