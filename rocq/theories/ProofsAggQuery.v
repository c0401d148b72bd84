(** Queries (C38) and data plane status (C43). *)
From Verif Require Import Base BaseProofs ModelLabel ModelSTP ModelAuthz ModelNRM ModelState ModelLinkVector ModelProvreg ModelAggregator SpecAggregator ProofsAggregator.
Open Scope Z_scope.

Lemma ups_app l1 l2 : ups (l1 ++ l2) = ups l1 ++ ups l2.
Proof. unfold ups. rewrite acts_app. apply flat_map_app. Qed.
Definition no_up (o : obs) : Prop := match o with OAct (AOut (OUp _ _)) => False | _ => True end.
Lemma no_up_ups l : Forall no_up l -> ups l = [].
Proof.
  induction 1 as [|o l H _ IH]; [auto|]. change (o :: l) with ([o] ++ l). rewrite ups_app, IH, app_nil_r.
  destruct o as [[]|]; cbn in *; auto. destruct x; cbn in *; auto. contradiction.
Qed.

Section Q.
  Context (P : st -> Prop) (Q : wait -> ans -> Prop).
  Lemma nu_get_subs k : only P Q no_up (get_subs k).
  Proof.
    unfold get_subs. repeat only_step. destruct (aget _ _); repeat only_step. unfold fetch_sub. repeat only_step.
    destruct (find_sub _ _ _); repeat only_step.
  Qed.
  Lemma nu_sub_objs l : only P Q no_up (sub_objs l).
  Proof. unfold sub_objs, sub_obj. repeat only_step. destruct (aget _ _); repeat only_step. Qed.

  Lemma all_results g cs : forall (R : list obs -> option (list cinfo + err) -> Prop),
    (forall l r, ups l = [] -> (forall rs, r = Some (inl rs) -> Forall2 (describes g) cs rs) -> R l r) ->
    all_exec P Q (mapP (fun c : conn =>
          os <- get_subs (cn_key c) ;;
          xs <- sub_objs os ;;
          n <- notification_id ;;
          Ret (conn_info g c (summary_status xs) n 0 [])) cs) R.
  Proof.
    induction cs as [|c cs IH]; intros R H; cbn [mapP].
    - apply all_ret; (apply H; [reflexivity|]); [discriminate|]. intros rs E. inversion E. constructor.
    - apply all_bind, all_bind. eapply all_mono; [apply nu_get_subs|]. intros l1 r1 F1. apply no_up_ups in F1.
      destruct r1 as [[os|e]|]; try (apply H; [auto|discriminate]).
      apply all_bind. eapply all_mono; [apply nu_sub_objs|]. intros l2 r2 F2. apply no_up_ups in F2.
      assert (F : ups (l1 ++ l2) = []) by (rewrite ups_app, F1, F2; reflexivity).
      destruct r2 as [[xs|e]|]; try (apply H; [auto|discriminate]).
      unfold notification_id.
      apply all_bind, all_bind, all_get; [apply H; [rewrite ?app_nil_r; auto|discriminate]|]. intros s _.
      apply all_bind, all_act; try (apply H; [rewrite ?app_assoc, ?app_nil_r, ?ups_app, ?F1, ?F2; reflexivity|discriminate]).
      apply all_ret; try (apply H; [rewrite ?app_assoc, ?app_nil_r, ?ups_app, ?F1, ?F2; reflexivity|discriminate]).
      apply all_ret; try (apply H; [rewrite ?app_assoc, ?app_nil_r, ?ups_app, ?F1, ?F2; reflexivity|discriminate]).
      apply all_bind, IH. intros l3 r3 U3 H3.
      assert (U : ups ((l1 ++ l2 ++ [] ++ [OAct ANote] ++ []) ++ l3) = []) by (rewrite !ups_app, F1, F2, U3; reflexivity).
      destruct r3 as [[rs|e]|]; try (apply H; [rewrite ?app_assoc, ?app_nil_r, ?ups_app, ?F1, ?F2, ?U3; reflexivity|discriminate]).
      apply all_ret; (apply H; [rewrite ?app_assoc, ?app_nil_r, ?ups_app, ?F1, ?F2, ?U3; reflexivity|]); [discriminate|].
      intros rs' E. inversion E; subst. constructor; [|apply H3; reflexivity]. repeat split.
  Qed.

  Lemma select_ok g h cids s cs : select_conns g h cids [] s = Ok cs ->
    exists f, (forall c, f c = true <-> visible g h cids c) /\ cs = filter f (map snd (t_conns s)).
  Proof.
    unfold select_conns.
    assert (V : forall c, mem (hd_requester h) (a_admins g) || eqb (cn_requester c) (hd_requester h) = true <->
              (In (hd_requester h) (a_admins g) \/ cn_requester c = hd_requester h)).
    { intros c. rewrite orb_true_iff, mem_In, eqb_true. tauto. }
    destruct cids as [|x cids]; intros H; inversion H; subst; eexists; (split; [|reflexivity]); intros c; unfold visible; cbn beta.
    - rewrite V. tauto.
    - rewrite andb_true_iff, V, mem_In. split; intros [H1 H2]; split; auto. destruct H2; auto. discriminate.
  Qed.

  Lemma query_summary_answer g h cids : all_exec P Q (query_summary g h cids []) (fun l r =>
    (ups l = [] /\ forall x, r <> Some (inl x)) \/
    exists s f rs, P s /\ (forall c, f c = true <-> visible g h cids c) /\
      Forall2 (describes g) (filter f (map snd (t_conns s))) rs /\ ups l = [(hd_requester h, UQuerySummary rs)]).
  Proof.
    unfold query_summary.
    apply all_bind, all_await; [left; split; [auto|discriminate]|].
    intros x _ _. split; [left; split; [auto|discriminate]|].
    destruct x; try (left; split; [auto|discriminate]).
    apply all_bind, all_get; [left; split; [auto|discriminate]|]. intros s Hs.
    apply all_bind, all_lift; try (intros; left; split; [auto|discriminate]). intros cs Hc.
    destruct (select_ok g h cids s cs Hc) as (f & Vf & ->).
    apply all_bind, all_await; [left; split; [auto|discriminate]|].
    intros x _ _. split; [left; split; [auto|discriminate]|].
    destruct x; try (left; split; [auto|discriminate]).
    apply all_bind, all_results. intros l r U H.
    assert (U' : ups ([OAns WDb AnsOk] ++ [] ++ [] ++ [OAns WDb AnsOk] ++ l) = []) by (rewrite !ups_app, U; reflexivity).
    destruct r as [[rs|e]|]; try (left; split; [exact U'|discriminate]).
    specialize (H rs eq_refl).
    assert (U2 : ups ([OAns WDb AnsOk] ++ [] ++ [] ++ [OAns WDb AnsOk] ++ l ++ [OAct (AOut (OUp (hd_requester h) (UQuerySummary rs)))]) = [(hd_requester h, UQuerySummary rs)]).
    { rewrite !ups_app, U. reflexivity. }
    unfold up, out. apply all_bind, all_act.
    - left. split; [rewrite ?app_nil_r; exact U'|discriminate].
    - right. exists s, f, rs. auto.
    - apply all_ret; right; exists s, f, rs; rewrite ?app_nil_r; auto.
  Qed.
End Q.

(** * C43 *)
Lemma max_list_ge l : forall x, In x l -> x <= max_list l.
Proof.
  assert (G : forall r a x, x = a \/ In x r -> x <= fold_left Z.max r a).
  { induction r as [|y r IH]; intros a x [->|H]; cbn; try lia; [contradiction| |].
    - etransitivity; [|apply IH; left; reflexivity]. lia.
    - destruct H as [->|H]; [|apply IH; auto]. etransitivity; [|apply IH; left; reflexivity]. lia. }
  destruct l as [|a r]; intros x H; [contradiction|]. cbn [max_list]. apply G. destruct H; auto.
Qed.
Lemma max_list_in l : l <> [] -> In (max_list l) l.
Proof.
  assert (G : forall r a, fold_left Z.max r a = a \/ In (fold_left Z.max r a) r).
  { induction r as [|y r IH]; intros a; cbn; [auto|]. destruct (IH (Z.max a y)) as [E|E]; auto.
    rewrite E. destruct (Z.max_spec a y) as [[_ ->]|[_ ->]]; auto. }
  destruct l as [|a r]; [contradiction|]. intros _. cbn [max_list]. destruct (G r a) as [E|E]; [rewrite E; cbn; auto|right; auto].
Qed.

Lemma ok_inj {A} (a b : A) : Ok a = Ok b -> a = b.
Proof. congruence. Qed.
Lemma seg_version_or0 x v : seg_version x v <-> v = or0 (sb_version x).
Proof.
  unfold seg_version, or0. destruct (sb_version x) as [w|].
  - split; [intros [H|[H _]]; congruence|intros ->; auto].
  - split; [intros [H|[_ H]]; congruence|intros ->; auto].
Qed.
Lemma truthy_true b : truthy b = true <-> b = Some true.
Proof. destruct b as [[]|]; cbn; split; congruence. Qed.
Lemma conservative_gen l c : l <> [] -> (c = true -> forall x, In x l -> sb_consistent x = Some true) ->
  conservative l (forallb sb_active l, max_list (map (fun x => or0 (sb_version x)) l), c).
Proof.
  intros N HC. unfold conservative. repeat split; auto.
  - rewrite forallb_forall in H. exact H.
  - intros [_ H]. apply forallb_forall. exact H.
  - intros _. assert (M : map (fun x => or0 (sb_version x)) l <> []) by (destruct l; [contradiction|discriminate]).
    apply max_list_in in M. apply in_map_iff in M. destruct M as (x & E & H). exists x. split; auto. apply seg_version_or0; auto.
  - intros x v H E. apply seg_version_or0 in E. subst v. apply max_list_ge. apply in_map_iff. eauto.
Qed.
Lemma summary_conservative l : conservative l (summary_status l).
Proof.
  destruct l as [|x l].
  - cbn. split; [split; [discriminate|intros [H _]; contradiction]|]. split; [contradiction|]. split; [intros; contradiction|discriminate].
  - unfold summary_status. apply conservative_gen; [discriminate|]. intros H y Hy. rewrite forallb_forall in H. apply truthy_true. apply H; auto.
Qed.
Lemma recursive_conservative l d : recursive_status l = Ok d -> conservative l d.
Proof.
  destruct l as [|x l].
  - intros H. inversion H. apply (summary_conservative []).
  - unfold recursive_status. set (y := x :: l). assert (N : y <> []) by discriminate. clearbody y.
    set (c := forallb (fun x => truthy (sb_consistent x)) y).
    assert (HC : c = true -> forall x, In x y -> sb_consistent x = Some true).
    { intros H z Hz. unfold c in H. rewrite forallb_forall in H. apply truthy_true. apply H; auto. }
    pose proof (conservative_gen y c N HC) as G. clearbody c. clear HC.
    destruct y as [|a [|b r]]; [contradiction| |].
    + cbn. intros H. inversion H; subst. cbn in G. exact G.
    + cbn [map]. match goal with |- Base.bind (if ?b then _ else _) _ = _ -> _ => destruct b end; cbn [Base.bind]; [|discriminate]. intros H. apply ok_inj in H. subst d. cbn [map] in G |- *.
      rewrite map_map. exact G.
Qed.
Lemma notify_conservative l : l <> [] -> conservative l (notify_status l) /\ (snd (notify_status l) = true <-> (forall x, In x l -> sb_consistent x = Some true) /\ agreeing l).
Proof.
  intros N. unfold notify_status.
  set (c := forallb (fun x => truthy (sb_consistent x)) l && forallb _ l).
  assert (HC : c = true <-> (forall x, In x l -> sb_consistent x = Some true) /\ agreeing l).
  { unfold c. rewrite andb_true_iff, !forallb_forall. destruct l as [|a l]; [contradiction|].
    split; intros [H1 H2]; split.
    - intros x Hx. apply truthy_true; auto.
    - intros x y Hx Hy. apply H2 in Hx. apply H2 in Hy. apply eqb_prop in Hx. apply eqb_prop in Hy. congruence.
    - intros x Hx. apply truthy_true; auto.
    - intros x Hx. rewrite (H2 x a Hx); [apply eqb_reflx|cbn; auto]. }
  split; [|exact HC]. apply conservative_gen; auto. intros H. apply HC in H. tauto.
Qed.
