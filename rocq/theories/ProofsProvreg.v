(** Proofs about the provider registry. *)
From Verif Require Import Base ModelProvreg.

Definition pinv (s : provreg) : Prop := akeys (pr_providers s) = akeys (pr_urns s).

Lemma ahas_keys {V W} (d : list (string * V)) (e : list (string * W)) k : akeys d = akeys e -> ahas k d = ahas k e.
Proof.
  intros E. unfold ahas. destruct (aget k d) eqn:E1, (aget k e) eqn:E2; try reflexivity; exfalso.
  - apply aget_Some_In_keys in E1. rewrite E in E1. apply aget_None in E2. contradiction.
  - apply aget_Some_In_keys in E2. rewrite <- E in E2. apply aget_None in E1. contradiction.
Qed.

Lemma add_provider_inv urn net p s : pinv s -> pinv (fst (add_provider urn net p s)).
Proof.
  intros Hi. unfold add_provider. destruct (ahas net (pr_providers s)) eqn:E; [exact Hi|]. unfold pinv. cbn [fst pr_providers pr_urns].
  rewrite !akeys_aset. rewrite <- (ahas_keys _ _ net Hi), E, Hi. reflexivity.
Qed.
Lemma spawn_inv ag net s : pinv s -> pinv (fst (spawn_provider ag net s)).
Proof.
  intros Hi. unfold spawn_provider. destruct (aget net (pr_providers s)); [exact Hi|].
  destruct (first_with_urn (ag_urn ag) (pr_urns s)) as [o|].
  - destruct (aget o (pr_providers s)) as [p|]; [|exact Hi]. pose proof (add_provider_inv (ag_urn ag) net p s Hi) as H.
    destruct (add_provider (ag_urn ag) net p s) as [s' [e|]]; exact H.
  - destruct (ag_service ag) as [st|]; [|exact Hi]. destruct (negb (mem st (pr_factories s))); [exact Hi|].
    match goal with |- context [add_provider _ _ _ ?x] => set (s1 := x) end.
    assert (H1 : pinv s1) by exact Hi.
    pose proof (add_provider_inv (ag_urn ag) net (pr_next s) s1 H1) as H.
    destruct (add_provider (ag_urn ag) net (pr_next s) s1) as [s' [e|]]; exact H.
Qed.
Lemma pr_run_inv fs n ops : pinv (pr_run fs n ops).
Proof.
  unfold pr_run. assert (H : pinv (pr_init fs n)) by reflexivity. revert H. generalize (pr_init fs n).
  induction ops as [|o ops IH]; intros s H; cbn [fold_left]; [exact H|]. apply IH.
  destruct o; [apply add_provider_inv|apply spawn_inv]; exact H.
Qed.

Lemma step_keeps s o net p : aget net (pr_providers s) = Some p -> aget net (pr_providers (pr_step s o)) = Some p.
Proof.
  assert (Ha : forall urn n q s0, aget net (pr_providers s0) = Some p -> aget net (pr_providers (fst (add_provider urn n q s0))) = Some p).
  { intros urn n q s0 H. unfold add_provider. destruct (ahas n (pr_providers s0)) eqn:E; [exact H|]. cbn.
    rewrite aget_aset_ne; [exact H|]. intros <-. unfold ahas in E. rewrite H in E. discriminate. }
  intros H. destruct o as [urn n q|ag n]; cbn [pr_step]; [auto|].
  unfold spawn_provider. destruct (aget n (pr_providers s)); [exact H|].
  destruct (first_with_urn (ag_urn ag) (pr_urns s)) as [o|].
  - destruct (aget o (pr_providers s)) as [p0|]; [|exact H]. specialize (Ha (ag_urn ag) n p0 s H).
    destruct (add_provider (ag_urn ag) n p0 s) as [s' [e|]]; exact Ha.
  - destruct (ag_service ag) as [st|]; [|exact H]. destruct (negb (mem st (pr_factories s))); [exact H|].
    match goal with |- context [add_provider _ _ _ ?x] => set (s1 := x) end.
    assert (H1 : aget net (pr_providers s1) = Some p) by exact H.
    specialize (Ha (ag_urn ag) n (pr_next s) s1 H1). destruct (add_provider (ag_urn ag) n (pr_next s) s1) as [s' [e|]]; exact Ha.
Qed.

Theorem c20_stable fs n ops ops' net p :
  get_provider net (pr_run fs n ops) = Ok p -> get_provider net (pr_run fs n (ops ++ ops')) = Ok p.
Proof.
  unfold pr_run at 2. rewrite fold_left_app. fold (pr_run fs n ops). generalize (pr_run fs n ops) as s.
  unfold get_provider. destruct (ends_with ":nsa" net); [discriminate|].
  induction ops' as [|o ops' IH]; intros s H; cbn [fold_left]; [exact H|].
  apply IH. destruct (aget net (pr_providers s)) as [q|] eqn:E; [|discriminate]. rewrite (step_keeps _ o _ _ E). exact H.
Qed.

Lemma first_with_urn_Some urn l n : first_with_urn urn l = Some n -> In (n, urn) l.
Proof.
  induction l as [|[k u] l IH]; cbn; [discriminate|]. destruct (eqb_ok u urn) as [->|Hn]; [intros [= ->]; auto|auto].
Qed.
Lemma first_with_urn_None urn l : first_with_urn urn l = None <-> forall n, ~ In (n, urn) l.
Proof.
  induction l as [|[k u] l IH]; cbn.
  - split; [intros _ n []|reflexivity].
  - destruct (eqb_ok u urn) as [->|Hn].
    + split; [discriminate|]. intros H. exfalso. apply (H k). auto.
    + rewrite IH. split; intros H m.
      * intros [E|Hi]; [congruence|exact (H m Hi)].
      * intros Hi. apply (H m). auto.
Qed.

Lemma add_fresh urn net p s : aget net (pr_providers s) = None ->
  add_provider urn net p s =
  (mkPR (aset net p (pr_providers s)) (aset net urn (pr_urns s)) (pr_factories s) (pr_next s) (pr_spawned s), None).
Proof. intros E. unfold add_provider, ahas. rewrite E. reflexivity. Qed.

Theorem c20_spawn_known fs n ops ag net p : let s := pr_run fs n ops in
  aget net (pr_providers s) = Some p -> spawn_provider ag net s = (s, Ok (Some p)).
Proof. intros s H. unfold spawn_provider. rewrite H. reflexivity. Qed.

Lemma run_urn_nodup fs n ops : NoDup (akeys (pr_urns (pr_run fs n ops))).
Proof.
  unfold pr_run. assert (H : NoDup (akeys (pr_urns (pr_init fs n)))) by constructor. revert H. generalize (pr_init fs n).
  assert (Ha : forall urn net p s, NoDup (akeys (pr_urns s)) -> NoDup (akeys (pr_urns (fst (add_provider urn net p s))))).
  { intros urn net p s H. unfold add_provider. destruct (ahas net (pr_providers s)); [exact H|]. cbn. apply NoDup_akeys_aset. exact H. }
  induction ops as [|o ops IH]; intros s H; cbn [fold_left]; [exact H|]. apply IH.
  destruct o as [urn net p|ag net]; cbn [pr_step]; [auto|].
  unfold spawn_provider. destruct (aget net (pr_providers s)); [exact H|].
  destruct (first_with_urn (ag_urn ag) (pr_urns s)) as [o|].
  - destruct (aget o (pr_providers s)) as [p|]; [|exact H]. specialize (Ha (ag_urn ag) net p s H).
    destruct (add_provider (ag_urn ag) net p s) as [s' [e|]]; exact Ha.
  - destruct (ag_service ag) as [st|]; [|exact H]. destruct (negb (mem st (pr_factories s))); [exact H|].
    match goal with |- context [add_provider _ _ _ ?x] => set (s1 := x) end.
    specialize (Ha (ag_urn ag) net (pr_next s) s1 H). destruct (add_provider (ag_urn ag) net (pr_next s) s1) as [s' [e|]]; exact Ha.
Qed.

Theorem c20_spawn_shared fs n ops ag net : let s := pr_run fs n ops in
  aget net (pr_providers s) = None -> (exists other, get_provider_urn other s = Ok (ag_urn ag)) ->
  exists other p, get_provider_urn other s = Ok (ag_urn ag) /\ aget other (pr_providers s) = Some p /\
    let s' := fst (spawn_provider ag net s) in
    aget net (pr_providers s') = Some p /\ get_provider_urn net s' = Ok (ag_urn ag) /\
    pr_spawned s' = pr_spawned s /\ pr_next s' = pr_next s /\
    (forall m, m <> net -> aget m (pr_providers s') = aget m (pr_providers s)).
Proof.
  intros s Hn (o0 & Ho). pose proof (pr_run_inv fs n ops) as Hi. pose proof (run_urn_nodup fs n ops) as Hnd. fold s in Hi, Hnd.
  unfold spawn_provider. rewrite Hn.
  assert (Hin : In (o0, ag_urn ag) (pr_urns s)).
  { unfold get_provider_urn in Ho. destruct (aget o0 (pr_urns s)) eqn:E; [|discriminate]. injection Ho as ->. apply aget_In. exact E. }
  destruct (first_with_urn (ag_urn ag) (pr_urns s)) as [o|] eqn:Ef.
  2:{ exfalso. rewrite first_with_urn_None in Ef. exact (Ef o0 Hin). }
  apply first_with_urn_Some in Ef.
  pose proof (in_map fst _ _ Ef) as Hk. cbn in Hk. change (map fst (pr_urns s)) with (akeys (pr_urns s)) in Hk. rewrite <- Hi in Hk.
  destruct (aget o (pr_providers s)) as [p|] eqn:Ep; [|apply aget_None in Ep; contradiction].
  exists o, p. split; [unfold get_provider_urn; rewrite (In_aget _ _ _ Hnd Ef); reflexivity|]. split; [exact Ep|].
  rewrite (add_fresh _ _ _ _ Hn). cbn. unfold get_provider_urn. cbn. rewrite !aget_aset_eq.
  repeat (split; [reflexivity|]). intros m Hm. apply aget_aset_ne. exact Hm.
Qed.

Theorem c20_spawn_new fs n ops ag net st : let s := pr_run fs n ops in
  aget net (pr_providers s) = None -> (forall other, get_provider_urn other s <> Ok (ag_urn ag)) ->
  ag_service ag = Some st -> In st fs ->
  let s' := fst (spawn_provider ag net s) in
  snd (spawn_provider ag net s) = Ok (Some (pr_next s)) /\
  aget net (pr_providers s') = Some (pr_next s) /\ get_provider_urn net s' = Ok (ag_urn ag) /\
  pr_spawned s' = pr_spawned s ++ [(pr_next s, ag)] /\
  (forall m, m <> net -> aget m (pr_providers s') = aget m (pr_providers s)).
Proof.
  intros s Hn Ho Hst Hf.
  assert (Hfs : pr_factories s = fs).
  { unfold s, pr_run. assert (H : pr_factories (pr_init fs n) = fs) by reflexivity. revert H. generalize (pr_init fs n).
    clear. assert (Ha : forall urn net p s, pr_factories (fst (add_provider urn net p s)) = pr_factories s).
    { intros. unfold add_provider. destruct (ahas _ _); reflexivity. }
    induction ops as [|o ops IH]; intros s H; cbn [fold_left]; [exact H|]. apply IH. rewrite <- H.
    destruct o as [urn net p|ag net]; cbn [pr_step]; [apply Ha|].
    unfold spawn_provider. destruct (aget net (pr_providers s)); [reflexivity|].
    destruct (first_with_urn (ag_urn ag) (pr_urns s)) as [o|].
    - destruct (aget o (pr_providers s)) as [p|]; [|reflexivity]. specialize (Ha (ag_urn ag) net p s).
      destruct (add_provider (ag_urn ag) net p s) as [s' [e|]]; exact Ha.
    - destruct (ag_service ag) as [st|]; [|reflexivity]. destruct (negb (mem st (pr_factories s))); [reflexivity|].
      match goal with |- context [add_provider _ _ _ ?x] => set (s1 := x) end.
      specialize (Ha (ag_urn ag) net (pr_next s) s1). destruct (add_provider (ag_urn ag) net (pr_next s) s1) as [s' [e|]]; exact Ha. }
  unfold spawn_provider. rewrite Hn.
  destruct (first_with_urn (ag_urn ag) (pr_urns s)) as [o|] eqn:Ef.
  { exfalso. apply first_with_urn_Some in Ef. apply (Ho o). unfold get_provider_urn.
    rewrite (In_aget _ _ _ (run_urn_nodup fs n ops) Ef). reflexivity. }
  rewrite Hst, Hfs, (proj2 (mem_In _ _) Hf). cbn [negb]. rewrite add_fresh by exact Hn. cbn. unfold get_provider_urn. cbn.
  rewrite !aget_aset_eq. repeat (split; [reflexivity|]). intros m Hm. apply aget_aset_ne. exact Hm.
Qed.

Theorem c20_unknown fs n ops net : let s := pr_run fs n ops in
  ends_with ":nsa" net = false -> (forall u p, ~ In (PAdd u net p) ops) -> (forall ag, ~ In (PSpawn ag net) ops) ->
  get_provider net s = Err ESTPResolution.
Proof.
  intros s He Ha Hs. unfold get_provider. rewrite He.
  assert (E : aget net (pr_providers s) = None); [|rewrite E; reflexivity].
  unfold s, pr_run. assert (H : aget net (pr_providers (pr_init fs n)) = None) by reflexivity. revert H. generalize (pr_init fs n).
  clear s He.
  assert (Hadd : forall urn m p s, m <> net -> aget net (pr_providers s) = None -> aget net (pr_providers (fst (add_provider urn m p s))) = None).
  { intros urn m p s Hm H. unfold add_provider. destruct (ahas m (pr_providers s)); [exact H|]. cbn. rewrite aget_aset_ne by congruence. exact H. }
  induction ops as [|o ops IH]; intros s H; cbn [fold_left]; [exact H|].
  apply IH; [intros u p Hi; apply (Ha u p); cbn; auto | intros ag Hi; apply (Hs ag); cbn; auto |].
  destruct o as [urn m p|ag m]; cbn [pr_step].
  - apply Hadd; [intros ->; apply (Ha urn p); cbn; auto|exact H].
  - assert (Hm : m <> net) by (intros ->; apply (Hs ag); cbn; auto).
    unfold spawn_provider. destruct (aget m (pr_providers s)); [exact H|].
    destruct (first_with_urn (ag_urn ag) (pr_urns s)) as [o|].
    + destruct (aget o (pr_providers s)) as [p|]; [|exact H]. specialize (Hadd (ag_urn ag) m p s Hm H).
      destruct (add_provider (ag_urn ag) m p s) as [s' [e|]]; exact Hadd.
    + destruct (ag_service ag) as [st|]; [|exact H]. destruct (negb (mem st (pr_factories s))); [exact H|].
      match goal with |- context [add_provider _ _ _ ?x] => set (s1 := x) end.
      specialize (Hadd (ag_urn ag) m (pr_next s) s1 Hm H). destruct (add_provider (ag_urn ag) m (pr_next s) s1) as [s' [e|]]; exact Hadd.
Qed.

Theorem c20_double urn net p s : aget net (pr_providers s) <> None -> add_provider urn net p s = (s, Some EValue).
Proof. intros H. unfold add_provider, ahas. destruct (aget net (pr_providers s)); [reflexivity|congruence]. Qed.

(** names of agents *)
Lemma sdrop_app n : forall s, exists t, s = t +++ sdrop n s.
Proof.
  induction n as [|n IH]; intros s; [exists ""; destruct s; reflexivity|].
  destruct s as [|c s]; [exists ""; reflexivity|]. destruct (IH s) as (t & E). exists (String c t). cbn. rewrite <- E. reflexivity.
Qed.
Lemma sdrop_tail t s : sdrop (String.length t) (t +++ s) = s.
Proof. induction t as [|c t IH]; [destruct s; reflexivity|exact IH]. Qed.
Lemma length_append a b : String.length (a +++ b) = (String.length a + String.length b)%nat.
Proof. induction a as [|c a IH]; [reflexivity|]. cbn. rewrite <- IH. reflexivity. Qed.
Lemma ends_iff x s : ends_with x s = true <-> exists t, s = t +++ x.
Proof.
  unfold ends_with. split.
  - intros H. apply andb_prop in H as [_ H]. apply String.eqb_eq in H. destruct (sdrop_app (String.length s - String.length x) s) as (t & E). rewrite H in E. eauto.
  - intros (t & ->). rewrite length_append. apply andb_true_iff. split; [apply Nat.leb_le; lia|].
    replace (String.length t + String.length x - String.length x)%nat with (String.length t) by lia. rewrite sdrop_tail. apply String.eqb_refl.
Qed.
