(** Proofs about the discovery poller. *)
From Verif Require Import Base BaseProofs ModelSTP ModelProvreg ProofsProvreg ModelLinkVector SpecLinkVector ProofsLinkVector ModelDiscovery SpecDiscovery.
Open Scope Z_scope.

(** * Intervals *)
Fixpoint interval_after {P} (peers : list P) (n : nat) : Z :=
  match n with O => start_interval | S m => fetch_documents peers (interval_after peers m) end.
Lemma interval_closed {P} (p : P) ps n : interval_after (p :: ps) n = Z.min (5 * 2 ^ Z.of_nat n) 3600.
Proof.
  induction n as [|n IH]; [reflexivity|]. cbn [interval_after fetch_documents]. rewrite IH. unfold FETCH_INTERVAL_MAX.
  rewrite Nat2Z.inj_succ, Z.pow_succ_r by lia. lia.
Qed.
Lemma interval_grows {P} (p : P) ps n : interval_after (p :: ps) n <= interval_after (p :: ps) (S n) <= 2 * interval_after (p :: ps) n.
Proof.
  rewrite !interval_closed, Nat2Z.inj_succ, Z.pow_succ_r by lia. pose proof (Z.pow_pos_nonneg 2 (Z.of_nat n)). lia.
Qed.
Lemma until_next_bound i w : 0 < i -> 0 < until_next i w <= i * 1000000.
Proof. intros H. unfold until_next. pose proof (Z.mod_pos_bound w (i * 1000000) ltac:(lia)). lia. Qed.
Lemma poll_times_len {P} (peers : list P) durs : forall w i, List.length (poll_times peers w i durs) = S (List.length durs).
Proof. induction durs as [|d r IH]; intros w i; cbn [poll_times List.length]; [reflexivity|]. destruct (poll _ _ _ _) as [w' i']. cbn [List.length]. rewrite IH. reflexivity. Qed.
Lemma poll_times_head {P} (peers : list P) durs w i : nth_error (poll_times peers w i durs) 0 = Some w.
Proof. destruct durs; reflexivity. Qed.
Lemma poll_times_gap {P} (p : P) ps durs : forall w i n t t' d, 0 < i -> nth_error (poll_times (p :: ps) w i durs) n = Some t ->
  nth_error (poll_times (p :: ps) w i durs) (S n) = Some t' -> nth_error durs n = Some d ->
  exists iv, 0 < t' - (t + d) <= iv * 1000000 /\ iv <= 3600.
Proof.
  induction durs as [|e r IH]; intros w i n t t' d Hi H1 H2 Hd; [destruct n; discriminate|].
  cbn [poll_times] in H1, H2. destruct (poll (p :: ps) w i e) as [w' i'] eqn:E. assert (Ew : w' = w + e + until_next (fetch_documents (p :: ps) i) (w + e)) by (unfold poll in E; congruence).
  assert (Ei : i' = fetch_documents (p :: ps) i) by (unfold poll in E; congruence). subst w' i'. clear E.
  set (i1 := fetch_documents (p :: ps) i) in *. assert (Hi1 : 0 < i1) by (unfold i1, fetch_documents, FETCH_INTERVAL_MAX; lia).
  destruct n as [|n].
  - cbn in H1, Hd. injection H1 as <-. injection Hd as <-.
    assert (E : t' = w + e + until_next i1 (w + e)) by (assert (H2' : nth_error (poll_times (p :: ps) (w + e + until_next i1 (w + e)) i1 r) 0 = Some t') by exact H2; pose proof (poll_times_head (p :: ps) r (w + e + until_next i1 (w + e)) i1) as Hh; rewrite Hh in H2'; congruence).
    exists i1. pose proof (until_next_bound i1 (w + e) Hi1). split; [lia|unfold i1, fetch_documents, FETCH_INTERVAL_MAX; lia].
  - cbn [nth_error] in H1, H2, Hd. exact (IH _ _ n t t' d Hi1 H1 H2 Hd).
Qed.

(** * Documents *)
Lemma prefix_drop u : starts_with URN_NETWORK u = true <-> exists n, u = URN_NETWORK +++ n.
Proof.
  assert (G : forall p s, starts_with p s = true <-> exists n, s = p +++ n).
  { induction p as [|c p IH]; intros s; cbn; [split; eauto|]. destruct s as [|d s]; [split; [discriminate|intros (n & E); discriminate]|].
    rewrite andb_true_iff, IH. split; [intros (E & n & ->); apply Ascii.eqb_eq in E; subst d; eauto|].
    intros (n & E). injection E as -> ->. split; [apply Ascii.eqb_refl|eauto]. }
  apply G.
Qed.
Lemma drop_prefix n : sdrop (String.length URN_NETWORK) (URN_NETWORK +++ n) = n.
Proof. reflexivity. Qed.
Lemma base_names_In l n : In n (base_names l) <-> In (URN_NETWORK +++ n) l.
Proof.
  unfold base_names. rewrite in_map_iff. split.
  - intros (u & E & H). apply filter_In in H as [H1 H2]. apply prefix_drop in H2 as [m ->]. rewrite drop_prefix in E. subst m. exact H1.
  - intros H. exists (URN_NETWORK +++ n). split; [apply drop_prefix|]. apply filter_In. split; [exact H|]. apply prefix_drop. eauto.
Qed.

Lemma url_spec ifs : match service_url ifs with Some u => url_of ifs u | None => forall x, ~ In (CS2_PROVIDER, x) ifs /\ ~ In (CS2_SERVICE_TYPE, x) ifs end.
Proof.
  change CS2_PROVIDER with provider_interface. change CS2_SERVICE_TYPE with old_interface.
  unfold service_url. change CS2_PROVIDER with provider_interface. change CS2_SERVICE_TYPE with old_interface. induction ifs as [|[t u] ifs IH] using rev_ind; [cbn; tauto|].
  rewrite fold_left_app. cbn [fold_left fst snd].
  set (f := fold_left _ ifs None) in *.
  destruct (eqb_ok t provider_interface) as [->|Hp].
  - apply (url_provider _ ifs u []); [reflexivity|auto].
  - destruct f as [v|].
    + destruct IH as [a w b E Hb|a w b E Ha Hn].
      * apply (url_provider _ a w (b ++ [(t, u)])); [rewrite E, <- app_assoc; reflexivity|].
        intros x Hx. apply in_app_iff in Hx as [Hx|[Hx|[]]]; [exact (Hb _ Hx)|congruence].
      * apply (url_compat _ a w (b ++ [(t, u)])); [rewrite E, <- app_assoc; reflexivity|exact Ha|].
        intros x Hx. apply in_app_iff in Hx as [Hx|[Hx|[]]]; [exact (Hn _ Hx)|congruence].
    + destruct (eqb_ok t old_interface) as [->|Hs].
      * apply (url_compat _ ifs u []); [reflexivity|intros x; apply IH|].
        intros x Hx. apply in_app_iff in Hx as [Hx|[Hx|[]]]; [exact (proj1 (IH _) Hx)|discriminate].
      * intros x. rewrite !in_app_iff. destruct (IH x) as [I1 I2]. split; intros [Hx|[Hx|[]]]; try tauto; congruence.
Qed.

Lemma aset_fold_own (nets : list string) : forall (v : vdict) n, aget n (fold_left (fun v n => aset n 1 v) nets v) = if mem n nets then Some 1 else aget n v.
Proof.
  induction nets as [|m nets IH]; intros v n; cbn [fold_left]; [reflexivity|]. rewrite IH, aget_aset.
  unfold mem. cbn [existsb]. fold (mem n nets). destruct (mem n nets); [rewrite orb_true_r; reflexivity|]. rewrite orb_false_r. reflexivity.
Qed.
Lemma aset_fold_nodup {A} (f : vdict -> A -> vdict) l : (forall v x, NoDup (akeys v) -> NoDup (akeys (f v x))) -> forall v, NoDup (akeys v) -> NoDup (akeys (fold_left f l v)).
Proof. intros Hf. induction l as [|x l IH]; intros v Hv; cbn [fold_left]; auto. Qed.
Lemma doc_vectors_nodup d : NoDup (akeys (doc_vectors d)).
Proof.
  unfold doc_vectors. apply aset_fold_nodup; [intros; apply NoDup_akeys_aset; assumption|].
  apply aset_fold_nodup; [|constructor]. intros v [u c] Hv. cbn [fst snd]. destruct (starts_with _ _); [apply NoDup_akeys_aset|]; assumption.
Qed.
Lemma reach_fold l : forall n, let v := fold_left (fun v (e : string * Z) => if starts_with URN_NETWORK (fst e)
       then aset (sdrop (String.length URN_NETWORK) (fst e)) (snd e + 1) v else v) l [] in
  (exists a c b, l = a ++ (URN_NETWORK +++ n, c) :: b /\ (forall c', ~ In (URN_NETWORK +++ n, c') b) /\ aget n v = Some (c + 1)) \/
  ((forall c, ~ In (URN_NETWORK +++ n, c) l) /\ aget n v = None).
Proof.
  induction l as [|[u c] l IH] using rev_ind; intros n; [right; cbn; tauto|]. rewrite fold_left_app. cbn [fold_left fst snd].
  set (v := fold_left _ l []) in *. specialize (IH n). cbn zeta in *. destruct (starts_with URN_NETWORK u) eqn:E.
  - apply prefix_drop in E as [m ->]. rewrite drop_prefix. rewrite aget_aset. destruct (eqb_ok n m) as [<-|Hn].
    + left. exists l, c, []. auto.
    + assert (Hne : URN_NETWORK +++ n <> URN_NETWORK +++ m) by (intros E; apply Hn; rewrite <- (drop_prefix n), E; apply drop_prefix).
      destruct IH as [(a & c0 & b & El & Hb & Hg)|[Hb Hg]].
      * left. exists a, c0, (b ++ [(URN_NETWORK +++ m, c)]). split; [rewrite El, <- app_assoc; reflexivity|]. split; [|exact Hg].
        intros c' Hx. apply in_app_iff in Hx as [Hx|[Hx|[]]]; [exact (Hb _ Hx)|congruence].
      * right. split; [|exact Hg]. intros c' Hx. apply in_app_iff in Hx as [Hx|[Hx|[]]]; [exact (Hb _ Hx)|congruence].
  - assert (Hne : forall n, u <> URN_NETWORK +++ n) by (intros m ->; assert (E2 : starts_with URN_NETWORK (URN_NETWORK +++ m) = true) by (apply prefix_drop; eauto); congruence).
    destruct IH as [(a & c0 & b & El & Hb & Hg)|[Hb Hg]].
    + left. exists a, c0, (b ++ [(u, c)]). split; [rewrite El, <- app_assoc; reflexivity|]. split; [|exact Hg].
      intros c' Hx. apply in_app_iff in Hx as [Hx|[Hx|[]]]; [exact (Hb _ Hx)|]. injection Hx as Hx _. exact (Hne n Hx).
    + right. split; [|exact Hg]. intros c' Hx. apply in_app_iff in Hx as [Hx|[Hx|[]]]; [exact (Hb _ Hx)|]. injection Hx as Hx _. exact (Hne n Hx).
Qed.
Lemma doc_vectors_wanted d n : wanted d n (aget n (doc_vectors d)).
Proof.
  unfold doc_vectors. rewrite aset_fold_own. destruct (mem n (base_names (d_networks d))) eqn:E.
  - apply mem_In, base_names_In in E. constructor. exact E.
  - assert (Hn : ~ own_network d n) by (intros H; apply base_names_In, mem_In in H; congruence).
    destruct (reach_fold (d_reach d) n) as [(a & c & b & El & Hb & Hg)|[Hb Hg]]; rewrite Hg; [apply want_other; [exact Hn|]; exists a, b; auto|].
    apply want_none; auto.
Qed.
Lemma wanted_fun d n x y : wanted d n x -> wanted d n y -> x = y.
Proof.
  assert (L : forall c c', advertised d n c -> advertised d n c' -> c = c').
  { intros c c' (a & b & E & Hb) (a' & b' & E' & Hb'). rewrite E in E'. clear E. revert a' E'.
    induction a as [|x1 a IH]; intros [|x2 a'] E'; cbn in E'.
    - congruence.
    - injection E' as <- E'. exfalso. apply (Hb c'). rewrite E'. apply in_elt.
    - injection E' as -> E'. exfalso. apply (Hb' c). rewrite <- E'. apply in_elt.
    - injection E' as _ E'. eauto. }
  assert (N : forall c, advertised d n c -> not_advertised d n -> False).
  { intros c (a & b & E & _) Hn. apply (Hn c). rewrite E. apply in_elt. }
  intros [H1|c H1 A1|H1 N1] [H2|c' H2 A2|H2 N2]; try tauto; try reflexivity; try (exfalso; eauto; fail).
  f_equal. f_equal. eauto.
Qed.

Lemma matching_In nets pt net port : In (net, port) (matching_ports nets pt) <->
  exists ports r, In (net, ports) pt /\ In (port, Some r) ports /\ In r nets.
Proof.
  unfold matching_ports. rewrite in_flat_map. split.
  - intros ([n ports] & H1 & H2). apply in_map_iff in H2 as ([p r] & E & H3). cbn in E. injection E as -> ->.
    apply filter_In in H3 as [H3 H4]. cbn in H4. destruct r as [r|]; [|discriminate]. apply mem_In in H4. eauto 6.
  - intros (ports & r & H1 & H2 & H3). exists (net, ports). split; [exact H1|]. apply in_map_iff. exists (port, Some r). split; [reflexivity|].
    apply filter_In. split; [exact H2|]. cbn. apply mem_In. exact H3.
Qed.

Lemma vectors_get s k : aget k (lv_table s) = option_map (fun i => nth i (lv_heap s) []) (aget k (lv_vecs s)).
Proof. unfold lv_table. induction (lv_vecs s) as [|[k1 i] l IH]; cbn; [reflexivity|]. destruct (eqb k k1); [reflexivity|exact IH]. Qed.

(** state after updating the ports [done] with the dictionary object [r] *)
Section Update.
Variables (s0 : lvec) (v : vdict) (r : nat).
Hypothesis Hv : NoDup (akeys v).
Hypothesis Hr : r = List.length (lv_heap s0).
Hypothesis I0 : linv s0.
Definition hit (done : list (string * string)) (i : nat) : Prop := exists k, In k done /\ aget k (lv_vecs s0) = Some i.
Record upto (done : list (string * string)) (s : lvec) : Prop := {
  u_inv  : linv s;
  u_len  : List.length (lv_heap s) = S r;
  u_vecs : forall k, aget k (lv_vecs s) = match aget k (lv_vecs s0) with Some i => Some i | None => if mem k done then Some r else None end;
  u_new  : forall n, aget n (nth r (lv_heap s) []) = aget n v;
  u_hit  : forall i n, (i < r)%nat -> hit done i -> aget n (nth i (lv_heap s) []) = match aget n (nth i (lv_heap s0) []) with Some c => Some c | None => aget n v end;
  u_miss : forall i, (i < r)%nat -> ~ hit done i -> nth i (lv_heap s) [] = nth i (lv_heap s0) [] }.

Lemma hit_snoc done k i : hit (done ++ [k]) i <-> hit done i \/ aget k (lv_vecs s0) = Some i.
Proof.
  unfold hit. split.
  - intros (x & Hx & E). apply in_app_iff in Hx as [Hx|[<-|[]]]; eauto.
  - intros [(x & Hx & E)|E]; [exists x; split; [apply in_app_iff; auto|exact E]|]. exists k. split; [apply in_app_iff; right; left; reflexivity|exact E].
Qed.
Lemma hit_dec done i : hit done i \/ ~ hit done i.
Proof.
  destruct (existsb (fun k => eqb (aget k (lv_vecs s0)) (Some i)) done) eqn:E.
  - left. apply existsb_exists in E as (k & Hk & E). exists k. split; [exact Hk|]. apply (proj1 (eqb_true _ _)) in E. exact E.
  - right. intros (k & Hk & Hx). rewrite (proj2 (existsb_exists _ _)) in E; [discriminate|]. exists k. split; [exact Hk|]. rewrite Hx. apply eqb_refl.
Qed.
Lemma mem_snoc (k x : string * string) done : mem x (done ++ [k]) = (mem x done || eqb x k)%bool.
Proof. unfold mem. rewrite existsb_app. cbn [existsb]. rewrite orb_false_r. reflexivity. Qed.

Lemma upto_step done s net port : upto done s ->
  snd (lv_step s (LUpdate net port r)) = None /\ upto (done ++ [(net, port)]) (fst (lv_step s (LUpdate net port r))).
Proof.
  intros [I L V N H M].
  assert (Ho : op_ok (lv_black s) (List.length (lv_heap s)) (LUpdate net port r)) by (cbn; lia).
  destruct (lv_step_linv s _ I Ho) as (I' & _ & _ & L' & Hx).
  split; [destruct Hx as [Hx|(n & E & _)]; [exact Hx|discriminate]|].
  assert (Fd : exists hp vc, lv_heap (fst (lv_step s (LUpdate net port r))) = hp /\ lv_vecs (fst (lv_step s (LUpdate net port r))) = vc /\
     match aget (net, port) (lv_vecs s) with
     | Some r0 => hp = set_nth r0 (merge_new (nth r0 (lv_heap s) []) (nth r (lv_heap s) [])) (lv_heap s) /\ vc = lv_vecs s
     | None => hp = lv_heap s /\ vc = aset (net, port) r (lv_vecs s) end).
  { do 2 eexists. split; [reflexivity|]. split; [reflexivity|]. cbn [lv_step]. unfold update_vector, calculate_vectors.
    destruct (aget (net, port) (lv_vecs s)) as [r0|]; match goal with |- context [calculate ?a ?x] => pose proof (calculate_fields a x) as (_ & _ & _ & Hh & Hvv) end; rewrite Hh, Hvv; split; reflexivity. }
  destruct Fd as (hp & vc & Ehp & Evc & Fd). cbn [lv_step] in *.
  assert (NDr : NoDup (akeys (nth r (lv_heap s) []))) by (apply (l_heap _ I); apply nth_In; lia).
  split.
  - exact I'.
  - rewrite L'. lia.
  - intros k. rewrite Evc, mem_snoc. destruct (aget (net, port) (lv_vecs s)) as [r0|] eqn:E0.
    + destruct Fd as [_ ->]. rewrite V. destruct (aget k (lv_vecs s0)) as [i|] eqn:E1; [reflexivity|]. destruct (mem k done) eqn:Em; [reflexivity|]. cbn [orb].
      destruct (eqb_ok k (net, port)) as [->|Hn]; [|reflexivity]. rewrite V, E1, Em in E0. discriminate.
    + destruct Fd as [_ ->]. rewrite aget_aset, V. rewrite V in E0. destruct (eqb_ok k (net, port)) as [->|Hn].
      * destruct (aget (net, port) (lv_vecs s0)); [discriminate|]. rewrite orb_true_r. reflexivity.
      * rewrite orb_false_r. reflexivity.
  - intros n. rewrite Ehp. destruct (aget (net, port) (lv_vecs s)) as [r0|] eqn:E0; [|destruct Fd as [-> _]; apply N].
    destruct Fd as [-> _]. assert (Hr0 : (r0 < List.length (lv_heap s))%nat) by (apply aget_In in E0; eapply l_refs; eauto).
    rewrite nth_set_nth by exact Hr0. destruct (Nat.eqb_spec r r0) as [<-|Hn]; [|apply N].
    rewrite merge_new_get by exact NDr. rewrite N. destruct (aget n v); reflexivity.
  - intros i n Hi Hh. rewrite Ehp. apply hit_snoc in Hh. rewrite V in Fd. destruct (aget (net, port) (lv_vecs s0)) as [r0|] eqn:E0.
    + destruct Fd as [-> _]. assert (Hr0 : (r0 < r)%nat) by (rewrite Hr; apply aget_In in E0; eapply l_refs; eauto).
      rewrite nth_set_nth by lia. destruct (Nat.eqb_spec i r0) as [->|Hn].
      * rewrite merge_new_get by exact NDr. rewrite N. destruct (hit_dec done r0) as [Hd|Hd].
        -- rewrite (H r0 n Hr0 Hd). destruct (aget n (nth r0 (lv_heap s0) [])); [reflexivity|]. destruct (aget n v); reflexivity.
        -- rewrite (M r0 Hr0 Hd). reflexivity.
      * apply H; [exact Hi|]. destruct Hh as [Hh|Hh]; [exact Hh|congruence].
    + destruct (mem (net, port) done).
      * destruct Fd as [-> _]. rewrite nth_set_nth by lia. destruct (Nat.eqb_spec i r) as [->|Hn]; [lia|]. apply H; [exact Hi|]. destruct Hh as [Hh|Hh]; [exact Hh|congruence].
      * destruct Fd as [-> _]. apply H; [exact Hi|]. destruct Hh as [Hh|Hh]; [exact Hh|congruence].
  - intros i Hi Hh. rewrite Ehp. rewrite hit_snoc in Hh. rewrite V in Fd. destruct (aget (net, port) (lv_vecs s0)) as [r0|] eqn:E0.
    + destruct Fd as [-> _]. assert (Hr0 : (r0 < r)%nat) by (rewrite Hr; apply aget_In in E0; eapply l_refs; eauto).
      rewrite nth_set_nth by lia. destruct (Nat.eqb_spec i r0) as [->|Hn]; [exfalso; apply Hh; auto|]. apply M; [exact Hi|tauto].
    + destruct (mem (net, port) done).
      * destruct Fd as [-> _]. rewrite nth_set_nth by lia. destruct (Nat.eqb_spec i r) as [->|Hn]; [lia|]. apply M; [exact Hi|tauto].
      * destruct Fd as [-> _]. apply M; [exact Hi|tauto].
Qed.
Lemma upto_all ports : forall done s, upto done s -> exists s', update_all ports r s = (s', None) /\ upto (done ++ ports) s'.
Proof.
  induction ports as [|[net port] l IH]; intros done s U; cbn [update_all].
  - exists s. rewrite app_nil_r. auto.
  - cbn [fst snd]. destruct (upto_step done s net port U) as [H1 H2]. destruct (lv_step s (LUpdate net port r)) as [s1 e]. cbn [fst snd] in *. subst e.
    destruct (IH _ _ H2) as (s' & E & U'). exists s'. split; [exact E|]. rewrite <- app_assoc in U'. exact U'.
Qed.
Lemma upto_start : upto [] (fst (lv_step s0 (LDict v))).
Proof.
  assert (Ho : op_ok (lv_black s0) (List.length (lv_heap s0)) (LDict v)) by exact Hv.
  destruct (lv_step_linv s0 _ I0 Ho) as (I' & _ & _ & L' & _). cbn [lv_step fst] in *. split.
  - exact I'.
  - rewrite L'. lia.
  - intros k. cbn. destruct (aget k (lv_vecs s0)); reflexivity.
  - intros n. cbn [lv_heap]. rewrite app_nth2 by lia. rewrite Hr, Nat.sub_diag. reflexivity.
  - intros i n Hi (k & [] & _).
  - intros i Hi _. cbn [lv_heap]. apply app_nth1. lia.
Qed.
End Update.

(** * Providers *)
Lemma first_with_urn_spec u l : match first_with_urn u l with Some n => In (n, u) l | None => forall n, ~ In (n, u) l end.
Proof.
  induction l as [|[n w] l IH]; cbn [first_with_urn]; [auto|]. destruct (eqb_ok w u) as [->|Hn]; [left; reflexivity|].
  destruct (first_with_urn u l); [right; exact IH|]. intros n0 [E|H]; [congruence|exact (IH _ H)].
Qed.
Definition knows (s : provreg) (u : string) : Prop := exists n, In (n, u) (pr_urns s).
Lemma spawn_cases ag net s st : pinv s -> ag_service ag = Some st -> In st (pr_factories s) ->
  (aget net (pr_providers s) <> None /\ exists p, spawn_provider ag net s = (s, Ok (Some p))) \/
  (aget net (pr_providers s) = None /\ exists other p r, In (other, ag_urn ag) (pr_urns s) /\ aget other (pr_providers s) = Some p /\
     spawn_provider ag net s = (mkPR (aset net p (pr_providers s)) (aset net (ag_urn ag) (pr_urns s)) (pr_factories s) (pr_next s) (pr_spawned s), Ok r)) \/
  (aget net (pr_providers s) = None /\ ~ knows s (ag_urn ag) /\ exists r,
     spawn_provider ag net s = (mkPR (aset net (pr_next s) (pr_providers s)) (aset net (ag_urn ag) (pr_urns s)) (pr_factories s) (S (pr_next s)) (pr_spawned s ++ [(pr_next s, ag)]), Ok r)).
Proof.
  intros Hi Hs Hf. unfold spawn_provider. destruct (aget net (pr_providers s)) as [p|] eqn:En.
  - left. split; [discriminate|]. exists p. reflexivity.
  - right. pose proof (first_with_urn_spec (ag_urn ag) (pr_urns s)) as Hw. destruct (first_with_urn (ag_urn ag) (pr_urns s)) as [o|].
    + left. split; [reflexivity|]. assert (Ho : exists p, aget o (pr_providers s) = Some p).
      { apply (in_map fst) in Hw. cbn in Hw. change (map fst (pr_urns s)) with (akeys (pr_urns s)) in Hw. rewrite <- Hi in Hw.
        destruct (aget o (pr_providers s)) as [p|] eqn:E; [eauto|]. apply aget_None in E. contradiction. }
      destruct Ho as [p Ho]. rewrite Ho. unfold add_provider, ahas. rewrite En. exists o, p, None. auto.
    + right. split; [reflexivity|]. split; [intros (n & Hn); exact (Hw n Hn)|]. rewrite Hs, (proj2 (mem_In _ _) Hf). cbn [negb].
      unfold add_provider, ahas. cbn [pr_providers]. rewrite En. eexists. reflexivity.
Qed.

Record spawned_all (ag : agent) (nets : list string) (s s' : provreg) : Prop := {
  sp_inv : pinv s'; sp_fact : pr_factories s' = pr_factories s;
  sp_keep : forall m p, aget m (pr_providers s) = Some p -> aget m (pr_providers s') = Some p;
  sp_frame : forall m, ~ In m nets -> aget m (pr_providers s') = aget m (pr_providers s);
  sp_urns : forall m u, aget m (pr_urns s) = Some u -> aget m (pr_urns s') = Some u;
  sp_all : forall m, In m nets -> aget m (pr_providers s') <> None;
  sp_urn : forall m, In m nets -> aget m (pr_providers s) = None -> aget m (pr_urns s') = Some (ag_urn ag);
  sp_list : forall m u, In (m, u) (pr_urns s') -> In (m, u) (pr_urns s) \/ u = ag_urn ag;
  sp_new : ~ knows s (ag_urn ag) -> (forall m, In m nets -> aget m (pr_providers s) <> None) /\ pr_spawned s' = pr_spawned s \/
     pr_spawned s' = pr_spawned s ++ [(pr_next s, ag)] /\ forall m, In m nets -> aget m (pr_providers s) = None -> aget m (pr_providers s') = Some (pr_next s);
  sp_shared : forall p, knows s (ag_urn ag) -> (forall m, In (m, ag_urn ag) (pr_urns s) -> aget m (pr_providers s) = Some p) ->
     pr_spawned s' = pr_spawned s /\ forall m, In m nets -> aget m (pr_providers s) = None -> aget m (pr_providers s') = Some p }.

Lemma In_aset_pair {V} (k : string) (v : V) k' v' d : In (k, v) (aset k' v' d) -> (k = k' /\ v = v') \/ In (k, v) d.
Proof.
  induction d as [|[k1 v1] r IH]; cbn [aset].
  - intros [E|[]]. injection E as -> ->. auto.
  - destruct (eqb_ok k' k1) as [<-|Hn]; cbn [In].
    + intros [E|Hr]; [injection E as -> ->; auto|auto].
    + intros [E|Hr]; [auto|]. apply IH in Hr as [?|Hr]; auto.
Qed.
Lemma In_aset_keep {V} (k k' : string) (v v' : V) d : k <> k' -> In (k, v) d -> In (k, v) (aset k' v' d).
Proof.
  intros Hn. induction d as [|[k1 v1] r IH]; cbn [aset]; [intros []|]. destruct (eqb_ok k' k1) as [<-|Hne]; cbn [In].
  - intros [E|Hr]; [congruence|auto].
  - intros [E|Hr]; auto.
Qed.
Lemma In_aset_new {V} (k : string) (v : V) d : In (k, v) (aset k v d).
Proof. induction d as [|[k1 v1] r IH]; cbn [aset]; [left; reflexivity|]. destruct (eqb_ok k k1) as [<-|Hne]; cbn [In]; auto. Qed.

Lemma urns_none s net : pinv s -> aget net (pr_providers s) = None -> aget net (pr_urns s) = None.
Proof. intros Hi H. apply aget_None. apply aget_None in H. rewrite <- Hi. exact H. Qed.

Lemma spawn_all_ok ag st : ag_service ag = Some st -> forall nets s, pinv s -> In st (pr_factories s) ->
  exists s', spawn_all ag nets s = (s', None) /\ spawned_all ag nets s s'.
Proof.
  intros Hst. induction nets as [|n nets IH]; intros s Hi Hf; cbn [spawn_all].
  { exists s. split; [reflexivity|]. split; [exact Hi|reflexivity|auto|auto|auto|intros m []|intros m []|auto|intros _; left; split; [intros m []|reflexivity]|intros p _ _; split; [reflexivity|intros m []]]. }
  destruct (spawn_cases ag n s st Hi Hst Hf) as [(Hn & p & E)|[(Hn & o & p & r & Ho & Hp & E)|(Hn & Hk & r & E)]]; rewrite E.
  - destruct (IH s Hi Hf) as (s' & E' & S). exists s'. split; [exact E'|]. destruct S as [a b c d e f g h i j]. split; auto.
    + intros m Hm. apply d. intros Hx. apply Hm. right. exact Hx.
    + intros m [<-|Hm]; [|auto]. destruct (aget n (pr_providers s)) as [q|] eqn:Eq; [|congruence]. rewrite (c _ _ Eq). discriminate.
    + intros m [<-|Hm] Hx; [congruence|auto].
    + intros Hk. destruct (i Hk) as [[i1 i2]|[i1 i2]]; [left; split; [|exact i2]; intros m [<-|Hm]; [exact Hn|auto]|right; split; [exact i1|]]. intros m [<-|Hm] Hx; [congruence|auto].
    + intros q Hk Hq. destruct (j q Hk Hq) as [j1 j2]. split; [exact j1|]. intros m [<-|Hm] Hx; [congruence|auto].
  - set (s1 := mkPR _ _ _ _ _) in *. assert (Hi1 : pinv s1).
    { unfold pinv, s1. cbn [pr_providers pr_urns]. rewrite !akeys_aset, (ahas_keys _ _ n Hi), Hi. reflexivity. }
    destruct (IH s1 Hi1 Hf) as (s' & E' & S). exists s'. split; [exact E'|]. destruct S as [a b c d e f g h i j]. cbn [s1 pr_providers pr_urns pr_factories pr_next pr_spawned] in *.
    assert (Hno : o <> n) by (intros ->; congruence).
    split; auto.
    + intros m q Hm. apply c. rewrite aget_aset_ne; [exact Hm|congruence].
    + intros m Hm. rewrite d by (intros Hx; apply Hm; right; exact Hx). apply aget_aset_ne. intros ->. apply Hm. left. reflexivity.
    + intros m u Hm. apply e. rewrite aget_aset_ne; [exact Hm|]. intros ->. rewrite (urns_none s n Hi Hn) in Hm. discriminate.
    + intros m [<-|Hm]; [|auto]. rewrite (c n p) by apply aget_aset_eq. discriminate.
    + intros m Hm Hx. destruct (eqb_ok m n) as [->|Hne]; [apply e; apply aget_aset_eq|]. destruct Hm as [Hm|Hm]; [congruence|]. apply g; [exact Hm|]. rewrite aget_aset_ne by exact Hne. exact Hx.
    + intros m u Hm. destruct (h m u Hm) as [Hx|Hx]; [|auto]. apply In_aset_pair in Hx as [[-> ->]|Hx]; auto.
    + intros Hk. exfalso. apply Hk. exists o. exact Ho.
    + intros q Hk Hq. assert (p = q) by (specialize (Hq o Ho); congruence). subst q.
      destruct (j p) as [j1 j2].
      * exists n. apply In_aset_new.
      * intros m Hm. apply In_aset_pair in Hm as [[-> _]|Hm]; [apply aget_aset_eq|]. destruct (eqb_ok m n) as [->|Hne]; [apply aget_aset_eq|]. rewrite aget_aset_ne by exact Hne. auto.
      * split; [exact j1|]. intros m Hm Hx. destruct (eqb_ok m n) as [->|Hne]; [apply c; apply aget_aset_eq|]. destruct Hm as [Hm|Hm]; [congruence|]. apply j2; [exact Hm|]. rewrite aget_aset_ne by exact Hne. exact Hx.
  - set (s1 := mkPR _ _ _ _ _) in *. assert (Hi1 : pinv s1).
    { unfold pinv, s1. cbn [pr_providers pr_urns]. rewrite !akeys_aset, (ahas_keys _ _ n Hi), Hi. reflexivity. }
    destruct (IH s1 Hi1 Hf) as (s' & E' & S). exists s'. split; [exact E'|]. destruct S as [a b c d e f g h i j]. cbn [s1 pr_providers pr_urns pr_factories pr_next pr_spawned] in *.
    split; auto.
    + intros m q Hm. apply c. rewrite aget_aset_ne; [exact Hm|congruence].
    + intros m Hm. rewrite d by (intros Hx; apply Hm; right; exact Hx). apply aget_aset_ne. intros ->. apply Hm. left. reflexivity.
    + intros m u Hm. apply e. rewrite aget_aset_ne; [exact Hm|]. intros ->. rewrite (urns_none s n Hi Hn) in Hm. discriminate.
    + intros m [<-|Hm]; [|auto]. rewrite (c n (pr_next s)) by apply aget_aset_eq. discriminate.
    + intros m Hm Hx. destruct (eqb_ok m n) as [->|Hne]; [apply e; apply aget_aset_eq|]. destruct Hm as [Hm|Hm]; [congruence|]. apply g; [exact Hm|]. rewrite aget_aset_ne by exact Hne. exact Hx.
    + intros m u Hm. destruct (h m u Hm) as [Hx|Hx]; [|auto]. apply In_aset_pair in Hx as [[-> ->]|Hx]; auto.
    + intros _. right. destruct (j (pr_next s)) as [j1 j2].
      * exists n. apply In_aset_new.
      * intros m Hm. apply In_aset_pair in Hm as [[-> _]|Hm]; [apply aget_aset_eq|]. exfalso. apply Hk. exists m. exact Hm.
      * split; [exact j1|]. intros m Hm Hx. destruct (eqb_ok m n) as [->|Hne]; [apply c; apply aget_aset_eq|]. destruct Hm as [Hm|Hm]; [congruence|]. apply j2; [exact Hm|]. rewrite aget_aset_ne by exact Hne. exact Hx.
    + intros q Hk2. contradiction.
Qed.

(** * The whole *)
Lemma got_document_spec pt d s url ident : pinv (dc_prov s) -> linv (dc_vec s) -> In CS2_SERVICE_TYPE (pr_factories (dc_prov s)) ->
  service_url (d_interface d) = Some url -> d_id d = URN_NETWORK +++ ident ->
  exists s', got_document pt d s = (s', None) /\
    spawned_all (mkAgent (d_id d) (Some CS2_SERVICE_TYPE) (strip url)) (base_names (d_networks d)) (dc_prov s) (dc_prov s') /\
    (upto (dc_vec s) (doc_vectors d) (List.length (lv_heap (dc_vec s))) (matching_ports (base_names (d_networks d)) pt) (dc_vec s') \/
     dc_vec s' = dc_vec s /\ matching_ports (base_names (d_networks d)) pt = []).
Proof.
  intros Hp Hv Hf Hu Hid. unfold got_document. rewrite Hu. unfold base_name.
  assert (Hs : starts_with URN_NETWORK (d_id d) = true) by (apply prefix_drop; eauto). rewrite Hs.
  assert (Hd : URN_NETWORK +++ sdrop (String.length URN_NETWORK) (d_id d) = d_id d) by (rewrite Hid, drop_prefix; reflexivity). rewrite Hd.
  set (ag := mkAgent _ _ _). destruct (spawn_all_ok ag CS2_SERVICE_TYPE eq_refl (base_names (d_networks d)) (dc_prov s) Hp Hf) as (p & E & S). rewrite E.
  destruct (doc_vectors d) as [|x v] eqn:Ev.
  - exists (mkDisc p (dc_vec s)). split; [reflexivity|]. split; [exact S|]. right. split; [reflexivity|].
    destruct (matching_ports _ pt) as [|[net port] l] eqn:Em; [reflexivity|]. exfalso.
    assert (Hin : In (net, port) (matching_ports (base_names (d_networks d)) pt)) by (rewrite Em; left; reflexivity).
    apply matching_In in Hin as (ports & r & _ & _ & Hr).
    assert (Hg : aget r (doc_vectors d) = Some 1) by (unfold doc_vectors; rewrite aset_fold_own, (proj2 (mem_In _ _) Hr); reflexivity). rewrite Ev in Hg. discriminate.
  - set (r := List.length (lv_heap (dc_vec s))).
    pose proof (upto_start (dc_vec s) (x :: v) r) as U0. rewrite <- Ev in *. specialize (U0 (doc_vectors_nodup d) eq_refl Hv).
    destruct (upto_all (dc_vec s) (doc_vectors d) r eq_refl Hv (matching_ports (base_names (d_networks d)) pt) [] _ U0) as (v2 & E2 & U2).
    destruct (lv_step (dc_vec s) (LDict (doc_vectors d))) as [v1 e1]. cbn [fst] in *. rewrite E2. cbn [app] in U2.
    exists (mkDisc p v2). split; [reflexivity|]. split; [exact S|]. left. exact U2.
Qed.

Lemma nodup_snd {K} (l : list (K * nat)) k1 k2 i : NoDup (map snd l) -> In (k1, i) l -> In (k2, i) l -> k1 = k2.
Proof.
  induction l as [|[k j] l IH]; cbn; [tauto|]. intros Hnd H1 H2. inversion Hnd as [|? ? Hni Hnd']; subst. destruct H1 as [E|H1], H2 as [E'|H2].
  - congruence.
  - exfalso. injection E as _ ->. apply Hni. apply (in_map snd) in H2. exact H2.
  - exfalso. injection E' as _ ->. apply Hni. apply (in_map snd) in H1. exact H1.
  - auto.
Qed.
Lemma next_to_matching pt d net port : In (net, port) (matching_ports (base_names (d_networks d)) pt) <-> next_to pt d net port.
Proof.
  rewrite matching_In. unfold next_to. split; intros (ports & r & H1 & H2 & H3); exists ports, r; (split; [exact H1|split; [exact H2|]]); apply base_names_In; exact H3.
Qed.
Lemma factories_run : forall ops s, pr_factories (fold_left pr_step ops s) = pr_factories s.
Proof.
  assert (A : forall u n p s, pr_factories (fst (add_provider u n p s)) = pr_factories s) by (intros; unfold add_provider; destruct (ahas _ _); reflexivity).
  intros ops; induction ops as [|o ops IH]; intros s; cbn [fold_left]; [reflexivity|]. rewrite IH. destruct o as [u n p|ag n]; cbn [pr_step]; [apply A|].
  unfold spawn_provider. destruct (aget n (pr_providers s)); [reflexivity|]. destruct (first_with_urn _ _) as [o|].
  - destruct (aget o _) as [p|]; [|reflexivity]. pose proof (A (ag_urn ag) n p s) as H. destruct (add_provider _ _ _ _) as [s' [e|]]; exact H.
  - destruct (ag_service ag); [|reflexivity]. destruct (negb _); [reflexivity|]. match goal with |- context [add_provider ?u n ?p ?x] => pose proof (A u n p x) as H; destruct (add_provider u n p x) as [s' [e|]]; exact H end.
Qed.
Lemma url_fun ifs u u' : url_of ifs u -> url_of ifs u' -> u = u'.
Proof.
  intros H1 H2.
  assert (L : forall t (l : list (string * string)) a u b a' u' b', l = a ++ (t, u) :: b -> l = a' ++ (t, u') :: b' -> (forall x, ~ In (t, x) b) -> (forall x, ~ In (t, x) b') -> u = u').
  { intros t l a x b a' x' b' E E' Hb Hb'. rewrite E in E'. clear E. revert a' E'. induction a as [|y a IH]; intros [|y' a'] E'; cbn in E'.
    - congruence.
    - injection E' as <- E'. exfalso. apply (Hb x'). rewrite E'. apply in_elt.
    - injection E' as -> E'. exfalso. apply (Hb' x). rewrite <- E'. apply in_elt.
    - injection E' as _ E'. eauto. }
  assert (F : forall t (l : list (string * string)) a u b a' u' b', l = a ++ (t, u) :: b -> l = a' ++ (t, u') :: b' -> (forall x, ~ In (t, x) a) -> (forall x, ~ In (t, x) a') -> u = u').
  { intros t l a x b a' x' b' E E' Ha Ha'. rewrite E in E'. clear E. revert a' E' Ha'. induction a as [|y a IH]; intros [|y' a'] E' Ha'; cbn in E'.
    - congruence.
    - injection E' as <- E'. exfalso. apply (Ha' x). left. reflexivity.
    - injection E' as -> E'. exfalso. apply (Ha x'). left. reflexivity.
    - injection E' as _ E'. eapply IH; eauto. + intros z Hz. apply (Ha z). right. exact Hz. + intros z Hz. apply (Ha' z). right. exact Hz. }
  destruct H1 as [a x b E Hb|a x b E Ha Hn], H2 as [a' x' b' E' Hb'|a' x' b' E' Ha' Hn'].
  - exact (L _ _ _ _ _ _ _ _ E E' Hb Hb').
  - exfalso. apply (Hn' x). rewrite E. apply in_elt.
  - exfalso. apply (Hn x'). rewrite E'. apply in_elt.
  - exact (F _ _ _ _ _ _ _ _ E E' Ha Ha').
Qed.
Section Port.
Variables (pt : port_table) (d : document) (s : disc) (bl : list string) (mx : Z) (ops : list lv_op).
Hypothesis Hops : ops_ok bl 0 ops.
Hypothesis Hvec : dc_vec s = lv_run bl mx ops.
Variables (fs : list string) (n0 : nat) (pops : list pr_op).
Hypothesis Hprov : dc_prov s = pr_run fs n0 pops.
Hypothesis Hfact : In CS2_SERVICE_TYPE fs.
Variables (url ident : string).
Hypothesis Hurl : url_of (d_interface d) url.
Hypothesis Hid : d_id d = URN_NETWORK +++ ident.
Lemma got_document_ok : exists s', got_document pt d s = (s', None) /\
    spawned_all (mkAgent (d_id d) (Some CS2_SERVICE_TYPE) (strip url)) (base_names (d_networks d)) (dc_prov s) (dc_prov s') /\
    (upto (dc_vec s) (doc_vectors d) (List.length (lv_heap (dc_vec s))) (matching_ports (base_names (d_networks d)) pt) (dc_vec s') \/
     dc_vec s' = dc_vec s /\ matching_ports (base_names (d_networks d)) pt = []).
Proof.
  apply (got_document_spec pt d s url ident).
  - rewrite Hprov. apply pr_run_inv.
  - rewrite Hvec. apply (run_linv bl mx ops Hops).
  - rewrite Hprov. unfold pr_run. rewrite factories_run. exact Hfact.
  - pose proof (url_spec (d_interface d)) as Hs. destruct (service_url (d_interface d)) as [u|]; [f_equal; eapply url_fun; eauto|].
    exfalso. destruct Hurl as [a x b E _|a x b E _ _]; [apply (proj1 (Hs x))|apply (proj2 (Hs x))]; rewrite E; apply in_elt.
  - exact Hid.
Qed.
Lemma c48_ports : NoDup (map snd (lv_vecs (dc_vec s))) -> let s' := fst (got_document pt d s) in
  snd (got_document pt d s) = None /\ forall net port,
  (~ next_to pt d net port -> vectors_of (dc_vec s') net port = vectors_of (dc_vec s) net port) /\
  (next_to pt d net port -> exists dict, vectors_of (dc_vec s') net port = Some dict /\ forall n w, wanted d n w ->
     aget n dict = match vectors_of (dc_vec s) net port with
                   | Some old => match aget n old with Some c => Some c | None => w end
                   | None => w end).
Proof.
  intros Hnd. destruct got_document_ok as (s' & E & _ & U). rewrite E. cbn [fst snd]. split; [reflexivity|].
  intros net port. rewrite <- !next_to_matching. unfold vectors_of. rewrite !vectors_get. destruct U as [U|[-> ->]].
  - pose proof (proj1 (run_linv bl mx ops Hops)) as Hi. rewrite <- Hvec in Hi. set (r := List.length (lv_heap (dc_vec s))) in *. split.
    + intros Hn. rewrite (u_vecs _ _ _ _ _ U). destruct (aget (net, port) (lv_vecs (dc_vec s))) as [i|] eqn:Ei.
      * cbn [option_map]. f_equal. assert (Hlt : (i < r)%nat) by (apply aget_In in Ei; eapply l_refs; eauto).
        apply (u_miss _ _ _ _ _ U i Hlt). intros (k & Hk & Hx). apply Hn. apply aget_In in Ei, Hx. rewrite (nodup_snd _ _ _ _ Hnd Ei Hx). exact Hk.
      * destruct (mem (net, port) _) eqn:Em; [apply mem_In in Em; contradiction|reflexivity].
    + intros Hn. rewrite (u_vecs _ _ _ _ _ U). destruct (aget (net, port) (lv_vecs (dc_vec s))) as [i|] eqn:Ei.
      * cbn [option_map]. eexists. split; [reflexivity|]. intros n w Hw. assert (Hlt : (i < r)%nat) by (apply aget_In in Ei; eapply l_refs; eauto).
        rewrite (u_hit _ _ _ _ _ U i n Hlt) by (exists (net, port); auto). rewrite (wanted_fun _ _ _ _ Hw (doc_vectors_wanted d n)). reflexivity.
      * rewrite (proj2 (mem_In _ _) Hn). cbn [option_map]. eexists. split; [reflexivity|]. intros n w Hw. rewrite (u_new _ _ _ _ _ U). apply (wanted_fun d n); [apply doc_vectors_wanted|exact Hw].
  - split; [reflexivity|intros []].
Qed.
Lemma c48_providers : let s' := fst (got_document pt d s) in
  (forall m p, aget m (pr_providers (dc_prov s)) = Some p -> aget m (pr_providers (dc_prov s')) = Some p) /\
  (forall m, ~ own_network d m -> aget m (pr_providers (dc_prov s')) = aget m (pr_providers (dc_prov s))) /\
  (forall m, own_network d m -> aget m (pr_providers (dc_prov s')) <> None) /\
  (forall m, own_network d m -> aget m (pr_providers (dc_prov s)) = None -> get_provider_urn m (dc_prov s') = Ok (d_id d)) /\
  ((forall m, get_provider_urn m (dc_prov s) <> Ok (d_id d)) -> forall m, own_network d m -> aget m (pr_providers (dc_prov s)) = None ->
     exists p, aget m (pr_providers (dc_prov s')) = Some p /\ In (p, mkAgent (d_id d) (Some CS2_SERVICE_TYPE) (strip url)) (pr_spawned (dc_prov s'))).
Proof.
  destruct got_document_ok as (s' & E & S & _). rewrite E. cbn [fst]. destruct S as [a b c dd e f g h i j]. cbn [ag_urn] in *.
  assert (Nu : NoDup (akeys (pr_urns (dc_prov s)))).
  { rewrite Hprov. rewrite <- (pr_run_inv fs n0 pops). clear. unfold pr_run. assert (H : NoDup (akeys (pr_providers (pr_init fs n0)))) by constructor. revert H. generalize (pr_init fs n0).
    assert (A : forall u n p s, NoDup (akeys (pr_providers s)) -> NoDup (akeys (pr_providers (fst (add_provider u n p s))))) by (intros u n p s H; unfold add_provider; destruct (ahas _ _); [exact H|apply NoDup_akeys_aset; exact H]).
    induction pops as [|o ops IH]; intros s H; cbn [fold_left]; [exact H|]. apply IH. destruct o as [u n p|ag n]; cbn [pr_step]; [apply A; exact H|].
    unfold spawn_provider. destruct (aget n (pr_providers s)); [exact H|]. destruct (first_with_urn _ _) as [o|].
    - destruct (aget o _) as [p|]; [|exact H]. specialize (A (ag_urn ag) n p s H). destruct (add_provider _ _ _ _) as [s' [e|]]; exact A.
    - destruct (ag_service ag); [|exact H]. destruct (negb _); [exact H|]. match goal with |- context [add_provider ?u n ?p ?x] => specialize (A u n p x H); destruct (add_provider u n p x) as [s' [e|]]; exact A end. }
  split; [exact c|]. split; [intros m Hm; apply dd; intros Hx; apply Hm; apply base_names_In; exact Hx|].
  split; [intros m Hm; apply f; apply base_names_In; exact Hm|]. split.
  - intros m Hm Hx. unfold get_provider_urn. rewrite (g m (proj2 (base_names_In _ _) Hm) Hx). reflexivity.
  - intros Hk m Hm Hx. destruct i as [[i1 _]|[i1 i2]].
    + intros (n & Hn). apply (Hk n). unfold get_provider_urn. rewrite (In_aget _ _ _ Nu Hn). reflexivity.
    + exfalso. apply (i1 m); [apply base_names_In; exact Hm|exact Hx].
    + exists (pr_next (dc_prov s)). split; [apply i2; [apply base_names_In; exact Hm|exact Hx]|]. rewrite i1. apply in_app_iff. right. left. reflexivity.
Qed.
End Port.
(** without a usable interface or id, nothing happens *)
Lemma c48_ignored pt d s : (forall u, ~ url_of (d_interface d) u) \/ (forall i, d_id d <> URN_NETWORK +++ i) -> fst (got_document pt d s) = s.
Proof.
  intros H. unfold got_document. pose proof (url_spec (d_interface d)) as Hs. destruct (service_url (d_interface d)) as [u|]; [|reflexivity].
  destruct H as [H|H]; [exfalso; exact (H u Hs)|]. unfold base_name. destruct (starts_with URN_NETWORK (d_id d)) eqn:E; [|reflexivity].
  apply prefix_drop in E as [n E]. exfalso. exact (H n E).
Qed.
