(** What a set up agent learns from descriptions (C74). *)
From Verif Require Import Base BaseProofs ModelXml ModelSTP ModelNRM ModelLinkVector SpecLinkVector ProofsLinkVector
  ModelProvreg ProofsProvreg ModelDiscovery SpecDiscovery ProofsDiscovery ModelConfig ModelSetup SpecSetup ProofsSetup.
Open Scope Z_scope.

(** ** single steps *)
Lemma update_all_known ports : forall r lv, made lv -> (r < List.length (lv_heap lv))%nat ->
  (forall k, In k ports -> aget k (lv_vecs lv) <> None) ->
  let lv' := fst (update_all ports r lv) in made lv' /\ lv_vecs lv' = lv_vecs lv /\ lv_local lv' = lv_local lv.
Proof.
  induction ports as [|[net port] ports IH]; intros r lv Hm Hr Hk; cbn [update_all fst]; [auto|]. cbn [snd].
  pose proof (made_step lv (LUpdate net port r) Hm Hr) as Hm'.
  destruct (made_linv _ Hm) as (Hi & Hb & _).
  assert (Ho : op_ok (lv_black lv) (List.length (lv_heap lv)) (LUpdate net port r)) by exact Hr.
  destruct (lv_step_linv lv _ Hi Ho) as (_ & _ & _ & Hl & Hx).
  assert (Hf : lv_vecs (fst (lv_step lv (LUpdate net port r))) = lv_vecs lv /\ lv_local (fst (lv_step lv (LUpdate net port r))) = lv_local lv).
  { cbn [lv_step]. unfold update_vector, calculate_vectors. specialize (Hk (net, port) (or_introl eq_refl)).
    destruct (aget (net, port) (lv_vecs lv)) as [r0|]; [|congruence].
    match goal with |- context [calculate ?a ?x] => pose proof (calculate_fields a x) as (H1 & _ & _ & H4 & H5) end. rewrite H1, H5. auto. }
  destruct Hx as [Hx|(n & E & _)]; [|discriminate].
  destruct (lv_step lv (LUpdate net port r)) as [s e]. cbn [fst snd] in *. subst e. destruct Hf as [Hf1 Hf2].
  specialize (IH r s Hm'). destruct IH as (A & B & C).
  - rewrite Hl. lia.
  - intros k Hin. rewrite Hf1. apply Hk. right. exact Hin.
  - split; [exact A|]. rewrite B, C. auto.
Qed.
Lemma spawn_all_run ag nets : forall p, exists pops, fst (spawn_all ag nets p) = fold_left pr_step pops p.
Proof.
  induction nets as [|n nets IH]; intros p; cbn [spawn_all]; [exists []; reflexivity|].
  destruct (spawn_provider ag n p) as [p' [o|e]] eqn:E.
  - destruct (IH p') as [pops H]. exists (PSpawn ag n :: pops). cbn [fold_left pr_step]. rewrite E. exact H.
  - exists [PSpawn ag n]. cbn [fold_left pr_step fst]. rewrite E. reflexivity.
Qed.
Lemma got_document_shape pt d s : made (dc_vec s) -> (forall net port, next_to pt d net port -> aget (net, port) (lv_vecs (dc_vec s)) <> None) ->
  let s' := fst (got_document pt d s) in
  made (dc_vec s') /\ lv_vecs (dc_vec s') = lv_vecs (dc_vec s) /\ lv_local (dc_vec s') = lv_local (dc_vec s) /\
  exists pops, dc_prov s' = fold_left pr_step pops (dc_prov s).
Proof.
  intros Hm Hk. unfold got_document. destruct (service_url (d_interface d)) as [url|]; [|cbn; split; [exact Hm|split; [reflexivity|split; [reflexivity|exists []; reflexivity]]]].
  destruct (base_name (d_id d)) as [i|e]; [|cbn; split; [exact Hm|split; [reflexivity|split; [reflexivity|exists []; reflexivity]]]].
  pose proof (spawn_all_run (mkAgent (URN_NETWORK +++ i) (Some CS2_SERVICE_TYPE) (strip url)) (base_names (d_networks d)) (dc_prov s)) as Hp.
  destruct (spawn_all _ _ _) as [p [e|]]; cbn [fst] in Hp; [cbn; auto|].
  destruct (doc_vectors d) as [|x v] eqn:Ev; [cbn; auto|].
  assert (Hop : op_ok [] (List.length (lv_heap (dc_vec s))) (LDict (x :: v))) by (change (NoDup (akeys (x :: v))); rewrite <- Ev; apply doc_vectors_nodup).
  pose proof (made_step _ _ Hm Hop) as Hm1. destruct (made_linv _ Hm) as (Hi & Hb & _). rewrite <- Hb in Hop.
  destruct (lv_step_linv _ _ Hi Hop) as (_ & _ & _ & Hl & _).
  assert (Hf : lv_vecs (fst (lv_step (dc_vec s) (LDict (x :: v)))) = lv_vecs (dc_vec s) /\
               lv_local (fst (lv_step (dc_vec s) (LDict (x :: v)))) = lv_local (dc_vec s)) by (cbn; auto).
  destruct (lv_step (dc_vec s) (LDict (x :: v))) as [v1 e1]. cbn [fst] in *. destruct Hf as [Hf1 Hf2].
  pose proof (update_all_known (matching_ports (base_names (d_networks d)) pt) (List.length (lv_heap (dc_vec s))) v1 Hm1 ltac:(lia)) as H.
  destruct H as (A & B & C).
  { intros [net port] Hin. apply next_to_matching in Hin. rewrite Hf1. apply Hk, Hin. }
  destruct (update_all _ _ v1) as [v2 e2]. cbn [fst dc_vec dc_prov] in *. rewrite B, C. auto.
Qed.

(** ** sequences of descriptions *)
Section Learn.
Variable nets : list (string * list nrm_port).
Variable pt : port_table.
Variable n0 : nat.
Hypothesis Hpt : pt = map (fun e => (fst e, map (fun p => (p_name p, p_remote_network p)) (snd e))) nets.
Lemma next_to_borders d net port : next_to pt d net port <-> borders nets d net port.
Proof.
  subst pt. unfold next_to, borders, configured. split.
  - intros (ports & r & H1 & H2 & H3). apply in_map_iff in H1 as ([n ps] & [= <- <-] & H1). apply in_map_iff in H2 as (np & [= E1 E2] & H2).
    exists r. split; [|exact H3]. exists ps, np. auto.
  - intros (r & (ps & np & H1 & H2 & H3 & H4) & H5). exists (map (fun p => (p_name p, p_remote_network p)) ps), r. split.
    + apply in_map_iff. exists (net, ps). auto.
    + split; [|exact H5]. apply in_map_iff. exists np. rewrite H3, H4. auto.
Qed.
Lemma wanted_unique d n c c' : wanted d n (Some c) -> wanted d n (Some c') -> c = c'.
Proof. intros H H'. pose proof (wanted_fun _ _ _ _ H H'). congruence. Qed.
Lemma usable_dec d : usable d \/ ~ usable d.
Proof.
  unfold usable. pose proof (url_spec (d_interface d)) as H. destruct (service_url (d_interface d)) as [u|].
  - destruct (starts_with URN_NETWORK (d_id d)) eqn:E; [apply prefix_drop in E; left; eauto|]. right. intros [_ Hi]. apply prefix_drop in Hi. congruence.
  - right. intros [[u Hu] _]. destruct Hu as [a x b E _|a x b E _ _]; [apply (proj1 (H x))|apply (proj2 (H x))]; rewrite E; apply in_elt.
Qed.
Lemma configured_dec u p v : configured nets u p v \/ ~ configured nets u p v.
Proof.
  destruct (existsb (fun e => (eqb (fst e) u && existsb (fun np => (eqb (p_name np) p && eqb (p_remote_network np) (Some v))%bool) (snd e))%bool) nets) eqn:E.
  - left. apply existsb_exists in E as ([n ps] & H1 & E). apply andb_true_iff in E as [E1 E]. apply existsb_exists in E as (np & H2 & E).
    apply andb_true_iff in E as [E2 E3]. cbn [fst snd] in *. apply (proj1 (eqb_true _ _)) in E1. apply (proj1 (eqb_true _ _)) in E2. apply (proj1 (eqb_true _ _)) in E3.
    subst. exists ps, np. auto.
  - right. intros (ps & np & H1 & H2 & H3 & H4).
    rewrite (proj2 (existsb_exists _ _)) in E; [discriminate|]. exists (u, ps). split; [exact H1|]. cbn [fst snd]. rewrite eqb_refl. cbn [andb].
    apply existsb_exists. exists np. split; [exact H2|]. rewrite H3, H4, !eqb_refl. reflexivity.
Qed.
Lemma learned_snoc docs d net port n c :
  learned nets (docs ++ [d]) net port n c <->
  learned nets docs net port n c \/ (tells nets d net port n c /\ forall d' c', In d' docs -> ~ tells nets d' net port n c').
Proof.
  unfold learned. split.
  - intros (a & x & b & E & H1 & H2). destruct b as [|y b] using rev_ind.
    + apply app_inj_tail in E as [-> <-]. right. auto.
    + clear IHb. replace (a ++ x :: b ++ [y]) with ((a ++ x :: b) ++ [y]) in E by (rewrite <- app_assoc; reflexivity).
      apply app_inj_tail in E as [-> <-]. left. exists a, x, b. auto.
  - intros [(a & x & b & -> & H1 & H2)|[H1 H2]].
    + exists a, x, (b ++ [d]). rewrite <- app_assoc. auto.
    + exists docs, d, []. auto.
Qed.
Record lrn (docs : list document) (s : disc) : Prop := {
  gd_made : made (dc_vec s);
  gd_refs : NoDup (map snd (lv_vecs (dc_vec s)));
  gd_local : lv_local (dc_vec s) = map fst nets;
  gd_has : forall net port r, configured nets net port r -> aget (net, port) (lv_vecs (dc_vec s)) <> None;
  gd_edges : forall u p v c, edge (lv_table (dc_vec s)) u p v c <->
     (c = 1 /\ configured nets u p v) \/ (~ configured nets u p v /\ learned nets docs u p v c);
  gd_prov : exists pops, dc_prov s = pr_run [CS2_SERVICE_TYPE] n0 pops }.
Lemma tells_known docs s : lrn docs s -> forall u p v, (exists c, edge (lv_table (dc_vec s)) u p v c) <->
  configured nets u p v \/ exists d c, In d docs /\ tells nets d u p v c.
Proof.
  intros I u p v. split.
  - intros [c H]. apply (gd_edges _ _ I) in H as [[_ H]|[_ (a & d & b & -> & H & _)]]; [auto|]. right. exists d, c. split; [apply in_elt|exact H].
  - intros H. destruct (configured_dec u p v) as [Hc|Hc]; [exists 1; apply (gd_edges _ _ I); auto|].
    destruct H as [H|(d & c & H1 & H2)]; [contradiction|]. 
    assert (F : exists c', learned nets docs u p v c').
    { clear I. induction docs as [|x docs IH] using rev_ind; [destruct H1|]. 
      assert (Hdec : (exists c', learned nets docs u p v c') \/ forall d' c', In d' docs -> ~ tells nets d' u p v c').
      { clear - Hpt docs u p v. induction docs as [|y docs [IH|IH]] using rev_ind; [right; intros ? ? []| |].
        - left. destruct IH as [c' H]. exists c'. apply learned_snoc. auto.
        - destruct (usable_dec y) as [Hu|Hu].
          2:{ right. intros d' c' Hin Ht. apply in_app_or in Hin as [Hin|[<-|[]]]; [exact (IH _ _ Hin Ht)|]. apply Hu, Ht. }
          assert (Hb : borders nets y u p \/ ~ borders nets y u p).
          { rewrite <- next_to_borders, <- next_to_matching. destruct (mem (u, p) (matching_ports (base_names (d_networks y)) pt)) eqn:E.
            - left. apply mem_In, E. - right. intros H. apply mem_In in H. congruence. }
          destruct Hb as [Hb|Hb].
          2:{ right. intros d' c' Hin Ht. apply in_app_or in Hin as [Hin|[<-|[]]]; [exact (IH _ _ Hin Ht)|]. apply Hb, Ht. }
          destruct (aget v (doc_vectors y)) as [c'|] eqn:E.
          + left. exists c'. apply learned_snoc. right. split; [|exact IH]. split; [exact Hu|]. split; [exact Hb|]. rewrite <- E. apply doc_vectors_wanted.
          + right. intros d' c' Hin Ht. apply in_app_or in Hin as [Hin|[<-|[]]]; [exact (IH _ _ Hin Ht)|].
            destruct Ht as (_ & _ & Ht). pose proof (wanted_fun _ _ _ _ Ht (doc_vectors_wanted y v)). congruence. }
      destruct Hdec as [[c' H]|Hn]; [exists c'; apply learned_snoc; auto|].
      apply in_app_or in H1 as [H1|[<-|[]]]; [destruct (Hn _ _ H1 H2)|]. exists c. apply learned_snoc. auto. }
    destruct F as [c' F]. exists c'. apply (gd_edges _ _ I). auto.
Qed.
Lemma lrn_step docs d s : lrn docs s -> lrn (docs ++ [d]) (fst (got_document pt d s)).
Proof.
  intros I.
  assert (Hk : forall net port, next_to pt d net port -> aget (net, port) (lv_vecs (dc_vec s)) <> None).
  { intros net port H. apply next_to_borders in H as (r & H & _). exact (gd_has _ _ I _ _ _ H). }
  destruct (got_document_shape pt d s (gd_made _ _ I) Hk) as (A & B & C & pops & D).
  destruct (gd_prov _ _ I) as [pops0 P0].
  constructor; try assumption.
  - rewrite B. apply (gd_refs _ _ I).
  - rewrite C. apply (gd_local _ _ I).
  - rewrite B. apply (gd_has _ _ I).
  - intros u p v c. rewrite learned_snoc. destruct (usable_dec d) as [Hu|Hu].
    2:{ assert (E : fst (got_document pt d s) = s).
        { apply c48_ignored. pose proof (url_spec (d_interface d)) as H. destruct (service_url (d_interface d)) as [url|] eqn:Es.
          - right. intros i Hi. apply Hu. split; eauto.
          - left. intros x Hx. destruct Hx as [a y b E _|a y b E _ _]; [apply (proj1 (H y))|apply (proj2 (H y))]; rewrite E; apply in_elt. }
        rewrite E, (gd_edges _ _ I). assert (Ht : ~ tells nets d u p v c) by (intros Ht; apply Hu, Ht). tauto. }
    destruct Hu as [[url Hurl] [ident Hid]]. destruct (gd_made _ _ I) as (ops & Ho & Hops).
    destruct (c48_ports pt d s [] 5 ops Ho Hops [CS2_SERVICE_TYPE] n0 pops0 P0 (or_introl eq_refl) url ident Hurl Hid (gd_refs _ _ I)) as [_ H].
    specialize (H u p). set (s' := fst (got_document pt d s)) in *. destruct H as [Hfar Hnear].
    assert (Hu : usable d) by (split; eauto).
    destruct (mem (u, p) (matching_ports (base_names (d_networks d)) pt)) eqn:Em.
    + apply mem_In in Em. apply next_to_matching in Em. destruct (Hnear Em) as (dict & H1 & H2). clear Hfar Hnear.
      specialize (H2 v _ (doc_vectors_wanted d v)).
      assert (Hs' : edge (lv_table (dc_vec s')) u p v c <-> aget v dict = Some c).
      { unfold edge. unfold vectors_of in H1. split; [intros (x & E & Ex); congruence|intros E; exists dict; auto]. }
      rewrite Hs', H2.
      destruct (vectors_of (dc_vec s) u p) as [old|] eqn:Eo.
      2:{ exfalso. apply (Hk u p Em). clear - Eo. rewrite vectors_get in Eo. destruct (aget (u, p) (lv_vecs (dc_vec s))); [discriminate|reflexivity]. }
      destruct (aget v old) as [c0|] eqn:Ev.
      * assert (He : forall c', edge (lv_table (dc_vec s)) u p v c' <-> c' = c0).
        { intros c'. unfold edge. unfold vectors_of in Eo. split; [intros (x & E & Ex); congruence|intros ->; exists old; auto]. }
        assert (Hkn : configured nets u p v \/ exists d c, In d docs /\ tells nets d u p v c) by (apply (tells_known _ _ I); exists c0; apply He; reflexivity).
        transitivity (edge (lv_table (dc_vec s)) u p v c); [rewrite He; split; congruence|]. rewrite (gd_edges _ _ I). split; [tauto|].
        intros [H|[H [H'|[H' Hn]]]]; [auto|auto|]. exfalso. destruct Hkn as [?|(d' & c' & Hd & Ht)]; [contradiction|]. exact (Hn _ _ Hd Ht).
      * assert (He : forall c', ~ edge (lv_table (dc_vec s)) u p v c').
        { intros c' (x & E & Ex). unfold vectors_of in Eo. congruence. }
        assert (Hkn : ~ (configured nets u p v \/ exists d c, In d docs /\ tells nets d u p v c)).
        { intros H. apply (tells_known _ _ I) in H as [c' H]. exact (He _ H). }
        assert (Hl : ~ learned nets docs u p v c) by (intros (a & x & b & -> & Ht & _); apply Hkn; right; exists x, c; split; [apply in_elt|exact Ht]).
        assert (Ht : tells nets d u p v c <-> aget v (doc_vectors d) = Some c).
        { unfold tells. split.
          - intros (_ & _ & Hw). exact (wanted_fun _ _ _ _ (doc_vectors_wanted d v) Hw).
          - intros E. split; [exact Hu|]. split; [apply next_to_borders, Em|]. rewrite <- E. apply doc_vectors_wanted. }
        split.
        -- intros E. right. split; [tauto|]. right. split; [apply Ht, E|]. intros d' c' Hd Ht'. apply Hkn. right. eauto.
        -- intros [[_ H]|[_ [H|[H _]]]]; [exfalso; tauto|contradiction|apply Ht, H].
    + assert (Hn : ~ next_to pt d u p) by (intros H; apply next_to_matching in H; apply mem_In in H; congruence).
      specialize (Hfar Hn). assert (Ht : ~ tells nets d u p v c) by (intros (_ & Hb & _); apply Hn, next_to_borders, Hb).
      transitivity (edge (lv_table (dc_vec s)) u p v c).
      * unfold edge, vectors_of in *. rewrite Hfar. reflexivity.
      * rewrite (gd_edges _ _ I). tauto.
  - exists (pops0 ++ pops). unfold pr_run in *. rewrite fold_left_app, <- P0. exact D.
Qed.
Lemma lrn_all docs : forall done s, lrn done s -> lrn (done ++ docs) (fold_left (fun x d => fst (got_document pt d x)) docs s).
Proof.
  induction docs as [|d docs IH]; intros done s I; cbn [fold_left]; [rewrite app_nil_r; exact I|].
  replace (done ++ d :: docs) with ((done ++ [d]) ++ docs) by (rewrite <- app_assoc; reflexivity). apply IH, lrn_step, I.
Qed.
End Learn.

(** ** providers *)
Lemma urns_nodup fs n0 pops : NoDup (akeys (pr_urns (pr_run fs n0 pops))).
Proof.
  rewrite <- (pr_run_inv fs n0 pops). unfold pr_run. assert (H : NoDup (akeys (pr_providers (pr_init fs n0)))) by constructor. revert H. generalize (pr_init fs n0).
  assert (A : forall u n p s, NoDup (akeys (pr_providers s)) -> NoDup (akeys (pr_providers (fst (add_provider u n p s))))) by (intros u n p s H; unfold add_provider; destruct (ahas _ _); [exact H|apply NoDup_akeys_aset; exact H]).
  induction pops as [|o ops IH]; intros s H; cbn [fold_left]; [exact H|]. apply IH. destruct o as [u n p|ag n]; cbn [pr_step]; [apply A; exact H|].
  unfold spawn_provider. destruct (aget n (pr_providers s)); [exact H|]. destruct (first_with_urn _ _) as [o|].
  - destruct (aget o _) as [p|]; [|exact H]. specialize (A (ag_urn ag) n p s H). destruct (add_provider _ _ _ _) as [s' [e|]]; exact A.
  - destruct (ag_service ag); [|exact H]. destruct (negb _); [exact H|]. match goal with |- context [add_provider ?u n ?p ?x] => specialize (A u n p x H); destruct (add_provider u n p x) as [s' [e|]]; exact A end.
Qed.
Lemma unusable_same pt d s : ~ usable d -> fst (got_document pt d s) = s.
Proof.
  intros Hu. apply c48_ignored. pose proof (url_spec (d_interface d)) as H. destruct (service_url (d_interface d)) as [url|] eqn:Es.
  - right. intros i Hi. apply Hu. split; eauto.
  - left. intros x Hx. destruct Hx as [a y b E _|a y b E _ _]; [apply (proj1 (H y))|apply (proj2 (H y))]; rewrite E; apply in_elt.
Qed.
Lemma add_spawned u n q p : pr_spawned (fst (add_provider u n q p)) = pr_spawned p.
Proof. unfold add_provider. destruct (ahas _ _); reflexivity. Qed.
Lemma spawn_mono ag n p x : In x (pr_spawned p) -> In x (pr_spawned (fst (spawn_provider ag n p))).
Proof.
  intros H. unfold spawn_provider. destruct (aget n (pr_providers p)); [exact H|]. destruct (first_with_urn _ _) as [o|].
  - destruct (aget o _) as [q|]; [|exact H]. pose proof (add_spawned (ag_urn ag) n q p) as A. destruct (add_provider _ _ _ _) as [p' [e|]]; cbn [fst] in *; rewrite A; exact H.
  - destruct (ag_service ag); [|exact H]. destruct (negb _); [exact H|].
    match goal with |- context [add_provider ?u n ?q ?y] => pose proof (add_spawned u n q y) as A; destruct (add_provider u n q y) as [p' [e|]] end;
      cbn [fst] in *; rewrite A; apply in_or_app; auto.
Qed.
Lemma spawn_all_mono ag nets : forall p x, In x (pr_spawned p) -> In x (pr_spawned (fst (spawn_all ag nets p))).
Proof.
  induction nets as [|n nets IH]; intros p x H; cbn [spawn_all]; [exact H|]. pose proof (spawn_mono ag n p x H) as A.
  destruct (spawn_provider ag n p) as [p' [o|e]]; [apply IH, A|exact A].
Qed.
Lemma got_document_spawned pt d s x : In x (pr_spawned (dc_prov s)) -> In x (pr_spawned (dc_prov (fst (got_document pt d s)))).
Proof.
  intros H. unfold got_document. destruct (service_url (d_interface d)) as [u|]; [|exact H]. destruct (base_name (d_id d)) as [i|e]; [|exact H].
  pose proof (spawn_all_mono (mkAgent (URN_NETWORK +++ i) (Some CS2_SERVICE_TYPE) (strip u)) (base_names (d_networks d)) _ _ H) as Hp.
  destruct (spawn_all _ _ _) as [p [e|]]; cbn [fst] in Hp; [exact Hp|]. destruct (doc_vectors d); [exact Hp|].
  destruct (lv_step _ _) as [v1 e1]. destruct (update_all _ _ _) as [v2 e2]. exact Hp.
Qed.
Lemma claimed_snoc docs d m u : claimed (docs ++ [d]) m u <->
  claimed docs m u \/ ((usable d /\ own_network d m /\ d_id d = u) /\ forall d', In d' docs -> usable d' -> ~ own_network d' m).
Proof.
  unfold claimed. split.
  - intros (a & x & b & E & H1 & H2 & H3 & H4). destruct b as [|y b] using rev_ind.
    + apply app_inj_tail in E as [-> <-]. right. auto.
    + clear IHb. replace (a ++ x :: b ++ [y]) with ((a ++ x :: b) ++ [y]) in E by (rewrite <- app_assoc; reflexivity).
      apply app_inj_tail in E as [-> <-]. left. exists a, x, b. auto.
  - intros [(a & x & b & -> & H1 & H2 & H3 & H4)|[(H1 & H2 & H3) H4]].
    + exists a, x, (b ++ [d]). rewrite <- app_assoc. repeat (split; [assumption || reflexivity|]). exact H4.
    + exists docs, d, []. auto.
Qed.
Lemma own_dec d m : own_network d m \/ ~ own_network d m.
Proof. unfold own_network. destruct (in_dec string_dec (URN_NETWORK +++ m) (d_networks d)); auto. Qed.
Lemma claimed_dec docs m : (exists u, claimed docs m u) \/ forall d, In d docs -> usable d -> ~ own_network d m.
Proof.
  induction docs as [|d docs [[u H]|H]] using rev_ind; [right; intros ? []| |].
  - left. exists u. apply claimed_snoc. auto.
  - destruct (usable_dec d) as [Hu|Hu]; [destruct (own_dec d m) as [Ho|Ho]|].
    + left. exists (d_id d). apply claimed_snoc. right. auto.
    + right. intros d' Hin. apply in_app_or in Hin as [Hin|[<-|[]]]; auto.
    + right. intros d' Hin Hu'. apply in_app_or in Hin as [Hin|[<-|[]]]; [auto|contradiction].
Qed.
Section Providers.
Variable nets : list (string * list nrm_port).
Variable pt : port_table.
Variable n0 : nat.
Variable own : string.
Record prv (docs : list document) (p : provreg) : Prop := {
  pv_back : forall i net ps, nth_error nets i = Some (net, ps) -> aget net (pr_providers p) = Some i;
  pv_urn : forall m u, aget m (pr_urns p) = Some u <-> (In m (map fst nets) /\ u = own) \/ (~ In m (map fst nets) /\ claimed docs m u);
  pv_agent : forall urn, urn <> own -> (exists m, aget m (pr_urns p) = Some urn) ->
     exists q d url, In d docs /\ usable d /\ d_id d = urn /\ url_of (d_interface d) url /\
       In (q, mkAgent urn (Some CS2_SERVICE_TYPE) (strip url)) (pr_spawned p) /\
       forall m, aget m (pr_urns p) = Some urn -> aget m (pr_providers p) = Some q }.
Lemma prv_step docs d s pops : dc_prov s = pr_run [CS2_SERVICE_TYPE] n0 pops -> made (dc_vec s) -> prv docs (dc_prov s) ->
  prv (docs ++ [d]) (dc_prov (fst (got_document pt d s))).
Proof.
  intros P0 Hm I. destruct (usable_dec d) as [Hu|Hu].
  2:{ rewrite unusable_same by exact Hu. destruct I as [A B C]. constructor; [exact A| |].
      - intros m u. rewrite B, claimed_snoc. tauto.
      - intros urn Hn Hk. destruct (C urn Hn Hk) as (q & d' & url & H1 & H2). exists q, d', url. split; [apply in_or_app; auto|exact H2]. }
  pose proof Hu as Hu'. destruct Hu' as [[url Hurl] [ident Hid]]. pose proof Hm as (ops & Ho & Hops).
  destruct (got_document_ok pt d s [] 5 ops Ho Hops [CS2_SERVICE_TYPE] n0 pops P0 (or_introl eq_refl) url ident Hurl Hid) as (s' & E & S & _).
  assert (P1 : exists pops', dc_prov s' = pr_run [CS2_SERVICE_TYPE] n0 pops').
  { assert (Q : exists pp, dc_prov (fst (got_document pt d s)) = fold_left pr_step pp (dc_prov s)).
    { unfold got_document. destruct (service_url (d_interface d)) as [u|]; [|exists []; reflexivity].
      destruct (base_name (d_id d)) as [i|e]; [|exists []; reflexivity].
      pose proof (spawn_all_run (mkAgent (URN_NETWORK +++ i) (Some CS2_SERVICE_TYPE) (strip u)) (base_names (d_networks d)) (dc_prov s)) as Hp.
      destruct (spawn_all _ _ _) as [p [e|]]; cbn [fst] in Hp; [exact Hp|]. destruct (doc_vectors d); [exact Hp|].
      destruct (lv_step _ _) as [v1 e1]. destruct (update_all _ _ _) as [v2 e2]. exact Hp. }
    destruct Q as [pp Q]. rewrite E in Q. cbn [fst] in Q. exists (pops ++ pp). unfold pr_run in *. rewrite fold_left_app, <- P0. exact Q. }
  assert (Mono : forall x, In x (pr_spawned (dc_prov s)) -> In x (pr_spawned (dc_prov s'))).
  { intros x Hx. pose proof (got_document_spawned pt d s x Hx) as H. rewrite E in H. exact H. }
  rewrite E. cbn [fst]. destruct P1 as [pops' P1].
  assert (Nu : NoDup (akeys (pr_urns (dc_prov s)))) by (rewrite P0; apply urns_nodup).
  assert (Nu' : NoDup (akeys (pr_urns (dc_prov s')))) by (rewrite P1; apply urns_nodup).
  assert (Pi : pinv (dc_prov s)) by (rewrite P0; apply pr_run_inv).
  destruct S as [a b c dd e f g h i j]. cbn [ag_urn] in *. destruct I as [A B C].
  assert (Kn : forall m, aget m (pr_providers (dc_prov s)) = None <-> aget m (pr_urns (dc_prov s)) = None).
  { intros m. rewrite !aget_None. rewrite Pi. reflexivity. }
  assert (Kn' : forall m, aget m (pr_providers (dc_prov s')) = None <-> aget m (pr_urns (dc_prov s')) = None).
  { intros m. rewrite !aget_None. rewrite a. reflexivity. }
  (** the urns afterwards *)
  assert (U : forall m u, aget m (pr_urns (dc_prov s')) = Some u <->
     aget m (pr_urns (dc_prov s)) = Some u \/ (aget m (pr_urns (dc_prov s)) = None /\ own_network d m /\ u = d_id d)).
  { intros m u. split.
    - intros Hx. destruct (aget m (pr_urns (dc_prov s))) as [u0|] eqn:E0; [left; rewrite (e _ _ E0) in Hx; congruence|].
      right. split; [reflexivity|]. destruct (own_dec d m) as [Hom|Hom].
      + split; [exact Hom|]. rewrite (g m) in Hx; [congruence|apply base_names_In, Hom|apply Kn, E0].
      + exfalso. assert (Hf : aget m (pr_providers (dc_prov s')) = aget m (pr_providers (dc_prov s))) by (apply dd; intros H; apply Hom, base_names_In, H).
        rewrite (proj2 (Kn m) E0) in Hf. apply Kn' in Hf. congruence.
    - intros [Hx|(H1 & H2 & ->)]; [exact (e _ _ Hx)|]. apply g; [apply base_names_In, H2|apply Kn, H1]. }
  constructor.
  - intros k net ps Hk. apply c. exact (A _ _ _ Hk).
  - intros m u. rewrite U, B, claimed_snoc. split.
    + intros [[H|H]|(H1 & H2 & ->)]; [auto|tauto|]. right.
      assert (Hn : ~ In m (map fst nets)) by (intros H; assert (X : aget m (pr_urns (dc_prov s)) = Some own) by (apply B; auto); congruence).
      split; [exact Hn|]. right. split; [auto|]. intros d' Hd Hud Hod. destruct (claimed_dec docs m) as [[u' Hc]|Hc].
      * assert (X : aget m (pr_urns (dc_prov s)) = Some u') by (apply B; auto). congruence.
      * exact (Hc _ Hd Hud Hod).
    + intros [H|[H [H'|[(H1 & H2 & <-) H3]]]]; [auto|auto|]. right. split; [|auto].
      destruct (aget m (pr_urns (dc_prov s))) as [u0|] eqn:E0; [|reflexivity]. apply B in E0 as [[E0 _]|[_ (x & y & z & -> & Y1 & Y2 & _)]]; [contradiction|].
      exfalso. exact (H3 y (in_elt _ _ _) Y1 Y2).
  - intros urn Hn [m Hmu].
    assert (K : knows (dc_prov s) urn <-> exists m, aget m (pr_urns (dc_prov s)) = Some urn).
    { unfold knows. split; intros [x Hx]; exists x; [apply In_aget; assumption|apply aget_In, Hx]. }
    destruct (eqb_ok urn (d_id d)) as [->|Nd].
    + assert (KD : knows (dc_prov s) (d_id d) \/ ~ knows (dc_prov s) (d_id d)).
      { pose proof (first_with_urn_spec (d_id d) (pr_urns (dc_prov s))) as Hw. destruct (first_with_urn _ _) as [o|]; [left; exists o; exact Hw|]. right. intros [n Hnn]. exact (Hw n Hnn). }
      destruct KD as [Hk|Hk].
      * destruct (C (d_id d) Hn (proj1 K Hk)) as (q & d' & url' & H1 & H2 & H3 & H4 & H5 & H6).
        destruct (j q Hk) as [j1 j2]. { intros x Hx. apply H6. apply In_aget; assumption. }
        exists q, d', url'. split; [apply in_or_app; auto|]. split; [exact H2|]. split; [exact H3|]. split; [exact H4|]. rewrite j1. split; [exact H5|].
        intros x Hx. apply U in Hx as [Hx|(X1 & X2 & _)]; [apply c, H6, Hx|]. apply j2; [apply base_names_In, X2|apply Kn, X1].
      * destruct (i Hk) as [[i1 i2]|[i1 i2]].
        -- exfalso. apply U in Hmu as [Hx|(X1 & X2 & _)]; [apply Hk, K; eauto|]. apply (i1 m); [apply base_names_In, X2|apply Kn, X1].
        -- exists (pr_next (dc_prov s)), d, url. split; [apply in_or_app; right; left; reflexivity|]. split; [exact Hu|]. split; [reflexivity|]. split; [exact Hurl|].
           rewrite i1. split; [apply in_or_app; right; left; reflexivity|]. intros x Hx. apply U in Hx as [Hx|(X1 & X2 & _)]; [exfalso; apply Hk, K; eauto|].
           apply i2; [apply base_names_In, X2|apply Kn, X1].
    + assert (Hk : exists m, aget m (pr_urns (dc_prov s)) = Some urn) by (exists m; apply U in Hmu as [Hx|(_ & _ & ->)]; [exact Hx|congruence]).
      destruct (C urn Hn Hk) as (q & d' & url' & H1 & H2 & H3 & H4 & H5 & H6). exists q, d', url'.
      split; [apply in_or_app; auto|]. split; [exact H2|]. split; [exact H3|]. split; [exact H4|]. split.
      * apply Mono, H5.
      * intros x Hx. apply U in Hx as [Hx|(_ & _ & Hx)]; [apply c, H6, Hx|congruence].
Qed.
End Providers.

(** ** a set up service *)
Section C74.
Variable file_lines : string -> option (list string).
Variable construct : string -> list (string * string) -> option exn.
Variable domain : string.
Notation netof := (network_of file_lines construct domain).
Notation setup := (setup_backends file_lines construct domain).
Variables (bs : list backend) (s : service) (nets : list (string * list nrm_port)).
Hypothesis Hnd : NoDup (map fst bs).
Hypothesis Hset : setup bs = Ok s.
Hypothesis Hnets : Forall2 netof bs nets.
Lemma number_table (l : list (string * list nrm_port)) : forall i,
  map (fun e : string * (nat * list nrm_port) => (fst e, map (fun p => (p_name p, p_remote_network p)) (snd (snd e)))) (number i l) =
  map (fun e => (fst e, map (fun p => (p_name p, p_remote_network p)) (snd e))) l.
Proof. induction l as [|[n ps] l IH]; intros i; cbn; [reflexivity|]. rewrite IH. reflexivity. Qed.
Lemma table_set_up : fetcher_table s = map (fun e => (fst e, map (fun p => (p_name p, p_remote_network p)) (snd e))) nets.
Proof.
  destruct (setup_inv _ _ _ bs s nets Hnd Hset Hnets) as (ds & -> & _ & I & _). unfold fetcher_table. rewrite (si_nets _ _ _ _ I). apply number_table.
Qed.
Lemma learn_start : lrn nets (List.length bs) [] (fetcher_state s).
Proof.
  destruct (setup_inv _ _ _ bs s nets Hnd Hset Hnets) as (ds & -> & _ & I & _).
  constructor; cbn [fetcher_state dc_vec dc_prov]; try apply I.
  - intros net port r H E. assert (He : edge (lv_table (sv_lv s)) net port r 1) by (apply (si_edges _ _ _ _ I); auto).
    destruct He as (d & Hd & _). change (aget (net, port) (lv_table (sv_lv s))) with (vectors_of (sv_lv s) net port) in Hd.
    rewrite ProofsSetup.vectors_get, E in Hd. discriminate.
  - intros u p v c. rewrite (si_edges _ _ _ _ I). split; [auto|]. intros [H|(_ & a & d & b & E & _)]; [exact H|]. destruct a; discriminate.
Qed.
Lemma prv_start : prv nets (URN_NETWORK +++ domain +++ ":nsa") [] (sv_prov s).
Proof.
  destruct (c72_networks _ _ _ bs s nets Hnd Hset Hnets) as [A B].
  assert (Hin : forall m, In m (map fst nets) -> aget m (pr_urns (sv_prov s)) = Some (URN_NETWORK +++ domain +++ ":nsa")).
  { intros m H. apply in_map_iff in H as ([n ps] & <- & H). apply In_nth_error in H as [i H]. destruct (A _ _ _ H) as (_ & _ & _ & H').
    unfold get_provider_urn in H'. cbn [fst]. destruct (aget n (pr_urns (sv_prov s))); congruence. }
  assert (Hout : forall m, ~ In m (map fst nets) -> aget m (pr_urns (sv_prov s)) = None).
  { intros m H. destruct (B m H) as (_ & _ & _ & H'). unfold get_provider_urn in H'. destruct (aget m (pr_urns (sv_prov s))); congruence. }
  constructor.
  - intros i net ps H. apply (A _ _ _ H).
  - intros m u. destruct (in_dec string_dec m (map fst nets)) as [H|H].
    + rewrite (Hin m H). split; [intros [= <-]; auto|]. intros [[_ ->]|[H' _]]; [reflexivity|contradiction].
    + rewrite (Hout m H). split; [discriminate|]. intros [[H' _]|[_ (a & d & b & E & _)]]; [contradiction|destruct a; discriminate].
  - intros urn Hn [m Hm]. exfalso. destruct (in_dec string_dec m (map fst nets)) as [H|H]; [rewrite (Hin m H) in Hm; congruence|rewrite (Hout m H) in Hm; discriminate].
Qed.
Lemma learn_both docs : forall done x, lrn nets (List.length bs) done x -> prv nets (URN_NETWORK +++ domain +++ ":nsa") done (dc_prov x) ->
  let x' := fold_left (fun x d => fst (got_document (fetcher_table s) d x)) docs x in
  lrn nets (List.length bs) (done ++ docs) x' /\ prv nets (URN_NETWORK +++ domain +++ ":nsa") (done ++ docs) (dc_prov x').
Proof.
  induction docs as [|d docs IH]; intros done x I J; cbn [fold_left]; [rewrite app_nil_r; auto|].
  replace (done ++ d :: docs) with ((done ++ [d]) ++ docs) by (rewrite <- app_assoc; reflexivity). apply IH.
  - apply lrn_step; [apply table_set_up|exact I].
  - destruct (gd_prov _ _ _ _ I) as [pops P]. apply (prv_step _ _ (List.length bs) _ _ _ _ pops P (gd_made _ _ _ _ I) J).
Qed.
Lemma c74_edges docs : forall u p v c, edge (lv_table (dc_vec (read_documents s docs))) u p v c <->
  (c = 1 /\ configured nets u p v) \/ (~ configured nets u p v /\ learned nets docs u p v c).
Proof. apply (gd_edges _ _ _ _ (proj1 (learn_both docs [] _ learn_start prv_start))). Qed.
Lemma c74_made docs : made (dc_vec (read_documents s docs)) /\ lv_local (dc_vec (read_documents s docs)) = map fst nets.
Proof. pose proof (proj1 (learn_both docs [] _ learn_start prv_start)) as I. split; [apply (gd_made _ _ _ _ I)|apply (gd_local _ _ _ _ I)]. Qed.
Lemma c74_backends docs i net ps : nth_error nets i = Some (net, ps) ->
  aget net (pr_providers (dc_prov (read_documents s docs))) = Some i /\
  get_provider_urn net (dc_prov (read_documents s docs)) = Ok (URN_NETWORK +++ domain +++ ":nsa").
Proof.
  intros H. pose proof (proj2 (learn_both docs [] _ learn_start prv_start)) as J. fold (read_documents s docs) in J.
  split; [exact (pv_back _ _ _ _ J _ _ _ H)|]. unfold get_provider_urn. rewrite (proj2 (pv_urn _ _ _ _ J net (URN_NETWORK +++ domain +++ ":nsa"))); [reflexivity|]. left. split; [|reflexivity].
  apply nth_error_In in H. apply (in_map fst _ _ H).
Qed.
Lemma c74_agents docs m urn : ~ In m (map fst nets) ->
  (get_provider_urn m (dc_prov (read_documents s docs)) = Ok urn <-> claimed docs m urn).
Proof.
  intros Hn. pose proof (proj2 (learn_both docs [] _ learn_start prv_start)) as J. unfold get_provider_urn. fold (read_documents s docs) in J.
  pose proof (pv_urn _ _ _ _ J m urn) as H. cbn [app] in H. destruct (aget m (pr_urns (dc_prov (read_documents s docs)))) as [u|].
  - split; [intros [= ->]; destruct (proj1 H eq_refl) as [[? _]|[_ ?]]; [contradiction|assumption]|].
    intros Hc. f_equal. assert (X : Some u = Some urn) by (apply H; auto). congruence.
  - split; [discriminate|]. intros Hc. assert (X : None = Some urn) by (apply H; auto). discriminate.
Qed.
Lemma c74_providers docs m urn : ~ In m (map fst nets) -> claimed docs m urn -> urn <> URN_NETWORK +++ domain +++ ":nsa" ->
  exists q d url, In d docs /\ usable d /\ d_id d = urn /\ url_of (d_interface d) url /\
    In (q, mkAgent urn (Some CS2_SERVICE_TYPE) (strip url)) (pr_spawned (dc_prov (read_documents s docs))) /\
    forall m', get_provider_urn m' (dc_prov (read_documents s docs)) = Ok urn -> aget m' (pr_providers (dc_prov (read_documents s docs))) = Some q.
Proof.
  intros Hn Hc Hu. pose proof (proj2 (learn_both docs [] _ learn_start prv_start)) as J. fold (read_documents s docs) in J. cbn [app] in J.
  destruct (pv_agent _ _ _ _ J urn Hu) as (q & d & url & H1 & H2 & H3 & H4 & H5 & H6).
  { exists m. apply (pv_urn _ _ _ _ J). auto. }
  exists q, d, url. repeat (split; [assumption|]). intros m' Hm. apply H6. unfold get_provider_urn in Hm.
  destruct (aget m' (pr_urns (dc_prov (read_documents s docs)))); congruence.
Qed.
(** one description of another agent with networks of its own, as OpenNSA makes them *)
Lemma c74_neighbour d urn url networks net port r : describes d (URN_NETWORK +++ urn) url networks ->
  configured nets net port r -> In r networks -> forall n, In n networks -> n <> net -> exists port' r',
  lv_path n net (dc_vec (read_documents s [d])) = Ok (Some [(net, port')]) /\ configured nets net port' r' /\ (In r' networks \/ r' = n).
Proof.
  intros (D1 & D2 & D3 & D4) Hc Hr n Hn Hne.
  destruct (c74_made [d]) as [Hm Hl]. destruct (made_linv _ Hm) as (Hi & Hb & Hx). pose proof (c74_edges [d]) as He.
  set (x := dc_vec (read_documents s [d])) in *.
  assert (W : forall m c, wanted d m (Some c) -> c = 1 /\ In m networks).
  { intros m c H. inversion H as [Ho|c' Ho (a & b & E & _)|]; subst; [split; [reflexivity|apply D3, Ho]|]. rewrite D4 in E. destruct a; discriminate. }
  assert (E1 : forall u p v c, edge (lv_table x) u p v c -> c = 1 /\ exists r', configured nets u p r' /\ (r' = v \/ In r' networks /\ In v networks)).
  { intros u p v c H. apply He in H as [[-> H]|[_ (a & y & b & E & (_ & (r' & B1 & B2) & B3) & _)]]; [eauto|].
    assert (y = d) by (destruct a as [|? [|]]; cbn in E; congruence). subst y. destruct (W _ _ B3) as [-> Hv]. split; [reflexivity|]. exists r'. split; [exact B1|].
    right. split; [apply D3, B2|exact Hv]. }
  assert (Hnn : nonneg (lv_table x)) by (intros u p v c H; apply E1 in H as [-> _]; lia).
  assert (Hs : In net (lv_local x)) by (rewrite Hl; destruct Hc as (ps & np & Hin & _); apply (in_map fst _ _ Hin)).
  assert (W1 : walk (lv_table x) [] net n [(net, port)] 1).
  { apply walk_one; [|intros []]. apply He. destruct (configured_dec nets net port n) as [Hcn|Hcn]; [auto|]. right. split; [exact Hcn|].
    exists [], d, []. split; [reflexivity|]. split; [|intros ? ? []]. split; [split; [eauto|exists urn; exact D1]|]. split; [exists r; split; [exact Hc|apply D3, Hr]|].
    apply want_own, D3, Hn. }
  assert (WL : forall u w hops c, walk (lv_table x) [] u w hops c -> c = Z.of_nat (List.length hops) /\ hops <> []).
  { induction 1 as [u p v c H _|u p v c w hops c' H _ Hw [IH _]]; apply E1 in H as [-> _]; (split; [|discriminate]); [reflexivity|]. cbn [List.length]. lia. }
  destruct (lv_path_cases x n net Hi Hnn Hs Hne) as [(hops & c & H1 & H2 & H3 & H4)|(H1 & H2)]; rewrite Hb in *.
  - specialize (H4 _ _ W1). inversion H2 as [u p v c0 Hp|u p v c0 w hops' c' Hp _ Hw]; subst.
    + destruct (E1 _ _ _ _ Hp) as [_ (r' & R1 & R2)]. exists p, r'. split; [exact H1|]. split; [exact R1|]. tauto.
    + exfalso. destruct (E1 _ _ _ _ Hp) as [E0 _]. destruct (WL _ _ _ _ Hw) as [Ec Hnil]. destruct hops'; [congruence|]. cbn [List.length] in Ec. lia.
  - specialize (H2 _ _ W1). rewrite Hx in H2. lia.
Qed.
End C74.

(** ** the published list of peers *)
Lemma c73_peers domain v fqdn version now s p doc : discovery_xml domain v fqdn version now s p = Ok doc ->
  exists l, NoDup l /\ findall "peersWith" doc = map (fun u => leaf "peersWith" (Some u)) l /\
    forall u, In u l <-> u <> URN_NETWORK +++ domain +++ ":nsa" /\ exists n, In (n, u) (pr_urns p).
Proof.
  unfold discovery_xml. destruct (peers_with domain p) as [peers|e] eqn:E; cbn [Base.bind]; [|discriminate]. intros H. apply ok_inj in H. subst doc.
  exists peers. unfold peers_with in E. destruct (mem _ _) eqn:Em; [|discriminate]. apply ok_inj in E. subst peers.
  split; [apply NoDup_filter, NoDup_nodup|]. split.
  - unfold findall. cbn [e_kids]. rewrite !filter_app.
    rewrite (filter_tag (fun n : string * (nat * list nrm_port) => leaf "networkId" (Some (URN_NETWORK +++ fst n))) _ "networkId") by reflexivity.
    rewrite (filter_tag interface_xml _ "interface") by reflexivity.
    rewrite (filter_tag feature_xml _ "feature") by reflexivity.
    rewrite (filter_tag (fun u => leaf "peersWith" (Some u)) _ "peersWith") by reflexivity. reflexivity.
  - intros u. rewrite filter_In, nodup_In, in_map_iff. unfold own_urn. split.
    + intros [([n u'] & <- & H) Hn]. cbn [snd] in *. split; [|eauto]. intros ->. rewrite eqb_refl in Hn. discriminate.
    + intros [Hn (n & H)]. split; [exists (n, u); auto|]. rewrite eqb_neq by exact Hn. reflexivity.
Qed.

(** ** addresses and policies *)
Lemma base_url_address v fqdn : address v fqdn (base_url v fqdn).
Proof.
  assert (X : forall t (h : string), (if t : bool then "https://" else "http://") +++ h = (if t then "https" else "http") +++ "://" +++ h) by (intros [] h; reflexivity).
  unfold base_url. destruct (vc_base_url v) as [[|c u]|] eqn:E.
  - rewrite X. apply at_host; [auto|]. destruct (vc_host v); auto.
  - apply at_configured; [exact E|discriminate].
  - rewrite X. apply at_host; [auto|]. destruct (vc_host v); auto.
Qed.
Lemma address_known v fqdn : exists a, address v fqdn a /\ forall b, address v fqdn b -> b = a.
Proof.
  exists (base_url v fqdn). split; [apply base_url_address|]. unfold base_url. intros b [u E N|h E Hh].
  - rewrite E. destruct u; [contradiction|reflexivity].
  - assert (Eh : match vc_host v with Some h => h | None => fqdn end = h) by (destruct Hh as [->|[-> ->]]; reflexivity).
    rewrite Eh. destruct E as [-> | ->]; destruct (vc_tls v); reflexivity.
Qed.
Lemma c73_addresses domain v fqdn version now s p doc at_ : discovery_xml domain v fqdn version now s p = Ok doc -> address v fqdn at_ ->
  endpoint v fqdn = at_ +++ "/NSI/services/CS2" /\
  findall "interface" doc = map (fun i => Elem "interface" [] None [leaf "type" (Some (fst i)); leaf "href" (Some (at_ +++ snd i))])
    ([(CS2_PROVIDER, "/NSI/services/CS2"); (CS2_SERVICE_TYPE, "/NSI/services/CS2")] ++
     (if vc_rest v then [(OPENNSA_REST, "/connections")] else []) ++
     map (fun n => (NML_SERVICE_TYPE, "/NSI/" +++ fst n +++ ".nml.xml")) (sv_nets s)).
Proof.
  intros H Ha. assert (E : base_url v fqdn = at_).
  { destruct (address_known v fqdn) as (a & _ & Hu). rewrite (Hu at_ Ha). apply Hu, base_url_address. }
  split; [unfold endpoint; rewrite E; reflexivity|].
  unfold discovery_xml in H. destruct (peers_with domain p) as [peers|e]; cbn [Base.bind] in H; [|discriminate]. apply ok_inj in H. subst doc.
  unfold findall. cbn [e_kids]. rewrite !filter_app.
  rewrite (filter_tag (fun n : string * (nat * list nrm_port) => leaf "networkId" (Some (URN_NETWORK +++ fst n))) _ "networkId") by reflexivity.
  rewrite (filter_tag interface_xml _ "interface") by reflexivity.
  rewrite (filter_tag feature_xml _ "feature") by reflexivity.
  rewrite (filter_tag (fun u => leaf "peersWith" (Some u)) _ "peersWith") by reflexivity.
  cbn [filter app e_tag leaf]. change (eqb "interface" "interface") with true. cbn [app]. 
  unfold interfaces, endpoint. rewrite E. rewrite !map_app. destruct (vc_rest v); cbn [map app]; rewrite ?map_map; rewrite app_nil_r; reflexivity.
Qed.
Lemma c72_policies (bs : list backend) policy p :
  In p (setup_policy bs policy) <-> In p policy \/ (bs = [] /\ p = "aggregator").
Proof.
  unfold setup_policy. destruct bs as [|b r]; [|intuition discriminate].
  destruct (mem "aggregator" policy) eqn:E.
  - split; [auto|intros [H|[_ ->]]; [exact H|apply mem_In, E]].
  - rewrite in_app_iff. cbn. intuition.
Qed.
