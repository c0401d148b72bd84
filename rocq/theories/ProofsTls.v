(** Proofs about who can reach a service. *)
From Verif Require Import Base BaseProofs ModelAuthz ModelHttpClient ModelConfig ModelRest ModelRestGet SpecHttpClient SpecConfig ModelTls SpecTls
  ProofsAuthz ProofsConfig ProofsHttpClient ProofsPlugins.
Open Scope Z_scope.

Lemma flag_fun c o d b b' : file_ok c -> flag c o d b -> flag c o d b' -> b = b'.
Proof.
  intros W H H'. pose proof (get_bool_spec c o d W) as G. destruct (get_bool c o d) as [b0|e].
  - destruct G as (F & N & _). rewrite (flag_unique c o d b0 W F N b H). symmetry. exact (flag_unique c o d b0 W F N b' H').
  - exfalso. destruct G as (_ & s & Hs & Hn). destruct H as [(s' & Hs' & Ht)|(Hq & _)]; [|exact (Hq s Hs)].
    apply (opt_iff c o s W) in Hs. apply (opt_iff c o s' W) in Hs'. rewrite Hs in Hs'. injection Hs' as <-. exact (Hn b Ht).
Qed.
Lemma says_fun c o a b : file_ok c -> says c o a -> says c o b -> a = b.
Proof. intros W H H'. apply (opt_iff c o a W) in H. apply (opt_iff c o b W) in H'. congruence. Qed.

Lemma ends_with_iff x s : ModelTls.ends_with x s = true <-> exists n, s = n +++ x.
Proof.
  induction s as [|c s IH]; cbn [ModelTls.ends_with]; rewrite orb_true_iff.
  - split.
    + intros [H|H]; [|discriminate]. apply (proj1 (eqb_true x "")) in H. subst. exists "". reflexivity.
    + intros (n & H). left. apply (proj2 (eqb_true x "")). destruct n; [symmetry; exact H|discriminate].
  - rewrite IH. split.
    + intros [H|(n & ->)]; [apply (proj1 (eqb_true x (String c s))) in H; subst; exists ""; reflexivity|exists (String c n); reflexivity].
    + intros (n & H). destruct n as [|k n]; [left; apply (proj2 (eqb_true x (String c s))); symmetry; exact H|].
      right. injection H as -> ->. exists n. reflexivity.
Qed.
Lemma ca_files_iff d t : In t (ca_files d) <-> authority d t.
Proof.
  unfold ca_files, authority. rewrite in_map_iff. split.
  - intros ([n t'] & Ht & H). cbn in Ht. subst t'. apply filter_In in H as (H & E). apply ends_with_iff in E as (m & E). cbn in E. subst n. exists m. exact H.
  - intros (n & H). exists (n +++ ".0", t). split; [reflexivity|]. apply filter_In. split; [exact H|]. apply ends_with_iff. exists n. reflexivity.
Qed.
Lemma trust_root_iff w d t : In t (trust_root w d) <-> authority d t /\ w_pem w t = true.
Proof. unfold trust_root. rewrite filter_In, ca_files_iff. reflexivity. Qed.

Lemma setup_tls_facts w v f : setup_tls w v = Ok f ->
  w_listdir w (vc_certdir v) = Some (cf_dir f) /\ cf_verify f = vc_verify v /\ cf_roots f = trust_root w (cf_dir f).
Proof.
  unfold setup_tls, two_way, one_way. destruct (w_listdir w (vc_certdir v)) as [d|]; cbn [Base.bind].
  - destruct (vc_key v) as [k|], (vc_cert v) as [c|]; try (intros H; apply Ok_inj in H; subst f; auto; fail).
    destruct (eqb k "" || eqb c ""); [intros H; apply Ok_inj in H; subst f; auto|].
    destruct (w_pair w k c); [|discriminate]. intros H. apply Ok_inj in H. subst f. auto.
  - destruct (vc_key v) as [k|], (vc_cert v) as [c|]; try discriminate. destruct (eqb k "" || eqb c ""); discriminate.
Qed.

Lemma start_facts w v s : start_site w v = Ok s ->
  st_soap s = [("CS2", mkSoap (vc_hosts v) (w_prov w))] /\ st_rest s = (if vc_rest v then Some (vc_hosts v) else None) /\
  (vc_tls v = false -> st_ctx s = None) /\
  (vc_tls v = true -> exists d, w_listdir w (vc_certdir v) = Some d /\ st_ctx s = Some (mkSctx (ca_files d) (vc_verify v) true) /\ forallb (w_pem w) (ca_files d) = true).
Proof.
  unfold start_site. destruct (setup_tls w v) as [f|e] eqn:E; cbn [Base.bind]; [|discriminate]. apply setup_tls_facts in E as (Hd & Hv & _).
  destruct (vc_tls v).
  - unfold get_context. destruct (cf_two_way f); cbn [negb Base.bind]; [|discriminate].
    destruct (forallb (w_pem w) (ca_files (cf_dir f))) eqn:F; cbn [Base.bind]; [|discriminate]. rewrite Hv.
    intros H. apply Ok_inj in H. subst s. split; [reflexivity|]. split; [reflexivity|]. split; [discriminate|]. intros _. exists (cf_dir f). auto.
  - intros H. apply Ok_inj in H. subst s. split; [reflexivity|]. split; [reflexivity|]. split; [reflexivity|]. discriminate.
Qed.

Lemma run_site_facts w names : forall s, ahas "CS2" (st_soap s) = true ->
  st_ctx (run_site w names s) = st_ctx s /\ st_rest (run_site w names s) = st_rest s /\
  aget "CS2" (st_soap (run_site w names s)) = aget "CS2" (st_soap s) /\
  forall n so, aget n (st_soap (run_site w names s)) = Some so -> aget n (st_soap s) = Some so \/ so = mkSoap None (w_req w).
Proof.
  induction names as [|n names IH]; intros s Hs; cbn [run_site]; [repeat split; auto|].
  unfold add_requester, add_soap. destruct (ahas n (st_soap s)) eqn:E; [apply IH; exact Hs|].
  assert (Hn : "CS2" <> n) by (intros <-; congruence).
  assert (Hs' : ahas "CS2" (aset n (mkSoap None (w_req w)) (st_soap s)) = true).
  { unfold ahas in *. rewrite aget_aset_ne by exact Hn. exact Hs. }
  destruct (IH (mkSite (st_ctx s) (aset n (mkSoap None (w_req w)) (st_soap s)) (st_rest s)) Hs') as (A & B & C & D). cbn [st_ctx st_rest st_soap] in A, B, C, D.
  split; [exact A|]. split; [exact B|]. split; [rewrite C; apply aget_aset_ne; exact Hn|].
  intros m so H. destruct (D m so H) as [X|X]; [|right; exact X]. destruct (eqb_ok m n) as [->|Hne].
  - rewrite aget_aset_eq in X. injection X as <-. right. reflexivity.
  - rewrite aget_aset_ne in X by exact Hne. left. exact X.
Qed.

(** Everything about a running service in one place *)
Lemma running_facts w ex c s : running w ex c s -> exists v, file_ok c /\ load_config ex c = Ok v /\ contents c v /\
  aget "CS2" (st_soap s) = Some (mkSoap (vc_hosts v) (w_prov w)) /\ st_rest s = (if vc_rest v then Some (vc_hosts v) else None) /\
  (forall n so, aget n (st_soap s) = Some so -> n = "CS2" \/ so = mkSoap None (w_req w)) /\
  (vc_tls v = false -> st_ctx s = None) /\
  (vc_tls v = true -> exists d, w_listdir w (vc_certdir v) = Some d /\ st_ctx s = Some (mkSctx (ca_files d) (vc_verify v) true) /\ forallb (w_pem w) (ca_files d) = true).
Proof.
  intros (v & s0 & names & W & L & S & ->). exists v. pose proof (c71_contents ex c v W L) as C. destruct (start_facts w v s0 S) as (A1 & A2 & A3 & A4).
  assert (H : ahas "CS2" (st_soap s0) = true) by (rewrite A1; reflexivity).
  destruct (run_site_facts w names s0 H) as (B1 & B2 & B3 & B4). rewrite B1, B2, B3, A1, A2.
  split; [exact W|]. split; [exact L|]. split; [exact C|]. split; [reflexivity|]. split; [reflexivity|].
  split; [|split; assumption]. intros n so X. apply B4 in X as [X|X]; [|right; exact X]. rewrite A1 in X. cbn [aget] in X. destruct (eqb_ok n "CS2"); [left; assumption|discriminate].
Qed.

(** A SOAP deed comes from the resource it names. *)
Lemma serve_soap w s secure peer post path action body name a ri : In (DSoap name a ri) (serve w s secure peer post path action body) ->
  exists so, aget name (st_soap s) = Some so /\ post = true /\ (exists r, path = "NSI" :: "services" :: name :: r) /\
    soap_render (so_hosts so) (so_actions so) (mkReq secure (option_map ce_subject peer) action) = SDispatch a ri.
Proof.
  unfold serve. destruct path as [|top r]; [intros []|]. destruct (eqb top "NSI") eqn:E1.
  - destruct r as [|sv [|nm r]]; try (intros []; fail). destruct (eqb sv "services") eqn:E2; cbn [andb]; [|intros []]. destruct post; [|intros []].
    destruct (aget nm (st_soap s)) as [so|] eqn:E3; [|intros []]. 
    destruct (soap_render (so_hosts so) (so_actions so) (mkReq secure (option_map ce_subject peer) action)) as [code|a' ri'|e] eqn:E4; try (intros []; fail).
    intros [[= <- <- <-]|[]]. apply (proj1 (eqb_true top "NSI")) in E1. apply (proj1 (eqb_true sv "services")) in E2. subst. exists so. eauto 6.
  - destruct (eqb top "connections"); [|intros []]. destruct (st_rest s) as [hosts|]; [|intros []].
    assert (S : forall g, ~ In (DSoap name a ri) (seen g)) by (intros g; destruct g; cbn; try tauto; intros [X|[]]; discriminate).
    assert (M : forall l, ~ In (DSoap name a ri) (map DRest l)) by (intros l X; apply in_map_iff in X as (y & Y & _); discriminate).
    destruct r as [|cid [|st r]]; [destruct post; intros X; exfalso; [exact (M _ X)|exact (S _ X)]|destruct post; [intros []|intros X; destruct (S _ X)]|].
    destruct (eqb st "status"); [|intros []]. destruct post; intros X; exfalso; [exact (M _ X)|exact (S _ X)].
Qed.

Lemma client_soap w s offer post path action body name a ri x : st_ctx s = Some x ->
  In (DSoap name a ri) (client_request w s offer post path action body) ->
  exists so, aget name (st_soap s) = Some so /\ (offer = None \/ exists ce, offer = Some ce /\ (sx_verify x = true -> w_chains w (sx_cas x) ce = true)) /\
    soap_render (so_hosts so) (so_actions so) (mkReq true (option_map ce_subject offer) action) = SDispatch a ri.
Proof.
  intros Hx. unfold client_request. rewrite Hx. unfold handshake. destruct offer as [ce|].
  - unfold verify_callback. destruct (sx_verify x).
    + destruct (w_chains w (sx_cas x) ce) eqn:E; [|intros []]. intros H. apply serve_soap in H as (so & A & _ & _ & B). exists so. split; [exact A|]. split; [right; eauto|exact B].
    + intros H. apply serve_soap in H as (so & A & _ & _ & B). exists so. split; [exact A|]. split; [right; exists ce; split; [reflexivity|discriminate]|exact B].
  - intros H. apply serve_soap in H as (so & A & _ & _ & B). exists so. auto.
Qed.

Lemma genuine_intro w c v d ce : contents c v -> w_listdir w (vc_certdir v) = Some d -> w_chains w (ca_files d) ce = true -> genuine w c ce.
Proof.
  intros C Hd Hc. exists (vc_certdir v), d, (ca_files d). split; [apply (ct_certdir _ _ C)|]. split; [exact Hd|]. split; [intros t; apply ca_files_iff|exact Hc].
Qed.

Lemma c82_listed w ex c s h offer post path action body a ri : running w ex c s -> tls_on c -> verify_on c -> says c "allowedhosts" h ->
  In (DSoap "CS2" a ri) (client_request w s offer post path action body) -> listed w c offer.
Proof.
  intros R T V H D. apply running_facts in R as (v & W & L & C & P & _ & _ & _ & X).
  assert (Tv : vc_tls v = true) by (symmetry; eapply flag_fun; [exact W|exact T|apply (ct_tls _ _ C)]).
  assert (Vv : vc_verify v = true) by (symmetry; eapply flag_fun; [exact W|exact V|apply (ct_verify _ _ C)]).
  destruct (X Tv) as (d & Hd & Hx & _). destruct (client_soap _ _ _ _ _ _ _ _ _ _ _ Hx D) as (so & Hso & Ho & Hr).
  rewrite P in Hso. injection Hso as <-. cbn [so_hosts so_actions] in Hr. pose proof (ct_hosts _ _ C) as Hh.
  destruct (vc_hosts v) as [hs|]; [|destruct Hh as [Hh|Hh]; [congruence|destruct (Hh h H)]].
  destruct Hh as (_ & h' & Hs & He). apply (says_fun c "allowedhosts" h' h W Hs) in H. subst h'.
  apply c19_only in Hr as (_ & _ & _ & comps & pre & cn & pst & Hc & Hp & Hq & Hi & _). cbn [rq_cert] in Hc.
  destruct Ho as [->|(ce & -> & Hv)]; [discriminate|]. cbn [option_map] in Hc. injection Hc as Hc.
  exists ce, cn, h. split; [reflexivity|]. split; [apply (genuine_intro w c v d ce C Hd); apply Hv; exact Vv|].
  split; [exists pre, pst; split; [congruence|exact Hq]|]. split; [exact Hs|apply He; exact Hi].
Qed.

Lemma c82_works w ex c s h x n a body : running w ex c s -> tls_on c -> says c "allowedhosts" h -> genuine w c x ->
  (forall l l', (forall t, In t l <-> In t l') -> w_chains w l x = w_chains w l' x) ->
  bears x n -> entry h n -> In a (w_prov w) ->
  client_request w s (Some x) true ["NSI"; "services"; "CS2"] a body = [DSoap "CS2" a (mkRI (Some (PStr n)))].
Proof.
  intros R T H (dir & d' & cas & G1 & G2 & G3 & G4) Hext (pre & pst & B1 & B2) E A. apply running_facts in R as (v & W & L & C & P & _ & _ & _ & X).
  assert (Tv : vc_tls v = true) by (symmetry; eapply flag_fun; [exact W|exact T|apply (ct_tls _ _ C)]).
  destruct (X Tv) as (d & Hd & Hx & _).
  assert (Hdir : dir = vc_certdir v).
  { pose proof (ct_certdir _ _ C) as Y. destruct G1 as [G1|(G1 & ->)], Y as [Y|(Y & Y')].
    - exact (says_fun c "certdir" _ _ W G1 Y). - destruct (Y _ G1). - destruct (G1 _ Y). - symmetry. exact Y'. }
  subst dir. rewrite Hd in G2. injection G2 as <-.
  assert (Ch : w_chains w (ca_files d) x = true) by (rewrite <- G4; apply Hext; intros t; rewrite ca_files_iff, G3; reflexivity).
  unfold client_request. rewrite Hx. unfold handshake. cbn [sx_verify sx_cas]. rewrite Ch.
  assert (K : verify_callback (vc_verify v) true = true) by (unfold verify_callback; destruct (vc_verify v); reflexivity). rewrite K.
  unfold serve. rewrite (proj2 (eqb_true "NSI" "NSI") eq_refl), (proj2 (eqb_true "services" "services") eq_refl). cbn [andb]. rewrite P. cbn [so_hosts so_actions].
  pose proof (ct_hosts _ _ C) as Hh. destruct (vc_hosts v) as [hs|]; [|destruct Hh as [Hh|Hh]; [congruence|destruct (Hh h H)]].
  destruct Hh as (_ & h' & Hs & He). apply (says_fun c "allowedhosts" h' h W Hs) in H. subst h'.
  rewrite (c19_listed hs (w_prov w) (mkReq true (option_map ce_subject (Some x)) a) pre n pst); cbn [rq_secure rq_cert rq_action option_map]; try reflexivity; try assumption.
  - congruence.
  - apply He. exact E.
Qed.

Lemma c82_rest w ex c s h offer post path action body : running w ex c s -> tls_on c -> says c "allowedhosts" h ->
  (forall k, ~ In (DRest k) (client_request w s offer post path action body)) /\
  (forall j, In (DRead j) (client_request w s offer post path action body) -> post = false /\ path = ["connections"]).
Proof.
  intros R T H. apply running_facts in R as (v & W & L & C & _ & Hr & _ & _ & X).
  assert (Tv : vc_tls v = true) by (symmetry; eapply flag_fun; [exact W|exact T|apply (ct_tls _ _ C)]).
  pose proof (ct_hosts _ _ C) as Hh. destruct (vc_hosts v) as [hs|]; [|destruct Hh as [Hh|Hh]; [congruence|destruct (Hh h H)]]. clear Hh.
  assert (N : forall rq ri, check_authz (Some (map PStr hs)) rq <> Ok (true, ri)).
  { intros rq ri E. unfold check_authz in E. destruct (rq_secure rq); cbn [negb] in E; [|discriminate]. destruct (rq_cert rq) as [comps|]; [|discriminate].
    destruct (last_component comps) as [l|]; [|discriminate]. injection E as E _. apply mem_In in E. apply in_map_iff in E as (y & Y & _). discriminate. }
  assert (Q : forall secure peer, (forall k, ~ In (DRest k) (serve w s secure peer post path action body)) /\
    (forall j, In (DRead j) (serve w s secure peer post path action body) -> post = false /\ path = ["connections"])).
  { intros secure peer. unfold serve. set (rq := mkReq secure _ action). destruct path as [|top r]; [split; [intros k []|intros j []]|].
    destruct (eqb top "NSI").
    - destruct r as [|sv [|nm r]]; try (split; [intros k []|intros j []]). destruct (eqb sv "services" && post); [|split; [intros k []|intros j []]].
      destruct (aget nm (st_soap s)) as [so|]; [|split; [intros k []|intros j []]]. destruct (soap_render _ _ rq) as [code|a ri|e].
      + split; [intros k []|intros j []].
      + split; [intros k [Y|[]]; discriminate|intros j [Y|[]]; discriminate].
      + split; [intros k []|intros j []].
    - destruct (eqb top "connections") eqn:E; [|split; [intros k []|intros j []]]. apply (proj1 (eqb_true top "connections")) in E. subst top.
      rewrite Hr. destruct (vc_rest v); [|split; [intros k []|intros j []]]. cbn [option_map].
      pose proof (N rq) as Nrq.
      assert (S : forall g k, ~ In (DRest k) (seen g)) by (intros g k; destruct g; cbn; try tauto; intros [Y|[]]; discriminate).
      assert (M : forall l j, ~ In (DRead j) (map DRest l)) by (intros l j Y; apply in_map_iff in Y as (y & Y & _); discriminate).
      destruct r as [|cid [|st r]].
      + destruct post; [|split; [apply S|auto]]. split; [|intros j Y; destruct (M _ _ Y)].
        intros k Y. unfold create_post in Y. destruct (check_authz (Some (map PStr hs)) rq) as [[[] ri]|e] eqn:Ea; [destruct (Nrq ri eq_refl)|destruct Y|destruct Y].
      + destruct post; [split; [intros k []|intros j []]|]. split; [apply S|]. intros j Y. exfalso. unfold conn_get in Y.
        destruct (check_authz (Some (map PStr hs)) rq) as [[[] ri]|e] eqn:Ea; [destruct (Nrq ri eq_refl)|destruct Y|destruct Y].
      + destruct (eqb st "status"); [|split; [intros k []|intros j []]]. destruct post.
        * split; [|intros j Y; destruct (M _ _ Y)]. intros k Y. unfold status_post in Y.
          destruct (check_authz (Some (map PStr hs)) rq) as [[[] ri]|e] eqn:Ea; [destruct (Nrq ri eq_refl)|destruct Y|destruct Y].
        * split; [apply S|]. intros j Y. exfalso. unfold status_get in Y.
          destruct (check_authz (Some (map PStr hs)) rq) as [[[] ri]|e] eqn:Ea; [destruct (Nrq ri eq_refl)|destruct Y|destruct Y]. }
  destruct (X Tv) as (d & _ & Hx & _). unfold client_request. rewrite Hx.
  destruct (handshake w _ offer) as [peer|]; [apply Q|split; [intros k []|intros j []]].
Qed.

Lemma c82_requester w ex c s offer post path action body name a ri : running w ex c s -> tls_on c -> verify_on c ->
  In (DSoap name a ri) (client_request w s offer post path action body) -> exists x n, offer = Some x /\ genuine w c x /\ bears x n.
Proof.
  intros R T V D. apply running_facts in R as (v & W & L & C & P & _ & O & _ & X).
  assert (Tv : vc_tls v = true) by (symmetry; eapply flag_fun; [exact W|exact T|apply (ct_tls _ _ C)]).
  assert (Vv : vc_verify v = true) by (symmetry; eapply flag_fun; [exact W|exact V|apply (ct_verify _ _ C)]).
  destruct (X Tv) as (d & Hd & Hx & _). destruct (client_soap _ _ _ _ _ _ _ _ _ _ _ Hx D) as (so & Hso & Ho & Hr).
  assert (K : exists comps cn, option_map ce_subject offer = Some comps /\ subject_cn comps = Some cn).
  { unfold soap_render in Hr. cbn [rq_secure rq_cert negb] in Hr. destruct (so_hosts so) as [hs|].
    - destruct (option_map ce_subject offer) as [comps|]; [|discriminate]. destruct (subject_cn comps) as [cn|] eqn:E; [eauto|discriminate].
    - destruct (option_map ce_subject offer) as [comps|]; [|discriminate]. destruct (subject_cn comps) as [cn|] eqn:E; [eauto|discriminate]. }
  destruct K as (comps & cn & K1 & K2). destruct Ho as [->|(ce & -> & Hv)]; [discriminate|]. injection K1 as K1.
  exists ce, cn. split; [reflexivity|]. split; [apply (genuine_intro w c v d ce C Hd); apply Hv; exact Vv|].
  apply subject_cn_Some in K2 as (pre & pst & A & B). exists pre, pst. split; [congruence|exact B].
Qed.

Lemma c82_own w ex c f servers url host port x : made w ex c f -> own_request w f servers url = ToServer host port x ->
  x = servers host port /\ genuine_read w c x /\ w_host w host x = true.
Proof.
  intros (v & W & L & S). apply setup_tls_facts in S as (Hd & _ & Hr). pose proof (c71_contents ex c v W L) as C.
  unfold own_request. destruct (ModelHttpClient.http_request url true) as [[] host' port' hh| | ]; try discriminate.
  destruct (client_goes_on w f host' (servers host' port')) eqn:G; [|discriminate]. intros [= <- <- <-]. apply andb_true_iff in G as (G1 & G2).
  split; [reflexivity|]. split; [|exact G2]. exists (vc_certdir v), (cf_dir f), (cf_roots f). split; [apply (ct_certdir _ _ C)|]. split; [exact Hd|].
  split; [intros t; rewrite Hr; apply trust_root_iff|exact G1].
Qed.

Lemma c82_starts w ex c v : file_ok c -> load_config ex c = Ok v -> tls_on c ->
  (exists s, start_site w v = Ok s) <->
  (exists dir d k p, said c "certdir" "/etc/ssl/certs" dir /\ w_listdir w dir = Some d /\ says c "key" k /\ says c "certificate" p /\
     w_pair w k p = true /\ forall t, authority d t -> w_pem w t = true).
Proof.
  intros W L T. pose proof (c71_contents ex c v W L) as C.
  assert (Tv : vc_tls v = true) by (symmetry; eapply flag_fun; [exact W|exact T|apply (ct_tls _ _ C)]).
  destruct (proj1 (c71_accepted ex c W) (ex_intro _ v L)) as ((_ & _ & _ & _ & _ & K & _) & _). 
  destruct (K T "key") as (k & Hk & Hk0 & _); [left; reflexivity|]. destruct (K T "certificate") as (p & Hp & Hp0 & _); [right; left; reflexivity|].
  assert (Ek : vc_key v = Some k).
  { pose proof (ct_key _ _ C) as Y. unfold said_opt in Y. destruct (vc_key v) as [k'|]; [f_equal; exact (says_fun c "key" _ _ W Y Hk)|destruct (Y _ Hk)]. }
  assert (Ep : vc_cert v = Some p).
  { pose proof (ct_cert _ _ C) as Y. unfold said_opt in Y. destruct (vc_cert v) as [k'|]; [f_equal; exact (says_fun c "certificate" _ _ W Y Hp)|destruct (Y _ Hp)]. }
  unfold start_site, setup_tls, two_way, one_way. rewrite Ek, Ep, Tv.
  assert (E0 : eqb k "" || eqb p "" = false). { apply orb_false_iff. split; [destruct (eqb_ok k ""); congruence|destruct (eqb_ok p ""); congruence]. }
  rewrite E0. split.
  - intros (s & S). destruct (w_listdir w (vc_certdir v)) as [d|] eqn:Ed; cbn [Base.bind] in S; [|discriminate]. destruct (w_pair w k p) eqn:Eq; cbn [Base.bind] in S; [|discriminate].
    unfold get_context in S. cbn [cf_two_way cf_dir negb] in S. destruct (forallb (w_pem w) (ca_files d)) eqn:F; [|discriminate].
    exists (vc_certdir v), d, k, p. split; [apply (ct_certdir _ _ C)|]. repeat (split; [assumption|]). intros t Ht. rewrite forallb_forall in F. apply F. apply ca_files_iff. exact Ht.
  - intros (dir & d & k' & p' & G1 & G2 & G3 & G4 & G5 & G6).
    apply (says_fun c "key" k k' W Hk) in G3. apply (says_fun c "certificate" p p' W Hp) in G4. subst k' p'.
    assert (Hdir : dir = vc_certdir v).
    { pose proof (ct_certdir _ _ C) as Y. destruct G1 as [G1|(G1 & ->)], Y as [Y|(Y & Y')].
      - exact (says_fun c "certdir" _ _ W G1 Y). - destruct (Y _ G1). - destruct (G1 _ Y). - symmetry. exact Y'. }
    subst dir. rewrite G2. cbn [Base.bind]. rewrite G5. cbn [Base.bind]. unfold get_context. cbn [cf_two_way cf_dir negb].
    assert (F : forallb (w_pem w) (ca_files d) = true) by (rewrite forallb_forall; intros t Ht; apply G6; apply ca_files_iff; exact Ht).
    rewrite F. cbn [Base.bind]. unfold add_soap. cbn [st_soap ahas aget]. eexists. reflexivity.
Qed.
