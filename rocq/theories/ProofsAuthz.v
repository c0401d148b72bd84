(** Proofs about authorization and the HTTP access gates. *)
From Verif Require Import Base ModelAuthz.

Lemma header_In k : mem k HEADER_ATTRIBUTES = true <-> (k = "nsa" \/ k = "user" \/ k = "group" \/ k = "token").
Proof. rewrite mem_In. cbn. intuition congruence. Qed.
Lemma request_In k : mem k REQUEST_ATTRIBUTES && eqb k HOST_DN = true <-> k = "hostdn".
Proof. rewrite andb_true_iff, mem_In, (eqb_true k HOST_DN). cbn. unfold HOST_DN. intuition congruence. Qed.

Lemma rule_match_iff r sas : existsb (rule_match r) sas = true <-> In (mkSA (r_type r) (r_value r)) sas.
Proof.
  rewrite existsb_exists. unfold rule_match. split.
  - intros ([t v] & Hi & E). apply andb_true_iff in E as [E1 E2]. apply (proj1 (eqb_true _ _)) in E1, E2. cbn in *. subst. exact Hi.
  - intros Hi. eexists. split; [exact Hi|]. cbn. rewrite !eqb_refl. reflexivity.
Qed.

Definition grants (r : rule) (sas : list secattr) (ri : request_info) : Prop :=
  ((r_type r = "nsa" \/ r_type r = "user" \/ r_type r = "group" \/ r_type r = "token") /\ In (mkSA (r_type r) (r_value r)) sas) \/
  (r_type r = "hostdn" /\ cert_host_dn ri = Some (PStr (r_value r))).

Lemma authz_loop_iff rules sas ri dflt :
  authz_loop dflt rules sas ri = true <-> (exists r, In r rules /\ grants r sas ri) \/ dflt = true.
Proof.
  induction rules as [|r rs IH]; cbn [authz_loop].
  - split; [auto|]. intros [(r & [] & _)|H]; exact H.
  - assert (Hex : (exists r0, In r0 (r :: rs) /\ grants r0 sas ri) <-> grants r sas ri \/ exists r0, In r0 rs /\ grants r0 sas ri).
    { split; [intros (r0 & [<-|Hi] & Hg); eauto|]. intros [Hg|(r0 & Hi & Hg)]; [exists r; cbn; auto|exists r0; cbn; auto]. }
    rewrite Hex. destruct (mem (r_type r) HEADER_ATTRIBUTES) eqn:Eh.
    + apply header_In in Eh. destruct (existsb (rule_match r) sas) eqn:Em.
      * apply rule_match_iff in Em. unfold grants at 1. split; [auto|reflexivity].
      * rewrite IH. assert (~ grants r sas ri); [|tauto]. unfold grants.
        intros [[_ Hi]|[Hk _]]; [apply rule_match_iff in Hi; congruence|]. rewrite Hk in Eh. intuition discriminate.
    + assert (Hnh : ~ (r_type r = "nsa" \/ r_type r = "user" \/ r_type r = "group" \/ r_type r = "token"))
        by (rewrite <- header_In; congruence).
      destruct (mem (r_type r) REQUEST_ATTRIBUTES && eqb (r_type r) HOST_DN) eqn:Er.
      * apply request_In in Er. destruct (eqb_ok (Some (PStr (r_value r))) (cert_host_dn ri)) as [He|He].
        -- unfold grants at 1. split; [auto|reflexivity].
        -- rewrite IH. assert (~ grants r sas ri); [|tauto]. unfold grants. intros [[Hk _]|[_ Hc]]; [tauto|congruence].
      * assert (Hnr : r_type r <> "hostdn") by (rewrite <- request_In; congruence).
        rewrite IH. assert (~ grants r sas ri); [|tauto]. unfold grants. tauto.
Qed.

Theorem c18_iff rules sas ri :
  is_authorized rules sas ri = true <->
  rules = [] \/
  (exists k v, (k = "nsa" \/ k = "user" \/ k = "group" \/ k = "token") /\ In (mkRule k v) rules /\ In (mkSA k v) sas) \/
  (exists v, In (mkRule "hostdn" v) rules /\ cert_host_dn ri = Some (PStr v)).
Proof.
  unfold is_authorized. rewrite authz_loop_iff. split.
  - intros [([t v] & Hi & [[Hk Hs]|[Hk Hc]])|Hd]; cbn in *.
    + right; left; eauto 6.
    + subst t. right; right; eauto.
    + destruct rules; [auto|discriminate].
  - intros [->|[(k & v & Hk & Hi & Hs)|(v & Hi & Hc)]].
    + right; reflexivity.
    + left. exists (mkRule k v). split; [exact Hi|]. left; auto.
    + left. exists (mkRule "hostdn" v). split; [exact Hi|]. right; auto.
Qed.

Theorem c18_unknown rules sas ri :
  rules <> [] -> (forall r, In r rules -> ~ (r_type r = "nsa" \/ r_type r = "user" \/ r_type r = "group" \/ r_type r = "token") /\ r_type r <> "hostdn") ->
  is_authorized rules sas ri = false.
Proof.
  intros Hne Hun. destruct (is_authorized rules sas ri) eqn:E; [|reflexivity].
  apply c18_iff in E as [E|[(k & v & Hk & Hi & _)|(v & Hi & _)]]; [contradiction| |]; apply Hun in Hi; cbn in Hi; tauto.
Qed.

Theorem c18_monotone rules sas sas' ri : (forall a, In a sas -> In a sas') ->
  is_authorized rules sas ri = true -> is_authorized rules sas' ri = true.
Proof.
  intros Hs. rewrite !c18_iff. intros [H|[(k & v & Hk & Hi & Ha)|H]]; [auto| |auto]. right; left. eauto 8.
Qed.

(** ** The SOAP gate *)
Lemma subject_cn_Some comps cn : subject_cn comps = Some cn ->
  exists pre post, comps = pre ++ ("CN", cn) :: post /\ forall x, ~ In ("CN", x) post.
Proof.
  unfold subject_cn. induction comps as [|[k v] comps IH]; cbn [rev]; [discriminate|].
  assert (Happ : forall (l l' : list (string * string)) (k : string), aget k (l ++ l') = match aget k l with Some y => Some y | None => aget k l' end).
  { clear. intros l l' k. induction l as [|[k1 v1] l IH]; [reflexivity|]. cbn. destruct (eqb k k1); [reflexivity|exact IH]. }
  rewrite Happ. destruct (aget "CN" (rev comps)) as [y|] eqn:E.
  - intros [= ->]. destruct (IH eq_refl) as (pre & post & -> & Hp). exists ((k, v) :: pre), post. split; [reflexivity|exact Hp].
  - cbn [aget]. destruct (eqb_ok "CN" k) as [<-|Hn]; [|discriminate]. intros [= ->]. exists [], comps. split; [reflexivity|].
    intros x Hx. apply aget_None in E. apply E. apply in_rev in Hx. apply (in_map fst) in Hx. exact Hx.
Qed.
Lemma subject_cn_None comps : subject_cn comps = None -> forall x, ~ In ("CN", x) comps.
Proof.
  intros E x Hx. unfold subject_cn in E. apply aget_None in E. apply E. apply in_rev in Hx. apply (in_map fst) in Hx. exact Hx.
Qed.

Lemma soap_dispatch_cases actions rq ri :
  (In (rq_action rq) actions /\ soap_dispatch actions rq ri = SDispatch (rq_action rq) ri) \/
  (~ In (rq_action rq) actions /\ soap_dispatch actions rq ri = SStatus 406).
Proof.
  unfold soap_dispatch. destruct (mem (rq_action rq) actions) eqn:E.
  - apply mem_In in E. left; auto.
  - right. split; [|reflexivity]. rewrite <- mem_In. congruence.
Qed.

Theorem c19_only hosts actions rq a ri :
  soap_render (Some hosts) actions rq = SDispatch a ri ->
  rq_secure rq = true /\ a = rq_action rq /\ In a actions /\
  exists comps pre cn post, rq_cert rq = Some comps /\ comps = pre ++ ("CN", cn) :: post /\
    (forall x, ~ In ("CN", x) post) /\ In cn hosts /\ cert_host_dn ri = Some (PStr cn).
Proof.
  unfold soap_render. destruct (rq_secure rq); cbn [negb]; [|discriminate].
  destruct (rq_cert rq) as [comps|]; [|discriminate]. destruct (subject_cn comps) as [cn|] eqn:Ec; [|discriminate].
  destruct (mem cn hosts) eqn:Em; cbn [negb]; [|discriminate]. intros E.
  destruct (soap_dispatch_cases actions rq (mkRI (Some (PStr cn)))) as [[Hi Hd]|[_ Hd]]; rewrite Hd in E; [|discriminate].
  injection E as <- <-. apply subject_cn_Some in Ec as (pre & post & Hc & Hp). apply mem_In in Em.
  repeat (split; [solve [auto]|]). exists comps, pre, cn, post. auto.
Qed.

Lemma aget_app_str (l l' : list (string * string)) k : aget k (l ++ l') = match aget k l with Some y => Some y | None => aget k l' end.
Proof. induction l as [|[k1 v1] l IH]; [reflexivity|]. cbn. destruct (eqb k k1); [reflexivity|exact IH]. Qed.
Lemma subject_cn_last pre cn post : (forall x, ~ In ("CN", x) post) -> subject_cn (pre ++ ("CN", cn) :: post) = Some cn.
Proof.
  intros Hp. unfold subject_cn. rewrite rev_app_distr. cbn [rev]. rewrite !aget_app_str.
  assert (E : aget "CN" (rev post) = None).
  { apply aget_None. intros Hi. apply in_map_iff in Hi as ([k v] & Ek & Hi). cbn in Ek. subst k. apply in_rev in Hi. exact (Hp _ Hi). }
  rewrite E. reflexivity.
Qed.
Theorem c19_listed hosts actions rq pre cn post :
  rq_secure rq = true -> rq_cert rq = Some (pre ++ ("CN", cn) :: post) -> (forall x, ~ In ("CN", x) post) ->
  In cn hosts -> In (rq_action rq) actions ->
  soap_render (Some hosts) actions rq = SDispatch (rq_action rq) (mkRI (Some (PStr cn))).
Proof.
  intros Hs Hc Hp Hh Ha. unfold soap_render. rewrite Hs, Hc, (subject_cn_last _ _ _ Hp), (proj2 (mem_In _ _) Hh). cbn [negb].
  destruct (soap_dispatch_cases actions rq (mkRI (Some (PStr cn)))) as [[_ Hd]|[Hn _]]; [exact Hd|contradiction].
Qed.

Theorem c19_refused hosts actions rq :
  (forall comps, rq_cert rq = Some comps -> exists cn, In ("CN", cn) comps) ->
  (exists a ri, soap_render (Some hosts) actions rq = SDispatch a ri) \/
  soap_render (Some hosts) actions rq = SStatus 401 \/
  (soap_render (Some hosts) actions rq = SStatus 406 /\ ~ In (rq_action rq) actions).
Proof.
  intros Hc. unfold soap_render. destruct (rq_secure rq); cbn [negb]; [|auto].
  destruct (rq_cert rq) as [comps|]; [|auto]. destruct (Hc _ eq_refl) as (cn0 & Hi).
  destruct (subject_cn comps) as [cn|] eqn:Ec; [|exfalso; exact (subject_cn_None _ Ec _ Hi)].
  destruct (mem cn hosts); cbn [negb]; [|auto].
  destruct (soap_dispatch_cases actions rq (mkRI (Some (PStr cn)))) as [[Ha ->]|[Ha ->]]; eauto.
Qed.

Theorem c19_open actions rq : rq_secure rq = false ->
  (In (rq_action rq) actions -> soap_render None actions rq = SDispatch (rq_action rq) (mkRI None)) /\
  (~ In (rq_action rq) actions -> soap_render None actions rq = SStatus 406).
Proof.
  intros Hs. unfold soap_render. rewrite Hs.
  destruct (soap_dispatch_cases actions rq (mkRI None)) as [[Ha ->]|[Ha ->]]; split; tauto.
Qed.

Theorem c19_raise :
  (exists hosts actions rq, soap_render (Some hosts) actions rq = SRaise EAttribute) /\
  (exists actions rq, rq_cert rq = None /\ In (rq_action rq) actions /\ soap_render None actions rq = SRaise EAttribute).
Proof.
  split.
  - exists ["h"], [Some "a"], (mkReq true (Some [("O", "x")]) (Some "a")). reflexivity.
  - exists [Some "a"], (mkReq true None (Some "a")). cbn. auto.
Qed.

(** ** The REST gate *)
Lemma bytes_not_in_str v hosts : mem (PBytes v) (map PStr hosts) = false.
Proof.
  destruct (mem (PBytes v) (map PStr hosts)) eqn:E; [|reflexivity].
  apply mem_In, in_map_iff in E as (x & E & _). discriminate.
Qed.

Theorem c59_never hosts rq ri : check_authz (Some (map PStr hosts)) rq <> Ok (true, ri).
Proof.
  unfold check_authz. destruct (negb (rq_secure rq)); [discriminate|]. destruct (rq_cert rq) as [comps|]; [|discriminate].
  destruct (last_component comps) as [v|]; [|discriminate]. rewrite bytes_not_in_str. discriminate.
Qed.
Theorem c59_refuted :
  ~ (forall hosts comps v action, last_component comps = Some v -> In v hosts ->
     exists ri, check_authz (Some (map PStr hosts)) (mkReq true (Some comps) action) = Ok (true, ri)).
Proof.
  intros H. destruct (H ["h1"] [("CN", "h1")] "h1" None eq_refl) as (ri & E); [cbn; auto|].
  exact (c59_never _ _ _ E).
Qed.
Theorem c59_open rq : (forall comps, rq_cert rq = Some comps -> comps <> []) -> exists ri, check_authz None rq = Ok (true, ri).
Proof.
  intros Hc. unfold check_authz. destruct (rq_secure rq); [|eauto]. destruct (rq_cert rq) as [comps|]; [|eauto].
  unfold last_component. destruct (rev comps) as [|[k v] r] eqn:E; [|eauto].
  exfalso. apply (Hc _ eq_refl). rewrite <- (rev_involutive comps), E. reflexivity.
Qed.
Theorem c59_inert allowed rq b ri v : check_authz allowed rq = Ok (b, ri) -> is_authorized [mkRule "hostdn" v] [] ri = false.
Proof.
  intros E. assert (Hn : forall w, cert_host_dn ri <> Some (PStr w)).
  { intros w. unfold check_authz in E. destruct allowed as [hosts|].
    - destruct (negb (rq_secure rq)); [injection E as _ <-; discriminate|]. destruct (rq_cert rq) as [comps|]; [|injection E as _ <-; discriminate].
      destruct (last_component comps); [|discriminate]. injection E as _ <-. discriminate.
    - destruct (rq_secure rq); [|injection E as _ <-; discriminate]. destruct (rq_cert rq) as [comps|]; [|injection E as _ <-; discriminate].
      destruct (last_component comps); [|discriminate]. injection E as _ <-. discriminate. }
  destruct (is_authorized [mkRule "hostdn" v] [] ri) eqn:Ea; [|reflexivity].
  apply c18_iff in Ea as [Ea|[(k & w & _ & _ & [])|(w & _ & Hw)]]; [discriminate|]. exfalso. exact (Hn _ Hw).
Qed.
