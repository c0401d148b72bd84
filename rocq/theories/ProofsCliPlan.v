(** Proofs about what a command is started with. *)
From Verif Require Import Base BaseProofs ModelLabel ModelSTP SpecSTP ModelHttpClient ModelCli SpecCli ProofsCli.
Open Scope Z_scope.

Lemma then_Done {A B} (x : outcome A) (k : A -> outcome B) b : then_ x k = Done b -> exists a, x = Done a /\ k a = Done b.
Proof. destruct x as [a|s]; [|discriminate]. intros H. exists a. auto. Qed.
Lemma lift_Done {A} (x : result A) a : lift x = Done a -> x = Ok a.
Proof. destruct x; [|discriminate]. intros [= ->]. reflexivity. Qed.
Lemma a_text_Done v s : a_text v = Done s -> v = DText s.
Proof. destruct v; try discriminate. intros [= ->]. reflexivity. Qed.

Lemma attrs_fold l r :
  fold_right (fun kv r => match split1 "=" kv with None => Stop Usage | Some p => do!! l <- r; Done (p :: l) end) (Done []) l = Done r ->
  l = map (fun kv => fst kv +++ "=" +++ snd kv) r /\ (forall k v, In (k, v) r -> shas "=" k = false).
Proof.
  revert r. induction l as [|x l IH]; intros r; cbn [fold_right].
  - intros [= <-]. split; [reflexivity|intros ? ? []].
  - destruct (split1 "=" x) as [[k v]|] eqn:S; [|discriminate]. intros H. apply then_Done in H as (r' & H1 & H2). injection H2 as <-.
    destruct (IH _ H1) as [-> N]. apply split1_Some in S as [-> K]. split; [reflexivity|]. intros k' v' [[= <- <-]|I]; [exact K|exact (N _ _ I)].
Qed.
Lemma attrs_text s r : s <> "" -> security_attributes (Some (DText s)) = Done r -> attributes s r.
Proof.
  intros N H. unfold security_attributes in H. destruct (eqb s "") eqn:E; [apply (proj1 (eqb_true _ _)) in E; contradiction|].
  apply attrs_fold in H as [M K]. split.
  - rewrite <- M. symmetry. apply join_split_on.
  - intros k v I. split; [exact (K k v I)|].
    assert (F : shas "," (k +++ "=" +++ v) = false) by (apply (split_on_free "," s); rewrite M; exact (in_map (fun kv => fst kv +++ "=" +++ snd kv) _ _ I)).
    rewrite !shas_app in F. apply Bool.orb_false_iff in F as [F1 F2]. apply Bool.orb_false_iff in F2 as [_ F2]. auto.
Qed.

Section Plan.
  Variable st : string -> result Z.
  Variable hostname : string -> result string.
  Variable d : defaults.
  Variable file : string -> dval -> Prop.
  Variable agents : string -> string * string -> Prop.
  Hypothesis Hf : forall o v, aget o (df_vals d) = Some v <-> file o v.
  Hypothesis Ha : forall s a, aget s (df_nsa d) = Some a <-> agents s a.
  Variable cl : list (string * dval).
  Notation C := (chosen cl file).
  Notation O := (opt cl (df_vals d)).

  Lemma time_from o a : time_option st (aget o cl) = Done a -> time_of st cl file o (d_or a (aget o (df_vals d))).
  Proof.
    unfold time_of, given. intros H. split.
    - intros t G. rewrite G in H. cbn [time_option] in H. apply then_Done in H as (z & H1 & H2). injection H2 as <-. apply lift_Done in H1.
      exists z. split; [exact H1|reflexivity].
    - intros N. destruct (aget o cl) as [v|]; [destruct (N v eq_refl)|]. cbn in H. injection H as <-. cbn.
      unfold maybe. destruct (aget o (df_vals d)) as [w|] eqn:E; [apply Hf; exact E|]. intros v F. apply Hf in F. congruence.
  Qed.

  Lemma wish_made a b w : time_option st (aget "starttime" cl) = Done a -> time_option st (aget "endtime" cl) = Done b ->
    read_wish cl (df_vals d) a b = Done w -> wish_from st cl file w.
  Proof.
    intros TA TB. unfold read_wish. fold (O "source") (O "dest") (O "bandwidth").
    destruct (O "source") as [s|] eqn:E1; [|discriminate]. destruct (O "dest") as [t|] eqn:E2; [|discriminate]. destruct (O "bandwidth") as [bw|] eqn:E3; [|discriminate].
    intros [= <-]. split; cbn [w_src w_dst w_bw w_start w_end w_ero].
    - apply (opt_chosen cl (df_vals d) file Hf). exact E1.
    - apply (opt_chosen cl (df_vals d) file Hf). exact E2.
    - apply (opt_chosen cl (df_vals d) file Hf). exact E3.
    - apply time_from. exact TA.
    - apply time_from. exact TB.
    - intros e. unfold given. destruct (aget "ero" cl) as [[x|?|?|?]|]; try (split; [discriminate|intros [H _]; discriminate]).
      destruct (eqb x "") eqn:E.
      + apply (proj1 (eqb_true _ _)) in E. subst x. split; [discriminate|]. intros [[= <-] N]. contradiction.
      + split; [intros [= ->]; split; [reflexivity|intros ->; discriminate]|intros [[= ->] _]; reflexivity].
  Qed.

  Lemma dot_is o : is_dot (O o) = true -> C o (DText ".").
  Proof.
    intros H. apply (opt_chosen cl (df_vals d) file Hf). destruct (O o) as [[s|?|?|?]|]; try discriminate. cbn in H. apply (proj1 (eqb_true _ _)) in H. subst. reflexivity.
  Qed.
  Lemma ctx_made tls verify c : tls_context tls (O "certificate") (O "key") (O "certdir") verify = Done c ->
    match c with
    | Some (BothWays k c d _) => (C "key" k /\ worth k) /\ (C "certificate" c /\ worth c) /\ (C "certdir" d /\ worth d) /\ ~ (k = DText "." /\ c = DText ".")
    | Some (CheckOnly d _) => C "key" (DText ".") /\ C "certificate" (DText ".") /\ maybe C "certdir" d
    | None => tls = false
    end /\ forall x, c = Some x -> checks x = verify.
  Proof.
    unfold tls_context. intros H. apply then_Done in H as (x & H1 & H2).
    assert (NT : x = None -> c = None /\ tls = false) by (intros ->; destruct tls; [discriminate|injection H2 as <-; auto]).
    destruct (o_true (O "certificate") || o_true (O "key") || o_true (O "certdir")).
    2:{ injection H1 as <-. destruct (NT eq_refl) as [-> ->]. split; [reflexivity|discriminate]. }
    destruct (is_dot (O "certificate") && is_dot (O "key")) eqn:D.
    { injection H1 as <-. injection H2 as <-. apply andb_prop in D as [D1 D2]. split; [|intros x [= <-]; reflexivity].
      split; [apply dot_is; exact D2|]. split; [apply dot_is; exact D1|]. apply opt_maybe. exact Hf. }
    assert (ND : forall k cc, O "key" = Some k -> O "certificate" = Some cc -> ~ (k = DText "." /\ cc = DText ".")).
    { intros k cc E1 E2 [-> ->]. rewrite E1, E2 in D. discriminate. }
    assert (NN : (if tls then Stop Usage else Done None) = Done x -> c = None /\ tls = false).
    { intros E. apply NT. destruct tls; [discriminate|injection E as <-; reflexivity]. }
    destruct (O "certificate") as [vc|] eqn:Ec; [|destruct (NN H1) as [-> ->]; split; [reflexivity|discriminate]].
    destruct (O "key") as [vk|] eqn:Ek; [|destruct (NN H1) as [-> ->]; split; [reflexivity|discriminate]].
    destruct (O "certdir") as [vd|] eqn:Ed; [|destruct (NN H1) as [-> ->]; split; [reflexivity|discriminate]].
    destruct (d_true vc && d_true vk && d_true vd) eqn:T; [|destruct (NN H1) as [-> ->]; split; [reflexivity|discriminate]].
    injection H1 as <-. injection H2 as <-. apply andb_prop in T as [T T3]. apply andb_prop in T as [T1 T2].
    apply d_true_worth in T1, T2, T3. apply (opt_chosen cl (df_vals d) file Hf) in Ec as Ec', Ek as Ek', Ed as Ed'.
    split; [|intros x [= <-]; reflexivity]. repeat (split; [split; assumption|]). exact (ND _ _ eq_refl eq_refl).
  Qed.

  Definition provider_service : option dval * option dval :=
    match aget "provider" cl with
    | Some (DText p) => match aget p (df_nsa d) with Some (id, url) => (Some (DText id), Some (DText url)) | None => (O "provider", O "service") end
    | _ => (O "provider", O "service")
    end.
  Lemma provider_made p s : provider_service = (Some (DText p), Some (DText s)) ->
    (exists x, given cl "provider" (DText x) /\ agents x (p, s)) \/
    ((forall x a, given cl "provider" (DText x) -> ~ agents x a) /\ C "provider" (DText p) /\ C "service" (DText s)).
  Proof.
    unfold provider_service, given. intros H.
    assert (X : (O "provider", O "service") = (Some (DText p), Some (DText s)) -> C "provider" (DText p) /\ C "service" (DText s)).
    { intros E. injection E as E1 E2. split; apply (opt_chosen cl (df_vals d) file Hf); assumption. }
    destruct (aget "provider" cl) as [[x|?|?|?]|]; try (right; split; [intros ? ? [=]|exact (X H)]).
    destruct (aget x (df_nsa d)) as [[id url]|] eqn:E.
    - injection H as <- <-. left. exists x. split; [reflexivity|]. apply Ha. exact E.
    - right. split; [|exact (X H)]. intros y a [= <-] A. apply Ha in A. congruence.
  Qed.

  Definition verifying : bool := if o_true (aget "no-verify" cl) then false else match aget "no-verify" (df_vals d) with Some v => d_true v | None => true end.

  Lemma plan_made sub p : make_plan st hostname sub cl d = Done p ->
    follows st hostname sub cl file agents p /\ forall x, pl_ctx p = Some x -> checks x = verifying.
  Proof.
    intros H. unfold make_plan in H. cbv zeta beta in H.
    repeat match type of H with context [d_or (aget ?o cl) (aget ?o (df_vals d))] => change (d_or (aget o cl) (aget o (df_vals d))) with (O o) in H end.
    fold provider_service in H.
    apply then_Done in H as (attrs & HA & H). apply then_Done in H as (a & Ta & H). apply then_Done in H as (b & Tb & H).
    destruct provider_service as [prov serv] eqn:PS.
    destruct serv as [serv|]; [|discriminate]. destruct prov as [prov|]; [|discriminate].
    apply then_Done in H as (pr & E1 & H). apply then_Done in H as (se & E2 & H). apply a_text_Done in E1, E2. subst prov serv.
    apply then_Done in H as (host & HH & H). apply then_Done in H as (rq & HR & H). apply a_text_Done in HR.
    apply then_Done in H as (ctx & HC & H). apply then_Done in H as (w & HW & H).
    fold verifying in HC. apply ctx_made in HC as [HC HV].
    destruct (mem sub ["provision"; "release"; "terminate"] && match O "connection-id" with None => true | Some _ => false end) eqn:ID; [discriminate|].
    injection H as <-. split; [|exact HV].
    split; cbn [pl_provider pl_service pl_conn pl_global pl_authz pl_requester pl_tls pl_port pl_host pl_attrs pl_wait pl_wish pl_ctx].
    - apply provider_made. exact PS.
    - apply opt_maybe. exact Hf.
    - apply opt_maybe. exact Hf.
    - apply opt_maybe. exact Hf.
    - rewrite <- HR. apply (opt_else cl (df_vals d) file Hf).
    - apply (opt_worth cl (df_vals d) file Hf).
    - apply (opt_else cl (df_vals d) file Hf).
    - pose proof (opt_else cl (df_vals d) file Hf "host") as X. destruct (O "host") as [h|] eqn:E.
      + destruct (d_true h) eqn:T.
        * injection HH as <-. left. split; [apply (opt_chosen cl (df_vals d) file Hf); exact E|apply d_true_worth; exact T].
        * apply then_Done in HH as (n & H1 & H2). injection H2 as <-. apply lift_Done in H1.
          destruct (X (DText n)) as [[_ W]|[N _]]; [|right; split; [exact N|exists n; auto]].
          right. split; [|exists n; auto]. intros v Hv Wv. apply (opt_chosen cl (df_vals d) file Hf) in Hv. rewrite E in Hv. injection Hv as <-. apply d_true_worth in Wv. congruence.
      + apply then_Done in HH as (n & H1 & H2). injection H2 as <-. apply lift_Done in H1.
        right. split; [|exists n; auto]. intros v Hv Wv. apply (opt_chosen cl (df_vals d) file Hf) in Hv. congruence.
    - intros s G N. unfold given in G. rewrite G in HA. apply attrs_text; assumption.
    - intros N. destruct (aget "securityattributes" cl) as [v|] eqn:E; [destruct (N v E)|]. injection HA as <-. reflexivity.
    - rewrite Bool.andb_true_iff, mem_In. split; intros [H1 H2]; (split; [exact H1|]).
      + destruct (aget "notification_wait" cl) as [v|] eqn:E; [|discriminate]. exists v. split; [exact E|apply d_true_worth; exact H2].
      + destruct H2 as (v & G & W). unfold given in G. rewrite G. apply d_true_worth. exact W.
    - intros R. assert (RS : reserving sub = true) by (apply mem_In; exact R). rewrite RS in Ta, Tb, HW.
      apply then_Done in HW as (w' & H1 & H2). injection H2 as <-. exists w'. split; [reflexivity|]. exact (wish_made a b w' Ta Tb H1).
    - intros N. assert (M : mem sub ["provision"; "release"; "terminate"] = true) by (apply mem_In; exact N). rewrite M in ID.
      destruct (O "connection-id") as [v|] eqn:E; [|discriminate]. exists v. apply (opt_chosen cl (df_vals d) file Hf). exact E.
    - exact HC.
  Qed.

  Lemma time_ok o : (forall v, given cl o v -> exists t z, v = DText t /\ st t = Ok z) -> exists a, time_option st (aget o cl) = Done a.
  Proof.
    intros H. destruct (aget o cl) as [v|] eqn:E; [|exists None; reflexivity]. destruct (H v E) as (t & z & -> & T). cbn [time_option]. rewrite T. eexists. reflexivity.
  Qed.
  Lemma chosen_opt o v : C o v -> O o = Some v.
  Proof. apply (opt_chosen cl (df_vals d) file Hf). Qed.
  Lemma provider_can p s : ((exists x, given cl "provider" (DText x) /\ agents x (p, s)) \/
    ((forall x a, given cl "provider" (DText x) -> ~ agents x a) /\ C "provider" (DText p) /\ C "service" (DText s))) ->
    provider_service = (Some (DText p), Some (DText s)).
  Proof.
    unfold provider_service, given. intros [(x & -> & A)|(N & P & S)]; [apply Ha in A; rewrite A; reflexivity|].
    rewrite (chosen_opt _ _ P), (chosen_opt _ _ S). destruct (aget "provider" cl) as [[x|?|?|?]|]; try reflexivity.
    destruct (aget x (df_nsa d)) as [a|] eqn:E; [|reflexivity]. apply Ha in E. destruct (N x a eq_refl E).
  Qed.

  Lemma plan_can sub p s : (forall v, ~ given cl "securityattributes" v) ->
    (forall o v, is_time o -> given cl o v -> exists t z, v = DText t /\ st t = Ok z) ->
    ((exists x, given cl "provider" (DText x) /\ agents x (p, s)) \/
     ((forall x a, given cl "provider" (DText x) -> ~ agents x a) /\ C "provider" (DText p) /\ C "service" (DText s))) ->
    (forall v, C "requester" v -> exists t, v = DText t) ->
    ((exists h, C "host" h /\ worth h) \/ exists n, hostname s = Ok n) ->
    (forall v, C "tls" v -> ~ worth v) ->
    (reserves sub -> exists a b bw, C "source" a /\ C "dest" b /\ C "bandwidth" bw) ->
    (needs_id sub -> exists v, C "connection-id" v) ->
    exists x, make_plan st hostname sub cl d = Done x /\ pl_provider x = p /\ pl_service x = s.
  Proof.
    intros NA HT HP HR HH HL HW HI. unfold make_plan. cbv zeta beta.
    repeat match goal with |- context [d_or (aget ?o cl) (aget ?o (df_vals d))] => change (d_or (aget o cl) (aget o (df_vals d))) with (O o) end.
    fold provider_service. rewrite (provider_can _ _ HP).
    destruct (aget "securityattributes" cl) as [v|] eqn:E; [destruct (NA v E)|]. clear E. cbn [security_attributes then_ a_text].
    destruct (time_ok "starttime" (fun v => HT "starttime" v (or_introl eq_refl))) as [a Ta].
    destruct (time_ok "endtime" (fun v => HT "endtime" v (or_intror eq_refl))) as [b Tb]. rewrite Ta, Tb.
    assert (X : forall {A} (c : bool) (x y : A), (if c then Done x else Done y) = Done (if c then x else y)) by (intros A [] x y; reflexivity).
    rewrite !X. cbn [then_].
    assert (L : o_true (O "tls") = false).
    { destruct (o_true (O "tls")) eqn:E; [|reflexivity]. apply (opt_worth cl (df_vals d) file Hf) in E as (v & Cv & Wv). destruct (HL v Cv Wv). }
    rewrite L.
    assert (HO : exists h, (match O "host" with Some h => if d_true h then Done h else do!! n <- lift (hostname s); Done (DText n) | None => do!! n <- lift (hostname s); Done (DText n) end) = Done h).
    { destruct HH as [(h & Ch & Wh)|[n N]].
      - rewrite (chosen_opt _ _ Ch). apply d_true_worth in Wh. rewrite Wh. eexists. reflexivity.
      - rewrite N. destruct (O "host") as [h|]; [destruct (d_true h)|]; eexists; reflexivity. }
    destruct HO as [h ->]. cbn [then_].
    assert (RO : exists r, a_text (match O "requester" with Some r => if d_true r then r else DText "OpenNSA-CLI" | None => DText "OpenNSA-CLI" end) = Done r).
    { destruct (O "requester") as [v|] eqn:E; [|eexists; reflexivity]. apply (opt_chosen cl (df_vals d) file Hf) in E. destruct (HR v E) as [t ->].
      destruct (d_true (DText t)); eexists; reflexivity. }
    destruct RO as [r ->]. cbn [then_].
    assert (CO : exists c, tls_context false (O "certificate") (O "key") (O "certdir") verifying = Done c).
    { unfold tls_context. destruct (o_true (O "certificate") || o_true (O "key") || o_true (O "certdir")); [|eexists; reflexivity].
      destruct (is_dot (O "certificate") && is_dot (O "key")); [eexists; reflexivity|].
      destruct (O "certificate") as [x|], (O "key") as [y|], (O "certdir") as [z|]; try (eexists; reflexivity).
      destruct (d_true x && d_true y && d_true z); eexists; reflexivity. }
    fold verifying. destruct CO as [c ->]. cbn [then_].
    assert (IO : mem sub ["provision"; "release"; "terminate"] && match O "connection-id" with None => true | Some _ => false end = false).
    { destruct (mem sub ["provision"; "release"; "terminate"]) eqn:M; [|reflexivity]. apply mem_In in M. destruct (HI M) as [v V]. rewrite (chosen_opt _ _ V). reflexivity. }
    destruct (reserving sub) eqn:RS.
    - assert (R : reserves sub) by (apply mem_In; exact RS). destruct (HW R) as (x & y & z & Cx & Cy & Cz).
      unfold read_wish. fold (O "source") (O "dest") (O "bandwidth"). rewrite (chosen_opt _ _ Cx), (chosen_opt _ _ Cy), (chosen_opt _ _ Cz). cbn [then_]. rewrite IO.
      eexists. split; [reflexivity|]. split; reflexivity.
    - cbn [then_]. rewrite IO. eexists. split; [reflexivity|]. split; reflexivity.
  Qed.
End Plan.
