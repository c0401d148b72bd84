(** Proofs about reading over REST. *)
From Verif Require Import Base BaseProofs ModelAuthz ModelLabel ModelSTP ModelTime ModelRest ModelRestGet SpecLabel SpecSTP SpecTime SpecRestGet
  ProofsLabel ProofsSTP ProofsTimeText ProofsPlugins.
Open Scope Z_scope.

Lemma rest_stp_text s : plain_stp s -> stp_text (rest_stp s) s /\ contains URN_NETWORK (rest_stp s) = false.
Proof.
  destruct s as [net port ol]. unfold plain_stp, rest_stp. cbn [s_network s_port s_label]. intros (Hc & H1 & H2 & H3 & Hl).
  destruct URN_facts as (Hq & Hcol & Hne).
  destruct ol as [l|]; cbn [rest_label].
  - destruct (Hl l eq_refl) as [Ht Hwf]. split.
    + apply stp_labelled; auto; try (apply label_value_lacks; reflexivity). apply label_value_roundtrip. exact Hwf.
    + change ("?" +++ ltype l +++ "=" +++ label_value l) with (String "?" (ltype l +++ "=" +++ label_value l)).
      replace (net +++ ":" +++ port +++ String "?" (ltype l +++ "=" +++ label_value l))
        with ((net +++ ":" +++ port) +++ String "?" (ltype l +++ "=" +++ label_value l)) by (rewrite !append_assoc; reflexivity).
      rewrite contains_cross by assumption. rewrite Hc. cbn [orb].
      apply (contains_lacks ":"); [exact Hcol|]. rewrite !shas_app, label_value_lacks by reflexivity. destruct Ht as [->| ->]; reflexivity.
  - rewrite append_nil_r. split; [apply stp_plain; assumption|exact Hc].
Qed.
Lemma rest_stp_again s : plain_stp s -> (do! t <- prefixed (JStr (rest_stp s)); create_stp t) = Ok s.
Proof.
  intros H. destruct (rest_stp_text s H) as (Ht & Hc). cbn [prefixed Base.bind].
  assert (Hs : starts_with URN_NETWORK (rest_stp s) = false).
  { destruct (rest_stp s) as [|c r]; [reflexivity|]. cbn [contains] in Hc. apply orb_false_iff in Hc as [Hc _]. exact Hc. }
  rewrite Hs. apply c23_accepts; assumption.
Qed.

Lemma rest_time_ok t : (forall x, t = Some x -> time_exists x) -> exists j, rest_time t = Ok j /\ says_time t j.
Proof.
  intros H. destruct t as [t|]; cbn [rest_time says_time]; [|eauto]. destruct (create_parse t (H t eq_refl)) as (s & E & P).
  rewrite E. cbn [Base.bind]. eauto.
Qed.

Lemma max_from_ok l : forall m, m <> None -> (forall x, In x l -> x <> None) -> exists v, max_from m l = Ok v.
Proof.
  induction l as [|x r IH]; intros m Hm H; cbn [max_from]; [eauto|]. destruct m as [a|]; [|congruence].
  destruct x as [b|]; [|exfalso; apply (H None); [left; reflexivity|reflexivity]].
  apply IH; [discriminate|]. intros y Hy. apply H. right. exact Hy.
Qed.
Lemma rest_status_ok subs : versions subs -> exists v k, rest_status subs = Ok (match subs with [] => false | _ => forallb sb_active subs end, v, k).
Proof.
  intros H. destruct subs as [|s r]; [cbn; eauto|]. unfold rest_status. cbn [map max_version].
  assert (M : exists v, max_from (sb_version s) (map sb_version r) = Ok v).
  { destruct H as [H|H].
    - destruct r as [|s' r]; [cbn; eauto|]. cbn in H. lia.
    - apply max_from_ok; [apply H; left; reflexivity|]. intros x Hx. apply in_map_iff in Hx as (y & <- & Hy). apply H. right. exact Hy. }
  destruct M as (v & ->). cbn [Base.bind]. eauto.
Qed.

Lemma conn2dict_ok c subs : plain_conn c -> versions subs -> exists j, conn2dict c subs = Ok j /\ describes c subs j.
Proof.
  intros (Hs & Hd & Hr & Hst & Hen) Hv. unfold conn2dict.
  destruct (rest_time_ok (sc_start c) Hst) as (st & -> & Pst). destruct (rest_time_ok (sc_end c) Hen) as (en & -> & Pen).
  destruct (create_parse (sc_reserved c) Hr) as (cr & -> & Pcr). destruct (rest_status_ok subs Hv) as (v & k & ->). cbn [Base.bind fst].
  destruct (rest_stp_text _ Hs) as (Ts & _), (rest_stp_text _ Hd) as (Td & _).
  eexists. split; [reflexivity|]. eexists. split; [reflexivity|]. cbn [map fst].
  split; [repeat (constructor; [cbn; intuition discriminate|]); constructor|]. split; [reflexivity|].
  assert (B : forall b, (match subs with [] => false | _ => forallb sb_active subs end) = b -> (b = true <-> subs <> [] /\ forall s, In s subs -> sb_active s = true)).
  { intros b <-. destruct subs as [|s r]; [split; [discriminate|intros [X _]; congruence]|]. rewrite forallb_forall. split; [intros X; split; [discriminate|exact X]|intros [_ X]; exact X]. }
  cbn [In].
  split; [auto|]. split; [exists st; auto|]. split; [exists en; auto|]. split; [exists (JStr cr); split; [auto 10|exists cr; auto]|].
  split; [exists (rest_stp (sc_source c)); auto 10|]. split; [exists (rest_stp (sc_dest c)); auto 10|].
  split; [auto 10|]. split; [auto 15|]. split; [auto 15|]. split; [auto 15|].
  eexists. split; [do 10 right; left; reflexivity|]. apply B. reflexivity.
Qed.

Lemma list_get_ok allowed rq rows : (forall r, In r rows -> plain_conn (fst r) /\ versions (snd r)) ->
  exists l, list_get allowed rq (Ok rows) = GJson 200 (JList l) /\ Forall2 (fun r j => describes (fst r) (snd r) j) rows l.
Proof.
  intros H. unfold list_get. assert (M : exists l, mapM (fun r => conn2dict (fst r) (snd r)) rows = Ok l /\ Forall2 (fun r j => describes (fst r) (snd r) j) rows l).
  { induction rows as [|r rs IH]; [exists []; split; [reflexivity|constructor]|].
    destruct (conn2dict_ok (fst r) (snd r)) as (j & E & P); [apply H; left; reflexivity|apply H; left; reflexivity|].
    destruct IH as (l & El & Pl); [intros x Hx; apply H; right; exact Hx|]. exists (j :: l). cbn [mapM]. rewrite E. cbn [Base.bind]. rewrite El. split; [reflexivity|]. constructor; assumption. }
  destruct M as (l & -> & P). exists l. auto.
Qed.

Lemma again_ok c subs j ri s e : plain_conn c -> sc_start c = Some s -> sc_end c = Some e -> conn2dict c subs = Ok j ->
  reserve_request j ri = Ok (Some (CReserve (sc_source c) (sc_dest c) (Some s) (Some e) (JInt (sc_bandwidth c)) ri)).
Proof.
  intros (Hs & Hd & Hr & Hst & Hen) Es Ee. unfold conn2dict. rewrite Es, Ee. cbn [rest_time].
  destruct (create_parse s (Hst s Es)) as (st & -> & Pst). destruct (create_parse e (Hen e Ee)) as (en & -> & Pen).
  destruct (create_parse (sc_reserved c) Hr) as (cr & -> & _). cbn [Base.bind].
  destruct (rest_status subs) as [x|er]; cbn [Base.bind]; [|discriminate]. intros H. apply Ok_inj in H. subst j.
  unfold reserve_request. 
  pose proof (rest_stp_again _ Hs) as Qs. pose proof (rest_stp_again _ Hd) as Qd. cbn [prefixed Base.bind] in Qs, Qd.
  set (J := JObj _).
  assert (G1 : jget "source" J = Ok (JStr (rest_stp (sc_source c)))) by reflexivity.
  assert (G2 : jget "destination" J = Ok (JStr (rest_stp (sc_dest c)))) by reflexivity.
  rewrite G1, G2. cbn [Base.bind prefixed]. rewrite Qs, Qd. cbn [Base.bind].
  assert (T1 : opt_time "start_time" J = Ok (Some s)).
  { unfold opt_time. assert (E1 : jin "start_time" J = true) by reflexivity. assert (E2 : jget "start_time" J = Ok (JStr st)) by reflexivity. rewrite E1, E2. cbn [Base.bind]. rewrite Pst. reflexivity. }
  assert (T2 : opt_time "end_time" J = Ok (Some e)).
  { unfold opt_time. assert (E1 : jin "end_time" J = true) by reflexivity. assert (E2 : jget "end_time" J = Ok (JStr en)) by reflexivity. rewrite E1, E2. cbn [Base.bind]. rewrite Pen. reflexivity. }
  rewrite T1, T2. cbn [Base.bind].
  assert (A : auto_provision J = false) by reflexivity. rewrite A. cbn [andb].
  assert (C : jget_or "capacity" (JInt 0) J = JInt (sc_bandwidth c)) by reflexivity. rewrite C. reflexivity.
Qed.

Lemma stuck_list allowed rq rows c s1 s2 r : sb_version s1 = None \/ sb_version s2 = None -> In (c, s1 :: s2 :: r) rows ->
  list_get allowed rq (Ok rows) = Silent.
Proof.
  intros Hn Hi. unfold list_get.
  assert (Bad : exists e, conn2dict c (s1 :: s2 :: r) = Err e).
  { unfold conn2dict. destruct (rest_time (sc_start c)); cbn [Base.bind]; [|eauto]. destruct (rest_time (sc_end c)); cbn [Base.bind]; [|eauto].
    destruct (createXMLTime false (sc_reserved c)); cbn [Base.bind]; [|eauto].
    assert (E : rest_status (s1 :: s2 :: r) = Err EType).
    { unfold rest_status. cbn [map max_version max_from]. destruct Hn as [-> | ->]; [reflexivity|]. destruct (sb_version s1); reflexivity. }
    rewrite E. cbn [Base.bind]. eauto. }
  destruct Bad as (e & Bad).
  assert (M : exists e, mapM (fun r => conn2dict (fst r) (snd r)) rows = Err e).
  { induction rows as [|x rs IH]; [destruct Hi|]. cbn [mapM]. destruct Hi as [->|Hi].
    - cbn [fst snd]. rewrite Bad. cbn [Base.bind]. eauto.
    - destruct (conn2dict (fst x) (snd x)); cbn [Base.bind]; [|eauto]. destruct (IH Hi) as (e' & ->). cbn [Base.bind]. eauto. }
  destruct M as (e' & ->). reflexivity.
Qed.
