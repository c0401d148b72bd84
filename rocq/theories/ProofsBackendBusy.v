(** Requests for which no label is free (C29). *)
From Verif Require Import Base ModelLabel ModelSTP ModelAuthz ModelNRM ModelCalendar ModelState ModelScheduler ModelBackend
  SpecLabel SpecCalendar SpecBackend ProofsCalendar ProofsBackendWp ProofsBackendFoc ProofsBackendOps ProofsBackendAdmission ProofsBackendReserve ProofsBackendSerial ProofsBackendReserve2.
Open Scope Z_scope.

Section Busy.
Variables (now : Z) (c : calendar) (b e : option Z).
Hypothesis Hfw : forward forever now b e.
Hypothesis Hleg : legal_span year2095 now b e.
Hypothesis Hcal : forall res cs ce, In (mk_entry res cs ce) c -> forward forever now cs ce.
Lemma first_free_two res ls : (exists l, first_free now c res b e ls = Ok l) \/ first_free now c res b e ls = Err ESTPUnavailable.
Proof. induction ls as [|lv r IH]; cbn [first_free]; [auto|]. destruct (check_two now c b e Hfw Hleg Hcal (res lv)) as [[-> _]|[-> _]]; [eauto|exact IH]. Qed.
Lemma first_free2_two res1 res2 ls : (exists l, first_free2 now c res1 res2 b e ls = Ok l) \/ first_free2 now c res1 res2 b e ls = Err ESTPUnavailable.
Proof.
  induction ls as [|lv r IH]; cbn [first_free2]; [auto|]. destruct (check_two now c b e Hfw Hleg Hcal (res1 lv)) as [[-> _]|[-> _]]; cbn [Base.bind]; [|exact IH].
  destruct (check_two now c b e Hfw Hleg Hcal (res2 lv)) as [[-> _]|[-> _]]; [eauto|exact IH].
Qed.
(** with an empty calendar the labels are found if they can be chosen; so it is the
    calendar *)
Lemma pick_labels_two g src dst ll : pick_labels g now [] src dst b e = Ok ll ->
  (exists ll, pick_labels g now c src dst b e = Ok ll) \/ pick_labels g now c src dst b e = Err ESTPUnavailable.
Proof.
  unfold pick_labels. destruct (_ && _).
  - intros _. destruct (first_free_two (get_resource g (s_port src)) (label_enum (s_label src))) as [[x ->]| ->]; cbn [Base.bind]; [|auto].
    destruct (first_free_two (get_resource g (s_port dst)) (label_enum (s_label dst))) as [[y ->]| ->]; cbn [Base.bind]; eauto.
  - destruct (match s_label src with Some _ => _ | None => _ end) as [cand|]; cbn [Base.bind]; [|discriminate]. intros _.
    destruct (first_free2_two (get_resource g (s_port src)) (get_resource g (s_port dst)) (label_enum cand)) as [[y ->]| ->]; cbn [Base.bind]; eauto.
Qed.
End Busy.
Lemma admission_pick g now c h q ll : admission g now [] h q = Ok ll -> pick_labels g now [] (rs_src q) (rs_dst q) (rs_start q) (rs_end q) = Ok ll /\
  admission g now c h q = pick_labels g now c (rs_src q) (rs_dst q) (rs_start q) (rs_end q).
Proof.
  unfold admission. intros H. repeat match type of H with
    | (if ?x then _ else _) = _ => destruct x; try discriminate
    | match aget ?x ?y with _ => _ end = _ => destruct (aget x y); try discriminate
    | Base.bind ?x _ = _ => destruct x; cbn [Base.bind] in H |- *; try discriminate
    end. auto.
Qed.
Lemma admission_busy g now c h q p d l1 l2 : wf_ports g -> wf_olabel (s_label (rs_src q)) -> wf_olabel (s_label (rs_dst q)) ->
  acceptable g h q p d -> forward forever now (rs_start q) (rs_end q) -> legal_span year2095 now (rs_start q) (rs_end q) ->
  (forall res cs ce, In (mk_entry res cs ce) c -> forward forever now cs ce) -> label_choice g (rs_src q) (rs_dst q) l1 l2 ->
  (forall l1 l2, ~ free_choice g now c q l1 l2) -> admission g now c h q = Err ESTPUnavailable.
Proof.
  intros Wp W1 W2 A Hf Hl Hc Hch Hn.
  destruct (admission_complete g now [] h q p d l1 l2) as [ll Had]; try assumption; [intros ? ? ? []|split; [exact Hch|intros ? ? ? _ []]|].
  destruct (admission_pick g now c h q ll Had) as [Hp ->].
  destruct (pick_labels_two now c _ _ Hf Hl Hc g _ _ _ Hp) as [[[m1 m2] E]|E]; [|exact E]. exfalso.
  destruct (pick_labels_ok _ _ _ _ _ _ _ _ _ W1 W2 E) as (C0 & C1 & C2). apply (Hn m1 m2). split; [exact C0|]. intros res cs ce [->| ->] Hin.
  - exact (check_free now c _ _ _ Hf (fun cs' ce' => Hc _ cs' ce') C1 cs ce Hin).
  - exact (check_free now c _ _ _ Hf (fun cs' ce' => Hc _ cs' ce') C2 cs ce Hin).
Qed.
Lemma reserve_busy g h q e s p d l1 l2 : let s1 := looked_at q e s in
  wf_ports g -> wf_olabel (s_label (rs_src q)) -> wf_olabel (s_label (rs_dst q)) ->
  acceptable g h q p d -> forward forever (now s1) (rs_start q) (rs_end q) -> legal_span year2095 (now s1) (rs_start q) (rs_end q) ->
  (forall res cs ce, In (mk_entry res cs ce) (cal s) -> forward forever (now s1) cs ce) ->
  label_choice g (rs_src q) (rs_dst q) l1 l2 -> (forall l1 l2, ~ free_choice g (now s1) (cal s) q l1 l2) ->
  aget (match rs_cid q with Some c => c | None => rs_new q end) (db s) = None ->
  exists s' e', run (reserve g h q) e s = (Err ESTPUnavailable, s', e').
Proof.
  intros s1 Wp W1 W2 A Hf Hl Hc Hch Hn Hd. unfold looked_at in s1.
  assert (Hu : fst (fst (run (check_unused q) e s)) = Ok tt /\ still s s1).
  { pose proof (wp_sound any Logic.I _ _ _ s e (any_env e) (u_unused q s)) as H.
    unfold s1. assert (G : exists r1 e1, run (check_unused q) e s = (Ok tt, r1, e1)).
    { clear -Hd. unfold check_unused. destruct (rs_cid q) as [c|]; [|cbn; eauto]. destruct (eqb_ok c "") as [->|]; [cbn; eauto|].
      unfold get_connection, await. cbn [bind catch get run]. destruct (next_env e) as [[x dt] e1]. cbn [answer bind catch run].
      change (db (tick dt s)) with (db s). rewrite Hd. cbn [bind catch run]. destruct (next_env e1) as [[x' dt'] e2]. cbn [answer bind catch run]. eauto. }
    destruct G as (r1 & e1 & G). rewrite G in *. cbn [fst snd] in *. destruct H as (_ & H & _). auto. }
  destruct Hu as [Hu1 (E1 & E2 & E3 & E4 & E5)].
  assert (Had : admission g (ModelBackend.now s1) (cal s1) h q = Err ESTPUnavailable) by (rewrite E2; eapply admission_busy; eauto).
  unfold reserve. rewrite (a_p2p _ _ _ _ _ A). cbn [negb]. rewrite run_bind.
  destruct (run (check_unused q) e s) as [[x sx] ex] eqn:Er. cbn [fst snd] in *. subst x. change sx with s1. clearbody s1. clear Er sx.
  cbn [get bind run]. rewrite Had. cbn. eauto.
Qed.
