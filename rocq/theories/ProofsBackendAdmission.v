(** Which reservation requests are accepted, and with which labels (C29). *)
From Verif Require Import Base ModelLabel ModelSTP ModelAuthz ModelNRM ModelCalendar ModelState ModelScheduler ModelBackend
  SpecLabel SpecCalendar SpecBackend ProofsLabel ProofsCalendar.
Open Scope Z_scope.

Lemma first_free_ok now c res b e ls l : first_free now c res b e ls = Ok l -> In l ls /\ cal_check now c (res l) b e = Ok tt.
Proof.
  induction ls as [|lv r IH]; cbn [first_free]; [discriminate|]. destruct (cal_check now c (res lv) b e) as [[]|x] eqn:E.
  - intros [= <-]. split; [left; reflexivity|exact E].
  - destruct x; try discriminate. intros H. destruct (IH H). split; [right|]; assumption.
Qed.
Lemma first_free2_ok now c res1 res2 b e ls l : first_free2 now c res1 res2 b e ls = Ok l ->
  In l ls /\ cal_check now c (res1 l) b e = Ok tt /\ cal_check now c (res2 l) b e = Ok tt.
Proof.
  induction ls as [|lv r IH]; cbn [first_free2]; [discriminate|]. destruct (cal_check now c (res1 lv) b e) as [[]|x] eqn:E; cbn [Base.bind].
  - destruct (cal_check now c (res2 lv) b e) as [[]|x] eqn:E2.
    + intros [= <-]. split; [left; reflexivity|split; assumption].
    + destruct x; try discriminate. intros H. destruct (IH H) as (? & ? & ?). split; [right|split]; assumption.
  - destruct x; try discriminate. intros H. destruct (IH H) as (? & ? & ?). split; [right|split]; assumption.
Qed.
Lemma label_enum_one_of req l : In l (label_enum req) <-> one_of req l.
Proof.
  destruct req as [L|]; cbn [label_enum one_of].
  - rewrite in_map_iff. split.
    + intros (v & <- & Hv). apply enumerate_In in Hv. cbn. eauto.
    + destruct l as [[t vs]|]; [|tauto]. cbn. intros (-> & v & -> & Hv). exists v. split; [reflexivity|apply enumerate_In, Hv].
  - destruct l; cbn; [split; [intros [?|[]]; discriminate|tauto]|tauto].
Qed.

Lemma pick_labels_ok g now c src dst b e l1 l2 : wf_olabel (s_label src) -> wf_olabel (s_label dst) ->
  pick_labels g now c src dst b e = Ok (l1, l2) ->
  label_choice g src dst l1 l2 /\ cal_check now c (get_resource g (s_port src) l1) b e = Ok tt /\
  cal_check now c (get_resource g (s_port dst) l2) b e = Ok tt.
Proof.
  intros W1 W2. unfold pick_labels, label_choice.
  destruct (can_swap g (label_type (s_label src)) && can_swap g (label_type (s_label dst))).
  - destruct (first_free now c (get_resource g (s_port src)) b e _) as [x|] eqn:E1; cbn [Base.bind]; [|discriminate].
    destruct (first_free now c (get_resource g (s_port dst)) b e _) as [y|] eqn:E2; cbn [Base.bind]; [|discriminate].
    intros [= <- <-]. apply first_free_ok in E1 as [I1 C1]. apply first_free_ok in E2 as [I2 C2].
    split; [split; apply label_enum_one_of; assumption|split; assumption].
  - destruct (s_label src) as [s|] eqn:Es; [destruct (s_label dst) as [d|] eqn:Ed|].
    + destruct (intersect s d) as [l|x] eqn:Ei; cbn [Base.bind]; [|destruct x; discriminate].
      destruct (first_free2 _ _ _ _ _ _ _) as [y|] eqn:E1; cbn [Base.bind]; [|discriminate]. intros [= <- <-].
      apply first_free2_ok in E1 as (I1 & C1 & C2). apply label_enum_one_of in I1. split; [|split; assumption]. split; [reflexivity|].
      assert (Ht : ltype s = ltype d). { unfold intersect in Ei. destruct (eqb_ok (ltype s) (ltype d)); [assumption|discriminate]. }
      destruct (intersect_spec s d W1 W2 Ht) as [(l' & E' & T' & _ & _ & Hd)|[E' _]]; rewrite Ei in E'; [|discriminate]. injection E' as <-.
      destruct y as [y|]; [|destruct I1]. destruct I1 as (Ty & v & Vy & Dv). apply Hd in Dv as [D1 D2].
      split; [right; cbn; split; [congruence|eauto]|]. split; [right; cbn; split; [congruence|eauto]|]. discriminate.
    + cbn [Base.bind]. destruct (first_free2 _ _ _ _ _ _ _) as [y|] eqn:E1; cbn [Base.bind]; [|discriminate]. intros [= <- <-].
      apply first_free2_ok in E1 as (I1 & C1 & C2). apply label_enum_one_of in I1. split; [|split; assumption].
      split; [reflexivity|]. split; [right; exact I1|]. split; [left; reflexivity|discriminate].
    + cbn [Base.bind]. destruct (first_free2 _ _ _ _ _ _ _) as [y|] eqn:E1; cbn [Base.bind]; [|discriminate]. intros [= <- <-].
      apply first_free2_ok in E1 as (I1 & C1 & C2). apply label_enum_one_of in I1. split; [|split; assumption].
      split; [reflexivity|]. split; [left; reflexivity|]. destruct (s_label dst) as [d|]; split; auto; try discriminate.
      intros _ _. destruct y; [destruct I1|reflexivity].
Qed.
(** without looking at the labels *)
Lemma pick_labels_free g now c src dst b e l1 l2 : pick_labels g now c src dst b e = Ok (l1, l2) ->
  cal_check now c (get_resource g (s_port src) l1) b e = Ok tt /\ cal_check now c (get_resource g (s_port dst) l2) b e = Ok tt.
Proof.
  unfold pick_labels. destruct (_ && _).
  - destruct (first_free now c (get_resource g (s_port src)) b e _) as [x|] eqn:E1; cbn [Base.bind]; [|discriminate].
    destruct (first_free now c (get_resource g (s_port dst)) b e _) as [y|] eqn:E2; cbn [Base.bind]; [|discriminate].
    intros [= <- <-]. apply first_free_ok in E1 as [I1 C1]. apply first_free_ok in E2 as [I2 C2]. auto.
  - destruct (match s_label src with Some _ => _ | None => _ end) as [cand|]; cbn [Base.bind]; [|discriminate].
    destruct (first_free2 _ _ _ _ _ _ _) as [y|] eqn:E1; cbn [Base.bind]; [|discriminate]. intros [= <- <-].
    apply first_free2_ok in E1 as (I1 & C1 & C2). auto.
Qed.

Lemma can_match_true a b : wf_olabel a -> wf_olabel b -> can_match a b = Ok true ->
  match a, b with
  | None, None => True
  | Some x, Some y => ltype x = ltype y /\ exists z, denotes (lvalues x) z /\ denotes (lvalues y) z
  | _, _ => False
  end.
Proof.
  destruct a as [x|], b as [y|]; cbn [wf_olabel]; intros W1 W2; try discriminate; auto.
  intros H. assert (Ht : ltype x = ltype y).
  { unfold can_match, intersect in H. destruct (eqb_ok (ltype x) (ltype y)); [assumption|discriminate]. }
  split; [exact Ht|]. destruct (can_match_spec x y W1 W2 Ht) as (r & Hr & Hz). rewrite H in Hr. injection Hr as <-. apply Hz. reflexivity.
Qed.
Lemma can_match_carries p b : wf_olabel (p_label p) -> wf_olabel b -> carries p b -> can_match (p_label p) b = Ok true.
Proof.
  unfold carries. destruct (p_label p) as [x|], b as [y|]; cbn [wf_olabel]; try tauto. intros W1 W2 [Ht Hz].
  destruct (can_match_spec x y W1 W2 Ht) as (r & Hr & Hz'). rewrite Hr. f_equal. apply Hz', Hz.
Qed.
Lemma olabel_eqb_refl a : olabel_eqb a a = true.
Proof. destruct a as [x|]; cbn; [|reflexivity]. unfold label_eqb. rewrite !eqb_refl. reflexivity. Qed.


Lemma authorize_inv g sp dp h : authorize g sp dp h = Ok tt -> exists p d, aget sp (nrm_ports g) = Some p /\ aget dp (nrm_ports g) = Some d /\
  is_authorized (p_authz p) (h_sas h) (h_ri h) = true /\ is_authorized (p_authz d) (h_sas h) (h_ri h) = true.
Proof.
  unfold authorize. destruct (aget sp (nrm_ports g)) as [p|]; [|discriminate]. destruct (aget dp (nrm_ports g)) as [d|]; [|discriminate].
  destruct (is_authorized (p_authz p) _ _) eqn:E1; cbn [negb]; [|discriminate].
  destruct (is_authorized (p_authz d) _ _) eqn:E2; cbn [negb]; [|discriminate]. eauto 10.
Qed.

Lemma admission_inv g now c h q l1 l2 : admission g now c h q = Ok (l1, l2) ->
  pick_labels g now c (rs_src q) (rs_dst q) (rs_start q) (rs_end q) = Ok (l1, l2) /\
  (rs_p2p q = true -> wf_ports g -> wf_olabel (s_label (rs_src q)) -> wf_olabel (s_label (rs_dst q)) -> exists p d, acceptable g h q p d).
Proof.
  unfold admission. intros H.
  destruct (eqb_ok (s_network (rs_src q)) (network g)) as [N1|]; cbn [negb] in H; [|discriminate].
  destruct (eqb_ok (s_network (rs_dst q)) (network g)) as [N2|]; cbn [negb] in H; [|discriminate].
  destruct (aget (s_port (rs_src q)) (nrm_ports g)) as [p|] eqn:Ep; [|discriminate].
  destruct (aget (s_port (rs_dst q)) (nrm_ports g)) as [d|] eqn:Ed; [|discriminate].
  destruct (match rs_start q, rs_end q with Some b, Some e => e - b <? min_duration g * second | _, _ => false end) eqn:Edur; [discriminate|].
  destruct (authorize g (s_port (rs_src q)) (s_port (rs_dst q)) h) as [[]|] eqn:Ea; cbn [Base.bind] in H; [|discriminate].
  destruct (p_restricted p && p_restricted d) eqn:Et; [discriminate|].
  destruct (eqb (s_port (rs_src q)) (s_port (rs_dst q)) && olabel_eqb (s_label (rs_src q)) (s_label (rs_dst q))) eqn:Eh; [discriminate|].
  destruct (match can_connect g with Some _ => _ | None => _ end) eqn:Ec; cbn [negb] in H; [|discriminate].
  destruct (can_match (p_label p) (s_label (rs_src q))) as [[]|] eqn:M1; cbn [Base.bind negb] in H; try discriminate.
  destruct (can_match (p_label d) (s_label (rs_dst q))) as [[]|] eqn:M2; cbn [Base.bind negb] in H; try discriminate.
  split; [exact H|]. intros Hp Wp W1 W2. exists p, d.
  apply authorize_inv in Ea as (p' & d' & E1 & E2 & A1 & A2). assert (p' = p) by congruence. assert (d' = d) by congruence. subst p' d'.
  constructor; auto.
  - intros b e Eb Ee. rewrite Eb, Ee in Edur. lia.
  - apply andb_false_iff in Et. intros [R1 R2]. destruct Et; congruence.
  - apply andb_false_iff in Eh as [Eh|Eh].
    + left. intros E. rewrite E, eqb_refl in Eh. discriminate.
    + right. intros E. rewrite E, olabel_eqb_refl in Eh. discriminate.
  - destruct (can_connect g); [exact Ec|]. apply eqb_true. exact Ec.
  - unfold carries. apply can_match_true; eauto.
  - unfold carries. apply can_match_true; eauto.
Qed.

(** * Nothing else is refused *)
Section Complete.
Variables (now : Z) (c : calendar) (b e : option Z).
Hypothesis Hfw : forward forever now b e.
Hypothesis Hleg : legal_span year2095 now b e.
Hypothesis Hcal : forall res cs ce, In (mk_entry res cs ce) c -> forward forever now cs ce.
Definition is_free (res : string) : Prop := forall cs ce, In (mk_entry res cs ce) c -> ~ share_instant forever now cs ce b e.

Lemma check_two res : (cal_check now c res b e = Ok tt /\ is_free res) \/ (cal_check now c res b e = Err ESTPUnavailable /\ ~ is_free res).
Proof.
  destruct (legal_dec now b e) as [[_ Heq]|[Hn _]]; [|contradiction]. rewrite Heq.
  destruct (check_loop_spec now c res b e Hfw) as [[E H]|[E (cs & ce & Hin & H)]].
  - intros cs ce. apply Hcal.
  - left. split; [exact E|]. intros cs ce Hin. apply (H cs ce Hin).
  - right. split; [exact E|]. intros Hf. apply (Hf cs ce Hin H).
Qed.
Lemma first_free_complete res ls : (exists l, In l ls /\ is_free (res l)) -> exists l, first_free now c res b e ls = Ok l.
Proof.
  induction ls as [|lv r IH]; cbn [first_free]; [intros (l & [] & _)|]. intros (l & Hin & Hf).
  destruct (check_two (res lv)) as [[-> _]|[-> Hn]]; [eauto|]. apply IH. destruct Hin as [->|Hin]; [contradiction|eauto].
Qed.
Lemma first_free2_complete res1 res2 ls : (exists l, In l ls /\ is_free (res1 l) /\ is_free (res2 l)) -> exists l, first_free2 now c res1 res2 b e ls = Ok l.
Proof.
  induction ls as [|lv r IH]; cbn [first_free2]; [intros (l & [] & _)|]. intros (l & Hin & Hf1 & Hf2).
  destruct (check_two (res1 lv)) as [[-> _]|[-> Hn]]; cbn [Base.bind].
  - destruct (check_two (res2 lv)) as [[-> _]|[-> Hn]]; [eauto|]. apply IH. destruct Hin as [->|Hin]; [contradiction|eauto].
  - apply IH. destruct Hin as [->|Hin]; [contradiction|eauto].
Qed.
Lemma pick_labels_complete g src dst l1 l2 : wf_olabel (s_label src) -> wf_olabel (s_label dst) ->
  label_choice g src dst l1 l2 -> is_free (get_resource g (s_port src) l1) -> is_free (get_resource g (s_port dst) l2) ->
  exists ll, pick_labels g now c src dst b e = Ok ll.
Proof.
  intros W1 W2 Hc F1 F2. unfold label_choice in Hc. unfold pick_labels.
  destruct (can_swap g (label_type (s_label src)) && can_swap g (label_type (s_label dst))).
  - destruct Hc as [C1 C2]. apply label_enum_one_of in C1, C2.
    destruct (first_free_complete (get_resource g (s_port src)) (label_enum (s_label src))) as (x & ->); [eauto|].
    destruct (first_free_complete (get_resource g (s_port dst)) (label_enum (s_label dst))) as (y & ->); [eauto|]. cbn. eauto.
  - destruct Hc as (<- & C1 & C2 & C3).
    assert (Hcand : exists cand, match s_label src, s_label dst with
                | None, d => Ok d
                | Some s, None => Ok (Some s)
                | Some s, Some d => match intersect s d with
                                    | Ok l => Ok (Some l)
                                    | Err EEmptyLabelSet => Err EVLANInterchange
                                    | Err x => Err x
                                    end
                end = Ok cand /\ one_of cand l1).
    { destruct (s_label src) as [s|] eqn:Es; [destruct (s_label dst) as [d|] eqn:Ed|].
      - destruct C1 as [?|C1]; [discriminate|]. destruct C2 as [?|C2]; [discriminate|].
        destruct l1 as [x|]; [|destruct C1]. destruct C1 as (T1 & v & V1 & D1). destruct C2 as (T2 & v' & V2 & D2).
        assert (v' = v) by congruence. subst v'. assert (Ht : ltype s = ltype d) by congruence.
        destruct (intersect_spec s d W1 W2 Ht) as [(l & -> & T & _ & _ & Hd)|[_ Hn]].
        + exists (Some l). split; [reflexivity|]. cbn. split; [congruence|]. exists v. split; [exact V1|]. apply Hd. auto.
        + exfalso. apply (Hn v). auto.
      - exists (Some s). destruct C1 as [?|C1]; [discriminate|]. auto.
      - exists (s_label dst). split; [reflexivity|]. destruct C2 as [C2|C2]; [|exact C2]. rewrite C2, C3 by auto. exact I. }
    destruct Hcand as (cand & -> & Hone). cbn [Base.bind]. apply label_enum_one_of in Hone.
    destruct (first_free2_complete (get_resource g (s_port src)) (get_resource g (s_port dst)) (label_enum cand)) as (y & ->); [eauto|]. cbn. eauto.
Qed.
End Complete.

Lemma olabel_eqb_eq a b : wf_olabel a -> wf_olabel b -> olabel_eqb a b = true -> a = b.
Proof.
  destruct a as [[t1 v1]|], b as [[t2 v2]|]; cbn [wf_olabel olabel_eqb]; try discriminate; auto.
  intros W1 W2 H. apply label_eqb_spec in H as [Ht Hd]; [|apply W1|apply W2]. cbn in *. subst t2. do 2 f_equal.
  apply normal_unique; [apply W1|apply W2|exact Hd].
Qed.
Lemma admission_complete g now c h q p d l1 l2 : wf_ports g -> wf_olabel (s_label (rs_src q)) -> wf_olabel (s_label (rs_dst q)) ->
  acceptable g h q p d -> forward forever now (rs_start q) (rs_end q) -> legal_span year2095 now (rs_start q) (rs_end q) ->
  (forall res cs ce, In (mk_entry res cs ce) c -> forward forever now cs ce) -> free_choice g now c q l1 l2 ->
  exists ll, admission g now c h q = Ok ll.
Proof.
  intros Wp W1 W2 A Hf Hl Hc [Hch Hfree]. destruct A. unfold admission.
  rewrite a_snet, a_dnet, eqb_refl. cbn [negb]. rewrite a_sport, a_dport.
  replace (match rs_start q, rs_end q with Some b, Some e => e - b <? min_duration g * second | _, _ => false end) with false.
  2:{ destruct (rs_start q) as [b|] eqn:Eb; [|reflexivity]. destruct (rs_end q) as [e|] eqn:Ee; [|reflexivity]. specialize (a_dur b e eq_refl eq_refl). lia. }
  unfold authorize. rewrite a_sport, a_dport, a_sauth, a_dauth. cbn [negb Base.bind].
  replace (p_restricted p && p_restricted d) with false by (destruct (p_restricted p), (p_restricted d); auto; exfalso; auto).
  replace (eqb (s_port (rs_src q)) (s_port (rs_dst q)) && olabel_eqb (s_label (rs_src q)) (s_label (rs_dst q))) with false.
  2:{ symmetry. apply andb_false_iff. destruct a_ends as [E|E]; [left; apply eqb_neq, E|right].
      destruct (olabel_eqb _ _) eqn:Eo; [|reflexivity]. apply olabel_eqb_eq in Eo; auto. contradiction. }
  replace (match can_connect g with Some f => f _ _ _ _ | None => _ end) with true.
  2:{ destruct (can_connect g); [auto|]. rewrite a_connect, eqb_refl. reflexivity. }
  cbn [negb]. rewrite (can_match_carries p), (can_match_carries d) by eauto. cbn [Base.bind negb].
  eapply pick_labels_complete; [exact Hf|exact Hl|exact Hc|exact W1|exact W2|exact Hch| |].
  - intros cs ce Hin. apply (Hfree _ cs ce (or_introl eq_refl) Hin).
  - intros cs ce Hin. apply (Hfree _ cs ce (or_intror eq_refl) Hin).
Qed.
