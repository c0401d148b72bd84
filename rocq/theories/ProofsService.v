(** The aggregator and its local backend together (C89). *)
From Verif Require Import Base BaseProofs ModelLabel ModelSTP ModelAuthz ModelNRM ModelState ModelLinkVector ModelProvreg ModelAggregator SpecAggregator SpecAggInv
  ProofsServiceWp ProofsServiceInv ProofsServiceProg.
From Verif Require ModelBackend ModelBackendConc SpecBackendConc ProofsConcWp ProofsConcSetup ProofsAggAct ProofsAggRun2.
From Verif Require Import ModelService SpecService.
Open Scope Z_scope.
Notation bmstep := ModelBackendConc.mstep.
Notation bmrun := ModelBackendConc.mrun.
Notation bminit := ModelBackendConc.minit.
Notation bouts v := (ModelBackend.outs (ModelBackendConc.m_st (v_back v))).
Notation blog v := (ModelBackendConc.m_log (v_back v)).
Notation aouts v := (outs (m_st (v_agg v))).
Notation alog v := (m_log (v_agg v)).

(** * What each keeps *)
Lemma do_act_outs a s : incl (outs s) (outs (do_act a s)).
Proof. destruct s as [tc ts nk hc hs no cc cs rv qr qc nc nn rg vv os]. destruct a; cbn; try apply incl_refl; try (apply incl_appl; apply incl_refl). all: destruct (aget _ _); cbn; apply incl_refl. Qed.
Lemma advance_outs {A} pr (p : prog A) : forall s, incl (outs s) (outs (snd (advance pr p s))).
Proof.
  induction p as [a|e|k IH|a k IH|w k IH]; intros s; cbn; try apply incl_refl; auto.
  - eapply incl_tran; [apply do_act_outs|apply IH].
  - destruct w, pr; cbn; try apply incl_refl; apply IH.
Qed.
Lemma record_st i r m : m_st (record i r m) = snd r. Proof. unfold record. destruct (fst r); reflexivity. Qed.
Lemma record_log i r m : m_log (record i r m) = m_log m. Proof. unfold record. destruct (fst r); reflexivity. Qed.
Lemma a_outs g pr m e : incl (outs (m_st m)) (outs (m_st (mstep g pr m e))).
Proof.
  destruct e as [c|i a|reg rv|reg rv]; cbn [mstep].
  - rewrite record_st. apply advance_outs.
  - destruct (aget i (m_tasks m)) as [[w k]|]; [destruct (answers w a); [rewrite record_st; apply advance_outs|]|]; apply incl_refl.
  - destruct m as [[] ? ? ? ?]; cbn. apply incl_refl.
  - apply incl_refl.
Qed.
Lemma a_log g pr m e : exists l, m_log (mstep g pr m e) = m_log m ++ l /\ (forall c, e = EvCall c -> l = [c]) /\ ((forall c, e <> EvCall c) -> l = []).
Proof.
  destruct e as [c|i a|reg rv|reg rv]; cbn [mstep].
  - exists [c]. rewrite record_log. split; [reflexivity|]. split; [intros ? [= ->]; reflexivity|]. intros H. elim (H c). reflexivity.
  - exists []. rewrite app_nil_r. split; [|split; [discriminate|reflexivity]]. destruct (aget i (m_tasks m)) as [[w k]|]; [destruct (answers w a); [rewrite record_log|]|]; reflexivity.
  - exists []. rewrite app_nil_r. split; [reflexivity|split; [discriminate|reflexivity]].
  - exists []. rewrite app_nil_r. split; [reflexivity|split; [discriminate|reflexivity]].
Qed.
Lemma a_log_run g pr l : forall m, exists l', m_log (mrun g pr m l) = m_log m ++ l'.
Proof.
  induction l as [|e l IH]; intros m; cbn; [exists []; rewrite app_nil_r; reflexivity|].
  destruct (IH (mstep g pr m e)) as (l2 & E2). destruct (a_log g pr m e) as (l1 & E1 & _). exists (l1 ++ l2). unfold mrun in E2. rewrite E2, E1, app_assoc. reflexivity.
Qed.
Lemma good_run g L pr l : forall m, good g L m -> incl (m_log (mrun g pr m l)) L -> good g L (mrun g pr m l).
Proof.
  induction l as [|e l IH]; intros m Hm Hi; [exact Hm|]. cbn in *. apply IH; [|exact Hi]. apply good_step; [exact Hm|].
  intros c He. apply Hi. destruct (a_log_run g pr l (mstep g pr m e)) as (l2 & E2). unfold mrun in E2. rewrite E2. destruct (a_log g pr m e) as (l1 & E1 & H1 & _).
  rewrite E1, (H1 c He). apply in_or_app. left. apply in_or_app. right. left. reflexivity.
Qed.
Lemma mrun_snoc g pr m l e : mrun g pr m (l ++ [e]) = mstep g pr (mrun g pr m l) e.
Proof. unfold mrun. rewrite fold_left_app. reflexivity. Qed.
Lemma bmrun_snoc g m l e : bmrun g m (l ++ [e]) = bmstep g (bmrun g m l) e.
Proof. unfold ModelBackendConc.mrun. rewrite fold_left_app. reflexivity. Qed.
Lemma b_outs g t l e : incl (ModelBackend.outs (ModelBackendConc.m_st (bmrun g (bminit t) l))) (ModelBackend.outs (ModelBackendConc.m_st (bmstep g (bmrun g (bminit t) l) e))).
Proof.
  set (m := bmrun g (bminit t) l). set (L := ModelBackendConc.m_log (bmstep g m e)).
  destruct (ProofsConcSetup.log_step g m e) as (l1 & E1 & H1).
  apply (ProofsConcSetup.outs_step g L).
  - apply ProofsConcSetup.setup_run; [apply ProofsConcSetup.setup_init|]. unfold L. fold m. rewrite E1. apply incl_appl, incl_refl.
  - intros o He. unfold L. rewrite E1. apply in_or_app. right. auto.
Qed.

(** * Both *)
Section Svc.
Variable g : scfg.
Variables (reg : provreg) (rv : lvec) (t0 : Z).
Notation A := (sv_agg g).
Notation urn := (a_urn (sv_agg g)).
Notation net := (ModelBackend.network (sv_back g)).
(** calls that came from the backend *)
Definition from_back (v : svc) (c : call) : Prop := exists x d k u note, did v x /\ up_call urn net d k u note x = Some c.
Record SI (v : svc) : Prop := {
  s_a : exists l, v_agg v = mrun A (sv_prompt g) (minit reg rv) l;
  s_b : exists l, v_back v = bmrun (sv_back g) (bminit t0) l;
  s_down : forall t o, In (t, o) (blog v) -> exists h b ri new, told g v h b /\ down_op h b ri new = Some o;
  s_up : forall c, asked v c -> In c (v_ext v) \/ from_back v c }.
Definition later (v v' : svc) : Prop :=
  incl (aouts v) (aouts v') /\ incl (alog v) (alog v') /\ incl (bouts v) (bouts v') /\ incl (blog v) (blog v') /\ incl (v_ext v) (v_ext v').
Lemma later_refl v : later v v. Proof. repeat split; apply incl_refl. Qed.
Lemma later_trans u v w : later u v -> later v w -> later u w.
Proof. intros (A1 & A2 & A3 & A4 & A5) (B1 & B2 & B3 & B4 & B5). repeat split; eapply incl_tran; eauto. Qed.
Lemma from_later v v' c : later v v' -> from_back v c -> from_back v' c.
Proof. intros (_ & _ & H & _) (x & d & k & u & n & H1 & H2). exists x, d, k, u, n. split; [apply H; exact H1|exact H2]. Qed.

Lemma step_a v e : SI v -> (forall c, e = EvCall c -> from_back v c) -> SI (sv_a g v e) /\ later v (sv_a g v e).
Proof.
  intros [[la Ea] [lb Eb] D U] Hc. destruct (a_log A (sv_prompt g) (v_agg v) e) as (l1 & E1 & C1 & C2).
  assert (L : later v (sv_a g v e)).
  { unfold later, sv_a. cbn. split; [apply a_outs|]. split; [rewrite E1; apply incl_appl, incl_refl|]. repeat split; apply incl_refl. }
  split; [|exact L]. split; cbn.
  - exists (la ++ [e]). rewrite mrun_snoc, <- Ea. reflexivity.
  - exists lb. exact Eb.
  - intros t o H. destruct (D t o H) as (h & b & ri & new & H1 & H2). exists h, b, ri, new. split; [|exact H2]. apply (proj1 L). exact H1.
  - unfold asked, sv_a. cbn. rewrite E1. intros c H. apply in_app_or in H as [H|H].
    + destruct (U c H) as [X|X]; [left; exact X|right; eapply from_later; eauto].
    + right. eapply from_later; [exact L|]. destruct e as [c'|i a|reg' rv'|reg' rv']; [|rewrite C2 in H by discriminate; destruct H..].
      rewrite (C1 c' eq_refl) in H. destruct H as [<-|[]]. apply Hc. reflexivity.
Qed.
Lemma step_b v e : SI v -> (forall o, e = ModelBackendConc.ECall o -> exists h b ri new, told g v h b /\ down_op h b ri new = Some o) -> SI (sv_b g v e) /\ later v (sv_b g v e).
Proof.
  intros [[la Ea] [lb Eb] D U] Hc. destruct (ProofsConcSetup.log_step (sv_back g) (v_back v) e) as (l1 & E1 & C1).
  assert (L : later v (sv_b g v e)).
  { unfold later, sv_b. cbn. split; [apply incl_refl|]. split; [apply incl_refl|]. split; [rewrite Eb; apply b_outs|]. split; [rewrite E1; apply incl_appl, incl_refl|apply incl_refl]. }
  split; [|exact L]. split; cbn.
  - exists la. exact Ea.
  - exists (lb ++ [e]). rewrite bmrun_snoc, <- Eb. reflexivity.
  - rewrite (ProofsConcSetup.log_exact (sv_back g) (v_back v) e). intros t o H. apply in_app_or in H as [H|H]; [exact (D t o H)|].
    destruct e as [o'| | | | |]; [|destruct H..]. destruct H as [[= <- <-]|[]]. exact (Hc _ eq_refl).
  - intros c H. destruct (U c H) as [X|X]; [left; exact X|right; eapply from_later; eauto].
Qed.
Lemma step_ok v e : SI v -> SI (sstep g v e) /\ later v (sstep g v e).
Proof.
  intros HS. destruct e as [c|i a|reg' rv'|reg' rv'|e|n ri new|n k u note]; cbn [sstep].
  - pose proof HS as [[la Ea] [lb Eb] D U]. destruct (a_log A (sv_prompt g) (v_agg v) (EvCall c)) as (l1 & E1 & C1 & _). rewrite (C1 c eq_refl) in E1.
    assert (L : later v (mkSvc (v_agg (sv_a g v (EvCall c))) (v_back (sv_a g v (EvCall c))) (v_ext v ++ [c]))).
    { unfold later. cbn [sv_a v_agg v_back v_ext]. split; [apply a_outs|]. split; [rewrite E1; apply incl_appl, incl_refl|]. repeat split; try apply incl_refl. apply incl_appl, incl_refl. }
    split; [|exact L]. split; cbn [sv_a v_agg v_back v_ext].
    + exists (la ++ [EvCall c]). rewrite mrun_snoc, <- Ea. reflexivity.
    + exists lb. exact Eb.
    + intros t o H. destruct (D t o H) as (h & b & ri & new & H1 & H2). exists h, b, ri, new. split; [|exact H2]. apply (proj1 L). exact H1.
    + unfold asked. cbn [sv_a v_agg v_back v_ext]. rewrite E1. intros c' H. apply in_app_or in H as [H|H].
      * destruct (U c' H) as [X|X]; [left; apply in_or_app; left; exact X|right; eapply from_later; eauto].
      * left. apply in_or_app. right. exact H.
  - apply step_a; [exact HS|discriminate].
  - apply step_a; [exact HS|discriminate].
  - destruct (step_a v (EvRestart reg' rv') HS) as [H1 H2]; [discriminate|]. destruct (step_b _ ModelBackendConc.ERestart H1) as [H3 H4]; [discriminate|].
    split; [exact H3|eapply later_trans; eauto].
  - destruct e as [o| | | | |]; [split; [exact HS|apply later_refl]|apply step_b; [exact HS|discriminate]..].
  - destruct (nth_error _ n) as [[p h b|r b|c|c]|] eqn:En; try (split; [exact HS|apply later_refl]).
    destruct (eqb_ok p (sv_obj g)) as [->|]; [|split; [exact HS|apply later_refl]]. destruct (down_op h b ri new) as [o|] eqn:Ed; [|split; [exact HS|apply later_refl]].
    apply step_b; [exact HS|]. intros o' [= <-]. exists h, b, ri, new. split; [|exact Ed]. eapply nth_error_In; eauto.
  - destruct (nth_error _ n) as [x|] eqn:En; [|split; [exact HS|apply later_refl]].
    destruct (up_call _ _ _ _ _ _ _) as [c|] eqn:Ec; [|split; [exact HS|apply later_refl]].
    apply step_a; [exact HS|]. intros c' [= <-]. do 5 eexists. split; [eapply nth_error_In; eauto|exact Ec].
Qed.
Lemma run_ok l : SI (srun g (sinit reg rv t0) l).
Proof.
  assert (X : forall l v, SI v -> SI (srun g v l)).
  { induction l0 as [|e l0 IH]; intros v H; [exact H|]. cbn. apply IH. apply step_ok. exact H. }
  apply X. split; cbn.
  - exists []. reflexivity.
  - exists []. reflexivity.
  - intros t o [].
  - intros c [].
Qed.
Lemma agg_good v : SI v -> good A (alog v) (v_agg v).
Proof. intros [[l E] _ _ _]. rewrite E. apply good_run; [apply good_init|apply incl_refl]. Qed.

(** * Segments of the backend *)
Lemma from_names v c : from_back v c -> match c with
  | CReserveConfirmed h sc a b => hd_provider h = urn /\ did v (ModelBackend.OReserveConfirmed sc (py_str (Z.of_nat (hd_corr h))))
  | CProvisionConfirmed h sc => did v (ModelBackend.OProvisionConfirmed sc)
  | CTerminateConfirmed h sc => did v (ModelBackend.OTerminateConfirmed sc)
  | CDataPlane h sc d => did v (ModelBackend.ODataPlane sc (fst (fst d)))
  | _ => True
  end.
Proof.
  intros (x & d & k & u & note & H & E). destruct x; cbn in E; try discriminate; try (injection E as <-; cbn; auto; fail).
  match type of E with context [eqb ?p ?q] => destruct (eqb_ok p q) as [<-|]; [|discriminate] end. destruct (aget _ d); [|discriminate]. injection E as <-. cbn. auto.
Qed.
Lemma local_reserve v sc corr : SI v -> local_id v sc corr ->
  exists h gid a b x e bw, told g v h (DReserve gid a b x e bw) /\ py_str (Z.of_nat (hd_corr h)) = corr.
Proof.
  intros [_ _ D _] (t & hb & q & H1 & H2 & H3). destruct (D _ _ H1) as (h & b & ri & new & T & E). destruct b; cbn in E; try discriminate. injection E as <- <-.
  cbn in H3. exists h. do 6 eexists. eauto.
Qed.
Lemma asked_local v sc corr : SI v -> SpecBackendConc.asked_for (blog v) sc corr -> local_id v sc corr.
Proof.
  intros [_ _ D _] (t & hb & q & H1 & H2 & H3). exists t, hb, q. split; [exact H1|]. split; [|exact H3].
  destruct (D _ _ H1) as (h & b & ri & new & T & E). destruct b; cbn in E; try discriminate. injection E as <- <-. cbn in *. auto.
Qed.
Lemma answered_local v sc corr : SI v -> did v (ModelBackend.OReserveConfirmed sc corr) -> local_id v sc corr.
Proof.
  intros HS H. apply asked_local; [exact HS|]. destruct (s_b v HS) as [l E]. revert H. unfold did. rewrite E. apply ProofsConcSetup.answer_justified.
Qed.
(** a stored segment of the backend belongs to the connection it was asked for *)
Lemma sub_of_local v sc corr k x : SI v -> fresh_ids v -> apart v -> local_id v sc corr -> aget k (t_subs (m_st (v_agg v))) = Some x -> sb_cid x = sc ->
  sb_provider x = urn /\ exists c, has_conn c (m_st (v_agg v)) /\ cn_key c = sb_conn x /\
    forall p h gid a b y e bw, In (ODown p h (DReserve gid a b y e bw)) (aouts v) -> py_str (Z.of_nat (hd_corr h)) = corr ->
      exists t, hd_trace h = Some (t ++ [urn +++ ":" +++ cn_cid c]).
Proof.
  intros HS HF HA HL Ex Es. pose proof (agg_good v HS) as [[HJ _] _]. destruct (j_sk _ _ _ HJ _ _ Ex) as (_ & _ & (h' & c & L1 & L2 & L3 & L4 & L5 & _) & _). rewrite Es in L1.
  destruct (s_up v HS _ L1) as [X|X]; [exfalso; eapply HA; eauto; reflexivity|]. apply from_names in X as [X1 X2]. apply answered_local in X2; [|exact HS].
  split; [congruence|]. exists c. split; [exact L3|]. split; [exact L4|]. intros p h gid a b y e bw T Ec.
  assert (E : hd_corr h = hd_corr h'). { pose proof (HF _ _ _ HL X2) as Q. rewrite <- Ec in Q. apply py_str_inj in Q. lia. }
  destruct L5 as (p2 & hd2 & gid2 & a2 & b2 & x2 & e2 & bw2 & tr & M1 & M2 & M3 & M4).
  pose proof (j_one _ _ _ HJ _ _ _ _ _ _ T M1 (eq_trans E (eq_sym M2))) as Q. injection Q as _ -> _ _ _ _ _ _. exists tr. exact M4.
Qed.
Lemma part_trace v sc corr cid h p gid a b y e bw : SI v -> fresh_ids v -> apart v -> local_id v sc corr -> part cid sc (m_st (v_agg v)) ->
  In (ODown p h (DReserve gid a b y e bw)) (aouts v) -> py_str (Z.of_nat (hd_corr h)) = corr -> exists t, hd_trace h = Some (t ++ [urn +++ ":" +++ cid]).
Proof.
  intros HS HF HA HL (c & x & (c0 & C1 & C2) & (x0 & X1 & X2) & P1 & P2 & P3) T Ec. pose proof (agg_good v HS) as [[HJ _] _].
  pose proof (sc_cid _ _ X2) as Q1. rewrite P3 in Q1. destruct (sub_of_local v sc corr _ _ HS HF HA HL X1 Q1) as (_ & c' & (c1 & D1 & D2) & D3 & D4).
  destruct (D4 _ _ _ _ _ _ _ _ T Ec) as [t Et]. exists t. rewrite Et. repeat f_equal.
  pose proof (sc_conn _ _ X2) as Q2. pose proof (cc_key _ _ C2). assert (E : cn_key c' = cn_key c) by congruence. rewrite E in D1. assert (c1 = c0) by congruence. subst c1.
  apply cc_cid in C2. apply cc_cid in D2. congruence.
Qed.
Lemma same_cid (a b : list string) u c c' : Some (a ++ [u +++ ":" +++ c]) = Some (b ++ [u +++ ":" +++ c']) -> c = c'.
Proof. intros [= E]. apply app_inj_tail in E as [_ E]. apply append_inj_r in E. injection E as E. exact E. Qed.

Theorem setup_traced v sc a b : SI v -> fresh_ids v -> apart v -> did v (ModelBackend.OSetup sc a b) ->
  exists cid h q h1 h2 hd src dst l1 l2,
    segment_of g v cid h q hd src dst /\ local_id v sc (py_str (Z.of_nat (hd_corr hd))) /\ stored_for v cid h q /\
    asked v (CCommit h1 cid) /\ may_use g h1 src dst /\ asked v (CProvision h2 cid) /\ may_use g h2 src dst /\ chosen g src dst l1 l2 /\
    a = ModelBackend.get_target (sv_back g) (s_port src) l1 /\ b = ModelBackend.get_target (sv_back g) (s_port dst) l2.
Proof.
  intros HS HF HA H. pose proof (agg_good v HS) as [[HJ _] _]. pose proof H as H0. destruct (s_b v HS) as [lb Eb]. revert H0. unfold did. rewrite Eb. intros H0.
  apply ProofsConcSetup.setup_justified in H0 as (sp & sl & dp & dl & en & Ea & Ebt & (t & hb & q' & R1 & R2 & R3 & R4 & R5 & R6) & (t1 & h1 & K1 & K1') & (t2 & h2 & K2 & K2' & _)).
  rewrite <- Eb in R1, K1, K2.
  assert (HL : local_id v sc (ModelBackend.h_correlation hb)) by (apply asked_local; [exact HS|]; exists t, hb, q'; auto).
  destruct (s_down v HS _ _ R1) as (hd & bd & ri & new & T & E). destruct bd; cbn in E; try discriminate. injection E as <- <-. cbn in R3, R4, HL.
  destruct (s_down v HS _ _ K1) as (hd1 & bd1 & ri1 & new1 & T1 & E1). destruct bd1; cbn in E1; try discriminate. injection E1 as <- ->.
  destruct (s_down v HS _ _ K2) as (hd2 & bd2 & ri2 & new2 & T2 & E2). destruct bd2; cbn in E2; try discriminate. injection E2 as <- ->.
  destruct (j_out _ _ _ HJ _ T) as (_ & c & h & q & O1 & O2 & O3 & O4 & O5 & -> & -> & -> & -> & O6).
  destruct (j_out _ _ _ HJ _ T1) as (_ & g1 & cid1 & (P1 & P1') & P2). destruct (j_out _ _ _ HJ _ T2) as (_ & g2 & cid2 & (P3 & P3') & P4).
  assert (X : forall cid, part cid sc (m_st (v_agg v)) -> cid = cn_cid c).
  { intros cid P. destruct (part_trace v sc _ cid _ _ _ _ _ _ _ _ HS HF HA HL P T eq_refl) as [tr Etr]. rewrite O4 in Etr. unfold extended_trace in Etr. symmetry in Etr. eapply same_cid; eauto. }
  rewrite (X _ P2) in P1. rewrite (X _ P4) in P3. exists (cn_cid c), h, q, g1, g2, hd, src, dst, sl, dl.
  assert (S1 : stored_for v (cn_cid c) h q).
  { destruct O1 as (c0 & C1 & C2). exists (cn_key c), c0. pose proof (made_core _ _ _ _ (eq_sym C2) O3) as M. apply made_fields in M as (M1 & M2 & M3 & M4 & M5). apply cc_cid in C2. auto 10. }
  assert (S2 : segment_of g v (cn_cid c) h q hd src dst) by (split; [exact O2|]; split; [exact T|]; auto).
  assert (U1 : may_use g g1 src dst) by (eexists; split; [|subst sp dp; exact K1']; cbn; congruence).
  assert (U2 : may_use g g2 src dst) by (eexists; split; [|subst sp dp; exact K2']; cbn; congruence).
  assert (U3 : chosen g src dst sl dl) by (intros W1 W2 W3; apply (R6 W1 W2 W3)).
  subst sp dp. auto 14.
Qed.

(** * What is reported upwards *)
Lemma agg_step v e : v_agg (sstep g v e) = match agg_event g v e with Some ev => mstep A (sv_prompt g) (v_agg v) ev | None => v_agg v end.
Proof.
  destruct e as [c|i a|reg' rv'|reg' rv'|e|n ri new|n k u note]; cbn [sstep agg_event]; try reflexivity.
  - destruct e; reflexivity.
  - destruct (nth_error _ n) as [[p h b|r b|c|c]|]; try reflexivity. destruct (eqb p (sv_obj g)); [|reflexivity]. destruct (down_op h b ri new); reflexivity.
  - destruct (nth_error _ n) as [x|]; [|reflexivity]. destruct (up_call _ _ _ _ _ _ _); reflexivity.
Qed.
Lemma report_J0 v e ev s a : SI v -> agg_event g v e = Some ev -> In (s, a) (step_acts A (sv_prompt g) (v_agg v) ev) -> J0 A (alog (sstep g v e)) s.
Proof.
  intros HS E H. destruct (s_a v HS) as [l El]. rewrite agg_step, E. destruct (a_log A (sv_prompt g) (v_agg v) ev) as (l1 & E1 & C1 & _).
  assert (G : good A (m_log (mstep A (sv_prompt g) (v_agg v) ev)) (v_agg v)).
  { rewrite El at 2. apply good_run; [apply good_init|]. rewrite <- El, E1. apply incl_appl, incl_refl. }
  eapply good_step; [exact G| |exact H]. intros c Ec. rewrite E1, (C1 c Ec). apply in_or_app. right. left. reflexivity.
Qed.
Lemma asked_back v c sc corr : SI v -> apart v -> asked v c -> names c = Some sc -> local_id v sc corr -> from_back v c.
Proof. intros HS HA H N HL. destruct (s_up v HS c H) as [X|X]; [|exact X]. exfalso. eapply HA; eauto. Qed.
Lemma local_own v s y corr : SI v -> apart v -> J0 A (alog v) s -> In y (map snd (t_subs s)) -> local_id v (sb_cid y) corr -> own_id y s.
Proof.
  intros HS HA HJ Hy HL y' Hy' E.
  assert (X : forall z, In z (map snd (t_subs s)) -> sb_cid z = sb_cid y -> aget (sb_key z) (t_subs s) = Some z /\ sb_provider z = urn).
  { intros z Hz Ez. apply in_map_iff in Hz as ([k z'] & Ek & Hz). cbn in Ek. subst z'. apply In_aget in Hz; [|apply (j_ns _ _ _ HJ)].
    destruct (j_sk _ _ _ HJ _ _ Hz) as (K1 & _ & (h & c & L1 & L2 & _) & _). rewrite K1. split; [exact Hz|]. rewrite Ez in L1.
    pose proof (asked_back v _ _ _ HS HA L1 eq_refl HL) as B. apply from_names in B as [B _]. congruence. }
  destruct (X y Hy eq_refl) as [A1 A2]. destruct (X y' Hy' E) as [B1 B2]. eapply (j_su _ _ _ HJ); eauto. congruence.
Qed.
Lemma subs_of_In k s y : In y (subs_of k s) -> In y (map snd (t_subs s)).
Proof. unfold subs_of. intros H. apply filter_In in H as [H _]. exact H. Qed.
(** [ok]: what the aggregator knows of each segment; [x]: why the backend told it *)
Lemma report_each v e ev s r b ok x cid : SI v -> sv_prompt g = true -> apart (sstep g v e) -> agg_event g v e = Some ev ->
  In (s, AOut (OUp r b)) (step_acts A (sv_prompt g) (v_agg v) ev) ->
  (honest (alog (sstep g v e)) s (AOut (OUp r b)) -> all_segments ok cid s) ->
  (forall z o corr, ok z -> aget o (h_subs s) = Some z -> sa (alog (sstep g v e)) z -> local_id (sstep g v e) (sb_cid z) corr -> did (sstep g v e) (x (sb_cid z))) ->
  each_done x cid s (sstep g v e).
Proof.
  intros HS Hp HA E H Hh Hx. pose proof (report_J0 v e ev s _ HS E H) as HJ. pose proof (proj1 (step_ok v e HS)) as HS'.
  destruct Hh as (k & c & C1 & C2 & C3).
  { destruct (s_a v HS) as [l El]. rewrite agg_step, E. rewrite Hp, El in H. rewrite Hp, El. rewrite Hp in H |- *. apply (ProofsAggRun2.step_ok A reg rv l ev s _ H). }
  exists k, c. split; [exact C1|]. split; [exact C2|]. intros y corr Hy HL.
  destruct (C3 y Hy) as (o & z & _ & Z2 & _ & Z4 & Z5). { eapply local_own; eauto. eapply subs_of_In; eauto. }
  rewrite <- Z4. rewrite <- Z4 in HL. eapply Hx; eauto. apply (j_hs _ _ _ HJ _ _ Z2).
Qed.
Theorem provision_reported v e s r cid : SI v -> sv_prompt g = true -> apart (sstep g v e) -> reports g v e s r (UProvisionConfirmed cid) ->
  each_done ModelBackend.OProvisionConfirmed cid s (sstep g v e).
Proof.
  intros HS Hp HA (ev & E & H). eapply (report_each v e ev s r _ (fun z => sb_p z = PProvisioned /\ exists h, In (CProvisionConfirmed h (sb_cid z)) (alog (sstep g v e)))); eauto. cbn beta. intros z o corr (_ & h & Hz) _ _ HL.
  pose proof (asked_back _ _ _ _ (proj1 (step_ok v e HS)) HA Hz eq_refl HL) as B. exact (from_names _ _ B).
Qed.
Theorem terminate_reported v e s r cid : SI v -> sv_prompt g = true -> apart (sstep g v e) -> reports g v e s r (UTerminateConfirmed cid) ->
  each_done ModelBackend.OTerminateConfirmed cid s (sstep g v e).
Proof.
  intros HS Hp HA (ev & E & H). eapply (report_each v e ev s r _ (fun z => sb_l z = LTerminated /\ exists h, In (CTerminateConfirmed h (sb_cid z)) (alog (sstep g v e)))); eauto. cbn beta. intros z o corr (_ & h & Hz) _ _ HL.
  pose proof (asked_back _ _ _ _ (proj1 (step_ok v e HS)) HA Hz eq_refl HL) as B. exact (from_names _ _ B).
Qed.
Theorem active_reported v e s r cid n k : SI v -> sv_prompt g = true -> apart (sstep g v e) -> reports g v e s r (UDataPlane cid (true, n, k)) ->
  each_done (fun sc => ModelBackend.OSetupDone sc true) cid s (sstep g v e).
Proof.
  intros HS Hp HA (ev & E & H). eapply (report_each v e ev s r _ (fun z => sb_active z = true)); eauto.
  - intros (zs & Ed & (k0 & c & C1 & C2 & C3)). exists k0, c. split; [exact C1|]. split; [exact C2|]. intros y Hy Ho. destruct (C3 y Hy Ho) as (o & z & Z1 & Z2 & Z3 & Z4 & Z5).
    exists o, z. repeat (split; [assumption|]). unfold notify_status in Ed. injection Ed as Ed _ _. symmetry in Ed. rewrite forallb_forall in Ed. auto.
  - cbn beta. intros z o corr Ha _ Hsa HL. destruct (Hsa Ha) as (h & v0 & k0 & Hz). pose proof (proj1 (step_ok v e HS)) as HS'.
    pose proof (asked_back _ _ _ _ HS' HA Hz eq_refl HL) as B. apply from_names in B. cbn in B. destruct (s_b _ HS') as [l El]. revert B. unfold did. rewrite El. apply ProofsConcSetup.active_justified.
Qed.
Theorem reserve_reported v r cid gid a b x y bw hd gid' a' b' x' y' bw' tr : SI v -> sv_prompt g = true -> unclaimed urn v ->
  In (OUp r (UReserveConfirmed cid gid a b x y bw)) (aouts v) ->
  told g v hd (DReserve gid' a' b' x' y' bw') -> hd_provider hd = urn -> hd_trace hd = Some (tr ++ [urn +++ ":" +++ cid]) ->
  exists sc, did v (ModelBackend.OReserveConfirmed sc (py_str (Z.of_nat (hd_corr hd)))).
Proof.
  intros HS Hp HU Hu T Ep Et. destruct (s_a v HS) as [l El]. rewrite Hp in El.
  assert (C : confirmed_by (alog v) (hd_corr hd) (hd_provider hd)).
  { assert (N : (0 < ProofsAggAct.ocnt (m_conf cid) (m_st (v_agg v)))%nat).
    { unfold ProofsAggAct.ocnt, cnt. assert (Q : In (OUp r (UReserveConfirmed cid gid a b x y bw)) (filter (says (m_conf cid)) (aouts v))) by (apply filter_In; split; [exact Hu|apply eqb_refl]).
      destruct (filter _ _) as [|u w]; [destruct Q|apply Nat.lt_0_succ]. }
    assert (G : seg urn (aouts v) (hd_corr hd) (hd_provider hd) cid) by (do 9 eexists; split; [exact T|]; eauto).
    rewrite El in N, G |- *. destruct (ProofsAggRun2.run_inv A reg rv l) as (GH & [[I _] _] & _). exact (ProofsAggAct.rs_all _ _ _ _ (ProofsAggAct.i_res _ _ _ _ _ I) _ _ _ N G). }
  destruct C as (h & sc & a0 & b0 & C1 & C2 & C3). destruct (s_up v HS _ C1) as [X|X]; [exfalso; eapply HU; eauto; congruence|].
  apply from_names in X as [_ X]. exists sc. rewrite <- C2. exact X.
Qed.
End Svc.
