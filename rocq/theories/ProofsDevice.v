(** The device is given what was confirmed, and told (C93). *)
From Verif Require Import Base BaseProofs ModelLabel ModelSTP ModelAuthz ModelNRM ModelState ModelLinkVector ModelProvreg ModelAggregator SpecAggregator SpecAggInv
  ProofsServiceWp ProofsServiceInv ProofsServiceProg.
From Verif Require ModelBackend ModelBackendConc SpecBackendConc ProofsBackendFoc ProofsConcWp ProofsConcSetup ProofsConcKept.
From Verif Require Import ModelService SpecService SpecDevice ProofsService PropsEnds.
Open Scope Z_scope.

(** * Within a step *)
Lemma steps_next {A} pr (p : prog A) : forall s s1 a, In (s1, a) (steps pr p s) ->
  incl (outs s1) (outs (snd (advance pr p s))) /\ (do_act a s1 = snd (advance pr p s) \/ exists a', In (do_act a s1, a') (steps pr p s)).
Proof.
  induction p as [x|e|k IH|b k IH|w k IH]; intros s s1 a; cbn; try (intros []; fail); auto.
  - intros [H|H].
    + injection H as <- <-. split; [eapply incl_tran; [apply do_act_outs|apply advance_outs]|].
      clear IH. generalize (do_act b s) as s2. intros s2.
      assert (X : snd (advance pr k s2) = s2 \/ exists a', In (s2, a') (steps pr k s2)).
      { revert s2. induction k as [x|e|k IH|c k IH|w k IH]; intros s2; cbn; auto; [right; exists c; left; reflexivity|].
        destruct w; try (left; reflexivity). destruct pr; [apply IH|left; reflexivity]. }
      destruct X as [X|[a' X]]; [left; auto|right; exists a'; right; exact X].
    + destruct (IH _ _ _ H) as [H1 [H2|[a' H2]]]; (split; [exact H1|]); [left; exact H2|right; exists a'; right; exact H2].
  - destruct w; try (intros []; fail). destruct pr; [apply IH|intros []].
Qed.
Lemma step_next g pr m e s a : In (s, a) (step_acts g pr m e) ->
  incl (outs s) (outs (m_st (mstep g pr m e))) /\ (do_act a s = m_st (mstep g pr m e) \/ exists a', In (do_act a s, a') (step_acts g pr m e)).
Proof.
  destruct e as [c|i x|reg rv|reg rv]; cbn [step_acts mstep]; try (intros []; fail).
  - rewrite record_st. apply steps_next.
  - destruct (aget i (m_tasks m)) as [[w k]|]; [|intros []]. destruct (answers w x); [|intros []]. rewrite record_st. apply steps_next.
Qed.

Section Device.
Variable g : scfg.
Notation net := (ModelBackend.network (sv_back g)).
(** what happens to the backend *)
Definition bevs (v : svc) (e : sevent) : list bevent :=
  match e with
  | SRestart _ _ => [ModelBackendConc.ERestart]
  | SBack (ModelBackendConc.ECall _) => []
  | SBack e => [e]
  | SDown n ri new =>
      match nth_error (outs (m_st (v_agg v))) n with
      | Some (ODown p h b) => if eqb p (sv_obj g) then match down_op h b ri new with Some o => [ModelBackendConc.ECall o] | None => [] end else []
      | _ => []
      end
  | _ => []
  end.
Lemma bevs_step v e : v_back (sstep g v e) = bmrun (sv_back g) (v_back v) (bevs v e).
Proof.
  destruct e as [c|i a|reg rv|reg rv|e|n ri new|n k u note]; cbn [sstep bevs]; try reflexivity.
  - destruct e; reflexivity.
  - destruct (nth_error _ n) as [[p h b|r b|c|c]|]; try reflexivity. destruct (eqb p (sv_obj g)); [|reflexivity]. destruct (down_op h b ri new); reflexivity.
  - destruct (nth_error _ n) as [x|]; [|reflexivity]. destruct (up_call _ _ _ _ _ _ _); reflexivity.
Qed.
Lemma bevs_cid v e h q : In (ModelBackendConc.ECall (ModelBackend.Reserve h q)) (bevs v e) -> ModelBackend.rs_cid q = None.
Proof.
  destruct e as [c|i a|reg rv|reg rv|e|n ri new|n k u note]; cbn [bevs]; try (intros []; fail).
  - intros [H|[]]. discriminate.
  - destruct e; try (intros []; fail); intros [H|[]]; discriminate.
  - destruct (nth_error _ n) as [[p h' b|r b|c|c]|]; try (intros []; fail). destruct (eqb p (sv_obj g)); [|intros []]. destruct (down_op h' b ri new) as [o|] eqn:E; [|intros []].
    intros [H|[]]. injection H as ->. destruct b; cbn in E; try discriminate. injection E as _ <-. reflexivity.
Qed.
Fixpoint ball (v : svc) (l : list sevent) : list bevent := match l with [] => [] | e :: l => bevs v e ++ ball (sstep g v e) l end.
Lemma ball_run l : forall v, v_back (srun g v l) = bmrun (sv_back g) (v_back v) (ball v l).
Proof.
  induction l as [|e l IH]; intros v; [reflexivity|]. cbn [ball]. unfold srun in *. cbn [fold_left]. rewrite IH, bevs_step. unfold ModelBackendConc.mrun. rewrite fold_left_app. reflexivity.
Qed.
Lemma ball_app l1 l2 : forall v, ball v (l1 ++ l2) = ball v l1 ++ ball (srun g v l1) l2.
Proof. induction l1 as [|e l1 IH]; intros v; [reflexivity|]. cbn [ball app]. rewrite IH, app_assoc. reflexivity. Qed.
Lemma ball_cid l : forall v h q, In (ModelBackendConc.ECall (ModelBackend.Reserve h q)) (ball v l) -> ModelBackend.rs_cid q = None.
Proof. induction l as [|e l IH]; intros v h q; cbn [ball]; [intros []|]. intros H. apply in_app_or in H as [H|H]; [eapply bevs_cid; eauto|eapply IH; eauto]. Qed.
Lemma ball_log l : forall v h q, In (ModelBackendConc.ECall (ModelBackend.Reserve h q)) (ball v l) ->
  exists t, In (t, ModelBackend.Reserve h q) (ModelBackendConc.m_log (v_back (srun g v l))).
Proof.
  intros v h q H. rewrite ball_run. apply in_split in H as (p & r & ->).
  unfold ModelBackendConc.mrun. rewrite fold_left_app. cbn [fold_left]. set (m := fold_left _ p _).
  destruct (ProofsConcSetup.log_run (sv_back g) r (bmstep (sv_back g) m (ModelBackendConc.ECall (ModelBackend.Reserve h q)))) as (l' & E).
  unfold ModelBackendConc.mrun in E. rewrite E, ProofsConcSetup.log_exact. eexists. apply in_or_app. left. apply in_or_app. right. left. reflexivity.
Qed.
Lemma given_run reg rv t l : given (srun g (sinit reg rv t) l) = flat_map ProofsConcKept.call_ids (ball (sinit reg rv t) l).
Proof. unfold given. rewrite ball_run, ProofsConcKept.new_ids_run. reflexivity. Qed.
Lemma srun_snoc v l e : srun g v (l ++ [e]) = sstep g (srun g v l) e.
Proof. unfold srun. rewrite fold_left_app. reflexivity. Qed.

Variables (reg : provreg) (rv : lvec) (t0 : Z).
Notation v0 := (sinit reg rv t0).
Notation bst v := (ModelBackendConc.m_st (v_back v)).
Definition like (l : list sevent) (sc : string) (x r : brow) : Prop := ProofsConcKept.from_req (ball v0 l) r /\ (ModelBackend.c_id r = sc -> ProofsBackendFoc.core r = x).
Definition ends_of (x : brow) (a b : stp) : Prop :=
  a = mkSTP net (ModelBackend.c_sport x) (ModelBackend.c_slabel x) /\ b = mkSTP net (ModelBackend.c_dport x) (ModelBackend.c_dlabel x).
Lemma kept_svc l sc : NoDup (given (srun g v0 l)) ->
  exists x, forall l1 l2, l = l1 ++ l2 -> ProofsConcKept.im (sv_back g) (like l sc x) (bst (srun g v0 l1)).
Proof.
  rewrite given_run. intros N. destruct (ProofsConcKept.kept (sv_back g) t0 (ball v0 l) sc N) as (x & H); [intros h q; apply ball_cid|].
  exists x. intros l1 l2 ->. rewrite ball_run. change (v_back v0) with (bminit t0). eapply H. apply ball_app.
Qed.
(** confirmations are as stored *)
Lemma confirmed_svc l sc x : (forall l1 l2, l = l1 ++ l2 -> ProofsConcKept.im (sv_back g) (like l sc x) (bst (srun g v0 l1))) ->
  forall l1 l2, l = l1 ++ l2 -> forall h a b, asked (srun g v0 l1) (CReserveConfirmed h sc a b) -> In (CReserveConfirmed h sc a b) (v_ext (srun g v0 l1)) \/ ends_of x a b.
Proof.
  intros HI l1. induction l1 as [|e l1 IH] using rev_ind; intros l2 E h a b; [intros []|]. rewrite <- app_assoc in E. specialize (IH _ E h a b). specialize (HI _ _ E).
  rewrite srun_snoc. set (v := srun g v0 l1) in *. clearbody v. unfold asked in *. rewrite agg_step.
  assert (X : incl (v_ext v) (v_ext (sstep g v e))).
  { destruct e as [c|i a'|reg' rv'|reg' rv'|e|n ri new|n k u note]; cbn [sstep]; try apply incl_refl; [apply incl_appl, incl_refl|destruct e; apply incl_refl| |].
    - destruct (nth_error _ n) as [[]|]; try apply incl_refl. destruct (eqb _ _); [|apply incl_refl]. destruct (down_op _ _ _ _); apply incl_refl.
    - destruct (nth_error _ n) as [y|]; [|apply incl_refl]. destruct (up_call _ _ _ _ _ _ _); apply incl_refl. }
  assert (Y : In (CReserveConfirmed h sc a b) (alog v) -> In (CReserveConfirmed h sc a b) (v_ext (sstep g v e)) \/ ends_of x a b).
  { intros H. destruct (IH H) as [Z|Z]; [left; apply X; exact Z|right; exact Z]. }
  destruct (agg_event g v e) as [ev|] eqn:Ev; [|exact Y]. destruct (a_log (sv_agg g) (sv_prompt g) (v_agg v) ev) as (l' & El & C1 & C2). rewrite El. intros H.
  apply in_app_or in H as [H|H]; [exact (Y H)|]. destruct ev as [c|i a'|reg' rv'|reg' rv']; [|rewrite C2 in H by discriminate; destruct H..].
  rewrite (C1 c eq_refl) in H. destruct H as [->|[]]. destruct e as [c|i a'|reg' rv'|reg' rv'|e|n ri new|n k u note]; cbn [agg_event] in Ev; try discriminate.
  - injection Ev as ->. left. cbn [sstep v_ext]. apply in_or_app. right. left. reflexivity.
  - right. destruct (nth_error _ n) as [y|]; [|discriminate]. destruct (up_call _ _ _ _ _ _ y) as [c|] eqn:Ec; [|discriminate]. injection Ev as ->.
    destruct y; cbn in Ec; try discriminate. destruct (eqb _ _); [|discriminate].
    destruct (aget cid (ModelBackend.db (bst v))) as [r|] eqn:Er; [|discriminate]. injection Ec as _ <- <- <-.
    pose proof (ProofsConcKept.i_db _ _ _ HI _ _ Er) as Hr. assert (Hid : ModelBackend.c_id r = cid) by (apply (proj1 (proj2 (ProofsConcKept.i_wf _ _ _ HI)) _ _ Er)).
    apply proj2 in Hr. specialize (Hr Hid). subst x. split; reflexivity.
Qed.
(** what the device is given *)
Lemma device_svc l sc x t1 t2 : ProofsConcKept.im (sv_back g) (like l sc x) (bst (srun g v0 l)) -> on_device (srun g v0 l) sc t1 t2 ->
  (t1 = ModelBackend.get_target (sv_back g) (ModelBackend.c_sport x) (ModelBackend.c_slabel x) /\
   t2 = ModelBackend.get_target (sv_back g) (ModelBackend.c_dport x) (ModelBackend.c_dlabel x)) /\
  exists t h q, In (t, ModelBackend.Reserve h q) (blog (srun g v0 l)) /\ ModelBackend.rs_new q = sc /\
    ModelBackend.c_sport x = s_port (ModelBackend.rs_src q) /\ ModelBackend.c_dport x = s_port (ModelBackend.rs_dst q).
Proof.
  intros HI H.
  assert (X : (exists r, like l sc x r /\ ModelBackend.c_id r = sc /\ t1 = ModelBackend.get_target (sv_back g) (ModelBackend.c_sport r) (ModelBackend.c_slabel r) /\
    t2 = ModelBackend.get_target (sv_back g) (ModelBackend.c_dport r) (ModelBackend.c_dlabel r))).
  { pose proof (ProofsConcKept.i_out _ _ _ HI) as F. rewrite Forall_forall in F. destruct H as [H|H]; apply F in H; exact H. }
  destruct X as (r & [(h & q & Q1 & Q2 & Q3 & Q4) R] & R1 & -> & ->). specialize (R R1). subst x. split; [split; reflexivity|].
  destruct (ball_log _ _ _ _ Q1) as [t Q5]. exists t, h, q. split; [exact Q5|]. split; [congruence|]. split; [exact Q3|exact Q4].
Qed.
Theorem device_confirmed l sc t1 t2 h a b : let v := srun g v0 l in NoDup (given v) -> apart v -> on_device v sc t1 t2 -> asked v (CReserveConfirmed h sc a b) ->
  s_network a = net /\ s_network b = net /\ t1 = named g a /\ t2 = named g b.
Proof.
  intros v N HA HD HC. destruct (kept_svc l sc N) as [x HX]. pose proof (HX l [] (eq_sym (app_nil_r l))) as HI.
  destruct (device_svc l sc x t1 t2 HI HD) as [[-> ->] (t & hb & q & Q1 & Q2 & _)].
  destruct (confirmed_svc l sc x HX l [] (eq_sym (app_nil_r l)) h a b HC) as [Z|[-> ->]]; [|repeat split].
  exfalso. eapply (HA _ sc (ModelBackend.h_correlation hb) Z eq_refl). exists t, hb, q. auto.
Qed.
Lemma given_one v t h q t' h' q' : NoDup (given v) -> In (t, ModelBackend.Reserve h q) (blog v) -> In (t', ModelBackend.Reserve h' q') (blog v) ->
  ModelBackend.rs_new q = ModelBackend.rs_new q' -> h = h' /\ q = q'.
Proof.
  intros N H H' E. apply in_split in H as (p & r & El). apply in_split in H' as (p' & r' & El').
  destruct (ProofsConcKept.one_place _ (ModelBackend.rs_new q) _ _ _ _ _ _ _ N El El') as [_ X]; [left; reflexivity|left; auto|]. injection X as _ -> ->. auto.
Qed.
Lemma given_fresh v : NoDup (given v) -> fresh_ids v.
Proof.
  intros N sc k k' (t & h & q & H1 & H2 & H3) (t' & h' & q' & H1' & H2' & H3').
  destruct (given_one v t h q t' h' q' N H1 H1') as [-> ->]; congruence.
Qed.
Lemma later_run l : forall v, SI g reg rv t0 v -> SI g reg rv t0 (srun g v l) /\ later v (srun g v l).
Proof.
  induction l as [|e l IH]; intros v HS; [split; [exact HS|apply later_refl]|]. destruct (step_ok g reg rv t0 v e HS) as [H1 H2]. destruct (IH _ H1) as [H3 H4].
  split; [exact H3|eapply later_trans; eauto].
Qed.
Theorem device_told l e l' s r cid gid a b x z bw : let v := srun g v0 l in let v' := srun g (sstep g v e) l' in
  sv_prompt g = true -> NoDup (given v') -> apart v' -> reports g v e s r (UReserveConfirmed cid gid a b x z bw) -> as_told g v' s a b cid.
Proof.
  intros v v' Hp N HA (ev & Ev & H). pose proof (run_ok g reg rv t0 l) as HS. fold v in HS.
  pose proof (report_J0 g reg rv t0 v e ev s _ HS Ev H) as HJ. destruct (step_ok g reg rv t0 v e HS) as [HS1 _]. destruct (later_run l' _ HS1) as [HS2 HL]. fold v' in HS2, HL.
  set (v1 := sstep g v e) in *. destruct (step_next _ _ _ _ _ _ H) as [Hout Hnext].
  assert (Ea1 : v_agg v1 = mstep (sv_agg g) (sv_prompt g) (v_agg v) ev) by (unfold v1; rewrite agg_step, Ev; reflexivity).
  (* what the confirmation repeats *)
  assert (R : exists c0 h0 q0, has_conn c0 s /\ cn_cid c0 = cid /\ made c0 h0 q0 /\ s_port a = s_port (q_src q0) /\ s_port b = s_port (q_dst q0)).
  { assert (HJ' : J0 (sv_agg g) (alog v1) (do_act (AOut (OUp r (UReserveConfirmed cid gid a b x z bw))) s)).
    { destruct Hnext as [Hn|[a' Hn]]; [rewrite Hn, <- Ea1; apply (agg_good g reg rv t0 v1 HS1)|]. eapply report_J0; eauto. }
    assert (Hin : In (OUp r (UReserveConfirmed cid gid a b x z bw)) (outs (do_act (AOut (OUp r (UReserveConfirmed cid gid a b x z bw))) s))) by (destruct s; cbn; apply in_or_app; right; left; reflexivity).
    destruct (j_out _ _ _ HJ' _ Hin cid eq_refl) as (c0 & h0 & q0 & R1 & R2 & _ & R4 & _ & R5). exists c0, h0, q0. split; [destruct R1 as (c1 & R1 & R1'); exists c1; split; [destruct s; exact R1|exact R1']|]. split; [exact R2|]. split; [exact R4|].
    cbn in R5. split; apply R5. }
  assert (T : told_ends (sv_agg g) (alog v1) s a b cid).
  { destruct (s_a g reg rv t0 v HS) as [la Ela]. rewrite Ea1. rewrite Hp in H |- *. rewrite Ela in H |- *. rewrite Hp in H |- *. eapply C91_labels_partial. exact H. }
  destruct T as (k & c & K1 & K2 & K3). exists k, c. split; [exact K1|]. split; [exact K2|]. intros y t1 t2 Hy HD.
  destruct (K3 y Hy) as (hr & q & ls & p & hd & gi & u & w & x' & e' & bw' & h & P1 & P2 & P3 & P4 & P5 & P6 & P7 & P8 & P9 & P10).
  assert (RP : s_port a = s_port (q_src q) /\ s_port b = s_port (q_dst q)).
  { destruct R as (c0 & h0 & q0 & (c1 & R1 & R1') & R2 & R3 & -> & ->). apply cc_cid in R1' as Rc.
    assert (Ek : cn_key c0 = k) by (eapply (j_cu _ _ _ HJ); [exact R1|exact K1|congruence]). rewrite Ek, K1 in R1. injection R1 as <-.
    apply (made_core c0 c) in R3; [|auto]. destruct P2 as (_ & _ & _ & _ & _ & _ & Q1 & _ & Q2). unfold made, ccore in R3. split; congruence. }
  exists hr, q, ls, u, w. destruct HL as (L1 & L2 & _ & L4 & _).
  assert (Pc : asked v' (CReserveConfirmed h (sb_cid y) (sb_src y) (sb_dst y))) by (apply L2; exact P6).
  assert (Ef : exists lf, v' = srun g v0 lf).
  { exists ((l ++ [e]) ++ l'). unfold v', v1, v. rewrite <- srun_snoc. unfold srun. rewrite <- fold_left_app. reflexivity. }
  destruct Ef as [lf Ef]. clearbody v'. rewrite Ef in HD, Pc, N, HA.
  assert (PP : s_port (sb_src y) = s_port u /\ s_port (sb_dst y) = s_port w).
  { destruct (kept_svc lf (sb_cid y) N) as [X HX]. pose proof (HX lf [] (eq_sym (app_nil_r lf))) as HI.
    destruct (device_svc lf (sb_cid y) X t1 t2 HI HD) as [_ (t & hb & qb & Q1 & Q2 & Q3 & Q4)].
    assert (HB : local_id (srun g v0 lf) (sb_cid y) (ModelBackend.h_correlation hb)) by (exists t, hb, qb; auto).
    destruct (confirmed_svc lf (sb_cid y) X HX lf [] (eq_sym (app_nil_r lf)) _ _ _ Pc) as [Z|[-> ->]]; [exfalso; exact (HA _ _ _ Z eq_refl HB)|]. cbn [s_port]. rewrite Q3, Q4.
    rewrite <- Ef in Pc, N, HA, HB, Q1. pose proof (asked_back g reg rv t0 v' _ _ _ HS2 HA Pc eq_refl HB) as FB. apply from_names in FB as [_ FB]. apply (answered_local g reg rv t0 _ _ _ HS2) in FB.
    pose proof (given_fresh v' N _ _ _ HB FB) as EC. destruct (s_down g reg rv t0 v' HS2 _ _ Q1) as (hdb & bd & ri & new & T1 & T2). destruct bd; cbn in T2; try discriminate.
    injection T2 as <- <-. cbn in EC |- *. apply py_str_inj in EC. apply Nat2Z.inj in EC.
    pose proof (agg_good g reg rv t0 v' HS2) as [[HJv _] _].
    assert (T3 : In (ODown p hd (DReserve gi u w x' e' bw')) (aouts v')) by (apply L1; rewrite Ea1; apply Hout; exact P5).
    pose proof (j_one _ _ _ HJv _ _ _ _ _ _ T1 T3 (eq_trans EC P7)) as Q. injection Q as _ _ _ -> -> _ _ _. auto. }
  destruct (device_confirmed lf (sb_cid y) t1 t2 h (sb_src y) (sb_dst y) N HA HD Pc) as (_ & _ & -> & ->).
  destruct PP as [PP1 PP2]. split; [apply L2; exact P1|]. split; [exact P2|]. split; [exact P3|]. split; [exact P4|]. split.
  - intros E0. destruct (P9 E0) as [-> E1]. split; [reflexivity|]. unfold named. rewrite E1, PP1, (proj1 RP). reflexivity.
  - intros E0. destruct (P10 E0) as [-> E1]. split; [reflexivity|]. intros E2 E3. unfold named. rewrite (E1 E2 E3), PP2, (proj2 RP). reflexivity.
Qed.
End Device.
