(** A terminated connection for which nothing is going on stays as it is, in
    every interleaving. *)
From Verif Require Import Base BaseProofs ModelLabel ModelSTP ModelAuthz ModelNRM ModelCalendar ModelState ModelScheduler ModelBackend ModelBackendConc SpecBackendConc
  ProofsBackendWp ProofsBackendFoc ProofsConcWp ProofsConcGen.
Open Scope Z_scope.

Lemma sched_now x o : s_now (match o with SFire _ | SFinish _ => sched_step x o | _ => x end) = s_now x.
Proof. destruct o as [c t|c| |dt|id|id]; try reflexivity. cbn. destruct (aget id (s_queue x)); [destruct (_ <=? _)|]; reflexivity. Qed.
Lemma fire_queue x id j : ahas j (s_queue (sched_step x (SFire id))) = true -> ahas j (s_queue x) = true.
Proof. cbn. destruct (aget id (s_queue x)); [destruct (_ <=? _)|]; cbn; auto. apply ahas_adel_sub. Qed.
Lemma In_drop {A} n : forall (l : list A) x, In x (drop_nth n l) -> In x l.
Proof. induction n as [|n IH]; intros [|a l] x; cbn; auto. intros [H|H]; auto. Qed.

Section J.
Variables (oi : option nat) (ck : option string).
Record jg (s : st) : Prop := {
  j_wf : wf s; j_old : old oi s;
  j_ready : forall t, In t (ready s) -> handles oi ck (task_obj t) s;
  j_call : forall id t, pending s id t -> handles oi ck (task_obj t) s }.
Lemma jg_guar s s' : guar oi ck s s' -> jg s -> jg s'.
Proof.
  intros [E A] [W O R C]. destruct (A W O) as [A1 A2 A3 A4 A5]. destruct (E W) as (W' & N & _ & _). split.
  - exact W'.
  - intros o Ho. specialize (O o Ho). lia.
  - intros t Ht. destruct (A4 t Ht) as [H|H]; [|exact H]. apply (handles_ev oi ck _ s s'); eauto.
  - intros id t Ht. destruct (A5 id t Ht) as [H|H]; [|exact H]. apply (handles_ev oi ck _ s s'); eauto.
Qed.
Lemma guar_tick dt s : guar oi ck s (tick dt s).
Proof. apply g_sch; cbn; [lia|auto]. Qed.
Lemma guar_finish from s : guar oi ck s (finish from s).
Proof.
  destruct from as [o|t [id|]|]; cbn [finish];
    try (split; [apply ev_refl|]; intros W O; constructor; auto; exists []; rewrite app_nil_r; auto; fail).
  apply g_sch; cbn; [lia|auto].
Qed.
Lemma guar_fire id s : guar oi ck s (set_sch (sched_step (sch s) (SFire id)) s).
Proof. apply g_sch; [rewrite (sched_now (sch s) (SFire id)); lia|]. apply fire_queue. Qed.
Lemma guar_start n s : guar oi ck s (set_ready (drop_nth n (ready s)) s).
Proof.
  split; [exact (ev_refl s)|]. intros W O. constructor; cbn; auto.
  - exists []. rewrite app_nil_r. auto.
  - intros t Ht. left. eapply In_drop. exact Ht.
Qed.
Lemma guar_refl s : guar oi ck s s.
Proof. split; [apply ev_refl|]. intros W O. constructor; auto. exists []. rewrite app_nil_r. auto. Qed.
End J.

Lemma jg_reboot ck s : wf s -> jg None ck (reboot s).
Proof.
  intros (W1 & W2 & W3). split.
  - split; [|split; [exact W2|exact W3]]. cbn. intros o r H. discriminate.
  - intros o H. discriminate.
  - intros t [].
  - intros id t [H _]. discriminate.
Qed.
Lemma guar_ev oi ck s s' : guar oi ck s s' -> evolves s s'.
Proof. intros [H _]. exact H. Qed.
Local Hint Resolve ev_refl ev_trans guar_ev : core.

(** * All programs in general *)
Section Base.
Variable g : cfg.
Notation jb := (jg None None).
Notation basic := (minv jb evolves (guar None None)).
Lemma jb_no s k : jb s -> None = Some k -> exists r, aget k (db s) = Some r /\ c_l r = LTerminated.
Proof. discriminate. Qed.
Lemma basic_step m e : basic m -> basic (mstep g m e).
Proof.
  intros Hm. apply minv_step; eauto.
  - intros s s' H1 H2. eapply jg_guar; eauto.
  - intros s dt Hj. pose proof (guar_tick None None dt s) as G. split; [eauto|]. eapply jg_guar; eauto.
  - intros s from Hj. pose proof (guar_finish None None from s) as G. split; [eauto|]. eapply jg_guar; eauto.
  - intros s n t Hj Hn s'. pose proof (guar_start None None n s) as G. assert (Hj' : jb s') by (eapply jg_guar; eauto). split; [eauto|]. split; [exact Hj'|].
    eapply t_wp. eapply t_task; eauto using j_wf, j_old. { intros ? ?; apply jg_guar. }
    apply (handles_ev None None) with (s := s); [apply Hj|eauto|]. apply (j_ready _ _ _ Hj). eapply nth_error_In. exact Hn.
  - intros s id due t Hj Hq Hc s'. pose proof (guar_fire None None id s) as G. assert (Hj' : jb s') by (eapply jg_guar; eauto). split; [eauto|]. split; [exact Hj'|].
    eapply t_wp. eapply t_task; eauto using j_wf, j_old. { intros ? ?; apply jg_guar. }
    apply (handles_ev None None) with (s := s); [apply Hj|eauto|]. apply (j_call _ _ _ Hj id). split; [exact Hc|]. unfold ahas. rewrite Hq. reflexivity.
  - destruct Hm as [Hj _]. destruct e; cbn [call_ok]; auto.
    + eapply t_wp. eapply t_op; eauto using j_wf, j_old. { intros ? ?; apply jg_guar. } intros k _ X. discriminate.
    + assert (Hj' : jb (reboot (m_st m))) by (apply jg_reboot; apply Hj). split; [exact Hj'|].
      eapply t_wp. eapply t_build; eauto using j_wf, j_old. { intros ? ?; apply jg_guar. } intros ? ? ? ?. discriminate.
Qed.
Lemma basic_run l : forall m, basic m -> basic (mrun g m l).
Proof. induction l as [|e l IH]; cbn; intros m H; [exact H|]. apply IH. apply basic_step. exact H. Qed.
Lemma basic_init t : basic (minit t).
Proof.
  split; [|intros ? ? ? ? []]. split.
  - split; [|split]; cbn; try discriminate. constructor.
  - intros o H. discriminate.
  - intros t0 [].
  - intros id t0 [H _]. discriminate.
Qed.
End Base.

(** less is assumed, less may happen *)
Lemma wp_weaken {A} (J J' : st -> Prop) (R R' G : st -> st -> Prop) (p : prog A) : (forall s, J' s -> J s) -> (forall s s', R' s s' -> R s s') ->
  forall Q E s, wp J R G p Q E s -> wp J' R' G p Q E s.
Proof.
  intros HJ HR. induction p as [a|e|k IH|f k IH|w k IH]; cbn; intros Q E s H; auto.
  destruct H; auto.
Qed.

(** * Methods that are not about a connection leave it alone *)
Section Kept.
Variables (g : cfg) (cid : string).
Notation G := (guar None (Some cid)).
Definition kept (m : mach) : Prop := forall i from w k, In (i, (from, (w, k))) (m_tasks m) -> ~ about cid (m_st m) from ->
  waiting wf evolves G (m_st m) k any any.
Notation basic := (minv (jg None None) evolves (guar None None)).

Lemma of_conn_obj s t : of_conn cid s t <-> exists r, aget (task_obj t) (heap s) = Some r /\ c_id r = cid.
Proof. destruct t; reflexivity. Qed.
Lemma about_ev s s' from : wf s -> evolves s s' -> about cid s from -> about cid s' from.
Proof.
  intros W E. destruct from as [o|t tm|]; cbn; auto. rewrite !of_conn_obj. intros (r & H1 & H2).
  destruct (E W) as (_ & _ & _ & C). destruct (C _ _ H1) as (r' & E1 & E2). exists r'. split; [exact E1|]. apply core_fields in E2 as (-> & _). exact H2.
Qed.
Lemma wf_guar oi ck s s' : guar oi ck s s' -> wf s -> wf s'.
Proof. intros [E _] W. apply (E W). Qed.

Lemma kept_resume i from p m : basic m -> kept m -> wp (jg None None) evolves (guar None None) p any any (m_st m) ->
  (~ about cid (m_st m) from -> wp wf evolves G p any any (m_st m)) -> kept (resume i from p m).
Proof.
  intros Hb Hk Hp Hc.
  assert (Hr : evolves (m_st m) (m_st (resume i from p m))).
  { apply (minv_resume (jg None None) evolves (guar None None)); eauto.
    - intros s s'. apply jg_guar.
    - intros s f Hj. pose proof (guar_finish None None f s) as Gf. split; [eauto|]. eapply jg_guar; eauto. }
  assert (W : wf (m_st m)) by apply Hb.
  intros j f w k Hin Hn. unfold resume in *.
  pose proof (fun H => wp_advance wf evolves G ev_refl ev_trans (fun s s' => guar_ev None (Some cid) s s') (fun s s' => wf_guar None (Some cid) s s') p any any (m_st m) W (Hc H)) as A.
  destruct (advance p (m_st m)) as [[r|w' k'] s']; cbn [m_st m_tasks] in *.
  - eapply waiting_R; eauto. eapply Hk; [exact Hin|]. intros Ha. apply Hn. eapply about_ev; eauto.
  - apply In_aset in Hin as [[_ [= -> -> ->]]|Hin].
    + assert (Hn' : ~ about cid (m_st m) from) by (intros Ha; apply Hn; eapply about_ev; eauto).
      destruct (A Hn') as (_ & _ & A3). exact A3.
    + eapply waiting_R; eauto. eapply Hk; [exact Hin|]. intros Ha. apply Hn. eapply about_ev; eauto.
Qed.
Lemma kept_set m s' : wf (m_st m) -> kept m -> evolves (m_st m) s' -> kept (set_st s' m).
Proof.
  intros W Hk He i from w k Hin Hn. cbn in *. eapply waiting_R; eauto. eapply Hk; [exact Hin|]. intros Ha. apply Hn. eapply about_ev; eauto.
Qed.
Lemma not_conn s t : jg None None s -> handles None None (task_obj t) s -> ~ of_conn cid s t -> handles None (Some cid) (task_obj t) s.
Proof.
  intros Hj [_ (r & E & _)] Hn. split; [discriminate|]. exists r. split; [exact E|]. intros [= H]. apply Hn. apply of_conn_obj. exists r. auto.
Qed.

Lemma kept_step m e : basic m -> kept m -> kept (mstep g m e).
Proof.
  intros Hb Hk. pose proof Hb as [Hj Ht]. pose proof (j_wf _ _ _ Hj) as W.
  assert (Old : forall s, old None s) by (intros s o; discriminate).
  assert (Fin : forall s f, jg None None s -> evolves s (finish f s) /\ jg None None (finish f s)).
  { intros s f H. pose proof (guar_finish None None f s) as Gf. split; [eauto|]. eapply jg_guar; eauto. }
  assert (Tk : forall t s, jg None None s -> handles None None (task_obj t) s -> ~ of_conn cid s t -> wp wf evolves G (quietly (task_prog g t)) any any s).
  { intros t s Hs Hh Hn. apply wp_quietly. eapply t_wp. eapply t_task; eauto.
    - intros ? ?. apply wf_guar.
    - apply Hs.
    - apply not_conn; auto. }
  assert (Tb : forall t s, jg None None s -> handles None None (task_obj t) s -> wp (jg None None) evolves (guar None None) (quietly (task_prog g t)) any any s).
  { intros t s Hs Hh. apply wp_quietly. eapply t_wp. eapply t_task; eauto using j_wf. intros ? ?. apply jg_guar. }
  destruct e as [o|n|id|i x|dt|]; cbn [mstep].
  - apply kept_resume; [split; [exact Hj|exact Ht]|exact Hk| |].
    + eapply t_wp. eapply t_op; eauto using j_wf. { intros ? ?; apply jg_guar. } intros k _ X. discriminate.
    + cbn [m_st about]. intros Hn. eapply t_wp. eapply t_op; eauto. { intros ? ?; apply wf_guar. } intros k Hk' [= X]. congruence.
  - destruct (nth_error (ready (m_st m)) n) as [t|] eqn:En; [|exact Hk].
    pose proof (guar_start None None n (m_st m)) as Gs. assert (Hj' := jg_guar _ _ _ _ Gs Hj).
    assert (Hh : handles None None (task_obj t) (set_ready (drop_nth n (ready (m_st m))) (m_st m))).
    { apply (handles_ev None None) with (s := m_st m); [exact W|eauto|]. apply (j_ready _ _ _ Hj). eapply nth_error_In. exact En. }
    pose proof (kept_set m _ W Hk (guar_ev _ _ _ _ Gs)) as Hk'.
    apply kept_resume; [apply (minv_weaken (jg None None) evolves (guar None None)) with (m := m); eauto|exact Hk'|apply Tb; auto|].
    cbn [m_st about]. intros Hn. apply Tk; auto.
  - destruct (aget id (s_queue (sch (m_st m)))) as [due|] eqn:Eq; [|exact Hk].
    destruct (aget id (calls (m_st m))) as [t|] eqn:Ec; [|exact Hk].
    destruct (due <=? now (m_st m)); [|exact Hk].
    pose proof (guar_fire None None id (m_st m)) as Gs. assert (Hj' := jg_guar _ _ _ _ Gs Hj).
    assert (Hh : handles None None (task_obj t) (set_sch (sched_step (sch (m_st m)) (SFire id)) (m_st m))).
    { apply (handles_ev None None) with (s := m_st m); [exact W|eauto|]. apply (j_call _ _ _ Hj id). split; [exact Ec|]. unfold ahas. rewrite Eq. reflexivity. }
    pose proof (kept_set m _ W Hk (guar_ev _ _ _ _ Gs)) as Hk'.
    apply kept_resume; [apply (minv_weaken (jg None None) evolves (guar None None)) with (m := m); eauto|exact Hk'|apply Tb; auto|].
    cbn [m_st about]. intros Hn. apply Tk; auto.
  - destruct (aget i (m_tasks m)) as [[from [w k]]|] eqn:Ei; [|exact Hk]. apply aget_In in Ei.
    apply kept_resume.
    + split; [exact Hj|]. intros j f' w' k' Hj'. cbn in Hj'. apply In_adel in Hj'. eapply Ht. exact Hj'.
    + intros j f' w' k' Hj' Hn. cbn in *. apply In_adel in Hj'. eapply Hk; eauto.
    + cbn. eapply Ht; eauto.
    + cbn. intros Hn. eapply Hk; eauto.
  - apply kept_set; auto. exact (guar_ev _ _ _ _ (guar_tick None None dt (m_st m))).
  - pose proof (jg_reboot None (m_st m) W) as Hj'. apply kept_resume.
    + split; [exact Hj'|]. intros ? ? ? ? [].
    + intros ? ? ? ? [].
    + cbn [m_st]. apply wp_quietly. eapply t_wp. eapply t_build; eauto using j_wf. { intros ? ?; apply jg_guar. } intros ? ? ? ?. discriminate.
    + cbn [about]. tauto.
Qed.
Lemma kept_run l : forall m, basic m -> kept m -> kept (mrun g m l).
Proof. induction l as [|e l IH]; cbn; intros m Hb H; [exact H|]. apply IH; [apply basic_step; exact Hb|]. apply kept_step; auto. Qed.

(** * After the end *)
Definition rely (s s' : st) : Prop := evolves s s' /\ (wf s -> forall o r, aget o (heap s) = Some r -> c_id r = cid -> aget o (heap s') = Some r).
Lemma rely_trans a b c : rely a b -> rely b c -> rely a c.
Proof.
  intros [E1 K1] [E2 K2]. split; [eauto|]. intros W o r Ho Hc. destruct (E1 W) as (W1 & _). apply K2; auto.
Qed.
Lemma rely_guar s s' : guar None (Some cid) s s' -> rely s s'.
Proof.
  intros H. split; [eauto|]. intros W o r Ho Hc. apply (a_obj _ _ _ _ (guar_apart _ _ _ _ W (fun o (X : None = Some o) => ltac:(discriminate)) H)); [exact Ho|]. right. congruence.
Qed.
Variables (r0 : row) (outs0 : list output).
Hypothesis Hr0 : c_l r0 = LTerminated.
Record jend (s : st) : Prop := {
  e_j : jg None (Some cid) s; e_row : aget cid (db s) = Some r0;
  e_out : exists l, outs s = outs0 ++ l /\ Forall (fun x => out_id x <> cid) l }.
Lemma jend_guar s s' : guar None (Some cid) s s' -> jend s -> jend s'.
Proof.
  intros Gs [J1 J2 (l & J3 & J4)]. pose proof (guar_apart _ _ _ _ (j_wf _ _ _ J1) (j_old _ _ _ J1) Gs) as [A1 A2 (l' & A3 & A4) _ _]. split.
  - eapply jg_guar; eauto.
  - rewrite A2; auto.
  - exists (l ++ l'). split; [rewrite A3, J3, app_assoc; reflexivity|]. apply Forall_app. split; [exact J4|].
    eapply Forall_impl; [|exact A4]. intros x Hx E. apply Hx. congruence.
Qed.
Notation endinv := (minv jend rely (guar None (Some cid))).
Lemma rely_refl s : rely s s.
Proof. split; auto. Qed.
Local Hint Resolve rely_refl rely_trans rely_guar : core.
Lemma jend_wf s : jend s -> wf s. Proof. intros H. apply H. Qed.
Lemma jend_old s : jend s -> old None s. Proof. intros H. apply H. Qed.
Lemma jend_end s : jend s -> forall k, Some cid = Some k -> exists r, aget k (db s) = Some r /\ c_l r = LTerminated.
Proof. intros H k [= <-]. exists r0. split; [apply H|exact Hr0]. Qed.
Lemma rely_ev s s' : rely s s' -> evolves s s'. Proof. intros [H _]. exact H. Qed.
Lemma rely_obj s s' : jend s -> rely s s' -> forall o r, aget o (heap s) = Some r -> Some cid = Some (c_id r) -> aget o (heap s') = Some r.
Proof. intros Hj [_ H] o r Ho [= Hc]. apply H; auto. apply Hj. Qed.
Local Hint Resolve jend_wf jend_old jend_end rely_ev rely_obj jend_guar : core.
Lemma end_step m e : endinv m -> endinv (mstep g m e).
Proof.
  intros Hm. apply minv_step; eauto.
  - intros s dt Hj. pose proof (guar_tick None (Some cid) dt s) as Gs. split; eauto.
  - intros s f Hj. pose proof (guar_finish None (Some cid) f s) as Gs. split; eauto.
  - intros s n t Hj Hn s'. pose proof (guar_start None (Some cid) n s) as Gs. assert (Hj' : jend s') by eauto. split; [eauto|]. split; [exact Hj'|].
    eapply t_wp. eapply t_task; eauto.
    apply (handles_ev None (Some cid)) with (s := s); [eauto|eauto|]. apply (j_ready _ _ _ (e_j _ Hj)). eapply nth_error_In. exact Hn.
  - intros s id due t Hj Hq Hc s'. pose proof (guar_fire None (Some cid) id s) as Gs. assert (Hj' : jend s') by eauto. split; [eauto|]. split; [exact Hj'|].
    eapply t_wp. eapply t_task; eauto.
    apply (handles_ev None (Some cid)) with (s := s); [eauto|eauto|]. apply (j_call _ _ _ (e_j _ Hj) id). split; [exact Hc|]. unfold ahas. rewrite Hq. reflexivity.
  - destruct Hm as [Hj _]. destruct e; cbn [call_ok]; auto.
    + eapply t_wp. eapply t_op_all; eauto.
    + assert (Hj' : jend (reboot (m_st m))). { destruct Hj as [J1 J2 J3]. split; [apply jg_reboot; apply J1|exact J2|exact J3]. }
      split; [exact Hj'|]. eapply t_wp. eapply t_build; eauto.
Qed.
Lemma end_run l : forall m, endinv m -> endinv (mrun g m l).
Proof. induction l as [|e l IH]; cbn; intros m H; [exact H|]. apply IH. apply end_step. exact H. Qed.
End Kept.

Lemma out_id_conn x : out_id x = conn_of x. Proof. destruct x; reflexivity. Qed.
Lemma terminated_stays g t0 l1 l2 cid r : let m := mrun g (minit t0) l1 in let m' := mrun g m l2 in
  settled cid m -> aget cid (db (m_st m)) = Some r -> c_l r = LTerminated ->
  aget cid (db (m_st m')) = Some r /\ exists l, outs (m_st m') = outs (m_st m) ++ l /\ Forall (fun x => conn_of x <> cid) l.
Proof.
  intros m m' (S1 & S2 & S3) Hr Hl.
  assert (Hb : minv (jg None None) evolves (guar None None) m) by (apply basic_run; apply basic_init).
  assert (Hk : kept cid m) by (apply kept_run; [apply basic_init|]; intros ? ? ? ? []).
  pose proof Hb as [Hj _].
  assert (He : minv (jend cid r (outs (m_st m))) (rely cid) (guar None (Some cid)) m).
  { split.
    - split; [split|exact Hr|exists []; rewrite app_nil_r; auto].
      + apply Hj.
      + intros o. discriminate.
      + intros t Ht. apply not_conn; [exact Hj|apply (j_ready _ _ _ Hj); exact Ht|apply S2; exact Ht].
      + intros id t Ht. apply not_conn; [exact Hj|apply (j_call _ _ _ Hj id); exact Ht|]. destruct Ht. eapply S3; eauto.
    - intros i from w k Hin. specialize (S1 _ _ _ Hin). pose proof (Hk _ _ _ _ Hin S1) as W. intros x s' Hr' Hj'.
      eapply wp_weaken; [| |apply W].
      + intros s H. apply H.
      + intros s s2 H. apply H.
      + apply Hr'.
      + apply Hj'. }
  destruct (end_run g cid r (outs (m_st m)) Hl l2 m He) as [[J1 J2 (l & J3 & J4)] _]. split; [exact J2|]. exists l. split; [exact J3|].
  eapply Forall_impl; [|exact J4]. intros x. cbn. rewrite out_id_conn. auto.
Qed.
