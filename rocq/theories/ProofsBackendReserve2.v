(** One reservation request, from any state of the backend (C29, C30). *)
From Coq Require Import Permutation.
From Verif Require Import Base ModelLabel ModelSTP ModelAuthz ModelNRM ModelCalendar ModelState ModelScheduler ModelBackend
  SpecLabel SpecCalendar SpecBackend ProofsCalendar ProofsBackendWp ProofsBackendFoc ProofsBackendOps ProofsBackendAdmission ProofsBackendReserve ProofsBackendSerial.
Open Scope Z_scope.

(** tables, calendar, outputs and started tasks are as before *)
Definition still (s s' : st) : Prop := db s' = db s /\ cal s' = cal s /\ outs s' = outs s /\ ready s' = ready s /\ now s <= now s'.
Lemma still_tick dt s s' : still s s' -> still s (tick dt s').
Proof. intros (H1 & H2 & H3 & H4 & H5). pose proof (now_tick dt s') as Hn. repeat split; auto. unfold now in *. lia. Qed.
Lemma still_obj r s s' : still s s' -> still s (new_obj r s').
Proof. intros (H1 & H2 & H3 & H4 & H5). repeat split; auto. Qed.
Lemma still_refl s : still s s.
Proof. repeat split; lia. Qed.

Lemma u_unused q s : wp any (check_unused q)
  (fun _ s' => still s s' /\ forall c, rs_cid q = Some c -> c <> "" -> aget c (db s) = None) (fun _ s' => still s s') s.
Proof.
  unfold check_unused. destruct (rs_cid q) as [cid|].
  2:{ cbn [wp]. split; [apply still_refl|discriminate]. }
  destruct (eqb_ok cid "") as [->|Hn].
  { cbn [wp]. split; [apply still_refl|]. intros c [= <-] H. congruence. }
  apply w_bind, w_catch, w_bind. unfold get_connection, await. cbn [bind wp]. intros y dt _. cbn [answer bind wp get].
  assert (S1 : still s (tick dt s)) by apply still_tick, still_refl.
  change (db (tick dt s)) with (db s). destruct (aget cid (db s)) as [r|] eqn:Er.
  - cbn [alloc get upd bind wp]. intros y' dt' _. cbn [answer bind wp]. apply still_tick, still_obj, S1.
  - cbn [bind wp]. intros y' dt' _. cbn [answer bind wp]. split; [apply still_tick, S1|]. intros c [= <-] _. exact Er.
Qed.

(** the outcome of a reservation request *)
Definition taken (g : cfg) (h : hdr) (q : resv) (s : st) (cid : string) (s' : st) : Prop :=
  exists t l1 l2 r, now s <= t <= now s' /\ (rs_cid q = Some cid \/ (rs_cid q = None /\ cid = rs_new q)) /\
    admission g t (cal s) h q = Ok (l1, l2) /\ initial h q cid t l1 l2 r /\
    aget cid (db s) = None /\ db s' = aset cid r (db s) /\
    cal s' = cal s ++ [mk_entry (get_resource g (s_port (rs_src q)) l1) (rs_start q) (rs_end q);
                       mk_entry (get_resource g (s_port (rs_dst q)) l2) (rs_start q) (rs_end q)] /\
    outs s' = outs s.
Lemma u_reserve g h q s : wp any (reserve g h q) (fun cid s' => rs_p2p q = true /\ taken g h q s cid s') (fun x s' => x = EDatabase \/ still s s') s.
Proof.
  unfold reserve. destruct (rs_p2p q); cbn [negb]; [|cbn [wp]; right; apply still_refl].
  apply w_bind. eapply wp_mono; [| |apply u_unused]; [|intros x s' S'; right; exact S'].
  intros _ s1 (S1 & _). apply w_bind. cbn [get wp]. apply w_bind.
  destruct (admission g (now s1) (cal s1) h q) as [[l1 l2]|x] eqn:Ea; cbn [lift wp]; [|right; exact S1].
  pose proof S1 as (E1 & E2 & E3 & E4 & E5). fold (chosen_id q).
  apply w_bind. cbn [add_reservation upd wp]. apply w_bind. cbn [add_reservation upd wp]. apply w_bind. cbn [alloc get bind upd wp].
  apply w_bind. unfold insert, await. apply w_bind. cbn [wp]. intros y dt _. cbn [answer wp]. set (s4 := tick dt _).
  assert (Hn : now s1 <= now s4). { unfold s4. match goal with |- context [tick dt ?x] => exact (now_tick dt x) end. }
  assert (Ho : aget (nobj s1) (heap s4) = Some (new_row h q (chosen_id q) (now s1) l1 l2)) by (cbn; apply aget_aset_eq).
  apply w_bind. unfold obj. cbn [get bind wp]. change (nobj (set_cal _ (set_cal _ s1))) with (nobj s1). rewrite Ho. cbn [bind wp].
  change (db s4) with (db s1). change (c_id (new_row h q (chosen_id q) (now s1) l1 l2)) with (chosen_id q).
  unfold ahas. destruct (aget (chosen_id q) (db s1)) eqn:Ed; [cbn [orb bind wp]; left; reflexivity|]. cbn [orb].
  destruct (span_check _ _); cbn [negb bind wp]; [|left; reflexivity]. cbn [upd bind wp]. intros y' dt' _. cbn [answer wp upd bind].
  split; [reflexivity|]. exists (now s1), l1, l2, (new_row h q (chosen_id q) (now s1) l1 l2).
  split. { split; [exact E5|]. unfold now in *. cbn. cbn in Hn. lia. }
  split. { unfold chosen_id. destruct (rs_cid q); auto. }
  split; [rewrite <- E2; exact Ea|]. split; [constructor; reflexivity|]. split; [rewrite <- E1; exact Ed|].
  split; [cbn; rewrite E1; reflexivity|]. split; [cbn; unfold cal_add; rewrite <- app_assoc, E2; reflexivity|exact E3].
Qed.

Lemma reserve_refused g h q e s x s' e' : run (reserve g h q) e s = (Err x, s', e') -> x <> EDatabase -> still s s'.
Proof.
  intros Hr Hx. pose proof (wp_sound any Logic.I _ _ _ s e (any_env e) (u_reserve g h q s)) as H. rewrite Hr in H.
  destruct H as (_ & [H|H]); [congruence|exact H].
Qed.
Lemma check_free now c r b e : forward forever now b e -> (forall cs ce, In (mk_entry r cs ce) c -> forward forever now cs ce) ->
  cal_check now c r b e = Ok tt -> forall cs ce, In (mk_entry r cs ce) c -> ~ share_instant forever now cs ce b e.
Proof.
  intros Hf Hc Hk cs ce Hin Hs. destruct (cal_check_spec now c r b e Hf Hc) as [[H _] _]. destruct (H Hk) as [_ Hb]. apply Hb. eauto.
Qed.
Lemma reserve_accepted g h q e s cid s' e' : wf_ports g -> wf_olabel (s_label (rs_src q)) -> wf_olabel (s_label (rs_dst q)) ->
  run (reserve g h q) e s = (Ok cid, s', e') ->
  exists p d t l1 l2 r, acceptable g h q p d /\ label_choice g (rs_src q) (rs_dst q) l1 l2 /\ now s <= t <= now s' /\
    (forward forever t (rs_start q) (rs_end q) -> (forall res cs ce, In (mk_entry res cs ce) (cal s) -> forward forever t cs ce) ->
     free_choice g t (cal s) q l1 l2) /\
    (rs_cid q = Some cid \/ (rs_cid q = None /\ cid = rs_new q)) /\ initial h q cid t l1 l2 r /\
    aget cid (db s) = None /\ db s' = aset cid r (db s) /\
    cal s' = cal s ++ [mk_entry (get_resource g (s_port (rs_src q)) l1) (rs_start q) (rs_end q);
                       mk_entry (get_resource g (s_port (rs_dst q)) l2) (rs_start q) (rs_end q)].
Proof.
  intros Wp W1 W2 Hr. pose proof (wp_sound any Logic.I _ _ _ s e (any_env e) (u_reserve g h q s)) as H. rewrite Hr in H.
  destruct H as (_ & Hp & t & l1 & l2 & r & Ht & Hid & Ha & Hj & Hd & Hdb & Hcal & _).
  destruct (admission_inv g t (cal s) h q l1 l2 Ha) as [Hpick Hacc]. destruct (Hacc Hp Wp W1 W2) as (p & d & Hok).
  destruct (pick_labels_ok _ _ _ _ _ _ _ _ _ W1 W2 Hpick) as (Hch & C1 & C2).
  exists p, d, t, l1, l2, r. split; [exact Hok|]. split; [exact Hch|]. split; [exact Ht|]. split; [|auto 10].
  intros Hf Hc. split; [exact Hch|]. intros res cs ce [->| ->] Hin.
  - exact (check_free t (cal s) _ _ _ Hf (fun cs' ce' => Hc _ cs' ce') C1 cs ce Hin).
  - exact (check_free t (cal s) _ _ _ Hf (fun cs' ce' => Hc _ cs' ce') C2 cs ce Hin).
Qed.

(** an acceptable request with a free label choice is accepted *)
Lemma reserve_complete g h q e s p d l1 l2 : let s1 := looked_at q e s in
  wf_ports g -> wf_olabel (s_label (rs_src q)) -> wf_olabel (s_label (rs_dst q)) ->
  acceptable g h q p d -> forward forever (now s1) (rs_start q) (rs_end q) -> legal_span year2095 (now s1) (rs_start q) (rs_end q) ->
  (forall res cs ce, In (mk_entry res cs ce) (cal s) -> forward forever (now s1) cs ce) -> free_choice g (now s1) (cal s) q l1 l2 ->
  aget (match rs_cid q with Some c => c | None => rs_new q end) (db s) = None ->
  exists cid s' e', run (reserve g h q) e s = (Ok cid, s', e').
Proof.
  intros s1 Wp W1 W2 A Hf Hl Hc Hfree Hd. unfold looked_at in s1.
  assert (Hu : fst (fst (run (check_unused q) e s)) = Ok tt /\ still s s1).
  { pose proof (wp_sound any Logic.I _ _ _ s e (any_env e) (u_unused q s)) as H.
    unfold s1. assert (G : exists r1 e1, run (check_unused q) e s = (Ok tt, r1, e1)).
    { clear -Hd. unfold check_unused. destruct (rs_cid q) as [c|]; [|cbn; eauto]. destruct (eqb_ok c "") as [->|]; [cbn; eauto|].
      unfold get_connection, await. cbn [bind catch get run]. destruct (next_env e) as [[x dt] e1]. cbn [answer bind catch run].
      change (db (tick dt s)) with (db s). rewrite Hd. cbn [bind catch run]. destruct (next_env e1) as [[x' dt'] e2]. cbn [answer bind catch run]. eauto. }
    destruct G as (r1 & e1 & G). rewrite G in *. cbn [fst snd] in *. destruct H as (_ & H & _). auto. }
  destruct Hu as [Hu1 Hu2]. destruct Hu2 as (E1 & E2 & E3 & E4 & E5).
  destruct (admission_complete g (now s1) (cal s1) h q p d l1 l2) as [[m1 m2] Had]; try assumption; try (rewrite E2; assumption).
  unfold reserve. rewrite (a_p2p _ _ _ _ _ A). cbn [negb]. rewrite run_bind.
  destruct (run (check_unused q) e s) as [[x sx] ex] eqn:Er. cbn [fst snd] in *. subst x. change sx with s1. clearbody s1. clear Er sx.
  cbn [get bind run]. rewrite Had. cbn [lift bind run add_reservation upd alloc get]. unfold insert, await. cbn [bind run].
  destruct (next_env ex) as [[y dt] ey]. cbn [answer bind run obj get]. fold (chosen_id q) in *. set (s4 := tick dt _).
  assert (Ho : aget (nobj s1) (heap s4) = Some (new_row h q (chosen_id q) (now s1) m1 m2)) by (cbn; apply aget_aset_eq).
  unfold obj. cbn [get bind run]. change (nobj (set_cal _ (set_cal _ s1))) with (nobj s1). rewrite Ho. cbn [bind run get]. change (db s4) with (db s1).
  change (c_id (new_row h q (chosen_id q) (now s1) m1 m2)) with (chosen_id q). unfold ahas. rewrite E1, Hd. cbn [orb].
  change (c_start (new_row h q (chosen_id q) (now s1) m1 m2)) with (rs_start q). change (c_end (new_row h q (chosen_id q) (now s1) m1 m2)) with (rs_end q).
  replace (span_check (rs_start q) (rs_end q)) with true.
  2:{ unfold span_check, forward in *. destruct (rs_start q), (rs_end q); auto. symmetry. lia. }
  cbn [negb upd bind run]. destruct (next_env ey) as [[y' dt'] ey']. cbn [answer bind run upd]. eauto.
Qed.

Lemma within_offered p req l : carries p req -> within p req -> one_of req l -> offered p l.
Proof.
  unfold carries, within, one_of, offered. destruct req as [b|]; [|tauto]. destruct (p_label p) as [a|]; [|tauto]. destruct l as [x|]; [|tauto].
  intros [Ht (z & Hz1 & Hz2)] Hw [Hx (v & Hv & Hd)]. split; [congruence|]. intros w (lo & hi & Hin & Hle). rewrite Hv in Hin. destruct Hin as [E|[]].
  injection E as <- <-. assert (w = v) by lia. subst w. destruct Hw as [(u & Hu)|Hw]; [|apply (Hw a eq_refl v Hd)].
  rewrite Hu in *. destruct Hd as (lo & hi & [E|[]] & Hd). injection E as <- <-. destruct Hz2 as (lo & hi & [E|[]] & Hz2). injection E as <- <-.
  replace v with z by lia. exact Hz1.
Qed.
Lemma reserve_in_range g h q e s cid s' e' r p d : wf_ports g -> wf_olabel (s_label (rs_src q)) -> wf_olabel (s_label (rs_dst q)) ->
  run (reserve g h q) e s = (Ok cid, s', e') -> aget cid (db s') = Some r ->
  aget (c_sport r) (nrm_ports g) = Some p -> aget (c_dport r) (nrm_ports g) = Some d ->
  (within p (s_label (rs_src q)) -> offered p (c_slabel r)) /\ (within d (s_label (rs_dst q)) -> offered d (c_dlabel r)).
Proof.
  intros Wp W1 W2 Hr Hd Hp Hq. destruct (reserve_accepted g h q e s cid s' e' Wp W1 W2 Hr) as (p' & d' & t & l1 & l2 & r' & A & Hc & _ & _ & _ & J & _ & Hdb & _).
  rewrite Hdb, aget_aset_eq in Hd. injection Hd as <-.
  rewrite (j_sport _ _ _ _ _ _ _ J), (a_sport _ _ _ _ _ A) in Hp. injection Hp as <-.
  rewrite (j_dport _ _ _ _ _ _ _ J), (a_dport _ _ _ _ _ A) in Hq. injection Hq as <-.
  rewrite (j_slabel _ _ _ _ _ _ _ J), (j_dlabel _ _ _ _ _ _ _ J). unfold label_choice in Hc. destruct (_ && _).
  - destruct Hc as [Hc1 Hc2]. split; intros Hw; (eapply within_offered; [|exact Hw|eassumption]); apply A.
  - destruct Hc as (<- & Hc1 & Hc2 & _). split; intros Hw; (eapply within_offered; [|exact Hw|]); try apply A.
    + destruct Hc1 as [E|Hx]; [rewrite E in Hw; destruct Hw|exact Hx].
    + destruct Hc2 as [E|Hx]; [rewrite E in Hw; destruct Hw|exact Hx].
Qed.
