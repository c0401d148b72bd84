(** Proofs about outgoing requests. *)
From Verif Require Import Base BaseProofs ModelRequester SpecRequester.
Open Scope Z_scope.

Definition causal (l : list (event * output)) : Prop :=
  forall l1 ev d o l2, l = l1 ++ (ev, Fired d o) :: l2 -> exists k a, returns l1 k a d /\ answers ev k a o.

Record Inv (l : list (event * output)) (s : rst) : Prop := mkInv {
  i_keys : NoDup (akeys (calls s));
  i_call : forall k c, In (k, c) (calls s) -> returns l k (c_action c) (c_deferred c) /\ ~ fires l (c_deferred c);
  i_ret  : forall k a d, returns l k a d -> (d < next s)%nat /\ forall k' a', returns l k' a' d -> k' = k /\ a' = a;
  i_fired : NoDup (fired_ids l);
  i_fired_lt : forall d, fires l d -> (d < next s)%nat;
  i_timer : forall u, In u (timers s) -> returns l (t_key u) (t_action u) (t_id u);
  i_causal : causal l }.

Lemma fires_ids l d : fires l d <-> In d (fired_ids l).
Proof.
  unfold fires, fired_ids. rewrite in_flat_map. split.
  - intros (ev & o & H). exists (ev, Fired d o). split; [exact H|left; reflexivity].
  - intros ([ev o] & H & Hd). cbn [snd] in Hd. destruct o as [|d' o'|]; cbn in Hd; try tauto. destruct Hd as [<-|[]]. eauto.
Qed.
Lemma fires_snoc l x d : fires (l ++ [x]) d <-> fires l d \/ exists o, snd x = Fired d o.
Proof.
  unfold fires. split.
  - intros (ev & o & H). apply in_app_iff in H as [H|[->|[]]]; [left; eauto|right; exists o; reflexivity].
  - intros [(ev & o & H)|(o & H)].
    + exists ev, o. apply in_app_iff. auto.
    + destruct x as [ev x]. cbn in H. subst x. exists ev, o. apply in_app_iff. right. left. reflexivity.
Qed.
Lemma returns_snoc l x k a d : returns (l ++ [x]) k a d <-> returns l k a d \/ x = (Request k a, Returned d).
Proof. unfold returns. rewrite in_app_iff. cbn. intuition. Qed.

Lemma causal_snoc l x : causal l -> (forall ev d o, x = (ev, Fired d o) -> exists k a, returns l k a d /\ answers ev k a o) -> causal (l ++ [x]).
Proof.
  intros Hc Hx l1 ev d o l2 E. destruct l2 as [|y l2] using rev_ind; [|clear IHl2].
  - apply app_inj_tail in E as [-> ->]. apply Hx. reflexivity.
  - rewrite app_comm_cons, app_assoc in E. apply app_inj_tail in E as [E _]. eapply Hc. exact E.
Qed.

Lemma In_adel {V} (k x : key) (v : V) d : In (x, v) (adel k d) -> In (x, v) d.
Proof. induction d as [|[k1 v1] r IH]; cbn; [tauto|]. destruct (eqb k k1); cbn; tauto. Qed.
Lemma In_adel_ne {V} (k x : key) (v : V) d : NoDup (akeys d) -> In (x, v) (adel k d) -> x <> k.
Proof.
  intros Hnd Hin ->. assert (Hn := aget_adel_eq k d Hnd). apply aget_None in Hn. apply Hn. apply (in_map fst) in Hin. exact Hin.
Qed.

(** an output that is neither a firing nor a returned deferred adds nothing *)
Lemma Inv_other l s x : Inv l s -> (forall d, snd x <> Returned d) -> (forall d o, snd x <> Fired d o) -> Inv (l ++ [x]) s.
Proof.
  intros [H1 H2 H3 H4 H5 H6 H7] Hr Hf.
  assert (Er : forall k a d, returns (l ++ [x]) k a d <-> returns l k a d).
  { intros k a d. rewrite returns_snoc. split; [|auto]. intros [H|E]; [exact H|]. subst x. exfalso. apply (Hr d). reflexivity. }
  assert (Ef : forall d, fires (l ++ [x]) d <-> fires l d).
  { intros d. rewrite fires_snoc. split; [|auto]. intros [H|(o & E)]; [exact H|]. exfalso. exact (Hf d o E). }
  constructor; auto.
  - intros k c Hc. rewrite Er, Ef. apply H2, Hc.
  - intros k a d H. apply Er in H. destruct (H3 k a d H) as [Ha Hb]. split; [exact Ha|]. intros k' a' H'. apply Er in H'. auto.
  - unfold fired_ids in *. rewrite flat_map_app. cbn [flat_map]. destruct (snd x) as [|d o|]; try (rewrite app_nil_r; exact H4).
    exfalso. exact (Hf d o eq_refl).
  - intros d H. apply Ef in H. auto.
  - intros u Hu. apply Er. auto.
  - apply causal_snoc; [exact H7|]. intros ev d o ->. exfalso. exact (Hf d o eq_refl).
Qed.

Lemma Inv_weaken_calls l s cs ts : Inv l s -> NoDup (akeys cs) -> (forall k c, In (k, c) cs -> In (k, c) (calls s)) ->
  (forall u, In u ts -> In u (timers s)) -> forall n, Inv l (mkR cs ts (next s) n).
Proof. intros [H1 H2 H3 H4 H5 H6 H7] Hn Hc Ht n. constructor; cbn; auto. Qed.

Lemma trigger_Inv l s k a o ev : Inv l s -> answers ev k a o ->
  Inv (l ++ map (pair ev) (snd (trigger s k a o))) (fst (trigger s k a o)).
Proof.
  intros Hi Ha. unfold trigger. destruct (aget k (calls s)) as [c|] eqn:E; [|cbn [snd fst map]; rewrite app_nil_r; exact Hi].
  pose proof Hi as [H1 H2 H3 H4 H5 H6 H7]. apply aget_In in E as Hin. destruct (H2 k c Hin) as [Hret Hnf].
  destruct (eqb_ok (c_action c) a) as [Eq|Hne]; cbn [negb fst snd map].
  - subst a. 
    assert (Er : forall k' a' d', returns (l ++ [(ev, Fired (c_deferred c) o)]) k' a' d' <-> returns l k' a' d').
    { intros k' a' d'. rewrite returns_snoc. split; [|auto]. intros [H|H]; [exact H|discriminate]. }
    constructor; cbn [calls timers next].
    + apply NoDup_akeys_adel, H1.
    + intros k' c' Hc'. rewrite Er, fires_snoc. pose proof (In_adel_ne _ _ _ _ H1 Hc') as Hk. apply In_adel in Hc'.
      destruct (H2 k' c' Hc') as [R F]. split; [exact R|]. intros [F'|(o' & Ex)]; [auto|]. cbn in Ex. injection Ex as Ex _.
      rewrite <- Ex in R. destruct (H3 _ _ _ Hret) as [_ Hu]. destruct (Hu _ _ R) as [Hk' _]. congruence.
    + intros k' a' d' R. apply Er in R. destruct (H3 _ _ _ R) as [Hlt Hu]. split; [exact Hlt|]. intros k2 a2 R2. apply Er in R2. auto.
    + unfold fired_ids. rewrite flat_map_app. cbn [flat_map snd app]. apply NoDup_snoc; [exact H4|]. intros Hc. apply Hnf, fires_ids, Hc.
    + intros d' F. apply fires_snoc in F as [F|(o' & Ex)]; [auto|]. cbn in Ex. injection Ex as Ex _. subst d'. apply (H3 _ _ _ Hret).
    + intros u Hu. apply filter_In in Hu as [Hu _]. apply Er. auto.
    + apply causal_snoc; [exact H7|]. intros ev' d' o' E2. injection E2 as <- <- <-. exists k, (c_action c). auto.
  - apply Inv_other; try (cbn; discriminate).
    apply Inv_weaken_calls; [exact Hi|apply NoDup_akeys_adel, H1|intros k' c'; apply In_adel|auto].
Qed.

Lemma fire_Inv l s t ev : Inv l s -> (forall k a, answers ev k a (Failed ECallbackTimeout)) ->
  Inv (l ++ map (pair ev) (snd (fire s t))) (fst (fire s t)).
Proof.
  intros Hi Ha. unfold fire. apply trigger_Inv; [|apply Ha].
  apply Inv_weaken_calls; [exact Hi|apply Hi|auto|]. intros u Hu. apply filter_In in Hu. tauto.
Qed.

Lemma run_due_Inv ts ev : (forall k a, answers ev k a (Failed ECallbackTimeout)) -> forall l s, Inv l s ->
  Inv (l ++ map (pair ev) (snd (run_due s ts))) (fst (run_due s ts)).
Proof.
  intros Ha. induction ts as [|t ts IH]; intros l s Hi; cbn [run_due].
  - cbn [snd fst map]. rewrite app_nil_r. exact Hi.
  - destruct (existsb _ (timers s)); [|apply IH; exact Hi].
    pose proof (fire_Inv l s t ev Hi Ha) as H1. destruct (fire s t) as [s1 o1]. cbn [fst snd] in H1.
    specialize (IH _ _ H1). destruct (run_due s1 ts) as [s2 o2]. cbn [fst snd] in *.
    rewrite map_app, app_assoc. exact IH.
Qed.

Lemma step_Inv timeout l s ev : Inv l s -> Inv (l ++ map (pair ev) (snd (step timeout s ev))) (fst (step timeout s ev)).
Proof.
  intros Hi. pose proof Hi as [H1 H2 H3 H4 H5 H6 H7]. destruct ev as [k a|k a e|k a v|k a e|t]; cbn [step].
  - unfold add_call, ahas. destruct (aget k (calls s)) as [c|] eqn:E; cbn [fst snd map].
    + apply Inv_other; [exact Hi| |]; cbn; discriminate.
    + assert (Hfresh : forall k' a', ~ returns l k' a' (next s)).
      { intros k' a' R. apply H3 in R as [R _]. lia. }
      constructor; cbn [calls timers next].
      * apply NoDup_akeys_aset, H1.
      * intros k' c' Hin. rewrite returns_snoc, fires_snoc.
        assert (Hcase : (k' = k /\ c' = mkCall a (next s) (next s)) \/ In (k', c') (calls s)).
        { assert (Hg : aget k' (aset k (mkCall a (next s) (next s)) (calls s)) = Some c') by (apply In_aget; [apply NoDup_akeys_aset, H1|exact Hin]).
          rewrite aget_aset in Hg. destruct (eqb_ok k' k) as [->|]; [left; split; congruence|right; apply aget_In, Hg]. }
        destruct Hcase as [[-> ->]|Hc'].
        -- cbn [c_action c_deferred]. split; [auto|]. intros [F|(o & Ex)]; [apply H5 in F; lia|discriminate].
        -- destruct (H2 _ _ Hc') as [R F]. split; [auto|]. intros [F'|(o & Ex)]; [auto|discriminate].
      * intros k' a' d' R. apply returns_snoc in R as [R|R].
        -- destruct (H3 _ _ _ R) as [Hlt Hu]. split; [lia|]. intros k2 a2 R2. apply returns_snoc in R2 as [R2|R2]; [auto|].
           injection R2 as <- <- <-. lia.
        -- injection R as <- <- <-. split; [lia|]. intros k2 a2 R2. apply returns_snoc in R2 as [R2|R2]; [exfalso; eapply Hfresh; eauto|].
           injection R2 as <- <-. auto.
      * unfold fired_ids. rewrite flat_map_app. cbn. rewrite app_nil_r. exact H4.
      * intros d F. apply fires_snoc in F as [F|(o & Ex)]; [apply H5 in F; lia|discriminate].
      * intros u Hu. apply in_app_iff in Hu as [Hu|[<-|[]]]; apply returns_snoc; [left; auto|right; reflexivity].
      * apply causal_snoc; [exact H7|]. intros ev' d' o' Ex. discriminate.
  - apply trigger_Inv; [exact Hi|constructor].
  - apply trigger_Inv; [exact Hi|constructor].
  - destruct a; try (apply trigger_Inv; [exact Hi|constructor]).
    cbn [fst snd map]. apply Inv_other; [exact Hi| |]; cbn; discriminate.
  - destruct (t <? now s); [cbn [fst snd map]; rewrite app_nil_r; exact Hi|].
    apply run_due_Inv; [constructor|]. apply Inv_weaken_calls; auto.
Qed.

Lemma NoDup_app_r {A} (l1 l2 : list A) : NoDup (l1 ++ l2) -> NoDup l2.
Proof. induction l1 as [|x l1 IH]; cbn; [auto|]. intros H. inversion H; auto. Qed.
Lemma log_app timeout evs1 evs2 : forall s, log timeout s (evs1 ++ evs2) = log timeout s evs1 ++ log timeout (final timeout s evs1) evs2.
Proof.
  induction evs1 as [|ev r IH]; intros s; [reflexivity|]. cbn [app log]. unfold final. cbn [fold_left]. fold (final timeout (fst (step timeout s ev)) r).
  destruct (step timeout s ev) as [s' o]. cbn [fst]. rewrite IH, app_assoc. reflexivity.
Qed.
Lemma log_Inv timeout evs : Inv (log timeout init evs) (final timeout init evs).
Proof.
  induction evs as [|ev evs IH] using rev_ind.
  - constructor; cbn; try constructor; try tauto; try (intros; destruct H; fail).
    + intros d (ev & o & []).
    + intros l1 ev d o l2 E. destruct l1; discriminate.
  - rewrite log_app. unfold final. rewrite fold_left_app. cbn [fold_left]. fold (final timeout init evs).
    cbn [log]. pose proof (step_Inv timeout _ _ ev IH) as H. destruct (step timeout (final timeout init evs) ev) as [s' o].
    cbn [fst snd] in *. rewrite app_nil_r. exact H.
Qed.

Theorem c25_once timeout evs : NoDup (fired_ids (log timeout init evs)).
Proof. apply (i_fired _ _ (log_Inv timeout evs)). Qed.
Theorem c25_own_answer timeout evs l1 ev d o l2 : log timeout init evs = l1 ++ (ev, Fired d o) :: l2 ->
  exists k a, returns l1 k a d /\ answers ev k a o /\
    (forall k' a', returns (log timeout init evs) k' a' d -> k' = k /\ a' = a).
Proof.
  intros E. destruct (i_causal _ _ (log_Inv timeout evs) _ _ _ _ _ E) as (k & a & R & A). exists k, a. split; [exact R|]. split; [exact A|].
  intros k' a' R'. assert (R0 : returns (log timeout init evs) k a d) by (rewrite E; apply in_app_iff; left; exact R).
  apply (i_ret _ _ (log_Inv timeout evs) _ _ _ R0). exact R'.
Qed.

Lemma trigger_unknown s k a o : aget k (calls s) = None -> trigger s k a o = (s, []).
Proof. intros E. unfold trigger. rewrite E. reflexivity. Qed.

Theorem c25_late timeout evs ev k a :
  (forall a' d, returns (log timeout init evs) k a' d -> fires (log timeout init evs) d) ->
  carries ev = Some (k, a) -> is_request ev = false ->
  fst (step timeout (final timeout init evs) ev) = final timeout init evs /\
  forall d o, ~ In (Fired d o) (snd (step timeout (final timeout init evs) ev)).
Proof.
  intros H Hc Hr. destruct (log_Inv timeout evs) as [I1 I2 I3 I4 I5 I6 I7].
  assert (Hn : aget k (calls (final timeout init evs)) = None).
  { destruct (aget k (calls (final timeout init evs))) as [c|] eqn:E; [|reflexivity]. apply aget_In in E.
    destruct (I2 _ _ E) as [R F]. exfalso. apply F. eapply H. exact R. }
  destruct ev as [k0 a0|k0 a0 e|k0 a0 v|k0 a0 e|t]; try discriminate; cbn [carries] in Hc; injection Hc as -> ->; cbn [step].
  - rewrite trigger_unknown by exact Hn. split; [reflexivity|]. intros d o [].
  - rewrite trigger_unknown by exact Hn. split; [reflexivity|]. intros d o [].
  - destruct a; try (rewrite trigger_unknown by exact Hn; split; [reflexivity|]; intros d o []).
    cbn [fst snd]. split; [reflexivity|]. intros d o [E|[]]. discriminate.
Qed.

(** ** Timing *)
Definition consistent (k : key) (a : action) (ev : event) : Prop := forall k' a', carries ev = Some (k', a') -> k' = k -> a' = a.

Record Clean (k : key) (a : action) (timeout : Z) (s : rst) : Prop := mkClean {
  c_keys : NoDup (akeys (calls s));
  c_ids : NoDup (map t_id (timers s));
  c_lt : forall u, In u (timers s) -> (t_id u < next s)%nat;
  c_callid : forall k' c, aget k' (calls s) = Some c -> c_timer c = c_deferred c /\ (c_timer c < next s)%nat;
  c_tc : forall u, In u (timers s) -> t_key u = k -> t_action u = a /\ exists c, aget k (calls s) = Some c /\ c_timer c = t_id u;
  c_ct : forall c, aget k (calls s) = Some c -> c_action c = a /\ exists due, In (mkTimer (c_timer c) k a due) (timers s);
  c_own : forall k' c u, aget k' (calls s) = Some c -> In u (timers s) -> t_id u = c_timer c -> t_key u = k' }.

Lemma NoDup_map_filter {A B} (f : A -> B) p l : NoDup (map f l) -> NoDup (map f (filter p l)).
Proof.
  induction l as [|x l IH]; cbn; [auto|]. intros H. inversion H as [|? ? Hn Hd]; subst. destruct (p x); cbn; [|auto].
  constructor; [|auto]. intros Hin. apply Hn. apply in_map_iff in Hin as (y & E & Hy). apply filter_In in Hy as [Hy _].
  rewrite <- E. apply in_map, Hy.
Qed.
Lemma NoDup_id_inj u v ts : NoDup (map t_id ts) -> In u ts -> In v ts -> t_id u = t_id v -> u = v.
Proof.
  induction ts as [|w ts IH]; cbn; [tauto|]. intros H. inversion H as [|? ? Hn Hd]; subst. intros [->|Hu] [->|Hv] E; auto.
  - exfalso. apply Hn. rewrite E. apply in_map, Hv.
  - exfalso. apply Hn. rewrite <- E. apply in_map, Hu.
Qed.

(** removing call [k'] together with its timer, or a timer of another key that has no call *)
Lemma aget_adel_Some (k k' : key) (c : call) d : NoDup (akeys d) -> aget k (adel k' d) = Some c -> aget k d = Some c /\ k <> k'.
Proof.
  intros Hnd E. destruct (eqb_ok k k') as [->|Hn]; [rewrite aget_adel_eq in E by exact Hnd; discriminate|].
  rewrite aget_adel_ne in E by exact Hn. auto.
Qed.

Lemma Clean_remove k a timeout s k' c ts :
  Clean k a timeout s -> aget k' (calls s) = Some c ->
  (forall u, In u ts -> In u (timers s)) -> NoDup (map t_id ts) ->
  (forall u, In u (timers s) -> t_id u <> c_timer c -> t_key u = k -> In u ts) ->
  (k' = k -> forall u, In u ts -> t_id u <> c_timer c) ->
  Clean k a timeout (mkR (adel k' (calls s)) ts (next s) (now s)).
Proof.
  intros [H1 H2 H3 H4 H5 H6 H7] E Hsub Hnd Hkeep Hgone. constructor; cbn [calls timers next]; auto.
  - apply NoDup_akeys_adel, H1.
  - intros k2 c2 E2. apply aget_adel_Some in E2 as [E2 _]; eauto.
  - intros u Hu Hk. destruct (H5 u (Hsub u Hu) Hk) as (Ha & c0 & Ec & Et). split; [exact Ha|].
    destruct (eqb_ok k k') as [->|Hne].
    + exfalso. rewrite E in Ec. injection Ec as <-. apply (Hgone eq_refl u Hu). congruence.
    + exists c0. rewrite aget_adel_ne by exact Hne. auto.
  - intros c0 E0. apply aget_adel_Some in E0 as [E0 Hne]; [|exact H1]. destruct (H6 c0 E0) as (Ha & due & Hin). split; [exact Ha|].
    exists due. apply Hkeep; [exact Hin| |reflexivity]. cbn [t_id]. intros Ex. apply Hne.
    symmetry. rewrite <- (H7 k' c (mkTimer (c_timer c0) k a due) E Hin Ex). reflexivity.
  - intros k2 c2 u E2 Hu Hid. apply aget_adel_Some in E2 as [E2 _]; eauto.
Qed.

Lemma trigger_Clean k a timeout s k' a' o : Clean k a timeout s -> (k' = k -> a' = a) -> Clean k a timeout (fst (trigger s k' a' o)).
Proof.
  intros Hc Hcons. unfold trigger. destruct (aget k' (calls s)) as [c|] eqn:E; [|exact Hc].
  destruct (eqb_ok (c_action c) a') as [Eq|Hne]; cbn [negb fst].
  - apply (Clean_remove k a timeout s k' c _ Hc E).
    + intros u Hu. apply filter_In in Hu. tauto.
    + apply NoDup_map_filter, Hc.
    + intros u Hu Hid _. apply filter_In. split; [exact Hu|]. destruct (Nat.eqb_spec (t_id u) (c_timer c)); [congruence|reflexivity].
    + intros _ u Hu. apply filter_In in Hu as [_ Hu]. destruct (Nat.eqb_spec (t_id u) (c_timer c)); [discriminate|assumption].
  - assert (Hk : k' <> k). { intros ->. apply Hne. rewrite (Hcons eq_refl). apply (c_ct _ _ _ _ Hc c E). }
    apply (Clean_remove k a timeout s k' c _ Hc E); auto; try congruence. apply Hc.
Qed.

(** dropping a timer of a key that is not [k], or [k]'s own timer just before its call is removed *)
Lemma fire_Clean k a timeout s t : Clean k a timeout s -> In t (timers s) -> Clean k a timeout (fst (fire s t)).
Proof.
  intros Hc Hin. destruct (eqb_ok (t_key t) k) as [Ek|Hne].
  - destruct (c_tc _ _ _ _ Hc t Hin Ek) as (Ha & c & Ec & Et). unfold fire, trigger. cbn [calls timers next now].
    rewrite Ek, Ec. destruct (c_ct _ _ _ _ Hc c Ec) as [Hca _]. rewrite Hca, Ha, eqb_refl. cbn [negb fst].
    apply (Clean_remove k a timeout s k c _ Hc Ec).
    + intros u Hu. apply filter_In in Hu as [Hu _]. apply filter_In in Hu. tauto.
    + apply NoDup_map_filter, NoDup_map_filter, Hc.
    + intros u Hu Hid Hk. apply filter_In. split; [apply filter_In; split; [exact Hu|]|].
      * rewrite Et in Hid. destruct (Nat.eqb_spec (t_id u) (t_id t)); [congruence|reflexivity].
      * destruct (Nat.eqb_spec (t_id u) (c_timer c)); [congruence|reflexivity].
    + intros _ u Hu. apply filter_In in Hu as [_ Hu]. destruct (Nat.eqb_spec (t_id u) (c_timer c)); [discriminate|assumption].
  - unfold fire. apply trigger_Clean; [|congruence]. destruct Hc as [H1 H2 H3 H4 H5 H6 H7]. constructor; cbn [calls timers next]; auto.
    + apply NoDup_map_filter, H2.
    + intros u Hu. apply filter_In in Hu as [Hu _]. auto.
    + intros u Hu. apply filter_In in Hu as [Hu _]. auto.
    + intros c Ec. destruct (H6 c Ec) as (Ha & due & Hd). split; [exact Ha|]. exists due. apply filter_In. split; [exact Hd|].
      cbn [t_id]. destruct (Nat.eqb_spec (c_timer c) (t_id t)) as [Ex|]; [|reflexivity]. exfalso. apply Hne.
      assert (Ht : mkTimer (c_timer c) k a due = t) by (apply (NoDup_id_inj _ _ (timers s)); assumption). rewrite <- Ht. reflexivity.
    + intros k2 c2 u E2 Hu. apply filter_In in Hu as [Hu _]. eauto.
Qed.

(** timers only disappear during a batch *)
Lemma fire_timers s t u : In u (timers (fst (fire s t))) -> In u (timers s).
Proof.
  unfold fire, trigger. cbn [calls timers]. destruct (aget (t_key t) (calls s)) as [c|]; cbn [fst timers].
  - destruct (negb (eqb (c_action c) (t_action t))); cbn [fst timers]; intros H; apply filter_In in H as [H _]; [exact H|].
    apply filter_In in H. tauto.
  - intros H. apply filter_In in H. tauto.
Qed.

Lemma existsb_id t ts : existsb (fun u => (t_id u =? t_id t)%nat) ts = true <-> exists u, In u ts /\ t_id u = t_id t.
Proof.
  rewrite existsb_exists. split; intros (u & H1 & H2); exists u; split; try exact H1.
  - apply Nat.eqb_eq, H2.
  - apply Nat.eqb_eq, H2.
Qed.

(** the batch: [l] lists timers of the state the batch started in, all of whose
    ids still present are the same timers *)
Definition from (l : list timer) (s : rst) : Prop := forall t u, In t l -> In u (timers s) -> t_id u = t_id t -> u = t.

Lemma run_due_Clean k a timeout l : forall s, from l s -> Clean k a timeout s -> Clean k a timeout (fst (run_due s l)).
Proof.
  induction l as [|t l IH]; intros s Hf Hc; [exact Hc|]. cbn [run_due].
  destruct (existsb _ (timers s)) eqn:E.
  - apply existsb_id in E as (u & Hu & Eid). assert (u = t) by (eapply Hf; [left; reflexivity|exact Hu|exact Eid]). subst u.
    pose proof (fire_Clean k a timeout s t Hc Hu) as Hc'. pose proof (fire_timers s t) as Hsub.
    destruct (fire s t) as [s1 o1]. cbn [fst] in *.
    assert (Hf1 : from l s1) by (intros t' u' Ht' Hu'; apply Hf; [right; exact Ht'|apply Hsub, Hu']).
    specialize (IH s1 Hf1 Hc'). destruct (run_due s1 l). exact IH.
  - apply IH; [|exact Hc]. intros t' u' Ht'. apply Hf. right. exact Ht'.
Qed.

Lemma from_filter p s : NoDup (map t_id (timers s)) -> forall n, from (filter p (timers s)) (mkR (calls s) (timers s) (next s) n).
Proof.
  intros Hnd n t u Ht Hu E. cbn in Hu. apply filter_In in Ht as [Ht _]. eapply NoDup_id_inj; eauto.
Qed.

Lemma step_Clean k a timeout s ev : Clean k a timeout s -> consistent k a ev -> Clean k a timeout (fst (step timeout s ev)).
Proof.
  intros Hc Hcons. destruct ev as [k' a'|k' a' e|k' a' v|k' a' e|t]; cbn [step].
  - unfold add_call, ahas. destruct (aget k' (calls s)) as [c|] eqn:E; [exact Hc|]. cbn [fst].
    destruct Hc as [H1 H2 H3 H4 H5 H6 H7].
    constructor; cbn [calls timers next].
    + apply NoDup_akeys_aset, H1.
    + rewrite map_app. cbn [map t_id]. apply NoDup_snoc; [exact H2|]. intros Hin. apply in_map_iff in Hin as (u & Eu & Hu). apply H3 in Hu. lia.
    + intros u Hu. apply in_app_iff in Hu as [Hu|[<-|[]]]; [apply H3 in Hu; lia|cbn; lia].
    + intros k2 c2. rewrite aget_aset. destruct (eqb k2 k'); [intros [= <-]; cbn; split; [reflexivity|lia]|intros E2; destruct (H4 _ _ E2); split; [assumption|lia]].
    + intros u Hu Hk. rewrite aget_aset. apply in_app_iff in Hu as [Hu|[<-|[]]].
      * destruct (H5 u Hu Hk) as (Ha & c & Ec & Et). split; [exact Ha|]. destruct (eqb_ok k k') as [->|]; [congruence|]. eauto.
      * cbn [t_key t_action t_id] in *. subst k'. rewrite eqb_refl. split; [apply (Hcons k a' eq_refl eq_refl)|]. eexists. split; [reflexivity|reflexivity].
    + intros c. rewrite aget_aset. destruct (eqb_ok k k') as [->|Hne].
      * intros [= <-]. cbn [c_action c_timer]. pose proof (Hcons k' a' eq_refl eq_refl) as ->. split; [reflexivity|].
        eexists. apply in_app_iff. right. left. reflexivity.
      * intros Ec. destruct (H6 c Ec) as (Ha & due & Hd). split; [exact Ha|]. exists due. apply in_app_iff. auto.
    + intros k2 c2 u. rewrite aget_aset. destruct (eqb_ok k2 k') as [->|Hne].
      * intros [= <-] Hu Hid. cbn [c_timer] in Hid. apply in_app_iff in Hu as [Hu|[<-|[]]]; [apply H3 in Hu; lia|reflexivity].
      * intros E2 Hu Hid. apply in_app_iff in Hu as [Hu|[<-|[]]]; [eauto|].
        cbn [t_id] in Hid. destruct (H4 _ _ E2). lia.
  - apply trigger_Clean; [exact Hc|intros ->; exact (Hcons k a' eq_refl eq_refl)].
  - apply trigger_Clean; [exact Hc|intros ->; exact (Hcons k a' eq_refl eq_refl)].
  - destruct a'; try (apply trigger_Clean; [exact Hc|intros ->; exact (Hcons k _ eq_refl eq_refl)]). exact Hc.
  - destruct (t <? now s); [exact Hc|]. apply run_due_Clean; [apply from_filter, Hc|].
    destruct Hc as [H1 H2 H3 H4 H5 H6 H7]. constructor; auto.
Qed.

Lemma init_Clean k a timeout : Clean k a timeout init.
Proof. constructor; cbn; try constructor; intros; try discriminate; try contradiction. Qed.
Lemma final_Clean k a timeout evs : forall s, Clean k a timeout s -> Forall (consistent k a) evs -> Clean k a timeout (final timeout s evs).
Proof.
  induction evs as [|ev r IH]; intros s Hc H; [exact Hc|]. inversion H as [|? ? H1 H2]; subst. unfold final. cbn [fold_left].
  apply IH; [|exact H2]. apply step_Clean; assumption.
Qed.

(** the call is waiting, with its timer *)
Definition waiting (k : key) (a : action) (d : nat) (due : Z) (s : rst) : Prop :=
  aget k (calls s) = Some (mkCall a d d) /\ In (mkTimer d k a due) (timers s).

Lemma trigger_waiting k a timeout d due s k' a' o : Clean k a timeout s -> (k' = k -> a' = a) -> waiting k a d due s ->
  waiting k a d due (fst (trigger s k' a' o)) \/ (k' = k /\ In (Fired d o) (snd (trigger s k' a' o))).
Proof.
  intros Hc Hcons [Ec Ht]. unfold trigger. destruct (eqb_ok k' k) as [->|Hne].
  - rewrite Ec. cbn [c_action]. rewrite (Hcons eq_refl), eqb_refl. cbn. right. auto.
  - left. destruct (aget k' (calls s)) as [c|] eqn:E; [|split; assumption].
    destruct (negb _); cbn [fst]; split; cbn [calls timers]; try (rewrite aget_adel_ne by congruence; exact Ec); try exact Ht.
    apply filter_In. split; [exact Ht|]. cbn [t_id]. destruct (Nat.eqb_spec d (c_timer c)) as [Ex|]; [|reflexivity].
    exfalso. apply Hne. symmetry. exact (c_own _ _ _ _ Hc k' c (mkTimer d k a due) E Ht Ex).
Qed.

Lemma fire_waiting k a timeout d due s t : Clean k a timeout s -> In t (timers s) -> waiting k a d due s ->
  (t_id t <> d /\ waiting k a d due (fst (fire s t))) \/ (t = mkTimer d k a due /\ In (Fired d (Failed ECallbackTimeout)) (snd (fire s t))).
Proof.
  intros Hc Hin [Ec Ht]. destruct (Nat.eq_dec (t_id t) d) as [Ed|Hd].
  - right. assert (E : t = mkTimer d k a due). { symmetry. apply (NoDup_id_inj _ _ (timers s)); auto. apply Hc. }
    split; [exact E|]. rewrite E. unfold fire, trigger. cbn [calls t_key t_action]. rewrite Ec. cbn [c_action]. rewrite eqb_refl. cbn. auto.
  - left. split; [exact Hd|]. destruct (eqb_ok (t_key t) k) as [Ek|Hne].
    + exfalso. destruct (c_tc _ _ _ _ Hc t Hin Ek) as (_ & c & Ec' & Et). rewrite Ec in Ec'. injection Ec' as <-. cbn in Et. auto.
    + unfold fire, trigger. cbn [calls timers].
      assert (Hkeep : forall ts, In (mkTimer d k a due) ts -> forall n, n <> d -> In (mkTimer d k a due) (filter (fun u => negb (t_id u =? n)%nat) ts)).
      { intros ts Hts n Hn. apply filter_In. split; [exact Hts|]. cbn [t_id]. destruct (Nat.eqb_spec d n); [congruence|reflexivity]. }
      destruct (aget (t_key t) (calls s)) as [c|] eqn:E.
      * assert (Hcd : c_timer c <> d). { intros Ex. apply Hne. symmetry. exact (c_own _ _ _ _ Hc _ c (mkTimer d k a due) E Ht (eq_sym Ex)). }
        destruct (negb (eqb (c_action c) (t_action t))); cbn [fst]; (split; cbn [calls timers]; [rewrite aget_adel_ne by congruence; exact Ec|]).
        -- apply Hkeep; auto.
        -- apply Hkeep; [apply Hkeep; auto|auto].
      * cbn [fst]. split; cbn [calls timers]; [exact Ec|]. apply Hkeep; auto.
Qed.

Lemma run_due_waiting k a timeout d due l : forall s, from l s -> Clean k a timeout s -> waiting k a d due s ->
  (forall t, In t l -> t_id t <> d) -> waiting k a d due (fst (run_due s l)).
Proof.
  induction l as [|t l IH]; intros s Hf Hc Hw Hno; [exact Hw|]. cbn [run_due].
  destruct (existsb _ (timers s)) eqn:E.
  - apply existsb_id in E as (u & Hu & Eid). assert (u = t) by (eapply Hf; [left; reflexivity|exact Hu|exact Eid]). subst u.
    destruct (fire_waiting k a timeout d due s t Hc Hu Hw) as [[_ Hw']|[Et _]].
    + pose proof (fire_Clean k a timeout s t Hc Hu) as Hc'. pose proof (fire_timers s t) as Hsub.
      destruct (fire s t) as [s1 o1]. cbn [fst] in *.
      assert (Hf1 : from l s1) by (intros t' u' Ht' Hu'; apply Hf; [right; exact Ht'|apply Hsub, Hu']).
      assert (Hno1 : forall t', In t' l -> t_id t' <> d) by (intros t' Ht'; apply Hno; right; exact Ht').
      specialize (IH s1 Hf1 Hc' Hw' Hno1). destruct (run_due s1 l). exact IH.
    + exfalso. apply (Hno t (or_introl eq_refl)). rewrite Et. reflexivity.
  - apply IH; auto; [|intros t' Ht'; apply Hno; right; exact Ht']. intros t' u' Ht'. apply Hf. right. exact Ht'.
Qed.

Lemma run_due_fires k a timeout d due l : forall s, from l s -> Clean k a timeout s -> waiting k a d due s ->
  In (mkTimer d k a due) l -> In (Fired d (Failed ECallbackTimeout)) (snd (run_due s l)).
Proof.
  induction l as [|t l IH]; intros s Hf Hc Hw Hin; [destruct Hin|]. cbn [run_due].
  destruct (existsb _ (timers s)) eqn:E.
  - apply existsb_id in E as (u & Hu & Eid). assert (u = t) by (eapply Hf; [left; reflexivity|exact Hu|exact Eid]). subst u.
    destruct (fire_waiting k a timeout d due s t Hc Hu Hw) as [[Hd Hw']|[Et Hfd]].
    + pose proof (fire_Clean k a timeout s t Hc Hu) as Hc'. pose proof (fire_timers s t) as Hsub.
      destruct (fire s t) as [s1 o1]. cbn [fst] in *.
      assert (Hf1 : from l s1) by (intros t' u' Ht' Hu'; apply Hf; [right; exact Ht'|apply Hsub, Hu']).
      destruct Hin as [->|Hin]; [exfalso; apply Hd; reflexivity|].
      specialize (IH s1 Hf1 Hc' Hw' Hin). destruct (run_due s1 l). cbn [snd] in *. apply in_app_iff. auto.
    + destruct (fire s t) as [s1 o1]. destruct (run_due s1 l). cbn [snd] in *. apply in_app_iff. auto.
  - destruct Hin as [->|Hin].
    + exfalso. assert (Hx : existsb (fun u => (t_id u =? t_id (mkTimer d k a due))%nat) (timers s) = true); [|congruence].
      apply existsb_id. exists (mkTimer d k a due). split; [apply Hw|reflexivity].
    + apply IH; auto. intros t' u' Ht'. apply Hf. right. exact Ht'.
Qed.

Lemma step_waiting k a timeout d due s ev : Clean k a timeout s -> consistent k a ev -> waiting k a d due s ->
  (forall t, ev = Advance t -> t < due) ->
  waiting k a d due (fst (step timeout s ev)) \/ (exists o, In (Fired d o) (snd (step timeout s ev)) /\ exists k' a', carries ev = Some (k', a') /\ k' = k).
Proof.
  intros Hc Hcons Hw Hearly. destruct ev as [k' a'|k' a' e|k' a' v|k' a' e|t]; cbn [step].
  - left. unfold add_call, ahas. destruct (aget k' (calls s)) as [c|] eqn:E; [exact Hw|]. destruct Hw as [Ec Ht]. cbn [fst]. split; cbn [calls timers].
    + rewrite aget_aset. destruct (eqb_ok k k') as [->|]; [congruence|exact Ec].
    + apply in_app_iff. auto.
  - destruct (trigger_waiting k a timeout d due s k' a' (Failed e) Hc (fun E => Hcons k' a' eq_refl E) Hw) as [H|[-> H]]; [auto|right; cbn; eauto 6].
  - destruct (trigger_waiting k a timeout d due s k' a' (Value v) Hc (fun E => Hcons k' a' eq_refl E) Hw) as [H|[-> H]]; [auto|right; cbn; eauto 6].
  - destruct a'; try (left; exact Hw);
      match goal with |- context [trigger s k' ?b _] =>
        destruct (trigger_waiting k a timeout d due s k' b (Failed e) Hc (fun E => Hcons k' b eq_refl E) Hw) as [H|[-> H]]; [auto|right; cbn; eauto 6] end.
  - left. destruct (t <? now s); [exact Hw|]. apply (run_due_waiting k a timeout).
    + apply from_filter, Hc.
    + destruct Hc as [H1 H2 H3 H4 H5 H6 H7]; constructor; auto.
    + exact Hw.
    + intros u Hu Eid. apply filter_In in Hu as [Hu Hdue].
      assert (u = mkTimer d k a due) as -> by (apply (NoDup_id_inj _ _ (timers s)); [apply Hc|exact Hu|apply Hw|exact Eid]).
      cbn [t_due] in Hdue. specialize (Hearly t eq_refl). lia.
Qed.

Lemma now_run_due l : forall s, now (fst (run_due s l)) = now s.
Proof.
  induction l as [|t l IH]; intros s; [reflexivity|]. cbn [run_due]. destruct (existsb _ (timers s)); [|apply IH].
  destruct (fire s t) as [s1 o1] eqn:E. specialize (IH s1). destruct (run_due s1 l). cbn [fst] in *. rewrite IH.
  unfold fire, trigger in E. cbn [calls timers] in E. destruct (aget (t_key t) (calls s)) as [c|]; [destruct (negb _)|]; injection E as <- _; reflexivity.
Qed.
Lemma now_step timeout s ev : now (fst (step timeout s ev)) = match ev with Advance t => Z.max t (now s) | _ => now s end.
Proof.
  destruct ev as [k a|k a e|k a v|k a e|t]; cbn [step].
  - unfold add_call. destruct (ahas k (calls s)); reflexivity.
  - unfold trigger. destruct (aget k (calls s)) as [c|]; [destruct (negb _)|]; reflexivity.
  - unfold trigger. destruct (aget k (calls s)) as [c|]; [destruct (negb _)|]; reflexivity.
  - destruct a; try reflexivity; unfold trigger; destruct (aget k (calls s)) as [c|]; try destruct (negb _); reflexivity.
  - destruct (Z.ltb_spec t (now s)); [cbn; lia|]. rewrite now_run_due. cbn. lia.
Qed.

Lemma run_waiting k a timeout d due evs : forall s, Clean k a timeout s -> Forall (consistent k a) evs -> waiting k a d due s ->
  (forall t, In (Advance t) evs -> t < due) ->
  waiting k a d due (final timeout s evs) \/ exists ev o, In (ev, Fired d o) (log timeout s evs) /\ (forall t, ev <> Advance t).
Proof.
  induction evs as [|ev r IH]; intros s Hc Hcons Hw He; [left; exact Hw|]. inversion Hcons as [|? ? Hc1 Hc2]; subst.
  assert (He1 : forall t, ev = Advance t -> t < due) by (intros t ->; apply He; left; reflexivity).
  pose proof (step_Clean k a timeout s ev Hc Hc1) as Hcl.
  destruct (step_waiting k a timeout d due s ev Hc Hc1 Hw He1) as [Hw'|(o & Ho & k' & a' & Hev & _)].
  - specialize (IH _ Hcl Hc2 Hw' (fun t Ht => He t (or_intror Ht))). unfold final. cbn [fold_left log].
    destruct (step timeout s ev) as [s' o]. cbn [fst] in *. destruct IH as [IH|(ev' & o' & Hin & Hne)]; [left; exact IH|].
    right. exists ev', o'. split; [apply in_app_iff; auto|exact Hne].
  - right. exists ev, o. cbn [log]. destruct (step timeout s ev) as [s' os]. cbn [snd] in Ho. split.
    + apply in_app_iff. left. apply in_map, Ho.
    + intros t ->. discriminate.
Qed.

Lemma now_final timeout evs b : forall s, now s <= b -> (forall t, In (Advance t) evs -> t <= b) -> now (final timeout s evs) <= b.
Proof.
  induction evs as [|ev r IH]; intros s Hs H; [exact Hs|]. unfold final. cbn [fold_left]. apply IH.
  - rewrite now_step. destruct ev as [| | | |t]; try exact Hs. specialize (H t (or_introl eq_refl)). lia.
  - intros t Ht. apply H. right. exact Ht.
Qed.

(** the state right after the request *)
Lemma request_waiting timeout s k a d s' : step timeout s (Request k a) = (s', [Returned d]) -> waiting k a d (now s + timeout) s'.
Proof.
  cbn [step]. unfold add_call, ahas. destruct (aget k (calls s)) as [c|]; [discriminate|]. intros [= <- <-]. split; cbn [calls timers].
  - rewrite aget_aset, eqb_refl. reflexivity.
  - apply in_app_iff. right. left. reflexivity.
Qed.

Section Deadline.
Variables (timeout : Z) (evs1 evs2 : list event) (k : key) (a : action) (d : nat).
Let s1 := final timeout init evs1.
Let s2 := fst (step timeout s1 (Request k a)).
Let due := now s1 + timeout.

Theorem c26_deadline t :
  0 < timeout ->
  snd (step timeout s1 (Request k a)) = [Returned d] ->
  Forall (consistent k a) (evs1 ++ evs2) ->
  (forall t', In (Advance t') evs2 -> t' < due) ->
  ~ fires (log timeout s2 evs2) d ->
  due <= t ->
  In (Fired d (Failed ECallbackTimeout)) (snd (step timeout (final timeout s2 evs2) (Advance t))).
Proof.
  intros Hpos Hret Hcons Hearly Hnf Ht. apply Forall_app in Hcons as [Hc1 Hc2].
  assert (Hcl1 : Clean k a timeout s1) by (apply final_Clean; [apply init_Clean|exact Hc1]).
  assert (Hcl2 : Clean k a timeout s2). { apply step_Clean; [exact Hcl1|]. intros k' a' E _. cbn in E. congruence. }
  assert (Hw2 : waiting k a d due s2).
  { apply request_waiting. unfold s2. rewrite <- Hret. destruct (step timeout s1 (Request k a)). reflexivity. }
  destruct (run_waiting k a timeout d due evs2 s2 Hcl2 Hc2 Hw2 Hearly) as [Hw|(ev & o & Hin & _)]; [|exfalso; apply Hnf; exists ev, o; exact Hin].
  assert (Hcl : Clean k a timeout (final timeout s2 evs2)) by (apply final_Clean; assumption).
  assert (Hnow : now (final timeout s2 evs2) <= due).
  { apply now_final; [|intros t' H; specialize (Hearly t' H); lia]. unfold s2. rewrite now_step. unfold due. lia. }
  cbn [step]. destruct (Z.ltb_spec t (now (final timeout s2 evs2))); [lia|].
  eapply (run_due_fires k a timeout d due).
  - apply from_filter, Hcl.
  - destruct Hcl as [H1 H2 H3 H4 H5 H6 H7]; constructor; auto.
  - exact Hw.
  - apply filter_In. split; [apply Hw|]. cbn [t_due]. lia.
Qed.

Theorem c26_not_early ev o :
  snd (step timeout s1 (Request k a)) = [Returned d] ->
  Forall (consistent k a) (evs1 ++ evs2) ->
  (forall t', In (Advance t') evs2 -> t' < due) ->
  In (ev, Fired d o) (log timeout s2 evs2) -> forall t, ev <> Advance t.
Proof.
  intros Hret Hcons Hearly Hin. apply Forall_app in Hcons as [Hc1 Hc2].
  assert (Hcl1 : Clean k a timeout s1) by (apply final_Clean; [apply init_Clean|exact Hc1]).
  assert (Hcl2 : Clean k a timeout s2). { apply step_Clean; [exact Hcl1|]. intros k' a' E _. cbn in E. congruence. }
  assert (Hw2 : waiting k a d due s2).
  { apply request_waiting. unfold s2. rewrite <- Hret. destruct (step timeout s1 (Request k a)). reflexivity. }
  destruct (run_waiting k a timeout d due evs2 s2 Hcl2 Hc2 Hw2 Hearly) as [Hw|(ev' & o' & Hin' & Hne)].
  - exfalso. destruct (log_Inv timeout (evs1 ++ Request k a :: evs2)) as [I1 I2 I3 I4 I5 I6 I7].
    destruct Hw as [Ec _]. assert (Ef : final timeout init (evs1 ++ Request k a :: evs2) = final timeout s2 evs2).
    { unfold final. rewrite fold_left_app. reflexivity. }
    rewrite <- Ef in Ec. apply aget_In in Ec. apply I2 in Ec as [_ Hnf]. apply Hnf. cbn [c_deferred]. exists ev, o.
    rewrite log_app. cbn [log]. fold s1. unfold s2 in Hin. destruct (step timeout s1 (Request k a)) as [s0 o0]. cbn [fst] in Hin.
    apply in_app_iff. right. apply in_app_iff. right. exact Hin.
  - (* the deferred fires only once, so this is the same firing *)
    assert (Hsame : (ev, Fired d o) = (ev', Fired d o')).
    { pose proof (c25_once timeout (evs1 ++ Request k a :: evs2)) as Hnd. rewrite log_app in Hnd. cbn [log] in Hnd. fold s1 in Hnd.
      unfold s2 in Hin, Hin'. destruct (step timeout s1 (Request k a)) as [s0 o0]. cbn [fst] in Hin, Hin'.
      unfold fired_ids in Hnd. rewrite !flat_map_app in Hnd. apply NoDup_app_r in Hnd. apply NoDup_app_r in Hnd.
      fold (fired_ids (log timeout s0 evs2)) in Hnd. clear -Hnd Hin Hin'. revert Hnd Hin Hin'. generalize (log timeout s0 evs2) as l.
      induction l as [|x l IH]; intros Hnd Hin Hin'; [destruct Hin|]. unfold fired_ids in Hnd. cbn [flat_map] in Hnd. fold (fired_ids l) in Hnd.
      destruct Hin as [->|Hin], Hin' as [E'|Hin'].
      - exact E'.
      - exfalso. cbn [snd app] in Hnd. inversion Hnd as [|? ? Hn _]; subst. apply Hn. apply fires_ids. exists ev', o'. exact Hin'.
      - exfalso. subst x. cbn [snd app] in Hnd. inversion Hnd as [|? ? Hn _]; subst. apply Hn. apply fires_ids. exists ev, o. exact Hin.
      - apply IH; auto. apply NoDup_app_r in Hnd. exact Hnd. }
    injection Hsame as -> _. exact Hne.
Qed.
End Deadline.
