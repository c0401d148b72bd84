(** Proofs about the segments of connections: an invariant of the table of segments
    that holds however calls interleave. *)
From Verif Require Import Base BaseProofs ModelLabel ModelSTP ModelAuthz ModelNRM ModelState ModelLinkVector ModelProvreg ModelAggregator SpecAggInv ProofsAggInv ProofsAggTab SpecSegment.

(** [x] is an object for a stored row *)
Definition sheld (x : sub) (s : st) : Prop := exists r, aget (sb_key x) (t_subs s) = Some r /\ same_segment x r.
Record stab (s : st) : Prop := {
  sg_n : NoDup (akeys (t_subs s));
  sg_k : forall k x, aget k (t_subs s) = Some x -> sb_key x = k /\ (k < n_key s)%nat;
  sg_u : segments_apart s;
  sg_h : forall o x, aget o (h_subs s) = Some x -> sheld x s }.
Definition sourced (log : list call) (s : st) : Prop := forall k x, aget k (t_subs s) = Some x -> as_confirmed log x.
Definition slegal (log : list call) (a : act) (s : st) : Prop :=
  match a with
  | AInsertSub x => (forall k r, aget k (t_subs s) = Some r -> sb_provider r = sb_provider x -> sb_cid r <> sb_cid x) /\ as_confirmed log x
  | AWriteSub x | ALoadSub x | ASetSub _ x => sheld x s
  | _ => at_home s a
  end.
Lemma same_refl x : same_segment x x. Proof. repeat split. Qed.
Lemma same_trans x y z : same_segment x y -> same_segment y z -> same_segment x z.
Proof. unfold same_segment. intros (A1 & A2 & A3 & A4 & A5 & A6) (B1 & B2 & B3 & B4 & B5 & B6). repeat split; congruence. Qed.
Lemma same_sym x y : same_segment x y -> same_segment y x.
Proof. unfold same_segment. intros (A1 & A2 & A3 & A4 & A5 & A6). repeat split; congruence. Qed.
Lemma skeeps_refl s : keeps_segments s s. Proof. intros k x H. eauto using same_refl. Qed.
Lemma skeeps_trans s1 s2 s3 : keeps_segments s1 s2 -> keeps_segments s2 s3 -> keeps_segments s1 s3.
Proof. intros H1 H2 k x Hx. destruct (H1 _ _ Hx) as (y & Hy & E). destruct (H2 _ _ Hy) as (z & Hz & E'). eauto using same_trans. Qed.
Lemma sheld_later x s s' : sheld x s -> keeps_segments s s' -> sheld x s'.
Proof. intros (r & H1 & H2) K. destruct (K _ _ H1) as (r' & K1 & K2). exists r'. eauto using same_trans. Qed.
Lemma confirmed_same log x y : same_segment x y -> as_confirmed log x -> as_confirmed log y.
Proof. intros (A1 & A2 & A3 & A4 & A5 & A6) (h & H1 & H2). exists h. rewrite A3, A4, A5, A6. auto. Qed.
Lemma confirmed_more log log' x : incl log log' -> as_confirmed log x -> as_confirmed log' x.
Proof. intros H (h & H1 & H2). exists h. auto. Qed.
Lemma stab_same log s s' : t_subs s' = t_subs s -> (n_key s <= n_key s')%nat -> h_subs s' = h_subs s -> stab s -> sourced log s -> stab s' /\ sourced log s' /\ keeps_segments s s'.
Proof.
  intros E1 E2 E3 [N K U H] C. split; [constructor|split].
  - rewrite E1. exact N.
  - intros k c Hc. rewrite E1 in Hc. destruct (K k c Hc). split; [assumption|lia].
  - unfold segments_apart. rewrite E1. exact U.
  - intros o c Ho. rewrite E3 in Ho. destruct (H o c Ho) as (r & R). exists r. rewrite E1. exact R.
  - unfold sourced. rewrite E1. exact C.
  - intros k c Hc. exists c. rewrite E1. auto using same_refl.
Qed.
Lemma slegal_ok log a s : stab s -> sourced log s -> slegal log a s -> stab (do_act a s) /\ sourced log (do_act a s) /\ keeps_segments s (do_act a s).
Proof.
  intros T C L. destruct a; try (apply (stab_same log s); auto; destruct s; cbn; auto; fail).
  - (* a new row *)
    cbn [slegal] in L. destruct L as [L LC]. destruct T as [N K U H].
    assert (E1 : t_subs (do_act (AInsertSub x) s) = aset (n_key s) (sb_set_key (n_key s) x) (t_subs s)) by (destruct s; reflexivity).
    assert (E2 : n_key (do_act (AInsertSub x) s) = S (n_key s)) by (destruct s; reflexivity).
    assert (E3 : h_subs (do_act (AInsertSub x) s) = h_subs s) by (destruct s; reflexivity).
    assert (Q : same_segment x (sb_set_key (n_key s) x)) by (destruct x; repeat split).
    pose proof Q as (_ & _ & Q2 & Q3 & _ & _).
    assert (KP : keeps_segments s (do_act (AInsertSub x) s)).
    { intros k r Hr. exists r. rewrite E1, aget_aset. destruct (eqb_ok k (n_key s)) as [->|_]; [destruct (K _ _ Hr); lia|auto using same_refl]. }
    split; [constructor|split; [|exact KP]].
    + rewrite E1. apply NoDup_akeys_aset. exact N.
    + intros k r. rewrite E1, E2, aget_aset. destruct (eqb_ok k (n_key s)) as [->|_]; intros Hr; [injection Hr as <-; split; [destruct x; reflexivity|lia]|].
      destruct (K _ _ Hr). split; [assumption|lia].
    + intros k k' r r'. rewrite E1, !aget_aset. destruct (eqb_ok k (n_key s)) as [->|_], (eqb_ok k' (n_key s)) as [->|_]; intros Hr Hr' P E; try reflexivity.
      * injection Hr as <-. destruct (L _ _ Hr'); congruence.
      * injection Hr' as <-. destruct (L _ _ Hr); congruence.
      * eapply U; eauto.
    + intros o y Ho. rewrite E3 in Ho. eapply sheld_later; eauto.
    + intros k r. rewrite E1, aget_aset. destruct (eqb k (n_key s)); intros Hr; [injection Hr as <-; eapply confirmed_same; eauto|eapply C; eauto].
  - (* a row written *)
    cbn [slegal] in L. pose proof T as [N K U H]. destruct L as (r0 & L1 & L2). pose proof L2 as (_ & _ & L3 & L4 & _ & _).
    assert (E1 : t_subs (do_act (AWriteSub x) s) = aset (sb_key x) x (t_subs s)) by (destruct s; reflexivity).
    assert (E2 : n_key (do_act (AWriteSub x) s) = n_key s) by (destruct s; reflexivity).
    assert (E3 : h_subs (do_act (AWriteSub x) s) = h_subs s) by (destruct s; reflexivity).
    assert (KP : keeps_segments s (do_act (AWriteSub x) s)).
    { intros k r Hr. rewrite E1, aget_aset. destruct (eqb_ok k (sb_key x)) as [->|_]; [|eauto using same_refl]. exists x. assert (r = r0) by congruence. subst. auto using same_sym. }
    split; [constructor|split; [|exact KP]].
    + rewrite E1. apply NoDup_akeys_aset. exact N.
    + intros k r. rewrite E1, E2, aget_aset. destruct (eqb_ok k (sb_key x)) as [->|_]; intros Hr; [injection Hr as <-; split; [reflexivity|apply (K _ _ L1)]|apply K, Hr].
    + intros k k' r r'. rewrite E1, !aget_aset. destruct (eqb_ok k (sb_key x)) as [->|_], (eqb_ok k' (sb_key x)) as [->|_]; intros Hr Hr' P E; try reflexivity.
      * injection Hr as <-. eapply U; eauto; congruence.
      * injection Hr' as <-. eapply U; eauto; congruence.
      * eapply U; eauto.
    + intros o y Ho. rewrite E3 in Ho. eapply sheld_later; eauto.
    + intros k r. rewrite E1, aget_aset. destruct (eqb k (sb_key x)); intros Hr; [injection Hr as <-; eapply confirmed_same; [apply same_sym; exact L2|eapply C; eauto]|eapply C; eauto].
  - (* an object made *)
    cbn [slegal] in L. destruct T as [N K U H].
    assert (E1 : t_subs (do_act (ALoadSub x) s) = t_subs s) by (destruct s; reflexivity).
    assert (E2 : n_key (do_act (ALoadSub x) s) = n_key s) by (destruct s; reflexivity).
    assert (E3 : h_subs (do_act (ALoadSub x) s) = aset (n_obj s) x (h_subs s)) by (destruct s; reflexivity).
    split; [constructor|split; [unfold sourced; rewrite E1; exact C|intros k r Hr; exists r; rewrite E1; auto using same_refl]]; unfold segments_apart; rewrite ?E1, ?E2; auto.
    intros o y. rewrite E3, aget_aset. unfold sheld. rewrite E1. destruct (eqb_ok o (n_obj s)) as [->|_]; intros Ho; [injection Ho as <-; exact L|apply (H o y Ho)].
  - (* an object changed *)
    cbn [slegal] in L. destruct T as [N K U H].
    assert (E1 : t_subs (do_act (ASetSub o x) s) = t_subs s) by (destruct s; reflexivity).
    assert (E2 : n_key (do_act (ASetSub o x) s) = n_key s) by (destruct s; reflexivity).
    assert (E3 : h_subs (do_act (ASetSub o x) s) = aset o x (h_subs s)) by (destruct s; reflexivity).
    split; [constructor|split; [unfold sourced; rewrite E1; exact C|intros k r Hr; exists r; rewrite E1; auto using same_refl]]; unfold segments_apart; rewrite ?E1, ?E2; auto.
    intros o' y. rewrite E3, aget_aset. unfold sheld. rewrite E1. destruct (eqb_ok o' o) as [->|_]; intros Ho; [injection Ho as <-; exact L|apply (H o' y Ho)].
Qed.

(** * Programs *)
Fixpoint ssafe {A} (log : list call) (Post : A -> st -> Prop) (p : prog A) (s : st) : Prop :=
  match p with
  | Ret a => Post a s
  | Throw _ => True
  | Get k => stab s -> ssafe log Post (k s) s
  | Do a k => slegal log a s /\ (keeps_segments s (do_act a s) -> ssafe log Post k (do_act a s))
  | Await w k => forall x s', keeps_segments s s' -> ssafe log Post (k x) s'
  end.
Lemma ssafe_more {A} log log' (Post : A -> st -> Prop) (p : prog A) : incl log log' -> forall s, ssafe log Post p s -> ssafe log' Post p s.
Proof.
  intros HL. induction p as [a|e|k IH|a k IH|w k IH]; intros s H; cbn [ssafe] in H |- *; auto.
  destruct H as [H1 H2]. split; [|auto]. destruct a; try exact H1. destruct H1 as [H1 H3]. split; [exact H1|]. eapply confirmed_more; eauto.
Qed.
Section Log.
Context (log : list call).
Lemma ssafe_bind {A B} (Post : B -> st -> Prop) (p : prog A) (f : A -> prog B) : forall s, ssafe log (fun a s' => ssafe log Post (f a) s') p s -> ssafe log Post (bind p f) s.
Proof. induction p as [a|e|k IH|a k IH|w k IH]; intros s H; cbn [ssafe bind] in H |- *; auto. destruct H as [H1 H2]. split; auto. Qed.
Lemma ssafe_mono {A} (Post Post' : A -> st -> Prop) (p : prog A) : forall s, ssafe log Post p s -> (forall a s', keeps_segments s s' -> Post a s' -> Post' a s') -> ssafe log Post' p s.
Proof.
  induction p as [a|e|k IH|a k IH|w k IH]; intros s H HP; cbn [ssafe] in H |- *; auto.
  - apply HP; [apply skeeps_refl|exact H].
  - destruct H as [H1 H2]. split; [exact H1|]. intros K. apply IH; [auto|]. intros b s' K' HB. apply HP; [eapply skeeps_trans; eauto|exact HB].
  - intros x s' K. apply IH; [auto|]. intros b s2 K' HB. apply HP; [eapply skeeps_trans; eauto|exact HB].
Qed.
Definition sany {A} (p : prog A) : Prop := forall s, ssafe log (fun _ _ => True) p s.
Lemma sany_bind {A B} (p : prog A) (f : A -> prog B) : sany p -> (forall a, sany (f a)) -> sany (bind p f).
Proof. intros H1 H2 s. apply ssafe_bind. eapply ssafe_mono; [apply H1|]. intros a s' _ _. apply H2. Qed.
Lemma sany_ret {A} (a : A) : sany (Ret a). Proof. intros s. exact I. Qed.
Lemma sany_throw {A} e : sany (@Throw A e). Proof. intros s. exact I. Qed.
Lemma sany_get : sany get. Proof. intros s _. exact I. Qed.
Lemma sany_lift {A} (r : result A) : sany (lift r). Proof. intros s. destruct r; exact I. Qed.
Definition off_segments (a : act) : Prop :=
  match a with AInsertSub _ | AWriteSub _ | ALoadSub _ | ASetSub _ _ => False | AOut (ODown _ _ b) => concerns b = None | _ => True end.
Lemma sany_act a : off_segments a -> sany (act1 a).
Proof. intros H s. cbn [act1 ssafe]. split; [destruct a; try contradiction; try exact I|auto]. destruct x; try exact I. intros c E. cbn in H. congruence. Qed.
Lemma sany_await w : sany (await w). Proof. intros s x s' _. destruct x; exact I. Qed.
Lemma sany_await_id : sany await_id. Proof. intros s x s' _. destruct x; exact I. Qed.
Lemma sany_await_acks n : sany (await_acks n). Proof. intros s x s' _. destruct x; exact I. Qed.
Lemma sany_mapP {A B} (f : A -> prog B) l : (forall a, sany (f a)) -> sany (mapP f l).
Proof. intros H. induction l as [|x l IH]; cbn [mapP]; [apply sany_ret|]. apply sany_bind; [apply H|]. intros y. apply sany_bind; [exact IH|]. intros ys. apply sany_ret. Qed.
Lemma sany_iterP {A} (f : A -> prog unit) l : (forall a, sany (f a)) -> sany (iterP f l).
Proof. intros H. induction l as [|x l IH]; cbn [iterP]; [apply sany_ret|]. apply sany_bind; [apply H|]. intros _. exact IH. Qed.
Lemma ssafe_sub_obj o s (Post : sub -> st -> Prop) : (forall x, sheld x s -> Post x s) -> ssafe log Post (sub_obj o) s.
Proof. intros H. unfold sub_obj. apply ssafe_bind. intros T. cbn [ssafe]. destruct (aget o (h_subs s)) as [x|] eqn:E; [|exact I]. apply H. eapply sg_h; eauto. Qed.
(** programs that have read the object of a row *)
Definition shaving {A} (x : sub) (p : prog A) : Prop := forall s, sheld x s -> ssafe log (fun _ _ => True) p s.
Lemma shaving_any {A} x (p : prog A) : sany p -> shaving x p. Proof. intros H s _. apply H. Qed.
Lemma shaving_bind {A B} x (p : prog A) (f : A -> prog B) : shaving x p -> (forall a, shaving x (f a)) -> shaving x (bind p f).
Proof. intros H1 H2 s H. apply ssafe_bind. eapply ssafe_mono; [apply H1, H|]. intros a s' K _. apply H2. eapply sheld_later; eauto. Qed.
Lemma sany_bind_obj {B} o (f : sub -> prog B) : (forall x, shaving x (f x)) -> sany (bind (sub_obj o) f).
Proof. intros H s. apply ssafe_bind, ssafe_sub_obj. intros x Hx. apply H, Hx. Qed.
Lemma sany_sub_obj o : sany (sub_obj o). Proof. intros s. apply ssafe_sub_obj. auto. Qed.
Lemma shaving_down x p h b : (forall c, concerns b = Some c -> c = sb_cid x) -> hd_provider h = sb_provider x -> shaving x (out (ODown p h b)).
Proof.
  intros E1 E2 s (r & H1 & _ & _ & H3 & H4 & _). cbn [out act1 ssafe slegal at_home]. split; [|auto]. intros c E. apply E1 in E. exists (sb_key x), r. repeat split; congruence.
Qed.
Lemma shaving_set_states x o y : shaving x (act1 (ASetSub o (sb_set_states y x))).
Proof. intros s H. cbn [act1 ssafe slegal]. split; [destruct x; exact H|auto]. Qed.
Lemma shaving_set_dp x o a v k : shaving x (act1 (ASetSub o (sb_set_dp a v k x))).
Proof. intros s H. cbn [act1 ssafe slegal]. split; [destruct x; exact H|auto]. Qed.
Lemma shaving_write x : shaving x (act1 (AWriteSub x)).
Proof. intros s H. cbn [act1 ssafe slegal]. auto. Qed.
Lemma find_sheld p c s x : stab s -> find_sub p c s = Some x -> sheld x s.
Proof.
  intros T F. unfold find_sub in F. apply find_some in F. destruct F as [F _]. apply in_map_iff in F. destruct F as ([k c'] & E & F). cbn in E. subst c'.
  pose proof (In_aget _ _ _ (sg_n _ T) F) as A. destruct (sg_k _ T _ _ A) as [<- _]. exists x. auto using same_refl.
Qed.
Lemma sany_fetch p c : sany (fetch_sub p c).
Proof.
  intros s. unfold fetch_sub. apply ssafe_bind. intros a s1 K1. destruct a; try exact I. cbn [ssafe]. apply ssafe_bind. intros T1. cbn [ssafe].
  destruct (find_sub p c s1) as [x|] eqn:F; [|apply ssafe_bind; intros a s2 K2; destruct a; exact I].
  pose proof (find_sheld _ _ _ _ T1 F) as H1. apply ssafe_bind. intros a s2 K2. destruct a; try exact I. cbn [ssafe]. apply ssafe_bind. intros T2. cbn [ssafe]. apply ssafe_bind. cbn [act1 ssafe].
  split; [eapply sheld_later; eauto|]. intros _. exact I.
Qed.
Lemma sany_insert x : as_confirmed log x -> sany (insert_sub x).
Proof.
  intros HC s. unfold insert_sub. apply ssafe_bind. intros a s1 K1. destruct a; try exact I. cbn [ssafe]. apply ssafe_bind. intros T1. cbn [ssafe].
  destruct (find_sub (sb_provider x) (sb_cid x) s1) as [r|] eqn:F; [exact I|]. apply ssafe_bind. cbn [act1 ssafe]. split.
  - split; [|exact HC]. intros k r Hr E1 E2. unfold find_sub in F. apply aget_In in Hr. apply (in_map snd) in Hr.
    pose proof (find_none _ _ F r Hr) as X. cbn in X. rewrite E1, E2, !eqb_refl in X. discriminate.
  - intros _. apply sany_await.
Qed.
End Log.
Ltac seg1 :=
  match goal with
  | |- forall _, _ => intro
  | |- sany _ (bind (sub_obj _) _) => apply sany_bind_obj
  | |- shaving _ _ (bind (sub_obj _) _) => apply shaving_any
  | |- shaving _ _ (bind _ _) => apply shaving_bind
  | |- shaving _ ?x (out (ODown _ _ _)) => apply shaving_down; [cbn; congruence|reflexivity]
  | |- shaving _ ?x (act1 (ASetSub _ (sb_set_states _ ?x))) => apply shaving_set_states
  | |- shaving _ ?x (act1 (ASetSub _ (sb_set_dp _ _ _ ?x))) => apply shaving_set_dp
  | |- shaving _ ?x (act1 (AWriteSub ?x)) => apply shaving_write
  | |- shaving _ _ (match ?x with _ => _ end) => destruct x
  | |- shaving _ _ _ => apply shaving_any
  | |- sany _ (bind _ _) => apply sany_bind
  | |- sany _ get => apply sany_get
  | |- sany _ (lift _) => apply sany_lift
  | |- sany _ (Ret _) => apply sany_ret
  | |- sany _ (Throw _) => apply sany_throw
  | |- sany _ (throw _) => apply sany_throw
  | |- sany _ (act1 _) => apply sany_act; first [exact I|reflexivity]
  | |- sany _ (out _) => apply sany_act; first [exact I|reflexivity]
  | |- sany _ (up _ _) => apply sany_act; exact I
  | |- sany _ (await _) => apply sany_await
  | |- sany _ await_id => apply sany_await_id
  | |- sany _ (await_acks _) => apply sany_await_acks
  | |- sany _ (mapP _ _) => apply sany_mapP
  | |- sany _ (iterP _ []) => cbn [iterP]
  | |- sany _ (iterP _ (_ :: _)) => cbn [iterP]
  | |- sany _ (iterP _ _) => apply sany_iterP
  | |- sany _ (sub_obj _) => apply sany_sub_obj
  | |- sany _ (fetch_sub _ _) => apply sany_fetch
  | |- sany _ (match ?x with _ => _ end) => destruct x
  | |- sany _ (?f _ _ _ _ _ _ _ _) => unfold f
  | |- sany _ (?f _ _ _ _ _ _) => unfold f
  | |- sany _ (?f _ _ _ _ _) => unfold f
  | |- sany _ (?f _ _ _ _) => unfold f
  | |- sany _ (?f _ _ _) => unfold f
  | |- sany _ (?f _ _) => unfold f
  | |- sany _ (?f _) => unfold f
  | |- sany _ ?f => unfold f
  end.
Lemma sany_confirmed g h cid a b log : In (CReserveConfirmed h cid a b) log -> sany log (reserve_confirmed g h cid a b).
Proof.
  intros HI. unfold reserve_confirmed. apply sany_bind; [apply sany_get|intros s0]. intros s. apply ssafe_bind.
  destruct (known_reservation h s0) as [i|e] eqn:E; [|exact I]. cbn [lift ssafe].
  assert (EP : hd_provider h = ri_provider i).
  { unfold known_reservation in E. destruct (aget (hd_corr h) (resvs s0)) as [i'|]; [|discriminate]. destruct (eqb_ok (hd_provider h) (ri_provider i')) as [EE|]; [|discriminate]. injection E as <-. exact EE. }
  match goal with |- ssafe _ _ ?p ?s => assert (X : sany log p); [|exact (X s)] end.
  apply sany_bind; [repeat seg1|intros _]. apply sany_bind; [apply sany_insert; exists h; auto|intros _]. repeat seg1.
Qed.
Lemma sany_call g c log : In c log -> sany log (call_prog g c).
Proof. intros HI. destruct c; cbn [call_prog]; first [apply sany_confirmed; exact HI|repeat seg1]. Qed.

(** * Runs *)
Definition tasks_ok (m : mach) : Prop := forall i w k, aget i (m_tasks m) = Some (w, k) -> forall x s', keeps_segments (m_st m) s' -> ssafe (m_log m) (fun _ _ => True) (k x) s'.
Definition ssound (m : mach) : Prop := stab (m_st m) /\ sourced (m_log m) (m_st m) /\ tasks_ok m.
Lemma advance_ssafe log pr (p : prog string) : forall s, stab s -> sourced log s -> ssafe log (fun _ _ => True) p s ->
  (stab (snd (advance pr p s)) /\ sourced log (snd (advance pr p s)) /\ keeps_segments s (snd (advance pr p s))) /\
  (forall w k, fst (advance pr p s) = Waits w k -> forall x s', keeps_segments (snd (advance pr p s)) s' -> ssafe log (fun _ _ => True) (k x) s') /\
  forall t a, In (t, a) (steps pr p s) -> at_home t a.
Proof.
  induction p as [a|e|k IH|a k IH|w k IH]; intros s T C H; cbn [advance ssafe steps] in *.
  - split; [split; [exact T|split; [exact C|apply skeeps_refl]]|]. split; [discriminate|contradiction].
  - split; [split; [exact T|split; [exact C|apply skeeps_refl]]|]. split; [discriminate|contradiction].
  - apply IH; auto.
  - destruct H as [L H]. destruct (slegal_ok log a s T C L) as (T' & C' & K). destruct (IH _ T' C' (H K)) as ((A1 & A2 & A3) & B & D). split; [split; [exact A1|split; [exact A2|eapply skeeps_trans; eauto]]|].
    split; [exact B|]. intros t b [E|E]; [|eauto]. injection E as <- <-. destruct a; try exact I. exact L.
  - assert (W : forall w', (stab s /\ sourced log s /\ keeps_segments s s) /\ (forall w0 k0, @Waits string w' k = Waits w0 k0 -> forall x s', keeps_segments s s' -> ssafe log (fun _ _ => True) (k0 x) s') /\
      forall t a, In (t, a) (@nil (st * act)) -> at_home t a).
    { intros w'. split; [split; [exact T|split; [exact C|apply skeeps_refl]]|]. split; [|contradiction]. intros w0 k0 [= _ <-]. exact H. }
    destruct w; try exact (W _). destruct pr; [|exact (W _)]. apply IH; auto using skeeps_refl.
Qed.
Lemma record_ssafe i pr p s m : stab s -> sourced (m_log m) s -> ssafe (m_log m) (fun _ _ => True) p s -> keeps_segments (m_st m) s -> tasks_ok m ->
  ssound (record i (advance pr p s) m) /\ keeps_segments (m_st m) (m_st (record i (advance pr p s) m)).
Proof.
  intros T C H K HT. destruct (advance_ssafe (m_log m) pr p s T C H) as ((A1 & A2 & A3) & B & _). assert (K2 : keeps_segments (m_st m) (snd (advance pr p s))) by (eapply skeeps_trans; eauto).
  unfold record. destruct (advance pr p s) as [[a|e|w k] s1]; cbn [fst snd] in *; (split; [split; [exact A1|split; [exact A2|]]|exact K2]); intros j w' k' E x s' K'; cbn [m_tasks m_st m_log] in *.
  - eapply HT; [exact E|]. eapply skeeps_trans; eauto.
  - eapply HT; [exact E|]. eapply skeeps_trans; eauto.
  - rewrite aget_aset in E. destruct (eqb j i); [injection E as <- <-; eapply B; eauto|]. eapply HT; [exact E|]. eapply skeeps_trans; eauto.
Qed.
Lemma mstep_ssafe g pr m e : mfresh m -> ssound m -> ssound (mstep g pr m e) /\ keeps_segments (m_st m) (m_st (mstep g pr m e)).
Proof.
  intros F (T & C & H). destruct e as [c|i a|reg rv|reg rv]; cbn [mstep].
  - assert (HI : incl (m_log m) (m_log m ++ [c])) by (intros y Hy; apply in_or_app; auto).
    apply (record_ssafe (m_next m) pr (call_prog g c) (m_st m) (mkMach (m_st m) (m_tasks m) (S (m_next m)) (m_done m) (m_log m ++ [c]))); cbn [m_st m_log]; auto using skeeps_refl.
    + intros k x Hx. eapply confirmed_more; eauto.
    + apply sany_call, in_or_app. cbn. auto.
    + intros i w k E x s' K. cbn [m_st m_log m_tasks] in *. eapply ssafe_more; [exact HI|]. eapply H; eauto.
  - destruct (aget i (m_tasks m)) as [[w k]|] eqn:E; [|split; [split; auto|apply skeeps_refl]]. destruct (answers w a); [|split; [split; auto|apply skeeps_refl]].
    apply (record_ssafe i pr (k a) (m_st m) (mkMach (m_st m) (adel i (m_tasks m)) (m_next m) (m_done m) (m_log m))); cbn [m_st m_log]; auto using skeeps_refl; [eapply H; eauto using skeeps_refl|].
    intros j w' k' Ej x s' K. cbn [m_st m_log m_tasks] in *. destruct (Nat.eq_dec j i) as [->|N]; [rewrite aget_adel_eq in Ej; [discriminate|apply F]|rewrite aget_adel_ne in Ej by auto; eapply H; eauto].
  - assert (X : stab (set_topology reg rv (m_st m)) /\ sourced (m_log m) (set_topology reg rv (m_st m)) /\ keeps_segments (m_st m) (set_topology reg rv (m_st m))) by (apply stab_same; auto; destruct (m_st m); cbn; auto).
    destruct X as (X1 & X2 & X3). split; [split; [exact X1|split; [exact X2|]]|exact X3]. intros i w k E x s' K. exact (H i w k E x s' (skeeps_trans _ _ _ X3 K)).
  - destruct T as [N K U HH]. split; [split; [constructor; cbn; auto; discriminate|split; [exact C|intros i w k; cbn; discriminate]]|]. intros k x Hx. exists x. cbn. auto using same_refl.
Qed.
Lemma mrun_ssafe g pr l : forall m, mfresh m -> ssound m -> mfresh (mrun g pr m l) /\ ssound (mrun g pr m l) /\ keeps_segments (m_st m) (m_st (mrun g pr m l)).
Proof.
  induction l as [|e l IH]; intros m F H; [split; [exact F|split; [exact H|apply skeeps_refl]]|]. destruct (mstep_ssafe g pr m e F H) as [H1 K1].
  destruct (IH (mstep g pr m e) (mstep_fresh g pr m e F) H1) as (F2 & H2 & K2). split; [exact F2|]. split; [exact H2|eapply skeeps_trans; eauto].
Qed.
Lemma sinit reg rv : mfresh (minit reg rv) /\ ssound (minit reg rv).
Proof. split; [split; [constructor|contradiction]|]. split; [constructor; cbn; try discriminate; constructor|]. split; [intros k x; cbn; discriminate|intros i w k; cbn; discriminate]. Qed.
Lemma sreach g pr reg rv l : mfresh (mrun g pr (minit reg rv) l) /\ ssound (mrun g pr (minit reg rv) l).
Proof. destruct (sinit reg rv) as [F H]. destruct (mrun_ssafe g pr l _ F H) as (F1 & H1 & _). auto. Qed.
Lemma skept g pr reg rv l l' : keeps_segments (m_st (mrun g pr (minit reg rv) l)) (m_st (mrun g pr (mrun g pr (minit reg rv) l) l')).
Proof. destruct (sreach g pr reg rv l) as [F H]. apply (mrun_ssafe g pr l' _ F H). Qed.
Lemma home_step g pr reg rv l e t a : In (t, a) (step_acts g pr (mrun g pr (minit reg rv) l) e) -> at_home t a.
Proof.
  destruct (sreach g pr reg rv l) as [F (T & C & H)]. unfold step_acts. destruct e as [c|i x|r v|r v]; try contradiction.
  - assert (HI : incl (m_log (mrun g pr (minit reg rv) l)) (m_log (mrun g pr (minit reg rv) l) ++ [c])) by (intros y Hy; apply in_or_app; auto).
    eapply (advance_ssafe (m_log (mrun g pr (minit reg rv) l) ++ [c])); [exact T|intros k x Hx; eapply confirmed_more; eauto|apply sany_call, in_or_app; cbn; auto].
  - destruct (aget i _) as [[w k]|] eqn:E; [|contradiction]. destruct (answers w x); [|contradiction]. eapply advance_ssafe; [exact T|exact C|]. eapply H; eauto using skeeps_refl.
Qed.
