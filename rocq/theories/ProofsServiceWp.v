(** A program logic for the aggregator's methods among others, whether or not the
    database answers at once: [J0] holds after every act, [J] at every wait, and
    [R] relates earlier to later states. *)
From Verif Require Import Base BaseProofs ModelLabel ModelSTP ModelAuthz ModelNRM ModelState ModelLinkVector ModelProvreg ModelAggregator SpecAggInv.

Lemma In_aset {K V} `{EqB K} (k k' : K) (v v' : V) d : In (k, v) (aset k' v' d) -> (k = k' /\ v = v') \/ In (k, v) d.
Proof.
  induction d as [|[a b] d IH]; cbn; [intros [[= <- <-]|[]]; auto|].
  destruct (eqb k' a) eqn:E.
  - apply (proj1 (eqb_true k' a)) in E. intros [[= <- <-]|HI]; [left; auto|right; right; exact HI].
  - intros [HI|HI]; [right; left; exact HI|]. destruct (IH HI); auto.
Qed.
Lemma In_adel {K V} `{EqB K} (k k' : K) (v : V) d : In (k, v) (adel k' d) -> In (k, v) d.
Proof.
  induction d as [|[a b] d IH]; cbn; [auto|]. destruct (eqb k' a); cbn; intros HI; [auto|]. destruct HI; auto.
Qed.

Section Wp.
Variables (J0 J : st -> Prop) (R : st -> st -> Prop).
Fixpoint wp {A} (p : prog A) (Q : A -> st -> Prop) (E : st -> Prop) (s : st) : Prop :=
  match p with
  | Ret a => Q a s
  | Throw e => E s
  | Get k => wp (k s) Q E s
  | Do a k => R s (do_act a s) /\ J0 (do_act a s) /\ wp k Q E (do_act a s)
  | Await w k => J s /\ forall x s', R s s' -> J s' -> wp (k x) Q E s'
  end.
Lemma wp_mono {A} (p : prog A) : forall (Q Q' : A -> st -> Prop) (E E' : st -> Prop) s,
  (forall a s', Q a s' -> Q' a s') -> (forall s', E s' -> E' s') -> wp p Q E s -> wp p Q' E' s.
Proof.
  induction p as [a|e|k IH|f k IH|w k IH]; cbn; intros Q Q' E E' s HQ HE H; auto.
  - eapply IH; eauto.
  - destruct H as (H1 & H2 & H3). split; [exact H1|]. split; [exact H2|]. eapply IH; eauto.
  - destruct H as [H1 H2]. split; [exact H1|]. intros x s' Hr Hj. eapply IH; eauto.
Qed.
Lemma wp_bind {A B} (p : prog A) (f : A -> prog B) : forall Q E s,
  wp p (fun a s' => wp (f a) Q E s') E s -> wp (bind p f) Q E s.
Proof.
  induction p as [a|e|k IH|g k IH|w k IH]; cbn; intros Q E s; try tauto; auto.
  - intros (H1 & H2 & H3). auto.
  - intros [H1 H2]. split; [exact H1|]. auto.
Qed.
Hypothesis Rrefl : forall s, R s s.
Hypothesis Rtrans : forall a b c, R a b -> R b c -> R a c.
Hypothesis J_0 : forall s, J s -> J0 s.

Definition waiting (s : st) (k : ans -> prog string) : Prop :=
  forall x s', R s s' -> J s' -> wp (k x) (fun _ => J) J s'.
Lemma waiting_R s s1 k : R s s1 -> waiting s k -> waiting s1 k.
Proof. intros H W x s' Hr Hj. apply W; eauto. Qed.
Lemma wp_advance pr (p : prog string) : forall s, J0 s -> wp p (fun _ => J) J s ->
  let '(r, s') := advance pr p s in
  R s s' /\ J s' /\ (forall w k, r = Waits w k -> waiting s' k) /\ (forall s1 a, In (s1, a) (steps pr p s) -> J0 s1).
Proof.
  induction p as [a|e|k IH|g k IH|w k IH]; intros s H0 H; cbn in H |- *.
  - repeat split; auto; [discriminate|contradiction].
  - repeat split; auto; [discriminate|contradiction].
  - apply IH; auto.
  - destruct H as (H1 & H2 & H3). specialize (IH _ H2 H3). destruct (advance pr k (do_act g s)) as [r s']. destruct IH as (I1 & I2 & I3 & I4).
    split; [eauto|]. split; [exact I2|]. split; [exact I3|]. intros s1 a [[= <- <-]|HI]; [exact H0|]. eapply I4; eauto.
  - destruct H as [H1 H2].
    assert (D : (w = WDb /\ pr = true) \/ (match w, pr with WDb, true => advance pr (k AnsOk) s | _, _ => (Waits w k, s) end = (Waits w k, s) /\
      match w, pr with WDb, true => steps pr (k AnsOk) s | _, _ => [] end = [])) by (destruct w, pr; auto).
    destruct D as [[-> ->]|[-> ->]].
    + apply IH; auto.
    + split; [apply Rrefl|]. split; [exact H1|]. split; [|intros ? ? []]. intros w0 k0 [= <- <-]. exact H2.
Qed.

(** * Triples *)
Definition triple {A} (p : prog A) (s : st) (Q : A -> st -> Prop) : Prop :=
  wp p (fun a s' => J s' /\ R s s' /\ Q a s') (fun s' => J s' /\ R s s') s.
Lemma t_wp (p : prog string) s Q : triple p s Q -> wp p (fun _ => J) J s.
Proof. intros H. eapply wp_mono; [| |exact H]; cbn; intuition. Qed.
Lemma t_mono {A} (p : prog A) s (Q Q' : A -> st -> Prop) : (forall a s', J s' -> R s s' -> Q a s' -> Q' a s') -> triple p s Q -> triple p s Q'.
Proof. intros H T. eapply wp_mono; [| |exact T]; cbn; auto. intros a s' (H1 & H2 & H3). auto. Qed.
Lemma t_ret {A} (a : A) s (Q : A -> st -> Prop) : J s -> Q a s -> triple (Ret a) s Q.
Proof. intros Hj HQ. cbn. auto. Qed.
Lemma t_throw {A} e s (Q : A -> st -> Prop) : J s -> triple (Throw e) s Q.
Proof. intros Hj. cbn. auto. Qed.
Lemma t_seq {A B} (p : prog A) (f : A -> prog B) s Q Q' : triple p s Q ->
  (forall a s', J s' -> R s s' -> Q a s' -> triple (f a) s' Q') -> triple (bind p f) s Q'.
Proof.
  intros H1 H2. unfold triple. apply wp_bind. eapply wp_mono; [| |exact H1]; cbn.
  - intros a s' (Hj & Hr & HQ). specialize (H2 a s' Hj Hr HQ). eapply wp_mono; [| |exact H2]; cbn.
    + intros b s2 (X1 & X2 & X3). eauto.
    + intros s2 (X1 & X2). eauto.
  - auto.
Qed.
Lemma t_get {A} (f : st -> prog A) s Q : triple (f s) s Q -> triple (bind get f) s Q.
Proof. intros H. exact H. Qed.
Lemma t_act a s : J s -> R s (do_act a s) /\ J (do_act a s) -> triple (act1 a) s (fun _ s' => s' = do_act a s).
Proof. intros Hj [Hr Hj']. cbn. split; [exact Hr|]. auto. Qed.
Lemma t_Await {A} w (k : ans -> prog A) s Q : J s -> (forall x s', R s s' -> J s' -> triple (k x) s' Q) -> triple (Await w k) s Q.
Proof.
  intros Hj H. split; [exact Hj|]. intros x s' Hr Hj'. specialize (H x s' Hr Hj'). eapply wp_mono; [| |exact H]; cbn.
  - intros b s2 (X1 & X2 & X3). eauto.
  - intros s2 (X1 & X2). eauto.
Qed.
Lemma t_await w s : J s -> triple (await w) s (fun _ _ => True).
Proof. intros Hj. apply t_Await; auto. intros x s' Hr Hj'. destruct x; [apply t_ret|apply t_throw|apply t_throw|apply t_throw]; auto. Qed.
Lemma t_id s : J s -> triple await_id s (fun _ _ => True).
Proof. intros Hj. apply t_Await; auto. intros x s' Hr Hj'. destruct x; [apply t_throw|apply t_throw|apply t_ret|apply t_throw]; auto. Qed.
Lemma t_acks n s : J s -> triple (await_acks n) s (fun _ _ => True).
Proof. intros Hj. apply t_Await; auto. intros x s' Hr Hj'. destruct x; [apply t_throw|apply t_throw|apply t_throw|apply t_ret]; auto. Qed.
Lemma t_lift {A} (r : result A) s : J s -> triple (lift r) s (fun a s' => s' = s /\ r = Ok a).
Proof. intros Hj. destruct r; [apply t_ret; auto|apply t_throw; auto]. Qed.
(** loops; [P] survives *)
Lemma t_map {A B} (f : A -> prog B) (P : st -> Prop) (Q : B -> st -> Prop) (l : list A) :
  (forall s s', R s s' -> P s -> P s') -> (forall b s s', R s s' -> Q b s -> Q b s') ->
  (forall x s, In x l -> J s -> P s -> triple (f x) s (fun b s' => Q b s')) ->
  forall s, J s -> P s -> triple (mapP f l) s (fun bs s' => Forall (fun b => Q b s') bs).
Proof.
  intros HP HQ. induction l as [|x l IH]; intros Hf s Hj Hp; cbn [mapP]; [apply t_ret; auto|].
  eapply t_seq; [apply Hf; auto; left; reflexivity|]. intros b s1 Hj1 Hr1 Hb. cbn beta in Hb.
  eapply t_seq; [apply IH; eauto; intros; apply Hf; auto; right; auto|]. intros bs s2 Hj2 Hr2 Hbs. cbn beta in Hbs. apply t_ret; auto. constructor; eauto.
Qed.
Lemma t_iter {A} (f : A -> prog unit) (P : st -> Prop) (l : list A) :
  (forall s s', R s s' -> P s -> P s') ->
  (forall x s, In x l -> J s -> P s -> triple (f x) s (fun _ _ => True)) ->
  forall s, J s -> P s -> triple (iterP f l) s (fun _ _ => True).
Proof.
  intros HP. induction l as [|x l IH]; intros Hf s Hj Hp; cbn [iterP]; [apply t_ret; auto|].
  eapply t_seq; [apply Hf; auto; left; reflexivity|]. intros b s1 Hj1 Hr1 _. apply IH; eauto. intros; apply Hf; auto; right; auto.
Qed.

(** * The machine *)
Variables (g : cfg) (pr : bool).
Definition minv (m : mach) : Prop := J (m_st m) /\ forall i w k, In (i, (w, k)) (m_tasks m) -> waiting (m_st m) k.
Lemma record_inv i p m s : J0 s -> wp p (fun _ => J) J s -> R (m_st m) s -> (forall i w k, In (i, (w, k)) (m_tasks m) -> waiting (m_st m) k) ->
  minv (record i (advance pr p s) m).
Proof.
  intros H0 H HR HT. pose proof (wp_advance pr p s H0 H) as A. destruct (advance pr p s) as [r s']. destruct A as (A1 & A2 & A3 & _).
  assert (HT' : forall i w k, In (i, (w, k)) (m_tasks m) -> waiting s' k) by (intros; eapply waiting_R; [|eapply HT; eauto]; eauto).
  unfold record. destruct r as [a|e|w k]; cbn; split; cbn; auto.
  intros j w' k' Hi. apply In_aset in Hi as [[_ [= <- <-]]|Hi]; [eapply A3; reflexivity|eauto].
Qed.
Hypothesis Rtop : forall s reg rv, J s -> R s (set_topology reg rv s) /\ J (set_topology reg rv s).
Hypothesis Jrst : forall s reg rv, J s -> J (restart_st reg rv s).
Lemma minv_step m e : minv m -> (forall c, e = EvCall c -> wp (call_prog g c) (fun _ => J) J (m_st m)) ->
  minv (mstep g pr m e) /\ forall s1 a, In (s1, a) (step_acts g pr m e) -> J0 s1.
Proof.
  intros [Hj Ht] Hc. destruct e as [c|i a|reg rv|reg rv]; cbn [mstep step_acts].
  - specialize (Hc c eq_refl). split; [apply record_inv; cbn; auto|]. pose proof (wp_advance pr _ _ (J_0 _ Hj) Hc) as A.
    destruct (advance pr (call_prog g c) (m_st m)). apply A.
  - destruct (aget i (m_tasks m)) as [[w k]|] eqn:Ei; [|split; [split; auto|intros ? ? []]].
    destruct (answers w a); [|split; [split; auto|intros ? ? []]].
    apply aget_In in Ei. pose proof (Ht _ _ _ Ei a _ (Rrefl _) Hj) as W. split.
    + apply record_inv; cbn; auto. intros j w' k' Hi. apply In_adel in Hi. eauto.
    + pose proof (wp_advance pr _ _ (J_0 _ Hj) W) as A. destruct (advance pr (k a) (m_st m)). apply A.
  - destruct (Rtop _ reg rv Hj). split; [|intros ? ? []]. split; cbn; auto. intros. eapply waiting_R; eauto.
  - split; [|intros ? ? []]. split; cbn; [auto|contradiction].
Qed.
End Wp.
