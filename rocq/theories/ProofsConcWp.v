(** Weakest preconditions for programs among others, in the rely-guarantee
    style: every update of the program keeps [G]; at a wait the state may change
    by [R] to any state satisfying [J]. *)
From Verif Require Import Base BaseProofs ModelScheduler ModelBackend ModelBackendConc.
Open Scope Z_scope.

Lemma In_aset {K V} `{EqB K} (k k' : K) (v v' : V) d : In (k, v) (aset k' v' d) -> (k = k' /\ v = v') \/ In (k, v) d.
Proof.
  induction d as [|[a b] d IH]; cbn; [intros [[= <- <-]|[]]; auto|].
  destruct (eqb k' a) eqn:E.
  - apply (proj1 (eqb_true k' a)) in E. intros [[= <- <-]|HI]; [left; auto|right; right; exact HI].
  - intros [HI|HI]; [right; left; exact HI|]. destruct (IH HI); auto.
Qed.
Lemma In_adel {K V} `{EqB K} (k k' : K) (v : V) d : In (k, v) (adel k' d) -> In (k, v) d.
Proof.
  induction d as [|[a b] d IH]; cbn; [auto|]. destruct (eqb k' a); cbn; intros HI; [auto|]. destruct HI; auto.
Qed.

Section Wp.
Variables (J : st -> Prop) (R G : st -> st -> Prop).

Fixpoint wp {A} (p : prog A) (Q : A -> st -> Prop) (E : exn -> st -> Prop) (s : st) : Prop :=
  match p with
  | Ret a => Q a s
  | Throw e => E e s
  | Get k => wp (k s) Q E s
  | Upd f k => G s (f s) /\ wp k Q E (f s)
  | Await w k => forall x s', R s s' -> J s' -> wp (k x) Q E s'
  end.
Definition any {A} : A -> st -> Prop := fun _ _ => True.

Lemma wp_mono {A} (p : prog A) : forall (Q Q' : A -> st -> Prop) (E E' : exn -> st -> Prop) s,
  (forall a s', Q a s' -> Q' a s') -> (forall e s', E e s' -> E' e s') -> wp p Q E s -> wp p Q' E' s.
Proof.
  induction p as [a|e|k IH|f k IH|w k IH]; cbn; intros Q Q' E E' s HQ HE H; auto.
  - eapply IH; eauto.
  - destruct H as [H1 H2]. split; [exact H1|]. eapply IH; eauto.
  - intros x s' Hr Hj. eapply IH; eauto.
Qed.
Lemma wp_bind {A B} (p : prog A) (f : A -> prog B) : forall Q E s,
  wp (bind p f) Q E s <-> wp p (fun a s' => wp (f a) Q E s') E s.
Proof.
  induction p as [a|e|k IH|g k IH|w k IH]; cbn; intros Q E s; try tauto; auto.
  - rewrite IH. tauto.
  - split; intros H x s' Hr Hj; apply IH; auto.
Qed.
Lemma wp_catch {A} (p : prog A) h : forall Q E s,
  wp (catch p h) Q E s <-> wp p Q (fun e s' => wp (h e) Q E s') s.
Proof.
  induction p as [a|e|k IH|g k IH|w k IH]; cbn; intros Q E s; try tauto; auto.
  - rewrite IH. tauto.
  - split; intros H x s' Hr Hj; apply IH; auto.
Qed.
(** the steps of a program, one after the other *)
Lemma wp_seq {A B} (p : prog A) (f : A -> prog B) (Q' : A -> st -> Prop) Q E s :
  wp p Q' E s -> (forall a s', Q' a s' -> wp (f a) Q E s') -> wp (bind p f) Q E s.
Proof. intros H1 H2. apply wp_bind. eapply wp_mono; [| |exact H1]; auto. Qed.

Hypothesis Rrefl : forall s, R s s.
Hypothesis Rtrans : forall a b c, R a b -> R b c -> R a c.
Hypothesis GR : forall s s', G s s' -> R s s'.
Hypothesis GJ : forall s s', G s s' -> J s -> J s'.

(** what is known of a suspended program *)
Definition waiting {A} (s : st) (k : option exn -> prog A) (Q : A -> st -> Prop) (E : exn -> st -> Prop) : Prop :=
  forall x s', R s s' -> J s' -> wp (k x) Q E s'.
Lemma waiting_R {A} s s1 (k : option exn -> prog A) Q E : R s s1 -> waiting s k Q E -> waiting s1 k Q E.
Proof. intros H W x s' Hr Hj. apply W; eauto. Qed.

Lemma wp_advance {A} (p : prog A) : forall Q E s, J s -> wp p Q E s ->
  let '(r, s') := advance p s in
  R s s' /\ J s' /\
  match r with Done (Ok a) => Q a s' | Done (Err e) => E e s' | Waits w k => waiting s' k Q E end.
Proof.
  induction p as [a|e|k IH|g k IH|w k IH]; cbn [advance wp]; intros Q E s Hj H.
  - auto.
  - auto.
  - apply (IH s Q E s Hj H).
  - destruct H as [H1 H2]. specialize (IH Q E (g s) (GJ _ _ H1 Hj) H2).
    destruct (advance k (g s)) as [r s']. destruct IH as (I1 & I2 & I3). split; [|split]; auto. eapply Rtrans; eauto.
  - split; [apply Rrefl|]. split; [exact Hj|]. intros x s' Hr Hj'. apply H; auto.
Qed.

(** * Triples: the state at the end satisfies [J] and is related to that at the beginning *)
Definition triple {A} (p : prog A) (s : st) (Q : A -> st -> Prop) : Prop :=
  wp p (fun a s' => J s' /\ R s s' /\ Q a s') (fun _ s' => J s' /\ R s s') s.
Lemma t_wp {A} (p : prog A) s Q : triple p s Q -> wp p any any s.
Proof. intros H. eapply wp_mono; [| |exact H]; intros; exact I. Qed.
Lemma t_mono {A} (p : prog A) s (Q Q' : A -> st -> Prop) : (forall a s', J s' -> R s s' -> Q a s' -> Q' a s') -> triple p s Q -> triple p s Q'.
Proof. intros H T. eapply wp_mono; [| |exact T]; cbn; auto. intros a s' (H1 & H2 & H3). auto. Qed.
Lemma t_ret {A} (a : A) s (Q : A -> st -> Prop) : J s -> Q a s -> triple (Ret a) s Q.
Proof. intros Hj HQ. cbn. auto. Qed.
Lemma t_throw {A} e s (Q : A -> st -> Prop) : J s -> triple (Throw e) s Q.
Proof. intros Hj. cbn. auto. Qed.
Lemma t_seq {A B} (p : prog A) (f : A -> prog B) s Q Q' : triple p s Q ->
  (forall a s', J s' -> R s s' -> Q a s' -> triple (f a) s' Q') -> triple (bind p f) s Q'.
Proof.
  intros H1 H2. unfold triple. apply wp_bind. eapply wp_mono; [| |exact H1]; cbn.
  - intros a s' (Hj & Hr & HQ). specialize (H2 a s' Hj Hr HQ). eapply wp_mono; [| |exact H2]; cbn.
    + intros b s2 (X1 & X2 & X3). eauto.
    + intros e s2 (X1 & X2). eauto.
  - auto.
Qed.
Lemma t_catch {A} (p : prog A) h s Q : triple p s Q -> (forall e s', J s' -> R s s' -> triple (h e) s' Q) -> triple (catch p h) s Q.
Proof.
  intros H1 H2. unfold triple. apply wp_catch. eapply wp_mono; [| |exact H1]; cbn.
  - auto.
  - intros e s' (Hj & Hr). specialize (H2 e s' Hj Hr). eapply wp_mono; [| |exact H2]; cbn.
    + intros b s2 (X1 & X2 & X3). eauto.
    + intros e' s2 (X1 & X2). eauto.
Qed.
Lemma t_get {A} (f : st -> prog A) s Q : triple (f s) s Q -> triple (bind get f) s Q.
Proof. intros H. exact H. Qed.
Lemma t_upd f s (Q : unit -> st -> Prop) : J s -> G s (f s) -> Q tt (f s) -> triple (upd f) s Q.
Proof. intros Hj Hg HQ. cbn. eauto 7. Qed.
Lemma t_Await {A} w (k : option exn -> prog A) s Q : (forall x s', R s s' -> J s' -> triple (k x) s' Q) -> triple (Await w k) s Q.
Proof.
  intros H x s' Hr Hj. specialize (H x s' Hr Hj). eapply wp_mono; [| |exact H]; cbn.
  - intros b s2 (X1 & X2 & X3). eauto.
  - intros e' s2 (X1 & X2). eauto.
Qed.
Lemma t_await w s : triple (await w) s (fun _ _ => True).
Proof. apply t_Await. intros x s' Hr Hj. destruct x; [apply t_throw|apply t_ret]; auto. Qed.
Lemma t_obj o s : J s -> triple (obj o) s (fun r s' => s' = s /\ aget o (heap s) = Some r).
Proof. intros Hj. unfold obj. apply t_get. destruct (aget o (heap s)) eqn:E; [apply t_ret; auto|apply t_throw; auto]. Qed.
Lemma t_lift {A} (r : result A) s : J s -> triple (lift r) s (fun a s' => s' = s /\ r = Ok a).
Proof. intros Hj. destruct r; [apply t_ret; auto|apply t_throw; auto]. Qed.

(** * The machine *)
Definition tasks_ok (m : mach) : Prop :=
  forall i from w k, In (i, (from, (w, k))) (m_tasks m) -> waiting (m_st m) k any any.
Definition minv (m : mach) : Prop := J (m_st m) /\ tasks_ok m.

Hypothesis Jtick : forall s dt, J s -> R s (tick dt s) /\ J (tick dt s).
Hypothesis Jfinish : forall s from, J s -> R s (finish from s) /\ J (finish from s).

Lemma minv_resume i from p m : minv m -> wp p any any (m_st m) ->
  minv (resume i from p m) /\ R (m_st m) (m_st (resume i from p m)) /\ m_log (resume i from p m) = m_log m.
Proof.
  intros [Hj Ht] H. unfold resume. pose proof (wp_advance p _ _ _ Hj H) as A.
  destruct (advance p (m_st m)) as [r s']. destruct A as (A1 & A2 & A3). destruct r as [r|w k].
  - destruct (Jfinish s' from A2) as [F1 F2]. cbn. split; [|split; [eapply Rtrans; eauto|reflexivity]]. split; cbn; [exact F2|].
    intros j from' w' k' Hj'. eapply waiting_R; [|eapply Ht; exact Hj']. eapply Rtrans; eauto.
  - cbn. split; [|split; [exact A1|reflexivity]]. split; cbn; [exact A2|].
    intros j from' w' k' Hj'. apply In_aset in Hj' as [[_ [= <- <- <-]]|Hj'].
    + exact A3.
    + eapply waiting_R; [exact A1|]. eapply Ht. exact Hj'.
Qed.
Lemma minv_weaken m s' : minv m -> R (m_st m) s' -> J s' -> minv (set_st s' m).
Proof.
  intros [Hj Ht] Hr Hj'. split; [exact Hj'|]. intros i from w k Hi. eapply waiting_R; [exact Hr|]. eapply Ht. exact Hi.
Qed.

Variable g : cfg.
Hypothesis Hstart : forall s n t, J s -> nth_error (ready s) n = Some t ->
  let s' := set_ready (drop_nth n (ready s)) s in R s s' /\ J s' /\ wp (task_prog g t) any any s'.
Hypothesis Hfire : forall s id due t, J s -> aget id (s_queue (sch s)) = Some due -> aget id (calls s) = Some t ->
  let s' := set_sch (sched_step (sch s) (SFire id)) s in R s s' /\ J s' /\ wp (task_prog g t) any any s'.

Lemma wp_quietly {A} (p : prog A) s : wp p any any s -> wp (quietly p) any any s.
Proof. intros H. unfold quietly. apply wp_bind. eapply wp_mono; [| |exact H]; cbn; auto. Qed.

(** the requests and restarts are treated by the caller *)
Definition call_ok (m : mach) (e : event) : Prop :=
  match e with
  | ECall o => wp (op_prog g o) any any (m_st m)
  | ERestart => J (reboot (m_st m)) /\ wp (build_schedule g) any any (reboot (m_st m))
  | _ => True
  end.
Definition base (m : mach) (e : event) : st := match e with ERestart => reboot (m_st m) | _ => m_st m end.
Lemma minv_step_R m e : minv m -> call_ok m e -> minv (mstep g m e) /\ R (base m e) (m_st (mstep g m e)).
Proof.
  intros Hm Hc. destruct Hm as [Hj Ht]. destruct e as [o|n|id|i x|dt|]; cbn [mstep base].
  - match goal with |- minv (launch ?f ?p ?m0) /\ _ => destruct (minv_resume (m_next m0) f p (mkMach (m_st m0) (m_tasks m0) (S (m_next m0)) (m_done m0) (m_log m0))) as (X1 & X2 & _) end;
      [split; [exact Hj|exact Ht]|exact Hc|]. split; [exact X1|exact X2].
  - destruct (nth_error (ready (m_st m)) n) as [t|] eqn:En; [|split; [split; assumption|apply Rrefl]].
    destruct (Hstart _ _ _ Hj En) as (S1 & S2 & S3).
    pose proof (minv_weaken m _ (conj Hj Ht) S1 S2) as [M1 M2].
    match goal with |- minv (launch ?f ?p ?m0) /\ _ => destruct (minv_resume (m_next m0) f p (mkMach (m_st m0) (m_tasks m0) (S (m_next m0)) (m_done m0) (m_log m0))) as (X1 & X2 & _) end;
      [split; [exact M1|exact M2]|apply wp_quietly; exact S3|]. split; [exact X1|eapply Rtrans; [exact S1|exact X2]].
  - destruct (aget id (s_queue (sch (m_st m)))) as [due|] eqn:Eq; [|split; [split; assumption|apply Rrefl]].
    destruct (aget id (calls (m_st m))) as [t|] eqn:Ec; [|split; [split; assumption|apply Rrefl]].
    destruct (due <=? now (m_st m)); [|split; [split; assumption|apply Rrefl]].
    destruct (Hfire _ _ _ _ Hj Eq Ec) as (S1 & S2 & S3).
    pose proof (minv_weaken m _ (conj Hj Ht) S1 S2) as [M1 M2].
    match goal with |- minv (launch ?f ?p ?m0) /\ _ => destruct (minv_resume (m_next m0) f p (mkMach (m_st m0) (m_tasks m0) (S (m_next m0)) (m_done m0) (m_log m0))) as (X1 & X2 & _) end;
      [split; [exact M1|exact M2]|apply wp_quietly; exact S3|]. split; [exact X1|eapply Rtrans; [exact S1|exact X2]].
  - destruct (aget i (m_tasks m)) as [[from [w k]]|] eqn:Ei; [|split; [split; assumption|apply Rrefl]].
    match goal with |- minv (resume ?i ?f ?p ?m0) /\ _ => destruct (minv_resume i f p m0) as (X1 & X2 & _) end.
    + split; cbn; [exact Hj|]. intros j f' w' k' Hj'. apply In_adel in Hj'. eapply Ht. exact Hj'.
    + cbn. apply aget_In in Ei. eapply Ht; eauto.
    + split; [exact X1|exact X2].
  - destruct (Jtick _ dt Hj) as [T1 T2]. split; [apply minv_weaken; [split; assumption|exact T1|exact T2]|exact T1].
  - destruct Hc as [C1 C2].
    match goal with |- minv (launch ?f ?p ?m0) /\ _ => destruct (minv_resume (m_next m0) f p (mkMach (m_st m0) (m_tasks m0) (S (m_next m0)) (m_done m0) (m_log m0))) as (X1 & X2 & _) end;
      [split; cbn; [exact C1|intros j f' w' k' []]|apply wp_quietly; exact C2|]. split; [exact X1|exact X2].
Qed.
Lemma minv_step m e : minv m -> call_ok m e -> minv (mstep g m e).
Proof. intros H1 H2. apply minv_step_R; auto. Qed.
End Wp.
