(** Weakest preconditions for the programs of ModelBackend.v: demonic over the
    device's answers and over delays satisfying [D]. *)
From Verif Require Import Base ModelScheduler ModelBackend.
Open Scope Z_scope.

Section Wp.
Variable D : Z -> Prop.

Fixpoint wp {A} (p : prog A) (Q : A -> st -> Prop) (E : exn -> st -> Prop) (s : st) : Prop :=
  match p with
  | Ret a => Q a s
  | Throw e => E e s
  | Get k => wp (k s) Q E s
  | Upd f k => wp k Q E (f s)
  | Await w k => forall x dt, D dt -> wp (k (answer w x)) Q E (tick dt s)
  end.

Lemma wp_mono {A} (p : prog A) : forall (Q Q' : A -> st -> Prop) (E E' : exn -> st -> Prop) s,
  (forall a s', Q a s' -> Q' a s') -> (forall e s', E e s' -> E' e s') -> wp p Q E s -> wp p Q' E' s.
Proof.
  induction p as [a|e|k IH|f k IH|w k IH]; cbn; intros Q Q' E E' s HQ HE H; auto.
  - eapply IH; eauto.
  - eapply IH; eauto.
  - intros x dt Hd. eapply IH; eauto.
Qed.
Lemma wp_bind {A B} (p : prog A) (f : A -> prog B) : forall Q E s,
  wp (bind p f) Q E s <-> wp p (fun a s' => wp (f a) Q E s') E s.
Proof.
  induction p as [a|e|k IH|g k IH|w k IH]; cbn; intros Q E s; try tauto; auto.
  split; intros H x dt Hd; apply IH; auto.
Qed.
Lemma wp_catch {A} (p : prog A) h : forall Q E s,
  wp (catch p h) Q E s <-> wp p Q (fun e s' => wp (h e) Q E s') s.
Proof.
  induction p as [a|e|k IH|g k IH|w k IH]; cbn; intros Q E s; try tauto; auto.
  split; intros H x dt Hd; apply IH; auto.
Qed.

Hypothesis D0 : D 0.
Lemma wp_sound {A} (p : prog A) : forall Q E s e, Forall (fun x => D (snd x)) e -> wp p Q E s ->
  let '(r, s', e') := run p e s in
  Forall (fun x : option exn * Z => D (snd x)) e' /\ match r with Ok a => Q a s' | Err x => E x s' end.
Proof.
  induction p as [a|x|k IH|g k IH|w k IH]; cbn [run wp]; intros Q E s e He H; auto.
  - specialize (IH s Q E s e He H). exact IH.
  - specialize (IH Q E (g s) e He H). exact IH.
  - destruct e as [|[x dt] e]; cbn [next_env].
    + apply (IH (answer w None) Q E (tick 0 s) []); auto.
    + inversion He; subst. apply (IH (answer w x) Q E (tick dt s) e); auto.
Qed.

Fixpoint wpt (g : cfg) (ts : list task) (Q : st -> Prop) (s : st) : Prop :=
  match ts with
  | [] => Q s
  | t :: r => wp (task_prog g t) (fun _ s' => wpt g r Q s') (fun _ s' => wpt g r Q s') s
  end.
Lemma wpt_sound g ts : forall Q s e, Forall (fun x => D (snd x)) e -> wpt g ts Q s -> Q (fst (run_tasks g ts e s)).
Proof.
  induction ts as [|t ts IH]; cbn [run_tasks wpt]; intros Q s e He H; [exact H|].
  pose proof (wp_sound (task_prog g t) _ _ s e He H) as Hs.
  destruct (run (task_prog g t) e s) as [[r s'] e']. destruct Hs as [He' Hs]. destruct r; eapply IH; eauto.
Qed.
Definition wpo {A} (g : cfg) (p : prog A) (Q : result A -> st -> Prop) (s : st) : Prop :=
  wp p (fun a s1 => wpt g (ready s1) (Q (Ok a)) (set_ready [] s1)) (fun e s1 => wpt g (ready s1) (Q (Err e)) (set_ready [] s1)) s.
Lemma wpo_sound {A} g (p : prog A) Q s e : Forall (fun x => D (snd x)) e -> wpo g p Q s ->
  Q (fst (run_op g p e s)) (snd (run_op g p e s)).
Proof.
  intros He H. unfold run_op. pose proof (wp_sound p _ _ s e He H) as Hs.
  destruct (run p e s) as [[r s1] e1]. destruct Hs as [He1 Hs].
  destruct r as [a|x].
  - pose proof (wpt_sound g (ready s1) _ _ _ He1 Hs) as Hq. destruct (run_tasks g (ready s1) e1 (set_ready [] s1)). exact Hq.
  - pose proof (wpt_sound g (ready s1) _ _ _ He1 Hs) as Hq. destruct (run_tasks g (ready s1) e1 (set_ready [] s1)). exact Hq.
Qed.
End Wp.

Lemma run_bind {A B} (p : prog A) (f : A -> prog B) : forall e s,
  run (bind p f) e s = let '(r, s1, e1) := run p e s in
    match r with Ok a => run (f a) e1 s1 | Err x => (Err x, s1, e1) end.
Proof.
  induction p as [a|x|k IH|g k IH|w k IH]; cbn; intros e s; auto.
  destruct (next_env e) as [[x dt] e']. apply IH.
Qed.
