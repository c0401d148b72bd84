(** Runs of the aggregator with a database that answers at once: a program logic,
    and the invariant. *)
From Verif Require Import Base BaseProofs ModelLabel ModelSTP ModelAuthz ModelNRM ModelState ModelLinkVector ModelProvreg ModelAggregator SpecAggInv.

Section Fresh.
  Context (g : cfg).
  (** task numbers are not reused *)
  Definition mfresh (m : mach) : Prop := NoDup (akeys (m_tasks m)) /\ forall i, In i (akeys (m_tasks m)) -> (i < m_next m)%nat.
  Lemma mstep_fresh pr m e : mfresh m -> mfresh (mstep g pr m e).
  Proof.
    intros [H1 H2]. destruct e as [c|i a|reg rv|reg rv]; cbn [mstep].
    - assert (H3 : forall i, In i (akeys (m_tasks m)) -> (i < S (m_next m))%nat) by (intros i Hi; specialize (H2 i Hi); lia).
      unfold record. destruct (advance pr (call_prog g c) (m_st m)) as [[b|e|w k] s']; split; cbn -[akeys]; auto.
      + apply NoDup_akeys_aset; auto.
      + intros i. rewrite akeys_aset. destruct (ahas _ _); [auto|]. rewrite in_app_iff. intros [H|[<-|[]]]; auto.
    - destruct (aget i (m_tasks m)) as [[w k]|] eqn:E; [|split; auto]. destruct (answers w a); [|split; auto].
      assert (F : NoDup (akeys (adel i (m_tasks m))) /\ forall j, In j (akeys (adel i (m_tasks m))) -> (j < m_next m)%nat).
      { split; [apply NoDup_akeys_adel; auto|]. intros j Hj. apply H2. eapply In_akeys_adel; eauto. }
      destruct F as [F1 F2].
      unfold record. destruct (advance pr (k a) (m_st m)) as [[b|e|w' k'] s']; split; cbn -[akeys]; auto.
      + apply NoDup_akeys_aset; auto.
      + intros j. rewrite akeys_aset. destruct (ahas _ _); [auto|]. rewrite in_app_iff. intros [H|[<-|[]]]; auto.
        apply H2. eapply aget_Some_In_keys; eauto.
    - split; auto.
    - split; cbn; [constructor|contradiction].
  Qed.
  Lemma mrun_fresh pr l : forall m, mfresh m -> mfresh (mrun g pr m l).
  Proof. induction l as [|e l IH]; intros m H; cbn; auto. apply IH, mstep_fresh, H. Qed.
End Fresh.

(** * Logic *)
Section WP.
  Context (IM : list call -> st -> Prop) (R : st -> st -> Prop) (ok : list call -> st -> act -> Prop).
  Fixpoint wp {A} (p : prog A) (Q : A -> list call -> st -> Prop) (E : list call -> st -> Prop) (log : list call) (s : st) : Prop :=
    match p with
    | Ret a => Q a log s
    | Throw _ => E log s
    | Get k => wp (k s) Q E log s
    | Do a k => ok log s a /\ R s (do_act a s) /\ wp k Q E log (do_act a s)
    | Await w k =>
        match w with
        | WDb => wp (k AnsOk) Q E log s
        | _ => IM log s /\ forall log' s' a, R s s' -> IM log' s' -> answers w a = true -> wp (k a) Q E log' s'
        end
    end.
  Lemma wp_conseq {A} (p : prog A) (Q Q' : A -> list call -> st -> Prop) (E E' : list call -> st -> Prop) :
    (forall a log s, Q a log s -> Q' a log s) -> (forall log s, E log s -> E' log s) ->
    forall log s, wp p Q E log s -> wp p Q' E' log s.
  Proof.
    intros HQ HE. induction p as [a|e|k IH|a k IH|w k IH]; intros log s; cbn; auto.
    - intros (H1 & H2 & H3). auto.
    - destruct w; auto; intros [H1 H2]; split; auto.
  Qed.
  Lemma wp_bind {A B} (p : prog A) (f : A -> prog B) Q E : forall log s,
    wp p (fun a => wp (f a) Q E) E log s -> wp (bind p f) Q E log s.
  Proof.
    induction p as [a|e|k IH|a k IH|w k IH]; intros log s; cbn; auto.
    - intros (H1 & H2 & H3). auto.
    - destruct w; auto; intros [H1 H2]; split; auto.
  Qed.

  Context (R_refl : forall s, R s s) (R_trans : forall a b c, R a b -> R b c -> R a c).
  Definition waits_ok (w : wait) (k : ans -> prog string) (s : st) : Prop :=
    forall log' s' a, R s s' -> IM log' s' -> answers w a = true -> wp (k a) (fun _ => IM) IM log' s'.
  Lemma wp_advance (p : prog string) : forall log s, wp p (fun _ => IM) IM log s ->
    R s (snd (advance true p s)) /\ IM log (snd (advance true p s)) /\
    (forall w k, fst (advance true p s) = Waits w k -> waits_ok w k (snd (advance true p s))) /\
    (forall s1 a, In (s1, a) (steps true p s) -> ok log s1 a).
  Proof.
    induction p as [a|e|k IH|a k IH|w k IH]; intros log s H; cbn in H |- *.
    - repeat split; auto; [discriminate|contradiction].
    - repeat split; auto; [discriminate|contradiction].
    - apply IH; auto.
    - destruct H as (H1 & H2 & H3). destruct (IH _ _ H3) as (I1 & I2 & I3 & I4). repeat split; auto.
      + eapply R_trans; eauto.
      + intros s1 b [E|Hb]; [inversion E; subst; auto|auto].
    - destruct w; try (destruct H as [H1 H2]; cbn; repeat split; auto; [intros w0 k0 E0; inversion E0; subst; intros log' s' x Hx Hm Ha; auto|contradiction]).
      apply IH; auto.
  Qed.

  Context (g : cfg) (IM_call : forall c log s, IM log s -> wp (call_prog g c) (fun _ => IM) IM (log ++ [c]) s)
          (R_top : forall s reg rv, R s (set_topology reg rv s)) (IM_top : forall log s reg rv, IM log s -> IM log (set_topology reg rv s)).
  Definition minv (m : mach) : Prop :=
    IM (m_log m) (m_st m) /\ forall i w k, aget i (m_tasks m) = Some (w, k) -> waits_ok w k (m_st m).
  Lemma waits_ok_later w k s s' : waits_ok w k s -> R s s' -> waits_ok w k s'.
  Proof. intros H HR log' s2 a H1. apply H. eapply R_trans; eauto. Qed.
  Lemma record_inv i p m log s :
    wp p (fun _ => IM) IM log s -> m_log m = log -> R (m_st m) s ->
    (forall i w k, aget i (m_tasks m) = Some (w, k) -> waits_ok w k (m_st m)) -> minv (record i (advance true p s) m).
  Proof.
    intros H El HR HT. destruct (wp_advance p log s H) as (I1 & I2 & I3 & _).
    assert (HT' : forall i w k, aget i (m_tasks m) = Some (w, k) -> waits_ok w k (snd (advance true p s))).
    { intros. eapply waits_ok_later; [eapply HT; eauto|eapply R_trans; eauto]. }
    unfold record. destruct (advance true p s) as [[a|e|w k] s']; cbn in *.
    - split; cbn; [rewrite El; auto|auto].
    - split; cbn; [rewrite El; auto|auto].
    - split; cbn; [rewrite El; auto|]. intros j w' k' E. rewrite aget_aset in E. destruct (eqb j i); [inversion E; subst; auto|eauto].
  Qed.
  Lemma aget_adel_some {V} (i j : nat) (v : V) d : aget i (adel j d) = Some v -> In (i, v) d.
  Proof.
    induction d as [|[k x] d IH]; cbn; [discriminate|]. destruct (eqb j k).
    - intros H. right. apply aget_In; auto.
    - cbn. destruct (eqb_ok i k) as [->|N]; [intros E; inversion E; auto|auto].
  Qed.
  Lemma record_log i r m : m_log (record i r m) = m_log m.
  Proof. unfold record. destruct (fst r); reflexivity. Qed.
  Lemma mstep_inv m e : mfresh m -> (forall reg rv, e = EvRestart reg rv -> IM (m_log m) (restart_st reg rv (m_st m))) -> minv m -> minv (mstep g true m e) /\ forall s1 a, In (s1, a) (step_acts g true m e) -> ok (m_log (mstep g true m e)) s1 a.
  Proof.
    intros HF HR [H1 H2]. destruct e as [c|i a|reg rv|reg rv]; cbn [mstep step_acts].
    - split.
      + apply (record_inv (m_next m) (call_prog g c) _ (m_log m ++ [c]) (m_st m)); cbn; auto.
      + rewrite record_log. apply (wp_advance (call_prog g c) (m_log m ++ [c]) (m_st m)). auto.
    - destruct (aget i (m_tasks m)) as [[w k]|] eqn:E; [|split; [split; auto|contradiction]].
      destruct (answers w a) eqn:Ea; [|split; [split; auto|contradiction]].
      pose proof (H2 i w k E (m_log m) (m_st m) a (R_refl _) H1 Ea) as W. split.
      + apply (record_inv i (k a) _ (m_log m) (m_st m)); cbn; auto.
        intros j w' k' Ej. destruct (Nat.eq_dec j i) as [->|N].
        * rewrite aget_adel_eq in Ej; [discriminate|]. apply HF.
        * rewrite aget_adel_ne in Ej by auto. eauto.
      + rewrite record_log. apply (wp_advance (k a) (m_log m) (m_st m)). auto.
    - split; [|contradiction]. split; cbn; auto. intros i w k E. eapply waits_ok_later; [eauto|apply R_top].
    - split; [|contradiction]. split; cbn; [auto|discriminate].
  Qed.
  Context (IM_restart : forall log s reg rv, IM log s -> IM log (restart_st reg rv s)).
  Lemma mrun_inv l : forall m, mfresh m -> minv m -> minv (mrun g true m l).
  Proof. induction l as [|e l IH]; intros m H1 H2; cbn; auto. apply IH; [apply mstep_fresh; auto|apply mstep_inv; auto]. intros reg rv _. apply IM_restart, H2. Qed.
End WP.
