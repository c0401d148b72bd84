(** The serial invariant of the backend. *)
From Coq Require Import Permutation.
From Verif Require Import Base ModelLabel ModelSTP ModelAuthz ModelNRM ModelCalendar ModelState ModelScheduler ModelBackend
  SpecCalendar SpecBackend ProofsCalendar ProofsScheduler ProofsBackendWp ProofsBackendFoc ProofsBackendOps.
Open Scope Z_scope.

(** ended while still held (only a restart makes such a row) *)
Definition heldend (r : row) : Prop := c_r r = RHeld /\ c_l r = LPassedEnd.
Definition sep2 (g : cfg) (r r' : row) : Prop :=
  (live r -> live r' -> apart g r r') /\ (heldend r -> live r' -> forall e, In e (bk g r) -> ~ In e (bk g r')).
Definition sepd (g : cfg) (d : list (string * row)) : Prop :=
  forall k1 k2 r1 r2, k1 <> k2 -> aget k1 d = Some r1 -> aget k2 d = Some r2 -> sep2 g r1 r2.

(** two apart connections have no common entry *)
Lemma apart_nocommon g r r' : forward forever (c_rtime r) (c_start r) (c_end r) -> forward forever (c_rtime r') (c_start r') (c_end r') ->
  apart g r r' -> forall e, In e (bk g r) -> ~ In e (bk g r').
Proof.
  intros Hf Hf' Ha e He He'. 
  assert (G : forall q, In e (bk g q) -> exists res, uses g q res /\ e = mk_entry res (c_start q) (c_end q)).
  { intros q [<-|[<-|[]]]; eexists; split; try reflexivity; [left|right]; reflexivity. }
  destruct (G r He) as (res & Hu & E1). destruct (G r' He') as (res' & Hu' & E2). rewrite E1 in E2. unfold mk_entry in E2.
  injection E2 as -> Es Ee. apply (Ha res' (match c_end r with Some x => x | None => forever end) Hu Hu'); unfold occupies, covers, forward in *.
  - destruct (c_start r); lia.
  - rewrite <- Es, <- Ee in *. destruct (c_start r); lia.
Qed.

(** how an operation may change a row *)
Definition evolves (r0 r : row) : Prop :=
  core r = core r0 /\ (live r -> live r0) /\ (heldend r -> live r0 \/ heldend r0).
Lemma evolves_refl r : evolves r r.
Proof. split; [reflexivity|]. split; [exact (fun x => x)|]. right. assumption. Qed.
Lemma sep2_evolves_l g r0 r r' : forward forever (c_rtime r0) (c_start r0) (c_end r0) -> forward forever (c_rtime r') (c_start r') (c_end r') ->
  evolves r0 r -> sep2 g r0 r' -> sep2 g r r'.
Proof.
  intros Hf Hf' (Hc & Hl & Hh) [S1 S2]. split.
  - intros L1 L2. eapply core_apart; [exact Hc|]. auto.
  - intros L1 L2 e He. rewrite (core_bk g r r0 Hc) in He. destruct (Hh L1) as [L|L].
    + eapply apart_nocommon; [exact Hf|exact Hf'|apply S1; auto|exact He].
    + eapply S2; eauto.
Qed.
Lemma sep2_evolves_r g r0 r r' : evolves r0 r -> sep2 g r' r0 -> sep2 g r' r.
Proof.
  intros (Hc & Hl & Hh) [S1 S2]. split.
  - intros L1 L2. apply apart_sym. eapply core_apart; [exact Hc|]. apply apart_sym. auto.
  - intros L1 L2 e He. rewrite (core_bk g r r0 Hc). eapply S2; eauto.
Qed.

Section Inv.
Variables (arm : bool -> Prop) (g : cfg).

(** [X]: entries in the calendar beyond those of the live connections *)
Record InvX (X : list entry) (s : st) : Prop := mkInv {
  n_nd : NoDup (akeys (db s));
  n_rows : forall k r, aget k (db s) = Some r -> c_id r = k /\ row_ok (now s) (view_of k (outs s)) r;
  n_cal : Permutation (cal s) (X ++ bookings g (db s));
  n_sep : sepd g (db s);
  n_tms : forall k t due, pend s k = Some (t, due) ->
          exists r, aget k (db s) = Some r /\ aget (task_obj t) (heap s) = Some r /\ timer_ok t due r;
  n_arm : forall k r, aget k (db s) = Some r -> armed arm (now s) (pend s k) r;
  n_new : forall k, aget k (db s) = None -> view_of k (outs s) = v0;
  n_heap : forall o r, aget o (heap s) = Some r -> (o < nobj s)%nat;
  n_sinv : sinv (sch s);
  n_calls : forall id, aget id (s_queue (sch s)) <> None -> aget id (calls s) <> None;
  n_fresh : forall id, aget id (calls s) <> None -> (id < s_next (sch s))%nat;
  n_met : met g (db s) (outs s);
  n_rd : ready s = [] }.
Definition Inv := InvX [].

Lemma inv_tick X dt s : InvX X s -> InvX X (tick dt s).
Proof.
  intros I. destruct I. constructor; auto.
  - intros k r Hk. destruct (n_rows0 k r Hk) as [H1 H2]. split; [exact H1|]. eapply row_ok_mono; [|exact H2]. unfold now; cbn; lia.
  - intros k r Hk. eapply armed_mono; [|exact (n_arm0 k r Hk)]. unfold now. cbn. lia.
  - unfold tick. cbn. apply (sched_step_inv (sch s) (STick dt)), n_sinv0.
Qed.
Lemma inv_alloc X r s : InvX X s -> InvX X (new_obj r s).
Proof.
  intros I. destruct I. constructor; auto; cbn [new_obj heap nobj].
  - intros k t due Hp. destruct (n_tms0 k t due Hp) as (r' & H1 & H2 & H3). exists r'. split; [exact H1|]. split; [|exact H3].
    rewrite aget_aset_ne; [exact H2|]. intros E. rewrite E in H2. apply n_heap0 in H2. lia.
  - intros o' r'. rewrite aget_aset. destruct (eqb_ok o' (nobj s)) as [->|Hn]; [lia|]. intros H1. apply n_heap0 in H1. lia.
Qed.
Lemma inv_start t : Inv (start t).
Proof.
  constructor; try (cbn; intros; discriminate); try (cbn; intros; congruence).
  all: try (intros k1 k2 r1 r2 _ Hx; discriminate).
  all: try (intros ? Hx; exfalso; apply Hx; reflexivity).
  all: try exact (NoDup_nil _).
  all: try apply Permutation_refl.
  all: try apply sinv_init.
  reflexivity.
Qed.

Lemma bookings_split k r d : NoDup (akeys d) -> aget k d = Some r ->
  Permutation (bookings g d) ((if liveb r then bk g r else []) ++ bookings g (adel k d)).
Proof.
  induction d as [|[k' r'] d IH]; cbn -[eqb bk]; [discriminate|]. intros Hnd. inversion Hnd as [|? ? Hni Hnd']; subst.
  destruct (eqb_ok k k') as [->|Hn].
  - intros [= ->]. apply Permutation_refl.
  - intros Hk. cbn -[bk]. eapply Permutation_trans; [apply Permutation_app_head, IH; auto|]. apply Permutation_app_swap_app.
Qed.
Lemma bookings_new k r d : aget k d = None -> liveb r = false -> bookings g (aset k r d) = bookings g d.
Proof.
  intros Hk Hl. induction d as [|[k' r'] d IH]; cbn -[eqb bk] in *.
  - rewrite Hl. reflexivity.
  - destruct (eqb k k'); [discriminate|]. cbn -[bk]. f_equal. apply (IH Hk).
Qed.
Lemma adel_absent {V} k (d : list (string * V)) : aget k d = None -> adel k d = d.
Proof.
  induction d as [|[k' r'] d IH]; cbn -[eqb] in *; [reflexivity|]. destruct (eqb k k'); [discriminate|]. intros Hk. rewrite IH; auto.
Qed.

(** what an operation on [cid] starts from and may rely on *)
Record Ctx (cid : string) (D : list (string * row)) (R : list entry) (r0 : row) : Prop := {
  x_R : Permutation R (bookings g D);
  x_sep : sepd g D;
  x_fwd : forward forever (c_rtime r0) (c_start r0) (c_end r0);
  x_l : forall k r', aget k D = Some r' -> sep2 g r0 r';
  x_r : forall k r', aget k D = Some r' -> sep2 g r' r0 }.
Definition Fin (H : list (nat * row)) (o : nat) (x : loc) (s : st) : Prop :=
  lheld x = liveb (lr x) /\ row_ok (now s) (lv x) (lr x) /\ lrd x = [] /\
  armed arm (now s) (ltm x) (lr x) /\
  forall t due, ltm x = Some (t, due) -> timer_ok t due (lr x) /\ ((task_obj t = o /\ lo x = lr x) \/ In (task_obj t, lr x) H).

Lemma fin_mono H o x s s' : now s <= now s' -> Fin H o x s -> Fin H o x s'.
Proof.
  intros Ht (F1 & F2 & F3 & F4 & F5). split; [exact F1|]. split; [eapply row_ok_mono; eauto|]. split; [exact F3|]. split; [eapply armed_mono; eauto|exact F5].
Qed.
Lemma foc_inv cid D R H o x s r0 : Foc (armed arm) g cid D R H o x s -> Fin H o x s -> Ctx cid D R r0 -> evolves r0 (lr x) -> Inv s.
Proof.
  intros F (Hh & Hok & Hrd & Harm & Htm) C Hev. destruct C.
  assert (HD : forall k, k <> cid -> aget k (db s) = aget k D).
  { intros k Hk. rewrite <- (f_D _ _ _ _ _ _ _ _ _ F). rewrite aget_adel_ne; auto. }
  destruct F. constructor; auto.
  - intros k r Hk. destruct (eqb_ok k cid) as [->|Hn].
    + rewrite f_row in Hk. injection Hk as <-. rewrite f_view. auto.
    + apply f_oth. rewrite <- HD; auto.
  - eapply Permutation_trans; [exact f_cal|]. cbn [app]. apply Permutation_sym.
    eapply Permutation_trans; [apply (bookings_split cid (lr x)); auto|]. rewrite Hh, f_D. apply Permutation_app_head, Permutation_sym, x_R0.
  - intros k1 k2 r1 r2 Hk E1 E2. destruct (eqb_ok k1 cid) as [->|Hn1]; [|destruct (eqb_ok k2 cid) as [->|Hn2]].
    + rewrite f_row in E1. injection E1 as <-. rewrite HD in E2 by congruence.
      eapply sep2_evolves_l; [exact x_fwd0| |exact Hev|eapply x_l0; eauto]. apply (k_fwd _ _ _ (proj2 (f_oth _ _ E2))).
    + rewrite f_row in E2. injection E2 as <-. rewrite HD in E1 by congruence.
      eapply sep2_evolves_r; [exact Hev|]. eapply x_r0; eauto.
    + rewrite HD in E1 by assumption. rewrite HD in E2 by assumption. exact (x_sep0 k1 k2 r1 r2 Hk E1 E2).
  - intros k t due Hp. destruct (eqb_ok k cid) as [->|Hn].
    + rewrite f_tm in Hp. destruct (Htm t due Hp) as [Ht [[Ho Hl]|Hi]]; exists (lr x); (split; [exact f_row|]); (split; [|exact Ht]).
      * rewrite Ho, f_obj, Hl. reflexivity.
      * apply (f_H _ _ Hi).
    + destruct (f_tms k t due Hn Hp) as (r & H1 & H2 & H3). exists r. rewrite HD by exact Hn. auto.
  - intros k r Hk. destruct (eqb_ok k cid) as [->|Hn].
    + rewrite f_row in Hk. injection Hk as <-. rewrite f_tm. exact Harm.
    + apply f_arm. rewrite <- HD; auto.
  - intros k Hk. destruct (eqb_ok k cid) as [->|Hn]; [congruence|]. apply f_new; [exact Hn|]. rewrite <- HD; auto.
  - rewrite f_rd. exact Hrd.
Qed.

(** a live connection's link may come up: it is apart from all links that are up *)
Lemma active_live t v r : row_ok t v r -> c_active r = true -> live r.
Proof.
  intros K Ha. split.
  - right. destruct (c_alloc r) eqn:E; [reflexivity|]. destruct (k_unalloc _ _ _ K E). congruence.
  - destruct (k_l _ _ _ K) as [El|[El|El]]; [exact El| |]; exfalso; assert (c_active r = false) by (apply (k_ended _ _ _ K); rewrite El; discriminate); congruence.
Qed.
Lemma ctx_apart cid D R R' H o x s r0 r : Foc (armed arm) g cid D R H o x s -> Ctx cid D R' r0 -> live r0 -> core r = core r0 ->
  forall k r', aget k D = Some r' -> c_active r' = true -> apart g r r'.
Proof.
  intros F C L Hc k r' Hk Ha. eapply core_apart; [exact Hc|]. apply (proj1 (x_l _ _ _ _ C k r' Hk) L).
  eapply active_live; [apply (f_oth _ _ _ _ _ _ _ _ _ F k r' Hk)|exact Ha].
Qed.

(** what is known of the connection when an operation starts *)
Definition Start (H : list (nat * row)) (r : row) (tm : option (task * Z)) (v : view) (s : st) : Prop :=
  row_ok (now s) v r /\ armed arm (now s) tm r /\ forall t due, tm = Some (t, due) -> timer_ok t due r /\ In (task_obj t, r) H.
Lemma start_mono H r tm v s s' : now s <= now s' -> Start H r tm v s -> Start H r tm v s'.
Proof. intros Ht (S1 & S2 & S3). split; [eapply row_ok_mono; eauto|]. split; [eapply armed_mono; eauto|exact S3]. Qed.
Lemma start_fin H o r tm v s ro : Start H r tm v s -> Fin H o (mkLoc r (liveb r) tm v ro []) s.
Proof.
  intros (S1 & S2 & S3). split; [reflexivity|]. split; [exact S1|]. split; [reflexivity|]. split; [exact S2|].
  cbn [ltm lr]. intros t due E. destruct (S3 t due E). auto.
Qed.

(** entering a connection through a fresh object *)
Lemma inv_open X s cid r : InvX X s -> aget cid (db s) = Some r ->
  exists H, Foc (armed arm) g cid (adel cid (db s)) (X ++ bookings g (adel cid (db s))) H (nobj s)
      (mkLoc r (liveb r) (pend s cid) (view_of cid (outs s)) r []) (new_obj r s) /\
    Start H r (pend s cid) (view_of cid (outs s)) (new_obj r s) /\
    Ctx cid (adel cid (db s)) (bookings g (adel cid (db s))) r.
Proof.
  intros I Hr. set (H := match pend s cid with Some (t, _) => [(task_obj t, r)] | None => [] end). exists H.
  assert (HD : forall k r', aget k (adel cid (db s)) = Some r' -> aget k (db s) = Some r' /\ k <> cid).
  { intros k r'. rewrite aget_adel by apply I. destruct (eqb_ok k cid); [discriminate|auto]. }
  destruct I. destruct (n_rows0 cid r Hr) as [Hid Hok].
  assert (HH : forall o' r', In (o', r') H -> aget o' (heap s) = Some r' /\ r' = r).
  { intros o' r' Hin. unfold H in Hin. destruct (pend s cid) as [[t due]|] eqn:E; [|destruct Hin]. destruct Hin as [Hin|[]].
    injection Hin as <- <-. destruct (n_tms0 cid t due E) as (r1 & H1 & H2 & _). rewrite Hr in H1. injection H1 as <-. auto. }
  split; [|split].
  - constructor; cbn [lr lheld ltm lv lo lrd new_obj db heap nobj outs cal sch calls ready]; auto.
    + intros k r' Hk. apply n_rows0. apply HD, Hk.
    + eapply Permutation_trans; [exact n_cal0|]. eapply Permutation_trans; [apply Permutation_app_head, (bookings_split cid r); auto|].
      rewrite !app_assoc. apply Permutation_app_tail, Permutation_app_comm.
    + intros k t due Hk Hp. destruct (n_tms0 k t due Hp) as (r' & H1 & H2 & H3). exists r'. rewrite aget_adel_ne by exact Hk.
      split; [exact H1|]. split; [|exact H3]. rewrite aget_aset_ne; [exact H2|]. intros E. rewrite E in H2. apply n_heap0 in H2. lia.
    + intros k r' Hk. apply n_arm0. apply HD, Hk.
    + intros t t' tm r'. apply armed_mono.
    + intros k Hk. rewrite aget_adel_ne by exact Hk. apply n_new0.
    + intros o' r'. rewrite aget_aset. destruct (eqb_ok o' (nobj s)) as [->|Hn]; [lia|]. intros H1. apply n_heap0 in H1. lia.
    + intros o' r' Hin. destruct (HH o' r' Hin) as [H1 _]. assert (o' <> nobj s) by (intros ->; apply n_heap0 in H1; lia).
      rewrite aget_aset_ne by assumption. auto.
    + intros o' r' Hin Hne. destruct (HH o' r' Hin) as [_ ->]. contradiction.
    + apply aget_aset_eq.
  - split; [exact Hok|].
    split; [apply (n_arm0 cid r Hr)|]. intros t due Hp. destruct (n_tms0 cid t due Hp) as (r1 & H1 & H2 & H3).
    rewrite Hr in H1. injection H1 as <-. split; [exact H3|]. unfold H. rewrite Hp. left. reflexivity.
  - constructor.
    + apply Permutation_refl.
    + intros k1 k2 r1 r2 Hk E1 E2. eapply n_sep0; [exact Hk| |]; apply HD; eauto.
    + apply (k_fwd _ _ _ Hok).
    + intros k r' Hk. apply HD in Hk as [Hk Hn]. eapply n_sep0; [|exact Hr|exact Hk]. congruence.
    + intros k r' Hk. apply HD in Hk as [Hk Hn]. eapply n_sep0; [|exact Hk|exact Hr]. exact Hn.
Qed.

(** * The API operations *)
Variable Dl : Z -> Prop.
Notation WP := (wp Dl).

(** nothing observable changed *)
Definition same (s s' : st) : Prop :=
  db s' = db s /\ cal s' = cal s /\ outs s' = outs s /\ (forall k, pend s' k = pend s k) /\ now s <= now s'.
Lemma same_refl s : same s s.
Proof. repeat split; lia. Qed.
Lemma same_tick dt s s' : same s s' -> same s (tick dt s').
Proof. intros (H1 & H2 & H3 & H4 & H5). repeat split; auto. pose proof (now_tick dt s'). lia. Qed.
Lemma same_new r s s' : same s s' -> same s (new_obj r s').
Proof. intros (H1 & H2 & H3 & H4 & H5). repeat split; auto. Qed.

Lemma w_get X cid s (Q : nat -> st -> Prop) (E : exn -> st -> Prop) : InvX X s ->
  (aget cid (db s) = None -> forall s', InvX X s' -> same s s' -> E EConnectionNonExistent s') ->
  (forall r, aget cid (db s) = Some r -> forall H o s', same s s' ->
     Foc (armed arm) g cid (adel cid (db s)) (X ++ bookings g (adel cid (db s))) H o (mkLoc r (liveb r) (pend s cid) (view_of cid (outs s)) r []) s' ->
     Start H r (pend s cid) (view_of cid (outs s)) s' ->
     Ctx cid (adel cid (db s)) (bookings g (adel cid (db s))) r -> InvX X s' -> Q o s') ->
  WP (get_connection cid) Q E s.
Proof.
  intros I K1 K2. unfold get_connection. cbn [await bind wp answer]. intros y dt _. cbn [get wp bind tick set_sch db].
  destruct (aget cid (db s)) as [r|] eqn:Er.
  - cbn [alloc get bind wp upd]. intros y' dt' _. cbn [answer wp].
    change (nobj (set_sch _ s)) with (nobj s).
    set (s1 := tick dt s). pose proof (inv_tick X dt s I) as I1. fold s1 in I1.
    change (set_sch _ s) with s1. destruct (inv_open X s1 cid r I1 Er) as (H & F1 & G1 & C1).
    apply (K2 r eq_refl H (nobj s1) (tick dt' (new_obj r s1))).
    + apply same_tick, same_new, same_tick, same_refl.
    + apply foc_tick. exact F1.
    + eapply start_mono; [|exact G1]. apply now_tick.
    + exact C1.
    + apply inv_tick, inv_alloc, I1.
  - cbn [bind wp]. intros y' dt' _. cbn [answer wp].
    apply (K1 eq_refl (tick dt' (tick dt s))); [apply inv_tick, inv_tick, I|apply same_tick, same_tick, same_refl].
Qed.

Lemma w_open h cid s (Q : nat -> st -> Prop) (E : exn -> st -> Prop) : Inv s ->
  (forall e s', Inv s' -> same s s' -> E e s') ->
  (forall r, aget cid (db s) = Some r -> authorize g (c_sport r) (c_dport r) h = Ok tt -> forall H o s', same s s' ->
     let D := adel cid (db s) in let R := bookings g D in let x := mkLoc r (liveb r) (pend s cid) (view_of cid (outs s)) r [] in
     Foc (armed arm) g cid D R H o x s' -> Start H r (pend s cid) (view_of cid (outs s)) s' -> Ctx cid D R r -> Inv s' -> Q o s') ->
  WP (open_connection g h cid) Q E s.
Proof.
  intros I K1 K2. unfold open_connection. apply w_bind. apply (w_get []); [exact I| |].
  - intros _ s' I' S'. apply K1; auto.
  - intros r Er H o s' S' F1 G1 C1 I'. apply w_bind. eapply w_obj; [exact F1|]. cbn [lo].
    apply w_bind. destruct (authorize g (c_sport r) (c_dport r) h) as [[]|e] eqn:Ea.
    + cbn. eapply (K2 r); eauto.
    + cbn. apply K1; auto.
Qed.
End Inv.
