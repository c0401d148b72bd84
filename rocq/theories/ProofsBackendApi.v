(** The requests on a connection preserve the serial invariant. *)
From Coq Require Import Permutation.
From Verif Require Import Base ModelLabel ModelSTP ModelAuthz ModelNRM ModelCalendar ModelState ModelScheduler ModelBackend
  SpecCalendar SpecBackend ProofsCalendar ProofsScheduler ProofsBackendWp ProofsBackendFoc ProofsBackendOps ProofsBackendInv ProofsBackendRow.
Open Scope Z_scope.

Lemma op_commit c : op_mem (OpReserveMulti [RCommitting; RStart]) c =
  match st_r c with RHeld => (mkStates RStart (st_p c) (st_l c), None) | _ => (c, Some EInternalServer) end.
Proof. destruct c as [[] p l]; reflexivity. Qed.
Lemma op_provisioning c : op_mem OpProvisioning c =
  match st_p c with PReleased | PProvisioning => (mkStates (st_r c) PProvisioning (st_l c), None) | _ => (c, Some EInternalServer) end.
Proof. destruct c as [r [] l]; reflexivity. Qed.
Lemma op_releasing c : op_mem OpReleasing c =
  match st_p c with PProvisioned | PReleasing => (mkStates (st_r c) PReleasing (st_l c), None) | _ => (c, Some EInternalServer) end.
Proof. destruct c as [r [] l]; reflexivity. Qed.
Lemma op_terminating c : op_mem OpTerminating c =
  match st_l c with LTerminated => (c, Some EInternalServer) | _ => (mkStates (st_r c) (st_p c) LTerminating, None) end.
Proof. destruct c as [r p []]; reflexivity. Qed.

Ltac ev := unfold evolves, live, heldend; split; [reflexivity|];
  unfold with_l, with_r, with_p, c_r, c_p, c_l, set_states, set_active, set_alloc in *;
  cbn [c_id c_gid c_requester c_rtime c_states c_active c_alloc c_sport c_slabel c_dport c_dlabel c_start c_end c_bw st_r st_p st_l] in *;
  intuition (try congruence).
Ltac nh := let Hx := fresh in intros Hx; first [intro; discriminate | exfalso; discriminate Hx | exfalso; row_cbn; congruence].
Ltac loc_cbn := cbn [lr lheld ltm lv lo lrd] in *.

Section Api.
Variables (arm : bool -> Prop) (g : cfg) (Dl : Z -> Prop).
Notation WP := (wp Dl).
Notation Inv := (Inv arm g).

(** the outcome of an operation on [cid]: the invariant holds, the other rows
    are as before and [P] tells of the row before and after *)
Definition Post {A} (cid : string) (P : result A -> row -> row -> Prop) (s : st) (x : result A) (s' : st) : Prop :=
  Inv s' /\ now s <= now s' /\ (forall k, k <> cid -> aget k (db s') = aget k (db s)) /\
  match aget cid (db s) with
  | None => exists e, x = Err e /\ same s s'
  | Some r0 => exists r', aget cid (db s') = Some r' /\ evolves r0 r' /\ P x r0 r'
  end.

Lemma inv_ready X s : InvX arm g X s -> set_ready [] s = s.
Proof. intros I. pose proof (n_rd _ _ _ _ I) as Hr. destruct s; cbn in *; subst; reflexivity. Qed.

Lemma post_refused {A} cid (P : result A -> row -> row -> Prop) s e s' : Inv s' -> same s s' -> (forall r, P (Err e) r r) -> wpt Dl g (ready s') (Post cid P s (Err e)) (set_ready [] s').
Proof.
  intros I S HP. rewrite (n_rd _ _ _ _ I), (inv_ready _ _ I). cbn [wpt]. split; [exact I|]. pose proof S as (E & _ & _ & _ & Hn).
  split; [exact Hn|]. rewrite E. split; [reflexivity|].
  destruct (aget cid (db s)) as [r0|] eqn:Er; [|eauto]. exists r0. split; [reflexivity|]. split; [apply evolves_refl|apply HP].
Qed.
Lemma post_done {A} cid (P : result A -> row -> row -> Prop) s s1 H o x r0 res : now s <= now s1 -> aget cid (db s) = Some r0 -> 
  Foc (armed arm) g cid (adel cid (db s)) (bookings g (adel cid (db s))) H o x s1 -> Fin arm H o x s1 ->
  Ctx g cid (adel cid (db s)) (bookings g (adel cid (db s))) r0 -> evolves r0 (lr x) -> P res r0 (lr x) ->
  Post cid P s res s1.
Proof.
  intros Hn Hr F G C Ev HP. split; [eapply foc_inv; eauto|]. split; [exact Hn|]. split.
  - intros k Hk. rewrite <- (aget_adel_ne k cid (db s1)) by exact Hk. rewrite (f_D _ _ _ _ _ _ _ _ _ F). apply aget_adel_ne, Hk.
  - rewrite Hr. exists (lr x). split; [apply (f_row _ _ _ _ _ _ _ _ _ F)|auto].
Qed.
Lemma post_end {A} cid (P : result A -> row -> row -> Prop) s s1 H o x r0 res : now s <= now s1 -> aget cid (db s) = Some r0 -> 
  Foc (armed arm) g cid (adel cid (db s)) (bookings g (adel cid (db s))) H o x s1 -> Fin arm H o x s1 ->
  Ctx g cid (adel cid (db s)) (bookings g (adel cid (db s))) r0 -> evolves r0 (lr x) -> P res r0 (lr x) ->
  wpt Dl g (ready s1) (Post cid P s res) (set_ready [] s1).
Proof.
  intros Hn Hr F G C Ev HP. assert (I : Inv s1) by (eapply foc_inv; eauto). rewrite (n_rd _ _ _ _ I), (inv_ready _ _ I). cbn [wpt].
  eapply post_done; eauto.
Qed.

(** * commit *)
Definition p_commit (x : result string) (r0 r' : row) : Prop :=
  match x with
  | Ok _ => c_r r0 = RHeld /\ r' = with_r RStart (set_alloc true r0)
  | Err _ => r' = r0 \/ (c_r r0 = RHeld /\ r' = with_r RStart (set_alloc true r0) /\ c_end r0 <> None)
  end.
Lemma liveb_eq r r' : c_l r = c_l r' -> (c_r r = RHeld \/ c_alloc r = true <-> c_r r' = RHeld \/ c_alloc r' = true) -> liveb r = liveb r'.
Proof.
  intros Hl Hh. unfold liveb. rewrite Hl. f_equal. apply eq_true_iff_eq. rewrite !orb_true_iff, !eqb_true. tauto.
Qed.
Lemma armed_idle t tm r : c_active r = false -> (c_r r = RHeld -> c_l r <> LCreated) -> armed arm t tm r.
Proof. intros Ha Hn. split; [congruence|]. intros _ H1 H2. exfalso. exact (Hn H1 H2). Qed.
Lemma armed_up t tm r : c_r r = RStart -> (forall e, c_end r = Some e -> exists o' due, tm = Some (TEndtime o', due) /\ due <= Z.max e t) -> armed arm t tm r.
Proof. intros Hr H. split; [intros _ _; exact H|]. congruence. Qed.
Lemma w_commit h cid s : Inv s -> wpo Dl g (reserve_commit g h cid) (Post cid p_commit s) s.
Proof.
  intros I. unfold wpo, reserve_commit. apply w_bind. apply (w_open arm g Dl); [exact I| |].
  { intros e s' I' S'. apply post_refused; auto. intros r. left. reflexivity. }
  intros r Hr _ H o s1 S1 D R x F1 G1 C1 I1. subst x.
  apply w_bind. eapply w_obj; [exact F1|]. loc_cbn.
  destruct (gone (c_l r)) eqn:Eg.
  { cbn [wp]. apply post_refused; auto. intros r'. left. reflexivity. }
  assert (Hn1 : now s <= now s1) by apply S1.
  apply w_bind. eapply w_modify; [exact F1|reflexivity|]. loc_cbn. intros s2 F2 N2.
  apply w_bind. destruct (eqb_ok (c_r r) RHeld) as [Eh|Eh].
  2:{ eapply (w_state (armed arm) g cid D R H o Dl _ _ _ _ _ (c_states (set_alloc true r)) (Some EInternalServer)); [exact F2| |].
      { rewrite op_commit. change (st_r _) with (c_r r). loc_cbn. destruct (c_r r); congruence. }
      loc_cbn. intros s3 F3 N3. eapply post_end; [|exact Hr|exact F3| |exact C1|apply evolves_refl|left; reflexivity]; [lia|].
      apply start_fin. eapply start_mono; [|exact G1]. lia. }
  eapply (w_state (armed arm) g cid D R H o Dl); [exact F2|rewrite op_commit; change (st_r _) with (c_r r); rewrite Eh; reflexivity|].
  loc_cbn. intros s3 F3 N3. change (set_states _ _) with (with_r RStart (set_alloc true r)) in F3.
  pose proof G1 as (K & _ & _).
  assert (Hl : liveb r = liveb (with_r RStart (set_alloc true r))).
  { apply liveb_eq; [reflexivity|]. rewrite Eh. cbn. tauto. }
  assert (Hidle : c_active r = false).
  { apply (k_unalloc _ _ _ K). pose proof (k_alloc _ _ _ K) as Ka. destruct (c_alloc r); [|reflexivity]. rewrite Eh in Ka. discriminate Ka; reflexivity. }
  assert (Ev : evolves r (with_r RStart (set_alloc true r))) by ev.
  apply w_bind. eapply w_cancel; [exact F3|]. loc_cbn. intros s4 F4 N4.
  assert (K4 : row_ok (now s4) (view_of cid (outs s)) (with_r RStart (set_alloc true r))).
  { apply ok_commit; [|exact Eh]. eapply row_ok_mono; [|exact K]. lia. }
  assert (Hend : forall tm, (forall t due, tm = Some (t, due) -> timer_ok t due (with_r RStart (set_alloc true r)) /\ task_obj t = o) ->
     forall s5, now s4 <= now s5 -> Foc (armed arm) g cid D R H o (mkLoc (with_r RStart (set_alloc true r)) (liveb r) tm (view_of cid (outs s)) (with_r RStart (set_alloc true r)) []) s5 ->
     WP (emits (OCommitConfirmed cid) ;;; await WParent ;;; Ret cid) (fun a s1 => wpt Dl g (ready s1) (Post cid p_commit s (Ok a)) (set_ready [] s1))
        (fun e s1 => wpt Dl g (ready s1) (Post cid p_commit s (Err e)) (set_ready [] s1)) s5).
  { intros tm Htm s5 N5 F5. apply w_bind. eapply w_emits; [reflexivity|exact F5|discriminate|]. loc_cbn. intros s6 F6 N6.
    apply w_bind. eapply w_await; [discriminate|exact F6|]. intros s7 F7 N7. cbn [wp].
    eapply post_end; [|exact Hr|exact F7| |exact C1|exact Ev|split; [exact Eh|reflexivity]]; [lia|]. loc_cbn.
    split; [exact Hl|]. split; [|split; [reflexivity|split; [apply armed_idle; [exact Hidle|nh]|]]].
    - loc_cbn. unfold see. cbn [out_id]. rewrite eqb_refl. apply ok_com; [|reflexivity]. eapply row_ok_mono; [|exact K4]. lia.
    - loc_cbn. intros t due E. destruct (Htm t due E) as [T1 T2]. auto. }
  apply w_bind. destruct (c_end r) as [e|] eqn:Ee.
  - eapply w_schedule; [exact F4|reflexivity| |].
    + loc_cbn. intros _ s5 F5 N5. eapply Hend; [|lia|exact F5]. intros t due [= <- <-]. split; [|reflexivity].
      split; [reflexivity|]. exists e. split; [exact Ee|lia].
    + intros _. eapply post_end; [|exact Hr|exact F4| |exact C1|exact Ev|right; split; [exact Eh|split; [reflexivity|congruence]]]; [lia|].
      split; [exact Hl|]. split; [exact K4|]. split; [reflexivity|]. split; [apply armed_idle; [exact Hidle|nh]|discriminate].
  - cbn [wp]. eapply Hend; [|lia|exact F4]. discriminate.
Qed.

(** * abort *)
Definition p_abort (x : result string) (r0 r' : row) : Prop :=
  match x with
  | Ok _ => (c_r r0 <> RHeld /\ r' = r0) \/ (c_r r0 = RHeld /\ c_r r' <> RHeld /\ c_alloc r' = false)
  | Err _ => r' = r0
  end.
Lemma rolled_fin H o n x x' r v s : rollback_out o n x x' -> n <= now s -> lo x = r -> lrd x = [] -> lv x = v ->
  row_ok (now s) v r -> c_r r = RHeld -> c_l r = LCreated -> Fin arm H o x' s /\ evolves r (lr x') /\ c_r (lr x') = RStart /\ c_alloc (lr x') = false /\ lv x' = v /\ lo x' = lr x'.
Proof.
  intros Ho Hn E1 E2 E3 K Hr Hl.
  assert (Ha : c_alloc r = false).
  { pose proof (k_alloc _ _ _ K) as Ka. destruct (c_alloc r); [|reflexivity]. rewrite Hr in Ka. discriminate Ka; reflexivity. }
  destruct (k_unalloc _ _ _ K Ha) as [Hact _].
  assert (G : forall l tm, l = LCreated \/ (l = LPassedEnd /\ exists e, c_end r = Some e /\ e <= now s) ->
    (forall t due, tm = Some (t, due) -> t = TEndtime o /\ exists e, c_end r = Some e /\ e <= due) -> x' = rolled l tm x ->
    Fin arm H o x' s /\ evolves r (lr x') /\ c_r (lr x') = RStart /\ c_alloc (lr x') = false /\ lv x' = v /\ lo x' = lr x').
  { intros l tm Hl' Htm ->. unfold rolled. loc_cbn. rewrite E1, E2, E3.
    split; [|split; [|split; [reflexivity|split; [exact Ha|split; reflexivity]]]].
    - split; loc_cbn.
      { unfold liveb. cbn [set_states c_alloc]. rewrite Ha. reflexivity. }
      split; [apply ok_rolled; auto|]. split; [reflexivity|]. split; [apply armed_idle; [exact Hact|nh]|].
      intros t due Et. destruct (Htm t due Et) as [-> Hd]. split; [|auto]. split; [reflexivity|exact Hd].
    - unfold evolves, live, heldend. split; [reflexivity|]. cbn [set_states c_r c_states st_r c_alloc c_l st_l]. rewrite Ha. unfold c_r, c_l. cbn. intuition congruence. }
  destruct Ho as [(He & Hx)|[(e & t1 & He & H1 & H2 & Hx)|(e & He & H1 & Hx)]].
  - refine (G _ _ _ _ Hx); [|discriminate]. left. rewrite E1. exact Hl.
  - refine (G _ _ _ _ Hx); [left; rewrite E1; exact Hl|]. intros t due [= <- <-]. split; [reflexivity|]. exists e. rewrite <- E1. split; [exact He|lia].
  - refine (G _ _ _ _ Hx); [|discriminate]. right. split; [reflexivity|]. exists e. rewrite <- E1. split; [exact He|lia].
Qed.
Lemma bookings_In e d : NoDup (akeys d) -> In e (bookings g d) -> exists k r, aget k d = Some r /\ live r /\ In e (bk g r).
Proof.
  intros Hnd He. apply in_flat_map in He as ([k r] & Hk & He). cbn [snd] in He. destruct (liveb r) eqn:El; [|destruct He].
  exists k, r. split; [apply In_aget; auto|]. split; [apply liveb_live, El|exact He].
Qed.
Lemma w_abort h cid s : Inv s -> wpo Dl g (reserve_abort g h cid) (Post cid p_abort s) s.
Proof.
  intros I. unfold wpo, reserve_abort. apply w_bind. apply (w_open arm g Dl); [exact I| |].
  { intros e s' I' S'. apply post_refused; auto. intros r. reflexivity. }
  intros r Hr _ H o s1 S1 D R x F1 G1 C1 I1. subst x.
  apply w_bind. eapply w_obj; [exact F1|]. loc_cbn.
  destruct (gone (c_l r)) eqn:Eg.
  { cbn [wp]. apply post_refused; auto. intros r'. reflexivity. }
  assert (Hn1 : now s <= now s1) by apply S1. pose proof G1 as (K & _ & _).
  assert (Hend : forall x s2, Foc (armed arm) g cid D R H o x s2 -> now s1 <= now s2 -> Fin arm H o x s2 -> evolves r (lr x) ->
     p_abort (Ok cid) r (lr x) ->
     WP (emits (OAbortConfirmed cid) ;;; Ret cid) (fun a s1 => wpt Dl g (ready s1) (Post cid p_abort s (Ok a)) (set_ready [] s1))
        (fun e s1 => wpt Dl g (ready s1) (Post cid p_abort s (Err e)) (set_ready [] s1)) s2).
  { intros x s2 F2 N2 G2 Ev HP. apply w_bind. eapply w_quiet; [reflexivity|reflexivity|exact F2|]. intros s3 F3 N3. cbn [wp].
    eapply post_end; [|exact Hr|exact F3| |exact C1|exact Ev|exact HP]; [lia|]. eapply fin_mono; [|exact G2]. lia. }
  apply w_bind. destruct (eqb_ok (c_r r) RHeld) as [Eh|Eh].
  - assert (Ha : c_alloc r = false).
    { pose proof (k_alloc _ _ _ K) as Ka. destruct (c_alloc r); [|reflexivity]. rewrite Eh in Ka. discriminate Ka; reflexivity. }
    destruct (k_unalloc _ _ _ K Ha) as [Hact _]. destruct (k_l _ _ _ K) as [El|[El|El]].
    + eapply w_rollback; [exact F1|left; exact Eh|exact El|exact Ha|exact Hact| |].
      { loc_cbn. apply liveb_live. split; auto. }
      intros x' s2 F2 N2 Ho.
      destruct (rolled_fin H o _ _ x' r (view_of cid (outs s)) s2 Ho) as (G2 & Ev & E1 & E2 & _); try reflexivity; auto; [eapply row_ok_mono; [|exact K]; lia|].
      eapply Hend; [exact F2|lia|exact G2|exact Ev|]. right. rewrite E1. split; [exact Eh|]. split; [discriminate|exact E2].
    + assert (Hd : heldend r) by (split; auto). eapply w_rollback_absent; [exact F1|exact Eh| | |].
      { loc_cbn. unfold liveb. rewrite El. rewrite andb_false_r. reflexivity. }
      { loc_cbn. intros e He Hin. apply bookings_In in Hin as (k & r' & Hk & Hlr & He').
        - destruct (x_l _ _ _ _ _ C1 k r' Hk) as [_ S2]. eapply S2; eauto.
        - apply NoDup_akeys_adel, (n_nd _ _ _ _ I). }
      loc_cbn. intros s2 F2 N2. eapply Hend; [exact F2|lia| | |].
      * split; loc_cbn; [unfold liveb; rewrite (eqb_neq (c_l (with_r RAborting r)) LCreated) by (cbn; rewrite El; discriminate); rewrite andb_false_r; reflexivity|].
        split; [apply ok_aborting; auto; eapply row_ok_mono; [|exact K]; lia|]. split; [reflexivity|]. split; [apply armed_idle; [exact Hact|nh]|discriminate].
      * ev.
      * right. split; [exact Eh|]. split; [discriminate|exact Ha].
    + rewrite El in Eg. discriminate.
  - destruct (k_r _ _ _ K) as [Er|[Er|[Er _]]].
    1, 3: eapply w_rollback_illegal; [exact F1| | | |]; [loc_cbn; congruence|loc_cbn; congruence|loc_cbn; congruence|];
      intros s2 F2 N2; (eapply Hend; [exact F2|lia| |apply evolves_refl|left; split; [exact Eh|reflexivity]]);
      apply start_fin; eapply start_mono; [|exact G1]; lia.
    congruence.
Qed.

(** * provision *)
Definition p_provision (x : result string) (r0 r' : row) : Prop :=
  match x with
  | Ok _ => c_alloc r0 = true /\ c_l r0 = LCreated /\ exists b, r' = set_active b (with_p PProvisioned r0)
  | Err _ => r' = r0 \/ r' = with_p PProvisioning r0
  end.
Lemma set_active_same b r : c_active r = b -> set_active b r = r.
Proof. destruct r. cbn. intros <-. reflexivity. Qed.
Lemma w_provision h cid s : Inv s -> wpo Dl g (provision g h cid) (Post cid p_provision s) s.
Proof.
  intros I. unfold wpo, provision. apply w_bind. apply (w_open arm g Dl); [exact I| |].
  { intros e s' I' S'. apply post_refused; auto. intros r. left. reflexivity. }
  intros r Hr _ H o s1 S1 D R x F1 G1 C1 I1. subst x.
  assert (Href : forall e, wpt Dl g (ready s1) (Post cid p_provision s (Err e)) (set_ready [] s1)).
  { intros e. apply post_refused; auto. intros r'. left. reflexivity. }
  apply w_bind. eapply w_obj; [exact F1|]. loc_cbn.
  destruct (c_alloc r) eqn:Ea; [|exact (Href _)]. cbn [negb].
  destruct (gone (c_l r)) eqn:Eg; [exact (Href _)|].
  destruct (eqb_ok (c_r r) RStart) as [Er|Er]; [|exact (Href _)]. cbn [negb].
  apply w_bind. cbn [get wp].
  destruct (match c_end r with Some e => e <=? now s1 | None => false end) eqn:Ee; [exact (Href _)|].
  assert (Hn1 : now s <= now s1) by apply S1. pose proof G1 as (K & _ & _).
  assert (El : c_l r = LCreated).
  { destruct (k_l _ _ _ K) as [El|[El|El]]; [exact El| |rewrite El in Eg; discriminate].
    destruct (k_end _ _ _ K El) as (e & E1 & E2). rewrite E1 in Ee. lia. }
  apply w_bind. assert (Hp : (c_p r = PReleased \/ c_p r = PProvisioning) \/ (c_p r = PProvisioned \/ c_p r = PReleasing)) by (destruct (c_p r); auto).
  destruct Hp as [Hp|Hp].
  2:{ eapply (w_state (armed arm) g cid D R H o Dl _ _ _ _ _ (c_states r) (Some EInternalServer)); [exact F1| |].
      { rewrite op_provisioning. change (st_p _) with (c_p r). destruct Hp as [-> | ->]; reflexivity. }
      loc_cbn. intros s3 F3 N3. eapply post_end; [|exact Hr|exact F3| |exact C1|apply evolves_refl|left; reflexivity]; [lia|].
      apply start_fin. eapply start_mono; [|exact G1]. lia. }
  assert (Hidle : c_active r = false) by (apply (k_prov _ _ _ K); destruct Hp as [-> | ->]; discriminate).
  assert (Hlive : forall p, liveb r = liveb (with_p p r)) by (intros p; apply liveb_eq; [reflexivity|]; cbn; tauto).
  assert (Hev : forall p, evolves r (with_p p r)) by (intros p; ev).
  eapply (w_state (armed arm) g cid D R H o Dl); [exact F1|rewrite op_provisioning; loc_cbn; change (st_p _) with (c_p r); instantiate (1 := None); instantiate (1 := mkStates (c_r r) PProvisioning (c_l r)); destruct Hp as [-> | ->]; reflexivity|].
  loc_cbn. intros s2 F2 N2. change (set_states _ _) with (with_p PProvisioning r) in F2.
  apply w_bind. eapply w_cancel; [exact F2|]. loc_cbn. intros s3 F3 N3.
  apply w_bind.
  assert (Hend : forall tm rd, (tm = None /\ rd = [TActivate o] /\ (forall b, c_start r = Some b -> b <= now s3) \/
       exists due, tm = Some (TActivate o, due) /\ rd = [] /\ forall b, c_start r = Some b -> b <= due) ->
     forall s5, now s3 <= now s5 -> Foc (armed arm) g cid D R H o (mkLoc (with_p PProvisioning r) (liveb r) tm (view_of cid (outs s)) (with_p PProvisioning r) rd) s5 ->
     WP (state_change OpProvisioned o ;;; emits (OProvisionConfirmed cid) ;;; Ret cid) (fun a s1 => wpt Dl g (ready s1) (Post cid p_provision s (Ok a)) (set_ready [] s1))
        (fun e s1 => wpt Dl g (ready s1) (Post cid p_provision s (Err e)) (set_ready [] s1)) s5).
  { intros tm rd Htm s5 N5 F5. apply w_bind. eapply (w_state (armed arm) g cid D R H o Dl); [exact F5|reflexivity|].
    loc_cbn. intros s6 F6 N6. change (set_states _ _) with (with_p PProvisioned r) in F6.
    apply w_bind. eapply w_quiet; [reflexivity|reflexivity|exact F6|]. intros s7 F7 N7. cbn [wp].
    assert (K7 : row_ok (now s7) (view_of cid (outs s)) (with_p PProvisioned r)).
    { apply ok_prov; auto. eapply row_ok_mono; [|exact K]. lia. }
    destruct Htm as [(-> & -> & Hbg)|(due & -> & -> & Hbg)].
    - rewrite (f_rd _ _ _ _ _ _ _ _ _ F7). loc_cbn. cbn [wpt task_prog].
      pose proof (foc_ready _ _ _ _ _ _ _ _ _ [] F7) as F8. loc_cbn.
      assert (Hact : forall s9 x', Foc (armed arm) g cid D R H o x' s9 -> now s7 <= now s9 -> activated o (now s9) (mkLoc (with_p PProvisioned r) (liveb r) None (view_of cid (outs s)) (with_p PProvisioned r) []) x' ->
         Post cid p_provision s (Ok cid) s9).
      { intros s9 x' F9 N9 Ho. 
        assert (K9 : row_ok (now s9) (view_of cid (outs s)) (with_p PProvisioned r)) by (eapply row_ok_mono; [|exact K7]; lia).
        assert (Hlb : forall b, liveb r = liveb (set_active b (with_p PProvisioned r))) by (intros b; apply liveb_eq; [reflexivity|]; cbn; tauto).
        assert (Hevb : forall b, evolves r (set_active b (with_p PProvisioned r))) by (intros b; ev).
        destruct Ho as [->|[(He & ->)|(e & due & He & H1 & H2 & ->)]]; loc_cbn;
          (eapply post_done; [|exact Hr|exact F9| |exact C1|apply Hevb|split; [exact Ea|split; [exact El|eexists; reflexivity]]]; [lia|]);
          (split; [apply Hlb|]); loc_cbn.
        - rewrite (set_active_same false (with_p PProvisioned r) Hidle). split; [exact K9|]. split; [reflexivity|]. split; [apply armed_idle; [exact Hidle|nh]|discriminate].
        - split; [apply ok_up; auto; intros b0 Hb0; specialize (Hbg b0 Hb0); lia|]. split; [reflexivity|]. split; [|discriminate].
          apply armed_up; [exact Er|]. intros e E'. change (c_end (set_active true (with_p PProvisioned r))) with (c_end (with_p PProvisioned r)) in E'. congruence.
        - split; [apply ok_up; auto; intros b0 Hb0; specialize (Hbg b0 Hb0); lia|]. split; [reflexivity|]. split.
          + apply armed_up; [exact Er|]. intros e' E'. change (c_end (set_active true (with_p PProvisioned r))) with (c_end (with_p PProvisioned r)) in E'. assert (e' = e) by congruence. subst e'. exists o, due. split; [reflexivity|exact H2].
          + intros t d [= <- <-]. split; [|left; split; reflexivity]. split; [exact Er|]. exists e. split; [exact He|exact H1]. }
      eapply wp_mono; [| |eapply (w_activate (armed arm) g cid D R H o Dl _ _ (fun _ => Post cid p_provision s (Ok cid)) (fun _ => Post cid p_provision s (Ok cid))); [exact F8|reflexivity| |]].
      + intros u s9 HP. exact HP.
      + intros u s9 HP. exact HP.
      + eapply ctx_apart; [exact F8|exact C1|split; [right; exact Ea|exact El]|reflexivity].
      + intros x' s9 F9 N9 Ho. eapply Hact; [exact F9| |exact Ho]. unfold now in *. cbn in N9. lia.
    - eapply post_end; [|exact Hr|exact F7| |exact C1|apply Hev|]; [lia| |].
      + split; loc_cbn; [apply Hlive|]. split; [exact K7|]. split; [reflexivity|]. split; [apply armed_idle; [exact Hidle|nh]|].
        intros t d [= <- <-]. split; [|left; split; reflexivity]. split; [exact Ea|]. split; [exact Er|]. split; [reflexivity|]. split; [exact El|split; [exact Hidle|exact Hbg]].
      + split; [exact Ea|]. split; [exact El|]. exists false. loc_cbn. symmetry. apply set_active_same. exact Hidle. }
  assert (Himm : (forall b, c_start r = Some b -> b <= now s3) -> WP (upd (push (TActivate o))) (fun _ s' => WP (state_change OpProvisioned o ;;; emits (OProvisionConfirmed cid) ;;; Ret cid) (fun a s1 => wpt Dl g (ready s1) (Post cid p_provision s (Ok a)) (set_ready [] s1))
        (fun e s1 => wpt Dl g (ready s1) (Post cid p_provision s (Err e)) (set_ready [] s1)) s')
        (fun e s1 => wpt Dl g (ready s1) (Post cid p_provision s (Err e)) (set_ready [] s1)) s3).
  { intros Hbg. eapply w_push; [exact F3|]. loc_cbn. intros s4 F4 N4. eapply Hend; [left; auto|lia|exact F4]. }
  destruct (c_start r) as [b|] eqn:Eb; [|apply Himm; discriminate]. destruct (b <=? now s1) eqn:Ebn; [apply Himm; intros b0 [= <-]; lia|].
  eapply w_schedule; [exact F3|reflexivity| |].
  - loc_cbn. intros _ s5 F5 N5. refine (Hend _ _ _ s5 _ F5); [|lia]. right. eexists. split; [reflexivity|]. split; [reflexivity|]. intros b0 [= <-]. lia.
  - intros _. eapply post_end; [|exact Hr|exact F3| |exact C1|apply Hev|right; reflexivity]; [lia|].
    split; loc_cbn; [apply Hlive|]. split; [apply ok_prov; auto; eapply row_ok_mono; [|exact K]; lia|]. split; [reflexivity|]. split; [apply armed_idle; [exact Hidle|nh]|discriminate].
Qed.

(** * release *)
Definition p_release (x : result string) (r0 r' : row) : Prop :=
  match x with
  | Ok _ => r' = set_active false (with_p PReleased r0)
  | Err _ => r' = r0 \/ r' = set_active false (with_p PReleasing r0)
  end.
Lemma w_release h cid s : Inv s -> wpo Dl g (release g h cid) (Post cid p_release s) s.
Proof.
  intros I. unfold wpo, release. apply w_bind. apply (w_open arm g Dl); [exact I| |].
  { intros e s' I' S'. apply post_refused; auto. intros r. left. reflexivity. }
  intros r Hr _ H o s1 S1 D R x F1 G1 C1 I1. subst x.
  apply w_bind. eapply w_obj; [exact F1|]. loc_cbn.
  destruct (gone (c_l r)) eqn:Eg.
  { cbn [wp]. apply post_refused; auto. intros r'. left. reflexivity. }
  assert (Hn1 : now s <= now s1) by apply S1. pose proof G1 as (K & _ & _).
  apply w_bind. assert (Hp : (c_p r = PReleased \/ c_p r = PProvisioning) \/ (c_p r = PProvisioned \/ c_p r = PReleasing)) by (destruct (c_p r); auto).
  destruct Hp as [Hp|Hp].
  { eapply (w_state (armed arm) g cid D R H o Dl _ _ _ _ _ (c_states r) (Some EInternalServer)); [exact F1| |].
    { rewrite op_releasing. change (st_p _) with (c_p r). destruct Hp as [-> | ->]; reflexivity. }
    loc_cbn. intros s3 F3 N3. eapply post_end; [|exact Hr|exact F3| |exact C1|apply evolves_refl|left; reflexivity]; [lia|].
    apply start_fin. eapply start_mono; [|exact G1]. lia. }
  assert (Ea : c_alloc r = true).
  { destruct (c_alloc r) eqn:E; [reflexivity|]. destruct (k_unalloc _ _ _ K E) as [_ E']. destruct Hp; congruence. }
  pose proof (k_alloc _ _ _ K Ea) as Er.
  assert (Hlive : forall p, liveb r = liveb (set_active false (with_p p r))) by (intros p; apply liveb_eq; [reflexivity|]; cbn; tauto).
  assert (Hev : forall p, evolves r (set_active false (with_p p r))) by (intros p; ev).
  eapply (w_state (armed arm) g cid D R H o Dl); [exact F1|rewrite op_releasing; loc_cbn; change (st_p _) with (c_p r); instantiate (1 := None); instantiate (1 := mkStates (c_r r) PReleasing (c_l r)); destruct Hp as [-> | ->]; reflexivity|].
  loc_cbn. intros s2 F2 N2. change (set_states _ _) with (with_p PReleasing r) in F2.
  apply w_bind. eapply w_cancel; [exact F2|]. loc_cbn. intros s3 F3 N3.
  apply w_bind. eapply w_obj; [exact F3|]. loc_cbn.
  assert (Hend : forall v s4, now s3 <= now s4 -> (forall p t, now s1 <= t -> row_ok t v (set_active false (with_p p r))) ->
    Foc (armed arm) g cid D R H o (mkLoc (set_active false (with_p PReleasing r)) (liveb r) None v (set_active false (with_p PReleasing r)) []) s4 ->
    WP (match c_end (with_p PReleasing r) with Some e => schedule cid e (TEndtime o) | None => Ret tt end ;;;
        state_change OpReleased o ;;; emits (OReleaseConfirmed cid) ;;; Ret cid)
        (fun a s1 => wpt Dl g (ready s1) (Post cid p_release s (Ok a)) (set_ready [] s1))
        (fun e s1 => wpt Dl g (ready s1) (Post cid p_release s (Err e)) (set_ready [] s1)) s4).
  { intros v s4 N4 Kv F4.
    assert (Hfin : forall tm s5, now s4 <= now s5 -> (forall t due, tm = Some (t, due) -> timer_ok t due r /\ t = TEndtime o) ->
      Foc (armed arm) g cid D R H o (mkLoc (set_active false (with_p PReleasing r)) (liveb r) tm v (set_active false (with_p PReleasing r)) []) s5 ->
      WP (state_change OpReleased o ;;; emits (OReleaseConfirmed cid) ;;; Ret cid)
        (fun a s1 => wpt Dl g (ready s1) (Post cid p_release s (Ok a)) (set_ready [] s1))
        (fun e s1 => wpt Dl g (ready s1) (Post cid p_release s (Err e)) (set_ready [] s1)) s5).
    { intros tm s5 N5 Htm F5. apply w_bind. eapply (w_state (armed arm) g cid D R H o Dl); [exact F5|reflexivity|].
      loc_cbn. intros s6 F6 N6. change (set_states _ _) with (set_active false (with_p PReleased r)) in F6.
      apply w_bind. eapply w_quiet; [reflexivity|reflexivity|exact F6|]. intros s7 F7 N7. cbn [wp].
      eapply post_end; [|exact Hr|exact F7| |exact C1|apply Hev|reflexivity]; [lia|].
      split; loc_cbn; [apply Hlive|]. split; [apply Kv; lia|]. split; [reflexivity|]. split; [apply armed_idle; [reflexivity|nh]|].
      intros t due E. destruct (Htm t due E) as [T1 ->]. split; [exact T1|auto]. }
    apply w_bind. change (c_end (with_p PReleasing r)) with (c_end r). destruct (c_end r) as [e|] eqn:Ee.
    - eapply w_schedule; [exact F4|reflexivity| |].
      + loc_cbn. intros _ s5 F5 N5. eapply Hfin; [|  |exact F5]; [lia|]. intros t due [= <- <-]. split; [|reflexivity].
        split; [exact Er|]. exists e. split; [exact Ee|lia].
      + intros _. eapply post_end; [|exact Hr|exact F4| |exact C1|apply Hev|right; reflexivity]; [lia|].
        split; loc_cbn; [apply Hlive|]. split; [apply Kv; lia|]. split; [reflexivity|]. split; [apply armed_idle; [reflexivity|nh]|discriminate].
    - cbn [wp]. eapply Hfin; [|  |exact F4]; [lia|discriminate]. }
  change (c_active (with_p PReleasing r)) with (c_active r).
  apply w_bind. destruct (c_active r) eqn:Eact.
  - apply w_catch. eapply w_teardown; [exact F3|]. loc_cbn. intros s4 F4 N4. eapply Hend; [lia| |exact F4].
    intros p t Ht. change (set_active false (with_p p r)) with (with_p p (set_active false r)).
    apply ok_prov; [apply ok_down; [eapply row_ok_mono; [|exact K]; lia|exact Eact]|exact Ea|reflexivity].
  - cbn [wp]. rewrite <- (set_active_same false (with_p PReleasing r) Eact) in F3 at 1 2. 
    eapply Hend; [lia| |exact F3].
    intros p t Ht. rewrite set_active_same by exact Eact. apply ok_prov; [eapply row_ok_mono; [|exact K]; lia|exact Ea|exact Eact].
Qed.

(** * terminate *)
Definition p_terminate (x : result string) (r0 r' : row) : Prop :=
  match x with
  | Ok _ => r' = set_active false (with_l LTerminated r0)
  | Err _ => r' = r0
  end.
Lemma w_terminate h cid s : Inv s -> wpo Dl g (terminate g h cid) (Post cid p_terminate s) s.
Proof.
  intros I. unfold wpo, terminate. apply w_bind. apply (w_open arm g Dl); [exact I| |].
  { intros e s' I' S'. apply post_refused; auto. intros r. reflexivity. }
  intros r Hr _ H o s1 S1 D R x F1 G1 C1 I1. subst x.
  apply w_bind. eapply w_obj; [exact F1|]. loc_cbn.
  destruct (eqb_ok (c_l r) LTerminated) as [El|El].
  { cbn [wp]. apply post_refused; auto. intros r'. reflexivity. }
  assert (Hn1 : now s <= now s1) by apply S1. pose proof G1 as (K & _ & _).
  apply w_bind. eapply w_cancel; [exact F1|]. loc_cbn. intros s2 F2 N2.
  apply w_bind. eapply (w_state (armed arm) g cid D R H o Dl _ _ _ _ _ (mkStates (c_r r) (c_p r) LTerminating) None); [exact F2| |].
  { rewrite op_terminating. loc_cbn. change (st_l _) with (c_l r). destruct (c_l r); try reflexivity. congruence. }
  loc_cbn. intros s3 F3 N3. change (set_states _ r) with (with_l LTerminating r) in F3.
  assert (Hend : forall v s4, now s3 <= now s4 -> (forall t, now s1 <= t -> row_ok t v (set_active false (with_l LTerminated r))) ->
    Foc (armed arm) g cid D R H o (mkLoc (set_active false (with_l LTerminating r)) false None v (set_active false (with_l LTerminating r)) []) s4 ->
    WP (emits (OTerminateConfirmed cid) ;;; await WParent ;;; state_change OpTerminated o ;;; Ret cid)
        (fun a s1 => wpt Dl g (ready s1) (Post cid p_terminate s (Ok a)) (set_ready [] s1))
        (fun e s1 => wpt Dl g (ready s1) (Post cid p_terminate s (Err e)) (set_ready [] s1)) s4).
  { intros v s4 N4 Kv F4. apply w_bind. eapply w_quiet; [reflexivity|reflexivity|exact F4|]. intros s5 F5 N5.
    apply w_bind. eapply w_await; [discriminate|exact F5|]. intros s6 F6 N6.
    apply w_bind. eapply (w_state (armed arm) g cid D R H o Dl); [exact F6|reflexivity|]. loc_cbn. intros s7 F7 N7.
    change (set_states _ _) with (set_active false (with_l LTerminated r)) in F7. cbn [wp].
    eapply post_end; [|exact Hr|exact F7| |exact C1| |reflexivity]; [lia| |].
    - split; loc_cbn; [unfold liveb; cbn; rewrite andb_false_r; reflexivity|]. split; [apply Kv; lia|]. split; [reflexivity|]. split; [apply armed_idle; [reflexivity|nh]|discriminate].
    - cbn [lr]. ev. }
  assert (Hdown : c_active r = true -> forall t, now s1 <= t -> row_ok t (down (view_of cid (outs s))) (set_active false (with_l LTerminated r))).
  { intros Eact t Ht. change (set_active false (with_l LTerminated r)) with (with_l LTerminated (set_active false r)).
    apply ok_over; [apply ok_down; [eapply row_ok_mono; [|exact K]; lia|exact Eact]|reflexivity|auto]. }
  assert (Hsame : c_active r = false -> forall t, now s1 <= t -> row_ok t (view_of cid (outs s)) (set_active false (with_l LTerminated r))).
  { intros Eact t Ht. rewrite set_active_same by exact Eact. apply ok_over; [eapply row_ok_mono; [|exact K]; lia|exact Eact|auto]. }
  apply w_bind. destruct (eqb_ok (c_l r) LPassedEnd) as [Ep|Ep]; cbn [negb].
  - assert (Eact : c_active r = false) by (apply (k_ended _ _ _ K); rewrite Ep; discriminate).
    cbn [wp]. rewrite <- (set_active_same false (with_l LTerminating r) Eact) in F3 at 1 2.
    replace (liveb r) with false in F3 by (unfold liveb; rewrite Ep, andb_false_r; reflexivity).
    eapply Hend; [| |exact F3]; [lia|apply Hsame, Eact].
  - assert (Ec : c_l r = LCreated) by (destruct (k_l _ _ _ K) as [E|[E|E]]; congruence).
    eapply w_free; [exact F3| |].
    { loc_cbn. cbn. change (c_r (with_l LTerminating r)) with (c_r r). intros Hc. apply liveb_live. split; [|exact Ec].
      destruct Hc as [Hc|[Hc|Hc]]; auto. right. destruct (c_alloc r) eqn:E; [reflexivity|]. destruct (k_unalloc _ _ _ K E). congruence. }
    intros s4 F4 N4. unfold free_loc in F4. loc_cbn.
    change (c_active (with_l LTerminating r)) with (c_active r) in F4. change (c_alloc (with_l LTerminating r)) with (c_alloc r) in F4.
    change (c_r (with_l LTerminating r)) with (c_r r) in F4.
    destruct (c_active r) eqn:Eact.
    + eapply Hend; [| |exact F4]; [lia|apply Hdown; reflexivity].
    + destruct (c_alloc r || eqb (c_r r) RHeld) eqn:Eb; rewrite <- (set_active_same false (with_l LTerminating r) Eact) in F4 at 1 2.
      * eapply Hend; [| |exact F4]; [lia|apply Hsame; reflexivity].
      * replace (liveb r) with false in F4 by (unfold liveb; apply orb_false_iff in Eb as [-> ->]; reflexivity).
        eapply Hend; [| |exact F4]; [lia|apply Hsame; reflexivity].
Qed.
End Api.
