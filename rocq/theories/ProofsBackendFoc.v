(** The local invariant of one connection's operation, and what each primitive
    of a program does to it. *)
From Coq Require Import Permutation.
From Verif Require Import Base ModelLabel ModelSTP ModelAuthz ModelNRM ModelCalendar ModelState ModelScheduler ModelBackend
  SpecCalendar SpecBackend ProofsCalendar ProofsScheduler ProofsBackendWp.
Open Scope Z_scope.

(** * Rows *)
(** the columns that never change *)
Definition core (r : row) : row := set_states (mkStates RStart PReleased LCreated) (set_active false (set_alloc false r)).
Lemma core_fields r r' : core r = core r' ->
  c_id r = c_id r' /\ c_requester r = c_requester r' /\ c_rtime r = c_rtime r' /\ c_sport r = c_sport r' /\ c_slabel r = c_slabel r' /\
  c_dport r = c_dport r' /\ c_dlabel r = c_dlabel r' /\ c_start r = c_start r' /\ c_end r = c_end r'.
Proof. destruct r, r'. unfold core, set_states, set_active, set_alloc. cbn. intros [=]. subst. tauto. Qed.
Lemma core_bk g r r' : core r = core r' -> bk g r = bk g r'.
Proof.
  intros H. apply core_fields in H as (H1 & H2 & H3 & H4 & H5 & H6 & H7 & H8 & H9).
  unfold bk, src_resource, dst_resource. congruence.
Qed.
Lemma liveb_live r : liveb r = true <-> live r.
Proof.
  unfold liveb, live. rewrite andb_true_iff, orb_true_iff, !eqb_true. tauto.
Qed.

(** two connections that never occupy the same resource *)
Definition apart (g : cfg) (r r' : row) : Prop :=
  forall res t, uses g r res -> uses g r' res -> occupies r t -> occupies r' t -> False.
Lemma apart_sym g r r' : apart g r r' -> apart g r' r.
Proof. intros Ha res t H1 H2 H3 H4. eapply Ha; eauto. Qed.
Lemma core_uses g r r' res : core r = core r' -> uses g r res -> uses g r' res.
Proof.
  intros Hc. apply core_fields in Hc as (H1 & H2 & H3 & H4 & H5 & H6 & H7 & H8 & H9).
  unfold uses, src_resource, dst_resource. rewrite H4, H5, H6, H7. auto.
Qed.
Lemma core_occ r r' t : core r = core r' -> occupies r t -> occupies r' t.
Proof.
  intros Hc. apply core_fields in Hc as (H1 & H2 & H3 & H4 & H5 & H6 & H7 & H8 & H9). unfold occupies. rewrite H3, H8, H9. auto.
Qed.
Lemma core_apart g r0 r r' : core r = core r0 -> apart g r0 r' -> apart g r r'.
Proof.
  intros Hc Ha res t H1 H2 H3 H4. eapply Ha; [eapply core_uses; eauto|eauto|eapply core_occ; eauto|eauto].
Qed.

(** what a connection's outputs so far say: link up, commit confirmed, expiry
    reported, and how often the link came up and went down (latest first) *)
Record view := mkView { v_up : bool; v_com : bool; v_exp : bool; v_hist : list bool }.
(** up and down by turns, the first time up *)
Fixpoint turns (l : list bool) (up : bool) : Prop :=
  match l with [] => up = false | b :: l' => b = up /\ turns l' (negb b) end.
Definition out_id (x : output) : string :=
  match x with
  | OReserveConfirmed k _ | OCommitConfirmed k | OAbortConfirmed k | OProvisionConfirmed k | OReleaseConfirmed k
  | OTerminateConfirmed k | OReserveTimeout k | ODataPlane k _ | OErrorEvent k _ | OSetup k _ _ | OSetupDone k _
  | OTeardown k _ _ | OTeardownDone k _ => k
  end.
Definition see (cid : string) (v : view) (x : output) : view :=
  if eqb (out_id x) cid then
    match x with
    | OSetupDone _ true => mkView true (v_com v) (v_exp v) (true :: v_hist v)
    | OTeardown _ _ _ => mkView false (v_com v) (v_exp v) (false :: v_hist v)
    | OCommitConfirmed _ => mkView (v_up v) true (v_exp v) (v_hist v)
    | OReserveTimeout _ => mkView (v_up v) (v_com v) true (v_hist v)
    | _ => v
    end
  else v.
Definition view_of (cid : string) (l : list output) : view := fold_left (see cid) l (mkView false false false []).
Lemma view_snoc cid l x : view_of cid (l ++ [x]) = see cid (view_of cid l) x.
Proof. unfold view_of. rewrite fold_left_app. reflexivity. Qed.
Lemma see_other k x v : out_id x <> k -> see k v x = v.
Proof. intros H. unfold see. rewrite eqb_neq by exact H. reflexivity. Qed.

(** what holds of every stored row between operations *)
Record row_ok (t : Z) (v : view) (r : row) : Prop := {
  k_r : c_r r = RStart \/ c_r r = RHeld \/ (c_r r = RAborting /\ c_l r <> LCreated);
  k_l : c_l r = LCreated \/ c_l r = LPassedEnd \/ c_l r = LTerminated;
  k_alloc : c_alloc r = true -> c_r r = RStart;
  k_unalloc : c_alloc r = false -> c_active r = false /\ c_p r = PReleased;
  k_ended : c_l r <> LCreated -> c_active r = false;
  k_prov : c_p r <> PProvisioned -> c_active r = false;
  k_end : c_l r = LPassedEnd -> exists e, c_end r = Some e /\ e <= t;
  k_fwd : forward forever (c_rtime r) (c_start r) (c_end r);
  k_rt : c_rtime r <= t;
  k_begun : c_active r = true -> forall b, c_start r = Some b -> b <= t;
  k_up : v_up v = c_active r;
  k_turns : turns (v_hist v) (v_up v);
  k_com : v_com v = true -> c_alloc r = true;
  k_exp : v_exp v = true -> c_alloc r = false /\ c_r r <> RHeld }.
Lemma row_ok_mono t t' v r : t <= t' -> row_ok t v r -> row_ok t' v r.
Proof.
  intros Ht K. destruct K. constructor; auto; [|lia|].
  - intros H. destruct (k_end0 H) as (e & H1 & H2). exists e. split; [exact H1|lia].
  - intros Ha b Hb. specialize (k_begun0 Ha b Hb). lia.
Qed.

Definition task_obj (t : task) : nat := match t with TReserve o _ | TTimeout o | TActivate o | TEndtime o => o end.
Definition timer_ok (t : task) (due : Z) (r : row) : Prop :=
  match t with
  | TTimeout _ => c_r r = RHeld /\ c_l r = LCreated
  | TActivate _ => c_alloc r = true /\ c_r r = RStart /\ c_p r = PProvisioned /\ c_l r = LCreated /\ c_active r = false /\ forall b, c_start r = Some b -> b <= due
  | TEndtime _ => c_r r = RStart /\ exists e, c_end r = Some e /\ e <= due
  | TReserve _ _ => False
  end.
Lemma adel_aset {V} k (v : V) (d : list (string * V)) : adel k (aset k v d) = adel k d.
Proof.
  induction d as [|[k' v'] d IH]; cbn -[eqb]; [rewrite eqb_refl; reflexivity|].
  destruct (eqb k k') eqn:E; cbn -[eqb]; rewrite E; [reflexivity|]. rewrite IH. reflexivity.
Qed.
Lemma aget_adel {V} k k' (d : list (string * V)) : NoDup (akeys d) ->
  aget k (adel k' d) = if eqb k k' then None else aget k d.
Proof.
  intros Hnd. destruct (eqb_ok k k') as [->|Hn]; [apply aget_adel_eq, Hnd|apply aget_adel_ne, Hn].
Qed.

(** * The local invariant *)
(** the connection's row, whether its entries are in the calendar, its pending
    timer, its view, the object the program works on, the started tasks *)
Record loc := mkLoc { lr : row; lheld : bool; ltm : option (task * Z); lv : view; lo : row; lrd : list task }.

(** a connection whose link is up has its end armed, a held one its expiry (if
    [arm] is claimed) *)
Definition held_armed (t : Z) (tm : option (task * Z)) (e : option Z) : Prop :=
  (exists o' due, tm = Some (TTimeout o', due) /\ due <= t + TPC_TIMEOUT /\ forall x, e = Some x -> due <= Z.max x t) \/
  exists x, e = Some x /\ x < t.
Definition armed (arm : bool -> Prop) (t : Z) (tm : option (task * Z)) (r : row) : Prop :=
  (arm true -> c_active r = true -> forall e, c_end r = Some e -> exists o' due, tm = Some (TEndtime o', due) /\ due <= Z.max e t) /\
  (arm false -> c_r r = RHeld -> c_l r = LCreated -> held_armed t tm (c_end r)).
(** nothing claimed; claimed of held reservations; both *)
Definition unarmed : bool -> Prop := fun _ => False.
Definition holdarm : bool -> Prop := fun b => b = false.
Definition allarm : bool -> Prop := fun _ => True.
Lemma armed_none t tm r : armed unarmed t tm r.
Proof. split; intros []. Qed.
Lemma armed_mono arm t t' tm r : t <= t' -> armed arm t tm r -> armed arm t' tm r.
Proof.
  intros Ht [A1 A2]. split.
  - intros H1 H2 e H3. destruct (A1 H1 H2 e H3) as (o' & due & H4 & H5). exists o', due. split; [exact H4|lia].
  - intros H1 H2 H3. destruct (A2 H1 H2 H3) as [(o' & due & H4 & H5 & H6)|(x & H4 & H5)].
    + left. exists o', due. split; [exact H4|]. split; [lia|]. intros x Hx. specialize (H6 x Hx). lia.
    + right. exists x. split; [exact H4|lia].
Qed.
Definition v0 : view := mkView false false false [].

(** whenever a link came up while another one was up, the two were apart *)
Definition met (g : cfg) (d : list (string * row)) (l : list output) : Prop :=
  forall pre k post, l = pre ++ OSetupDone k true :: post -> forall k' r r', k' <> k -> v_up (view_of k' pre) = true ->
  aget k d = Some r -> aget k' d = Some r' -> apart g r r'.
Lemma snoc_split {A} (l : list A) x pre y post : l ++ [x] = pre ++ y :: post ->
  (post = [] /\ l = pre /\ x = y) \/ exists post', post = post' ++ [x] /\ l = pre ++ y :: post'.
Proof.
  destruct post as [|z post] using rev_ind; intros E.
  - apply app_inj_tail in E as [E1 E2]. left. auto.
  - right. exists post. rewrite app_comm_cons, app_assoc in E. apply app_inj_tail in E as [E1 E2]. subst. auto.
Qed.
Lemma met_emit g d l x : met g d l -> (forall k, x = OSetupDone k true -> forall k' r r', k' <> k -> v_up (view_of k' l) = true ->
  aget k d = Some r -> aget k' d = Some r' -> apart g r r') -> met g d (l ++ [x]).
Proof.
  intros M K pre k post E k' r r' Hk Hu H1 H2. destruct (snoc_split _ _ _ _ _ E) as [(_ & -> & ->)|(post' & _ & ->)].
  - eapply (K k eq_refl k'); eauto.
  - eapply (M pre k post' eq_refl k'); eauto.
Qed.
Lemma hist_none cid l : v_hist (view_of cid l) = [] -> ~ In (OSetupDone cid true) l.
Proof.
  induction l as [|x l IH] using rev_ind; [tauto|]. rewrite view_snoc. intros Hh Hin. apply in_app_iff in Hin.
  unfold see in Hh. destruct (eqb_ok (out_id x) cid) as [E|E].
  - destruct Hin as [Hin|[->|[]]]; [|discriminate Hh]. apply IH; [|exact Hin].
    destruct x; try exact Hh; try discriminate Hh. destruct ok; [discriminate Hh|exact Hh].
  - destruct Hin as [Hin|[->|[]]]; [exact (IH Hh Hin)|]. apply E. reflexivity.
Qed.
Lemma up_setup cid l : v_up (view_of cid l) = true -> In (OSetupDone cid true) l.
Proof.
  induction l as [|x l IH] using rev_ind; [discriminate|]. rewrite view_snoc, in_app_iff. unfold see.
  destruct (eqb_ok (out_id x) cid) as [E|E]; [|auto]. destruct x; cbn [v_up]; auto; try discriminate.
  cbn in E. subst. destruct ok; [|auto]. right. left. reflexivity.
Qed.
(** a connection just stored has had no link *)
Lemma met_new g d l k r : met g d l -> v_hist (view_of k l) = [] -> met g (aset k r d) l.
Proof.
  intros M Hh pre k1 post E k' r1 r' Hk Hu. apply hist_none in Hh.
  assert (H1 : k1 <> k) by (intros ->; apply Hh; rewrite E; apply in_app_iff; right; left; reflexivity).
  assert (H2 : k' <> k) by (intros ->; apply Hh; rewrite E; apply in_app_iff; left; apply up_setup, Hu).
  rewrite !aget_aset_ne by assumption. apply (M pre k1 post E k' r1 r' Hk Hu).
Qed.
Lemma met_core g d l k r0 r : met g d l -> aget k d = Some r0 -> core r = core r0 -> met g (aset k r d) l.
Proof.
  intros M H0 Hc pre k1 post E k' r1 r' Hk Hu. rewrite !aget_aset. specialize (M pre k1 post E k').
  destruct (eqb_ok k1 k) as [->|N1]; [|destruct (eqb_ok k' k) as [->|N2]].
  - intros [= <-]. rewrite eqb_neq by exact Hk. intros H2. eapply core_apart; [exact Hc|]. apply (M r0 r' Hk Hu H0 H2).
  - intros H1 [= <-]. apply apart_sym. eapply core_apart; [exact Hc|]. apply apart_sym. apply (M r1 r0 Hk Hu H1 H0).
  - apply (M r1 r' Hk Hu).
Qed.

Section Foc.
(** what is known of every other connection's timer *)
Variable arm : Z -> option (task * Z) -> row -> Prop.
Variables (g : cfg) (cid : string).
Variable D : list (string * row).     (* the other rows *)
Variable R : list entry.              (* the other entries in the calendar *)
Variable H : list (nat * row).        (* other objects in use *)
Variable o : nat.

Record Foc (x : loc) (s : st) : Prop := mkFoc {
  f_row : aget cid (db s) = Some (lr x);
  f_D : adel cid (db s) = D;
  f_nd : NoDup (akeys (db s));
  f_oth : forall k r, aget k D = Some r -> c_id r = k /\ row_ok (now s) (view_of k (outs s)) r;
  f_cal : Permutation (cal s) ((if lheld x then bk g (lr x) else []) ++ R);
  f_tm : pend s cid = ltm x;
  f_tms : forall k t due, k <> cid -> pend s k = Some (t, due) ->
          exists r, aget k D = Some r /\ aget (task_obj t) (heap s) = Some r /\ timer_ok t due r;
  f_arm : forall k r, aget k D = Some r -> arm (now s) (pend s k) r;
  f_mono : forall t t' tm r, t <= t' -> arm t tm r -> arm t' tm r;
  f_new : forall k, k <> cid -> aget k D = None -> view_of k (outs s) = v0;
  f_heap : forall o' r, aget o' (heap s) = Some r -> (o' < nobj s)%nat;
  f_H : forall o' r, In (o', r) H -> aget o' (heap s) = Some r /\ o' <> o;
  f_idle : forall o' r, In (o', r) H -> c_id r <> cid -> aget (c_id r) (s_dict (sch s)) = None;
  f_obj : aget o (heap s) = Some (lo x);
  f_core : core (lo x) = core (lr x);
  f_id : c_id (lr x) = cid;
  f_sinv : sinv (sch s);
  f_calls : forall id, aget id (s_queue (sch s)) <> None -> aget id (calls s) <> None;
  f_fresh : forall id, aget id (calls s) <> None -> (id < s_next (sch s))%nat;
  f_met : met g (db s) (outs s);
  f_view : view_of cid (outs s) = lv x;
  f_rd : ready s = lrd x }.

Lemma foc_oid x s : Foc x s -> c_id (lo x) = cid.
Proof. intros F. pose proof (core_fields _ _ (f_core _ _ F)) as (E & _). rewrite E. apply (f_id _ _ F). Qed.

Lemma foc_cid_notin x s k r : Foc x s -> aget k D = Some r -> k <> cid.
Proof.
  intros F Hk ->. rewrite <- (f_D _ _ F) in Hk. rewrite aget_adel_eq in Hk; [discriminate|apply F].
Qed.

Lemma foc_tick x s dt : Foc x s -> Foc x (tick dt s).
Proof.
  intros F. destruct F. constructor; auto.
  - intros k r Hk. destruct (f_oth0 k r Hk) as [H1 H2]. split; [exact H1|]. eapply row_ok_mono; [|exact H2]. cbn. unfold now. lia.
  - intros k r Hk. eapply f_mono0; [|exact (f_arm0 k r Hk)]. unfold now. cbn. lia.
  - unfold tick. cbn. apply (sched_step_inv (sch s) (STick dt)), f_sinv0.
Qed.
Lemma now_tick dt s : now s <= now (tick dt s).
Proof. clear. unfold now, tick. cbn. lia. Qed.

Lemma foc_emit x s y : Foc x s -> out_id y = cid ->
  (y = OSetupDone cid true -> forall k r', aget k D = Some r' -> c_active r' = true -> apart g (lr x) r') ->
  Foc (mkLoc (lr x) (lheld x) (ltm x) (see cid (lv x) y) (lo x) (lrd x)) (emit y s).
Proof.
  intros F Hy Hap. assert (Hni : forall k r, aget k D = Some r -> k <> cid) by (intros k1 r1; apply (foc_cid_notin x s k1 r1 F)). destruct F. constructor; cbn [lr lheld ltm lv lo lrd]; auto.
  - intros k r Hk. destruct (f_oth0 k r Hk) as [H1 H2]. split; [exact H1|]. cbn [emit outs]. rewrite view_snoc, see_other; [exact H2|].
    rewrite Hy. intros E. assert (k <> cid) by (apply (Hni k r Hk)). congruence.
  - intros k Hk Hd. cbn [emit outs]. rewrite view_snoc, see_other; [auto|]. congruence.
  - cbn [emit outs db]. apply met_emit; [exact f_met0|]. intros k -> k' r r' Hk Hu H1 H2. cbn [out_id] in Hy. subst k.
    rewrite f_row0 in H1. injection H1 as <-. rewrite <- (aget_adel_ne k' cid (db s) Hk), f_D0 in H2.
    apply (Hap eq_refl k' r' H2). destruct (f_oth0 k' r' H2) as [_ K]. rewrite <- (k_up _ _ _ K). exact Hu.
  - cbn [emit outs]. rewrite view_snoc, f_view0. reflexivity.
Qed.
Lemma now_emit y s : now (emit y s) = now s. Proof. reflexivity. Qed.

Lemma foc_put x s ro : Foc x s -> core ro = core (lo x) ->
  Foc (mkLoc (lr x) (lheld x) (ltm x) (lv x) ro (lrd x)) (put_obj o ro s).
Proof.
  intros F Hc. pose proof (foc_oid _ _ F) as Hid. assert (Hni : forall k r, aget k D = Some r -> k <> cid) by (intros k1 r1; apply (foc_cid_notin x s k1 r1 F)). destruct F.
  constructor; cbn [lr lheld ltm lv lo lrd]; auto.
  - intros k t due Hk Hp. destruct (f_tms0 k t due Hk Hp) as (r & H1 & H2 & H3). exists r. split; [exact H1|]. split; [|exact H3].
    cbn [put_obj set_heap heap]. rewrite aget_aset_ne; [exact H2|]. intros E. rewrite E, f_obj0 in H2. injection H2 as H2.
    destruct (f_oth0 k r H1) as [H4 _]. rewrite <- H2, Hid in H4. auto.
  - intros o' r. cbn [put_obj set_heap heap nobj]. rewrite aget_aset. destruct (eqb_ok o' o) as [->|Hn]; [|apply f_heap0].
    intros _. apply (f_heap0 o _ f_obj0).
  - intros o' r Hin. destruct (f_H0 o' r Hin) as [H1 H2]. split; [|exact H2]. cbn [put_obj set_heap heap]. rewrite aget_aset_ne; auto.
  - cbn [put_obj set_heap heap]. apply aget_aset_eq.
  - congruence.
Qed.

Lemma foc_db x s : Foc x s ->
  Foc (mkLoc (lo x) (lheld x) (ltm x) (lv x) (lo x) (lrd x)) (set_db (aset cid (lo x) (db s)) s).
Proof.
  intros F. pose proof (foc_oid _ _ F) as Hid. destruct F. constructor; cbn [lr lheld ltm lv lo lrd set_db db]; auto.
  - apply aget_aset_eq.
  - rewrite adel_aset. exact f_D0.
  - apply NoDup_akeys_aset, f_nd0.
  - rewrite (core_bk g (lo x) (lr x)) by exact f_core0. exact f_cal0.
  - cbn [set_db db outs]. eapply met_core; eauto.
Qed.

Lemma foc_new x s r : Foc x s -> Foc x (new_obj r s).
Proof.
  intros F. destruct F. constructor; auto; cbn [new_obj heap nobj].
  - intros k t due Hk Hp. destruct (f_tms0 k t due Hk Hp) as (r' & H1 & H2 & H3). exists r'. split; [exact H1|]. split; [|exact H3].
    rewrite aget_aset_ne; [exact H2|]. intros E. rewrite E in H2. apply f_heap0 in H2. lia.
  - intros o' r'. rewrite aget_aset. destruct (eqb_ok o' (nobj s)) as [->|Hn]; [lia|]. intros H1. apply f_heap0 in H1. lia.
  - intros o' r' Hin. destruct (f_H0 o' r' Hin) as [H1 H2]. split; [|exact H2]. rewrite aget_aset_ne; [exact H1|].
    intros ->. apply f_heap0 in H1. lia.
  - rewrite aget_aset_ne; [exact f_obj0|]. intros E. rewrite E in f_obj0. apply f_heap0 in f_obj0. lia.
Qed.

(** the scheduler: the other connections' timers stay *)
Lemma dict_inj_sinv sc k k' id : sinv sc -> aget k (s_dict sc) = Some id -> aget k' (s_dict sc) = Some id -> k = k'.
Proof.
  intros I H1 H2. apply aget_In in H1, H2. pose proof (i_dict_inj _ I) as Hnd. revert H1 H2 Hnd. generalize (s_dict sc). clear.
  induction l as [|[a b] l IH]; cbn; [tauto|]. intros [E1|H1] [E2|H2] Hnd; inversion Hnd as [|? ? Hni Hnd']; subst.
  - congruence.
  - injection E1 as -> ->. exfalso. apply Hni. apply in_map_iff. exists (k', id). auto.
  - injection E2 as -> ->. exfalso. apply Hni. apply in_map_iff. exists (k, id). auto.
  - auto.
Qed.
Lemma aget_adel_n {V} (k k' : nat) (d : list (nat * V)) : NoDup (akeys d) -> aget k (adel k' d) = if eqb k k' then None else aget k d.
Proof. intros Hnd. destruct (eqb_ok k k') as [->|Hn]; [apply aget_adel_eq, Hnd|apply aget_adel_ne, Hn]. Qed.

Lemma cancel_dict k sc : s_dict (cancel_call k sc) = adel k (s_dict sc) \/ (aget k (s_dict sc) = None /\ cancel_call k sc = sc).
Proof.
  unfold cancel_call. destruct (aget k (s_dict sc)) as [id|] eqn:E; [left|right; auto].
  rewrite defer_cancel_dict. reflexivity.
Qed.
Lemma cancel_queue k sc id' : sinv sc -> aget id' (s_queue (cancel_call k sc)) =
  if (match aget k (s_dict sc) with Some id => eqb id' id | None => false end) then None else aget id' (s_queue sc).
Proof.
  intros I. unfold cancel_call. destruct (aget k (s_dict sc)) as [id|] eqn:E; [|reflexivity].
  unfold defer_cancel, s_pending. cbn [set_dict s_queue]. unfold ahas.
  destruct (aget id (s_queue sc)) as [due|] eqn:Eq.
  - cbn [s_queue]. rewrite aget_adel_n by apply I. reflexivity.
  - cbn [s_running set_dict]. destruct (mem id (s_running sc)); cbn [s_queue set_dict]; destruct (eqb_ok id' id) as [->|Hn]; auto.
Qed.
Lemma cancel_next k sc : s_next (cancel_call k sc) = s_next sc /\ s_now (cancel_call k sc) = s_now sc.
Proof.
  unfold cancel_call. destruct (aget k (s_dict sc)); [|auto]. unfold defer_cancel. cbn.
  destruct (s_pending _ _); [auto|]. destruct (mem _ _); auto.
Qed.
Lemma pend_cancel s k k' : sinv (sch s) -> pend (set_sch (cancel_call k (sch s)) s) k' = if eqb k' k then None else pend s k'.
Proof.
  intros I. unfold pend. cbn [set_sch sch calls].
  destruct (cancel_dict k (sch s)) as [E|[E1 E2]].
  - rewrite E, aget_adel by apply I. destruct (eqb_ok k' k) as [->|Hn]; [reflexivity|].
    destruct (aget k' (s_dict (sch s))) as [id|] eqn:E'; [|reflexivity].
    rewrite cancel_queue by exact I. destruct (aget k (s_dict (sch s))) as [id'|] eqn:E''; [|reflexivity].
    destruct (eqb_ok id id') as [->|Hn2]; [|reflexivity]. exfalso. apply Hn. eapply dict_inj_sinv; eauto.
  - rewrite E2. destruct (eqb_ok k' k) as [->|Hn]; [rewrite E1; reflexivity|reflexivity].
Qed.

Lemma foc_cancel x s : Foc x s ->
  Foc (mkLoc (lr x) (lheld x) None (lv x) (lo x) (lrd x)) (set_sch (cancel_call cid (sch s)) s) /\
  now (set_sch (cancel_call cid (sch s)) s) = now s.
Proof.
  intros F. split; [|unfold now; cbn; apply cancel_next]. assert (Hni : forall k r, aget k D = Some r -> k <> cid) by (intros k1 r1; apply (foc_cid_notin x s k1 r1 F)). destruct F. constructor; cbn [lr lheld ltm lv lo lrd]; auto.
  - cbn [set_sch now sch outs]. unfold now. cbn [set_sch sch]. rewrite (proj2 (cancel_next cid (sch s))). exact f_oth0.
  - rewrite pend_cancel by exact f_sinv0. rewrite eqb_refl. reflexivity.
  - intros k t due Hk. rewrite pend_cancel by exact f_sinv0. rewrite eqb_neq by exact Hk. apply f_tms0, Hk.
  - intros k r Hk. assert (Hkc : k <> cid) by (apply (Hni k r Hk)).
    rewrite pend_cancel by exact f_sinv0. rewrite eqb_neq by exact Hkc.
    unfold now. cbn [set_sch sch]. rewrite (proj2 (cancel_next cid (sch s))). exact (f_arm0 k r Hk).
  - intros o' r Hin Hk. cbn [set_sch sch]. destruct (cancel_dict cid (sch s)) as [E|[_ E]]; rewrite E; [|apply (f_idle0 o' r Hin Hk)].
    rewrite aget_adel_ne by exact Hk. apply (f_idle0 o' r Hin Hk).
  - cbn. apply cancel_call_inv, f_sinv0.
  - cbn [set_sch sch calls]. intros id. rewrite cancel_queue by exact f_sinv0.
    destruct (match aget cid (s_dict (sch s)) with Some id0 => eqb id id0 | None => false end); [congruence|apply f_calls0].
  - cbn [set_sch sch calls]. rewrite (proj1 (cancel_next cid (sch s))). exact f_fresh0.
Qed.

Lemma schedule_ok x s t k : Foc x s -> ltm x = None -> now s - second <= t ->
  exists sc, schedule_call cid t (sch s) = Ok sc /\
  let s' := mkSt (db s) (heap s) (nobj s) (cal s) sc (aset (s_next (sch s)) k (calls s)) (ready s) (outs s) in
  Foc (mkLoc (lr x) (lheld x) (Some (k, Z.max t (now s))) (lv x) (lo x) (lrd x)) s' /\ now s' = now s.
Proof.
  intros F Htm Ht. assert (Hni : forall k r, aget k D = Some r -> k <> cid) by (intros k1 r1; apply (foc_cid_notin x s k1 r1 F)). destruct F. unfold pend in f_tm0. rewrite Htm in f_tm0.
  assert (Hd : match aget cid (s_dict (sch s)) with Some id => s_pending (sch s) id | None => false end = false).
  { destruct (aget cid (s_dict (sch s))) as [id|]; [|reflexivity]. unfold s_pending, ahas.
    destruct (aget id (s_queue (sch s))) as [due|] eqn:Eq; [|reflexivity].
    destruct (aget id (calls s)) eqn:Ec; [discriminate|]. exfalso. apply (f_calls0 id); [rewrite Eq; discriminate|exact Ec]. }
  destruct (schedule_call cid t (sch s)) as [sc|] eqn:E.
  2:{ unfold schedule_call in E. rewrite Hd in E. unfold now in Ht. replace (negb (t >=? s_now (sch s) - second)) with false in E by lia. discriminate. }
  exists sc. split; [reflexivity|]. pose proof (schedule_call_inv _ _ _ _ f_sinv0 E) as I.
  unfold schedule_call in E. rewrite Hd in E. destruct (negb _); [discriminate|]. injection E as E.
  assert (Hq : forall id, aget id (s_queue sc) = if eqb id (s_next (sch s)) then Some (Z.max t (now s)) else aget id (s_queue (sch s))).
  { intros id. rewrite <- E. cbn [s_queue]. assert (G : forall q, aget (s_next (sch s)) q = None -> aget id (q ++ [(s_next (sch s), s_now (sch s) + Z.max (t - s_now (sch s)) 0)]) = if eqb id (s_next (sch s)) then Some (Z.max t (now s)) else aget id q).
    { induction q as [|[a b] q IH]; cbn [app aget]; intros Hq.
      - destruct (eqb id _); [f_equal; unfold now; lia|reflexivity].
      - destruct (eqb_ok (s_next (sch s)) a) as [_|Hna]; [discriminate|]. rewrite (IH Hq).
        destruct (eqb_ok id a) as [->|Hn]; [|reflexivity]. rewrite eqb_neq by congruence. reflexivity. }
    apply G. destruct (aget (s_next (sch s)) (s_queue (sch s))) as [due|] eqn:Eq; [|reflexivity]. apply aget_In in Eq.
    destruct (i_queue_dict _ f_sinv0 _ _ Eq) as (c & t0 & Hc & _). apply (i_dict_lt _ f_sinv0) in Hc. lia. }
  assert (Hnow : s_now sc = now s) by (rewrite <- E; reflexivity).
  assert (Hnext : s_next sc = S (s_next (sch s))) by (rewrite <- E; reflexivity).
  assert (Hdict : s_dict sc = aset cid (s_next (sch s)) (s_dict (sch s))) by (rewrite <- E; reflexivity).
  assert (Hpend : forall k', k' <> cid -> pend (mkSt (db s) (heap s) (nobj s) (cal s) sc (aset (s_next (sch s)) k (calls s)) (ready s) (outs s)) k' = pend s k').
  { intros k' Hk. unfold pend. cbn [sch calls]. rewrite Hdict, aget_aset_ne by exact Hk.
    destruct (aget k' (s_dict (sch s))) as [id|] eqn:Ek; [|reflexivity].
    assert (Hlt : (id < s_next (sch s))%nat) by (apply (i_dict_lt _ f_sinv0 k'); apply aget_In, Ek).
    rewrite Hq, eqb_neq by lia. rewrite aget_aset_ne by lia. reflexivity. }
  split; [|exact Hnow]. constructor; cbn [lr lheld ltm lv lo lrd]; auto; unfold now; cbn [sch outs calls]; rewrite ?Hnow, ?Hnext; auto.
  - unfold pend. cbn [sch calls]. rewrite Hdict, aget_aset_eq, Hq, eqb_refl, aget_aset_eq. reflexivity.
  - intros k' t' due' Hk. rewrite Hpend by exact Hk. apply f_tms0, Hk.
  - intros k' r Hk. rewrite Hpend by (apply (Hni k' r Hk)). exact (f_arm0 k' r Hk).
  - intros o' r Hin Hk. rewrite Hdict, aget_aset_ne by exact Hk. apply (f_idle0 o' r Hin Hk).
  - intros id. rewrite Hq, aget_aset. destruct (eqb id _); [intros _; discriminate|apply f_calls0].
  - intros id. rewrite aget_aset. destruct (eqb_ok id (s_next (sch s))) as [->|Hn]; [lia|]. intros Hi. apply f_fresh0 in Hi. lia.
Qed.
Lemma schedule_err x s t : Foc x s -> t < now s - second -> schedule_call cid t (sch s) = Err EAssertion.
Proof. intros _ Ht. apply c12_refuse. right. exact Ht. Qed.

(** the calendar *)
Lemma remove_perm c r b e c' : cal_remove c r b e = Ok c' -> Permutation c (mk_entry r b e :: c').
Proof.
  intros Hc. destruct (cal_remove_spec c r b e) as [(_ & a & b' & -> & Hr & _)|[_ Hr]]; rewrite Hr in Hc; [|discriminate].
  injection Hc as <-. apply Permutation_sym, Permutation_middle.
Qed.
Lemma cal_remove_in c r b e : In (mk_entry r b e) c -> exists c', cal_remove c r b e = Ok c'.
Proof. intros Hin. destruct (cal_remove_spec c r b e) as [(_ & a & b' & _ & Hr & _)|[Hn _]]; [eauto|contradiction]. Qed.
Lemma cal_remove_notin c r b e : ~ In (mk_entry r b e) c -> cal_remove c r b e = Err EValue.
Proof. intros Hin. destruct (cal_remove_spec c r b e) as [(Hn & _)|[_ Hr]]; [contradiction|exact Hr]. Qed.

Lemma foc_cal x s c (h : bool) : Foc x s -> Permutation c ((if h then bk g (lr x) else []) ++ R) ->
  Foc (mkLoc (lr x) h (ltm x) (lv x) (lo x) (lrd x)) (set_cal c s).
Proof. intros F Hc. destruct F. constructor; cbn [lr lheld ltm lv lo lrd]; auto. Qed.
Lemma foc_push x s t : Foc x s -> Foc (mkLoc (lr x) (lheld x) (ltm x) (lv x) (lo x) (lrd x ++ [t])) (push t s).
Proof. intros F. destruct F. constructor; cbn [lr lheld ltm lv lo lrd push set_ready ready]; auto. rewrite f_rd0. reflexivity. Qed.
Lemma foc_ready x s l : Foc x s -> Foc (mkLoc (lr x) (lheld x) (ltm x) (lv x) (lo x) l) (set_ready l s).
Proof. intros F. destruct F. constructor; cbn [lr lheld ltm lv lo lrd set_ready ready]; auto. Qed.

(** * The steps of programs *)
Variable Dl : Z -> Prop.
Notation WP := (wp Dl).

Lemma w_bind {A B} (p : prog A) (f : A -> prog B) Q E s : WP p (fun a s' => WP (f a) Q E s') E s -> WP (bind p f) Q E s.
Proof. apply wp_bind. Qed.
Lemma w_catch {A} (p : prog A) h Q E s : WP p Q (fun e s' => WP (h e) Q E s') s -> WP (catch p h) Q E s.
Proof. apply wp_catch. Qed.

Lemma w_await w x s (Q : unit -> st -> Prop) (E : exn -> st -> Prop) : w <> WDevice -> Foc x s -> (forall s', Foc x s' -> now s <= now s' -> Q tt s') -> WP (await w) Q E s.
Proof.
  intros Hw F K y dt _. replace (answer w y) with (@None exn) by (destruct w; [reflexivity|contradiction|reflexivity]).
  cbn. apply K; [apply foc_tick, F|apply now_tick].
Qed.
Lemma w_obj x s (Q : row -> st -> Prop) (E : exn -> st -> Prop) : Foc x s -> Q (lo x) s -> WP (obj o) Q E s.
Proof. intros F K. cbn. rewrite (f_obj _ _ F). exact K. Qed.
Lemma w_modify x s f (Q : unit -> st -> Prop) (E : exn -> st -> Prop) : Foc x s -> core (f (lo x)) = core (lo x) ->
  (forall s', Foc (mkLoc (lr x) (lheld x) (ltm x) (lv x) (f (lo x)) (lrd x)) s' -> now s' = now s -> Q tt s') -> WP (modify o f) Q E s.
Proof.
  intros F Hc K. apply w_bind, (w_obj x); [exact F|]. cbn. apply K; [apply foc_put; auto|reflexivity].
Qed.
Lemma w_save x s (Q : unit -> st -> Prop) (E : exn -> st -> Prop) : Foc x s ->
  (forall s', Foc (mkLoc (lo x) (lheld x) (ltm x) (lv x) (lo x) (lrd x)) s' -> now s <= now s' -> Q tt s') -> WP (save o) Q E s.
Proof.
  intros F K. apply w_bind, (w_await WDb x); [discriminate|exact F|]. intros s1 F1 N1.
  apply w_bind, (w_obj x); [exact F1|]. cbn [bind wp upd]. rewrite (foc_oid _ _ F1).
  eapply (w_await WDb); [discriminate|apply foc_db, F1|]. intros s2 F2 N2. apply K; [exact F2|]. unfold now in *. cbn in N2. lia.
Qed.
Lemma w_state op x s (Q : unit -> st -> Prop) (E : exn -> st -> Prop) c e : Foc x s -> op_mem op (c_states (lo x)) = (c, e) ->
  (match e with
   | None => forall s', Foc (mkLoc (set_states c (lo x)) (lheld x) (ltm x) (lv x) (set_states c (lo x)) (lrd x)) s' -> now s <= now s' -> Q tt s'
   | Some y => forall s', Foc (mkLoc (lr x) (lheld x) (ltm x) (lv x) (set_states c (lo x)) (lrd x)) s' -> now s <= now s' -> E y s'
   end) -> WP (state_change op o) Q E s.
Proof.
  intros F Hop K. apply w_bind, (w_obj x); [exact F|]. rewrite Hop. cbn [bind upd wp].
  pose proof (foc_put x s (set_states c (lo x)) F eq_refl) as F1.
  destruct e as [y|].
  - cbn. apply K; [exact F1|unfold now; cbn; lia].
  - eapply w_save; [exact F1|]. intros s2 F2 N2. apply K; [exact F2|unfold now in *; cbn in *; lia].
Qed.
Lemma w_emits y x s (Q : unit -> st -> Prop) (E : exn -> st -> Prop) : out_id y = cid -> Foc x s ->
  (y = OSetupDone cid true -> forall k r', aget k D = Some r' -> c_active r' = true -> apart g (lr x) r') ->
  (forall s', Foc (mkLoc (lr x) (lheld x) (ltm x) (see cid (lv x) y) (lo x) (lrd x)) s' -> now s' = now s -> Q tt s') -> WP (emits y) Q E s.
Proof. intros Hy F Ha K. cbn. apply K; [apply foc_emit; auto|reflexivity]. Qed.
Lemma w_cancel x s (Q : unit -> st -> Prop) (E : exn -> st -> Prop) : Foc x s ->
  (forall s', Foc (mkLoc (lr x) (lheld x) None (lv x) (lo x) (lrd x)) s' -> now s' = now s -> Q tt s') -> WP (cancel cid) Q E s.
Proof. intros F K. cbn. destruct (foc_cancel x s F) as [F1 N1]. apply K; [exact F1|exact N1]. Qed.
Lemma w_schedule t k x s (Q : unit -> st -> Prop) (E : exn -> st -> Prop) : Foc x s -> ltm x = None ->
  (now s - second <= t -> forall s', Foc (mkLoc (lr x) (lheld x) (Some (k, Z.max t (now s))) (lv x) (lo x) (lrd x)) s' -> now s' = now s -> Q tt s') ->
  (t < now s - second -> E EAssertion s) -> WP (schedule cid t k) Q E s.
Proof.
  intros F Htm K1 K2. cbn. destruct (Z.leb_spec (now s - second) t) as [Hle|Hlt].
  - destruct (schedule_ok x s t k F Htm Hle) as (sc & Hs & F1 & N1). rewrite Hs. cbn. apply K1; [exact Hle|exact F1|exact N1].
  - rewrite (schedule_err x s t F Hlt). cbn. apply K2, Hlt.
Qed.
Lemma w_remove r x s (Q : unit -> st -> Prop) (E : exn -> st -> Prop) : Foc x s -> lheld x = true -> core r = core (lr x) ->
  (forall s', Foc (mkLoc (lr x) false (ltm x) (lv x) (lo x) (lrd x)) s' -> now s' = now s -> Q tt s') -> WP (remove_both g r) Q E s.
Proof.
  intros F Hh Hc K. pose proof (f_cal _ _ F) as Hp. rewrite Hh in Hp. rewrite <- (core_bk g r (lr x) Hc) in Hp. cbn [bk app] in Hp.
  assert (Hin : In (mk_entry (src_resource g r) (c_start r) (c_end r)) (cal s)).
  { eapply Permutation_in; [apply Permutation_sym, Hp|]. left; reflexivity. }
  unfold remove_both. apply w_bind. cbn. unfold src_resource in Hin.
  destruct (cal_remove_in _ _ _ _ Hin) as (c1 & E1). rewrite E1. cbn.
  apply remove_perm in E1. assert (Hp1 : Permutation c1 (mk_entry (dst_resource g r) (c_start r) (c_end r) :: R)).
  { eapply Permutation_cons_inv. eapply Permutation_trans; [apply Permutation_sym, E1|exact Hp]. }
  assert (Hin1 : In (mk_entry (dst_resource g r) (c_start r) (c_end r)) c1).
  { eapply Permutation_in; [apply Permutation_sym, Hp1|]. left; reflexivity. }
  unfold dst_resource in Hin1. destruct (cal_remove_in _ _ _ _ Hin1) as (c2 & E2). rewrite E2. cbn.
  apply remove_perm in E2. assert (Hp2 : Permutation c2 R).
  { eapply Permutation_cons_inv. eapply Permutation_trans; [apply Permutation_sym, E2|exact Hp1]. }
  apply K; [|reflexivity]. apply (foc_cal x s c2 false F Hp2).
Qed.
Lemma w_remove_absent r x s (Q : unit -> st -> Prop) (E : exn -> st -> Prop) : Foc x s -> lheld x = false -> core r = core (lr x) ->
  (forall e, In e (bk g (lr x)) -> ~ In e R) -> E EValue s -> WP (remove_both g r) Q E s.
Proof.
  intros F Hh Hc Hno K. pose proof (f_cal _ _ F) as Hp. rewrite Hh in Hp. cbn [app] in Hp.
  unfold remove_both. apply w_bind. cbn. rewrite cal_remove_notin; [exact K|].
  intros Hin. apply (Permutation_in _ Hp) in Hin. eapply Hno; [|exact Hin]. rewrite <- (core_bk g r (lr x) Hc). left; reflexivity.
Qed.
Lemma w_push t x s (Q : unit -> st -> Prop) (E : exn -> st -> Prop) : Foc x s ->
  (forall s', Foc (mkLoc (lr x) (lheld x) (ltm x) (lv x) (lo x) (lrd x ++ [t])) s' -> now s' = now s -> Q tt s') -> WP (upd (push t)) Q E s.
Proof. intros F K. cbn. apply K; [apply foc_push, F|reflexivity]. Qed.
End Foc.
