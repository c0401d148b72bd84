(** Restarting preserves the serial invariant (C31, C37). *)
From Coq Require Import Permutation.
From Verif Require Import Base ModelLabel ModelSTP ModelAuthz ModelNRM ModelCalendar ModelState ModelScheduler ModelBackend
  SpecLabel SpecCalendar SpecBackend ProofsCalendar ProofsScheduler ProofsBackendWp ProofsBackendFoc ProofsBackendOps ProofsBackendInv ProofsBackendRow
  ProofsBackendApi.
Open Scope Z_scope.

Definition tid (x : nat * row) : string := c_id (snd x).
Definition skip (todo : list (nat * row)) (d : list (string * row)) : list (string * row) :=
  filter (fun kr => negb (mem (fst kr) (map tid todo))) d.
Lemma skip_nil d : skip [] d = d.
Proof. unfold skip. induction d as [|x d IH]; [reflexivity|]. cbn [filter map]. change (mem (fst x) []) with false. cbn [negb]. f_equal. exact IH. Qed.
Lemma skip_NoDup todo d : NoDup (akeys d) -> NoDup (akeys (skip todo d)).
Proof.
  induction d as [|[k r] d IH]; cbn -[mem]; [auto|]. intros Hnd. inversion Hnd as [|? ? Hni Hnd']; subst.
  destruct (negb (mem k (map tid todo))); cbn -[mem]; [|auto]. constructor; [|auto].
  intros Hin. apply Hni. unfold akeys in *. rewrite in_map_iff in *. destruct Hin as (x & Hx & Hin). exists x. split; [exact Hx|].
  apply filter_In in Hin. tauto.
Qed.
Lemma aget_skip todo k d : ~ In k (map tid todo) -> aget k (skip todo d) = aget k d.
Proof.
  intros Hn. unfold skip. induction d as [|[k' r] d IH]; cbn -[mem eqb tid]; [reflexivity|].
  destruct (negb (mem k' (map tid todo))) eqn:E; cbn -[mem eqb tid].
  - rewrite IH. reflexivity.
  - rewrite IH. destruct (eqb_ok k k') as [->|]; [|reflexivity]. exfalso. apply Hn. apply mem_In. destruct (mem k' _); [reflexivity|discriminate].
Qed.
Lemma adel_skip todo k d : ~ In k (map tid todo) -> adel k (skip todo d) = skip todo (adel k d).
Proof.
  intros Hn. unfold skip. induction d as [|[k' r] d IH]; cbn -[mem eqb tid]; [reflexivity|].
  destruct (negb (mem k' (map tid todo))) eqn:E; cbn -[mem eqb tid]; destruct (eqb_ok k k') as [->|Ek]; cbn -[mem eqb tid]; rewrite ?E; auto.
  - rewrite IH. reflexivity.
  - exfalso. apply Hn. apply mem_In. destruct (mem k' _); [reflexivity|discriminate].
Qed.
Lemma skip_absent x todo d : aget (tid x) d = None -> skip (x :: todo) d = skip todo d.
Proof.
  unfold skip. induction d as [|[k' r] d IH]; cbn -[mem eqb tid]; [reflexivity|]. destruct (eqb_ok (tid x) k') as [->|Hn]; [discriminate|]. intros Hd.
  replace (mem k' (tid x :: map tid todo)) with (mem k' (map tid todo)); [cbn [map] in IH; rewrite IH; auto|].
  apply eq_true_iff_eq. rewrite !mem_In. cbn. intuition congruence.
Qed.
Lemma skip_cons x todo d : NoDup (akeys d) -> skip (x :: todo) d = skip todo (adel (tid x) d).
Proof.
  unfold skip. induction d as [|[k' r] d IH]; cbn -[mem eqb tid]; [reflexivity|]. intros Hnd. inversion Hnd as [|? ? Hni Hnd']; subst.
  destruct (eqb_ok (tid x) k') as [E|Hn].
  - replace (mem k' (tid x :: map tid todo)) with true by (symmetry; apply mem_In; left; exact E). cbn [negb]. apply (skip_absent x todo d).
    rewrite E. apply aget_None. exact Hni.
  - cbn -[mem eqb tid]. replace (mem k' (tid x :: map tid todo)) with (mem k' (map tid todo)); [cbn [map] in IH; rewrite IH; auto|].
    apply eq_true_iff_eq. rewrite !mem_In. cbn. intuition congruence.
Qed.

Section Restart.
Variables (g : cfg) (Dl : Z -> Prop).
Notation WP := (wp Dl).
Notation Inv := (Inv unarmed g).

Record Loop (todo : list (nat * row)) (s : st) : Prop := mkLoop {
  l_nd : NoDup (akeys (db s));
  l_rows : forall k r, aget k (db s) = Some r -> c_id r = k /\ row_ok (now s) (view_of k (outs s)) r;
  l_cal : Permutation (cal s) (bookings g (skip todo (db s)));
  l_sep : sepd g (db s);
  l_tms : forall k t due, pend s k = Some (t, due) ->
          exists r, aget k (db s) = Some r /\ aget (task_obj t) (heap s) = Some r /\ timer_ok t due r;
  l_new : forall k, aget k (db s) = None -> view_of k (outs s) = v0;
  l_heap : forall o r, aget o (heap s) = Some r -> (o < nobj s)%nat;
  l_sinv : sinv (sch s);
  l_calls : forall id, aget id (s_queue (sch s)) <> None -> aget id (calls s) <> None;
  l_fresh : forall id, aget id (calls s) <> None -> (id < s_next (sch s))%nat;
  l_met : met g (db s) (outs s);
  l_rd : ready s = [];
  l_todo : forall o r, In (o, r) todo -> aget o (heap s) = Some r /\ aget (c_id r) (db s) = Some r /\ aget (c_id r) (s_dict (sch s)) = None;
  l_nf : NoDup (map fst todo);
  l_ni : NoDup (map tid todo) }.
Lemma loop_inv s : Loop [] s -> Inv s.
Proof. intros L. destruct L. constructor; auto; [|intros; apply armed_none]. rewrite skip_nil in l_cal0. exact l_cal0. Qed.

(** the timers of the others stay *)
Definition stay (s : st) : Z -> option (task * Z) -> row -> Prop := fun _ tm r => tm = pend s (c_id r).
Lemma loop_enter o r rest s : Loop ((o, r) :: rest) s ->
  Foc (stay s) g (c_id r) (adel (c_id r) (db s)) (bookings g (skip rest (adel (c_id r) (db s)))) rest o
    (mkLoc r false None (view_of (c_id r) (outs s)) r []) s /\
  aget (c_id r) (s_dict (sch s)) = None /\ row_ok (now s) (view_of (c_id r) (outs s)) r.
Proof.
  intros L. destruct (l_todo _ _ L o r (or_introl eq_refl)) as (T1 & T2 & T3). split; [|split; [exact T3|apply (l_rows _ _ L), T2]].
  assert (HD : forall k r', aget k (adel (c_id r) (db s)) = Some r' -> aget k (db s) = Some r' /\ k <> c_id r).
  { intros k r'. rewrite aget_adel by apply L. destruct (eqb_ok k (c_id r)); [discriminate|auto]. }
  assert (Hp0 : pend s (c_id r) = None) by (unfold pend; rewrite T3; reflexivity).
  destruct L. constructor; loc_cbn; auto.
  - intros k r' Hk. apply HD in Hk as [Hk _]. auto.
  - cbn [app]. rewrite skip_cons in l_cal0 by assumption. exact l_cal0.
  - intros k t due Hk Hp. destruct (l_tms0 k t due Hp) as (r' & H1 & H2 & H3). exists r'. rewrite aget_adel_ne by exact Hk. auto.
  - intros k r' Hk. apply HD in Hk as [Hk _]. unfold stay. rewrite (proj1 (l_rows0 k r' Hk)). reflexivity.
  - intros k Hk. rewrite aget_adel_ne by exact Hk. apply l_new0.
  - intros o' r' Hin. split; [apply (l_todo0 o' r'); right; exact Hin|]. intros ->. inversion l_nf0; subst. apply H1. apply in_map_iff. exists (o, r'). auto.
  - intros o' r' Hin _. apply (l_todo0 o' r'). right. exact Hin.
Qed.

Definition FinR (H : list (nat * row)) (o : nat) (x : loc) (s : st) : Prop :=
  lheld x = liveb (lr x) /\ row_ok (now s) (lv x) (lr x) /\ lrd x = [] /\
  forall t due, ltm x = Some (t, due) -> timer_ok t due (lr x) /\ ((task_obj t = o /\ lo x = lr x) \/ In (task_obj t, lr x) H).
Lemma loop_exit o r rest s x s' : Loop ((o, r) :: rest) s -> 
  Foc (stay s) g (c_id r) (adel (c_id r) (db s)) (bookings g (skip rest (adel (c_id r) (db s)))) rest o x s' ->
  FinR [] o x s' -> evolves r (lr x) ->
  Loop rest s' /\ (forall k, k <> c_id r -> aget k (db s') = aget k (db s) /\ pend s' k = pend s k) /\
  aget (c_id r) (db s') = Some (lr x) /\ pend s' (c_id r) = ltm x.
Proof.
  intros L F (Hh & Hok & Hrd & Htm) Hev. destruct (l_todo _ _ L o r (or_introl eq_refl)) as (T1 & T2 & T3).
  assert (HD : forall k, k <> c_id r -> aget k (db s') = aget k (db s)).
  { intros k Hk. rewrite <- (aget_adel_ne k (c_id r) (db s')) by exact Hk. rewrite (f_D _ _ _ _ _ _ _ _ _ F). apply aget_adel_ne, Hk. }
  assert (Hni : ~ In (c_id r) (map tid rest)) by (pose proof (l_ni _ _ L) as Hn; inversion Hn; assumption).
  assert (Hfw : forall k r', aget k (db s) = Some r' -> forward forever (c_rtime r') (c_start r') (c_end r')).
  { intros k r' Hk. apply (k_fwd _ _ _ (proj2 (l_rows _ _ L k r' Hk))). }
  assert (Htms : forall k t due, pend s' k = Some (t, due) -> exists r', aget k (db s') = Some r' /\ aget (task_obj t) (heap s') = Some r' /\ timer_ok t due r').
  { intros k t due Hp. destruct (eqb_ok k (c_id r)) as [->|Hn].
    + rewrite (f_tm _ _ _ _ _ _ _ _ _ F) in Hp. destruct (Htm t due Hp) as [Ht [[Ho Hl]|[]]]. exists (lr x). split; [apply F|]. split; [|exact Ht].
      rewrite Ho, (f_obj _ _ _ _ _ _ _ _ _ F), Hl. reflexivity.
    + destruct (f_tms _ _ _ _ _ _ _ _ _ F k t due Hn Hp) as (r' & H1 & H2 & H3). exists r'. rewrite HD by exact Hn.
      rewrite aget_adel_ne in H1 by exact Hn. auto. }
  split; [|split; [|split; [apply F|apply F]]].
  - pose proof (l_sep _ _ L) as Hsep. pose proof (l_todo _ _ L) as Htodo. pose proof (l_nf _ _ L) as Hnf. pose proof (l_ni _ _ L) as Hni'. cbn in Hnf, Hni'.
    destruct F. constructor; auto.
    + intros k r' Hk. destruct (eqb_ok k (c_id r)) as [->|Hn].
      * rewrite f_row in Hk. injection Hk as <-. rewrite f_view. auto.
      * apply f_oth. rewrite aget_adel_ne by exact Hn. rewrite <- HD; auto.
    + eapply Permutation_trans; [exact f_cal|]. apply Permutation_sym.
      eapply Permutation_trans; [apply (bookings_split g (c_id r) (lr x))|].
      * apply skip_NoDup, f_nd.
      * rewrite aget_skip by exact Hni. exact f_row.
      * rewrite Hh, adel_skip by exact Hni. rewrite f_D. apply Permutation_refl.
    + intros k1 k2 r1 r2 Hk E1 E2. destruct (eqb_ok k1 (c_id r)) as [->|Hn1]; [|destruct (eqb_ok k2 (c_id r)) as [->|Hn2]].
      * rewrite f_row in E1. injection E1 as <-. rewrite HD in E2 by congruence.
        eapply sep2_evolves_l; [eapply Hfw, T2|eapply Hfw, E2|exact Hev|]. eapply Hsep; [exact Hk|exact T2|exact E2].
      * rewrite f_row in E2. injection E2 as <-. rewrite HD in E1 by congruence.
        eapply sep2_evolves_r; [exact Hev|]. eapply Hsep; [exact Hk|exact E1|exact T2].
      * rewrite HD in E1 by assumption. rewrite HD in E2 by assumption. exact (Hsep k1 k2 r1 r2 Hk E1 E2).
    + intros k Hk. destruct (eqb_ok k (c_id r)) as [->|Hn]; [congruence|]. apply f_new; [exact Hn|]. rewrite aget_adel_ne by exact Hn. rewrite <- HD; auto.
    + rewrite f_rd. exact Hrd.
    + intros o' r' Hin. assert (Hne : c_id r' <> c_id r).
      { intros E. apply Hni. apply in_map_iff. exists (o', r'). split; [exact E|exact Hin]. }
      destruct (Htodo o' r' (or_intror Hin)) as (_ & H2 & _). split; [apply (f_H o' r' Hin)|]. split; [rewrite HD by exact Hne; exact H2|apply (f_idle o' r' Hin Hne)].
    + inversion Hnf; assumption.
    + inversion Hni'; assumption.
  - intros k Hk. split; [apply HD, Hk|]. destruct (aget k (db s)) as [r'|] eqn:Er.
    + pose proof (f_arm _ _ _ _ _ _ _ _ _ F k r') as Ha. unfold stay in Ha. rewrite aget_adel_ne in Ha by exact Hk. specialize (Ha Er).
      rewrite (proj1 (l_rows _ _ L k r' Er)) in Ha. exact Ha.
    + transitivity (@None (task * Z)).
      * destruct (pend s' k) as [[t due]|] eqn:E; [|reflexivity]. destruct (Htms k t due E) as (r' & H1 & _). rewrite HD in H1 by exact Hk. congruence.
      * destruct (pend s k) as [[t due]|] eqn:E; [|reflexivity]. destruct (l_tms _ _ L k t due E) as (r' & H1 & _). congruence.
Qed.

Definition moved (rest : list (nat * row)) (r : row) (s s' : st) : Prop :=
  (forall k, k <> c_id r -> aget k (db s') = aget k (db s) /\ pend s' k = pend s k) /\
  exists r', aget (c_id r) (db s') = Some r' /\ evolves r r' /\ restored (now s) (now s') r r' (pend s' (c_id r)).
Ltac zfin := split; [reflexivity|]; loc_cbn.
Lemma w_restore_one o r rest s (Q : unit -> st -> Prop) (E : exn -> st -> Prop) : Loop ((o, r) :: rest) s ->
  (live r -> c_start r <> None -> c_end r <> None) ->
  (forall s', Loop rest s' -> now s <= now s' -> moved rest r s s' -> Q tt s') -> WP (restore_one g o) Q E s.
Proof.
  intros L Hopen K0. destruct (loop_enter o r rest s L) as (F & Hdict & K).
  set (cid := c_id r) in *. set (D := adel cid (db s)) in *. set (R := bookings g (skip rest D)) in *. set (v := view_of cid (outs s)) in *.
  assert (K1 : forall x s', Foc (stay s) g cid D R rest o x s' -> now s <= now s' -> FinR [] o x s' -> evolves r (lr x) -> restored (now s) (now s') r (lr x) (ltm x) -> Q tt s').
  { intros x s' F' N' G' Ev Rs. destruct (loop_exit o r rest s x s' L F' G' Ev) as (L' & Hoth & Hrow & Hp). apply K0; [exact L'|exact N'|].
    split; [exact Hoth|]. exists (lr x). split; [exact Hrow|]. split; [exact Ev|]. rewrite Hp. exact Rs. }
  clear K0. unfold restore_one. apply w_bind. eapply w_obj; [exact F|]. loc_cbn. apply w_bind. cbn [get wp].
  unfold has_scheduled_call, ahas. fold cid. rewrite Hdict.
  assert (Hsame : forall s', Foc (stay s) g cid D R rest o (mkLoc r false None v r []) s' -> now s <= now s' -> ~ live r -> Q tt s').
  { intros s' F' N' Hl. assert (Hb : liveb r = false) by (destruct (liveb r) eqn:E'; [apply liveb_live in E'; contradiction|reflexivity]).
    eapply K1; [exact F'|exact N'| |apply evolves_refl|]; loc_cbn.
    - split; loc_cbn; [symmetry; exact Hb|]. split; [eapply row_ok_mono; [|exact K]; lia|]. split; [reflexivity|discriminate].
    - constructor; intros; try contradiction; auto; congruence. }
  destruct (match c_l r with LPassedEnd | LTerminated => true | _ => false end) eqn:El.
  { cbn [wp]. apply Hsame; [exact F|lia|]. intros [_ Hl]. rewrite Hl in El. discriminate. }
  destruct (eqb (c_r r) RStart && negb (c_alloc r)) eqn:Ed.
  { cbn [wp]. apply Hsame; [exact F|lia|]. intros [[Hl|Hl] _]; rewrite Hl in Ed; [discriminate|]. rewrite andb_false_r in Ed. discriminate. }
  assert (Hcr : c_l r = LCreated) by (destruct (k_l _ _ _ K) as [Hx|[Hx|Hx]]; [exact Hx|rewrite Hx in El; discriminate|rewrite Hx in El; discriminate]).
  assert (Hl : live r).
  { split; [|exact Hcr]. destruct (k_r _ _ _ K) as [Hx|[Hx|[_ Hx]]]; [|auto|contradiction]. right. rewrite Hx in Ed. destruct (c_alloc r); [reflexivity|discriminate]. }
  assert (Hb : liveb r = true) by (apply liveb_live, Hl).
  clear Hsame El Ed. apply w_bind. cbn [add_reservation upd wp]. apply w_bind. cbn [add_reservation upd wp].
  set (s2 := set_cal _ (set_cal _ s)).
  assert (F2 : Foc (stay s) g cid D R rest o (mkLoc r true None v r []) s2).
  { unfold s2. pose proof (f_cal _ _ _ _ _ _ _ _ _ F) as Hc. loc_cbn. cbn [app] in Hc. 
    change (Foc (stay s) g cid D R rest o (mkLoc r true None v r []) (set_cal (cal_add (cal_add (cal s) (get_resource g (c_sport r) (c_slabel r)) (c_start r) (c_end r)) (get_resource g (c_dport r) (c_dlabel r)) (c_start r) (c_end r)) s)).
    apply (foc_cal _ _ _ _ _ _ _ _ _ _ true F). loc_cbn. unfold cal_add. rewrite <- app_assoc.
    eapply Permutation_trans; [apply Permutation_app_comm|]. apply Permutation_app_head. exact Hc. }
  assert (Hn2 : now s2 = now s) by reflexivity. clearbody s2. clear F.
  assert (Kt : forall s', now s <= now s' -> row_ok (now s') v r) by (intros s' N'; eapply row_ok_mono; [|exact K]; lia).
  assert (Hal : c_r r <> RHeld -> c_alloc r = true) by (intros Hn; destruct Hl as [[Hx|Hx] _]; [contradiction|exact Hx]).
  assert (Hst : c_r r <> RHeld -> c_r r = RStart) by (intros Hn; destruct (k_r _ _ _ K) as [Hx|[Hx|[_ Hx]]]; [exact Hx|contradiction|contradiction]).
  (* keeping the row, with some timer *)
  assert (Hkeep : forall tm s', Foc (stay s) g cid D R rest o (mkLoc r true tm v r []) s' -> now s' = now s2 ->
     (forall t due, tm = Some (t, due) -> timer_ok t due r /\ task_obj t = o) -> restored (now s) (now s') r r tm -> Q tt s').
  { intros tm s' F' N' Htm Rs. eapply K1; [exact F'|lia| |apply evolves_refl|exact Rs]. loc_cbn.
    split; loc_cbn; [symmetry; exact Hb|]. split; [apply Kt; lia|]. split; [reflexivity|]. intros t due Et. destruct (Htm t due Et). auto. }
  destruct (match c_end r with Some e => e <? now s | None => false end) eqn:Eend.
  { (* ended *)
    destruct (c_end r) as [e|] eqn:Ee; [|discriminate]. apply Z.ltb_lt in Eend.
    eapply w_endtime; [exact F2|exact Hcr|loc_cbn; reflexivity|]. loc_cbn. intros s' F' N'. unfold free_loc in F'. loc_cbn.
    change (c_active (with_l LPassedEnd r)) with (c_active r) in F'. change (c_alloc (with_l LPassedEnd r)) with (c_alloc r) in F'.
    change (c_r (with_l LPassedEnd r)) with (c_r r) in F'.
    assert (Hov : exists e, c_end r = Some e /\ e <= now s') by (exists e; split; [exact Ee|lia]).
    assert (Hd : liveb (set_active false (with_l LPassedEnd r)) = false) by (unfold liveb; cbn; apply andb_false_r).
    assert (Rs : restored (now s) (now s') r (set_active false (with_l LPassedEnd r)) None).
    { constructor; intros; try contradiction; auto.
      - exfalso. specialize (H1 e Ee). lia.
      - exfalso. unfold deadline in H1. rewrite Ee in H1. lia.
      - exfalso. specialize (H1 e Ee). lia.
      - exfalso. pose proof (k_fwd _ _ _ K) as Hf. unfold forward in Hf. rewrite H3, Ee in Hf. lia.
      - exfalso. assert (e0 = e) by congruence. lia.
      - discriminate. }
    destruct (c_active r) eqn:Eact.
    - eapply K1; [exact F'|lia| |ev|exact Rs]. split; loc_cbn; [symmetry; exact Hd|]. split; [|split; [reflexivity|discriminate]].
      change (set_active false (with_l LPassedEnd r)) with (with_l LPassedEnd (set_active false r)). apply ok_over; [apply ok_down; [apply Kt; lia|exact Eact]|reflexivity|auto].
    - assert (Hor : c_alloc r || eqb (c_r r) RHeld = true) by (destruct Hl as [[Hx|Hx] _]; rewrite Hx; [apply orb_true_r|reflexivity]).
      rewrite Hor in F'. assert (Esame : set_active false (with_l LPassedEnd r) = with_l LPassedEnd r) by (apply set_active_same; exact Eact).
      rewrite Esame in *. eapply K1; [exact F'|lia| |ev|exact Rs]. split; loc_cbn; [symmetry; exact Hd|]. split; [|split; [reflexivity|discriminate]].
      apply ok_over; [apply Kt; lia|exact Eact|auto]. }
  assert (Hahead : forall e, c_end r = Some e -> now s <= e) by (intros e Ee; rewrite Ee in Eend; lia).
  destruct (eqb_ok (c_r r) RHeld) as [Eh|Eh].
  { (* held *)
    assert (Ha : c_alloc r = false).
    { pose proof (k_alloc _ _ _ K) as Ka. destruct (c_alloc r); [|reflexivity]. rewrite Eh in Ka. discriminate Ka; reflexivity. }
    destruct (k_unalloc _ _ _ K Ha) as [Hact _]. fold (deadline r). destruct (deadline r <? now s) eqn:Edl.
    - eapply w_rollback; [exact F2|left; exact Eh|exact Hcr|exact Ha|exact Hact|reflexivity|]. intros x' s' F' N' Ho.
      destruct (rolled_fin unarmed Dl [] o _ _ x' r v s' Ho) as (G2 & Ev & E1 & E2 & E3 & E4); try reflexivity; auto; [apply Kt; lia|].
      eapply K1; [exact F'|lia| |exact Ev|].
      + destruct G2 as (G1 & G2 & G3 & G4 & G5). split; [exact G1|]. split; [exact G2|]. split; [exact G3|exact G5].
      + constructor; intros; try contradiction; try congruence.
        * exfalso. specialize (Hahead e H0). lia.
        * split; [exact E1|]. split; [exact E2|]. intros e Ee. destruct Ho as [(He & Hx)|[(e' & t1 & He & H3 & H4 & Hx)|(e' & He & H3 & Hx)]]; loc_cbn.
          -- congruence.
          -- right. exists o. subst x'. cbn. congruence.
          -- left. subst x'. reflexivity.
        * exfalso. lia.
        * exfalso. destruct G2 as (_ & G2 & _). destruct (k_unalloc _ _ _ G2 E2). congruence.
    - eapply w_schedule; [exact F2|reflexivity| |].
      + loc_cbn. intros _ s' F' N'. eapply Hkeep; [exact F'|exact N'| |].
        * intros t due [= <- <-]. split; [split; assumption|reflexivity].
        * constructor; intros; try contradiction; try congruence.
          -- exfalso. specialize (Hahead e H0). lia.
          -- exfalso. lia.
          -- split; [reflexivity|]. exists o. do 2 f_equal. lia.
      + intros Hlt. exfalso. unfold second in Hlt. lia. }
  specialize (Hal Eh). specialize (Hst Eh).
  assert (Hendt : forall e s', c_end r = Some e -> Foc (stay s) g cid D R rest o (mkLoc r true (Some (TEndtime o, Z.max e (now s2))) v r []) s' -> now s' = now s2 ->
     ~ (c_p r = PProvisioned /\ c_active r = false) -> Q tt s').
  { intros e s' Ee F' N' Hnp. specialize (Hahead e Ee). eapply Hkeep; [exact F'|exact N'| |].
    - intros t due [= <- <-]. split; [|reflexivity]. split; [exact Hst|]. exists e. split; [exact Ee|lia].
    - constructor; intros; try contradiction; try congruence; try (exfalso; tauto).
      + exfalso. assert (e0 = e) by congruence. lia.
      + split; [reflexivity|]. exists o. assert (e0 = e) by congruence. subst. do 2 f_equal. lia. }
  assert (Hnone : forall s', Foc (stay s) g cid D R rest o (mkLoc r true None v r []) s' -> now s' = now s2 ->
     c_end r = None /\ ~ (c_p r = PProvisioned /\ c_active r = false) \/
     (c_p r <> PReleased /\ ~ (c_p r = PProvisioned /\ started r (now s)) /\ ~ (c_p r = PProvisioned /\ c_active r = false)) \/ c_start r = Some (now s) -> Q tt s').
  { intros s' F' N' Hc. eapply Hkeep; [exact F'|exact N'|discriminate|].
    constructor; intros; try contradiction; try congruence.
    - exfalso. specialize (Hahead e H0). lia.
    - destruct Hc as [[_ Hc]|[(_ & _ & Hc)|Hc]]; try (exfalso; tauto). exfalso. unfold started in H4. rewrite Hc in H4. lia.
    - destruct Hc as [[_ Hc]|[(_ & _ & Hc)|Hc]]; try (exfalso; tauto). exfalso. assert (b = now s) by congruence. lia.
    - destruct Hc as [[Hc _]|[(Hc1 & Hc2 & Hc3)|Hc]]; try (exfalso; congruence). exfalso. tauto. }
  destruct (match c_start r with Some b => b <? now s | None => true end) eqn:Est.
  { assert (Hs : started r (now s)) by (unfold started; destruct (c_start r); [lia|exact I]).
    assert (Hsched : ~ (c_p r = PProvisioned /\ c_active r = false) -> WP (match c_end r with Some e => schedule cid e (TEndtime o) | None => Ret tt end) Q E s2).
    { intros Hnp. destruct (c_end r) as [e|] eqn:Ee.
      - eapply w_schedule; [exact F2|reflexivity| |]; loc_cbn.
        + intros _ s' F' N'. eapply Hendt; eauto.
        + intros Hlt. exfalso. specialize (Hahead e eq_refl). unfold second in Hlt. lia.
      - cbn [wp]. eapply Hnone; [exact F2|reflexivity|]. left. split; [reflexivity|exact Hnp]. }
    destruct (c_p r) eqn:Ep; try (apply Hsched; intros [Hx _]; congruence).
    1,3: cbn [wp]; eapply Hnone; [exact F2|reflexivity|]; right; left; split; [congruence|]; split; intros [Hx _]; congruence.
    destruct (c_active r) eqn:Eact; [apply Hsched; intros [_ Hx]; discriminate|].
    eapply w_activate; [exact F2|reflexivity| |].
    { intros k r' Hk Ha. destruct (l_todo _ _ L o r (or_introl eq_refl)) as (_ & T2 & _).
      assert (Hne : k <> cid) by (intros ->; unfold D in Hk; rewrite aget_adel_eq in Hk; [discriminate|apply L]).
      unfold D in Hk. rewrite aget_adel_ne in Hk by exact Hne. apply (proj1 (l_sep _ _ L cid k r r' (fun X => Hne (eq_sym X)) T2 Hk) Hl).
      eapply active_live; [apply (l_rows _ _ L k r' Hk)|exact Ha]. }
    intros x' s' F' N' Ho.
    assert (Hlb : forall b, liveb (set_active b r) = true) by (intros b; rewrite <- Hb; apply liveb_eq; [reflexivity|]; cbn; tauto).
    assert (Hevb : forall b, evolves r (set_active b r)) by (intros b; ev).
    assert (Rs : forall b tm, (b = true -> forall e, c_end r = Some e -> exists o due, tm = Some (TEndtime o, due) /\ e <= due <= Z.max e (now s')) -> restored (now s) (now s') r (set_active b r) tm).
    { intros b tm Htm. constructor; intros; try contradiction; try congruence.
      - exfalso. specialize (Hahead e H0). lia.
      - exists b. split; [reflexivity|exact Htm].
      - exfalso. unfold started in Hs. rewrite H3 in Hs. lia.
      - exfalso. destruct H1 as [Hx|(_ & Hx & _)]; congruence.
      - assumption.
      - split; [exact Ep|exact Hs]. }
    assert (K9 : row_ok (now s') v r) by (apply Kt; lia).
    destruct Ho as [->|[(He & ->)|(e & due' & He & H1 & H2 & ->)]]; loc_cbn.
    - eapply K1; [exact F'|lia| |apply Hevb|apply Rs; discriminate]. split; loc_cbn; [symmetry; apply Hlb|].
      rewrite (set_active_same false r Eact). split; [exact K9|]. split; [reflexivity|discriminate].
    - eapply K1; [exact F'|lia| |apply Hevb|apply Rs; intros _ e Ee; congruence]. split; loc_cbn; [symmetry; apply Hlb|].
      split; [apply ok_up; auto; intros b0 Hb0; unfold started in Hs; rewrite Hb0 in Hs; lia|]. split; [reflexivity|discriminate].
    - eapply K1; [exact F'|lia| |apply Hevb|apply Rs; intros _ e' Ee; assert (e' = e) by congruence; subst e'; exists o, due'; split; [reflexivity|split; [exact H1|exact H2]]]. split; loc_cbn; [symmetry; apply Hlb|].
      split; [apply ok_up; auto; intros b0 Hb0; unfold started in Hs; rewrite Hb0 in Hs; lia|]. split; [reflexivity|]. intros t d [= <- <-]. split; [|left; split; reflexivity]. split; [exact Hst|]. exists e. split; [exact He|exact H1]. }
  destruct (c_start r) as [b|] eqn:Eb; [|discriminate].
  destruct (b >? now s) eqn:Egt.
  2:{ cbn [wp]. eapply Hnone; [exact F2|reflexivity|]. right. right. f_equal. lia. }
  assert (Hend : exists e, c_end r = Some e). { destruct (c_end r) as [e|]; [eauto|]. exfalso. apply (Hopen Hl); [discriminate|reflexivity]. }
  destruct Hend as (e & Ee). rewrite Ee.
  destruct (eqb (c_p r) PProvisioned && negb (c_active r)) eqn:Epa.
  { apply andb_true_iff in Epa as [Ep Eact]. apply (eqb_true (c_p r) PProvisioned) in Ep. apply negb_true_iff in Eact.
    apply w_bind. eapply w_schedule; [exact F2|reflexivity| |]; loc_cbn.
    - intros _ s' F' N'. cbn [wp]. eapply Hkeep; [exact F'|exact N'| |].
      + intros t due [= <- <-]. split; [|reflexivity]. repeat (split; [assumption|]). intros b0 Hb0. assert (b0 = b) by congruence. lia.
      + constructor; intros; try contradiction; try congruence.
        * exfalso. specialize (Hahead e0 H0). lia.
        * exfalso. unfold started in H4. rewrite Eb in H4. lia.
        * split; [reflexivity|]. intros _. exists o. assert (b0 = b) by congruence. subst. do 2 f_equal. lia.
        * exfalso. destruct H1 as [Hx|(_ & Hx & _)]; congruence.
    - intros Hlt. exfalso. unfold second in Hlt. lia. }
  assert (Hnp : ~ (c_p r = PProvisioned /\ c_active r = false)) by (intros [Hx Hy]; rewrite Hx, Hy in Epa; discriminate).
  destruct (eqb_ok (c_p r) PReleased) as [Ep|Ep].
  - eapply w_schedule; [exact F2|reflexivity| |]; loc_cbn.
    + intros _ s' F' N'. eapply Hendt; eauto.
    + intros Hlt. exfalso. specialize (Hahead e Ee). unfold second in Hlt. lia.
  - cbn [wp]. eapply Hnone; [exact F2|reflexivity|]. right. left. split; [exact Ep|]. split; [|exact Hnp]. intros [_ Hx]. unfold started in Hx. rewrite Eb in Hx. lia.
Qed.

Lemma restored_mono t u u' r r' tm : u <= u' -> restored t u r r' tm -> restored t u' r r' tm.
Proof.
  intros Hu Z. constructor; try apply Z. intros H1 H2 H3 H4 H5 H6. destruct (z_up _ _ _ _ _ Z H1 H2 H3 H4 H5 H6) as (b & Hb & Hx).
  exists b. split; [exact Hb|]. intros Ht e He. destruct (Hx Ht e He) as (o & due & Hd & H7). exists o, due. split; [exact Hd|lia].
Qed.
Lemma w_restore_loop todo : forall s (Q : unit -> st -> Prop) (E : exn -> st -> Prop), Loop todo s ->
  (forall o r, In (o, r) todo -> live r -> c_start r <> None -> c_end r <> None) ->
  (forall s', Loop [] s' -> now s <= now s' ->
     (forall k, ~ In k (map tid todo) -> aget k (db s') = aget k (db s) /\ pend s' k = pend s k) ->
     (forall o r, In (o, r) todo -> exists t r', now s <= t <= now s' /\ aget (c_id r) (db s') = Some r' /\ evolves r r' /\ restored t (now s') r r' (pend s' (c_id r))) ->
     Q tt s') -> WP (restore_loop g (map fst todo)) Q E s.
Proof.
  induction todo as [|[o r] rest IH]; intros s Q E L Ho K; cbn [map fst restore_loop].
  - cbn [wp]. apply K; [exact L|lia|auto|]. intros o r [].
  - apply w_bind. eapply w_restore_one; [exact L|apply (Ho o r); left; reflexivity|].
    pose proof (l_ni _ _ L) as Hni. cbn [map] in Hni. change (tid (o, r)) with (c_id r) in Hni. inversion Hni as [|? ? Hn1 Hn2]; subst.
    intros s1 L1 N1 (Hoth & r1 & Hr1 & Ev1 & Rs1). apply IH; [exact L1|intros o' r' Hin; apply (Ho o' r'); right; exact Hin|].
    intros s2 L2 N2 Hoth2 Hall. apply K; [exact L2|lia| |].
    + intros k Hk. cbn [map] in Hk. change (tid (o, r)) with (c_id r) in Hk.
      assert (Hk1 : k <> c_id r) by (intros ->; apply Hk; left; reflexivity). assert (Hk2 : ~ In k (map tid rest)) by (intros Hx; apply Hk; right; exact Hx).
      destruct (Hoth k Hk1) as [A1 A2]. destruct (Hoth2 k Hk2) as [B1 B2]. split; congruence.
    + intros o' r' [Hin|Hin].
      * injection Hin as <- <-. destruct (Hoth2 (c_id r) Hn1) as [B1 B2]. exists (now s), r1. split; [lia|]. rewrite B1, B2. split; [exact Hr1|]. split; [exact Ev1|]. eapply restored_mono; [exact N2|exact Rs1].
      * destruct (Hall o' r' Hin) as (t & r2 & Ht & Hx). exists t, r2. split; [lia|exact Hx].
Qed.

(** loading the objects *)
Definition allocs (rs : list row) (s : st) : st := fold_left (fun s r => new_obj r s) rs s.
Lemma w_alloc_all rs : forall s (Q : list nat -> st -> Prop) (E : exn -> st -> Prop), Q (seq (nobj s) (length rs)) (allocs rs s) -> WP (alloc_all rs) Q E s.
Proof.
  induction rs as [|r rs IH]; intros s Q E HQ; cbn [alloc_all length seq allocs fold_left] in *; [exact HQ|].
  apply w_bind. cbn [alloc get bind upd wp]. apply w_bind. apply IH. cbn [wp]. exact HQ.
Qed.
Lemma allocs_same rs : forall s, db (allocs rs s) = db s /\ cal (allocs rs s) = cal s /\ sch (allocs rs s) = sch s /\ calls (allocs rs s) = calls s /\
  ready (allocs rs s) = ready s /\ outs (allocs rs s) = outs s /\ nobj (allocs rs s) = (nobj s + length rs)%nat.
Proof.
  induction rs as [|r rs IH]; intros s; cbn [allocs fold_left length]; [repeat split; lia|].
  destruct (IH (new_obj r s)) as (H1 & H2 & H3 & H4 & H5 & H6 & H7). unfold allocs in *. rewrite H1, H2, H3, H4, H5, H6, H7. cbn. repeat split. lia.
Qed.
Lemma allocs_heap rs : forall s, (forall o r, aget o (heap s) = Some r -> (o < nobj s)%nat) ->
  (forall o r, aget o (heap (allocs rs s)) = Some r -> (o < nobj s + length rs)%nat) /\
  (forall o, (o < nobj s)%nat -> aget o (heap (allocs rs s)) = aget o (heap s)) /\
  (forall o r, In (o, r) (combine (seq (nobj s) (length rs)) rs) -> aget o (heap (allocs rs s)) = Some r).
Proof.
  induction rs as [|r0 rs IH]; intros s Hh; cbn [allocs fold_left length seq combine].
  - split; [|split; [auto|intros o r []]]. intros o r Ho. apply Hh in Ho. lia.
  - destruct (IH (new_obj r0 s)) as (H1 & H2 & H3).
    { cbn [new_obj heap nobj]. intros o r. rewrite aget_aset. destruct (eqb_ok o (nobj s)) as [->|Hn]; [lia|]. intros Ho. apply Hh in Ho. lia. }
    unfold allocs in *. cbn [new_obj nobj] in H1, H2, H3. split; [|split].
    + intros o r Ho. apply H1 in Ho. lia.
    + intros o Ho. rewrite H2 by lia. cbn [new_obj heap]. rewrite aget_aset_ne by lia. reflexivity.
    + intros o r [Hin|Hin]; [|apply (H3 o r Hin)]. injection Hin as <- <-. rewrite H2 by lia. cbn [new_obj heap]. apply aget_aset_eq.
Qed.
Lemma map_fst_combine {A B} (l : list A) : forall (m : list B), length l = length m -> map fst (combine l m) = l.
Proof. induction l as [|a l IH]; intros [|b m] Hl; cbn in *; try discriminate; auto. rewrite IH; auto. Qed.
Lemma map_snd_combine {A B C} (f : B -> C) (l : list A) : forall (m : list B), length l = length m -> map (fun x => f (snd x)) (combine l m) = map f m.
Proof. induction l as [|a l IH]; intros [|b m] Hl; cbn in *; try discriminate; auto. rewrite IH; auto. Qed.
Lemma NoDup_map_filter {A B} (f : A -> B) p l : NoDup (map f l) -> NoDup (map f (filter p l)).
Proof.
  induction l as [|a l IH]; cbn; [auto|]. intros Hnd. inversion Hnd as [|? ? Hni Hnd']; subst. destruct (p a); cbn; [|auto]. constructor; [|auto].
  intros Hin. apply Hni. apply in_map_iff in Hin as (x & Hx & Hin). apply filter_In in Hin as [Hin _]. apply in_map_iff. eauto.
Qed.
Definition stored (s : st) : list row := filter (fun r => negb (eqb (c_l r) LTerminated)) (map snd (db s)).

Definition PostB (s : st) (x : result unit) (s' : st) : Prop :=
  Inv s' /\ now s <= now s' /\ x = Ok tt /\ (forall k, aget k (db s) = None -> aget k (db s') = None) /\
  forall k r, aget k (db s) = Some r -> exists t r', now s <= t <= now s' /\ aget k (db s') = Some r' /\ evolves r r' /\ restored t (now s') r r' (pend s' k).
Lemma w_restart arm s : InvX arm g [] s -> restartable s -> wpo Dl g (build_schedule g) (PostB s) (reboot s).
Proof.
  intros I Hr. unfold wpo, build_schedule. apply w_bind. cbn [await wp]. intros y dt _. cbn [answer wp]. apply w_bind. cbn [get wp].
  set (s1 := tick dt (reboot s)). assert (Hdb1 : db s1 = db s) by reflexivity. assert (Hn1 : now s <= now s1) by exact (now_tick dt (reboot s)).
  rewrite Hdb1. fold (stored s). apply w_bind. apply w_alloc_all. cbn [nobj]. change (nobj s1) with 0%nat.
  destruct (allocs_same (stored s) s1) as (A1 & A2 & A3 & A4 & A5 & A6 & A7).
  destruct (allocs_heap (stored s) s1) as (B1 & _ & B3); [intros o r Ho; discriminate|]. change (nobj s1) with 0%nat in *.
  apply w_bind. cbn [await wp]. intros y' dt' _. cbn [answer wp].
  set (todo := combine (seq 0 (length (stored s))) (stored s)) in *.
  assert (Hf : map fst todo = seq 0 (length (stored s))) by (apply map_fst_combine, seq_length).
  assert (Hi : map tid todo = map c_id (stored s)) by (apply (map_snd_combine c_id), seq_length).
  set (s2 := allocs (stored s) s1) in *. set (s3 := tick dt' s2).
  assert (Hn3 : now s1 <= now s3). { unfold s3. pose proof (now_tick dt' s2). unfold now in *. rewrite A3 in *. exact H. }
  assert (Hin : forall r, In r (stored s) -> aget (c_id r) (db s) = Some r).
  { intros r Hx. apply filter_In in Hx as [Hx _]. apply in_map_iff in Hx as ([k r'] & <- & Hx). cbn [snd].
    assert (Hk : aget k (db s) = Some r') by (apply In_aget; [apply I|exact Hx]). rewrite (proj1 (n_rows _ _ _ _ I k r' Hk)). exact Hk. }
  assert (L : Loop todo s3).
  { pose proof (n_rows _ _ _ _ I) as Irows. constructor.
    - change (db s3) with (db s2). rewrite A1. apply (n_nd _ _ _ _ I).
    - change (db s3) with (db s2). change (outs s3) with (outs s2). rewrite A1, A6. intros k r Hk. destruct (Irows k r Hk) as [H1 H2].
      split; [exact H1|]. eapply row_ok_mono; [|exact H2]. lia.
    - change (db s3) with (db s2). change (cal s3) with (cal s2). rewrite A1, A2. change (cal s1) with (@nil entry).
      replace (bookings g (skip todo (db s1))) with (@nil entry); [apply Permutation_refl|]. rewrite Hdb1. symmetry.
      unfold bookings, skip. rewrite Hi.
      assert (G : forall l, (forall kr, In kr l -> In kr (db s)) ->
                  flat_map (fun kr : string * row => if liveb (snd kr) then bk g (snd kr) else []) (filter (fun kr => negb (mem (fst kr) (map c_id (stored s)))) l) = []).
      { induction l as [|[k r] l IH]; intros Hl; [reflexivity|]. cbn [filter fst]. specialize (IH (fun kr Hk => Hl kr (or_intror Hk))).
        destruct (negb (mem k (map c_id (stored s)))) eqn:Em; [|exact IH]. cbn [flat_map snd]. rewrite IH, app_nil_r.
        assert (Hk : In (k, r) (db s)) by (apply Hl; left; reflexivity).
        assert (Hid : c_id r = k) by (apply Irows, In_aget; [apply I|exact Hk]).
        destruct (liveb r) eqn:El; [|reflexivity]. exfalso. apply negb_true_iff in Em.
        assert (Hx : In k (map c_id (stored s))).
        { apply in_map_iff. exists r. split; [exact Hid|]. apply filter_In. split; [apply in_map_iff; exists (k, r); auto|].
          apply liveb_live in El as [_ El]. rewrite El. reflexivity. }
        apply mem_In in Hx. congruence. }
      apply G. auto.
    - change (db s3) with (db s2). rewrite A1. apply (n_sep _ _ _ _ I).
    - intros k t due Hp. exfalso. unfold pend in Hp. change (s_dict (sch s3)) with (s_dict (sch s2)) in Hp. rewrite A3 in Hp. discriminate.
    - change (db s3) with (db s2). change (outs s3) with (outs s2). rewrite A1, A6. apply (n_new _ _ _ _ I).
    - change (heap s3) with (heap s2). change (nobj s3) with (nobj s2). rewrite A7. exact B1.
    - apply (sched_step_inv (sch s2) (STick dt')). rewrite A3. apply (sched_step_inv (sch (reboot s)) (STick dt)). apply sinv_init.
    - change (s_queue (sch s3)) with (s_queue (sch s2)). rewrite A3. intros id Hx. exfalso. apply Hx. reflexivity.
    - change (calls s3) with (calls s2). rewrite A4. intros id Hx. exfalso. apply Hx. reflexivity.
    - change (db s3) with (db s2). change (outs s3) with (outs s2). rewrite A1, A6. apply (n_met _ _ _ _ I).
    - change (ready s3) with (ready s2). rewrite A5. reflexivity.
    - intros o r Hx. split; [apply (B3 o r Hx)|]. change (db s3) with (db s2). rewrite A1. split.
      + apply Hin. apply in_combine_r in Hx. exact Hx.
      + change (s_dict (sch s3)) with (s_dict (sch s2)). rewrite A3. reflexivity.
    - rewrite Hf. apply seq_NoDup.
    - rewrite Hi. apply NoDup_map_filter. rewrite map_map.
      replace (map (fun x => c_id (snd x)) (db s)) with (akeys (db s)); [apply I|]. unfold akeys. apply map_ext_in. intros [k r] Hk. cbn [fst snd].
      symmetry. apply Irows, In_aget; [apply I|exact Hk]. }
  rewrite <- Hf. apply w_restore_loop; [exact L| |].
  { intros o r Hx. apply in_combine_r in Hx. apply Hr with (k := c_id r). apply Hin, Hx. }
  intros s' L' N' Hoth Hall. pose proof (loop_inv s' L') as I'. rewrite (n_rd _ _ _ _ I'), (inv_ready _ _ _ _ I'). cbn [wpt].
  split; [exact I'|]. split; [lia|]. split; [reflexivity|]. split.
  { intros k Hk. destruct (Hoth k) as [H1 _]; [|rewrite H1; change (db s3) with (db s2); rewrite A1; exact Hk].
    rewrite Hi. intros Hx. apply in_map_iff in Hx as (r' & E & Hx). apply Hin in Hx. congruence. }
  intros k r Hk. destruct (n_rows _ _ _ _ I k r Hk) as [Hid _].
  destruct (eqb_ok (c_l r) LTerminated) as [El|El].
  - assert (Hnt : ~ In k (map tid todo)).
    { rewrite Hi. intros Hx. apply in_map_iff in Hx as (r' & E & Hx). pose proof (Hin r' Hx) as Hk'. rewrite E, Hk in Hk'. injection Hk' as <-.
      apply filter_In in Hx as [_ Hx]. rewrite El in Hx. discriminate. }
    destruct (Hoth k Hnt) as [H1 H2]. exists (now s), r. split; [lia|]. split.
    { rewrite H1. change (db s3) with (db s2). rewrite A1. exact Hk. }
    split; [apply evolves_refl|]. rewrite H2. unfold pend. change (s_dict (sch s3)) with (s_dict (sch s2)). rewrite A3. cbn.
    assert (Hnl : ~ live r) by (intros [_ Hx]; congruence). constructor; intros; try contradiction; auto; congruence.
  - assert (Hs : In r (stored s)).
    { apply filter_In. split; [apply in_map_iff; exists (k, r); split; [reflexivity|apply aget_In, Hk]|]. rewrite eqb_neq by exact El. reflexivity. }
    assert (Hx : exists o, In (o, r) todo).
    { clear - Hs. unfold todo. generalize 0%nat. induction (stored s) as [|a l IH]; [destruct Hs|]. intros n. cbn. destruct Hs as [->|Hs]; [eauto|].
      destruct (IH Hs (S n)) as (o & Ho). eauto. }
    destruct Hx as (o & Hx). destruct (Hall o r Hx) as (t & r' & Ht & H1 & H2 & H3). rewrite Hid in *. exists t, r'. split; [lia|]. auto.
Qed.
End Restart.
