From Coq Require Import Permutation.
From Verif Require Import Base BaseProofs ModelCalendar SpecCalendar.
Open Scope Z_scope.

Lemma resource_overlap_ok now s1 e1 s2 e2 :
  forward forever now s1 e1 -> forward forever now s2 e2 ->
  exists b, resource_overlap now s1 e1 s2 e2 = Ok b /\ (b = true <-> share_instant forever now s1 e1 s2 e2).
Proof.
  unfold forward, resource_overlap, share_instant, covers, or_default. intros H1 H2.
  set (a1 := match s1 with Some x => x | None => now end) in *.
  set (a2 := match s2 with Some x => x | None => now end) in *.
  set (b1 := match e1 with Some x => x | None => forever end) in *.
  set (b2 := match e2 with Some x => x | None => forever end) in *.
  destruct (Z.ltb_spec a1 b1); [|lia]. destruct (Z.ltb_spec a2 b2); [|lia]. cbn [negb].
  destruct (Z.ltb_spec b2 a1).
  { exists false. split; [reflexivity|]. split; [discriminate|]. intros (t & Ht1 & Ht2). lia. }
  destruct (a2 >? b1) eqn:E.
  { exists false. split; [reflexivity|]. split; [discriminate|]. intros (t & Ht1 & Ht2). lia. }
  exists true. split; [reflexivity|]. split; [intros _|reflexivity]. exists (Z.max a1 a2). lia.
Qed.

(** the loop: result and its meaning, provided spans run forward *)
Lemma check_loop_spec now c r s e :
  forward forever now s e ->
  (forall cs ce, In (r, (cs, ce)) c -> forward forever now cs ce) ->
  (check_loop now c r s e = Ok tt /\
     forall cs ce, In (r, (cs, ce)) c -> ~ share_instant forever now cs ce s e) \/
  (check_loop now c r s e = Err ESTPUnavailable /\
     exists cs ce, In (r, (cs, ce)) c /\ share_instant forever now cs ce s e).
Proof.
  intros Hf. induction c as [|[cr [cs ce]] c IH]; cbn [check_loop]; intros Hc.
  - left. split; [reflexivity|]. intros cs ce [].
  - assert (IH' := IH (fun a b Hin => Hc a b (or_intror Hin))). clear IH.
    destruct (eqb_ok r cr) as [<-|Hn].
    + destruct (resource_overlap_ok now cs ce s e) as (b & -> & Hb); [apply Hc; left; reflexivity|exact Hf|].
      cbn [bind]. destruct b.
      * right. split; [reflexivity|]. exists cs, ce. split; [left; reflexivity|]. apply Hb; reflexivity.
      * destruct IH' as [[-> H]|[-> (a & b & Hin & H)]].
        -- left. split; [reflexivity|]. intros a b [E|Hin]; [|auto]. injection E as <- <-.
           intros Hs. apply Hb in Hs. discriminate.
        -- right. split; [reflexivity|]. exists a, b. split; [right; exact Hin|exact H].
    + destruct IH' as [[-> H]|[-> (a & b & Hin & H)]].
      * left. split; [reflexivity|]. intros a b [E|Hin]; [congruence|auto].
      * right. split; [reflexivity|]. exists a, b. split; [right; exact Hin|exact H].
Qed.

(** when the loop passes, no same-resource entry overlaps, whatever the spans *)
Lemma check_loop_ok now c r s e : check_loop now c r s e = Ok tt ->
  forall cs ce, In (r, (cs, ce)) c ->
    ~ share_instant forever now cs ce s e /\ forward forever now cs ce /\ forward forever now s e.
Proof.
  induction c as [|[cr [cs' ce']] c IH]; cbn [check_loop]; intros H cs ce Hin; [destruct Hin|].
  destruct (eqb_ok r cr) as [<-|Hn].
  - destruct (resource_overlap now cs' ce' s e) as [b|] eqn:E; [|discriminate]. cbn [bind] in H.
    destruct b; [discriminate|]. destruct Hin as [Ei|Hin]; [|apply IH; auto]. injection Ei as <- <-.
    assert (Hf : forward forever now cs' ce' /\ forward forever now s e).
    { unfold resource_overlap, or_default in E. unfold forward.
      destruct (Z.ltb_spec (match cs' with Some x => x | None => now end) (match ce' with Some x => x | None => forever end)); [|discriminate].
      destruct (Z.ltb_spec (match s with Some x => x | None => now end) (match e with Some x => x | None => forever end)); [|discriminate].
      auto. }
    destruct Hf as [Hf1 Hf2]. split; [|auto].
    destruct (resource_overlap_ok now cs' ce' s e Hf1 Hf2) as (b & Hb & Hiff). rewrite E in Hb. injection Hb as <-.
    intros Hs. apply Hiff in Hs. discriminate.
  - destruct Hin as [Ei|Hin]; [congruence|]. apply IH; auto.
Qed.

Lemma legal_dec now s e :
  (legal_span year2095 now s e /\
    forall c r, cal_check now c r s e = check_loop now c r s e) \/
  (~ legal_span year2095 now s e /\ forall c r, cal_check now c r s e = Err EPayload).
Proof.
  unfold cal_check, legal_span.
  destruct s as [a|]; [|destruct e as [b|]].
  - destruct (match e with Some e' => a >? e' | None => false end) eqn:E1.
    + right. split; [|intros; reflexivity]. intros [H1 _]. destruct e as [b|]; [|discriminate].
      specialize (H1 a b eq_refl eq_refl). lia.
    + destruct (Z.ltb_spec a now).
      { right. split; [|intros; reflexivity]. intros [_ H2]. specialize (H2 a eq_refl). lia. }
      destruct (a >? year2095) eqn:E3.
      { right. split; [|intros; reflexivity]. intros [_ H2]. specialize (H2 a eq_refl). lia. }
      left. split; [|intros; reflexivity]. split.
      * intros x y [= <-] Hy. subst e. lia.
      * intros x [= <-]. lia.
  - left. split; [|intros; reflexivity]. split; intros; congruence.
  - left. split; [|intros; reflexivity]. split; intros; congruence.
Qed.

(** ** C06 *)
Lemma cal_check_spec now c r s e :
  forward forever now s e ->
  (forall cs ce, In (r, (cs, ce)) c -> forward forever now cs ce) ->
  let busy := exists cs ce, In (r, (cs, ce)) c /\ share_instant forever now cs ce s e in
  (cal_check now c r s e = Ok tt <-> legal_span year2095 now s e /\ ~ busy) /\
  (cal_check now c r s e = Err ESTPUnavailable <-> legal_span year2095 now s e /\ busy) /\
  (cal_check now c r s e = Err EPayload <-> ~ legal_span year2095 now s e) /\
  (cal_check now c r s e = Ok tt \/ cal_check now c r s e = Err ESTPUnavailable \/ cal_check now c r s e = Err EPayload).
Proof.
  intros Hf Hc busy.
  destruct (legal_dec now s e) as [[Hl Heq]|[Hl Heq]]; rewrite Heq.
  - destruct (check_loop_spec now c r s e Hf Hc) as [[-> H]|[-> H]].
    + assert (Hnb : ~ busy) by (intros (a & b & Hin & Hs); apply (H a b Hin Hs)).
      clearbody busy. clear H Heq. intuition congruence.
    + assert (Hb : busy) by exact H. clearbody busy. clear H Heq. intuition congruence.
  - clearbody busy. clear Heq. intuition congruence.
Qed.

(** ** C07: history with ghost booking times *)
Definition gentry : Type := (Z * entry)%type.
(** an entry booked at [bt] occupies its resource from its start, or from [bt] *)
Definition gdisjoint (x y : gentry) : Prop :=
  let '(bx, (rx, (sx, ex))) := x in let '(by_, (ry, (sy, ey))) := y in
  rx = ry -> ~ exists t, covers forever bx sx ex t /\ covers forever by_ sy ey t.

Record gstate := mkG { g_now : Z; g_entries : list gentry }.
Fixpoint gremove (x : entry) (g : list gentry) : option (list gentry) :=
  match g with
  | [] => None
  | (b, y) :: g' => if eqb x y then Some g' else option_map (cons (b, y)) (gremove x g')
  end.
Definition gstep (st : gstate) (o : cal_op) : gstate :=
  match o with
  | CBook r s e =>
      match cal_check (g_now st) (map snd (g_entries st)) r s e with
      | Ok _ => mkG (g_now st) (g_entries st ++ [(g_now st, mk_entry r s e)])
      | Err _ => st
      end
  | CRemove r s e =>
      match gremove (mk_entry r s e) (g_entries st) with Some g => mkG (g_now st) g | None => st end
  | CTick dt => mkG (g_now st + Z.max 0 dt) (g_entries st)
  end.
Definition erase (st : gstate) : cal_state := mkCal (g_now st) (map snd (g_entries st)).

Lemma gremove_erase x g : option_map (map snd) (gremove x g) = remove_first x (map snd g).
Proof.
  induction g as [|[b y] g IH]; cbn [gremove map remove_first snd]; [reflexivity|].
  destruct (eqb x y); [reflexivity|]. rewrite <- IH. destruct (gremove x g); reflexivity.
Qed.
Lemma gstep_erase st o : erase (gstep st o) = cal_step (erase st) o.
Proof.
  destruct o as [r s e|r s e|dt]; cbn -[cal_check]; unfold erase; cbn -[cal_check].
  - destruct (cal_check _ _ _ _ _); cbn; [|reflexivity]. rewrite map_app. reflexivity.
  - unfold cal_remove. rewrite <- gremove_erase. destruct (gremove _ _); reflexivity.
  - reflexivity.
Qed.

Definition ginv (st : gstate) : Prop :=
  pairwise gdisjoint (g_entries st) /\ Forall (fun g => fst g <= g_now st) (g_entries st).

Lemma pairwise_nil {A} (P : A -> A -> Prop) : pairwise P [].
Proof. intros i j x y _ Hx. destruct i; discriminate. Qed.
Lemma pairwise_cons {A} (P : A -> A -> Prop) a l : pairwise P (a :: l) <-> (forall y, In y l -> P a y) /\ pairwise P l.
Proof.
  split.
  - intros H. split.
    + intros y Hy. apply In_nth_error in Hy as [n Hn]. apply (H 0%nat (S n) a y); [lia|reflexivity|exact Hn].
    + intros i j x y Hij Hx Hy. apply (H (S i) (S j) x y); [lia|exact Hx|exact Hy].
  - intros [H1 H2] i j x y Hij Hx Hy. destruct j as [|j]; [lia|]. cbn in Hy. destruct i as [|i]; cbn in Hx.
    + injection Hx as <-. apply H1. eapply nth_error_In; eauto.
    + apply (H2 i j); [lia|exact Hx|exact Hy].
Qed.
Lemma pairwise_snoc {A} (P : A -> A -> Prop) l a : pairwise P l -> (forall x, In x l -> P x a) -> pairwise P (l ++ [a]).
Proof.
  induction l as [|b l IH]; cbn [app]; intros Hp Ha.
  - apply pairwise_cons. split; [intros y []|apply pairwise_nil].
  - apply pairwise_cons in Hp as [H1 H2]. apply pairwise_cons. split.
    + intros y Hy. apply in_app_iff in Hy as [Hy|[<-|[]]]; [auto|]. apply Ha. left; reflexivity.
    + apply IH; [auto|]. intros x Hx. apply Ha. right; exact Hx.
Qed.
Lemma gremove_incl x g g' : gremove x g = Some g' -> (forall y, In y g' -> In y g).
Proof.
  revert g'; induction g as [|[b y] g IH]; cbn -[eqb]; [discriminate|]. intros g'.
  destruct (eqb x y); [intros [= <-]; auto|]. destruct (gremove x g) as [g1|]; [|discriminate].
  intros [= <-] z [<-|Hz]; [auto|]. right. eapply IH; eauto.
Qed.
Lemma gremove_pairwise (P : gentry -> gentry -> Prop) x g g' : gremove x g = Some g' -> pairwise P g -> pairwise P g'.
Proof.
  revert g'; induction g as [|[b y] g IH]; cbn -[eqb]; [discriminate|]. intros g'.
  destruct (eqb x y).
  - intros [= <-] Hp. apply pairwise_cons in Hp. tauto.
  - destruct (gremove x g) as [g1|] eqn:E; [|discriminate]. intros [= <-] Hp.
    apply pairwise_cons in Hp as [H1 H2]. apply pairwise_cons. split; [|auto].
    intros z Hz. apply H1. eapply gremove_incl; eauto.
Qed.

(** A passed check at [now] means no conflict with any earlier booking, also
    when that booking had no start (it occupies its resource since [bt <= now]). *)
Lemma check_disjoint now c r s e : cal_check now c r s e = Ok tt ->
  forall bt cs ce, bt <= now -> In (r, (cs, ce)) c ->
  ~ exists t, covers forever bt cs ce t /\ covers forever now s e t.
Proof.
  intros H bt cs ce Hbt Hin (t & Ht1 & Ht2).
  destruct (legal_dec now s e) as [[Hl Heq]|[Hl Heq]]; rewrite Heq in H; [|discriminate].
  destruct (check_loop_ok now c r s e H cs ce Hin) as (Hns & Hf1 & Hf2).
  apply Hns. exists t. split; [|exact Ht2].
  unfold covers in *. destruct cs as [a|]; [exact Ht1|].
  destruct Hl as [_ Hl]. destruct s as [b|].
  - specialize (Hl b eq_refl). lia.
  - lia.
Qed.

Lemma gstep_inv st o : ginv st -> ginv (gstep st o).
Proof.
  intros [Hp Hb]. destruct o as [r s e|r s e|dt]; cbn -[cal_check].
  - destruct (cal_check (g_now st) (map snd (g_entries st)) r s e) as [[]|] eqn:E; [|split; assumption].
    split; cbn [g_entries g_now].
    + apply pairwise_snoc; [exact Hp|]. intros [bt [cr [cs ce]]] Hin. unfold gdisjoint, mk_entry. intros ->.
      eapply check_disjoint; [exact E| |].
      * rewrite Forall_forall in Hb. apply (Hb _ Hin).
      * apply (in_map snd) in Hin. exact Hin.
    + apply Forall_app. split; [exact Hb|]. constructor; [cbn; lia|constructor].
  - destruct (gremove (mk_entry r s e) (g_entries st)) as [g|] eqn:E; [|split; assumption].
    split; cbn [g_entries g_now].
    + eapply gremove_pairwise; eauto.
    + rewrite Forall_forall in *. intros x Hx. apply Hb. eapply gremove_incl; eauto.
  - split; cbn [g_entries g_now]; [exact Hp|]. eapply Forall_impl; [|exact Hb]. cbn. intros; lia.
Qed.
Lemma grun_inv ops : forall st, ginv st -> ginv (fold_left gstep ops st).
Proof. induction ops as [|o ops IH]; cbn [fold_left]; intros st H; [exact H|]. apply IH, gstep_inv, H. Qed.
Lemma grun_erase ops : forall st, erase (fold_left gstep ops st) = cal_run (erase st) ops.
Proof.
  unfold cal_run. induction ops as [|o ops IH]; cbn [fold_left]; intros st; [reflexivity|].
  rewrite IH, gstep_erase. reflexivity.
Qed.

Lemma grun_low now0 ops : forall st, Forall (fun x : gentry => now0 <= fst x) (g_entries st) /\ now0 <= g_now st ->
  Forall (fun x : gentry => now0 <= fst x) (g_entries (fold_left gstep ops st)) /\ now0 <= g_now (fold_left gstep ops st).
Proof.
  induction ops as [|o ops IH]; cbn [fold_left]; intros st [H1 H2]; [auto|].
  apply IH. destruct o as [r s e|r s e|dt]; cbn -[cal_check gremove].
  - destruct (cal_check _ _ _ _ _); cbn; [|auto]. split; [|exact H2]. apply Forall_app. split; [exact H1|]. constructor; [cbn; lia|constructor].
  - destruct (gremove _ _) as [g'|] eqn:E; cbn; [|auto]. split; [|exact H2]. rewrite Forall_forall in *.
    intros x Hx. apply H1. eapply gremove_incl; eauto.
  - split; [exact H1|lia].
Qed.

Lemma no_double_booking now0 ops :
  exists gs : list gentry,
    map snd gs = c_entries (cal_run (mkCal now0 []) ops) /\
    (forall bt en, In (bt, en) gs -> now0 <= bt <= c_now (cal_run (mkCal now0 []) ops)) /\
    pairwise gdisjoint gs.
Proof.
  set (g := fold_left gstep ops (mkG now0 [])).
  assert (He : erase g = cal_run (mkCal now0 []) ops) by apply (grun_erase ops (mkG now0 [])).
  assert (Hi : ginv g) by (apply grun_inv; split; cbn; [apply pairwise_nil|constructor]).
  assert (Hlow : Forall (fun x => now0 <= fst x) (g_entries g) /\ now0 <= g_now g).
  { apply grun_low. split; cbn; [constructor|lia]. }
  exists (g_entries g). rewrite <- He. split; [reflexivity|]. split; [|apply Hi].
  intros bt en Hin. destruct Hi as [_ Hb]. destruct Hlow as [Hl _]. rewrite Forall_forall in *. split; [apply (Hl _ Hin)|apply (Hb _ Hin)].
Qed.

(** ** C08 *)
Lemma remove_first_Some x c c' : remove_first x c = Some c' ->
  exists a b, c = a ++ x :: b /\ c' = a ++ b /\ ~ In x a.
Proof.
  revert c'; induction c as [|y c IH]; cbn -[eqb]; [discriminate|]. intros c'.
  destruct (eqb_ok x y) as [<-|Hn].
  - intros [= <-]. exists [], c. cbn. auto.
  - destruct (remove_first x c) as [c1|]; [|discriminate]. intros [= <-].
    destruct (IH _ eq_refl) as (a & b & -> & -> & Hni). exists (y :: a), b. cbn. repeat split; auto.
    intros [E|Hin]; [congruence|auto].
Qed.
Lemma remove_first_None x c : remove_first x c = None <-> ~ In x c.
Proof.
  induction c as [|y c IH]; cbn -[eqb]; [tauto|]. destruct (eqb_ok x y) as [<-|Hn].
  - split; [discriminate|]. tauto.
  - destruct (remove_first x c); cbn; [split; [discriminate|]|].
    + intros H. exfalso. apply H. right. destruct IH as [_ IH].
      destruct (in_dec (fun a b => match eqb_ok a b with ReflectT _ p => left p | ReflectF _ p => right p end) x c); [auto|].
      specialize (IH n). discriminate.
    + split; [|reflexivity]. intros _ [E|Hin]; [congruence|]. destruct IH as [IH _]. apply IH; auto.
Qed.
Lemma cal_remove_spec c r s e :
  (In (mk_entry r s e) c /\ exists a b, c = a ++ mk_entry r s e :: b /\ cal_remove c r s e = Ok (a ++ b) /\ ~ In (mk_entry r s e) a) \/
  (~ In (mk_entry r s e) c /\ cal_remove c r s e = Err EValue).
Proof.
  unfold cal_remove. destruct (remove_first (mk_entry r s e) c) as [c'|] eqn:E.
  - left. apply remove_first_Some in E as (a & b & -> & -> & Hni). split; [apply in_elt|]. eauto.
  - right. split; [|reflexivity]. apply remove_first_None. exact E.
Qed.

Lemma check_loop_perm_ok now c c' r s e : (forall x, In x c <-> In x c') ->
  check_loop now c r s e = Ok tt -> check_loop now c' r s e = Ok tt.
Proof.
  intros Hp H.
  assert (G : forall cs ce, In (r, (cs, ce)) c' -> resource_overlap now cs ce s e = Ok false).
  { intros cs ce Hin. apply Hp in Hin. clear Hp c'. induction c as [|[cr [a b]] c IH]; [destruct Hin|].
    cbn [check_loop] in H. destruct (eqb_ok r cr) as [<-|Hn].
    - destruct (resource_overlap now a b s e) as [o|] eqn:E; [|discriminate]. cbn in H. destruct o; [discriminate|].
      destruct Hin as [Ei|Hin]; [injection Ei as <- <-; exact E|auto].
    - destruct Hin as [Ei|Hin]; [congruence|auto]. }
  clear Hp H. induction c' as [|[cr [a b]] c' IH]; [reflexivity|]. cbn [check_loop].
  destruct (eqb_ok r cr) as [<-|Hn].
  - rewrite (G a b (or_introl eq_refl)). cbn. apply IH. intros cs ce Hin. apply G. right; exact Hin.
  - apply IH. intros cs ce Hin. apply G. right; exact Hin.
Qed.
(** adding and removing an entry leaves the same multiset, and removing takes
    the entry out even if it was not the last one added *)
Lemma add_remove c r s e : exists c', cal_remove (cal_add c r s e) r s e = Ok c' /\ Permutation c c' /\
  forall now r' s' e', cal_check now c' r' s' e' = Ok tt <-> cal_check now c r' s' e' = Ok tt.
Proof.
  destruct (cal_remove_spec (cal_add c r s e) r s e) as [(_ & a & b & Heq & Hrem & _)|[Hn _]].
  - exists (a ++ b). split; [exact Hrem|].
    assert (Hp : Permutation c (a ++ b)).
    { unfold cal_add in Heq. apply (Permutation_app_inv_l [mk_entry r s e]). cbn.
      eapply perm_trans; [apply (Permutation_cons_append c (mk_entry r s e))|]. rewrite Heq.
      apply Permutation_sym, Permutation_middle. }
    split; [exact Hp|]. intros now r' s' e'.
    destruct (legal_dec now s' e') as [[Hl Hq]|[Hl Hq]]; rewrite !Hq; [|tauto].
    split; apply check_loop_perm_ok; intros x; split; intros Hx; eapply Permutation_in; try exact Hx; auto using Permutation_sym.
  - exfalso. apply Hn. unfold cal_add. apply in_elt.
Qed.
