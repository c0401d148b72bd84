From Verif Require Import Base ModelState SpecState.

Lemma reserve_table a b : mem b (reserve_transitions a) = true <-> r_edge a b.
Proof.
  split; [|intros []; reflexivity].
  destruct a, b; cbn; try discriminate; intros _; constructor.
Qed.
Lemma provision_table a b : mem b (provision_transitions a) = true <-> p_edge a b.
Proof.
  split; [|intros []; reflexivity].
  destruct a, b; cbn; try discriminate; intros _; constructor.
Qed.
Lemma lifecycle_table a b : mem b (lifecycle_transitions a) = true <-> l_edge a b.
Proof.
  split; [|intros []; reflexivity].
  destruct a, b; cbn; try discriminate; intros _; constructor.
Qed.

Lemma set_r_spec n c : (r_edge (st_r c) n /\ set_r n c = Ok (mkStates n (st_p c) (st_l c))) \/
  (~ r_edge (st_r c) n /\ set_r n c = Err EInternalServer).
Proof.
  unfold set_r, switch_state. rewrite <- reserve_table.
  destruct (mem n (reserve_transitions (st_r c))); [left|right]; split; auto; discriminate.
Qed.
Lemma set_p_spec n c : (p_edge (st_p c) n /\ set_p n c = Ok (mkStates (st_r c) n (st_l c))) \/
  (~ p_edge (st_p c) n /\ set_p n c = Err EInternalServer).
Proof.
  unfold set_p, switch_state. rewrite <- provision_table.
  destruct (mem n (provision_transitions (st_p c))); [left|right]; split; auto; discriminate.
Qed.
Lemma set_l_spec n c : (l_edge (st_l c) n /\ set_l n c = Ok (mkStates (st_r c) (st_p c) n)) \/
  (~ l_edge (st_l c) n /\ set_l n c = Err EInternalServer).
Proof.
  unfold set_l, switch_state. rewrite <- lifecycle_table.
  destruct (mem n (lifecycle_transitions (st_l c))); [left|right]; split; auto; discriminate.
Qed.

Ltac split_set :=
  first [ match goal with |- context [set_r ?n ?c] => destruct (set_r_spec n c) as [[He ->]|[He ->]] end
        | match goal with |- context [set_p ?n ?c] => destruct (set_p_spec n c) as [[He ->]|[He ->]] end
        | match goal with |- context [set_l ?n ?c] => destruct (set_l_spec n c) as [[He ->]|[He ->]] end ].
Lemma op_single o c c' : asks o c c' ->
  (op_mem o c = (c', None) /\ one_move c c') \/ op_mem o c = (c, Some EInternalServer).
Proof.
  intros Ha.
  destruct Ha; cbn [op_mem]; split_set; cbn in *;
  first [ right; reflexivity
        | left; split; [reflexivity|]; solve [apply move_r; assumption|apply move_p; assumption|apply move_l; assumption]].
Qed.

Lemma op_exact o c c' : asks o c c' ->
  (edge_ok o c /\ op_mem o c = (c', None) /\ one_move c c') \/
  (~ edge_ok o c /\ op_mem o c = (c, Some EInternalServer)).
Proof.
  intros Ha.
  destruct Ha; cbn [op_mem edge_ok]; split_set; cbn in *;
  first [ right; split; [assumption|reflexivity]
        | left; split; [assumption|split; [reflexivity|]]; solve [apply move_r; assumption|apply move_p; assumption|apply move_l; assumption]].
Qed.

Lemma asks_total o c : (exists ts, o = OpReserveMulti ts) \/ exists c', asks o c c'.
Proof.
  destruct c as [r p l]. destruct o; try (right; eexists; constructor). left; eauto.
Qed.

Lemma path_trans {S} (E : S -> S -> Prop) a b c : path E a b -> path E b c -> path E a c.
Proof. induction 1 as [|s t u He _ IH]; [auto|]. intros H. eapply path_step; [exact He|auto]. Qed.
Lemma path_one {S} (E : S -> S -> Prop) a b : E a b -> path E a b.
Proof. intros H. eapply path_step; [exact H|apply path_refl]. Qed.

(** all three components move along paths *)
Definition spath (a b : states) : Prop :=
  path r_edge (st_r a) (st_r b) /\ path p_edge (st_p a) (st_p b) /\ path l_edge (st_l a) (st_l b).
Lemma spath_refl a : spath a a.
Proof. repeat split; apply path_refl. Qed.
Lemma spath_trans a b c : spath a b -> spath b c -> spath a c.
Proof. intros (H1 & H2 & H3) (G1 & G2 & G3). repeat split; eapply path_trans; eauto. Qed.
Lemma one_move_spath a b : one_move a b -> spath a b.
Proof. intros [r r' p l H|r p p' l H|r p l l' H]; repeat split; cbn; try apply path_refl; apply path_one, H. Qed.

Lemma multi_switch_spath ts : forall c, spath c (fst (multi_switch ts c)) /\
  st_p (fst (multi_switch ts c)) = st_p c /\ st_l (fst (multi_switch ts c)) = st_l c /\
  (snd (multi_switch ts c) = None \/ snd (multi_switch ts c) = Some EInternalServer).
Proof.
  induction ts as [|t ts IH]; cbn; intros c; [repeat split; auto; apply path_refl|].
  destruct (set_r_spec t c) as [[He ->]|[He ->]]; cbn.
  - destruct (IH (mkStates t (st_p c) (st_l c))) as (H1 & H2 & H3 & H4). split; [|auto].
    eapply spath_trans; [|exact H1]. apply one_move_spath. destruct c; cbn in *. constructor; exact He.
  - split; [apply spath_refl|]. auto.
Qed.
Lemma multi_switch_chain ts : forall c, 
  (chain (st_r c) ts /\ multi_switch ts c = (mkStates (last ts (st_r c)) (st_p c) (st_l c), None)) \/
  (~ chain (st_r c) ts /\ snd (multi_switch ts c) = Some EInternalServer).
Proof.
  induction ts as [|t ts IH]; cbn [chain multi_switch]; intros c.
  - left. split; [auto|]. destruct c; reflexivity.
  - destruct (set_r_spec t c) as [[He ->]|[He ->]].
    + destruct (IH (mkStates t (st_p c) (st_l c))) as [[H1 ->]|[H1 H2]]; cbn [st_r st_p st_l] in *.
      * left. split; [auto|]. f_equal. f_equal. clear. destruct ts as [|u ts]; [reflexivity|].
        cbn [last]. revert u; induction ts as [|v ts IH]; intros u; [reflexivity|]. cbn [last]. apply IH.
      * right. split; [tauto|auto].
    + right. cbn. split; [tauto|reflexivity].
Qed.

Lemma op_mem_spath o c : spath c (fst (op_mem o c)).
Proof.
  destruct (asks_total o c) as [[ts ->]|[c' Ha]].
  - apply multi_switch_spath.
  - destruct (op_single o c c' Ha) as [[-> H] | -> ]; cbn; [apply one_move_spath, H|apply spath_refl].
Qed.

(** ** C09 *)
Lemma op_step_spec obj row o save_ok c' : asks o obj c' ->
  (edge_ok o obj /\ one_move obj c' /\ op_step (obj, row) o save_ok = ((c', if save_ok then c' else row), None)) \/
  (~ edge_ok o obj /\ op_step (obj, row) o save_ok = ((obj, row), Some EInternalServer)).
Proof.
  intros Ha. unfold op_step. destruct (op_exact o obj c' Ha) as [(H1 & -> & H2)|(H1 & ->)]; auto.
Qed.
Lemma op_step_multi obj row ts save_ok :
  (chain (st_r obj) ts /\
     let c' := mkStates (last ts (st_r obj)) (st_p obj) (st_l obj) in
     op_step (obj, row) (OpReserveMulti ts) save_ok = ((c', if save_ok then c' else row), None)) \/
  (~ chain (st_r obj) ts /\ exists obj',
     op_step (obj, row) (OpReserveMulti ts) save_ok = ((obj', row), Some EInternalServer)).
Proof.
  unfold op_step. cbn [op_mem]. destruct (multi_switch_chain ts obj) as [[H ->]|[H E]].
  - left. auto.
  - right. split; [exact H|]. destruct (multi_switch ts obj) as [o e]. cbn in E. subst e. eauto.
Qed.

Definition pair_ok (s : states * states) : Prop := spath (snd s) (fst s).
Lemma op_step_pair s o b : pair_ok s -> pair_ok (fst (op_step s o b)) /\ spath (snd s) (snd (fst (op_step s o b))).
Proof.
  destruct s as [obj row]. unfold pair_ok, op_step. cbn [fst snd]. intros H.
  pose proof (op_mem_spath o obj) as Hp. destruct (op_mem o obj) as [obj' [e|]]; cbn in *.
  - split; [eapply spath_trans; eauto|apply spath_refl].
  - destruct b; cbn; [split; [apply spath_refl|eapply spath_trans; eauto]|split; [eapply spath_trans; eauto|apply spath_refl]].
Qed.
Lemma op_run_path l : forall s, pair_ok s -> pair_ok (op_run s l) /\ spath (snd s) (snd (op_run s l)).
Proof.
  unfold op_run. induction l as [|[o b] l IH]; cbn [fold_left]; intros s H; [split; [exact H|apply spath_refl]|].
  destruct (op_step_pair s o b H) as [H1 H2]. cbn [fst snd] in *.
  destruct (IH _ H1) as [H3 H4]. split; [exact H3|]. eapply spath_trans; eauto.
Qed.

(** every single stored change is observable as consecutive stored rows joined by a path *)
Lemma op_run_history c l1 l2 : 
  spath (snd (op_run (c, c) l1)) (snd (op_run (c, c) (l1 ++ l2))).
Proof.
  unfold op_run. rewrite fold_left_app. fold (op_run (c, c) l1).
  destruct (op_run_path l1 (c, c) (spath_refl c)) as [H _].
  destruct (op_run_path l2 _ H) as [_ H2]. exact H2.
Qed.

(** ** C10 *)
Lemma terminated_path l : path l_edge LTerminated l -> l = LTerminated.
Proof. intros H. inversion H as [|s t u He _]; subst; [reflexivity|]. inversion He. Qed.
Lemma created_path l l' : path l_edge l l' -> l' = LCreated -> l = LCreated.
Proof. induction 1 as [|s t u He _ IH]; [auto|]. intros H. specialize (IH H). subst t. inversion He. Qed.
Lemma lifecycle_final c l1 l2 :
  (st_l (snd (op_run (c, c) l1)) = LTerminated -> st_l (snd (op_run (c, c) (l1 ++ l2))) = LTerminated) /\
  (st_l (snd (op_run (c, c) l1)) <> LCreated -> st_l (snd (op_run (c, c) (l1 ++ l2))) <> LCreated).
Proof.
  destruct (op_run_history c l1 l2) as (_ & _ & H). split.
  - intros E. rewrite E in H. apply terminated_path, H.
  - intros Hn E. apply Hn. eapply created_path; eauto.
Qed.

(** ** C11 *)
Lemma notify_loop_all cb cid l : forall fuel i called reg,
  (forall f r, aget cid (cb f r) = aget cid r) ->
  aget cid reg = Some l -> (i <= length l)%nat -> (length l - i < fuel)%nat ->
  exists reg', notify_loop fuel cb cid i called reg = Some (called ++ skipn i l, reg').
Proof.
  induction fuel as [|k IH]; intros i called reg Hcb Hl Hi Hf; [lia|]. cbn [notify_loop]. rewrite Hl.
  destruct (nth_error l i) as [f|] eqn:E.
  - assert (Hlt : (i < length l)%nat) by (apply nth_error_Some; congruence).
    destruct (IH (S i) (called ++ [f]) (cb f reg)) as [reg' ->]; auto; try lia; [rewrite Hcb; exact Hl|].
    exists reg'. f_equal. f_equal. rewrite <- app_assoc. f_equal. cbn [app].
    clear -E. revert i E; induction l as [|x l IH]; intros [|i] E; cbn in *; try discriminate; [congruence|].
    apply IH, E.
  - apply nth_error_None in E. replace i with (length l) by lia. rewrite skipn_all, app_nil_r. eauto.
Qed.
Lemma save_notify_all cb cid l reg : (forall f r, aget cid (cb f r) = aget cid r) ->
  aget cid reg = Some l ->
  exists reg', save_notify (S (length l)) cb cid true reg = Some (l, reg').
Proof.
  intros Hcb Hl. unfold save_notify.
  destruct (notify_loop_all cb cid l (S (length l)) 0 [] reg) as [reg' E]; auto; try lia. eauto.
Qed.
(** fuel beyond what is needed changes nothing *)
Lemma notify_loop_fuel cb cid : forall fuel fuel' i called reg r, (fuel <= fuel')%nat ->
  notify_loop fuel cb cid i called reg = Some r -> notify_loop fuel' cb cid i called reg = Some r.
Proof.
  induction fuel as [|k IH]; intros fuel' i called reg r Hle H; [discriminate|].
  destruct fuel' as [|k']; [lia|]. cbn [notify_loop] in *. destruct (aget cid reg) as [l|]; [|exact H].
  destruct (nth_error l i); [|exact H]. apply IH; [lia|exact H].
Qed.
