(** Proofs about the connection managers of Ethernet switches. *)
From Verif Require Import Base BaseProofs ModelLabel ModelDrivers SpecDrivers.
Open Scope Z_scope.
#[local] Arguments vlan_name : simpl never.
#[local] Arguments label_value : simpl never.
#[local] Arguments py_str : simpl never.

(** * Words *)
Lemma words_join l : l <> [] -> Forall word l -> words (join " " l) = l.
Proof.
  intros Hn Hw. unfold words. apply split_on_join; [exact Hn|]. intros x Hx.
  rewrite Forall_forall in Hw. apply Hw. exact Hx.
Qed.

Lemma word_digits s : sall is_digit s = true -> word s.
Proof. intros H. apply shas_digits; [reflexivity|exact H]. Qed.

Lemma numchar_word s : sall numchar s = true -> word s.
Proof.
  unfold word. induction s as [|c s IH]; intros H; [reflexivity|].
  cbn [sall] in H. apply andb_prop in H as [H1 H2]. rewrite shas_cons, (IH H2), orb_false_r.
  destruct (Ascii.eqb_spec " " c) as [<-|Hn]; [discriminate H1|reflexivity].
Qed.
Lemma word_py_str n : word (py_str n).
Proof. apply numchar_word, py_str_chars. Qed.
Lemma word_app a b : word a -> word b -> word (a +++ b).
Proof. unfold word. intros Ha Hb. rewrite shas_app, Ha, Hb. reflexivity. Qed.
Lemma word_vlan_name v : word (vlan_name v).
Proof. apply word_app; [reflexivity|apply word_py_str]. Qed.

Lemma vlan_name_inj v w : vlan_name v = vlan_name w -> v = w.
Proof. intros H. apply append_inj_r in H. apply py_str_inj. exact H. Qed.

Ltac wordy := repeat first [exact (@Forall_nil _ _) | apply Forall_cons];
  try match goal with
      | |- word (py_str _) => apply word_py_str
      | |- word (vlan_name _) => apply word_vlan_name
      | |- word (String _ _) => reflexivity
      | |- word ?x => is_var x; assumption
      end.

(** * Juniper configurations *)
Lemma filter_In_iff {A} (f : A -> bool) x l : In x (filter f l) <-> In x l /\ f x = true.
Proof. apply filter_In. Qed.

Lemma junos_set cfg cmd p q : words cmd = "set" :: p ->
  (In q (junos_exec cfg cmd) <-> q = norm p \/ (In q cfg /\ clash (norm p) q = false)).
Proof.
  intros E. unfold junos_exec. rewrite E. change (eqb "set" "set") with true. cbn [In].
  rewrite filter_In, negb_true_iff. split; intros [H|H]; auto.
Qed.
Lemma junos_delete cfg cmd p q : words cmd = "delete" :: p ->
  (In q (junos_exec cfg cmd) <-> In q cfg /\ below (norm p) q = false).
Proof.
  intros E. unfold junos_exec. rewrite E. change (eqb "delete" "set") with false. change (eqb "delete" "delete") with true.
  rewrite filter_In, negb_true_iff. reflexivity.
Qed.

Lemma norm_other i r : eqb i "interfaces" = false -> norm (i :: r) = i :: r.
Proof. intros H. unfold norm. destruct r; [reflexivity|]. rewrite H. reflexivity. Qed.
Lemma norm_plain x r : shas "." x = false -> norm ("interfaces" :: x :: r) = "interfaces" :: x :: r.
Proof.
  intros H. unfold norm. change (eqb "interfaces" "interfaces") with true. cbv iota.
  apply rsplit1_None in H. rewrite H. reflexivity.
Qed.
Lemma norm_dotted x u r : shas "." u = false ->
  norm ("interfaces" :: (x +++ "." +++ u) :: r) = "interfaces" :: x :: "unit" :: u :: r.
Proof.
  intros H. unfold norm. change (eqb "interfaces" "interfaces") with true. cbv iota.
  change (x +++ "." +++ u) with (x +++ String "." u). rewrite (rsplit1_app _ _ _ H). reflexivity.
Qed.

Lemma below_iff p q : below p q = true <-> exists r, q = p ++ r.
Proof.
  revert q; induction p as [|a p IH]; intros q; cbn.
  - split; [intros _; exists q; reflexivity|reflexivity].
  - destruct q as [|b q]; [split; [discriminate|intros [r H]; discriminate H]|].
    rewrite andb_true_iff, IH. split.
    + intros [E [r ->]]. apply (proj1 (eqb_true a b)) in E. subst b. exists r. reflexivity.
    + intros [r H]. injection H as -> ->. split; [apply eqb_refl|]. exists r. reflexivity.
Qed.
Lemma below_refl p : below p p = true.
Proof. apply below_iff. exists []. rewrite app_nil_r. reflexivity. Qed.

Lemma clash_same p q : clash p q = true -> p <> q.
Proof.
  revert q; induction p as [|a p IH]; intros q; cbn; [discriminate|].
  destruct q as [|b q]; [discriminate|]. rewrite andb_true_iff. intros [E H] He. injection He as -> ->.
  destruct q as [|w [|? ?]].
  - discriminate H.
  - rewrite eqb_refl in H. rewrite andb_false_r in H. discriminate H.
  - apply (IH _ H). reflexivity.
Qed.

(** * Histories over a set of statements

    [adds k] are the statements a link stands for, [kills k q] says that tearing
    down [k] removes [q], [lone k q] that setting up [k] removes [q]. *)
Section Statements.
  Context {C S Q : Type} (D : driver C) (exec : S -> C -> S) (has : S -> Q -> Prop) (may : link -> Prop) (start : S).
  Variables (adds : link -> Q -> Prop) (kills : link -> Q -> Prop) (lone : link -> Q -> Prop).
  Variable good : link -> Prop.
  Hypothesis up_ok : forall d k cs, good k -> dr_setup D (k_id k) (k_sp k) (k_sl k) (k_dp k) (k_dl k) = Ok cs ->
    forall q, has (fold_left exec cs d) q <-> adds k q \/ (has d q /\ ~ lone k q).
  Hypothesis down_ok : forall d k cs, good k -> dr_teardown D (k_id k) (k_sp k) (k_sl k) (k_dp k) (k_dl k) = Ok cs ->
    forall q, has (fold_left exec cs d) q <-> has d q /\ ~ kills k q.
  Hypothesis good_ok : forall k cs, may k -> picked k -> nameable D k ->
    dr_setup D (k_id k) (k_sp k) (k_sl k) (k_dp k) (k_dl k) = Ok cs -> good k.
  Hypothesis own : forall k q, good k -> adds k q -> kills k q.
  Hypothesis apart_ok : forall k k' q, good k -> good k' -> apart D k k' -> adds k' q -> ~ kills k q /\ ~ lone k q.
  Hypothesis fresh : forall k q, good k -> has start q -> ~ kills k q /\ ~ lone k q.

  Lemma apart_sym k k' : apart D k k' -> apart D k' k.
  Proof. intros [H1 H2]. split; [congruence|]. intros r [Ha Hb]. apply (H2 r). split; assumption. Qed.

  Lemma reach_inv d ks : reach D exec may start d ks ->
    Forall good ks /\ ForallOrdPairs (apart D) ks /\
    forall q, has d q <-> has start q \/ exists k, In k ks /\ adds k q.
  Proof.
    induction 1 as [|d ks k cs Hr IH Hm Hp Hn Ha Hs|d ks1 k ks2 cs Hr IH Ht].
    - split; [constructor|]. split; [constructor|]. intros q. split; [auto|]. intros [H|(k & [] & _)]. exact H.
    - destruct IH as (Hg & Ho & Hq). pose proof (good_ok k cs Hm Hp Hn Hs) as Gk.
      split; [constructor; assumption|]. split.
      { constructor; [|exact Ho]. rewrite Forall_forall. exact Ha. }
      intros q. rewrite (up_ok d k cs Gk Hs q), Hq. split.
      + intros [H|[[H|(k' & Hk' & H)] Hl]].
        * right. exists k. split; [left; reflexivity|exact H].
        * left. exact H.
        * right. exists k'. split; [right; exact Hk'|exact H].
      + intros [H|(k' & [<-|Hk'] & H)].
        * right. split; [left; exact H|]. apply (fresh k q Gk H).
        * left. exact H.
        * right. split; [right; exists k'; split; assumption|].
          rewrite Forall_forall in Hg. apply (apart_ok k k' q Gk (Hg k' Hk') (Ha k' Hk') H).
    - destruct IH as (Hg & Ho & Hq).
      assert (Gk : good k). { rewrite Forall_forall in Hg. apply Hg. apply in_elt. }
      assert (Hx : forall k', In k' (ks1 ++ ks2) -> apart D k k').
      { intros k' Hk'. clear -Ho Hk'. induction ks1 as [|a ks1 IH]; cbn in *.
        - inversion Ho as [|? ? Hf _]; subst. rewrite Forall_forall in Hf. apply Hf. exact Hk'.
        - inversion Ho as [|? ? Hf Ho']; subst. rewrite Forall_forall in Hf. destruct Hk' as [<-|Hk'].
          + apply apart_sym. apply Hf. apply in_elt.
          + apply IH; assumption. }
      split. { rewrite Forall_forall in *. intros x Hxin. apply Hg. rewrite in_app_iff in *. cbn. tauto. }
      split.
      { clear -Ho. induction ks1 as [|a ks1 IH]; cbn in *.
        - inversion Ho; assumption.
        - inversion Ho as [|? ? Hf Ho']; subst. constructor; [|apply IH; exact Ho'].
          rewrite Forall_forall in *. intros x Hx. apply Hf. rewrite in_app_iff in *. cbn. tauto. }
      intros q. rewrite (down_ok d k cs Gk Ht q), Hq. split.
      + intros [[H|(k' & Hk' & H)] Hl]; [left; exact H|].
        right. rewrite in_app_iff in Hk'. cbn in Hk'. destruct Hk' as [Hk'|[<-|Hk']].
        * exists k'. rewrite in_app_iff. tauto.
        * exfalso. apply Hl. apply own; assumption.
        * exists k'. rewrite in_app_iff. tauto.
      + intros [H|(k' & Hk' & H)].
        * split; [left; exact H|]. apply (fresh k q Gk H).
        * split.
          { right. exists k'. split; [|exact H]. rewrite in_app_iff in *. cbn. tauto. }
          assert (Gk' : good k'). { rewrite Forall_forall in Hg. apply Hg. rewrite in_app_iff in *. cbn. tauto. }
          apply (apart_ok k k' q Gk Gk' (Hx k' Hk') H).
  Qed.
End Statements.

Lemma clash_last p q : clash p q = true ->
  exists r k v w, p = r ++ [k; v] /\ q = r ++ [k; w] /\ mem k one_valued = true /\ v <> w.
Proof.
  revert q; induction p as [|a p IH]; intros q; cbn; [discriminate|].
  destruct q as [|b q]; [discriminate|]. rewrite andb_true_iff. intros [E H].
  apply (proj1 (eqb_true a b)) in E. subst b.
  assert (Hr : clash p q = true -> exists r k v w, a :: p = r ++ [k; v] /\ a :: q = r ++ [k; w] /\ mem k one_valued = true /\ v <> w).
  { intros Hc. destruct (IH _ Hc) as (r & k & v & w & -> & -> & Hm & Hn). exists (a :: r), k, v, w. auto. }
  destruct p as [|v [|? ?]]; [discriminate H| |apply Hr; exact H].
  destruct q as [|w [|? ?]]; [apply Hr; exact H| |apply Hr; exact H].
  apply andb_prop in H as [Hm Hn]. apply negb_true_iff in Hn. apply eqb_false in Hn.
  exists [], a, v, w. auto.
Qed.
Lemma clash_many r k v q : mem k one_valued = false -> clash (r ++ [k; v]) q = false.
Proof.
  intros Hk. destruct (clash (r ++ [k; v]) q) eqn:E; [|reflexivity].
  destruct (clash_last _ _ E) as (r' & k' & v' & w & H & _ & Hm & _).
  change (r ++ [k; v]) with (r ++ [k] ++ [v]) in H. change (r' ++ [k'; v']) with (r' ++ [k'] ++ [v']) in H.
  rewrite !app_assoc in H. apply app_inj_tail in H as [H _]. apply app_inj_tail in H as [_ ->]. congruence.
Qed.

(** * Labels with one value *)
Lemma single_vlan l : single_value l = true -> exists v, lvalues l = [(v, v)].
Proof.
  unfold single_value. destruct (lvalues l) as [|[a b] [|? ?]]; try discriminate.
  intros H. apply Z.eqb_eq in H. subst b. exists a. reflexivity.
Qed.
Lemma label_value_single t v : label_value (mkLabel t [(v, v)]) = py_str v.
Proof. unfold label_value, value_text. cbn. rewrite Z.eqb_refl. reflexivity. Qed.
Lemma int_of_py_str v : int_of (py_str v) = Ok v.
Proof. unfold int_of. rewrite py_int_str. reflexivity. Qed.

(** * juniperex.py *)
Definition vlan_label (v : Z) : option label := Some (mkLabel "vlan" [(v, v)]).

Lemma ex_target_ok pm port l t : ex_target pm port l = Ok t -> (forall l', l = Some l' -> single_value l' = true) ->
  exists v itf, l = vlan_label v /\ aget port pm = Some itf /\ t = (itf, v).
Proof.
  unfold ex_target. destruct l as [l|]; [|discriminate].
  destruct (eqb_ok (ltype l) "vlan") as [E|E]; [|discriminate].
  intros H Hs. destruct (single_vlan l (Hs l eq_refl)) as [v Hv].
  destruct l as [ty vs]; cbn in E, Hv; subst ty vs. rewrite label_value_single, int_of_py_str in H. cbn in H.
  destruct ((1 <=? v) && (v <=? 4095)); [|discriminate]. unfold port_of in H.
  destruct (aget port pm) as [itf|]; [|discriminate]. cbn in H. injection H as <-.
  exists v, itf. repeat split.
Qed.

Section JuniperEX.
  Variable pm : list (string * string).
  Hypothesis Hpm : plain_interfaces pm.

  Definition ex_vals (k : link) (si di : string) (v : Z) : Prop :=
    aget (k_sp k) pm = Some si /\ aget (k_dp k) pm = Some di /\ k_sl k = vlan_label v /\ k_dl k = vlan_label v.
  Definition ex_vlan_path (v : Z) : path := ["vlans"; vlan_name v; "vlan-id"; py_str v].
  Definition ex_member (itf : string) (v : Z) : path :=
    ["interfaces"; itf; "unit"; "0"; "family"; "ethernet-switching"; "vlan"; "members"; vlan_name v].
  Definition ex_adds (k : link) (q : path) : Prop :=
    exists si di v, ex_vals k si di v /\ (q = ex_vlan_path v \/ q = ex_member si v \/ q = ex_member di v).
  Definition ex_kills (k : link) (q : path) : Prop :=
    exists si di v, ex_vals k si di v /\
      (below ["vlans"; vlan_name v] q = true \/ below (ex_member si v) q = true \/ below (ex_member di v) q = true).
  Definition ex_lone (k : link) (q : path) : Prop :=
    exists si di v, ex_vals k si di v /\ clash (ex_vlan_path v) q = true.

  Lemma ex_vals_fun k si di v si' di' v' : ex_vals k si di v -> ex_vals k si' di' v' -> si' = si /\ di' = di /\ v' = v.
  Proof. intros (A & B & E & F) (A' & B' & E' & F'). unfold vlan_label in *. split; [congruence|]. split; congruence. Qed.

  Lemma ex_setup_inv k cs : picked k ->
    dr_setup (juniperex pm) (k_id k) (k_sp k) (k_sl k) (k_dp k) (k_dl k) = Ok cs ->
    exists si di v, ex_vals k si di v /\ cs = ex_configure si di v.
  Proof.
    intros Hp H. cbn in H. unfold via_targets in H.
    destruct (ex_target pm (k_sp k) (k_sl k)) as [s|] eqn:Es; [|discriminate]. cbn in H.
    destruct (ex_target pm (k_dp k) (k_dl k)) as [d|] eqn:Ed; [|discriminate]. cbn in H.
    apply ex_target_ok in Es; [|intros l' Hl; apply (Hp (k_sp k)); left; auto].
    apply ex_target_ok in Ed; [|intros l' Hl; apply (Hp (k_dp k)); right; auto].
    destruct Es as (v & si & Hsl & Hsi & ->). destruct Ed as (w & di & Hdl & Hdi & ->).
    unfold ex_setup in H. cbn [fst snd] in H. destruct (eqb_ok v w) as [<-|]; [|discriminate].
    injection H as <-. exists si, di, v. repeat split; assumption.
  Qed.

  Lemma ex_words_set_vlan v : words (ex_set_vlan v) = "set" :: ex_vlan_path v.
  Proof. apply (words_join ("set" :: ex_vlan_path v)); [discriminate|]. wordy. Qed.
  Lemma ex_words_set_interface p v : word p -> words (ex_set_interface p v) = "set" :: ex_member p v.
  Proof. intros Hp. apply (words_join ("set" :: ex_member p v)); [discriminate|]. wordy. Qed.
  Lemma ex_words_delete_vlan v : words (ex_delete_vlan v) = ["delete"; "vlans"; vlan_name v].
  Proof. apply (words_join ["delete"; "vlans"; vlan_name v]); [discriminate|]. wordy. Qed.
  Lemma ex_words_delete_interface p v : word p -> words (ex_delete_interface p v) = "delete" :: ex_member p v.
  Proof. intros Hp. apply (words_join ("delete" :: ex_member p v)); [discriminate|]. wordy. Qed.

  Lemma ex_member_clash itf v q : clash (ex_member itf v) q = false.
  Proof.
    apply (clash_many ["interfaces"; itf; "unit"; "0"; "family"; "ethernet-switching"; "vlan"] "members" (vlan_name v)).
    reflexivity.
  Qed.
  Lemma ex_norm_member itf v : shas "." itf = false -> norm (ex_member itf v) = ex_member itf v.
  Proof. intros H. unfold ex_member. apply norm_plain. exact H. Qed.

  Definition ex_good (k : link) : Prop := picked k /\ exists si di v, ex_vals k si di v.

  Lemma ex_good_ok (may : link -> Prop) k cs : may k -> picked k -> nameable (juniperex pm) k ->
    dr_setup (juniperex pm) (k_id k) (k_sp k) (k_sl k) (k_dp k) (k_dl k) = Ok cs -> ex_good k.
  Proof. intros _ Hp _ H. split; [exact Hp|]. destruct (ex_setup_inv _ _ Hp H) as (si & di & v & Hv & _). eauto. Qed.

  Lemma ex_up_ok d k cs : ex_good k -> dr_setup (juniperex pm) (k_id k) (k_sp k) (k_sl k) (k_dp k) (k_dl k) = Ok cs ->
    forall q, In q (fold_left junos_exec cs d) <-> ex_adds k q \/ (In q d /\ ~ ex_lone k q).
  Proof.
    intros [Hp _] H q. destruct (ex_setup_inv _ _ Hp H) as (si & di & v & Hv & ->).
    destruct (Hpm _ _ (proj1 Hv)) as [Ws Ds]. destruct (Hpm _ _ (proj1 (proj2 Hv))) as [Wd Dd].
    unfold ex_configure. cbn [fold_left].
    rewrite (junos_set _ _ _ _ (ex_words_set_interface di v Wd)), (junos_set _ _ _ _ (ex_words_set_interface si v Ws)),
      (junos_set _ _ _ _ (ex_words_set_vlan v)).
    rewrite !ex_norm_member, !ex_member_clash by assumption.
    change (norm (ex_vlan_path v)) with (ex_vlan_path v). unfold ex_adds, ex_lone. split.
    - intros [->|[[->|[[->|[Hin Hc]] _]] _]].
      + left. exists si, di, v. auto.
      + left. exists si, di, v. auto.
      + left. exists si, di, v. auto.
      + right. split; [exact Hin|]. intros (si' & di' & v' & Hv' & Hc').
        destruct (ex_vals_fun _ _ _ _ _ _ _ Hv Hv') as (-> & -> & ->). congruence.
    - intros [(si' & di' & v' & Hv' & Hq)|[Hin Hc]].
      + destruct (ex_vals_fun _ _ _ _ _ _ _ Hv Hv') as (-> & -> & ->). intuition.
      + right. split; [|reflexivity]. right. split; [|reflexivity]. right. split; [exact Hin|].
        destruct (clash (ex_vlan_path v) q) eqn:E; [|reflexivity]. exfalso. apply Hc. exists si, di, v. auto.
  Qed.

  Lemma ex_teardown_eq k si di v : ex_vals k si di v -> forall cs,
    dr_teardown (juniperex pm) (k_id k) (k_sp k) (k_sl k) (k_dp k) (k_dl k) = Ok cs -> cs = ex_delete si di v.
  Proof.
    intros (A & B & E & F) cs. cbn. unfold via_targets, ex_target. rewrite E, F. unfold vlan_label. cbn [ltype].
    change (eqb "vlan" "vlan") with true. cbv iota. rewrite label_value_single, int_of_py_str. cbn.
    destruct ((1 <=? v) && (v <=? 4095)); [|discriminate]. unfold port_of. rewrite A, B. cbn.
    unfold ex_teardown. cbn. rewrite eqb_refl. intros H. injection H as <-. reflexivity.
  Qed.

  Lemma ex_down_ok d k cs : ex_good k -> dr_teardown (juniperex pm) (k_id k) (k_sp k) (k_sl k) (k_dp k) (k_dl k) = Ok cs ->
    forall q, In q (fold_left junos_exec cs d) <-> In q d /\ ~ ex_kills k q.
  Proof.
    intros (Hp & si & di & v & Hv) H q. rewrite (ex_teardown_eq _ _ _ _ Hv _ H).
    destruct (Hpm _ _ (proj1 Hv)) as [Ws Ds]. destruct (Hpm _ _ (proj1 (proj2 Hv))) as [Wd Dd].
    unfold ex_delete. cbn [fold_left].
    rewrite (junos_delete _ _ _ _ (ex_words_delete_vlan v)), (junos_delete _ _ _ _ (ex_words_delete_interface di v Wd)),
      (junos_delete _ _ _ _ (ex_words_delete_interface si v Ws)).
    rewrite !ex_norm_member by assumption. rewrite (norm_other "vlans") by reflexivity. unfold ex_kills. split.
    - intros [[[Hin Hs] Hd] Hvl]. split; [exact Hin|]. intros (si' & di' & v' & Hv' & Hk).
      destruct (ex_vals_fun _ _ _ _ _ _ _ Hv Hv') as (-> & -> & ->). destruct Hk as [Hk|[Hk|Hk]]; congruence.
    - intros [Hin Hk].
      assert (N : forall b : bool, (b = true -> False) -> b = false) by (intros [|]; tauto).
      repeat split; [exact Hin| | |]; apply N; intros Hb; apply Hk; exists si, di, v; auto.
  Qed.

  Lemma ex_own k q : ex_good k -> ex_adds k q -> ex_kills k q.
  Proof.
    intros _ (si & di & v & Hv & Hq). exists si, di, v. split; [exact Hv|].
    destruct Hq as [->|[->| ->]]; [left|right; left|right; right]; [|apply below_refl|apply below_refl].
    apply below_iff. eexists. reflexivity.
  Qed.

  Lemma ex_apart_vlan k k' si di v si' di' v' : ex_vals k si di v -> ex_vals k' si' di' v' -> apart (juniperex pm) k k' -> v <> v'.
  Proof.
    intros (A & B & E & F) (A' & B' & E' & F') [_ Ha] <-. apply (Ha (py_str v)).
    split.
    - exists (k_sp k), (k_sl k). split; [left; auto|]. rewrite E. cbn. rewrite label_value_single. reflexivity.
    - exists (k_sp k'), (k_sl k'). split; [left; auto|]. rewrite E'. cbn. rewrite label_value_single. reflexivity.
  Qed.

  Lemma ex_not_below_vlan v v' r : v <> v' -> below ["vlans"; vlan_name v] ("vlans" :: vlan_name v' :: r) = false.
  Proof.
    intros Hn. cbn. rewrite (eqb_neq (vlan_name v) (vlan_name v')); [reflexivity|]. intros H. apply vlan_name_inj in H. contradiction.
  Qed.
  Lemma ex_not_below_member v v' i i' : v <> v' -> below (ex_member i v) (ex_member i' v') = false.
  Proof.
    intros Hn. cbn. rewrite (eqb_neq (vlan_name v) (vlan_name v')); [|intros H; apply vlan_name_inj in H; contradiction].
    cbn. rewrite !andb_false_r. reflexivity.
  Qed.

  Lemma ex_apart_ok k k' q : ex_good k -> ex_good k' -> apart (juniperex pm) k k' -> ex_adds k' q -> ~ ex_kills k q /\ ~ ex_lone k q.
  Proof.
    intros (_ & si & di & v & Hv) (_ & _) Ha (si' & di' & v' & Hv' & Hq).
    pose proof (ex_apart_vlan _ _ _ _ _ _ _ _ Hv Hv' Ha) as Hn. split.
    - intros (x & y & z & Hz & Hk). destruct (ex_vals_fun _ _ _ _ _ _ _ Hv Hz) as (-> & -> & ->).
      destruct Hq as [->|[->| ->]]; destruct Hk as [Hk|[Hk|Hk]];
        first [rewrite ex_not_below_member in Hk by exact Hn; discriminate Hk
              |unfold ex_vlan_path in Hk; rewrite ex_not_below_vlan in Hk by exact Hn; discriminate Hk|discriminate Hk].
    - intros (x & y & z & Hz & Hk). destruct (ex_vals_fun _ _ _ _ _ _ _ Hv Hz) as (-> & -> & ->).
      destruct (clash_last _ _ Hk) as (r & a & b & c & Ep & Eq & _ & _).
      assert (Er : r = ["vlans"; vlan_name v]).
      { unfold ex_vlan_path in Ep. change ["vlans"; vlan_name v; "vlan-id"; py_str v] with (["vlans"; vlan_name v] ++ ["vlan-id"; py_str v]) in Ep.
        change (r ++ [a; b]) with (r ++ [a] ++ [b]) in Ep. rewrite app_assoc in Ep.
        change (["vlans"; vlan_name v] ++ ["vlan-id"; py_str v]) with ((["vlans"; vlan_name v] ++ ["vlan-id"]) ++ [py_str v]) in Ep.
        apply app_inj_tail in Ep as [Ep _]. apply app_inj_tail in Ep as [Ep _]. symmetry. exact Ep. }
      subst r. cbn in Eq. destruct Hq as [->|[->| ->]]; [|discriminate Eq|discriminate Eq].
      injection Eq as Ev _ _. apply Hn. symmetry. apply py_str_inj. exact Ev.
  Qed.

  Lemma ex_fresh_ok d0 : ex_fresh d0 -> forall k q, ex_good k -> In q d0 -> ~ ex_kills k q /\ ~ ex_lone k q.
  Proof.
    intros Hf k q _ Hin. split.
    - intros (si & di & v & Hv & Hk). destruct (Hf q v Hin) as [H1 H2].
      destruct Hk as [Hk|[Hk|Hk]]; [|pose proof (H2 si)|pose proof (H2 di)]; unfold ex_member, vlan_name in *; congruence.
    - intros (si & di & v & Hv & Hk). destruct (Hf q v Hin) as [H1 _].
      destruct (clash_last _ _ Hk) as (r & a & b & c & Ep & Eq & _ & _).
      change (ex_vlan_path v) with (["vlans"; vlan_name v] ++ ["vlan-id"; py_str v]) in Ep.
      change (r ++ [a; b]) with (r ++ [a] ++ [b]) in Ep. rewrite app_assoc in Ep.
      change (["vlans"; vlan_name v] ++ ["vlan-id"; py_str v]) with ((["vlans"; vlan_name v] ++ ["vlan-id"]) ++ [py_str v]) in Ep.
      apply app_inj_tail in Ep as [Ep _]. apply app_inj_tail in Ep as [Ep _]. subst r q.
      change (below ["vlans"; vlan_name v] (["vlans"; vlan_name v] ++ [a; c]) = false) in H1.
      assert (below ["vlans"; vlan_name v] (["vlans"; vlan_name v] ++ [a; c]) = true) by (apply below_iff; eauto). congruence.
  Qed.

  Theorem ex_config may d0 d ks : ex_fresh d0 -> reach (juniperex pm) junos_exec may d0 d ks ->
    Forall ex_good ks /\ forall q, In q d <-> In q d0 \/ exists k, In k ks /\ ex_adds k q.
  Proof.
    intros Hf Hr.
    destruct (reach_inv (juniperex pm) junos_exec (fun d q => In q d) may d0 ex_adds ex_kills ex_lone ex_good
      ex_up_ok ex_down_ok (ex_good_ok may) ex_own ex_apart_ok (ex_fresh_ok d0 Hf) d ks Hr) as (Hg & _ & Hq).
    split; assumption.
  Qed.

  Theorem ex_vlans may d0 d ks : ex_fresh d0 -> reach (juniperex pm) junos_exec may d0 d ks ->
    forall itf v, ex_carries d itf v <-> ex_carries d0 itf v \/ link_on pm ks itf v.
  Proof.
    intros Hf Hr itf v. destruct (ex_config _ _ _ _ Hf Hr) as [Hg Hq]. rewrite Forall_forall in Hg. split.
    - intros (n & H1 & H2). apply Hq in H1, H2.
      destruct H1 as [H1|(k & Hk & si & di & w & Hv & H1)].
      + destruct H2 as [H2|(k & Hk & si & di & w & Hv & H2)]; [left; exists n; auto|]. exfalso.
        assert (En : n = vlan_name w) by (destruct H2 as [H2|[H2|H2]]; [discriminate H2| |]; injection H2; auto).
        subst n. destruct (Hf _ w H1) as [Hb _]. 
        assert (Hb' : below ["vlans"; vlan_name w] ["vlans"; vlan_name w; "vlan-id"; py_str v] = true) by (apply below_iff; eexists; reflexivity).
        unfold vlan_name in Hb'. unfold vlan_name in Hb. rewrite Hb' in Hb. discriminate Hb.
      + assert (Hw : n = vlan_name w /\ v = w).
        { destruct H1 as [H1|[H1|H1]]; try discriminate H1. unfold ex_vlan_path in H1. injection H1 as E1 E2.
          split; [exact E1|apply py_str_inj; exact E2]. }
        destruct Hw as [-> ->]. destruct H2 as [H2|(k' & Hk' & si' & di' & w' & Hv' & H2)].
        * exfalso. destruct (Hf _ w H2) as [_ Hb]. specialize (Hb itf).
          fold (vlan_name w) in Hb. fold (ex_member itf w) in Hb. rewrite below_refl in Hb. discriminate Hb.
        * right. destruct Hv' as (A & B & E & F).
          assert (Hi : (itf = si' \/ itf = di') /\ w = w').
          { destruct H2 as [H2|[H2|H2]]; [discriminate H2| |]; unfold ex_member in H2; injection H2 as E1 E2;
              split; auto; apply py_str_inj; exact E2. }
          destruct Hi as [Hi <-]. exists k'. destruct Hi as [->| ->].
          -- exists (k_sp k'). split; [exact Hk'|]. split; [left; auto|exact A].
          -- exists (k_dp k'). split; [exact Hk'|]. split; [right; auto|exact B].
    - intros [(n & H1 & H2)|(k & port & Hk & He & Hi)].
      + exists n. rewrite !Hq. auto.
      + destruct (Hg k Hk) as (_ & si & di & w & (A & B & E & F)).
        assert (Hx : v = w /\ (itf = si \/ itf = di)).
        { destruct He as [[-> El]|[-> El]].
          - rewrite E in El. unfold vlan_label in El. injection El as ->. split; [reflexivity|left; congruence].
          - rewrite F in El. unfold vlan_label in El. injection El as ->. split; [reflexivity|right; congruence]. }
        destruct Hx as [-> Hx]. exists (vlan_name w). split; apply Hq; right; exists k; (split; [exact Hk|]);
          exists si, di, w; (split; [repeat split; assumption|]); [left; reflexivity|].
        destruct Hx as [->| ->]; auto.
  Qed.

  (** teardown of a link that was set up never fails *)
  Lemma ex_teardown_total k cs : picked k -> dr_setup (juniperex pm) (k_id k) (k_sp k) (k_sl k) (k_dp k) (k_dl k) = Ok cs ->
    exists cs', dr_teardown (juniperex pm) (k_id k) (k_sp k) (k_sl k) (k_dp k) (k_dl k) = Ok cs'.
  Proof.
    intros _ H. cbn in *. unfold via_targets in *. destruct (ex_target pm (k_sp k) (k_sl k)); [|discriminate].
    destruct (ex_target pm (k_dp k) (k_dl k)); [|discriminate]. cbn in *. unfold ex_setup, ex_teardown in *.
    destruct (eqb _ _); [eauto|discriminate].
  Qed.
End JuniperEX.
