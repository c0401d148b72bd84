(** Which interfaces a switch joins: exactly those of the links that are up. *)
From Verif Require Import Base BaseProofs ModelLabel ModelDrivers SpecDrivers ProofsDrivers ProofsSwitches.
Open Scope Z_scope.
#[local] Arguments vlan_name : simpl never.
#[local] Arguments label_value : simpl never.
#[local] Arguments py_str : simpl never.

Lemma reach_pairs {C S} (D : driver C) (exec : S -> C -> S) may start d ks : reach D exec may start d ks ->
  forall k k', In k ks -> In k' ks -> k = k' \/ apart D k k' \/ apart D k' k.
Proof.
  induction 1 as [|d ks k cs Hr IH Hm Hp Hn Ha Hs|d ks1 k ks2 cs Hr IH Ht]; intros x y Hx Hy.
  - destruct Hx.
  - destruct Hx as [<-|Hx], Hy as [<-|Hy]; auto.
  - apply IH; rewrite in_app_iff in *; cbn; tauto.
Qed.

(** links that are up have different VLANs where the resource is the VLAN *)
Lemma vlan_one_link {S} (D : driver string) (exec : S -> string -> S) may start d ks :
  (forall port v, dr_resource D port (vlan_label v) = Ok (py_str v)) ->
  reach D exec may start d ks -> forall k k' v, In k ks -> In k' ks -> k_sl k = vlan_label v -> k_sl k' = vlan_label v -> k = k'.
Proof.
  intros Hres Hr k k' v Hk Hk' E E'.
  assert (X : forall x y, apart D x y -> k_sl x = vlan_label v -> k_sl y = vlan_label v -> False).
  { intros x y [_ Ha] Ex Ey. apply (Ha (py_str v)).
    split; [exists (k_sp x), (k_sl x)|exists (k_sp y), (k_sl y)]; (split; [left; auto|]); rewrite ?Ex, ?Ey; apply Hres. }
  destruct (reach_pairs _ _ _ _ _ _ Hr _ _ Hk Hk') as [H|[H|H]]; [exact H| |]; exfalso; eauto.
Qed.

Lemma ex_res_vlan pm port v : dr_resource (juniperex pm) port (vlan_label v) = Ok (py_str v).
Proof. cbn. rewrite label_value_single. reflexivity. Qed.
Lemma br_res_vlan pm port v : dr_resource (brocade pm) port (vlan_label v) = Ok (py_str v).
Proof. cbn. rewrite label_value_single. reflexivity. Qed.

Theorem ex_join pm : plain_interfaces pm -> forall may d0 d ks, ex_fresh d0 -> reach (juniperex pm) junos_exec may d0 d ks ->
  forall a b v, a <> b -> ex_joined d a b v <-> ex_joined d0 a b v \/ link_between pm ks a b v.
Proof.
  intros Hpm may d0 d ks Hf Hr a b v Hab. destruct (ex_config pm Hpm _ _ _ _ Hf Hr) as [Hg Hq]. rewrite Forall_forall in Hg. 
  assert (Hold : forall itf w, ~ In (ex_member itf w) d0).
  { intros itf w H. destruct (Hf _ w H) as [_ Hb]. specialize (Hb itf). fold (vlan_name w) in Hb. fold (ex_member itf w) in Hb.
    rewrite below_refl in Hb. discriminate Hb. }
  assert (Hvl : forall w x, ~ In ["vlans"; vlan_name w; "vlan-id"; x] d0).
  { intros w x H. destruct (Hf _ w H) as [Hb _]. fold (vlan_name w) in Hb.
    assert (B : below ["vlans"; vlan_name w] ["vlans"; vlan_name w; "vlan-id"; x] = true) by (apply below_iff; eexists; reflexivity).
    congruence. }
  split.
  - intros (n & H1 & H2 & H3). apply Hq in H1, H2, H3. 
    destruct H1 as [H1|(k & Hk & si & di & w & Hv & H1)].
    + left. exists n. split; [exact H1|].
      assert (X : forall itf, (exists k, In k ks /\ ex_adds pm k ["interfaces"; itf; "unit"; "0"; "family"; "ethernet-switching"; "vlan"; "members"; n]) -> False).
      { intros itf (k & _ & si & di & w & _ & H). assert (En : n = vlan_name w) by (destruct H as [H|[H|H]]; [discriminate H| |]; injection H; auto).
        subst n. exact (Hvl _ _ H1). }
      split; [destruct H2 as [H2|H2]|destruct H3 as [H3|H3]]; try assumption; exfalso; eauto.
    + right.
      assert (Hw : n = vlan_name w /\ v = w).
      { destruct H1 as [H1|[H1|H1]]; try discriminate H1. unfold ex_vlan_path in H1. injection H1 as E1 E2. split; [exact E1|apply py_str_inj; exact E2]. }
      destruct Hw as [-> ->].
      assert (X : forall itf, In (ex_member itf w) d0 \/ (exists k', In k' ks /\ ex_adds pm k' (ex_member itf w)) -> itf = si \/ itf = di).
      { intros itf [H|(k' & Hk' & si' & di' & w' & Hv' & H)]; [exfalso; exact (Hold _ _ H)|].
        assert (Hi : (itf = si' \/ itf = di') /\ w = w').
        { destruct H as [H|[H|H]]; [discriminate H| |]; unfold ex_member in H; injection H as E1 E2; split; auto; apply py_str_inj; exact E2. }
        destruct Hi as [Hi <-]. pose proof Hv as (_ & _ & E & _). pose proof Hv' as (_ & _ & E' & _).
        pose proof (vlan_one_link _ _ _ _ _ _ (ex_res_vlan pm) Hr k k' w Hk Hk' E E') as <-.
        destruct (ex_vals_fun pm _ _ _ _ _ _ _ Hv Hv') as (-> & -> & _). exact Hi. }
      destruct Hv as (A & B & E & F). exists k. split; [exact Hk|]. split; [exact E|]. split; [exact F|].
      destruct (X a H2) as [Ea|Ea], (X b H3) as [Eb|Eb]; subst; [congruence|left|right|congruence]; auto.
  - intros [(n & H1 & H2 & H3)|(k & Hk & E & F & H)].
    + exists n. rewrite !Hq. auto.
    + exists (vlan_name v).
      assert (X : exists si di, ex_vals pm k si di v /\ (a = si \/ a = di) /\ (b = si \/ b = di)).
      { destruct H as [[A B]|[A B]]; [exists a, b|exists b, a]; (split; [repeat split; assumption|auto]). }
      destruct X as (si & di & Hv & Ha & Hb). rewrite !Hq.
      split; [right; exists k; split; [exact Hk|]; exists si, di, v; split; [exact Hv|left; reflexivity]|].
      split; right; exists k; (split; [exact Hk|]); exists si, di, v; (split; [exact Hv|]); [destruct Ha as [->| ->]|destruct Hb as [->| ->]]; auto.
Qed.

Theorem br_join pm may : (forall port itf, aget port pm = Some itf -> word itf) -> forall d0 d ks, br_fresh may d0 -> reach (brocade pm) br_exec may d0 d ks ->
  forall a b v, a <> b -> br_joined d a b v <-> br_joined d0 a b v \/ link_between pm ks a b v.
Proof.
  intros Hpm d0 d ks Hf Hr a b v Hab. destruct (br_config pm Hpm may _ _ _ Hf Hr) as [Hg Hq]. rewrite Forall_forall in Hg.
  assert (Hold : forall k si di itf, In k ks -> ex_vals pm k si di v -> ~ In (v, itf) (br_members d0)).
  { intros k si di itf Hk (A & B & E & F). destruct (Hg k Hk) as (Hm & _). apply (Hf k (k_sp k) v itf Hm). left. auto. }
  unfold br_joined. rewrite !Hq. split.
  - intros [[H1|(k & Hk & si & di & w & Hv & H1)] [H2|(k' & Hk' & si' & di' & w' & Hv' & H2)]]; [left; auto| | |].
    + exfalso. assert (v = w') by (destruct H2 as [H2|H2]; injection H2; auto). subst w'. exact (Hold _ _ _ _ Hk' Hv' H1).
    + exfalso. assert (v = w) by (destruct H1 as [H1|H1]; injection H1; auto). subst w. exact (Hold _ _ _ _ Hk Hv H2).
    + right. assert (v = w /\ (a = si \/ a = di)) as [<- Ha] by (destruct H1 as [H1|H1]; injection H1; auto).
      assert (v = w' /\ (b = si' \/ b = di')) as [<- Hb] by (destruct H2 as [H2|H2]; injection H2; auto).
      pose proof Hv as (A & B & E & F). pose proof Hv' as (_ & _ & E' & _).
      pose proof (vlan_one_link _ _ _ _ _ _ (br_res_vlan pm) Hr k k' v Hk Hk' E E') as <-.
      destruct (ex_vals_fun pm _ _ _ _ _ _ _ Hv Hv') as (-> & -> & _).
      exists k. split; [exact Hk|]. split; [exact E|]. split; [exact F|].
      destruct Ha, Hb; subst; [congruence|left|right|congruence]; auto.
  - intros [H|(k & Hk & E & F & H)]; [tauto|].
    assert (X : exists si di, ex_vals pm k si di v /\ (a = si \/ a = di) /\ (b = si \/ b = di)).
    { destruct H as [[A B]|[A B]]; [exists a, b|exists b, a]; (split; [repeat split; assumption|auto]). }
    destruct X as (si & di & Hv & Ha & Hb).
    split; right; exists k; (split; [exact Hk|]); exists si, di, v; (split; [exact Hv|]); [destruct Ha|destruct Hb]; subst; auto.
Qed.
