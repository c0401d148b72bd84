(** Proofs about Juniper EX4550 switches. *)
From Verif Require Import Base BaseProofs ModelLabel ModelAuthz ModelNRM ModelSTP ModelDrivers ModelJunos SpecDrivers SpecJunos
  ProofsDrivers ProofsSwitches ProofsJoined ProofsJunos.
Open Scope Z_scope.
#[local] Arguments vlan_name : simpl never.
#[local] Arguments label_value : simpl never.
#[local] Arguments py_str : simpl never.

Definition x_sets (e : string * Z) : list path := xvlan_sets (fst e) (py_str (snd e)).
Definition x_sub (e : string * Z) : string := fst e +++ "." +++ py_str (snd e).
Definition x_del (e : string * Z) : path := ["interfaces"; fst e; "unit"; py_str (snd e)].

Lemma x_clash e e' p p' : In p (x_sets e) -> In p' (x_sets e') -> clash p p' = false.
Proof. destruct e as [x v], e' as [x' v']. unfold x_sets, xvlan_sets. cbn [fst snd]. intros Hp Hp'. each Hp; each Hp'; no_clash; try discriminate; try congruence. Qed.
Lemma x_below e e' p : snd e <> snd e' -> In p (x_sets e') -> below (x_del e) p = false.
Proof.
  destruct e as [x v], e' as [x' v']. unfold x_sets, xvlan_sets, x_del. cbn [fst snd]. intros Hn Hp. each Hp; no_below; try discriminate; injection HB; intros; subst; try congruence.
  all: match goal with H : py_str _ = py_str _ |- _ => apply py_str_inj in H end; congruence.
Qed.
Lemma x_own e p : In p (x_sets e) -> base p \/ below (x_del e) p = true.
Proof.
  destruct e as [x v]. unfold x_sets, xvlan_sets, x_del. cbn [fst snd]. intros Hp. each Hp;
    first [right; apply below_iff; eexists; reflexivity|left; unfold base; eexists; eexists; eexists; split; [reflexivity|discriminate]].
Qed.
Lemma x_head e q : In q (x_sets e) -> exists r, q = "interfaces" :: r.
Proof. destruct e. unfold x_sets, xvlan_sets. intros H. each H; eauto. Qed.

Section JX.
  Variable pm : list (string * nrm_port).
  Hypothesis Hpm : forall port p, aget port pm = Some p -> word (p_interface p) /\ shas "." (p_interface p) = false.
  Let D := junosex pm.

  Definition jx_may (k : link) : Prop := word (k_id k) /\
    exists p v p' v', end_at pm (k_sp k) (k_sl k) (CVlan p v) /\ end_at pm (k_dp k) (k_dl k) (CVlan p' v').
  Definition jx_setup (k : link) := dr_setup D (k_id k) (k_sp k) (k_sl k) (k_dp k) (k_dl k).
  Definition jx_teardown (k : link) := dr_teardown D (k_id k) (k_sp k) (k_sl k) (k_dp k) (k_dl k).
  Definition jx_cross_sets (s : string) (e e' : string * Z) : list path := x_sets e ++ x_sets e' ++ [swi s (x_sub e); swi s (x_sub e')].
  Definition jx_cross_dels (s : string) (e e' : string * Z) : list path := [x_del e; x_del e'; ["protocols"; "connections"; "interface-switch"; s]].
  Definition jx_ends (k : link) (e e' : string * Z) : Prop :=
    end_at pm (k_sp k) (k_sl k) (CVlan (fst e) (snd e)) /\ end_at pm (k_dp k) (k_dl k) (CVlan (fst e') (snd e')).
  Definition jx_made (k : link) (e e' : string * Z) : Prop := jx_ends k e e' /\
    exists cs cs', jx_setup k = Ok cs /\ jx_teardown k = Ok cs' /\
      speaks "set" cs (jx_cross_sets (jx_switch (k_id k)) e e') /\ speaks "delete" cs' (jx_cross_dels (jx_switch (k_id k)) e e').

  Lemma jx_target_end port l p v : end_at pm port l (CVlan p v) -> exists t, jx_target pm port l = Ok t /\ jt_type t = Some "vlan" /\
    is_vlan t = true /\ jt_itf t = p /\ jt_text t = py_str v /\ plain p.
  Proof.
    intros (q & Hq & H). unfold jx_target, nrm_of. rewrite Hq. cbn [bind]. destruct (p_label q) as [pl|] eqn:L, l as [l|]; try contradiction; [|discriminate H].
    destruct H as (Ht & w & -> & E). injection E as -> <-. eexists. split; [reflexivity|]. unfold is_vlan, jt_type, jt_itf, jt_text. cbn [jt_port jt_value].
    rewrite L. cbn [option_map]. rewrite Ht, label_value_single. destruct (Hpm _ _ Hq). repeat split; auto.
  Qed.

  Lemma jx_makes k : jx_may k -> exists e e', jx_made k e e'.
  Proof.
    intros (Hw & p & v & p' & v' & H & H'). exists (p, v), (p', v'). split; [split; assumption|].
    destruct (jx_target_end _ _ _ _ H) as (t & Et & Ty & V & Ti & Tx & Pl). destruct (jx_target_end _ _ _ _ H') as (t' & Et' & Ty' & V' & Ti' & Tx' & Pl').
    assert (Ws : word (jx_switch (k_id k))) by (apply word_app; [reflexivity|exact Hw]).
    unfold jx_setup, jx_teardown, D. cbn [dr_setup dr_teardown junosex]. unfold via_targets. rewrite Et, Et'. cbn [bind]. unfold jx_up, jx_down.
    rewrite Ty, Ty'. eexists; eexists. split; [reflexivity|]. split; [reflexivity|]. cbn [flat_map map]. rewrite V, V', Ti, Ti', Tx, Tx', !app_nil_r.
    split.
    - unfold jx_cross_sets. rewrite <- app_assoc. apply speaks_app; [apply say_xvlan; [exact Pl|apply word_py_str]|].
      apply speaks_app; [apply say_xvlan; [exact Pl'|apply word_py_str]|]. unfold x_sub. cbn [fst snd].
      apply say_connection; [exact Ws|apply Pl|apply word_py_str|]. apply say_connection; [exact Ws|apply Pl'|apply word_py_str|]. apply speaks_nil.
    - unfold jx_cross_dels. cbn [app]. change [x_del (p, v); x_del (p', v'); ["protocols"; "connections"; "interface-switch"; jx_switch (k_id k)]]
        with ([x_del (p, v)] ++ [x_del (p', v')] ++ [["protocols"; "connections"; "interface-switch"; jx_switch (k_id k)]]).
      change [del_interfaces_vl p (py_str v); del_interfaces_vl p' (py_str v'); del_connections (jx_switch (k_id k))]
        with ([del_interfaces_vl p (py_str v)] ++ [del_interfaces_vl p' (py_str v')] ++ [del_connections (jx_switch (k_id k))]).
      apply speaks_app; [apply say_del_unit; [apply Pl|apply plain_py_str]|]. apply speaks_app; [apply say_del_unit; [apply Pl'|apply plain_py_str]|].
      apply say_del_connections. exact Ws.
  Qed.

  Definition jx_good (k : link) : Prop := exists e e', jx_made k e e'.
  Definition jx_sets (k : link) : list path := match jx_setup k with Ok cs => map said cs | Err _ => [] end.
  Definition jx_dels (k : link) : list path := match jx_teardown k with Ok cs => map said cs | Err _ => [] end.
  Lemma jx_made_sets k e e' : jx_made k e e' -> jx_sets k = jx_cross_sets (jx_switch (k_id k)) e e' /\ jx_dels k = jx_cross_dels (jx_switch (k_id k)) e e'.
  Proof. intros (_ & cs & cs' & H1 & H2 & [_ H3] & [_ H4]). unfold jx_sets, jx_dels. rewrite H1, H2. auto. Qed.

  Definition x_end (k : link) (e : string * Z) : Prop := exists port l, end_of k port l /\ end_at pm port l (CVlan (fst e) (snd e)).
  Lemma jx_ends_of k e e' : jx_ends k e e' -> x_end k e /\ x_end k e'.
  Proof.
    intros [H H']. split; [exists (k_sp k), (k_sl k); split; [left; auto|exact H]|exists (k_dp k), (k_dl k); split; [right; auto|exact H']].
  Qed.
  Lemma x_apart k k' e e' : apart D k k' -> x_end k e -> x_end k' e' -> snd e <> snd e'.
  Proof.
    intros [_ Ha] (port & l & He & (p & Hp & H)) (port' & l' & He' & (p' & Hp' & H')) E. apply (Ha (py_str (snd e))).
    destruct (p_label p), l as [l|]; try contradiction; [|discriminate H]. destruct (p_label p'), l' as [l'|]; try contradiction; [|discriminate H'].
    destruct H as (_ & v & -> & Ev). destruct H' as (_ & v' & -> & Ev'). injection Ev as _ Ev. injection Ev' as _ Ev'.
    split; eexists; eexists; (split; [eassumption|]); cbn; rewrite label_value_single; congruence.
  Qed.
  Lemma jx_switch_inj a b : jx_switch a = jx_switch b -> a = b.
  Proof. apply append_inj_r. Qed.

  Lemma jx_parts k e e' : jx_made k e e' -> (forall q, In q (jx_sets k) <-> In q (x_sets e) \/ In q (x_sets e') \/ In q [swi (jx_switch (k_id k)) (x_sub e); swi (jx_switch (k_id k)) (x_sub e')]) /\
    (forall q, In q (jx_dels k) <-> In q [x_del e; x_del e'; ["protocols"; "connections"; "interface-switch"; jx_switch (k_id k)]]).
  Proof.
    intros H. destruct (jx_made_sets _ _ _ H) as [-> ->]. split; intros q; [|reflexivity]. unfold jx_cross_sets. rewrite !in_app_iff. reflexivity.
  Qed.
  Lemma swi_clash s a q : clash (swi s a) q = false.
  Proof. apply (clash_many ["protocols"; "connections"; "interface-switch"; s] "interface" a). reflexivity. Qed.
  Lemma clash_swi s a q : clash q (swi s a) = false.
  Proof.
    destruct (clash q (swi s a)) eqn:E; [|reflexivity]. apply clash_ends in E as (E1 & _ & E3). rewrite E1 in E3. vm_compute in E3. discriminate E3.
  Qed.

  Lemma jx_config (may : link -> Prop) d0 d ks : (forall k, may k -> jx_may k) -> junos_fresh pm "OpenNSA-local-" d0 -> reach D junos_exec may d0 d ks ->
    (forall k p, In k ks -> In p (jx_sets k) -> In p d) /\ (forall k, In k ks -> jx_good k) /\ (forall q, In q d0 -> In q d) /\
    (forall q, In q d -> base q \/ In q d0 \/ exists k, In k ks /\ In q (jx_sets k)).
  Proof.
    intros Hmay Hf Hr. apply (config_inv D may d0 jx_good base jx_sets jx_dels) with (d := d) (ks := ks); [| | | | | | |exact Hr].
    - intros k cs Hm _ _ _. apply jx_makes. auto.
    - intros k cs (e & e' & _ & cs1 & cs' & H1 & _ & [H2 _] & _) Hs. unfold jx_sets, jx_setup in *. rewrite Hs in *. apply ok_inj in H1. subst. split; [exact H2|reflexivity].
    - intros k cs (e & e' & _ & cs1 & cs' & _ & H1 & _ & [H2 _]) Hs. unfold jx_dels, jx_teardown in *. rewrite Hs in *. apply ok_inj in H1. subst. split; [exact H2|reflexivity].
    - intros k p p' (e & e' & Hm) Hp Hp'. destruct (jx_parts _ _ _ Hm) as [Hs _]. apply Hs in Hp, Hp'.
      destruct Hp as [Hp|[Hp|Hp]]; [| |each Hp; apply swi_clash]; (destruct Hp' as [Hp'|[Hp'|Hp']]; [eapply x_clash; eassumption|eapply x_clash; eassumption|each Hp'; apply clash_swi]).
    - intros k p (e & e' & Hm) Hp. destruct (jx_parts _ _ _ Hm) as [Hs Hd]. apply Hs in Hp. destruct Hp as [Hp|[Hp|Hp]].
      + destruct (x_own _ _ Hp) as [H|H]; [left; exact H|right]. exists (x_del e). split; [apply Hd; left; reflexivity|exact H].
      + destruct (x_own _ _ Hp) as [H|H]; [left; exact H|right]. exists (x_del e'). split; [apply Hd; right; left; reflexivity|exact H].
      + right. eexists. split; [apply Hd; right; right; left; reflexivity|]. each Hp; apply below_iff; eexists; reflexivity.
    - intros k k' p (e & e' & Hm) (f & f' & Hm') Ha Hp. destruct (jx_parts _ _ _ Hm) as [Hs Hd]. destruct (jx_parts _ _ _ Hm') as [Hs' _]. apply Hs' in Hp.
      destruct (jx_ends_of _ _ _ (proj1 Hm)) as [E1 E2]. destruct (jx_ends_of _ _ _ (proj1 Hm')) as [F1 F2]. split; intros x Hx.
      + apply Hd in Hx. destruct Hp as [Hp|[Hp|Hp]].
        * each Hx; [apply (x_below e f)|apply (x_below e' f)|destruct (x_head _ _ Hp) as (r & ->); apply head_below; discriminate]; try exact Hp; eapply x_apart; eassumption.
        * each Hx; [apply (x_below e f')|apply (x_below e' f')|destruct (x_head _ _ Hp) as (r & ->); apply head_below; discriminate]; try exact Hp; eapply x_apart; eassumption.
        * each Hx; each Hp; first [apply head_below; discriminate|idtac].
          all: unfold swi; no_below; injection HB; intros; apply (proj1 Ha); apply jx_switch_inj; congruence.
      + apply Hs in Hx. destruct Hx as [Hx|[Hx|Hx]]; [| |each Hx; apply swi_clash]; (destruct Hp as [Hp|[Hp|Hp]]; [eapply x_clash; eassumption|eapply x_clash; eassumption|each Hp; apply clash_swi]).
    - intros k q (e & e' & Hm) Hq. destruct (jx_parts _ _ _ Hm) as [Hs Hd]. destruct (Hf q Hq) as (F1 & F2 & _).
      destruct (jx_ends_of _ _ _ (proj1 Hm)) as [E1 E2].
      assert (Hi : forall f r, x_end k f -> q <> ("interfaces" :: fst f :: r)).
      { intros f r (port & l & _ & (p & Hp & H)) E. destruct (p_label p), l as [l|]; try contradiction; [|discriminate H].
        destruct H as (_ & v & _ & Ef). injection Ef as Ef _. pose proof (F1 _ _ Hp) as B. rewrite <- Ef in B.
        assert (B' : below ["interfaces"; fst f] q = true); [|congruence]. apply below_iff. exists r. exact E. }
      split; intros x Hx.
      + apply Hd in Hx. each Hx; [| |apply F2]; no_below; [exact (Hi e _ E1 HB)|exact (Hi e' _ E2 HB)].
      + apply Hs in Hx. destruct Hx as [Hx|[Hx|Hx]]; [| |each Hx; apply swi_clash];
          (destruct (clash x q) eqn:B; [exfalso|reflexivity]; apply clash_pre in B as (w & E)).
        * unfold x_sets, xvlan_sets in Hx. each Hx; cbn [removelast app] in E; exact (Hi e _ E1 E).
        * unfold x_sets, xvlan_sets in Hx. each Hx; cbn [removelast app] in E; exact (Hi e' _ E2 E).
  Qed.

  Lemma jx_end_fun port l e e' : end_at pm port l e -> end_at pm port l e' -> e = e'.
  Proof.
    intros (p & Hp & H) (p' & Hp' & H'). rewrite Hp in Hp'. injection Hp' as <-. destruct (p_label p), l; try contradiction.
    - destruct H as (_ & v & -> & ->), H' as (_ & v' & E & ->). injection E as ->. reflexivity.
    - congruence.
  Qed.

  Section Run.
    Variables (may : link -> Prop) (d0 d : list path) (ks : list link).
    Hypothesis Hmay : forall k, may k -> jx_may k.
    Hypothesis Hf : junos_fresh pm "OpenNSA-local-" d0.
    Hypothesis Hr : reach D junos_exec may d0 d ks.

    Theorem jx_ends_ready : forall k port l e, In k ks -> end_of k port l -> end_at pm port l e -> jx_ready d e.
    Proof.
      intros k port l e Hk He Ha. destruct (jx_config may d0 d ks Hmay Hf Hr) as (C1 & C2 & _ & _). destruct (C2 k Hk) as (f & f' & Hm).
      destruct (jx_parts _ _ _ Hm) as [Hs _]. destruct (proj1 Hm) as [H1 H2].
      assert (X : exists g, e = CVlan (fst g) (snd g) /\ forall q, In q (x_sets g) -> In q d).
      { destruct He as [[-> ->]|[-> ->]]; [exists f; split; [exact (jx_end_fun _ _ _ _ Ha H1)|]|exists f'; split; [exact (jx_end_fun _ _ _ _ Ha H2)|]];
          intros q Hq; apply (C1 k q Hk); apply Hs; auto. }
      destruct X as (g & -> & X). cbn [jx_ready]. repeat split; apply X; unfold x_sets, xvlan_sets; cbn [In]; tauto.
    Qed.
    Theorem jx_switched a b : a <> b -> switched d a b <-> switched d0 a b \/ exists e e', joins pm ks e e' /\ a = sub e /\ b = sub e'.
    Proof.
      intros Hab. destruct (jx_config may d0 d ks Hmay Hf Hr) as (C1 & C2 & C3 & C4).
      assert (P : forall s x, In (swi s x) d -> In (swi s x) d0 \/ exists k, In k ks /\ In (swi s x) (jx_sets k)).
      { intros s x H. destruct (C4 _ H) as [(p & y & r & E & _)|H']; [discriminate E|exact H']. }
      assert (Q : forall k s x, In k ks -> In (swi s x) (jx_sets k) -> exists e e', jx_made k e e' /\ s = jx_switch (k_id k) /\ (x = x_sub e \/ x = x_sub e')).
      { intros k s x Hk H. destruct (C2 k Hk) as (e & e' & Hm). exists e, e'. split; [exact Hm|]. destruct (jx_parts _ _ _ Hm) as [Hs _]. apply Hs in H.
        destruct H as [H|[H|[H|[H|[]]]]]; try (destruct (x_head _ _ H) as (r & E'); discriminate E'); unfold swi in H; injection H as <- <-; auto. }
      assert (F : forall k s x, In k ks -> s = jx_switch (k_id k) -> ~ In (swi s x) d0).
      { intros k s x Hk -> H. destruct (Hf _ H) as (_ & F & _). specialize (F (k_id k)). change ("OpenNSA-local-" +++ k_id k) with (jx_switch (k_id k)) in F.
        assert (below ["protocols"; "connections"; "interface-switch"; jx_switch (k_id k)] (swi (jx_switch (k_id k)) x) = true); [|congruence].
        apply below_iff. eexists. reflexivity. }
      split.
      - intros (s & Ha & Hb). fold (swi s a) in Ha. fold (swi s b) in Hb. apply P in Ha, Hb. destruct Ha as [Ha|(k & Hk & Ha)].
        + left. exists s. split; [exact Ha|]. destruct Hb as [Hb|(k & Hk & Hb)]; [exact Hb|].
          destruct (Q _ _ _ Hk Hb) as (e & e' & _ & E & _). exfalso. exact (F _ _ _ Hk E Ha).
        + right. destruct (Q _ _ _ Hk Ha) as (e & e' & Hm & E & Hea). destruct Hb as [Hb|(k' & Hk' & Hb)]; [exfalso; exact (F _ _ _ Hk E Hb)|].
          destruct (Q _ _ _ Hk' Hb) as (g & g' & Hm' & E' & Heb).
          assert (k' = k) as ->.
          { destruct (reach_pairs _ _ _ _ _ _ Hr _ _ Hk' Hk) as [H|[[H _]|[H _]]]; [exact H| |]; exfalso; apply H; apply jx_switch_inj; congruence. }
          destruct Hm as [[H1 H2] _], Hm' as [[G1 G2] _].
          pose proof (jx_end_fun _ _ _ _ H1 G1) as X1. pose proof (jx_end_fun _ _ _ _ H2 G2) as X2. destruct e as [p v], e' as [p' v'], g as [q w], g' as [q' w'].
          cbn [fst snd] in *. injection X1 as <- <-. injection X2 as <- <-.
          assert (J : joins pm ks (CVlan p v) (CVlan p' v') /\ joins pm ks (CVlan p' v') (CVlan p v)).
          { split; exists k; (split; [exact Hk|]); auto. }
          destruct Hea as [->| ->], Heb as [->| ->]; try congruence; [exists (CVlan p v), (CVlan p' v')|exists (CVlan p' v'), (CVlan p v)]; (split; [apply J|]); split; reflexivity.
      - intros [(s & Ha & Hb)|(e & e' & (k & Hk & J) & -> & ->)].
        + exists s. split; apply C3; assumption.
        + exists (jx_switch (k_id k)). destruct (C2 k Hk) as (f & f' & Hm). destruct (jx_parts _ _ _ Hm) as [Hs _]. destruct (proj1 Hm) as [H1 H2].
          assert (Y : forall g, g = f \/ g = f' -> In (swi (jx_switch (k_id k)) (x_sub g)) d).
          { intros g Hg. apply (C1 k _ Hk). apply Hs. right; right. destruct Hg as [->| ->]; [left|right; left]; reflexivity. }
          destruct J as [[J1 J2]|[J1 J2]].
          * pose proof (jx_end_fun _ _ _ _ J1 H1) as ->. pose proof (jx_end_fun _ _ _ _ J2 H2) as ->. split; [apply (Y f)|apply (Y f')]; auto.
          * pose proof (jx_end_fun _ _ _ _ J1 H1) as ->. pose proof (jx_end_fun _ _ _ _ J2 H2) as ->. split; [apply (Y f')|apply (Y f)]; auto.
    Qed.
    Theorem jx_units p u r : In ("interfaces" :: p :: "unit" :: u :: r) d -> In ("interfaces" :: p :: "unit" :: u :: r) d0 \/
      exists k port l v, In k ks /\ end_of k port l /\ end_at pm port l (CVlan p v) /\ u = py_str v.
    Proof.
      destruct (jx_config may d0 d ks Hmay Hf Hr) as (C1 & C2 & C3 & C4). intros H.
      destruct (C4 _ H) as [(p' & y & x & E & Hy)|[H'|(k & Hk & H')]]; [injection E as _ E _; congruence|left; exact H'|right].
      destruct (C2 k Hk) as (f & f' & Hm). destruct (jx_parts _ _ _ Hm) as [Hs _]. apply Hs in H'. destruct (proj1 Hm) as [H1 H2].
      assert (X : forall g, In ("interfaces" :: p :: "unit" :: u :: r) (x_sets g) -> fst g = p /\ u = py_str (snd g)).
      { intros [q v] Hg. unfold x_sets, xvlan_sets in Hg. cbn [In fst snd] in *. repeat destruct Hg as [Hg|Hg]; try discriminate Hg; try contradiction; injection Hg as <- <- _; auto. }
      destruct H' as [H'|[H'|H']].
      - destruct (X _ H') as [<- ->]. exists k, (k_sp k), (k_sl k), (snd f). split; [exact Hk|]. split; [left; auto|]. auto.
      - destruct (X _ H') as [<- ->]. exists k, (k_dp k), (k_dl k), (snd f'). split; [exact Hk|]. split; [right; auto|]. auto.
      - unfold swi in H'. cbn [In] in H'. destruct H' as [H'|[H'|[]]]; discriminate H'.
    Qed.
  End Run.
  Lemma jx_total k : jx_may k -> exists cs cs', jx_setup k = Ok cs /\ jx_teardown k = Ok cs'.
  Proof. intros H. destruct (jx_makes k H) as (e & e' & _ & cs & cs' & H1 & H2 & _). eauto. Qed.
End JX.
