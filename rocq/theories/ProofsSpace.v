(** Proofs for C92. *)
From Verif Require Import Base BaseProofs ModelLabel ModelAuthz ModelNRM ModelSTP ModelRest ModelDrivers ModelJunos SpecDrivers SpecJunos ModelSpace SpecSpace
  ProofsDrivers ProofsJunos.
Open Scope Z_scope.

Definition arm_of (t : jtarget) : sarm := mkArm (sp_type t) (JStr (jt_itf t)) (sp_value t).
(** one request, of the kind of the circuit *)
Definition sent (local_id remote_id : string) (c : circuit) (cs : list sreq) : Prop :=
  exists b, match ci_far c with
            | FarArm _ => cs = [mkSReq local_id b] /\ described false b = Ok c
            | FarPath _ _ _ => cs = [mkSReq remote_id b] /\ described true b = Ok c
            end.

Ltac types H :=
  repeat (change (eqb (Some "vlan") (Some "vlan")) with true in H || change (eqb (Some "mpls") (Some "mpls")) with true in H ||
          change (eqb (Some "vlan") (Some "mpls")) with false in H || change (eqb (Some "mpls") (Some "vlan")) with false in H); cbn [andb] in H.
Section Server.
  Variable routers : list (string * srouter).
  Variable net : string.
  Variable pm : list (string * nrm_port).
  Variables up upr : string.
  Notation gen := (via_targets (mx_target pm) (sp_generate up upr routers net)).

  Definition tg (p : nrm_port) (l : option label) : jtarget := mkTarget p (option_map label_value l).
  (** an end as it is: fits, one value, of a type that has a resource *)
  Definition fine (p : nrm_port) (l : option label) : Prop :=
    match p_label p, l with
    | None, None => True
    | Some pl, Some l => ltype pl = ltype l /\ (ltype l = "vlan" \/ ltype l = "mpls") /\ exists v, lvalues l = [(v, v)]
    | _, _ => False
    end.
  Lemma fines ids k port l : space_fit pm k -> picked k -> nameable (junosspace ids routers net pm) k -> end_of k port l ->
    exists p, aget port pm = Some p /\ fine p l.
  Proof.
    intros Hf Hp Hn He. destruct (Hf port l He) as (p & Hg & Hm). exists p. split; [exact Hg|].
    unfold fine. destruct (p_label p) as [pl|], l as [l|]; try contradiction; [|exact I].
    split; [exact Hm|]. split.
    - destruct (Hn port (Some l) He) as (r & Hr).
      change (mx_resource port (Some l) = Ok r) in Hr. unfold mx_resource in Hr.
      destruct (mem (ltype l) ["mpls"; "vlan"]) eqn:E; [|discriminate Hr]. apply mem_In in E. destruct E as [E|[E|[]]]; [right|left]; symmetry; exact E.
    - apply single_vlan. exact (Hp port l He).
  Qed.
  Lemma fine_arm port p l : aget port pm = Some p -> fine p l -> arm_at pm port l (arm_of (tg p l)).
  Proof.
    intros Hg Hf. exists p. split; [exact Hg|]. unfold fine in Hf. unfold arm_of, sp_type, sp_value, jt_type, jt_itf, tg; cbn [jt_port jt_value].
    destruct (p_label p) as [pl|] eqn:El, l as [l|]; try contradiction; [|reflexivity].
    destruct Hf as (H1 & _ & v & Hv). split; [exact H1|]. exists v. split; [exact Hv|].
    cbn. rewrite H1. f_equal. unfold label_value. rewrite Hv. cbn. f_equal. exact (label_value_single "" v).
  Qed.
  Lemma arm_det port l a p : aget port pm = Some p -> arm_at pm port l a -> a = arm_of (tg p l).
  Proof.
    intros Hg (p' & Hg' & H). rewrite Hg in Hg'. injection Hg' as <-.
    unfold arm_of, sp_type, sp_value, jt_type, jt_itf, tg; cbn [jt_port jt_value].
    destruct (p_label p) as [pl|], l as [l|]; try contradiction; [|exact H].
    destruct H as (H1 & v & Hv & ->). cbn. rewrite H1. f_equal. unfold label_value. rewrite Hv. cbn. f_equal. symmetry. exact (label_value_single "" v).
  Qed.

  Lemma target_of port p l : aget port pm = Some p -> mx_target pm port l = Ok (tg p l).
  Proof. intros H. unfold mx_target, nrm_of. rewrite H. reflexivity. Qed.
  Lemma gen_of k p p' : aget (k_sp k) pm = Some p -> aget (k_dp k) pm = Some p' ->
    gen (k_id k) (k_sp k) (k_sl k) (k_dp k) (k_dl k) = sp_generate up upr routers net (k_id k) (tg p (k_sl k)) (tg p' (k_dl k)).
  Proof. intros H H'. unfold via_targets. rewrite (target_of _ _ _ H). cbn [bind]. rewrite (target_of _ _ _ H'). reflexivity. Qed.
  Lemma sent_local cid s d : forall cs, sp_local up routers net cid s d = Ok cs ->
    exists id ip, space_router routers net id ip /\ sent up upr (mkCircuit (JStr id) (JStr ("GTS-local-" +++ cid)) (arm_of s) (FarArm (arm_of d))) cs.
  Proof.
    intros cs H. unfold sp_local, sp_device in H. unfold space_router. destruct (aget _ routers) as [[id ip]|]; [|discriminate H].
    cbn [bind sr_id] in H. apply ok_inj in H. subst cs. exists id, ip. split; [reflexivity|]. eexists. cbn [ci_far]. split; [reflexivity|]. reflexivity.
  Qed.
  Lemma local_sent cid s d id ip : space_router routers net id ip ->
    exists cs, sp_local up routers net cid s d = Ok cs /\ sent up upr (mkCircuit (JStr id) (JStr ("GTS-local-" +++ cid)) (arm_of s) (FarArm (arm_of d))) cs.
  Proof.
    unfold space_router. intros H. unfold sp_local, sp_device. rewrite H. cbn [bind sr_id]. eexists. split; [reflexivity|].
    eexists. cbn [ci_far]. split; [reflexivity|]. reflexivity.
  Qed.
  Lemma sent_tunnel cid s r far v : jt_value r = Some (py_str v) -> p_remote_network (jt_port r) = Some far ->
    forall cs, sp_tunnel upr routers net cid s r = Ok cs ->
    exists id ip id' ip', space_router routers net id ip /\ space_router routers far id' ip' /\
      sent up upr (mkCircuit (JStr id) (JStr ("GTS-local-" +++ cid)) (arm_of s)
                     (FarPath (JStr ip') (JStr (path_name far net v)) (JStr (path_name net far v)))) cs.
  Proof.
    intros Hv Hr cs H. unfold sp_tunnel, sp_device, remote_of in H. unfold space_router. rewrite Hr in H.
    destruct (aget (remove_all ":topology" 0 net) routers) as [[id ip]|]; [|discriminate H].
    cbn [bind] in H. destruct (aget (remove_all ":topology" 0 far) routers) as [[id' ip']|]; [|discriminate H].
    cbn [bind sr_id sr_ip] in H. apply ok_inj in H. subst cs. exists id, ip, id', ip'. split; [reflexivity|]. split; [reflexivity|].
    unfold jt_text. rewrite Hv. eexists. cbn [ci_far]. split; [reflexivity|]. reflexivity.
  Qed.
  Lemma tunnel_sent cid s r far v id ip id' ip' : jt_value r = Some (py_str v) -> p_remote_network (jt_port r) = Some far ->
    space_router routers net id ip -> space_router routers far id' ip' ->
    exists cs, sp_tunnel upr routers net cid s r = Ok cs /\
      sent up upr (mkCircuit (JStr id) (JStr ("GTS-local-" +++ cid)) (arm_of s)
                     (FarPath (JStr ip') (JStr (path_name far net v)) (JStr (path_name net far v)))) cs.
  Proof.
    unfold space_router. intros Hv Hr H H'. unfold sp_tunnel, sp_device, remote_of, jt_text. rewrite Hr, H, Hv. cbn [bind]. rewrite H'. cbn [bind sr_id sr_ip].
    eexists. split; [reflexivity|]. eexists. cbn [ci_far]. split; [reflexivity|]. reflexivity.
  Qed.
  (** an MPLS end *)
  Lemma mpls_end port p pl l v far : aget port pm = Some p -> p_label p = Some pl -> ltype pl = ltype l -> ltype l = "mpls" ->
    lvalues l = [(v, v)] -> p_remote_network p = Some far -> mpls_at pm port (Some l) far v.
  Proof.
    intros H1 H2 H3 H4 H5 H6. exists p, pl. split; [exact H1|]. split; [exact H2|]. split; [congruence|]. split; [|exact H6].
    destruct l as [t vs]. cbn in *. congruence.
  Qed.
  Lemma value_of p l v : lvalues l = [(v, v)] -> jt_value (tg p (Some l)) = Some (py_str v).
  Proof. intros H. cbn. unfold label_value. rewrite H. cbn. f_equal. exact (label_value_single "" v). Qed.

  Lemma sp_sound k p p' cs : aget (k_sp k) pm = Some p -> aget (k_dp k) pm = Some p' -> fine p (k_sl k) -> fine p' (k_dl k) ->
    gen (k_id k) (k_sp k) (k_sl k) (k_dp k) (k_dl k) = Ok cs -> exists c, circuit_of routers net pm k c /\ sent up upr c cs.
  Proof.
    intros Hg Hg' Hf Hf' H. rewrite (gen_of k p p' Hg Hg') in H.
    pose proof (fine_arm _ _ _ Hg Hf) as Ha. pose proof (fine_arm _ _ _ Hg' Hf') as Ha'.
    set (s := tg p (k_sl k)) in *. set (d := tg p' (k_dl k)) in *.
    assert (Lo : (local_port pm (k_sp k) \/ vlan_port pm (k_sp k)) -> (local_port pm (k_dp k) \/ vlan_port pm (k_dp k)) ->
        sp_local up routers net (k_id k) s d = Ok cs -> exists c, circuit_of routers net pm k c /\ sent up upr c cs).
    { intros HP HP' HL. destruct (sent_local _ _ _ _ HL) as (id & ip & R & S). eexists. split; [|exact S]. eapply of_two; eassumption. }
    assert (To : forall pl l far, p_label p' = Some pl -> k_dl k = Some l -> ltype l = "mpls" -> p_remote_network p' = Some far ->
        (local_port pm (k_sp k) \/ vlan_port pm (k_sp k)) ->
        sp_tunnel upr routers net (k_id k) s d = Ok cs -> exists c, circuit_of routers net pm k c /\ sent up upr c cs).
    { intros pl l far E1 E2 E3 E4 HP HT. unfold fine in Hf'. rewrite E1, E2 in Hf'. destruct Hf' as (F1 & _ & v & F2).
      assert (M : mpls_at pm (k_dp k) (k_dl k) far v) by (rewrite E2; eapply mpls_end; eassumption).
      assert (V : jt_value d = Some (py_str v)) by (unfold d; rewrite E2; exact (value_of p' l v F2)).
      destruct (sent_tunnel _ s d far v V E4 _ HT) as (id & ip & id' & ip' & R & R' & S).
      eexists. split; [|exact S]. eapply of_out; eassumption. }
    assert (Ti : forall pl l far, p_label p = Some pl -> k_sl k = Some l -> ltype l = "mpls" -> p_remote_network p = Some far ->
        (local_port pm (k_dp k) \/ vlan_port pm (k_dp k)) ->
        sp_tunnel upr routers net (k_id k) d s = Ok cs -> exists c, circuit_of routers net pm k c /\ sent up upr c cs).
    { intros pl l far E1 E2 E3 E4 HP HT. unfold fine in Hf. rewrite E1, E2 in Hf. destruct Hf as (F1 & _ & v & F2).
      assert (M : mpls_at pm (k_sp k) (k_sl k) far v) by (rewrite E2; eapply mpls_end; eassumption).
      assert (V : jt_value s = Some (py_str v)) by (unfold s; rewrite E2; exact (value_of p l v F2)).
      destruct (sent_tunnel _ d s far v V E4 _ HT) as (id & ip & id' & ip' & R & R' & S).
      eexists. split; [|exact S]. eapply of_in; eassumption. }
    assert (TV : forall q l, fine q l -> match p_label q with
        | None => jt_type (tg q l) = None /\ l = None
        | Some pl => exists l', l = Some l' /\ ltype pl = ltype l' /\ ((ltype l' = "vlan" /\ jt_type (tg q l) = Some "vlan") \/ (ltype l' = "mpls" /\ jt_type (tg q l) = Some "mpls")) end).
    { intros q l F. unfold fine in F. unfold jt_type, tg. cbn [jt_port]. destruct (p_label q) as [pl|], l as [l|]; try contradiction; [|split; reflexivity].
      destruct F as (F1 & F2 & _). exists l. split; [reflexivity|]. split; [exact F1|]. destruct F2 as [F2|F2]; [left|right]; (split; [exact F2|]); cbn; congruence. }
    pose proof (TV _ _ Hf) as Ts. pose proof (TV _ _ Hf') as Td. clear TV. change (tg p (k_sl k)) with s in Ts. change (tg p' (k_dl k)) with d in Td.
    unfold sp_generate, is_local in H. change (jt_port s) with p in H. change (jt_port d) with p' in H.
    destruct (p_remote_network p) as [far|] eqn:R1, (p_remote_network p') as [far'|] eqn:R2; cbn [negb andb] in H.
    - unfold sp_transit, is_vlan, is_mpls in H. destruct (p_label p) as [pl|] eqn:L1; [|destruct Ts as [Ts _]; rewrite Ts in H; discriminate H].
      destruct Ts as (l & E & Et & Ts). destruct (p_label p') as [pl'|] eqn:L2;
        [|destruct Td as [Td _]; rewrite Td in H; destruct Ts as [[_ Ts]|[_ Ts]]; rewrite Ts in H; discriminate H].
      destruct Td as (l' & E' & Et' & Td).
      assert (Vl : forall port q ql m, aget port pm = Some q -> p_label q = Some ql -> ltype ql = ltype m -> ltype m = "vlan" -> vlan_port pm port)
        by (intros port q ql m A1 A2 A3 A4; exists q, ql; (split; [exact A1|]; split; [exact A2|congruence])).
      destruct Ts as [[Vs Ts]|[Ms Ts]], Td as [[Vd Td]|[Md Td]]; rewrite Ts, Td in H; types H; rewrite ?Ts, ?Td in H; types H.
      + apply Lo; [right; eapply Vl; eassumption|right; eapply Vl; eassumption|exact H].
      + eapply To; [reflexivity|exact E'|exact Md|reflexivity|right; eapply Vl; eassumption|exact H].
      + eapply Ti; [reflexivity|exact E|exact Ms|reflexivity|right; eapply Vl; eassumption|exact H].
      + discriminate H.
    - unfold sp_remote, is_local in H. change (jt_port s) with p in H. rewrite R1 in H.
      destruct (p_label p) as [pl|] eqn:L1; [|destruct Ts as [Ts _]; rewrite Ts in H; discriminate H].
      destruct Ts as (l & E & Et & Ts). assert (Lp : local_port pm (k_dp k)) by (exists p'; split; [exact Hg'|exact R2]).
      destruct Ts as [[Vs Ts]|[Ms Ts]]; rewrite Ts in H; cbn in H.
      + apply Lo; [right; exists p, pl; (split; [exact Hg|]; split; [exact L1|congruence])|left; exact Lp|exact H].
      + eapply Ti; [reflexivity|exact E|exact Ms|reflexivity|left; exact Lp|exact H].
    - unfold sp_remote, is_local in H. change (jt_port s) with p in H. rewrite R1 in H.
      destruct (p_label p') as [pl|] eqn:L1; [|destruct Td as [Td _]; rewrite Td in H; discriminate H].
      destruct Td as (l & E & Et & Td). assert (Lp : local_port pm (k_sp k)) by (exists p; split; [exact Hg|exact R1]).
      destruct Td as [[Vs Td]|[Ms Td]]; rewrite Td in H; cbn in H.
      + apply Lo; [left; exact Lp|right; exists p', pl; (split; [exact Hg'|]; split; [exact L1|congruence])|exact H].
      + eapply To; [reflexivity|exact E|exact Ms|reflexivity|left; exact Lp|exact H].
    - apply Lo; [left; exists p; split; [exact Hg|exact R1]|left; exists p'; split; [exact Hg'|exact R2]|exact H].
  Qed.

  Lemma is_vl p l pl : p_label p = Some pl -> ltype pl = "vlan" -> jt_type (tg p l) = Some "vlan".
  Proof. intros H E. unfold jt_type. cbn. rewrite H. cbn. congruence. Qed.
  Lemma is_mp p l pl : p_label p = Some pl -> ltype pl = "mpls" -> jt_type (tg p l) = Some "mpls".
  Proof. intros H E. unfold jt_type. cbn. rewrite H. cbn. congruence. Qed.
  Lemma sp_complete k c : circuit_of routers net pm k c ->
    exists cs, gen (k_id k) (k_sp k) (k_sl k) (k_dp k) (k_dl k) = Ok cs /\ sent up upr c cs.
  Proof.
    assert (MA : forall port l far v, mpls_at pm port l far v -> exists p pl, aget port pm = Some p /\ p_label p = Some pl /\ ltype pl = "mpls" /\
      p_remote_network p = Some far /\ jt_value (tg p l) = Some (py_str v)).
    { intros port l far v (p & pl & H1 & H2 & H3 & -> & H4). exists p, pl. (split; [exact H1|]; split; [exact H2|]; split; [exact H3|]; split; [exact H4|]). exact (value_of p (mkLabel "mpls" [(v, v)]) v eq_refl). }
    intros [a a' id ip A A' P P' R|a far v id ip id' ip' A M P R R'|a far v id ip id' ip' M A P R R'].
    - pose proof A as (p & Hg & _). pose proof A' as (p' & Hg' & _). rewrite (gen_of k p p' Hg Hg').
      rewrite (arm_det _ _ _ _ Hg A), (arm_det _ _ _ _ Hg' A'). set (s := tg p (k_sl k)). set (d := tg p' (k_dl k)).
      destruct (local_sent (k_id k) s d id ip R) as (cs & E & S). exists cs. split; [|exact S]. rewrite <- E.
      unfold sp_generate, is_local. change (jt_port s) with p. change (jt_port d) with p'.
      assert (V : forall port q l far, aget port pm = Some q -> p_remote_network q = Some far -> local_port pm port \/ vlan_port pm port -> jt_type (tg q l) = Some "vlan").
      { intros port q l far H1 H2 [(q' & H3 & H4)|(q' & ql & H3 & H4 & H5)]; rewrite H1 in H3; injection H3 as <-; [congruence|exact (is_vl q l ql H4 H5)]. }
      destruct (p_remote_network p) as [far|] eqn:R1, (p_remote_network p') as [far'|] eqn:R2; cbn [negb andb]; try reflexivity.
      + unfold sp_transit, is_vlan. pose proof (V _ _ (k_sl k) _ Hg R1 P) as T. pose proof (V _ _ (k_dl k) _ Hg' R2 P') as T'. fold s in T. fold d in T'. rewrite T, T'. reflexivity.
      + unfold sp_remote, is_local. change (jt_port s) with p. rewrite R1. pose proof (V _ _ (k_sl k) _ Hg R1 P) as T. fold s in T. rewrite T. reflexivity.
      + unfold sp_remote, is_local. change (jt_port s) with p. rewrite R1. pose proof (V _ _ (k_dl k) _ Hg' R2 P') as T. fold d in T. rewrite T. reflexivity.
    - pose proof A as (p & Hg & _). destruct (MA _ _ _ _ M) as (p' & pl & Hg' & L & T & RN & V). rewrite (gen_of k p p' Hg Hg').
      rewrite (arm_det _ _ _ _ Hg A). set (s := tg p (k_sl k)). set (d := tg p' (k_dl k)) in *.
      destruct (tunnel_sent (k_id k) s d far v id ip id' ip' V RN R R') as (cs & E & S). exists cs. split; [|exact S]. rewrite <- E.
      pose proof (is_mp p' (k_dl k) pl L T) as TD. fold d in TD.
      unfold sp_generate, is_local. change (jt_port s) with p. change (jt_port d) with p'. rewrite RN.
      destruct (p_remote_network p) as [far0|] eqn:R1; cbn [negb andb].
      + destruct P as [(q' & H3 & H4)|(q' & ql & H3 & H4 & H5)]; rewrite Hg in H3; injection H3 as <-; [congruence|].
        pose proof (is_vl p (k_sl k) ql H4 H5) as TS. fold s in TS. unfold sp_transit, is_vlan, is_mpls. rewrite TS, TD.
        change (eqb (Some "mpls") (Some "vlan")) with false. change (eqb (Some "vlan") (Some "vlan")) with true. change (eqb (Some "vlan") (Some "mpls")) with false. cbn [andb].
        rewrite TS, TD. reflexivity.
      + unfold sp_remote, is_local. change (jt_port s) with p. rewrite R1, TD. reflexivity.
    - pose proof A as (p & Hg & _). destruct (MA _ _ _ _ M) as (p' & pl & Hg' & L & T & RN & V). rewrite (gen_of k p' p Hg' Hg).
      rewrite (arm_det _ _ _ _ Hg A). set (s := tg p (k_dl k)). set (d := tg p' (k_sl k)) in *.
      destruct (tunnel_sent (k_id k) s d far v id ip id' ip' V RN R R') as (cs & E & S). exists cs. split; [|exact S]. rewrite <- E.
      pose proof (is_mp p' (k_sl k) pl L T) as TD. fold d in TD.
      unfold sp_generate, is_local. change (jt_port s) with p. change (jt_port d) with p'. rewrite RN.
      destruct (p_remote_network p) as [far0|] eqn:R1; cbn [negb andb].
      + destruct P as [(q' & H3 & H4)|(q' & ql & H3 & H4 & H5)]; rewrite Hg in H3; injection H3 as <-; [congruence|].
        pose proof (is_vl p (k_dl k) ql H4 H5) as TS. fold s in TS. unfold sp_transit, is_vlan, is_mpls. rewrite TS, TD.
        change (eqb (Some "mpls") (Some "vlan")) with false. change (eqb (Some "vlan") (Some "mpls")) with false. change (eqb (Some "mpls") (Some "mpls")) with true. cbn [andb].
        rewrite TS, TD. reflexivity.
      + unfold sp_remote, is_local. change (jt_port d) with p'. rewrite RN, TD. reflexivity.
  Qed.
End Server.

Lemma sent_det a b c c' cs : a <> b -> sent a b c cs -> sent a b c' cs -> c = c'.
Proof.
  intros N (x & H) (y & H'). destruct (ci_far c), (ci_far c'); destruct H as [E D], H' as [E' D']; subst cs; injection E' as E1; try congruence.
Qed.
Section History.
  Variable ids : sids.
  Variable routers : list (string * srouter).
  Variable net : string.
  Variable pm : list (string * nrm_port).
  Hypothesis Own : own_configlets ids.
  Notation D := (junosspace ids routers net pm).

  Lemma space_setup k cs : space_fit pm k -> picked k -> nameable D k ->
    dr_setup D (k_id k) (k_sp k) (k_sl k) (k_dp k) (k_dl k) = Ok cs -> exists c, circuit_of routers net pm k c /\ sent (si_up ids) (si_up_remote ids) c cs.
  Proof.
    intros Hf Hp Hn H. destruct (fines _ _ _ _ _ _ _ Hf Hp Hn (or_introl (conj eq_refl eq_refl))) as (p & G & F).
    destruct (fines _ _ _ _ _ _ _ Hf Hp Hn (or_intror (conj eq_refl eq_refl))) as (p' & G' & F'). exact (sp_sound _ _ _ _ _ k p p' cs G G' F F' H).
  Qed.
  Lemma circuit_det k c c' : circuit_of routers net pm k c -> circuit_of routers net pm k c' -> c = c'.
  Proof.
    intros H H'. destruct (sp_complete routers net pm "a" "b" k c H) as (cs & E & S). destruct (sp_complete routers net pm "a" "b" k c' H') as (cs' & E' & S').
    rewrite E in E'. injection E' as <-. exact (sent_det "a" "b" c c' cs ltac:(discriminate) S S').
  Qed.
  Lemma exec_up c cs s x : sent (si_up ids) (si_up_remote ids) c cs -> fold_left (space_exec ids) cs s x <-> x = c \/ s x.
  Proof.
    intros (b & H). unfold own_configlets in Own. destruct (ci_far c); destruct H as [-> Hd]; cbn [fold_left]; unfold space_exec; cbn [sq_configlet sq_body].
    - rewrite eqb_refl, Hd. reflexivity.
    - assert (eqb (si_up_remote ids) (si_up ids) = false) as ->.
      { apply eqb_false. intros E. inversion Own as [|? ? N _]. apply N. left. exact E. }
      rewrite eqb_refl, Hd. reflexivity.
  Qed.
  Lemma exec_down c cs s x : sent (si_down ids) (si_down_remote ids) c cs -> fold_left (space_exec ids) cs s x <-> x <> c /\ s x.
  Proof.
    intros (b & H). pose proof Own as O. unfold own_configlets in O. inversion O as [|? ? N O1]; subst. inversion O1 as [|? ? N1 O2]; subst. inversion O2 as [|? ? N2 _]; subst.
    cbn [In] in N, N1, N2.
    destruct (ci_far c); destruct H as [-> Hd]; cbn [fold_left]; unfold space_exec; cbn [sq_configlet sq_body].
    - assert (eqb (si_down ids) (si_up ids) = false) as -> by (apply eqb_false; intros E; apply N; rewrite E; auto).
      assert (eqb (si_down ids) (si_up_remote ids) = false) as -> by (apply eqb_false; intros E; apply N1; rewrite E; auto).
      rewrite eqb_refl, Hd. reflexivity.
    - assert (eqb (si_down_remote ids) (si_up ids) = false) as -> by (apply eqb_false; intros E; apply N; rewrite E; auto).
      assert (eqb (si_down_remote ids) (si_up_remote ids) = false) as -> by (apply eqb_false; intros E; apply N1; rewrite E; auto).
      assert (eqb (si_down_remote ids) (si_down ids) = false) as -> by (apply eqb_false; intros E; apply N2; rewrite E; auto).
      rewrite eqb_refl, Hd. reflexivity.
  Qed.
  Lemma circuit_name k c : circuit_of routers net pm k c -> ci_name c = JStr ("GTS-local-" +++ k_id k).
  Proof. intros []; reflexivity. Qed.

  Variable may : link -> Prop.
  Hypothesis Fit : forall k, may k -> space_fit pm k.
  Variable s0 : server.
  Hypothesis Fresh : space_fresh s0.

  Lemma reach_links s ks : reach D (space_exec ids) may s0 s ks ->
    NoDup (map k_id ks) /\ (forall k, In k ks -> may k /\ exists c, circuit_of routers net pm k c) /\
    forall c, s c <-> s0 c \/ exists k, In k ks /\ circuit_of routers net pm k c.
  Proof.
    induction 1 as [|s ks k cs Hr (IN & IC & IS) Hm Hp Hn Ha Hs|s ks1 k ks2 cs Hr (IN & IC & IS) Ht].
    - split; [constructor|]. split; [intros k []|]. intros c. split; [auto|intros [H|(k & [] & _)]; exact H].
    - destruct (space_setup k cs (Fit k Hm) Hp Hn Hs) as (c0 & C0 & S0). split; [|split].
      + cbn. constructor; [|exact IN]. intros Hi. apply in_map_iff in Hi. destruct Hi as (k' & E & Hi). apply (proj1 (Ha k' Hi)). symmetry. exact E.
      + intros k' [<-|Hk]; [split; [exact Hm|exists c0; exact C0]|exact (IC k' Hk)].
      + intros c. rewrite (exec_up c0 cs s c S0), IS. split.
        * intros [->|[H|(k' & Hk & Hc)]]; [right; exists k; split; [left; reflexivity|exact C0]|left; exact H|right; exists k'; split; [right; exact Hk|exact Hc]].
        * intros [H|(k' & [<-|Hk] & Hc)]; [right; left; exact H|left; exact (circuit_det k c c0 Hc C0)|right; right; exists k'; split; [exact Hk|exact Hc]].
    - destruct (IC k ltac:(apply in_or_app; right; left; reflexivity)) as (_ & c0 & C0).
      destruct (sp_complete routers net pm (si_down ids) (si_down_remote ids) k c0 C0) as (cs' & E & S0).
      change (dr_teardown D (k_id k) (k_sp k) (k_sl k) (k_dp k) (k_dl k) = Ok cs') in E. rewrite Ht in E. injection E as <-.
      rewrite map_app in IN. cbn in IN. split; [rewrite map_app; exact (NoDup_remove_1 _ _ _ IN)|]. split.
      + intros k' Hk. apply IC. apply in_or_app. apply in_app_or in Hk. destruct Hk; [left|right; right]; assumption.
      + intros c. rewrite (exec_down c0 cs s c S0), IS. split.
        * intros (Hn & [H|(k' & Hk & Hc)]); [left; exact H|right]. exists k'. split; [|exact Hc]. apply in_or_app. apply in_app_or in Hk.
          destruct Hk as [Hk|[<-|Hk]]; [left; exact Hk|contradiction (Hn (circuit_det k c c0 Hc C0))|right; exact Hk].
        * intros [H|(k' & Hk & Hc)].
          { split; [|left; exact H]. intros ->. apply (Fresh c0 (k_id k) H). exact (circuit_name k c0 C0). }
          split; [|right; exists k'; split; [|exact Hc]; apply in_or_app; apply in_app_or in Hk; destruct Hk; [left|right; right]; assumption].
          intros ->. pose proof (circuit_name k c0 C0) as N1. pose proof (circuit_name k' c0 Hc) as N2. rewrite N1 in N2. injection N2 as N2.
          apply NoDup_remove_2 in IN. apply IN. rewrite <- map_app. rewrite N2. apply in_map. exact Hk.
  Qed.
End History.
