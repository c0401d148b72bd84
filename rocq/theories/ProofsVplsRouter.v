(** Routers of the VPLS backend: histories of links. *)
From Verif Require Import Base BaseProofs ModelLabel ModelAuthz ModelNRM ModelDrivers ModelManager SpecDrivers SpecVplsRouter ProofsDrivers ProofsSwitches ProofsJoined.
Open Scope Z_scope.
#[local] Arguments label_value : simpl never.
#[local] Arguments py_str : simpl never.

(** * What the commands do *)
Lemma unit_text_of itf v rest : word itf -> unit_text (itf +++ " unit " +++ py_str v +++ " " +++ rest) = Some (itf, py_str v, Some rest).
Proof.
  intros H. unfold unit_text. assert (E : forall x, split1 " " (itf +++ " unit " +++ x) = Some (itf, "unit " +++ x)) by (intros x; exact (split1_app " " itf _ H)).
  rewrite E, (after_app "unit "). assert (F : split1 " " (py_str v +++ " " +++ rest) = Some (py_str v, rest)) by exact (split1_app " " _ rest (word_py_str v)).
  rewrite F. reflexivity.
Qed.
Lemma unit_text_name itf v : word itf -> unit_text (itf +++ " unit " +++ py_str v) = Some (itf, py_str v, None).
Proof.
  intros H. unfold unit_text. assert (E : forall x, split1 " " (itf +++ " unit " +++ x) = Some (itf, "unit " +++ x)) by (intros x; exact (split1_app " " itf _ H)).
  rewrite E, (after_app "unit "). rewrite (proj2 (split1_None " " (py_str v)) (word_py_str v)). reflexivity.
Qed.
Definition unit_rest (descr : string) (v : Z) : string := "description """ +++ descr +++ """ encapsulation vlan-vpls vlan-id " +++ py_str v +++ " family vpls".
Lemma vr_set_unit d itf v descr : word itf -> vr_exec d (vpls_unit itf v descr) = OfUnit itf (py_str v) (unit_rest descr v) :: d.
Proof.
  intros H. unfold vr_exec, vpls_unit. rewrite (after_app "set interfaces "). change (" description """ +++ descr +++ """ encapsulation vlan-vpls vlan-id " +++ py_str v +++ " family vpls") with (" " +++ unit_rest descr v).
  rewrite (unit_text_of itf v _ H). reflexivity.
Qed.
Lemma vr_set_ri d c rest : word c -> vr_exec d (vpls_ri c rest) = OfInstance c rest :: d.
Proof.
  intros H. unfold vr_exec, vpls_ri. rewrite (after_app "set routing-instances "). change (after "set interfaces " ("set routing-instances " +++ c +++ " " +++ rest)) with (@None string). cbv iota.
  assert (F : split1 " " (c +++ " " +++ rest) = Some (c, rest)) by exact (split1_app " " c rest H). rewrite F. reflexivity.
Qed.
Lemma vr_delete_unit d itf v : word itf -> vr_exec d ("delete interfaces " +++ itf +++ " unit " +++ py_str v) =
  filter (fun q => match q with OfUnit i' u' _ => negb (eqb i' itf && eqb u' (py_str v)) | OfInstance _ _ => true end) d.
Proof.
  intros H. unfold vr_exec. rewrite (after_app "delete interfaces ").
  change (after "set interfaces " ("delete interfaces " +++ itf +++ " unit " +++ py_str v)) with (@None string).
  change (after "set routing-instances " ("delete interfaces " +++ itf +++ " unit " +++ py_str v)) with (@None string). cbv iota.
  rewrite (unit_text_name itf v H). reflexivity.
Qed.
Lemma vr_delete_ri d c : vr_exec d ("delete routing-instance " +++ c) = filter (fun q => match q with OfInstance c' _ => negb (eqb c' c) | OfUnit _ _ _ => true end) d.
Proof.
  unfold vr_exec. rewrite (after_app "delete routing-instance ").
  change (after "set interfaces " ("delete routing-instance " +++ c)) with (@None string).
  change (after "set routing-instances " ("delete routing-instance " +++ c)) with (@None string).
  change (after "delete interfaces " ("delete routing-instance " +++ c)) with (@None string). reflexivity.
Qed.

Lemma vpls_target_ok pm port l t : vpls_target pm port l = Ok t -> (forall l', l = Some l' -> single_value l' = true) ->
  exists v itf, l = vlan_label v /\ aget port pm = Some itf /\ t = (itf, v).
Proof.
  unfold vpls_target. destruct l as [l|]; [|discriminate].
  destruct (eqb_ok (ltype l) "vlan") as [E|E]; [|discriminate].
  intros H Hs. destruct (single_vlan l (Hs l eq_refl)) as [v Hv].
  destruct l as [ty vs]; cbn in E, Hv; subst ty vs. rewrite label_value_single, int_of_py_str in H. cbn in H.
  unfold port_of in H. destruct (aget port pm) as [itf|]; [|discriminate]. cbn in H.
  destruct ((1 <=? v) && (v <=? 4095)); [|discriminate]. injection H as <-.
  exists v, itf. repeat split.
Qed.

Section Vpls.
  Variable asn : string.
  Variable pm : list (string * string).
  Hypothesis Hpm : vr_ports pm.
  Variable may : link -> Prop.
  Variable d0 : list vstmt.
  Hypothesis Hf : vr_fresh pm may d0.

  Definition vp_vals (k : link) (si di : string) (v : Z) : Prop :=
    aget (k_sp k) pm = Some si /\ aget (k_dp k) pm = Some di /\ k_sl k = vlan_label v /\ k_dl k = vlan_label v.
  Lemma vp_vals_fun k si di v si' di' v' : vp_vals k si di v -> vp_vals k si' di' v' -> si' = si /\ di' = di /\ v' = v.
  Proof. intros (A & B & E & F) (A' & B' & E' & F'). unfold vlan_label in *. split; [congruence|]. split; congruence. Qed.
  Definition vp_descr (k : link) : string := k_id k +++ " [ X-connect created by OpenNSA ]".
  Definition vp_vpn (k : link) : string := asn +++ ":" +++ vpls_unique (k_id k).
  Definition vp_about (c : string) (si di : string) (v : Z) (rd : string) : list string :=
    ["instance-type vpls"; "interface " +++ logical si v; "interface " +++ logical di v; "route-distinguisher " +++ rd; "vrf-target " +++ "target:" +++ rd;
     "protocols vpls site-range 2 no-tunnel-services"; "protocols vpls site MTRL1 site-identifier 1 interface " +++ logical si v;
     "protocols vpls site MTRL2 site-identifier 2 interface " +++ logical di v].
  Definition vp_adds (k : link) (q : vstmt) : Prop :=
    exists si di v, vp_vals k si di v /\
    match q with
    | OfUnit i u r => (i = si \/ i = di) /\ u = py_str v /\ r = unit_rest (vp_descr k) v
    | OfInstance c r => c = k_id k /\ In r (vp_about c si di v (vp_vpn k))
    end.
  Definition vp_kills (k : link) (q : vstmt) : Prop :=
    exists si di v, vp_vals k si di v /\ match q with OfUnit i u _ => (i = si \/ i = di) /\ u = py_str v | OfInstance c _ => c = k_id k end.
  Definition vp_good (k : link) : Prop := may k /\ picked k /\ exists si di v, vp_vals k si di v.

  Lemma vp_inv k (f : string -> string * Z -> string * Z -> result (list string)) (Hp : picked k) cs : via_targets (vpls_target pm) f (k_id k) (k_sp k) (k_sl k) (k_dp k) (k_dl k) = Ok cs ->
    exists si di v w, aget (k_sp k) pm = Some si /\ aget (k_dp k) pm = Some di /\ k_sl k = vlan_label v /\ k_dl k = vlan_label w /\ f (k_id k) (si, v) (di, w) = Ok cs.
  Proof.
    intros H. unfold via_targets in H.
    destruct (vpls_target pm (k_sp k) (k_sl k)) as [s|] eqn:Es; [|discriminate]. cbn [Base.bind] in H.
    destruct (vpls_target pm (k_dp k) (k_dl k)) as [d|] eqn:Ed; [|discriminate]. cbn [Base.bind] in H.
    apply vpls_target_ok in Es; [|intros l' Hl; apply (Hp (k_sp k)); left; auto].
    apply vpls_target_ok in Ed; [|intros l' Hl; apply (Hp (k_dp k)); right; auto].
    destruct Es as (v & si & Hsl & Hsi & ->). destruct Ed as (w & di & Hdl & Hdi & ->). exists si, di, v, w. auto.
  Qed.
  Lemma vp_setup_inv k cs : picked k -> dr_setup (vpls asn pm) (k_id k) (k_sp k) (k_sl k) (k_dp k) (k_dl k) = Ok cs ->
    exists si di v, vp_vals k si di v /\
      cs = vpls_setup_commands si di v (k_id k) (vp_descr k) (vp_vpn k) ("target:" +++ vp_vpn k).
  Proof.
    intros Hp H. destruct (vp_inv k _ Hp cs H) as (si & di & v & w & A & B & E & F & G). unfold vpls_up in G. cbn [fst snd] in G.
    destruct (eqb_ok v w) as [<-|]; [|discriminate]. injection G as <-. exists si, di, v. split; [split; auto|]. reflexivity.
  Qed.
  Lemma vp_teardown_inv k cs : picked k -> dr_teardown (vpls asn pm) (k_id k) (k_sp k) (k_sl k) (k_dp k) (k_dl k) = Ok cs ->
    exists si di v, vp_vals k si di v /\ cs = vpls_delete_commands si di v (k_id k).
  Proof.
    intros Hp H. destruct (vp_inv k _ Hp cs H) as (si & di & v & w & A & B & E & F & G). unfold vpls_down in G. cbn [fst snd] in G.
    destruct (eqb_ok v w) as [<-|]; [|discriminate]. injection G as <-. exists si, di, v. split; [split; auto|]. reflexivity.
  Qed.
  Lemma vp_word k si di v : vp_vals k si di v -> word si /\ word di.
  Proof. intros (A & B & _). split; [apply (proj1 Hpm _ _ A)|apply (proj1 Hpm _ _ B)]. Qed.

  Lemma vp_up_ok d k cs : vp_good k -> dr_setup (vpls asn pm) (k_id k) (k_sp k) (k_sl k) (k_dp k) (k_dl k) = Ok cs ->
    forall q, In q (fold_left vr_exec cs d) <-> vp_adds k q \/ (In q d /\ ~ False).
  Proof.
    intros (Hm & Hp & _) H q. destruct (vp_setup_inv k cs Hp H) as (si & di & v & V & ->). destruct (vp_word _ _ _ _ V) as [W1 W2].
    pose proof (proj1 (proj1 Hf k Hm)) as W. unfold vpls_setup_commands. cbn [fold_left].
    rewrite (vr_set_unit d si v _ W1), (vr_set_unit _ di v _ W2), !(vr_set_ri _ _ _ W). cbn [In]. unfold vp_adds. split.
    - intros H'. repeat (destruct H' as [<-|H']; [left; exists si, di, v; split; [exact V|]; cbn; auto 12|]). right. auto.
    - intros [(si' & di' & v' & V' & H')|[H' _]]; [|auto 12]. destruct (vp_vals_fun _ _ _ _ _ _ _ V V') as (-> & -> & ->).
      destruct q as [i u r|c r].
      + destruct H' as ([->| ->] & -> & ->); auto 12.
      + destruct H' as (-> & H'). cbn [In vp_about] in H'. repeat (destruct H' as [<-|H']; [auto 12|]). destruct H'.
  Qed.
  Lemma vp_down_ok d k cs : vp_good k -> dr_teardown (vpls asn pm) (k_id k) (k_sp k) (k_sl k) (k_dp k) (k_dl k) = Ok cs ->
    forall q, In q (fold_left vr_exec cs d) <-> In q d /\ ~ vp_kills k q.
  Proof.
    intros (Hm & Hp & _) H q. destruct (vp_teardown_inv k cs Hp H) as (si & di & v & V & ->). destruct (vp_word _ _ _ _ V) as [W1 W2].
    unfold vpls_delete_commands. cbn [fold_left]. rewrite (vr_delete_unit d si v W1), (vr_delete_unit _ di v W2), vr_delete_ri, !filter_In_iff. unfold vp_kills.
    split.
    - intros (((I & A) & B) & Cc). split; [exact I|]. intros (si' & di' & v' & V' & H'). destruct (vp_vals_fun _ _ _ _ _ _ _ V V') as (-> & -> & ->).
      destruct q as [i u r|c r].
      + destruct H' as ([->| ->] & ->); rewrite !eqb_refl in *; discriminate.
      + subst c. rewrite eqb_refl in Cc. discriminate.
    - intros (I & N). repeat split; [exact I| | |]; destruct q as [i u r|c r]; try reflexivity.
      + destruct (eqb_ok i si) as [->|]; [|reflexivity]. destruct (eqb_ok u (py_str v)) as [->|]; [|reflexivity]. exfalso. apply N. exists si, di, v. auto.
      + destruct (eqb_ok i di) as [->|]; [|reflexivity]. destruct (eqb_ok u (py_str v)) as [->|]; [|reflexivity]. exfalso. apply N. exists si, di, v. auto.
      + destruct (eqb_ok c (k_id k)) as [->|]; [|reflexivity]. exfalso. apply N. exists si, di, v. auto.
  Qed.
  Lemma vp_good_ok k cs : may k -> picked k -> nameable (vpls asn pm) k ->
    dr_setup (vpls asn pm) (k_id k) (k_sp k) (k_sl k) (k_dp k) (k_dl k) = Ok cs -> vp_good k.
  Proof. intros Hm Hp _ H. destruct (vp_setup_inv k cs Hp H) as (si & di & v & V & _). split; [exact Hm|]. split; [exact Hp|]. eauto. Qed.
  Lemma vp_own k q : vp_good k -> vp_adds k q -> vp_kills k q.
  Proof.
    intros _ (si & di & v & V & H). exists si, di, v. split; [exact V|]. destruct q; [destruct H as (A & B & _); auto|destruct H as (A & _); exact A].
  Qed.
  Lemma vp_res port v itf : aget port pm = Some itf -> dr_resource (vpls asn pm) port (vlan_label v) = Ok (port +++ "." +++ py_str v).
  Proof. intros H. cbn. unfold port_of. rewrite H. cbn. rewrite label_value_single. reflexivity. Qed.
  Lemma vp_holds k si di v port itf : vp_vals k si di v -> (itf = si \/ itf = di) -> aget port pm = Some itf -> holds (vpls asn pm) k (port +++ "." +++ py_str v).
  Proof.
    intros (A & B & E & F) [->| ->] H.
    - rewrite (proj2 Hpm _ _ _ H A). exists (k_sp k), (k_sl k). split; [left; auto|]. rewrite E. exact (vp_res _ _ _ A).
    - rewrite (proj2 Hpm _ _ _ H B). exists (k_dp k), (k_dl k). split; [right; auto|]. rewrite F. exact (vp_res _ _ _ B).
  Qed.
  Lemma py_str_eq v w : py_str v = py_str w -> v = w.
  Proof. intros E. apply (f_equal py_int) in E. rewrite !py_int_str in E. congruence. Qed.
  Lemma vp_apart k k' q : vp_good k -> vp_good k' -> apart (vpls asn pm) k k' -> vp_adds k' q -> ~ vp_kills k q /\ ~ False.
  Proof.
    intros _ _ [Hi Ha] (si' & di' & v' & V' & H'). split; [|auto]. intros (si & di & v & V & H). destruct q as [i u r|c r].
    - destruct H as (I & U), H' as (I' & U' & _). rewrite U in U'. apply py_str_eq in U'. subst v'.
      assert (X : exists port, aget port pm = Some i).
      { destruct V as (A & B & _). destruct I as [->| ->]; eauto. }
      destruct X as (port & X). apply (Ha (port +++ "." +++ py_str v)). split; [exact (vp_holds _ _ _ _ _ _ V I X)|exact (vp_holds _ _ _ _ _ _ V' I' X)].
    - destruct H' as (-> & _). congruence.
  Qed.
  Lemma vp_start k q : vp_good k -> In q d0 -> ~ vp_kills k q /\ ~ False.
  Proof.
    intros (Hm & _) I. split; [|auto]. intros (si & di & v & (A & B & _) & H). destruct q as [i u r|c r].
    - destruct H as ([->| ->] & _); [exact (proj2 Hf _ _ _ _ A I)|exact (proj2 Hf _ _ _ _ B I)].
    - subst c. exact (proj2 (proj1 Hf k Hm) _ I).
  Qed.
  Lemma vp_reach d ks : reach (vpls asn pm) vr_exec may d0 d ks ->
    Forall vp_good ks /\ ForallOrdPairs (apart (vpls asn pm)) ks /\ forall q, In q d <-> In q d0 \/ exists k, In k ks /\ vp_adds k q.
  Proof.
    apply (reach_inv (vpls asn pm) vr_exec (fun d q => In q d) may d0 vp_adds vp_kills (fun _ _ => False) vp_good).
    - exact vp_up_ok.
    - exact vp_down_ok.
    - exact vp_good_ok.
    - exact vp_own.
    - exact vp_apart.
    - exact vp_start.
  Qed.
End Vpls.

(** * What the configuration means *)
Lemma last_dot a p b q : shas "." p = false -> shas "." q = false -> a +++ "." +++ p = b +++ "." +++ q -> a = b /\ p = q.
Proof.
  intros Hp Hq. revert b. induction a as [|x a IH]; intros [|y b]; cbn [String.append]; intros E.
  - injection E as E. auto.
  - injection E as _ E. exfalso. rewrite E in Hp. rewrite !shas_app in Hp. cbn in Hp. rewrite orb_true_r in Hp. discriminate.
  - injection E as _ E. exfalso. rewrite <- E in Hq. rewrite !shas_app in Hq. cbn in Hq. rewrite orb_true_r in Hq. discriminate.
  - injection E as -> E. destruct (IH _ E) as [-> ->]. auto.
Qed.
Lemma logical_inj a v b w : logical a v = logical b w -> a = b /\ v = w.
Proof.
  intros E. unfold logical in E. destruct (last_dot _ _ _ _ (nodot_py_str v) (nodot_py_str w) E) as [-> F]. split; [reflexivity|exact (py_str_eq _ _ F)].
Qed.
Lemma itf_of x y : "interface " +++ x = "interface " +++ y -> x = y.
Proof. intros E. exact (append_inj_r "interface " _ _ E). Qed.

Section Meaning.
  Variable asn : string.
  Variable pm : list (string * string).
  Hypothesis Hpm : vr_ports pm.
  Variable may : link -> Prop.
  Variables d0 d : list vstmt.
  Hypothesis Hf : vr_fresh pm may d0.
  Variable ks : list link.
  Hypothesis Hr : reach (vpls asn pm) vr_exec may d0 d ks.

  Lemma vp_in q : In q d <-> In q d0 \/ exists k, In k ks /\ vp_adds asn pm k q.
  Proof. exact (proj2 (proj2 (vp_reach asn pm Hpm may d0 Hf d ks Hr)) q). Qed.
  Lemma vp_all k : In k ks -> vp_good pm may k.
  Proof. intros H. exact (proj1 (Forall_forall _ _) (proj1 (vp_reach asn pm Hpm may d0 Hf d ks Hr)) k H). Qed.
  Lemma vp_one k k' : In k ks -> In k' ks -> k_id k = k_id k' -> k = k'.
  Proof.
    intros A B E. destruct (reach_pairs _ _ _ _ _ _ Hr _ _ A B) as [H|[[H _]|[H _]]]; [exact H|contradiction|symmetry in E; contradiction].
  Qed.
  (** what is said about the instance of a link that is up *)
  Lemma vp_instance k si di v r : In k ks -> vp_vals pm k si di v -> In (OfInstance (k_id k) r) d <-> In r (vp_about (k_id k) si di v (vp_vpn asn k)).
  Proof.
    intros Hk V. rewrite vp_in. split.
    - intros [H|(k' & Hk' & si' & di' & v' & V' & E & H)].
      + exfalso. exact (proj2 (proj1 Hf k (proj1 (vp_all k Hk))) r H).
      + pose proof (vp_one _ _ Hk Hk' E) as <-. destruct (vp_vals_fun _ _ _ _ _ _ _ _ V V') as (-> & -> & ->). exact H.
    - intros H. right. exists k. split; [exact Hk|]. exists si, di, v. auto.
  Qed.
  Lemma vp_other c r : ~ (exists k, In k ks /\ k_id k = c) -> In (OfInstance c r) d <-> In (OfInstance c r) d0.
  Proof.
    intros N. rewrite vp_in. split; [|auto]. intros [H|(k & Hk & si & di & v & _ & E & _)]; [exact H|]. exfalso. apply N. eauto.
  Qed.
  Lemma vp_whose c : (exists k, In k ks /\ k_id k = c) \/ ~ (exists k, In k ks /\ k_id k = c).
  Proof.
    clear Hr. induction ks as [|k l IH]; [right; intros (k & [] & _)|]. destruct (eqb_ok (k_id k) c) as [E|E]; [left; exists k; cbn; auto|].
    destruct IH as [(k' & H & E')|N]; [left; exists k'; cbn; auto|]. right. intros (k' & [<-|H] & E'); [contradiction|]. apply N. eauto.
  Qed.

  Theorem vp_carries itf v : vr_carries d itf v <-> vr_carries d0 itf v \/ link_on pm ks itf v.
  Proof.
    split.
    - intros (descr & H). apply vp_in in H. destruct H as [H|(k & Hk & si & di & w & V & I & U & _)]; [left; exists descr; exact H|].
      right. apply py_str_eq in U. subst w. destruct V as (A & B & E & F). destruct I as [->| ->].
      + exists k, (k_sp k). split; [exact Hk|]. split; [left; split; [reflexivity|exact (eq_sym E)]|exact A].
      + exists k, (k_dp k). split; [exact Hk|]. split; [right; split; [reflexivity|exact (eq_sym F)]|exact B].
    - intros [(descr & H)|(k & port & Hk & He & Ha)].
      + exists descr. apply vp_in. auto.
      + destruct (vp_all k Hk) as (_ & _ & si & di & w & V). exists (vp_descr k). apply vp_in. right. exists k. split; [exact Hk|].
        exists si, di, w. split; [exact V|]. destruct V as (A & B & E & F). unfold vlan_label in *.
        destruct He as [[-> L]|[-> L]].
        * rewrite Ha in A. rewrite <- L in E. injection A as <-. injection E as <-. auto.
        * rewrite Ha in B. rewrite <- L in F. injection B as <-. injection F as <-. auto.
  Qed.

  Lemma about_itf c si di v rd x : In ("interface " +++ x) (vp_about c si di v rd) -> x = logical si v \/ x = logical di v.
  Proof.
    unfold vp_about. cbn [In]. intros H. destruct H as [H|[H|[H|[H|[H|[H|[H|[H|[]]]]]]]]]; try discriminate H; apply (append_inj_r "interface ") in H; auto.
  Qed.
  Theorem vp_joined a b v : a <> b -> vr_joined d a b v <-> vr_joined d0 a b v \/ link_between pm ks a b v.
  Proof.
    intros Hab. split.
    - intros (c & n & m & R & M & M' & Hn & Hm & Hnm). destruct (vp_whose c) as [(k & Hk & <-)|N].
      + right. destruct (vp_all k Hk) as (_ & _ & si & di & w & V). destruct M as (_ & M & _), M' as (_ & M' & _).
        apply (vp_instance k si di w _ Hk V) in M. apply (vp_instance k si di w _ Hk V) in M'. apply about_itf in M, M'.
        assert (X : forall x, logical x v = logical si w \/ logical x v = logical di w -> v = w /\ (x = si \/ x = di)).
        { intros x [E|E]; apply logical_inj in E; tauto. }
        apply X in M. apply X in M'. destruct M as [-> Ma], M' as [_ Mb]. destruct V as (A & B & E & F). exists k.
        split; [exact Hk|]. split; [exact E|]. split; [exact F|].
        destruct Ma as [-> | ->], Mb as [-> | ->]; try congruence; auto.
      + left. exists c, n, m. unfold vr_member in *. destruct M as (M1 & M2 & s & Ws & M3), M' as (M1' & M2' & s' & Ws' & M3').
        apply (vp_other c _ N) in R. apply (vp_other c _ N) in M1. apply (vp_other c _ N) in M2. apply (vp_other c _ N) in M3.
        apply (vp_other c _ N) in M2'. apply (vp_other c _ N) in M3'.
        split; [exact R|]. split; [split; [exact M1|split; [exact M2|eauto]]|]. split; [split; [exact M1|split; [exact M2'|eauto]]|auto].
    - intros [(c & n & m & R & M & M' & Hn & Hm & Hnm)|(k & Hk & E & F & H)].
      + exists c, n, m. unfold vr_member in *. destruct M as (M1 & M2 & s & Ws & M3), M' as (M1' & M2' & s' & Ws' & M3').
        assert (X : forall q, In q d0 -> In q d) by (intros q I; apply vp_in; auto).
        split; [auto|]. split; [split; [auto|split; [auto|eauto]]|]. split; [split; [auto|split; [auto|eauto]]|auto].
      + assert (X : exists si di, vp_vals pm k si di v /\ ((a = si /\ b = di) \/ (a = di /\ b = si))).
        { destruct H as [[A B]|[A B]]; [exists a, b|exists b, a]; (split; [repeat split; assumption|auto]). }
        destruct X as (si & di & V & Hs). pose proof (vp_instance k si di v) as P.
        assert (Ms : vr_member d (k_id k) (logical si v) 1).
        { split; [apply (P _ Hk V); cbn; auto|]. split; [apply (P _ Hk V); cbn; auto|]. exists "MTRL1". split; [reflexivity|]. apply (P _ Hk V). cbn; auto 12. }
        assert (Md : vr_member d (k_id k) (logical di v) 2).
        { split; [apply (P _ Hk V); cbn; auto|]. split; [apply (P _ Hk V); cbn; auto|]. exists "MTRL2". split; [reflexivity|]. apply (P _ Hk V). cbn; auto 12. }
        assert (Sr : In (OfInstance (k_id k) "protocols vpls site-range 2 no-tunnel-services") d) by (apply (P _ Hk V); cbn; auto 12).
        destruct Hs as [[-> ->]|[-> ->]]; [exists (k_id k), 1, 2|exists (k_id k), 2, 1]; (split; [exact Sr|]); (split; [assumption|]); (split; [assumption|]); lia.
  Qed.

  Theorem vp_left q : In q d -> In q d0 \/ match q with OfUnit i u _ => exists v, u = py_str v /\ link_on pm ks i v | OfInstance c _ => exists k, In k ks /\ k_id k = c end.
  Proof.
    intros H. apply vp_in in H. destruct H as [H|(k & Hk & si & di & w & V & H)]; [auto|]. right. destruct q as [i u r|c r].
    - destruct H as (I & -> & _). exists w. split; [reflexivity|]. destruct V as (A & B & E & F). destruct I as [->| ->].
      + exists k, (k_sp k). split; [exact Hk|]. split; [left; split; [reflexivity|exact (eq_sym E)]|exact A].
      + exists k, (k_dp k). split; [exact Hk|]. split; [right; split; [reflexivity|exact (eq_sym F)]|exact B].
    - destruct H as (-> & _). eauto.
  Qed.

  Theorem vp_vpns k r : In k ks -> (vr_distinguisher d (k_id k) r <-> r = vp_vpn asn k) /\ (vr_target d (k_id k) r <-> r = "target:" +++ vp_vpn asn k).
  Proof.
    intros Hk. destruct (vp_all k Hk) as (_ & _ & si & di & w & V). unfold vr_distinguisher, vr_target. rewrite !(vp_instance k si di w _ Hk V). split; split.
    - unfold vp_about. cbn [In]. intros H. destruct H as [H|[H|[H|[H|[H|[H|[H|[H|[]]]]]]]]]; try discriminate H. apply (append_inj_r "route-distinguisher ") in H. auto.
    - intros ->. unfold vp_about. cbn [In]. auto 12.
    - unfold vp_about. cbn [In]. intros H. destruct H as [H|[H|[H|[H|[H|[H|[H|[H|[]]]]]]]]]; try discriminate H. apply (append_inj_r "vrf-target ") in H. auto.
    - intros ->. unfold vp_about. cbn [In]. auto 12.
  Qed.
End Meaning.

(** * Totals and ids *)
Theorem vp_setup_total asn pm k a b v : aget (k_sp k) pm = Some a -> aget (k_dp k) pm = Some b ->
  k_sl k = Some (mkLabel "vlan" [(v, v)]) -> k_dl k = Some (mkLabel "vlan" [(v, v)]) -> 1 <= v <= 4095 ->
  exists cs, dr_setup (vpls asn pm) (k_id k) (k_sp k) (k_sl k) (k_dp k) (k_dl k) = Ok cs.
Proof.
  intros A B E F Hv.
  assert (X : forall port itf, aget port pm = Some itf -> vpls_target pm port (Some (mkLabel "vlan" [(v, v)])) = Ok (itf, v)).
  { intros port itf H. unfold vpls_target. cbn [ltype]. rewrite label_value_single. change (eqb "vlan" "vlan") with true. cbv iota.
    unfold port_of. rewrite H. cbn [Base.bind]. rewrite int_of_py_str. cbn [Base.bind].
    replace ((1 <=? v) && (v <=? 4095)) with true by (symmetry; apply andb_true_iff; split; apply Z.leb_le; lia). reflexivity. }
  cbn [vpls dr_setup]. unfold via_targets. rewrite E, F, (X _ _ A), (X _ _ B). cbn [Base.bind]. unfold vpls_up. cbn [fst snd].
  destruct (eqb_ok v v) as [_|N]; [|contradiction]. eexists. reflexivity.
Qed.
Theorem vp_teardown_total asn pm k cs :
  dr_setup (vpls asn pm) (k_id k) (k_sp k) (k_sl k) (k_dp k) (k_dl k) = Ok cs ->
  exists cs', dr_teardown (vpls asn pm) (k_id k) (k_sp k) (k_sl k) (k_dp k) (k_dl k) = Ok cs'.
Proof.
  cbn [vpls dr_setup dr_teardown]. unfold via_targets. destruct (vpls_target pm (k_sp k) (k_sl k)) as [s|]; [|discriminate]. cbn [Base.bind].
  destruct (vpls_target pm (k_dp k) (k_dl k)) as [d|]; [|discriminate]. cbn [Base.bind]. unfold vpls_up, vpls_down.
  destruct (eqb (snd s) (snd d)); [eauto|discriminate].
Qed.
Lemma take_alike n : forall c c' t t', ((String.length c < n)%nat -> t = "") -> ((String.length c' < n)%nat -> t' = "") ->
  substring 0 n c +++ t = substring 0 n c' +++ t' -> substring 0 n c = substring 0 n c' /\ t = t'.
Proof.
  induction n as [|n IH]; intros c c' t t' H H' E.
  - assert (Z0 : forall s, substring 0 0 s = "") by (intros []; reflexivity). rewrite !Z0 in *. auto.
  - destruct c as [|x c], c' as [|y c']; cbn [substring String.append String.length] in *.
    + auto.
    + rewrite H in E by lia. discriminate.
    + rewrite H' in E by lia. discriminate.
    + injection E as -> E. destruct (IH c c' t t') as [A B]; [intros; apply H; lia|intros; apply H'; lia|exact E|]. rewrite A, B. auto.
Qed.
Lemma unique_alike c c' : vpls_unique c = vpls_unique c' -> alike c c'.
Proof.
  assert (X : forall s, (String.length s < 5)%nat -> substring 7 2 s = "").
  { intros s H. do 5 (destruct s as [|? s]; [reflexivity|]). cbn in H. lia. }
  intros E. exact (take_alike 5 c c' _ _ (X c) (X c') E).
Qed.
