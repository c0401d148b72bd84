(** The backend on top of its drivers. *)
From Verif Require Import Base BaseProofs ModelLabel ModelSTP ModelAuthz ModelNRM ModelCalendar ModelState ModelScheduler ModelBackend ModelDrivers ModelJunos ModelOess ModelManager
  SpecLabel SpecCalendar SpecBackend SpecDrivers SpecDeployment SpecManager ProofsLabel ProofsBackendWp ProofsBackendFoc ProofsBackendOps ProofsBackendInv ProofsBackendRow ProofsBackendApi ProofsBackendFire ProofsBackendAdmission ProofsBackendReserve ProofsBackendRestart ProofsBackendSerial ProofsBackendPairs ProofsDeployment.
Open Scope Z_scope.

Lemma interface_map_get ports port : aget port (interface_map ports) = option_map p_interface (aget port ports).
Proof.
  induction ports as [|[n p] r IH]; [reflexivity|]. cbn [interface_map map fst snd aget]. destruct (eqb port n); [reflexivity|exact IH].
Qed.

Section Able.
Context {C : Type} (m : manager C) (ports : list (string * nrm_port)) (hi : Z).
Hypothesis Hv : vlan_ports ports.
Hypothesis Hres : forall port p v, aget port ports = Some p -> exists r, dr_resource (mg_driver m) port (Some (mkLabel "vlan" [(v, v)])) = Ok r.
Hypothesis Htgt : forall port p v, aget port ports = Some p -> 1 <= v <= hi -> mg_target m port (Some (mkLabel "vlan" [(v, v)])) = Ok tt.
Hypothesis Hid : forall x, exists i, mg_id m x = Ok i.

Definition vlan_labels (ls : list (option label)) : Prop := forall l, In l ls -> exists v, l = Some (mkLabel "vlan" [(v, v)]).
Lemma enum_vlans l : ltype l = "vlan" -> vlan_labels (label_enum (Some l)).
Proof. intros E x H. cbn [label_enum] in H. apply in_map_iff in H as (v & <- & _). rewrite E. exists v. reflexivity. Qed.

Lemma first_free_same net mind sc now c port p b e ls : aget port ports = Some p -> vlan_labels ls ->
  m_first_free m now c port b e ls = first_free now c (get_resource (cfg_of m net ports mind sc) port) b e ls.
Proof.
  intros Hp. induction ls as [|l r IH]; intros H; [reflexivity|]. cbn [m_first_free first_free get_resource cfg_of].
  destruct (H l (or_introl eq_refl)) as (v & ->). destruct (Hres port p v Hp) as (x & ->). cbn [Base.bind].
  rewrite IH by (intros y Hy; apply H; right; exact Hy). reflexivity.
Qed.
Lemma first_free2_same net mind sc now c sp dp p d b e ls : aget sp ports = Some p -> aget dp ports = Some d -> vlan_labels ls ->
  m_first_free2 m now c sp dp b e ls =
  first_free2 now c (get_resource (cfg_of m net ports mind sc) sp) (get_resource (cfg_of m net ports mind sc) dp) b e ls.
Proof.
  intros Hp Hd. induction ls as [|l r IH]; intros H; [reflexivity|]. cbn [m_first_free2 first_free2 get_resource cfg_of].
  destruct (H l (or_introl eq_refl)) as (v & ->). destruct (Hres sp p v Hp) as (x & ->). destruct (Hres dp d v Hd) as (y & ->). cbn [Base.bind].
  rewrite IH by (intros z Hz; apply H; right; exact Hz). reflexivity.
Qed.

Lemma label_of_str_type t x l : label_of_str t x = Ok l -> ltype l = t.
Proof. unfold label_of_str. intros H. unfold label_of_list in H. destruct (parse_items _); cbn [Base.bind] in H; [|discriminate]. injection H as <-. reflexivity. Qed.
Lemma intersect_type a b l : intersect a b = Ok l -> ltype a = ltype b /\ ltype l = ltype a.
Proof.
  unfold intersect. intros H. destruct (eqb_ok (ltype a) (ltype b)) as [E|N]; [|discriminate].
  split; [exact E|]. cbn [negb] in H. destruct (lvalues b) as [|o i]; [discriminate|]. cbv zeta in H.
  destruct (isect_outer (lvalues a) o i); [discriminate|]. exact (label_of_str_type _ _ _ H).
Qed.
Lemma matched_vlan p l : (exists x, p_label p = Some x /\ ltype x = "vlan") -> can_match (p_label p) l = Ok true -> exists x, l = Some x /\ ltype x = "vlan".
Proof.
  intros (x & -> & E) H. unfold can_match in H. destruct l as [y|]; [|discriminate]. exists y. split; [reflexivity|].
  destruct (intersect x y) as [z|[]] eqn:I; try discriminate. apply intersect_type in I as [I _]. congruence.
Qed.

(** the admission is the same *)
Lemma admission_same net mind sc now c h q : m_admission m (cfg_of m net ports mind sc) now c h q = admission (cfg_of m net ports mind sc) now c h q.
Proof.
  unfold m_admission, admission. cbn [network nrm_ports min_duration can_connect cfg_of].
  destruct (negb (eqb (s_network (rs_src q)) net)); [reflexivity|]. destruct (negb (eqb (s_network (rs_dst q)) net)); [reflexivity|].
  destruct (aget (s_port (rs_src q)) ports) as [p|] eqn:Ep; [|reflexivity]. destruct (aget (s_port (rs_dst q)) ports) as [d|] eqn:Ed; [|reflexivity].
  destruct (match rs_start q, rs_end q with Some b, Some e => _ | _, _ => _ end); [reflexivity|].
  destruct (authorize _ _ _ h); cbn [Base.bind]; [|reflexivity]. destruct (p_restricted p && p_restricted d); [reflexivity|].
  destruct (eqb (s_port (rs_src q)) (s_port (rs_dst q)) && _); [reflexivity|].
  destruct (match mg_connect m with Some _ => _ | None => _ end); [|reflexivity]. cbn [negb].
  destruct (can_match (p_label p) (s_label (rs_src q))) as [[]|] eqn:M1; cbn [Base.bind negb]; try reflexivity.
  destruct (can_match (p_label d) (s_label (rs_dst q))) as [[]|] eqn:M2; cbn [Base.bind negb]; try reflexivity.
  destruct (matched_vlan p _ (Hv _ _ Ep) M1) as (x & Ex & Tx). destruct (matched_vlan d _ (Hv _ _ Ed) M2) as (y & Ey & Ty).
  unfold m_pick, pick_labels. rewrite Ex, Ey. cbn [can_swap cfg_of].
  destruct (mg_swap m (label_type (Some x)) && mg_swap m (label_type (Some y))).
  - rewrite (first_free_same net mind sc now c _ p) by (try exact Ep; apply enum_vlans; exact Tx).
    destruct (first_free now c _ _ _ (label_enum (Some x))); cbn [Base.bind]; [|reflexivity].
    rewrite (first_free_same net mind sc now c _ d) by (try exact Ed; apply enum_vlans; exact Ty). reflexivity.
  - destruct (intersect x y) as [z|[]] eqn:I; cbn [Base.bind]; try reflexivity.
    rewrite (first_free2_same net mind sc now c _ _ p d); try assumption; [reflexivity|]. apply enum_vlans. apply intersect_type in I as [_ I]. congruence.
Qed.

(** what is admitted *)
Lemma admitted net mind sc now c h q l1 l2 : asks hi q -> admission (cfg_of m net ports mind sc) now c h q = Ok (l1, l2) ->
  forall i, vlan_link m ports hi (mkLink i (s_port (rs_src q)) l1 (s_port (rs_dst q)) l2).
Proof.
  intros [[W1 A1] [W2 A2]] H i. unfold admission in H. cbn [network nrm_ports min_duration can_connect cfg_of] in H.
  destruct (negb (eqb (s_network (rs_src q)) net)); [discriminate|]. destruct (negb (eqb (s_network (rs_dst q)) net)); [discriminate|].
  destruct (aget (s_port (rs_src q)) ports) as [p|] eqn:Ep; [|discriminate]. destruct (aget (s_port (rs_dst q)) ports) as [d|] eqn:Ed; [|discriminate].
  destruct (match rs_start q, rs_end q with Some b, Some e => _ | _, _ => _ end); [discriminate|].
  destruct (authorize _ _ _ h) as [un|]; cbn [Base.bind] in H; [|discriminate]. destruct (p_restricted p && p_restricted d); [discriminate|].
  destruct (eqb (s_port (rs_src q)) (s_port (rs_dst q)) && _); [discriminate|].
  destruct (match mg_connect m with Some _ => _ | None => _ end); [|discriminate]. cbn [negb] in H.
  destruct (can_match (p_label p) (s_label (rs_src q))) as [[]|] eqn:M1; cbn [Base.bind negb] in H; try discriminate.
  destruct (can_match (p_label d) (s_label (rs_dst q))) as [[]|] eqn:M2; cbn [Base.bind negb] in H; try discriminate.
  destruct (matched_vlan p _ (Hv _ _ Ep) M1) as (x & Ex & Tx). destruct (matched_vlan d _ (Hv _ _ Ed) M2) as (y & Ey & Ty).
  unfold pick_labels in H. rewrite Ex, Ey in *. cbn [can_swap cfg_of label_type option_map] in H. rewrite Tx, Ty in H.
  assert (V : forall z l, ltype z = "vlan" -> In l (label_enum (Some z)) -> exists v, l = Some (mkLabel "vlan" [(v, v)]) /\ denotes (lvalues z) v).
  { intros z l T I. apply label_enum_one_of in I. destruct l as [l|]; [|destruct I]. destruct I as (E & v & E' & Dn).
    exists v. split; [|exact Dn]. destruct l as [t vs]. cbn in *. subst. rewrite T. reflexivity. }
  destruct (mg_swap m (Some "vlan")) eqn:Sw; cbn [andb] in H.
  - destruct (first_free now c _ _ _ (label_enum (Some x))) as [a|] eqn:F1; cbn [Base.bind] in H; [|discriminate].
    destruct (first_free now c _ _ _ (label_enum (Some y))) as [b|] eqn:F2; cbn [Base.bind] in H; [|discriminate].
    injection H as <- <-. apply first_free_ok in F1 as [F1 _]. apply first_free_ok in F2 as [F2 _].
    destruct (V x a Tx F1) as (v & -> & Dv). destruct (V y b Ty F2) as (w & -> & Dw).
    exists p, d, v, w. cbn [k_sp k_dp k_sl k_dl]. repeat (split; [first [assumption|reflexivity|exact (A1 x v eq_refl Dv)|exact (A2 y w eq_refl Dw)]|]).
    congruence.
  - destruct (intersect x y) as [z|[]] eqn:I; cbn [Base.bind] in H; try discriminate.
    pose proof (intersect_type x y z I) as [_ Tz].
    destruct (first_free2 now c _ _ _ _ (label_enum (Some z))) as [a|] eqn:F1; cbn [Base.bind] in H; [|discriminate].
    injection H as <- <-. apply first_free2_ok in F1 as [F1 _]. destruct (V z a ltac:(congruence) F1) as (v & -> & Dv).
    assert (Dx : denotes (lvalues x) v /\ denotes (lvalues y) v).
    { destruct (intersect_spec x y W1 W2 ltac:(congruence)) as [(z' & E & _ & _ & _ & Hd)|(E & _)]; rewrite E in I; [|discriminate].
      injection I as ->. apply Hd. exact Dv. }
    destruct Dx as [D1 D2]. exists p, d, v, v. cbn [k_sp k_dp k_sl k_dl].
    repeat (split; [first [assumption|reflexivity|exact (A1 x v eq_refl D1)|exact (A2 y v eq_refl D2)]|]). intros _; reflexivity.
Qed.

Lemma able_serves : serves m ports hi.
Proof.
  intros net mind sc now c h q A g. unfold m_reserve. subst g. rewrite admission_same.
  destruct (admission (cfg_of m net ports mind sc) now c h q) as [[l1 l2]|e] eqn:Ad; cbn [Base.bind fst snd]; [|reflexivity].
  destruct (admitted net mind sc now c h q l1 l2 A Ad "") as (p & d & v & w & Hp & Hd & E1 & E2 & Rv & Rw & _).
  cbn [k_sp k_dp k_sl k_dl] in *. subst l1 l2.
  destruct (Hres _ p v Hp) as (x & Hx). destruct (Hres _ d w Hd) as (y & Hy). cbn [get_resource cfg_of].
  rewrite Hx, Hy. cbn [Base.bind]. rewrite (Htgt _ p v Hp Rv), (Htgt _ d w Hd Rw). cbn [Base.bind].
  destruct (rs_cid q) as [i|].
  - cbn [Base.bind]. eexists. exists i. split; [reflexivity|]. split; [|reflexivity]. intros j [= ->]. reflexivity.
  - destruct (Hid (rs_new q)) as (i & ->). cbn [Base.bind]. eexists. exists i. split; [reflexivity|]. split; [discriminate|reflexivity].
Qed.
Lemma able_tidy : tidy m ports hi.
Proof.
  intros net mind sc now c h q c' e A H. pose proof (able_serves net mind sc now c h q A) as S. cbv zeta in S.
  destruct (admission _ now c h q) as [[l1 l2]|e'].
  - destruct S as (c2 & cid & S & _). rewrite S in H. discriminate.
  - rewrite S in H. congruence.
Qed.

Hypothesis Hmk : forall k, vlan_link m ports hi k -> makes (mg_driver m) k.
Lemma able_word : keeps_its_word m ports hi.
Proof.
  intros net mind sc now c h q c' cid l1 l2 A H. pose proof (able_serves net mind sc now c h q A) as S. cbv zeta in S.
  destruct (admission _ now c h q) as [[a b]|e'] eqn:Ad.
  - destruct S as (c2 & i & S & _). rewrite S in H. injection H as -> -> -> ->. apply Hmk. exact (admitted net mind sc now c h q l1 l2 A Ad cid).
  - rewrite S in H. discriminate.
Qed.

Lemma enum_one v l : In l (label_enum (Some (mkLabel "vlan" [(v, v)]))) -> l = Some (mkLabel "vlan" [(v, v)]).
Proof.
  intros I. apply label_enum_one_of in I. destruct l as [l|]; [|destruct I]. destruct I as (E & x & E' & (lo & hi' & [[= <- <-]|[]] & R)).
  destruct l as [t vs]. cbn in *. subst. replace x with v by lia. reflexivity.
Qed.
Lemma able_ends : two_ends m ports (fun q => asks_one q /\ asks hi q).
Proof.
  intros net mind sc now c h q c' cid l1 l2 [(v & w & E1 & E2) A] H X. pose proof (able_serves net mind sc now c h q A) as S. cbv zeta in S.
  destruct (admission _ now c h q) as [[a b]|e'] eqn:Ad; [|rewrite S in H; discriminate].
  destruct S as (c2 & i & S & _). rewrite S in H. injection H as -> -> -> ->. injection X as X1 X2.
  destruct (admission_inv _ _ _ _ _ _ _ Ad) as [P _].
  assert (Ne : v <> w).
  { intros <-. unfold admission in Ad. cbn [network nrm_ports min_duration can_connect cfg_of] in Ad.
    rewrite X1, E1, E2, eqb_refl in Ad. unfold olabel_eqb in Ad.
    destruct (negb (eqb (s_network (rs_src q)) net)); [discriminate|]. destruct (negb (eqb (s_network (rs_dst q)) net)); [discriminate|].
    destruct (aget (s_port (rs_dst q)) ports); [|discriminate].
    destruct (match rs_start q, rs_end q with Some b, Some e => _ | _, _ => _ end); [discriminate|].
    destruct (authorize _ _ _ h); cbn [Base.bind] in Ad; [|discriminate]. destruct (p_restricted n && p_restricted n); [discriminate|].
    unfold label_eqb in Ad. rewrite ?eqb_refl in Ad. cbn [andb] in Ad. discriminate. }
  unfold pick_labels in P. rewrite E1, E2 in P. destruct (_ && _) in P.
  - destruct (first_free _ _ _ _ _ (label_enum (Some (mkLabel "vlan" [(v, v)])))) as [x|] eqn:F1; cbn [Base.bind] in P; [|discriminate].
    destruct (first_free _ _ _ _ _ (label_enum (Some (mkLabel "vlan" [(w, w)])))) as [y|] eqn:F2; cbn [Base.bind] in P; [|discriminate].
    injection P as <- <-. apply first_free_ok in F1 as [F1 _]. apply first_free_ok in F2 as [F2 _]. apply enum_one in F1, F2. congruence.
  - destruct (intersect _ _) as [z|[]] eqn:I; cbn [Base.bind] in P; try discriminate.
    destruct A as [[W1 _] [W2 _]]. rewrite E1 in W1. rewrite E2 in W2.
    destruct (intersect_spec _ _ W1 W2 eq_refl) as [(z' & E & _ & _ & Wz & Hd)|(E & _)]; rewrite E in I; [|discriminate].
    injection I as ->. destruct (first_free2 _ _ _ _ _ _ (label_enum (Some z))) as [x|] eqn:F; cbn [Base.bind] in P; [|discriminate].
    apply first_free2_ok in F as [F _]. apply label_enum_one_of in F. destruct x as [x|]; [|destruct F]. destruct F as (_ & y & _ & D).
    apply Hd in D as [(? & ? & [[= <- <-]|[]] & ?) (? & ? & [[= <- <-]|[]] & ?)]. lia.
Qed.

(** * Histories *)
Lemma core_link r r' : core r' = core r -> c_id r' = c_id r /\ c_sport r' = c_sport r /\ c_slabel r' = c_slabel r /\ c_dport r' = c_dport r /\ c_dlabel r' = c_dlabel r.
Proof. intros H. apply core_fields in H. tauto. Qed.
Lemma stored_links net mind sc l : forall s, let g := cfg_of m net ports mind sc in
  Inv holdarm g s -> legal g s l -> all_ask hi l -> (forall k r, aget k (db s) = Some r -> vlan_link m ports hi (link_of r)) ->
  forall k r, aget k (db (serial_run g s l)) = Some r -> vlan_link m ports hi (link_of r).
Proof.
  intros s g. revert s. induction l as [|oe l IH]; intros s I L A H k r Hk; [exact (H k r Hk)|]. destruct L as [L1 L2]. cbn [serial_run fold_left] in Hk.
  revert k r Hk. apply (IH (snd (serial_step g s oe))); [apply step_inv; auto; discriminate|exact L2|intros h q e Hi; apply (A h q e); right; exact Hi|].
  intros k r Hk. destruct (step_core holdarm g s oe k r I L1 Hk) as [(r0 & H0 & Hc)|(t & h & q & l1 & l2 & Eo & _ & Ha & ->)].
  - apply core_link in Hc as (_ & E1 & E2 & E3 & E4). destruct (H k r0 H0) as (p & d & v & w & V). exists p, d, v, w.
    cbn [k_sp k_dp k_sl k_dl link_of] in *. rewrite E1, E2, E3, E4. exact V.
  - apply (admitted net mind sc t (cal s) h q l1 l2 (A h q (snd oe) ltac:(left; destruct oe as [o e]; cbn in *; subst; reflexivity)) Ha k).
Qed.
Lemma stored_words net mind sc l : forall s, let g := cfg_of m net ports mind sc in
  Inv holdarm g s -> legal g s l -> plain_ids l -> (forall k r, aget k (db s) = Some r -> word (c_id r)) ->
  forall k r, aget k (db (serial_run g s l)) = Some r -> word (c_id r).
Proof.
  intros s g. revert s. induction l as [|oe l IH]; intros s I L A H k r Hk; [exact (H k r Hk)|]. destruct L as [L1 L2]. cbn [serial_run fold_left] in Hk.
  revert k r Hk. apply (IH (snd (serial_step g s oe))); [apply step_inv; auto; discriminate|exact L2|intros h q e Hi; apply (A h q e); right; exact Hi|].
  intros k r Hk. destruct (step_core holdarm g s oe k r I L1 Hk) as [(r0 & H0 & Hc)|(t & h & q & l1 & l2 & Eo & -> & Ha & ->)].
  - apply core_link in Hc as (-> & _). exact (H k r0 H0).
  - exact (A h q (snd oe) ltac:(left; destruct oe as [o e]; cbn in *; subst; reflexivity)).
Qed.
Lemma stored_deployed (may : link -> Prop) net mind sc t l : let g := cfg_of m net ports mind sc in let s := serial_run g (start t) l in
  legal g (start t) l -> all_ask hi l -> (forall cid r, aget cid (db s) = Some r -> vlan_link m ports hi (link_of r) -> may (link_of r)) ->
  deployed (mg_driver m) may g (db s) (outs s).
Proof.
  intros g s L A Hmay.
  assert (V : forall k r, aget k (db s) = Some r -> vlan_link m ports hi (link_of r)).
  { apply (stored_links net mind sc l (start t)); [apply inv_start|exact L|exact A|discriminate]. }
  constructor.
  - intros port lb res H. subst g. cbn [get_resource cfg_of]. rewrite H. reflexivity.
  - intros cid r H. split; [exact (Hmay cid r H (V cid r H))|]. destruct (V cid r H) as (p & d & v & w & Hp & Hd & E1 & E2 & _).
    intros port lb [[-> ->]|[-> ->]]; [rewrite E1|rewrite E2]; [exact (Hres _ p v Hp)|exact (Hres _ d w Hd)].
  - intros cid r _ H. exact (proj1 (Hmk (link_of r) (V cid r H))).
Qed.
Lemma links_undone : undoes (mg_driver m) (vlan_link m ports hi).
Proof. intros k cs H _ _. exact (proj2 (Hmk k H)). Qed.
End Able.
