(** Proofs for C83: what links and circuits have to do with each other. *)
From Verif Require Import Base BaseProofs ModelLabel ModelRest ModelDrivers SpecDrivers ModelOess SpecOess ProofsDrivers ProofsOess.
Open Scope Z_scope.

(** ** Ends of links *)
Lemma end_on_fun pm port l e e' : end_on pm port l e -> end_on pm port l e' -> e = e'.
Proof.
  intros (n & i & v & H & (_ & _ & _ & C1 & _) & _ & E & _ & ->) (n' & i' & v' & H' & (_ & _ & _ & C1' & _) & _ & E' & _ & ->).
  rewrite H in H'. injection H' as H'. rewrite E in E'. injection E' as <-.
  pose proof (split1_app ":" n i C1) as X. pose proof (split1_app ":" n' i' C1') as X'.
  change (append n (String ":" i) = append n' (String ":" i')) in H'. rewrite H' in X. rewrite X in X'. injection X' as -> ->. reflexivity.
Qed.
Lemma ends_fun pm k a b a' b' : ends pm k a b -> ends pm k a' b' -> a = a' /\ b = b'.
Proof. intros (H1 & H2) (H1' & H2'). split; eapply end_on_fun; eassumption. Qed.
Lemma end_plain pm port l e : end_on pm port l e ->
  plain (fst (fst e)) /\ plain (snd (fst e)) /\ shas "&" (snd e) = false /\ shas ":" (snd e) = false /\ shas "#" (snd e) = false.
Proof.
  intros (n & i & v & _ & Hn & Hi & _ & _ & ->). cbn [fst snd]. split; [exact Hn|]. split; [exact Hi|].
  repeat split; apply lacks_py_str; reflexivity.
Qed.
Definition target_text (e : cend) : string := fst (fst e) +++ ":" +++ snd (fst e) +++ "#" +++ snd e.
Lemma port_vlan_of_target pm port l e : end_on pm port l e -> port_vlan_of (target_text e) = Ok e.
Proof.
  intros H. destruct (end_plain pm port l e H) as (Hn & Hi & T1 & T2 & T3). destruct e as [[n i] t]. cbn [fst snd] in *.
  destruct Hn as (_ & _ & _ & N1 & _), Hi as (_ & _ & _ & I1 & I2). unfold port_vlan_of, target_text. cbn [fst snd].
  change (n +++ ":" +++ i +++ "#" +++ t) with (n +++ String ":" (i +++ String "#" t)). rewrite split_on_app by exact N1.
  rewrite (split_on_none ":") by (rewrite shas_app, shas_cons, I1, T2; reflexivity).
  rewrite split_on_app by exact I2. rewrite split_on_none by exact T3. reflexivity.
Qed.
Lemma oe_target_end pm port l e : end_on pm port l e -> oe_target pm port l = Ok (target_text e).
Proof.
  intros (n & i & v & Hp & _ & _ & -> & Hv & ->). unfold oe_target. cbn [ltype]. rewrite eqb_refl. cbn [negb].
  rewrite label_value_single. unfold int_of. rewrite py_int_str. cbn [Base.bind].
  assert (E : (1 <=? v) && (v <=? 4094) = true) by lia. rewrite E. unfold port_of. rewrite Hp. cbn [Base.bind]. unfold target_text. cbn [fst snd].
  rewrite !append_assoc. reflexivity.
Qed.
Lemma oe_setup_talk pm group k a b t : ends pm k a b -> oe_setup pm group (k_sp k) (k_sl k) (k_dp k) (k_dl k) = Ok t ->
  t = provisioning group (target_text a) (target_text b).
Proof.
  intros (H1 & H2). unfold oe_setup. rewrite (oe_target_end _ _ _ _ H1), (oe_target_end _ _ _ _ H2). cbn [Base.bind]. intros H. symmetry. exact (ok_inj _ _ H).
Qed.
Lemma oe_teardown_talk pm k a b t : ends pm k a b -> oe_teardown pm (k_sp k) (k_sl k) (k_dp k) (k_dl k) = Ok t ->
  t = removal (target_text a) (target_text b).
Proof.
  intros (H1 & H2). unfold oe_teardown. rewrite (oe_target_end _ _ _ _ H1), (oe_target_end _ _ _ _ H2). cbn [Base.bind]. intros H. symmetry. exact (ok_inj _ _ H).
Qed.
Lemma separate_sym pm k k' : separate pm k k' -> separate pm k' k.
Proof.
  intros H a b a' b' E E' [(X & Y)|(X & Y)]; apply (H a' b' a b E' E); [left|right]; split; congruence.
Qed.

(** ** Answers *)
Lemma named_has name l x : named name l = Ok (Some x) -> In x l /\ has x "name" (JStr name).
Proof.
  induction l as [|y l IH]; cbn [named]; [discriminate|]. destruct (jget "name" y) as [n|] eqn:E; [|discriminate]. cbn [Base.bind].
  destruct (j_is name n) eqn:En; [|intros H; destruct (IH H); split; [right; assumption|assumption]].
  intros H. apply ok_inj in H. injection H as <-. split; [left; reflexivity|]. unfold has. rewrite E. destruct n; try discriminate. cbn [j_is] in En.
  apply (proj1 (eqb_true s name)) in En. subst. reflexivity.
Qed.
Lemma named_groups groups js name g : aget name groups = Some g ->
  Forall2 (fun p j => has j "name" (JStr (fst p)) /\ has j "workgroup_id" (JInt (snd p))) groups js ->
  exists x, named name js = Ok (Some x) /\ has x "workgroup_id" (JInt g).
Proof.
  intros H F. induction F as [|[n z] j groups js (H1 & H2) F IH]; [discriminate|]. cbn [aget fst snd] in *. cbn [named]. rewrite H1. cbn [Base.bind j_is].
  destruct (eqb_ok name n) as [E|N].
  - subst n. rewrite eqb_refl. injection H as ->. exists j. split; [reflexivity|exact H2].
  - rewrite eqb_neq by congruence. exact (IH H).
Qed.
Lemma results_list a l : results a l -> (do! j <- a; do! r <- jget "results" j; j_items r) = Ok l.
Proof. intros (j & -> & H). cbn [Base.bind]. rewrite H. reflexivity. Qed.
Lemma workgroup_ok groups a js group g : aget group groups = Some g -> results a js ->
  Forall2 (fun p j => has j "name" (JStr (fst p)) /\ has j "workgroup_id" (JInt (snd p))) groups js ->
  workgroup_of a group = Ok (JInt g).
Proof.
  intros H (j & -> & Hr) F. destruct (named_groups groups js group g H F) as (x & Hx & Hg).
  unfold workgroup_of. cbn [Base.bind]. rewrite Hr. cbn [Base.bind j_items]. rewrite Hx. cbn [Base.bind]. exact Hg.
Qed.
Lemma process_path_names a js : results a js -> (forall j, In j js -> exists name, has j "link" (JStr name) /\ shas "&" name = false) ->
  exists ls, process_path a = Ok ls /\ names_ok ls.
Proof.
  intros (j & -> & Hr) H. unfold process_path. cbn [Base.bind]. rewrite Hr. cbn [Base.bind j_items]. clear Hr j.
  induction js as [|x js IH]; [exists []; split; [reflexivity|intros y []]|].
  destruct (H x (or_introl eq_refl)) as (n & Hn & Hp). destruct IH as (ls & E & Hl); [intros y Hy; apply H; right; exact Hy|].
  cbn [mapM]. rewrite Hn. cbn [Base.bind]. rewrite E. cbn [Base.bind]. exists (JStr n :: ls). split; [reflexivity|].
  intros y [<-|Hy]; [exists n; split; [reflexivity|exact Hp]|exact (Hl y Hy)].
Qed.

Definition harmless (q : string) : Prop := exists x, action q x /\ x <> "provision_circuit" /\ x <> "remove_circuit".
Lemma harmless_ct order no ct q a ct' : harmless q -> answers order no ct q a ct' -> ct' = ct.
Proof.
  intros (x & Hx & N1 & N2) H. destruct H; try reflexivity; exfalso.
  - apply N1. exact (action_unique _ _ _ Hx H).
  - apply N2. exact (action_unique _ _ _ Hx H).
Qed.

Section Inv.
  Context (order : bool) (pm : list (string * string)) (group : string) (g : Z) (may : link -> Prop) (ct0 : controller).
  Context (Hmay : forall k, may k -> (exists a b, ends pm k a b) /\ (order = true \/ two_nodes pm k)).
  Context (Hstart : ready_start pm group g may ct0).

  (** ** Setting up *)
  Definition prov_go (go : result json -> talk) : Prop :=
    (forall e, exists e', go (Err e) = TEnd (Err e')) /\
    (forall j r id, has j "results" r -> has r "success" (JInt 1) -> has r "circuit_id" (JInt id) -> go (Ok j) = TEnd (Ok tt)).
  Definition prov_query (a b : cend) (prim back : list json) (wg : json) : result string :=
    q_provision wg (fst (fst a)) (snd (fst a)) (snd a) (fst (fst b)) (snd (fst b)) (snd b) prim back.
  Inductive setting_up (a b : cend) : bool -> talk -> Prop :=
  | su_err known e : setting_up a b known (TEnd (Err e))
  | su_set known t : setting_up a b true t -> setting_up a b known (TSet (JInt g) t)
  | su_ask known q go : harmless q ->
      (forall ct x ct', ct_groups ct = ct_groups ct0 -> answers order frank ct q x ct' -> setting_up a b known (go x)) ->
      setting_up a b known (TAsk (fun _ => Ok q) go)
  | su_prov prim back go : names_ok prim -> names_ok back -> prov_go go ->
      setting_up a b true (TAsk (prov_query a b prim back) go).

  Lemma su_do {A} a b known (r : result A) f : (forall x, r = Ok x -> setting_up a b known (f x)) -> setting_up a b known (t_do r f).
  Proof. intros H. destruct r as [x|e]; [exact (H x eq_refl)|apply su_err]. Qed.
  Ltac harmlessly L := eexists; split; [apply L|split; discriminate].
  Lemma path_answer ct q x ct' : action q "get_shortest_path" -> answers order frank ct q x ct' ->
    (exists e, x = Err e) \/ exists ls, process_path x = Ok ls /\ names_ok ls.
  Proof.
    intros Ha H. destruct H as [js A R F|gg js A R F|js A R F|y A Y|gg n0 i0 t0 n1 i1 t1 id j r A|id r A|y A Y N|e ->];
      try (pose proof (action_unique _ _ _ Ha A); discriminate).
    - right. exact (process_path_names x js R F).
    - pose proof (action_unique _ _ _ Ha A). subst y. destruct Y; discriminate.
    - pose proof (action_unique _ _ _ Ha A). subst y. destruct Y; discriminate.
    - left. exists e. reflexivity.
  Qed.
  Lemma group_answer ct q x ct' : ct_groups ct = ct_groups ct0 -> action q "get_workgroups" -> answers order frank ct q x ct' ->
    (exists e, x = Err e) \/ workgroup_of x group = Ok (JInt g).
  Proof.
    intros Hg Ha H. destruct H as [js A R F|gg js A R F|js A R F|y A Y|gg n0 i0 t0 n1 i1 t1 id j r A|id r A|y A Y N|e ->];
      try (pose proof (action_unique _ _ _ Ha A); discriminate).
    - right. rewrite Hg in F. exact (workgroup_ok _ _ _ _ _ (proj1 Hstart) R F).
    - pose proof (action_unique _ _ _ Ha A). subst y. destruct Y; discriminate.
    - pose proof (action_unique _ _ _ Ha A). subst y. destruct Y; discriminate.
    - left. exists e. reflexivity.
  Qed.

  Lemma provisioning_su k a b : ends pm k a b -> setting_up a b false (provisioning group (target_text a) (target_text b)).
  Proof.
    intros (Ha & Hb). pose proof (port_vlan_of_target _ _ _ _ Ha) as Ta. pose proof (port_vlan_of_target _ _ _ _ Hb) as Tb.
    unfold provisioning. apply su_ask; [harmlessly act_workgroups|]. intros ct x ct' Hg Hx. apply su_do. intros wg Hwg.
    destruct (group_answer _ _ _ _ Hg act_workgroups Hx) as [(e & ->)|E]; [discriminate Hwg|]. rewrite E in Hwg. apply ok_inj in Hwg. subst wg.
    apply su_set. rewrite Ta. destruct a as [[sn si] sv]. cbn [t_do].
    apply su_ask; [harmlessly act_ports|]. clear ct x ct' Hg Hx E. intros ct x ct' Hg Hx. apply su_do. intros _ _.
    apply su_ask; [harmlessly act_vlan|]. clear ct x ct' Hg Hx. intros ct x ct' Hg Hx. apply su_do. intros _ _.
    rewrite Tb. destruct b as [[dn di] dv]. cbn [t_do].
    apply su_ask; [harmlessly act_ports|]. clear ct x ct' Hg Hx. intros ct x ct' Hg Hx. apply su_do. intros _ _.
    apply su_ask; [harmlessly act_vlan|]. clear ct x ct' Hg Hx. intros ct x ct' Hg Hx. apply su_do. intros _ _.
    apply su_ask; [harmlessly act_path|]. clear ct x ct' Hg Hx. intros ct x ct' Hg Hx. apply su_do. intros prim Hp.
    assert (Np : names_ok prim).
    { destruct (path_answer _ _ _ _ (act_path _ _ _) Hx) as [(e & ->)|(ls & E & N)]; [discriminate Hp|]. rewrite E in Hp. apply ok_inj in Hp. subst ls. exact N. }
    apply su_ask; [harmlessly act_path|]. clear ct x ct' Hg Hx Hp. intros ct x ct' Hg Hx. apply su_do. intros back Hp.
    assert (Nb : names_ok back).
    { destruct (path_answer _ _ _ _ (act_path _ _ _) Hx) as [(e & ->)|(ls & E & N)]; [discriminate Hp|]. rewrite E in Hp. apply ok_inj in Hp. subst ls. exact N. }
    apply (su_prov (sn, si, sv) (dn, di, dv) prim back); [exact Np|exact Nb|]. split.
    - intros e. exists e. reflexivity.
    - intros j r id H1 H2 H3. unfold process_result. cbn [Base.bind]. rewrite H1. cbn [Base.bind]. rewrite H2. cbn [Base.bind j_is_one].
      change (1 =? 1) with true. cbn iota. rewrite H3. reflexivity.
  Qed.

  (** ** Circuits of links *)
  Definition one (ct : controller) (k : link) (id : Z) : Prop :=
    exists c, In c (ct_circuits ct) /\ circuit_of pm g k c /\ ci_id c = id /\
      forall c', In c' (ct_circuits ct) -> ci_group c' = g -> joins_same pm k c' -> c' = c.
  Definition none (ct : controller) (k : link) : Prop :=
    forall c, In c (ct_circuits ct) -> ci_group c = g -> ~ joins_same pm k c.
  Lemma of_joins k c : circuit_of pm g k c -> joins_same pm k c.
  Proof. intros (_ & H). exists (ci_a c), (ci_b c). split; [exact H|left; split; reflexivity]. Qed.
  Lemma separate_circuit k k' c : separate pm k k' -> circuit_of pm g k' c -> ~ joins_same pm k c.
  Proof. intros S (_ & H) (a & b & E & X). exact (S a b _ _ E H X). Qed.

  Definition rem_go (go : result json -> talk) : Prop :=
    (forall e, exists e', go (Err e) = TEnd (Err e')) /\
    (forall x r, results x [r] -> has r "success" (JInt 1) -> go x = TEnd (Ok tt)).
  Definition list_go (k : link) (go : result json -> talk) : Prop :=
    exists a b, ends pm k a b /\ exists f, removal (target_text a) (target_text b) = TAsk f go.

  Definition inv_place (ct : controller) (wg : json) (k : link) (p : place) : Prop :=
    match p with
    | IsUp => wg = JInt g /\ exists id, one ct k id
    | LeftOver => exists id, one ct k id
    | GoesUp (CWait q go) =>
        none ct k /\ exists a b, ends pm k a b /\
        ((harmless q /\ exists known : bool, (known = true -> wg = JInt g) /\
            forall ct x ct', ct_groups ct = ct_groups ct0 -> answers order frank ct q x ct' -> setting_up a b known (go x)) \/
         (wg = JInt g /\ exists prim back, names_ok prim /\ names_ok back /\ prov_query a b prim back (JInt g) = Ok q /\ prov_go go))
    | GoesUp (CGo t) =>
        (none ct k /\ exists a b known, ends pm k a b /\ (known = true -> wg = JInt g) /\ setting_up a b known t) \/
        (wg = JInt g /\ (exists id, one ct k id) /\ t = TEnd (Ok tt))
    | GoesDown (CWait q go) =>
        wg = JInt g /\ exists id, one ct k id /\
        ((q = q_circuits (JInt g) /\ list_go k go) \/ (q = q_remove (JInt g) (py_str id) /\ rem_go go))
    | GoesDown (CGo t) =>
        wg = JInt g /\
        (((exists id, one ct k id) /\ exists e, t = TEnd (Err e)) \/
         (exists id go, one ct k id /\ t = TAsk (fun wg => Ok (q_remove wg (py_str id))) go /\ rem_go go) \/
         (none ct k /\ t = TEnd (Ok tt)))
    end.
  Record inv (s : oess) : Prop := {
    i_groups : ct_groups (os_ctl s) = ct_groups ct0;
    i_ids : NoDup (map ci_id (ct_circuits (os_ctl s)));
    i_pos : forall c, In c (ct_circuits (os_ctl s)) -> 0 < ci_id c;
    i_start : forall c, In c (ct_circuits ct0) -> In c (ct_circuits (os_ctl s));
    i_all : forall c, In c (ct_circuits (os_ctl s)) -> In c (ct_circuits ct0) \/ exists k p, In (k, p) (os_links s) /\ circuit_of pm g k c;
    i_may : forall k p, In (k, p) (os_links s) -> may k;
    i_sep : ForallOrdPairs (separate pm) (map fst (os_links s));
    i_place : forall k p, In (k, p) (os_links s) -> inv_place (os_ctl s) (os_wg s) k p }.

  (** ** Finding a circuit *)
  Lemma endpoint_shown j n e0 e1 e k v : has j "endpoints" (JList [e0; e1]) -> nth_error [e0; e1] n = Some e -> has e k v -> endpoint n k j = Ok v.
  Proof. intros H Hn Hv. unfold endpoint. rewrite H. cbn [Base.bind j_at]. rewrite Hn. cbn [Base.bind]. exact Hv. Qed.
  Definition both (a b x y : cend) : bool := eqb (itf a) (itf x) && eqb (itf b) (itf y).
  Lemma matches_shown j x y e0 e1 a b : has j "endpoints" (JList [e0; e1]) -> end_shown x e0 -> end_shown y e1 ->
    circuit_matches j (fst (itf a)) (snd (itf a)) (fst (itf b)) (snd (itf b)) =
    Ok (if eqb (fst (itf x)) (fst (itf a)) then both a b x y else if eqb (fst (itf x)) (fst (itf b)) then both b a x y else false).
  Proof.
    intros H (X1 & X2) (Y1 & Y2).
    assert (R : forall p q : string * string, rest_matches j (fst q) (snd p) (snd q) = Ok (eqb (snd p) (snd (itf x)) && eqb q (itf y))).
    { intros p q. unfold rest_matches. rewrite (endpoint_shown j 1 e0 e1 e1 _ _ H eq_refl Y1). cbn [Base.bind j_is]. fold (itf y).
      destruct q as [q1 q2], (itf y) as [y1 y2] eqn:Ey. cbn [fst snd].
      assert (Y2' : has e1 "interface" (JStr y2)) by (unfold itf in Ey; rewrite Ey in Y2; exact Y2).
      change (eqb (q1, q2) (y1, y2)) with (eqb q1 y1 && eqb q2 y2).
      destruct (eqb_ok y1 q1) as [->|N]; cbn [negb]; [|rewrite (eqb_neq q1 y1) by congruence; rewrite andb_false_r; reflexivity].
      rewrite (endpoint_shown j 0 e0 e1 e0 _ _ H eq_refl X2). cbn [Base.bind j_is]. fold (itf x).
      destruct (eqb_ok (snd (itf x)) (snd p)) as [E|N]; cbn [negb].
      - rewrite E, !eqb_refl. cbn [andb]. rewrite (endpoint_shown j 1 e0 e1 e1 _ _ H eq_refl Y2'). cbn [Base.bind j_is].
        f_equal. destruct (eqb_ok y2 q2) as [->|N]; [rewrite eqb_refl; reflexivity|rewrite eqb_neq by congruence; reflexivity].
      - rewrite (eqb_neq (snd p)) by congruence. reflexivity. }
    unfold circuit_matches. rewrite (endpoint_shown j 0 e0 e1 e0 _ _ H eq_refl X1). cbn [Base.bind j_is]. fold (itf x).
    assert (B : forall p q : cend, fst (itf x) = fst (itf p) -> eqb (snd (itf p)) (snd (itf x)) && eqb (itf q) (itf y) = both p q x y).
    { intros p q E. unfold both. f_equal. destruct (itf p) as [p1 p2], (itf x) as [x1 x2]. cbn [fst snd] in *. subst p1.
      change (eqb (x1, p2) (x1, x2)) with (eqb x1 x1 && eqb p2 x2). rewrite eqb_refl. reflexivity. }
    destruct (eqb_ok (fst (itf x)) (fst (itf a))) as [E|N]; [rewrite R, (B a b E); reflexivity|].
    destruct (eqb_ok (fst (itf x)) (fst (itf b))) as [E|N']; [rewrite R, (B b a E); reflexivity|reflexivity].
  Qed.
  Lemma both_true a b x y : both a b x y = true -> itf a = itf x /\ itf b = itf y.
  Proof.
    unfold both. intros H. apply andb_prop in H. destruct H as (H1 & H2).
    apply (proj1 (eqb_true (itf a) (itf x))) in H1. apply (proj1 (eqb_true (itf b) (itf y))) in H2. split; assumption.
  Qed.
  Lemma both_of a b x y : itf a = itf x -> itf b = itf y -> both a b x y = true.
  Proof. intros H1 H2. unfold both. rewrite H1, H2, !eqb_refl. reflexivity. Qed.
  Lemma matches_spec k a b c j : ends pm k a b -> (order = true \/ two_nodes pm k) -> shown order c j ->
    exists m, circuit_matches j (fst (itf a)) (snd (itf a)) (fst (itf b)) (snd (itf b)) = Ok m /\
      (m = true -> joins_same pm k c) /\ (circuit_of pm g k c -> m = true).
  Proof.
    intros E O (_ & e0 & e1 & H & [(X & Y)|(F & X & Y)]); rewrite (matches_shown _ _ _ _ _ a b H X Y); eexists; (split; [reflexivity|]); split.
    - intros M. exists a, b. split; [exact E|].
      destruct (eqb _ _); [left; apply both_true; exact M|]. destruct (eqb _ _); [right|discriminate]. apply both_true in M. split; apply M.
    - intros (_ & E'). destruct (ends_fun _ _ _ _ _ _ E E') as (-> & ->). rewrite eqb_refl. apply both_of; reflexivity.
    - intros M. exists a, b. split; [exact E|].
      destruct (eqb _ _); [right; apply both_true; exact M|]. destruct (eqb _ _); [left|discriminate]. apply both_true in M. split; apply M.
    - intros (_ & E'). destruct (ends_fun _ _ _ _ _ _ E E') as (-> & ->).
      destruct O as [O|O]; [congruence|]. rewrite (eqb_neq (fst (itf (ci_b c)))) by (intros N; exact (O _ _ E (eq_sym N))).
      rewrite eqb_refl. apply both_of; reflexivity.
  Qed.
  Lemma find_it k a b c cs js : ends pm k a b -> (order = true \/ two_nodes pm k) -> Forall2 (shown order) cs js ->
    In c cs -> circuit_of pm g k c -> (forall c', In c' cs -> joins_same pm k c' -> c' = c) ->
    find_circuit js (fst (itf a)) (snd (itf a)) (fst (itf b)) (snd (itf b)) = Ok (JInt (ci_id c)).
  Proof.
    intros E O F Hc Hk U. induction F as [|c1 j cs js S F IH]; [contradiction|]. cbn [find_circuit].
    destruct (matches_spec k a b c1 j E O S) as (m & -> & M1 & M2). cbn [Base.bind]. destruct m.
    - rewrite (U c1 (or_introl eq_refl) (M1 eq_refl)) in S. exact (proj1 S).
    - destruct Hc as [->|Hc]; [discriminate (M2 Hk)|]. apply IH; [exact Hc|]. intros c' Hc'. apply U. right. exact Hc'.
  Qed.
  Lemma list_answer ct k id go x ct' : may k -> one ct k id -> 0 < id -> list_go k go -> answers order frank ct (q_circuits (JInt g)) x ct' ->
    (exists e, go x = TEnd (Err e)) \/ exists go', go x = TAsk (fun wg => Ok (q_remove wg (py_str id))) go' /\ rem_go go'.
  Proof.
    intros Hk (c & Hc & Ho & Hid & U) Hpos (a & b & E & f & Hf) H.
    assert (Hgo : go = (fun x => t_do (get_circuit_id x (target_text a) (target_text b)) (fun cid =>
      if negb (jtrue cid) then TEnd (Ok tt) else TAsk (fun wg => Ok (q_remove wg (j_text cid))) (fun a =>
      t_do (do! j <- a; do! r <- jget "results" j; do! x <- j_at 0 r; jget "success" x) (fun _ => TEnd (Ok tt)))))).
    { unfold removal in Hf. inversion Hf. reflexivity. }
    pose proof (port_vlan_of_target _ _ _ _ (proj1 E)) as Ta. pose proof (port_vlan_of_target _ _ _ _ (proj2 E)) as Tb.
    assert (A0 : action (q_circuits (JInt g)) "get_existing_circuits") by (unfold action, values; rewrite fields_circuits; eexists; reflexivity).
    assert (Err_case : forall e, exists e', go (Err e) = TEnd (Err e')).
    { intros e. rewrite Hgo. unfold get_circuit_id. rewrite Ta, Tb. destruct a as [[? ?] ?], b as [[? ?] ?]. exists e. reflexivity. }
    destruct H as [js A R F|gg js A V R F|js A R F|y A Y|gg n0 i0 t0 n1 i1 t1 idd j r A|idd r A|y A Y N|e ->];
      try (pose proof (action_unique _ _ _ A0 A); discriminate).
    - right. assert (gg = g). { unfold values in V. rewrite fields_circuits in V. cbn in V. injection V as V. apply py_str_inj. symmetry. exact V. } subst gg.
      assert (Find : get_circuit_id x (target_text a) (target_text b) = Ok (JInt id)).
      { unfold get_circuit_id. rewrite Ta, Tb. destruct R as (j & -> & R).
        assert (G : find_circuit js (fst (itf a)) (snd (itf a)) (fst (itf b)) (snd (itf b)) = Ok (JInt id)).
        { rewrite <- Hid. apply (find_it k a b c (filter (fun c => ci_group c =? g) (ct_circuits ct)) js E (proj2 (Hmay k Hk)) F).
          - apply filter_In. split; [exact Hc|]. rewrite (proj1 Ho). lia.
          - exact Ho.
          - intros c' Hc' J. apply filter_In in Hc'. apply U; [apply Hc'| |exact J]. destruct Hc' as (_ & Hc'). lia. }
        destruct a as [[? ?] ?], b as [[? ?] ?]. cbn [Base.bind]. rewrite R. cbn [Base.bind j_items]. exact G. }
      rewrite Hgo. cbv beta. rewrite Find. cbn [t_do jtrue]. assert (Z : (id =? 0) = false) by lia. rewrite Z. cbn [negb j_text].
      eexists. split; [reflexivity|]. split; [intros e; exists e; reflexivity|].
      intros x' r (j & -> & Hj) Hs. cbn [Base.bind]. rewrite Hj. cbn [Base.bind j_at nth_error]. rewrite Hs. reflexivity.
    - pose proof (action_unique _ _ _ A0 A). subst y. destruct Y; discriminate.
    - pose proof (action_unique _ _ _ A0 A). subst y. destruct Y; discriminate.
    - left. exact (Err_case e).
  Qed.

  (** ** Frames *)
  Definition frame (ct ct' : controller) (k : link) : Prop := (forall id, one ct k id -> one ct' k id) /\ (none ct k -> none ct' k).
  Lemma inv_frame ct ct' wg wg' k p : frame ct ct' k -> (wg = JInt g -> wg' = JInt g) -> inv_place ct wg k p -> inv_place ct' wg' k p.
  Proof.
    intros (F1 & F2) W. destruct p as [|[q go|t]|[q go|t]|]; cbn [inv_place].
    - intros (H1 & id & H2). split; [exact (W H1)|exists id; exact (F1 id H2)].
    - intros (N & a & b & E & [(Hq & known & Hw & Hs)|(Hw & R)]); (split; [exact (F2 N)|]); exists a, b; (split; [exact E|]).
      + left. split; [exact Hq|]. exists known. split; [intros K; exact (W (Hw K))|exact Hs].
      + right. split; [exact (W Hw)|exact R].
    - intros [(N & a & b & known & E & Hw & S)|(Hw & (id & O) & T)].
      + left. split; [exact (F2 N)|]. exists a, b, known. split; [exact E|]. split; [intros K; exact (W (Hw K))|exact S].
      + right. split; [exact (W Hw)|]. split; [exists id; exact (F1 id O)|exact T].
    - intros (Hw & id & O & R). split; [exact (W Hw)|]. exists id. split; [exact (F1 id O)|exact R].
    - intros (Hw & [((id & O) & R)|[(id & go & O & R)|(N & R)]]); (split; [exact (W Hw)|]).
      + left. split; [exists id; exact (F1 id O)|exact R].
      + right. left. exists id, go. split; [exact (F1 id O)|exact R].
      + right. right. split; [exact (F2 N)|exact R].
    - intros (id & O). exists id. exact (F1 id O).
  Qed.
  Lemma frame_refl ct k : frame ct ct k.
  Proof. split; auto. Qed.
  Lemma frame_add ct k k2 c : separate pm k k2 -> circuit_of pm g k2 c -> frame ct (mkCtl (ct_groups ct) (ct_circuits ct ++ [c])) k.
  Proof.
    intros S H. pose proof (separate_circuit k k2 c S H) as NJ. split.
    - intros id (c1 & H1 & H2 & H3 & U). exists c1. cbn [ct_circuits]. split; [apply in_or_app; left; exact H1|]. split; [exact H2|]. split; [exact H3|].
      intros c' Hc' G J. apply in_app_or in Hc'. destruct Hc' as [Hc'|[<-|[]]]; [exact (U c' Hc' G J)|contradiction].
    - intros N c' Hc' G J. cbn [ct_circuits] in Hc'. apply in_app_or in Hc'. destruct Hc' as [Hc'|[<-|[]]]; [exact (N c' Hc' G J)|contradiction].
  Qed.
  Lemma same_id ct c c' : NoDup (map ci_id (ct_circuits ct)) -> In c (ct_circuits ct) -> In c' (ct_circuits ct) -> ci_id c = ci_id c' -> c = c'.
  Proof.
    intros N H H' E. revert N H H'. generalize (ct_circuits ct). induction l as [|x l IH]; [contradiction|].
    cbn [map]. intros N. apply NoDup_cons_iff in N. destruct N as (N1 & N2).
    intros [->|H] [->|H']; [reflexivity| | |exact (IH N2 H H')]; exfalso; apply N1.
    - rewrite E. apply in_map. exact H'.
    - rewrite <- E. apply in_map. exact H.
  Qed.
  Lemma frame_remove ct k k2 id : separate pm k k2 -> NoDup (map ci_id (ct_circuits ct)) -> one ct k2 id ->
    frame ct (mkCtl (ct_groups ct) (filter (fun c => negb (ci_id c =? id)) (ct_circuits ct))) k.
  Proof.
    intros S ND (c2 & I2 & O2 & E2 & _). pose proof (separate_circuit k k2 c2 S O2) as NJ. split.
    - intros id' (c1 & H1 & H2 & H3 & U). exists c1. cbn [ct_circuits]. split; [|split; [exact H2|split; [exact H3|]]].
      + apply filter_In. split; [exact H1|]. destruct (ci_id c1 =? id) eqn:E; [|reflexivity]. exfalso. apply NJ.
        rewrite (same_id ct c2 c1 ND I2 H1) by lia. exact (of_joins k c1 H2).
      + intros c' Hc'. apply filter_In in Hc'. apply U. apply Hc'.
    - intros N c' Hc'. cbn [ct_circuits] in Hc'. apply filter_In in Hc'. apply N. apply Hc'.
  Qed.

  (** ** One link changes *)
  Lemma fop_mid {A} (R : A -> A -> Prop) (Rs : forall x y, R x y -> R y x) l1 x l2 : ForallOrdPairs R (l1 ++ x :: l2) ->
    ForallOrdPairs R (l1 ++ l2) /\ forall y, In y (l1 ++ l2) -> R y x.
  Proof.
    induction l1 as [|z l1 IH]; cbn [app]; intros H; inversion H as [|? ? F O]; subst.
    - split; [exact O|]. intros y Hy. apply Rs. rewrite Forall_forall in F. exact (F y Hy).
    - destruct (IH O) as (O' & F'). rewrite Forall_forall in F. split.
      + constructor; [|exact O']. rewrite Forall_forall. intros y Hy. apply F. apply in_app_or in Hy. apply in_or_app. destruct Hy; [left|right; right]; assumption.
      + intros y [<-|Hy]; [apply F; apply in_or_app; right; left; reflexivity|exact (F' y Hy)].
  Qed.
  Lemma in_mid {A} (x y : A) l1 l2 : In y (l1 ++ x :: l2) <-> y = x \/ In y (l1 ++ l2).
  Proof. rewrite !in_app_iff. cbn [In]. split; intros H; [destruct H as [H|[H|H]]|destruct H as [H|[H|H]]]; auto. Qed.
  Lemma upd ct wg l1 k p l2 ct' wg' p' : inv (mkOess ct wg (l1 ++ (k, p) :: l2)) ->
    ct_groups ct' = ct_groups ct -> NoDup (map ci_id (ct_circuits ct')) -> (forall c, In c (ct_circuits ct') -> 0 < ci_id c) ->
    (forall c, In c (ct_circuits ct0) -> In c (ct_circuits ct')) ->
    (forall c, In c (ct_circuits ct') -> In c (ct_circuits ct) \/ circuit_of pm g k c) ->
    (forall k', separate pm k' k -> frame ct ct' k') -> (wg = JInt g -> wg' = JInt g) -> inv_place ct' wg' k p' ->
    inv (mkOess ct' wg' (l1 ++ (k, p') :: l2)).
  Proof.
    intros [Ig Ii Ip Is Ia Im Io Ipl] Hg Hn Hp Hs Ha Hf Hw Hpl. cbn [os_ctl os_wg os_links] in *.
    rewrite map_app in Io. cbn [map fst] in Io. destruct (fop_mid _ (separate_sym pm) _ _ _ Io) as (_ & Sep).
    constructor; cbn [os_ctl os_wg os_links].
    - congruence.
    - exact Hn.
    - exact Hp.
    - exact Hs.
    - intros c Hc. destruct (Ha c Hc) as [H|H].
      + destruct (Ia c H) as [H'|(k1 & p1 & H1 & H2)]; [left; exact H'|right]. apply in_mid in H1. destruct H1 as [H1|H1].
        * injection H1 as -> _. exists k, p'. split; [apply in_mid; left; reflexivity|exact H2].
        * exists k1, p1. split; [apply in_mid; right; exact H1|exact H2].
      + right. exists k, p'. split; [apply in_mid; left; reflexivity|exact H].
    - intros k1 p1 H1. apply in_mid in H1. destruct H1 as [H1|H1].
      + injection H1 as -> _. apply (Im k p). apply in_mid. left. reflexivity.
      + apply (Im k1 p1). apply in_mid. right. exact H1.
    - rewrite map_app. exact Io.
    - intros k1 p1 H1. apply in_mid in H1. destruct H1 as [H1|H1].
      + injection H1 as -> ->. exact Hpl.
      + apply (inv_frame ct ct' wg wg'); [|exact Hw|apply Ipl; apply in_mid; right; exact H1].
        apply Hf. apply Sep. rewrite <- map_app. apply (in_map fst) in H1. exact H1.
  Qed.
  Lemma upd_same ct wg l1 k p l2 wg' p' : inv (mkOess ct wg (l1 ++ (k, p) :: l2)) ->
    (wg = JInt g -> wg' = JInt g) -> inv_place ct wg' k p' -> inv (mkOess ct wg' (l1 ++ (k, p') :: l2)).
  Proof.
    intros H. destruct H as [Ig Ii Ip Is Ia Im Io Ipl] eqn:E. cbn [os_ctl os_wg os_links] in *. intros Hw Hp.
    apply (upd ct wg l1 k p l2 ct wg' p' H); auto. intros k' _. apply frame_refl.
  Qed.
  Lemma drop ct wg l1 k p l2 wg' : inv (mkOess ct wg (l1 ++ (k, p) :: l2)) -> (wg = JInt g -> wg' = JInt g) -> none ct k -> inv (mkOess ct wg' (l1 ++ l2)).
  Proof.
    intros [Ig Ii Ip Is Ia Im Io Ipl] Hw N. cbn [os_ctl os_wg os_links] in *. rewrite map_app in Io. cbn [map fst] in Io.
    destruct (fop_mid _ (separate_sym pm) _ _ _ Io) as (Io' & _). constructor; cbn [os_ctl os_wg os_links]; auto.
    - intros c Hc. destruct (Ia c Hc) as [H|(k1 & p1 & H1 & H2)]; [left; exact H|]. apply in_mid in H1. destruct H1 as [H1|H1].
      + injection H1 as -> _. exfalso. exact (N c Hc (proj1 H2) (of_joins k c H2)).
      + right. exists k1, p1. split; assumption.
    - intros k1 p1 H1. apply (Im k1 p1). apply in_mid. right. exact H1.
    - rewrite map_app. exact Io'.
    - intros k1 p1 H1. apply (inv_frame ct ct wg wg'); [apply frame_refl|exact Hw|]. apply Ipl. apply in_mid. right. exact H1.
  Qed.
End Inv.
