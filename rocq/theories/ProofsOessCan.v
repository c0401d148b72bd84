(** Proofs for C83: what is asked before a circuit is, and that links can be set up. *)
From Verif Require Import Base BaseProofs ModelLabel ModelRest ModelDrivers SpecDrivers ModelOess SpecOess ProofsDrivers ProofsOess ProofsOessInv ProofsOessStep.
Open Scope Z_scope.

(** ** Checks before provisioning *)
Section Safe.
  Context (Good : list (string * result json) -> Prop).
  Inductive safe : list (string * result json) -> talk -> Prop :=
  | sa_end p r : safe p (TEnd r)
  | sa_set p wg t : safe p t -> safe p (TSet wg t)
  | sa_ask p f go : (forall wg q, f wg = Ok q -> action q "provision_circuit" -> Good p) ->
      (forall wg q a, f wg = Ok q -> safe (p ++ [(q, a)]) (go a)) -> safe p (TAsk f go).
  Lemma safe_settle p t : safe p t -> forall wg wg' q go, settle wg t = (wg', Waiting q go) ->
    (action q "provision_circuit" -> Good p) /\ forall a, safe (p ++ [(q, a)]) (go a).
  Proof.
    intros S. induction S as [p r|p w t S IH|p f go H1 H2 IH]; intros wg wg' q go' H; cbn [settle] in H; [discriminate|exact (IH _ _ _ _ H)|].
    destruct (f wg) as [q0|] eqn:E; [|discriminate]. injection H as _ <- <-. split; [intros A; exact (H1 wg q0 E A)|intros a; exact (H2 wg q0 a E)].
  Qed.
  Lemma safe_heard t l t' : heard t l t' -> forall p, safe p t -> forall l0 q a, l = l0 ++ [(q, a)] -> action q "provision_circuit" -> Good (p ++ l0).
  Proof.
    intros H. induction H as [t|t wg wg' q0 go a0 l t' Hs Hh IH]; intros p S l0 q a E A; [destruct l0; discriminate|].
    destruct (safe_settle p t S _ _ _ _ Hs) as (G & N). destruct l0 as [|x l0]; cbn [app] in E; injection E as Ex El.
    - subst. rewrite app_nil_r. exact (G A).
    - subst x. pose proof (IH (p ++ [(q0, a0)]) (N a0) l0 q a El A) as X. rewrite <- app_assoc in X. exact X.
  Qed.
  Lemma safe_do {A} p (r : result A) f : (forall x, r = Ok x -> safe p (f x)) -> safe p (t_do r f).
  Proof. intros H. destruct r as [x|e]; [exact (H x eq_refl)|apply sa_end]. Qed.
  Lemma safe_ask p q go : ~ action q "provision_circuit" -> (forall a, safe (p ++ [(q, a)]) (go a)) -> safe p (t_ask q go).
  Proof. intros N H. unfold t_ask. constructor; intros wg q0; [intros E A|intros a E]; apply ok_inj in E; subst q0; [contradiction|apply H]. Qed.
End Safe.

Lemma not_prov q x : action q x -> x <> "provision_circuit" -> ~ action q "provision_circuit".
Proof. intros H N H'. apply N. exact (action_unique _ _ _ H H'). Qed.

Lemma fields_ports n : shas "&" n = false ->
  fields (q_ports n) = [("action", "get_node_interfaces"); ("node", n); ("show_down", "1"); ("show_trunk", "1")].
Proof.
  intros H. rewrite <- (fields_amp "services/data.cgi" "action" "get_node_interfaces" [("node", n); ("show_down", "1"); ("show_trunk", "1")]).
  - reflexivity.
  - reflexivity.
  - repeat split.
  - intros kv [<-|[<-|[<-|[]]]]; split; try reflexivity; split; try reflexivity; exact H.
Qed.
Lemma fields_vlan n i v : shas "&" n = false -> shas "&" i = false -> shas "&" v = false ->
  fields (q_vlan n i v) = [("action", "is_vlan_tag_available"); ("node", n); ("interface", i); ("vlan", v)].
Proof.
  intros H1 H2 H3. rewrite <- (fields_amp "services/data.cgi" "action" "is_vlan_tag_available" [("node", n); ("interface", i); ("vlan", v)]).
  - cbn [amp fold_right fst snd]. rewrite append_nil_r. reflexivity.
  - reflexivity.
  - repeat split.
  - intros kv [<-|[<-|[<-|[]]]]; split; try reflexivity; split; try reflexivity; assumption.
Qed.

Lemma validate_lists a i : validate_ports a i = Ok tt -> lists_name a i.
Proof.
  unfold validate_ports. destruct a as [j|]; [|discriminate]. cbn [Base.bind]. destruct (jget "results" j) as [r|] eqn:Er; [|discriminate]. cbn [Base.bind].
  destruct (j_items r) as [l|] eqn:El; [|discriminate]. cbn [Base.bind]. destruct (named i l) as [[x|]|] eqn:Ex; try discriminate. intros _.
  destruct (named_has _ _ _ Ex) as (H1 & H2). exists j, r, l, x. repeat (split; [solve [reflexivity|assumption]|]). exact H2.
Qed.
Lemma confirm_tells a : confirm_vlan a = Ok tt -> tells a zero_or_one.
Proof.
  unfold confirm_vlan. destruct a as [j|]; [|discriminate]. cbn [Base.bind]. destruct (jget "results" j) as [r|] eqn:Er; [|discriminate]. cbn [Base.bind].
  destruct (j_at 0 r) as [x|] eqn:Ex; [|discriminate]. cbn [Base.bind]. destruct (jget "available" x) as [y|] eqn:Ey; [|discriminate]. cbn [Base.bind]. intros H.
  exists j, r, x, y. repeat (split; [solve [reflexivity|assumption]|]). destruct y as [|b|z|t zz|q|l|l]; cbn [zero_or_one j_is_one j_is_zero] in *; try discriminate H.
  - reflexivity.
  - destruct (z =? 1); [apply orb_true_r|]. destruct (z =? 0); [reflexivity|discriminate H].
  - destruct zz; [reflexivity|discriminate H].
Qed.
Lemma looked_more e v l l' : looked_at e v l -> looked_at e v (l ++ l').
Proof.
  intros ((q & a & H & R) & (q' & a' & H' & R')). split; [exists q, a|exists q', a']; (split; [apply in_or_app; left; assumption|assumption]).
Qed.
Lemma looked pm port lb e l x y : end_on pm port lb e -> validate_ports x (snd (fst e)) = Ok tt -> confirm_vlan y = Ok tt ->
  In (q_ports (fst (fst e)), x) l -> In (q_vlan (fst (fst e)) (snd (fst e)) (snd e), y) l -> looked_at e zero_or_one l.
Proof.
  intros He Hx Hy Ix Iy. destruct (end_plain _ _ _ _ He) as ((A1 & _) & (A2 & _) & A3 & _). split.
  - exists (q_ports (fst (fst e))), x. split; [exact Ix|]. split; [apply act_ports|]. split; [|exact (validate_lists _ _ Hx)].
    unfold values. rewrite fields_ports by exact A1. reflexivity.
  - exists (q_vlan (fst (fst e)) (snd (fst e)) (snd e)), y. split; [exact Iy|]. split; [apply act_vlan|].
    unfold values. rewrite fields_vlan by assumption. repeat (split; [reflexivity|]). exact (confirm_tells _ Hy).
Qed.

Definition good (group : string) (a b : cend) (l : list (string * result json)) : Prop :=
  (exists x, In (q_workgroups, x) l /\ exists wg, workgroup_of x group = Ok wg) /\ looked_at a zero_or_one l /\ looked_at b zero_or_one l /\
  forall q x, In (q, x) l -> harmless q.

Lemma harmless_of q x : action q x -> x <> "provision_circuit" -> x <> "remove_circuit" -> harmless q.
Proof. intros H1 H2 H3. exists x. repeat split; assumption. Qed.

Lemma safe_provisioning pm group k a b : ends pm k a b -> safe (good group a b) [] (provisioning group (target_text a) (target_text b)).
Proof.
  intros (Ha & Hb). pose proof (port_vlan_of_target _ _ _ _ Ha) as Ta. pose proof (port_vlan_of_target _ _ _ _ Hb) as Tb.
  unfold provisioning.
  apply safe_ask; [apply (not_prov _ _ act_workgroups); discriminate|]. intros x0. apply safe_do. intros wg Hwg. apply sa_set.
  rewrite Ta. cbn [t_do]. destruct a as [[sn si] sv].
  apply safe_ask; [apply (not_prov _ _ (act_ports sn)); discriminate|]. intros x1. apply safe_do. intros [] H1.
  apply safe_ask; [apply (not_prov _ _ (act_vlan sn si sv)); discriminate|]. intros x2. apply safe_do. intros [] H2.
  rewrite Tb. cbn [t_do]. destruct b as [[dn di] dv].
  apply safe_ask; [apply (not_prov _ _ (act_ports dn)); discriminate|]. intros x3. apply safe_do. intros [] H3.
  apply safe_ask; [apply (not_prov _ _ (act_vlan dn di dv)); discriminate|]. intros x4. apply safe_do. intros [] H4.
  apply safe_ask; [apply (not_prov _ _ (act_path sn dn [])); discriminate|]. intros x5. apply safe_do. intros prim H5.
  apply safe_ask; [apply (not_prov _ _ (act_path sn dn prim)); discriminate|]. intros x6. apply safe_do. intros back H6.
  cbn [app]. constructor.
  - intros w q _ _. split; [|split; [|split]].
    + exists x0. split; [left; reflexivity|exists wg; exact Hwg].
    + apply (looked _ _ _ (sn, si, sv) _ x1 x2 Ha H1 H2); cbn [fst snd]; [right; left; reflexivity|right; right; left; reflexivity].
    + apply (looked _ _ _ (dn, di, dv) _ x3 x4 Hb H3 H4); cbn [fst snd]; [do 3 right; left; reflexivity|do 4 right; left; reflexivity].
    + intros q0 x [E|[E|[E|[E|[E|[E|[E|[]]]]]]]]; injection E as <- _;
        [exact (harmless_of _ _ act_workgroups ltac:(discriminate) ltac:(discriminate))|exact (harmless_of _ _ (act_ports sn) ltac:(discriminate) ltac:(discriminate))
        |exact (harmless_of _ _ (act_vlan sn si sv) ltac:(discriminate) ltac:(discriminate))|exact (harmless_of _ _ (act_ports dn) ltac:(discriminate) ltac:(discriminate))
        |exact (harmless_of _ _ (act_vlan dn di dv) ltac:(discriminate) ltac:(discriminate))|exact (harmless_of _ _ (act_path sn dn []) ltac:(discriminate) ltac:(discriminate))
        |exact (harmless_of _ _ (act_path sn dn prim) ltac:(discriminate) ltac:(discriminate))].
  - intros w q x _. apply safe_do. intros ? _. apply sa_end.
Qed.

(** ** Setting up *)
Definition a_groups (ct : controller) : json :=
  JObj [("results", JList (map (fun g => JObj [("name", JStr (fst g)); ("workgroup_id", JInt (snd g))]) (ct_groups ct)))].
Definition a_ports (i : string) : json := JObj [("results", JList [JObj [("name", JStr i)]])].
Definition a_vlan (z : Z) : json := JObj [("results", JList [JObj [("available", JInt z)]])].
Definition a_path : json := JObj [("results", JList [])].
Definition a_made (id : Z) : json := JObj [("results", JObj [("success", JInt 1); ("circuit_id", JInt id)])].
Definition a_not_made : json := JObj [("results", JObj [("success", JInt 0)])].
Definition a_end (e : cend) : json := JObj [("node", JStr (fst (fst e))); ("interface", JStr (snd (fst e)))].
Definition a_circuit (c : circuit) : json := JObj [("circuit_id", JInt (ci_id c)); ("endpoints", JList [a_end (ci_a c); a_end (ci_b c)])].
Definition a_flipped (c : circuit) : json := JObj [("circuit_id", JInt (ci_id c)); ("endpoints", JList [a_end (ci_b c); a_end (ci_a c)])].
Definition a_removed (z : Z) : json := JObj [("results", JList [JObj [("success", JInt z)]])].

Section Can.
  Context (order : bool) (no : result json -> Prop) (pm : list (string * string)) (group : string) (may : link -> Prop) (apart_from : link -> link -> Prop) (ct0 : controller).
  Notation oreach := (oreach order no pm group may apart_from ct0).

  (** A question answered without a change, and the conversation going on to the next. *)
  Lemma go_on ct wg k q go t ls x wg' q' go' : oreach (mkOess ct wg ((k, GoesUp (CWait q go)) :: ls)) ->
    answers order no ct q x ct -> go x = t -> settle wg t = (wg', Waiting q' go') ->
    oreach (mkOess ct wg' ((k, GoesUp (CWait q' go')) :: ls)).
  Proof.
    intros H A E S. subst t. pose proof (or_step _ _ _ _ _ _ _ _ _ H (os_answer order no pm group may apart_from ct ct wg [] k q go ls x true A)) as H1.
    exact (or_step _ _ _ _ _ _ _ _ _ H1 (os_more order no pm group may apart_from ct wg [] k (go x) ls true wg' q' go' S)).
  Qed.

  (** Until the circuit is asked for. *)
  Lemma can_ask ct wg ls k a b g z : oreach (mkOess ct wg ls) -> may k -> (forall k' x, In (k', x) ls -> apart_from k k') -> ends pm k a b ->
    aget group (ct_groups ct) = Some g -> z = 0 \/ z = 1 ->
    exists q go, prov_query a b [] [] (JInt g) = Ok q /\ (forall j, go j = t_do (process_result j) (fun _ => TEnd (Ok tt))) /\
      oreach (mkOess ct (JInt g) ((k, GoesUp (CWait q go)) :: ls)).
  Proof.
    intros R Hk Hs E Hg Hz. pose proof E as (Ha & Hb). pose proof (port_vlan_of_target _ _ _ _ Ha) as Ta. pose proof (port_vlan_of_target _ _ _ _ Hb) as Tb.
    assert (T : oe_setup pm group (k_sp k) (k_sl k) (k_dp k) (k_dl k) = Ok (provisioning group (target_text a) (target_text b))).
    { unfold oe_setup. rewrite (oe_target_end _ _ _ _ Ha), (oe_target_end _ _ _ _ Hb). reflexivity. }
    pose proof (or_step _ _ _ _ _ _ _ _ _ R (os_up order no pm group may apart_from ct wg ls k _ _ _ Hk Hs T eq_refl)) as H. clear R T.
    cbn [conv_of] in H. clear Hs. destruct a as [[sn si] sv], b as [[dn di] dv].
    assert (F : Forall2 (fun p j => has j "name" (JStr (fst p)) /\ has j "workgroup_id" (JInt (snd p))) (ct_groups ct)
                  (map (fun g => JObj [("name", JStr (fst g)); ("workgroup_id", JInt (snd g))]) (ct_groups ct))).
    { generalize (ct_groups ct). intros l. induction l as [|p l IH]; cbn [map]; constructor; [split; reflexivity|exact IH]. }
    assert (Rs : results (Ok (a_groups ct)) (map (fun g => JObj [("name", JStr (fst g)); ("workgroup_id", JInt (snd g))]) (ct_groups ct))) by (eexists; split; reflexivity).
    assert (Cz : confirm_vlan (Ok (a_vlan z)) = Ok tt) by (destruct Hz; subst z; reflexivity).
    assert (Cp : forall i, validate_ports (Ok (a_ports i)) i = Ok tt).
    { intros i. unfold validate_ports, a_ports. cbn [Base.bind]. change (jget "results" (JObj [("results", JList [JObj [("name", JStr i)]])])) with (@Ok json (JList [JObj [("name", JStr i)]])).
      cbn [Base.bind j_items named]. change (jget "name" (JObj [("name", JStr i)])) with (@Ok json (JStr i)). cbn [Base.bind j_is]. rewrite eqb_refl. reflexivity. }
    assert (Pp : process_path (Ok a_path) = Ok []) by reflexivity.
    eapply go_on in H; [|apply (ans_groups order no ct q_workgroups _ _ act_workgroups Rs F)|cbv beta; rewrite (workgroup_ok _ _ _ _ _ Hg Rs F); cbn [t_do]; rewrite Ta; cbn [t_do]; reflexivity|].
    2:{ cbn [settle t_ask]. reflexivity. }
    eapply go_on in H; [|apply (ans_look order no ct _ _ _ (act_ports sn)); left; reflexivity|cbv beta; rewrite (Cp si); cbn [t_do]; reflexivity|cbn [settle t_ask]; reflexivity].
    eapply go_on in H; [|apply (ans_look order no ct _ _ _ (act_vlan sn si sv)); right; reflexivity|cbv beta; rewrite Cz; cbn [t_do]; rewrite Tb; cbn [t_do]; reflexivity|].
    2:{ cbn [settle t_ask]. reflexivity. }
    eapply go_on in H; [|apply (ans_look order no ct _ _ _ (act_ports dn)); left; reflexivity|cbv beta; rewrite (Cp di); cbn [t_do]; reflexivity|cbn [settle t_ask]; reflexivity].
    eapply go_on in H; [|apply (ans_look order no ct _ _ _ (act_vlan dn di dv)); right; reflexivity|cbv beta; rewrite Cz; cbn [t_do]; reflexivity|cbn [settle t_ask]; reflexivity].
    assert (Rp : results (Ok a_path) []) by (eexists; split; reflexivity).
    eapply go_on in H; [|apply (ans_path order no ct _ _ [] (act_path sn dn []) Rp); intros ? []|cbv beta; rewrite Pp; cbn [t_do]; reflexivity|cbn [settle t_ask]; reflexivity].
    destruct (q_provision_ok (JInt g) sn si sv dn di dv [] [] (fun _ F => match F with end) (fun _ F => match F with end)) as (q & Hq).
    eapply go_on in H; [|apply (ans_path order no ct _ _ [] (act_path sn dn []) Rp); intros ? []|cbv beta; rewrite Pp; cbn [t_do]; reflexivity|cbn [settle t_ask]; rewrite Hq; reflexivity].
    eexists q, _. split; [exact Hq|]. split; [|exact H]. intros j. reflexivity.
  Qed.

  Lemma can_up ct wg ls k a b g id : oreach (mkOess ct wg ls) -> may k -> (forall k' x, In (k', x) ls -> apart_from k k') -> ends pm k a b ->
    aget group (ct_groups ct) = Some g -> 0 < id -> ~ In id (map ci_id (ct_circuits ct)) ->
    oreach (mkOess (mkCtl (ct_groups ct) (ct_circuits ct ++ [mkCircuit id g a b])) (JInt g) ((k, IsUp) :: ls)).
  Proof.
    intros R Hk Hs E Hg Hid Hfr. destruct (can_ask ct wg ls k a b g 1 R Hk Hs E Hg (or_intror eq_refl)) as (q & go & Hq & Hgo & H).
    destruct (prov_values pm g k a b [] [] q E (fun _ F => match F with end) (fun _ F => match F with end) Hq) as (A0 & V1 & V2 & V3 & V4).
    assert (A : answers order no ct q (Ok (a_made id)) (mkCtl (ct_groups ct) (ct_circuits ct ++ [mkCircuit id g a b]))).
    { destruct a as [[sn si] sv], b as [[dn di] dv]. cbn [fst snd] in *. eapply ans_provision; try eassumption; try reflexivity.
      apply in_map_iff. exists (group, g). split; [reflexivity|]. revert Hg. generalize (ct_groups ct). induction l as [|[x y] l IH]; cbn [aget]; [discriminate|].
      destruct (eqb group x) eqn:Ex; [|intros Hg; right; exact (IH Hg)].
      apply (proj1 (eqb_true group x)) in Ex. subst x. intros Hg. injection Hg as ->. left. reflexivity. }
    pose proof (or_step _ _ _ _ _ _ _ _ _ H (os_answer order no pm group may apart_from ct _ (JInt g) [] k q go ls _ true A)) as H1.
    rewrite Hgo in H1. cbn [app] in H1.
    eapply or_step; [exact H1|]. apply (os_is_up order no pm group may apart_from _ (JInt g) [] k _ ls (JInt g)). reflexivity.
  Qed.

  (** Tearing down: the list of circuits, and what is found in it. *)
  Lemma down_list ct ls k a b g js : oreach (mkOess ct (JInt g) ((k, IsUp) :: ls)) -> ends pm k a b ->
    Forall2 (shown order) (filter (fun c => ci_group c =? g) (ct_circuits ct)) js ->
    oreach (mkOess ct (JInt g) ((k, GoesDown (CGo (t_do (find_circuit js (fst (itf a)) (snd (itf a)) (fst (itf b)) (snd (itf b))) (fun cid =>
      if negb (jtrue cid) then TEnd (Ok tt) else TAsk (fun wg => Ok (q_remove wg (j_text cid))) (fun x =>
        t_do (do! j <- x; do! r <- jget "results" j; do! y <- j_at 0 r; jget "success" y) (fun _ => TEnd (Ok tt))))))) :: ls)).
  Proof.
    intros R E F. pose proof E as (Ha & Hb). pose proof (port_vlan_of_target _ _ _ _ Ha) as Ta. pose proof (port_vlan_of_target _ _ _ _ Hb) as Tb.
    assert (T : oe_teardown pm (k_sp k) (k_sl k) (k_dp k) (k_dl k) = Ok (removal (target_text a) (target_text b))).
    { unfold oe_teardown. rewrite (oe_target_end _ _ _ _ Ha), (oe_target_end _ _ _ _ Hb). reflexivity. }
    pose proof (or_step _ _ _ _ _ _ _ _ _ R (os_down order no pm group may apart_from ct (JInt g) [] k ls _ _ _ T eq_refl)) as H. cbn [conv_of app] in H.
    assert (A : answers order no ct (q_circuits (JInt g)) (Ok (JObj [("results", JList js)])) ct).
    { apply (ans_circuits _ _ _ _ _ g js); [|unfold values; rewrite fields_circuits; reflexivity|eexists; split; reflexivity|exact F].
      unfold action, values. rewrite fields_circuits. eexists. reflexivity. }
    pose proof (or_step _ _ _ _ _ _ _ _ _ H (os_answer order no pm group may apart_from ct ct (JInt g) [] k _ _ ls _ false A)) as H1. cbn [app] in H1. clear H.
    unfold get_circuit_id in H1. rewrite Ta, Tb in H1. cbn [Base.bind] in H1. destruct a as [[sn si] sv], b as [[dn di] dv]. exact H1.
  Qed.
  Lemma down_ask ct ls k a b g js id : oreach (mkOess ct (JInt g) ((k, IsUp) :: ls)) -> ends pm k a b ->
    Forall2 (shown order) (filter (fun c => ci_group c =? g) (ct_circuits ct)) js ->
    find_circuit js (fst (itf a)) (snd (itf a)) (fst (itf b)) (snd (itf b)) = Ok (JInt id) -> 0 < id ->
    oreach (mkOess ct (JInt g) ((k, GoesDown (CWait (q_remove (JInt g) (py_str id)) (fun x =>
        t_do (do! j <- x; do! r <- jget "results" j; do! y <- j_at 0 r; jget "success" y) (fun _ => TEnd (Ok tt))))) :: ls)).
  Proof.
    intros R E F Hf Hid. pose proof (down_list ct ls k a b g js R E F) as H. rewrite Hf in H. cbn [t_do] in H.
    assert (J : jtrue (JInt id) = true) by (destruct id; [lia|reflexivity|reflexivity]). rewrite J in H. cbn [negb j_text] in H.
    eapply or_step; [exact H|]. apply (os_more order no pm group may apart_from ct (JInt g) [] k _ ls false (JInt g)). reflexivity.
  Qed.
  Lemma down_answer ct ct' ls k g id x : oreach (mkOess ct (JInt g) ((k, GoesDown (CWait (q_remove (JInt g) (py_str id)) (fun x =>
        t_do (do! j <- x; do! r <- jget "results" j; do! y <- j_at 0 r; jget "success" y) (fun _ => TEnd (Ok tt))))) :: ls)) ->
    answers order no ct (q_remove (JInt g) (py_str id)) x ct' ->
    (do! j <- x; do! r <- jget "results" j; do! y <- j_at 0 r; do! z <- jget "success" y; Ok tt) = Ok tt -> oreach (mkOess ct' (JInt g) ls).
  Proof.
    intros H A Hx. pose proof (or_step _ _ _ _ _ _ _ _ _ H (os_answer order no pm group may apart_from ct ct' (JInt g) [] k _ _ ls x false A)) as H1. cbn [app] in H1.
    eapply or_step; [exact H1|]. apply (os_is_down order no pm group may apart_from ct' (JInt g) [] k _ ls (JInt g)).
    destruct x as [j|]; [|discriminate]. cbn [Base.bind] in *. destruct (jget "results" j) as [r|]; [|discriminate]. cbn [Base.bind] in *.
    destruct (j_at 0 r) as [y|]; [|discriminate]. cbn [Base.bind] in *. destruct (jget "success" y) as [z|]; [|discriminate]. reflexivity.
  Qed.
  Lemma down_none ct ls k a b g js : oreach (mkOess ct (JInt g) ((k, IsUp) :: ls)) -> ends pm k a b ->
    Forall2 (shown order) (filter (fun c => ci_group c =? g) (ct_circuits ct)) js ->
    find_circuit js (fst (itf a)) (snd (itf a)) (fst (itf b)) (snd (itf b)) = Ok (JInt 0) -> oreach (mkOess ct (JInt g) ls).
  Proof.
    intros R E F Hf. pose proof (down_list ct ls k a b g js R E F) as H. rewrite Hf in H. cbn [t_do] in H.
    eapply or_step; [exact H|]. apply (os_is_down order no pm group may apart_from ct (JInt g) [] k _ ls (JInt g)). reflexivity.
  Qed.
  (** The link's circuit is removed. *)
  Lemma removed ct g id : In id (map ci_id (ct_circuits ct)) ->
    answers order no ct (q_remove (JInt g) (py_str id)) (Ok (a_removed 1)) (mkCtl (ct_groups ct) (filter (fun c => negb (ci_id c =? id)) (ct_circuits ct))).
  Proof.
    intros H. destruct (rem_values g id) as (A & V). apply (ans_remove order no ct _ _ id (JObj [("success", JInt 1)])); try assumption; [|reflexivity].
    eexists. split; reflexivity.
  Qed.
End Can.

(** A conversation up to the question for a circuit, the availability answered by [z]. *)
Lemma can_hear pm group k a b ct g z x : ends pm k a b -> aget group (ct_groups ct) = Some g -> z = 0 \/ z = 1 ->
  exists l q t', heard (provisioning group (target_text a) (target_text b)) (l ++ [(q, x)]) t' /\ action q "provision_circuit" /\
    forall q0 y, In (q0, y) l -> action q0 "is_vlan_tag_available" -> y = Ok (a_vlan z).
Proof.
  intros E Hg Hz. pose proof E as (Ha & Hb). pose proof (port_vlan_of_target _ _ _ _ Ha) as Ta. pose proof (port_vlan_of_target _ _ _ _ Hb) as Tb.
  assert (F : Forall2 (fun p j => has j "name" (JStr (fst p)) /\ has j "workgroup_id" (JInt (snd p))) (ct_groups ct)
                (map (fun g => JObj [("name", JStr (fst g)); ("workgroup_id", JInt (snd g))]) (ct_groups ct))).
  { generalize (ct_groups ct). intros l. induction l as [|p l IH]; cbn [map]; constructor; [split; reflexivity|exact IH]. }
  assert (Rs : results (Ok (a_groups ct)) (map (fun g => JObj [("name", JStr (fst g)); ("workgroup_id", JInt (snd g))]) (ct_groups ct))) by (eexists; split; reflexivity).
  assert (Cz : confirm_vlan (Ok (a_vlan z)) = Ok tt) by (destruct Hz; subst z; reflexivity).
  assert (Cp : forall i, validate_ports (Ok (a_ports i)) i = Ok tt).
  { intros i. unfold validate_ports, a_ports. cbn [Base.bind]. change (jget "results" (JObj [("results", JList [JObj [("name", JStr i)]])])) with (@Ok json (JList [JObj [("name", JStr i)]])).
    cbn [Base.bind j_items named]. change (jget "name" (JObj [("name", JStr i)])) with (@Ok json (JStr i)). cbn [Base.bind j_is]. rewrite eqb_refl. reflexivity. }
  assert (Pp : process_path (Ok a_path) = Ok []) by reflexivity.
  destruct (q_provision_ok (JInt g) (fst (fst a)) (snd (fst a)) (snd a) (fst (fst b)) (snd (fst b)) (snd b) [] [] (fun _ F => match F with end) (fun _ F => match F with end)) as (q & Hq).
  destruct (prov_values pm g k a b [] [] q E (fun _ F => match F with end) (fun _ F => match F with end) Hq) as (A0 & _).
  destruct a as [[sn si] sv], b as [[dn di] dv]. cbn [fst snd] in Hq.
  exists [(q_workgroups, Ok (a_groups ct)); (q_ports sn, Ok (a_ports si)); (q_vlan sn si sv, Ok (a_vlan z)); (q_ports dn, Ok (a_ports di)); (q_vlan dn di dv, Ok (a_vlan z));
    (q_path sn dn [], Ok a_path); (q_path sn dn [], Ok a_path)], q. eexists. split; [|split; [exact A0|]].
  - cbn [app]. unfold provisioning, t_ask.
    eapply (hd_ask _ JNull); [reflexivity|]. cbv beta. rewrite (workgroup_ok _ _ _ _ _ Hg Rs F). cbn [t_do]. rewrite Ta. cbn [t_do].
    eapply (hd_ask _ JNull); [cbn [settle]; reflexivity|]. cbv beta. rewrite Cp. cbn [t_do].
    eapply (hd_ask _ JNull); [cbn [settle]; reflexivity|]. cbv beta. rewrite Cz. cbn [t_do]. rewrite Tb. cbn [t_do].
    eapply (hd_ask _ JNull); [cbn [settle]; reflexivity|]. cbv beta. rewrite Cp. cbn [t_do].
    eapply (hd_ask _ JNull); [cbn [settle]; reflexivity|]. cbv beta. rewrite Cz. cbn [t_do].
    eapply (hd_ask _ JNull); [cbn [settle]; reflexivity|]. cbv beta. rewrite Pp. cbn [t_do].
    eapply (hd_ask _ JNull); [cbn [settle]; reflexivity|]. cbv beta. rewrite Pp. cbn [t_do].
    eapply (hd_ask _ (JInt g)); [cbn [settle]; rewrite Hq; reflexivity|]. apply hd_none.
  - assert (N : forall q0 w, action q0 w -> w <> "is_vlan_tag_available" -> ~ action q0 "is_vlan_tag_available").
    { intros q0 w H Hw H'. apply Hw. exact (action_unique _ _ _ H H'). }
    intros q0 y [H|[H|[H|[H|[H|[H|[H|[]]]]]]]] A; injection H as <- <-; try reflexivity; exfalso; revert A.
    + apply (N _ _ act_workgroups). discriminate.
    + apply (N _ _ (act_ports sn)). discriminate.
    + apply (N _ _ (act_ports dn)). discriminate.
    + apply (N _ _ (act_path sn dn [])). discriminate.
    + apply (N _ _ (act_path sn dn [])). discriminate.
Qed.
