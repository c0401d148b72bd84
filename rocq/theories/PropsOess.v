(** C83: links as circuits of an OESS controller. *)
From Verif Require Import Base BaseProofs ModelLabel ModelRest ModelDrivers SpecDrivers ModelOess SpecOess ProofsDrivers ProofsOess ProofsOessInv ProofsOessStep ProofsOessCan.
Open Scope Z_scope.

(** Under a controller that answers refusals with errors, and as long as no two links
    are between the same two interfaces, links and circuits go together: however many
    links are set up and torn down at the same time, a link that is up has one circuit
    with its interfaces and VLANs, and no other circuit is between its interfaces; every
    circuit is one of the start or belongs to a link; those of the start stay; and where
    there is no link there is no circuit.  Links within one node need a controller that
    keeps the order of the ends. *)
Theorem C83_circuits_partial order pm group g (may : link -> Prop) ct0 s :
  (forall k, may k -> (exists a b, ends pm k a b) /\ (order = true \/ two_nodes pm k)) ->
  ready_start pm group g may ct0 -> oreach order frank pm group may (separate pm) ct0 s ->
  (forall k, In (k, IsUp) (os_links s) -> exists c, In c (ct_circuits (os_ctl s)) /\ circuit_of pm g k c /\
     forall c', In c' (ct_circuits (os_ctl s)) -> ci_group c' = g -> joins_same pm k c' -> c' = c) /\
  (forall c, In c (ct_circuits (os_ctl s)) -> In c (ct_circuits ct0) \/ exists k p, In (k, p) (os_links s) /\ circuit_of pm g k c) /\
  (forall c, In c (ct_circuits ct0) -> In c (ct_circuits (os_ctl s))) /\
  (forall k, may k -> (forall k' p, In (k', p) (os_links s) -> separate pm k k') ->
     forall c, In c (ct_circuits (os_ctl s)) -> ci_group c = g -> ~ joins_same pm k c).
Proof.
  intros Hmay Hstart R. pose proof (reach_inv order pm group g may ct0 Hmay Hstart s R) as I.
  split; [|split; [exact (i_all _ _ _ _ _ _ I)|split; [exact (i_start _ _ _ _ _ _ I)|]]].
  - intros k Hk. destruct (i_place _ _ _ _ _ _ I k IsUp Hk) as (_ & id & c & H1 & H2 & _ & U). exists c. repeat (split; [assumption|]). exact U.
  - intros k Hk Hs. destruct s as [ct wg ls]. exact (inv_none order pm group g may ct0 Hstart ct wg ls k I Hk Hs).
Qed.
Print Assumptions C83_circuits_partial.

(** A link that may be asked for can be set up whenever it goes with those there are:
    there are answers of the controller that lead to its being up. *)
Theorem C83_can order no pm group may apart_from ct0 ct wg ls k a b g id :
  oreach order no pm group may apart_from ct0 (mkOess ct wg ls) -> may k -> (forall k' x, In (k', x) ls -> apart_from k k') -> ends pm k a b ->
  aget group (ct_groups ct) = Some g -> 0 < id -> ~ In id (map ci_id (ct_circuits ct)) ->
  oreach order no pm group may apart_from ct0 (mkOess (mkCtl (ct_groups ct) (ct_circuits ct ++ [mkCircuit id g a b])) (JInt g) ((k, IsUp) :: ls)).
Proof. apply can_up. Qed.
Print Assumptions C83_can.

(** Whoever answers, a circuit is asked for only after the own group was found, each
    end's interface was listed for its node, and each end's VLAN was asked about and
    answered with 0 or 1; nothing was asked to be set up or removed before. *)
Theorem C83_checked pm group k a b t l q x t' :
  ends pm k a b -> oe_setup pm group (k_sp k) (k_sl k) (k_dp k) (k_dl k) = Ok t ->
  heard t (l ++ [(q, x)]) t' -> action q "provision_circuit" ->
  (exists q0 y, In (q0, y) l /\ action q0 "get_workgroups" /\ lists_name y group) /\
  looked_at a zero_or_one l /\ looked_at b zero_or_one l /\
  forall q0 y, In (q0, y) l -> exists z, action q0 z /\ z <> "provision_circuit" /\ z <> "remove_circuit".
Proof.
  intros E Ht H A. rewrite (oe_setup_talk pm group k a b t E Ht) in H.
  destruct (safe_heard _ _ _ _ H [] (safe_provisioning pm group k a b E) l q x eq_refl A) as ((y & Hy & wg & Hwg) & Ha & Hb & Hh). cbn [app] in *.
  split; [|split; [exact Ha|split; [exact Hb|exact Hh]]].
  exists q_workgroups, y. split; [exact Hy|]. split; [exact act_workgroups|].
  unfold workgroup_of in Hwg. destruct y as [j|]; [|discriminate]. cbn [Base.bind] in Hwg. destruct (jget "results" j) as [r|] eqn:Er; [|discriminate].
  cbn [Base.bind] in Hwg. destruct (j_items r) as [js|] eqn:El; [|discriminate]. cbn [Base.bind] in Hwg.
  destruct (named group js) as [[z|]|] eqn:Ez; try discriminate. destruct (named_has _ _ _ Ez) as (H1 & H2).
  exists j, r, js, z. repeat (split; [solve [reflexivity|assumption]|]). exact H2.
Qed.
Print Assumptions C83_checked.

(** ** Cases *)
Definition ex_pm : list (string * string) := [("p1", "sw1:e1"); ("p2", "sw2:e1"); ("p3", "sw1:e2")].
Definition ex_link (p q : string) (v w : Z) : link := mkLink "" p (Some (mkLabel "vlan" [(v, v)])) q (Some (mkLabel "vlan" [(w, w)])).
Definition ex_ct0 : controller := mkCtl [("others", 3); ("nsi", 7)] [mkCircuit 1 3 ("sw1", "e1", "100") ("sw2", "e1", "100")].
Definition ex_k1 : link := ex_link "p1" "p2" 100 100.
Definition ex_k2 : link := ex_link "p1" "p2" 200 201.
Definition ex_k3 : link := ex_link "p3" "p2" 300 300.
Definition ex_k4 : link := ex_link "p1" "p3" 400 400.
Definition ex_ends : list (link * (cend * cend)) :=
  [(ex_k1, (("sw1", "e1", "100"), ("sw2", "e1", "100"))); (ex_k2, (("sw1", "e1", "200"), ("sw2", "e1", "201")));
   (ex_k3, (("sw1", "e2", "300"), ("sw2", "e1", "300"))); (ex_k4, (("sw1", "e1", "400"), ("sw1", "e2", "400")))].
Lemma ex_end port n i v : aget port ex_pm = Some (n +++ ":" +++ i) -> plain n -> plain i -> 1 <= v <= 4094 ->
  end_on ex_pm port (Some (mkLabel "vlan" [(v, v)])) (n, i, py_str v).
Proof. intros H1 H2 H3 H4. exists n, i, v. repeat (split; [solve [assumption|reflexivity]|]). reflexivity. Qed.
Lemma ex_p1 v : 1 <= v <= 4094 -> end_on ex_pm "p1" (Some (mkLabel "vlan" [(v, v)])) ("sw1", "e1", py_str v).
Proof. apply ex_end; repeat split. Qed.
Lemma ex_p2 v : 1 <= v <= 4094 -> end_on ex_pm "p2" (Some (mkLabel "vlan" [(v, v)])) ("sw2", "e1", py_str v).
Proof. apply ex_end; repeat split. Qed.
Lemma ex_p3 v : 1 <= v <= 4094 -> end_on ex_pm "p3" (Some (mkLabel "vlan" [(v, v)])) ("sw1", "e2", py_str v).
Proof. apply ex_end; repeat split. Qed.
Lemma ex_ends1 : ends ex_pm ex_k1 ("sw1", "e1", "100") ("sw2", "e1", "100").
Proof. split; [exact (ex_p1 100 ltac:(lia))|exact (ex_p2 100 ltac:(lia))]. Qed.
Lemma ex_ends2 : ends ex_pm ex_k2 ("sw1", "e1", "200") ("sw2", "e1", "201").
Proof. split; [exact (ex_p1 200 ltac:(lia))|exact (ex_p2 201 ltac:(lia))]. Qed.
Lemma ex_ends3 : ends ex_pm ex_k3 ("sw1", "e2", "300") ("sw2", "e1", "300").
Proof. split; [exact (ex_p3 300 ltac:(lia))|exact (ex_p2 300 ltac:(lia))]. Qed.
Lemma ex_ends4 : ends ex_pm ex_k4 ("sw1", "e1", "400") ("sw1", "e2", "400").
Proof. split; [exact (ex_p1 400 ltac:(lia))|exact (ex_p3 400 ltac:(lia))]. Qed.

Definition ex_any (k : link) : Prop := exists a b, ends ex_pm k a b.
Definition ex_two (k : link) : Prop := ex_any k /\ two_nodes ex_pm k.
Lemma ex_ready may : ready_start ex_pm "nsi" 7 may ex_ct0.
Proof.
  split; [reflexivity|]. split; [repeat constructor; intros []|]. split; [intros c [<-|[]]; cbn; lia|].
  intros k c _ [<-|[]] H. discriminate.
Qed.
Lemma ex_two1 : ex_two ex_k1.
Proof. split; [eexists _, _; exact ex_ends1|]. intros a b E. destruct (ends_fun _ _ _ _ _ _ E ex_ends1) as (-> & ->). discriminate. Qed.
Lemma ex_two3 : ex_two ex_k3.
Proof. split; [eexists _, _; exact ex_ends3|]. intros a b E. destruct (ends_fun _ _ _ _ _ _ E ex_ends3) as (-> & ->). discriminate. Qed.
Lemma ex_sep : separate ex_pm ex_k3 ex_k1.
Proof.
  intros a b a' b' E E'. destruct (ends_fun _ _ _ _ _ _ E ex_ends3) as (-> & ->), (ends_fun _ _ _ _ _ _ E' ex_ends1) as (-> & ->).
  intros [(H & _)|(H & _)]; discriminate.
Qed.

(** Two links are set up, and the first torn down: the hypotheses of
    [C83_circuits_partial] can be met, with a circuit of others between the same
    interfaces, and a controller that gives the ends in any order. *)
Definition ex_both : oess :=
  mkOess (mkCtl (ct_groups ex_ct0) (ct_circuits ex_ct0 ++ [mkCircuit 2 7 ("sw1", "e1", "100") ("sw2", "e1", "100"); mkCircuit 3 7 ("sw1", "e2", "300") ("sw2", "e1", "300")]))
    (JInt 7) [(ex_k3, IsUp); (ex_k1, IsUp)].
Definition ex_after : oess :=
  mkOess (mkCtl (ct_groups ex_ct0) (ct_circuits ex_ct0 ++ [mkCircuit 2 7 ("sw1", "e1", "100") ("sw2", "e1", "100")])) (JInt 7) [(ex_k1, IsUp)].
Example C83_circuits_ex :
  (forall k, ex_two k -> (exists a b, ends ex_pm k a b) /\ (false = true \/ two_nodes ex_pm k)) /\ ready_start ex_pm "nsi" 7 ex_two ex_ct0 /\
  oreach false frank ex_pm "nsi" ex_two (separate ex_pm) ex_ct0 ex_both /\ oreach false frank ex_pm "nsi" ex_two (separate ex_pm) ex_ct0 ex_after.
Proof.
  split; [intros k (H1 & H2); split; [exact H1|right; exact H2]|]. split; [apply ex_ready|].
  assert (H : oreach false frank ex_pm "nsi" ex_two (separate ex_pm) ex_ct0 ex_both).
  { pose proof (can_up false frank ex_pm "nsi" ex_two (separate ex_pm) ex_ct0 ex_ct0 JNull [] ex_k1 _ _ 7 2 (or_start _ _ _ _ _ _ _) ex_two1
      (fun _ _ F => match F with end) ex_ends1 eq_refl ltac:(lia) ltac:(cbn; lia)) as H1.
    refine (can_up false frank ex_pm "nsi" ex_two (separate ex_pm) ex_ct0 _ _ _ ex_k3 _ _ 7 3 H1 ex_two3 _ ex_ends3 eq_refl ltac:(lia) ltac:(cbn; lia)).
    intros k' x [E|[]]. injection E as <- _. exact ex_sep. }
  split; [exact H|].
  pose proof (down_ask false frank ex_pm "nsi" ex_two (separate ex_pm) ex_ct0 _ _ _ _ _ 7
    [a_flipped (mkCircuit 2 7 ("sw1", "e1", "100") ("sw2", "e1", "100")); a_circuit (mkCircuit 3 7 ("sw1", "e2", "300") ("sw2", "e1", "300"))] 3 H ex_ends3) as D.
  assert (S : forall c, shown false c (a_circuit c)).
  { intros c. split; [reflexivity|]. eexists _, _. split; [reflexivity|]. left. repeat split. }
  assert (S' : forall c, shown false c (a_flipped c)).
  { intros c. split; [reflexivity|]. eexists _, _. split; [reflexivity|]. right. repeat split. }
  specialize (D (Forall2_cons _ _ (S' _) (Forall2_cons _ _ (S _) (Forall2_nil _))) eq_refl ltac:(lia)).
  refine (down_answer _ _ _ _ _ _ _ _ _ _ _ _ _ _ D (removed _ _ _ 7 3 _) eq_refl). cbn. right. right. left. reflexivity.
Qed.

(** What is asked before a circuit is asked for, for one link. *)
Lemma ex_talk1 : oe_setup ex_pm "nsi" (k_sp ex_k1) (k_sl ex_k1) (k_dp ex_k1) (k_dl ex_k1) = Ok (provisioning "nsi" "sw1:e1#100" "sw2:e1#100").
Proof. reflexivity. Qed.
Example C83_checked_ex : exists l q x t t', ends ex_pm ex_k1 ("sw1", "e1", "100") ("sw2", "e1", "100") /\
  oe_setup ex_pm "nsi" (k_sp ex_k1) (k_sl ex_k1) (k_dp ex_k1) (k_dl ex_k1) = Ok t /\ heard t (l ++ [(q, x)]) t' /\ action q "provision_circuit".
Proof.
  destruct (can_hear ex_pm "nsi" ex_k1 _ _ ex_ct0 7 1 (Ok (a_made 2)) ex_ends1 eq_refl (or_intror eq_refl)) as (l & q & t' & H & A & _).
  exists l, q, (Ok (a_made 2)), (provisioning "nsi" "sw1:e1#100" "sw2:e1#100"), t'. split; [exact ex_ends1|]. split; [exact ex_talk1|]. split; assumption.
Qed.

(** ** Where it fails *)
(** Two links that have no end in common. *)
Definition apart_ends (pm : list (string * string)) (k k' : link) : Prop :=
  forall a b a' b', ends pm k a b -> ends pm k' a' b' -> a <> a' /\ a <> b' /\ b <> a' /\ b <> b'.
Lemma ex_apart : apart_ends ex_pm ex_k2 ex_k1.
Proof.
  intros a b a' b' E E'. destruct (ends_fun _ _ _ _ _ _ E ex_ends2) as (-> & ->), (ends_fun _ _ _ _ _ _ E' ex_ends1) as (-> & ->). repeat split; discriminate.
Qed.
Lemma ex_two2 : ex_two ex_k2.
Proof. split; [eexists _, _; exact ex_ends2|]. intros a b E. destruct (ends_fun _ _ _ _ _ _ E ex_ends2) as (-> & ->). discriminate. Qed.

(** Links between the same interfaces with other VLANs: the circuit is looked for by
    its interfaces only, so that tearing down one link may remove the circuit of
    another, which stays up without one. *)
Theorem C83_other_vlans_refuted : exists pm group g (may : link -> Prop) ct0 s k,
  (forall k, may k -> (exists a b, ends pm k a b) /\ (true = true \/ two_nodes pm k)) /\ ready_start pm group g may ct0 /\
  oreach true frank pm group may (apart_ends pm) ct0 s /\
  In (k, IsUp) (os_links s) /\ (forall c, In c (ct_circuits (os_ctl s)) -> ~ circuit_of pm g k c) /\
  exists c k', In c (ct_circuits (os_ctl s)) /\ circuit_of pm g k' c /\ (forall p, ~ In (k', p) (os_links s)).
Proof.
  set (c1 := mkCircuit 2 7 ("sw1", "e1", "100") ("sw2", "e1", "100")). set (c2 := mkCircuit 3 7 ("sw1", "e1", "200") ("sw2", "e1", "201")).
  exists ex_pm, "nsi", 7, ex_two, ex_ct0, (mkOess (mkCtl (ct_groups ex_ct0) (ct_circuits ex_ct0 ++ [c2])) (JInt 7) [(ex_k1, IsUp)]), ex_k1.
  split; [intros k (H1 & H2); split; [exact H1|right; exact H2]|]. split; [apply ex_ready|].
  split; [|split; [left; reflexivity|split]].
  - pose proof (can_up true frank ex_pm "nsi" ex_two (apart_ends ex_pm) ex_ct0 ex_ct0 JNull [] ex_k1 _ _ 7 2 (or_start _ _ _ _ _ _ _) ex_two1
      (fun _ _ F => match F with end) ex_ends1 eq_refl ltac:(lia) ltac:(cbn; lia)) as H1.
    assert (A : forall k' x, In (k', x) [(ex_k1, IsUp)] -> apart_ends ex_pm ex_k2 k') by (intros k' x [E|[]]; injection E as <- _; exact ex_apart).
    pose proof (can_up true frank ex_pm "nsi" ex_two (apart_ends ex_pm) ex_ct0 _ _ _ ex_k2 _ _ 7 3 H1 ex_two2 A ex_ends2 eq_refl ltac:(lia) ltac:(cbn; lia)) as H2.
    assert (S : forall c, shown true c (a_circuit c)) by (intros c; split; [reflexivity|]; eexists _, _; split; [reflexivity|]; left; repeat split).
    pose proof (down_ask true frank ex_pm "nsi" ex_two (apart_ends ex_pm) ex_ct0 _ _ _ _ _ 7 [a_circuit c1; a_circuit c2] 2 H2 ex_ends2
      (Forall2_cons _ _ (S c1) (Forall2_cons _ _ (S c2) (Forall2_nil _))) eq_refl ltac:(lia)) as D.
    refine (down_answer _ _ _ _ _ _ _ _ _ _ _ _ _ _ D (removed _ _ _ 7 2 _) eq_refl). cbn. right. left. reflexivity.
  - intros c [<-|[<-|[]]] (H & E); [discriminate|]. destruct (ends_fun _ _ _ _ _ _ E ex_ends1) as (F & _). discriminate.
  - exists c2, ex_k2. split; [right; left; reflexivity|]. split; [split; [reflexivity|exact ex_ends2]|]. intros p [E|[]]. discriminate.
Qed.
Print Assumptions C83_other_vlans_refuted.

(** A link within one node: its circuit is not found if the controller gives the ends
    the other way round; the link is reported down, and the circuit stays. *)
Theorem C83_one_node_refuted : exists pm group g (may : link -> Prop) ct0 s c k,
  (forall k, may k -> exists a b, ends pm k a b) /\ ready_start pm group g may ct0 /\
  oreach false frank pm group may (separate pm) ct0 s /\ os_links s = [] /\
  In c (ct_circuits (os_ctl s)) /\ circuit_of pm g k c /\ ~ In c (ct_circuits ct0).
Proof.
  set (c := mkCircuit 2 7 ("sw1", "e1", "400") ("sw1", "e2", "400")).
  exists ex_pm, "nsi", 7, ex_any, ex_ct0, (mkOess (mkCtl (ct_groups ex_ct0) (ct_circuits ex_ct0 ++ [c])) (JInt 7) []), c, ex_k4.
  split; [intros k H; exact H|]. split; [apply ex_ready|]. split; [|split; [reflexivity|split; [right; left; reflexivity|split; [split; [reflexivity|exact ex_ends4]|]]]].
  - pose proof (can_up false frank ex_pm "nsi" ex_any (separate ex_pm) ex_ct0 ex_ct0 JNull [] ex_k4 _ _ 7 2 (or_start _ _ _ _ _ _ _) (ex_intro _ _ (ex_intro _ _ ex_ends4))
      (fun _ _ F => match F with end) ex_ends4 eq_refl ltac:(lia) ltac:(cbn; lia)) as H1.
    assert (S : shown false c (a_flipped c)) by (split; [reflexivity|]; eexists _, _; split; [reflexivity|]; right; repeat split).
    exact (down_none false frank ex_pm "nsi" ex_any (separate ex_pm) ex_ct0 _ _ _ _ _ 7 [a_flipped c] H1 ex_ends4 (Forall2_cons _ _ S (Forall2_nil _)) eq_refl).
  - cbn. intros [E|[]]. discriminate.
Qed.
Print Assumptions C83_one_node_refuted.

(** Refusals told by another success than 1: a link whose circuit was refused is
    reported up, and one whose removal was refused is reported down. *)
Lemma ex_not_made : any_refusal (Ok a_not_made).
Proof.
  intros j H. apply ok_inj in H. subst j. split.
  - intros r Hr. apply ok_inj in Hr. subst r. intros Hs. apply ok_inj in Hs. discriminate.
  - intros l r Hr. apply ok_inj in Hr. discriminate.
Qed.
Lemma ex_not_removed : any_refusal (Ok (a_removed 0)).
Proof.
  intros j H. apply ok_inj in H. subst j. split.
  - intros r Hr. apply ok_inj in Hr. subst r. intros Hs. discriminate.
  - intros l r Hr Hin. apply ok_inj in Hr. injection Hr as <-. destruct Hin as [<-|[]]. intros Hs. apply ok_inj in Hs. discriminate.
Qed.
Theorem C83_refused_refuted : exists pm group g (may : link -> Prop) ct0,
  (forall k, may k -> (exists a b, ends pm k a b) /\ (true = true \/ two_nodes pm k)) /\ ready_start pm group g may ct0 /\
  (exists s k, oreach true any_refusal pm group may (separate pm) ct0 s /\ In (k, IsUp) (os_links s) /\ forall c, In c (ct_circuits (os_ctl s)) -> ~ circuit_of pm g k c) /\
  (exists s k c, oreach true any_refusal pm group may (separate pm) ct0 s /\ os_links s = [] /\ In c (ct_circuits (os_ctl s)) /\ circuit_of pm g k c).
Proof.
  exists ex_pm, "nsi", 7, ex_two, ex_ct0. split; [intros k (H1 & H2); split; [exact H1|right; exact H2]|]. split; [apply ex_ready|]. split.
  - exists (mkOess ex_ct0 (JInt 7) [(ex_k1, IsUp)]), ex_k1. split; [|split; [left; reflexivity|]].
    + destruct (can_ask true any_refusal ex_pm "nsi" ex_two (separate ex_pm) ex_ct0 ex_ct0 JNull [] ex_k1 _ _ 7 1 (or_start _ _ _ _ _ _ _) ex_two1
        (fun _ _ F => match F with end) ex_ends1 eq_refl (or_intror eq_refl)) as (q & go & Hq & Hgo & H).
      destruct (prov_values ex_pm 7 ex_k1 _ _ [] [] q ex_ends1 (fun _ F => match F with end) (fun _ F => match F with end) Hq) as (A0 & _).
      pose proof (ans_refused true any_refusal ex_ct0 q (Ok a_not_made) _ A0 (or_introl eq_refl) ex_not_made) as A.
      pose proof (or_step _ _ _ _ _ _ _ _ _ H (os_answer true any_refusal ex_pm "nsi" ex_two (separate ex_pm) ex_ct0 _ (JInt 7) [] ex_k1 q go [] _ true A)) as H1.
      rewrite Hgo in H1. eapply or_step; [exact H1|]. apply (os_is_up true any_refusal ex_pm "nsi" ex_two (separate ex_pm) ex_ct0 (JInt 7) [] ex_k1 _ [] (JInt 7)). reflexivity.
    + intros c [<-|[]] (H & _). discriminate.
  - set (c := mkCircuit 2 7 ("sw1", "e1", "100") ("sw2", "e1", "100")).
    exists (mkOess (mkCtl (ct_groups ex_ct0) (ct_circuits ex_ct0 ++ [c])) (JInt 7) []), ex_k1, c.
    split; [|split; [reflexivity|split; [right; left; reflexivity|split; [reflexivity|exact ex_ends1]]]].
    pose proof (can_up true any_refusal ex_pm "nsi" ex_two (separate ex_pm) ex_ct0 ex_ct0 JNull [] ex_k1 _ _ 7 2 (or_start _ _ _ _ _ _ _) ex_two1
      (fun _ _ F => match F with end) ex_ends1 eq_refl ltac:(lia) ltac:(cbn; lia)) as H1.
    assert (S : shown true c (a_circuit c)) by (split; [reflexivity|]; eexists _, _; split; [reflexivity|]; left; repeat split).
    pose proof (down_ask true any_refusal ex_pm "nsi" ex_two (separate ex_pm) ex_ct0 _ _ _ _ _ 7 [a_circuit c] 2 H1 ex_ends1 (Forall2_cons _ _ S (Forall2_nil _)) eq_refl ltac:(lia)) as D.
    refine (down_answer _ _ _ _ _ _ _ _ _ _ _ _ _ _ D (ans_refused _ _ _ _ (Ok (a_removed 0)) _ (proj1 (rem_values 7 2)) (or_intror eq_refl) ex_not_removed) eq_refl).
Qed.
Print Assumptions C83_refused_refuted.

(** VLANs that the controller says are not available do not stop a link: there is a
    conversation in which both answers are 0 and the circuit is asked for. *)
Theorem C83_available_refuted : exists pm group k a b t l q x t',
  ends pm k a b /\ oe_setup pm group (k_sp k) (k_sl k) (k_dp k) (k_dl k) = Ok t /\ heard t (l ++ [(q, x)]) t' /\ action q "provision_circuit" /\
  forall q0 y, In (q0, y) l -> action q0 "is_vlan_tag_available" -> y = Ok (a_vlan 0).
Proof.
  destruct (can_hear ex_pm "nsi" ex_k1 _ _ ex_ct0 7 0 (Ok (a_made 2)) ex_ends1 eq_refl (or_introl eq_refl)) as (l & q & t' & H & A & N).
  exists ex_pm, "nsi", ex_k1, ("sw1", "e1", "100"), ("sw2", "e1", "100"), (provisioning "nsi" "sw1:e1#100" "sw2:e1#100"), l, q, (Ok (a_made 2)), t'.
  split; [exact ex_ends1|]. split; [exact ex_talk1|]. split; [exact H|]. split; assumption.
Qed.
Print Assumptions C83_available_refuted.

(** After a restart the group's id is not known until a link is set up: a link that is
    up cannot be torn down, whatever the controller answers. *)
Theorem C83_restart_refuted pm k a b t ct order x ct' :
  ends pm k a b -> oe_teardown pm (k_sp k) (k_sl k) (k_dp k) (k_dl k) = Ok t ->
  exists q go, settle JNull t = (JNull, Waiting q go) /\ values "workgroup_id" q = ["None"] /\
    (answers order frank ct q x ct' -> ct' = ct /\ exists e, go x = TEnd (Err e)).
Proof.
  intros E Ht. rewrite (oe_teardown_talk pm k a b t E Ht). unfold removal. cbn [settle]. eexists _, _. split; [reflexivity|].
  assert (F : fields (q_circuits JNull) = [("action", "get_existing_circuits"); ("workgroup_id", "None")]) by (vm_compute; reflexivity).
  split; [unfold values; rewrite F; reflexivity|].
  assert (A0 : action (q_circuits JNull) "get_existing_circuits") by (unfold action, values; rewrite F; eexists; reflexivity).
  intros H.
  assert (X : ct' = ct /\ exists e, x = Err e).
  { destruct H as [js A R G|gg js A V R G|js A R G|y A Y|gg n0 i0 t0 n1 i1 t1 id j r A W G N1 N2 N3 Hid Hfr Hx Hj Hs Hc|id r A|y A Y (e & G)|e Hx];
      try (pose proof (action_unique _ _ _ A0 A); discriminate).
    - exfalso. unfold values in V. rewrite F in V. injection V as V.
      pose proof (py_int_str gg) as P. rewrite <- V in P. vm_compute in P. discriminate.
    - pose proof (action_unique _ _ _ A0 A). subst y. destruct Y; discriminate.
    - split; [reflexivity|]. exists e. exact G.
    - split; [reflexivity|]. exists e. exact Hx. }
  destruct X as (-> & e & ->). split; [reflexivity|]. destruct E as (Ha & Hb).
  unfold get_circuit_id. rewrite (port_vlan_of_target _ _ _ _ Ha), (port_vlan_of_target _ _ _ _ Hb). destruct a as [[? ?] ?], b as [[? ?] ?]. eexists. reflexivity.
Qed.
Print Assumptions C83_restart_refuted.
Example C83_restart_ex : exists t, oe_teardown ex_pm (k_sp ex_k1) (k_sl ex_k1) (k_dp ex_k1) (k_dl ex_k1) = Ok t /\ ends ex_pm ex_k1 ("sw1", "e1", "100") ("sw2", "e1", "100").
Proof. eexists. split; [vm_compute; reflexivity|exact ex_ends1]. Qed.
