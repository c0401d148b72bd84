(** Properties C01-C05: labels. *)
From Coq Require Import Sorted.
From Verif Require Import Base ModelLabel SpecLabel ProofsLabel.
Open Scope Z_scope.

(** C01: parsing a list of item texts gives the normal form of the denoted set,
    or a payload error exactly when some item is malformed. *)
Theorem C01_parse_items : forall items,
  (exists rs vs, Forall2 item_range items rs /\ parse_items items = Ok vs /\ normal vs /\
     (forall z, denotes vs z <-> denotes rs z) /\ (forall lo hi, In (lo, hi) vs -> 0 <= lo) /\
     (items <> [] -> vs <> [])) \/
  ((exists s, In s items /\ forall r, ~ item_range s r) /\ parse_items items = Err EPayload).
Proof. exact parse_items_spec. Qed.
Print Assumptions C01_parse_items.

(** C01: the comma separated text form means the list of its items. *)
Theorem C01_parse_text : forall t items, items <> [] -> (forall s, In s items -> shas "," s = false) ->
  label_of_str t (join "," items) = label_of_list t items.
Proof. exact label_of_str_items. Qed.
Print Assumptions C01_parse_text.

(** C01: the stored form depends only on the denoted set. *)
Theorem C01_normal_form_unique : forall a b, normal a -> normal b ->
  (forall z, denotes a z <-> denotes b z) -> a = b.
Proof. exact normal_unique. Qed.
Print Assumptions C01_normal_form_unique.

(** every label made from a text is well-formed, so the hypotheses below are met *)
Theorem C01_text_labels_wf : forall t s l, label_of_str t s = Ok l -> ltype l = t /\ wf_values (lvalues l).
Proof. exact label_of_str_wf. Qed.
Print Assumptions C01_text_labels_wf.

Example C01_ex : label_of_str "vlan" "7-9, 1,2-3,12,8-10" = Ok (mkLabel "vlan" [(1, 3); (7, 10); (12, 12)]).
Proof. reflexivity. Qed.
Example C01_ex_err : label_of_str "vlan" "1,9-7" = Err EPayload /\ label_of_str "vlan" "" = Err EPayload
  /\ label_of_str "vlan" "-5" = Err EPayload.
Proof. repeat split; reflexivity. Qed.

(** C02 *)
Theorem C02_intersect : forall a b, wf_values (lvalues a) -> wf_values (lvalues b) -> ltype a = ltype b ->
  (exists l, intersect a b = Ok l /\ ltype l = ltype a /\ wf_values (lvalues l) /\
     (exists z, denotes (lvalues l) z) /\
     forall z, denotes (lvalues l) z <-> denotes (lvalues a) z /\ denotes (lvalues b) z) \/
  (intersect a b = Err EEmptyLabelSet /\ forall z, ~ (denotes (lvalues a) z /\ denotes (lvalues b) z)).
Proof. exact intersect_spec. Qed.
Print Assumptions C02_intersect.

Theorem C02_intersect_comm : forall a b, wf_values (lvalues a) -> wf_values (lvalues b) -> ltype a = ltype b ->
  intersect a b = intersect b a.
Proof. exact intersect_comm. Qed.
Print Assumptions C02_intersect_comm.

Theorem C02_can_match : forall a b, wf_values (lvalues a) -> wf_values (lvalues b) -> ltype a = ltype b ->
  exists r, can_match (Some a) (Some b) = Ok r /\
    (r = true <-> exists z, denotes (lvalues a) z /\ denotes (lvalues b) z).
Proof. exact can_match_spec. Qed.
Print Assumptions C02_can_match.

Theorem C02_can_match_absent : forall a,
  can_match None None = Ok true /\ can_match (Some a) None = Ok false /\ can_match None (Some a) = Ok false.
Proof. exact (fun a => conj eq_refl (conj eq_refl eq_refl)). Qed.
Print Assumptions C02_can_match_absent.

Example C02_ex :
  let a := mkLabel "vlan" [(1, 3); (7, 10); (12, 12)] in
  let b := mkLabel "vlan" [(2, 8); (10, 20)] in
  wf_values (lvalues a) /\ wf_values (lvalues b) /\
  intersect a b = Ok (mkLabel "vlan" [(2, 3); (7, 8); (10, 10); (12, 12)]) /\
  intersect (mkLabel "vlan" [(5, 6)]) a = Err EEmptyLabelSet.
Proof.
  cbn zeta. split; [|split; [|split; reflexivity]].
  - apply (label_of_str_wf "vlan" "1-3,7-10,12"). reflexivity.
  - apply (label_of_str_wf "vlan" "2-8,10-20"). reflexivity.
Qed.

(** C03 *)
Theorem C03_label_text_roundtrip : forall l, wf_values (lvalues l) ->
  label_of_str (ltype l) (label_value l) = Ok l /\ label_eqb l l = true.
Proof. exact (fun l H => conj (label_value_roundtrip l H) (label_eqb_refl l)). Qed.
Print Assumptions C03_label_text_roundtrip.

(** C03: equality of labels is equality of type and denoted set *)
Theorem C03_label_eq : forall a b, normal (lvalues a) -> normal (lvalues b) ->
  label_eqb a b = true <-> (ltype a = ltype b /\ forall z, denotes (lvalues a) z <-> denotes (lvalues b) z).
Proof. exact label_eqb_spec. Qed.
Print Assumptions C03_label_eq.

Example C03_ex : label_value (mkLabel "vlan" [(1, 3); (7, 7); (1780, 1783)]) = "1-3,7,1780-1783"%string.
Proof. reflexivity. Qed.

(** C04 *)
Theorem C04_enumerate : forall l, wf_values (lvalues l) ->
  (forall z, In z (enumerate_values l) <-> denotes (lvalues l) z) /\
  StronglySorted Z.lt (enumerate_values l) /\ NoDup (enumerate_values l).
Proof.
  exact (fun l H => conj (enumerate_In l) (conj (enumerate_sorted l (proj1 (proj2 H)))
          (ss_lt_NoDup _ (enumerate_sorted l (proj1 (proj2 H)))))).
Qed.
Print Assumptions C04_enumerate.

Theorem C04_single_value : forall l, wf_values (lvalues l) ->
  single_value l = true <-> exists v, forall z, denotes (lvalues l) z <-> z = v.
Proof. exact single_value_spec. Qed.
Print Assumptions C04_single_value.

Example C04_ex : enumerate_values (mkLabel "vlan" [(1, 3); (7, 7)]) = [1; 2; 3; 7] /\
  single_value (mkLabel "vlan" [(7, 7)]) = true /\ single_value (mkLabel "vlan" [(7, 8)]) = false.
Proof. repeat split; reflexivity. Qed.

(** C05: false of the code: the upper bound of the draw is one too large. *)
Theorem C05_random_label_refuted : exists l k r v, wf_values (lvalues l) /\
  random_label l k r = Some v /\ ~ denotes (lvalues l) v.
Proof.
  exists (mkLabel "vlan" [(5, 5)]), 0%nat, 6, 6.
  split; [apply (label_of_str_wf "vlan" "5"); reflexivity|]. split; [reflexivity|].
  intros (lo & hi & [E|[]] & Hz). injection E as <- <-. lia.
Qed.
Print Assumptions C05_random_label_refuted.

(** C05, what is true: the value is denoted or is one above a denoted value. *)
Theorem C05_random_label_partial : forall l k r v, wf_values (lvalues l) ->
  random_label l k r = Some v -> denotes (lvalues l) v \/ denotes (lvalues l) (v - 1).
Proof. exact random_label_near. Qed.
Print Assumptions C05_random_label_partial.
