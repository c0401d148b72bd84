(** Proofs about errors on the wire. *)
From Verif Require Import Base BaseProofs ModelXml ModelErrors SpecErrors.

Lemma findtext_leaf_hit tag s kids n a x : 
  findtext tag (Elem n a x (leaf tag s :: kids)) = Some (match s with Some t => t | None => "" end).
Proof. unfold findtext, find1, findall. cbn [e_kids filter e_tag leaf]. rewrite eqb_refl. reflexivity. Qed.

Definition norm (s : option string) : option string := match s with Some EmptyString => None | _ => s end.

Lemma text_norm s : match norm s with Some t => t | None => "" end = match s with Some t => t | None => "" end.
Proof. destruct s as [[|]|]; reflexivity. Qed.

Lemma wire_leaf t s : wire (leaf t s) = leaf t (norm s).
Proof. reflexivity. Qed.

Lemma build_xml tag s : 
  se_build (wire (se_xml tag s)) =
  mkSE (Some (py_str_opt (se_nsa s))) (se_conn s) (se_service s)
       (Some (match se_errorId s with Some t => t | None => "" end)) (Some (match se_text s with Some t => t | None => "" end))
       (match se_vars s with None => None | Some l => Some (map (fun kv => variable_build (wire (variable_xml kv))) l) end).
Proof.
  destruct s as [n c sv ei tx vs]. unfold se_xml. cbn [se_nsa se_conn se_service se_errorId se_text se_vars wire].
  rewrite !map_app. destruct c as [c|], sv as [sv|], vs as [vs|]; cbn [map app]; rewrite ?wire_leaf;
    unfold se_build; f_equal;
    unfold findtext, find1, findall; cbn [e_kids filter e_tag leaf wire e_text];
    rewrite ?(eqb_refl (K := string));
    repeat match goal with |- context [eqb ?a ?b] => 
        let v := eval vm_compute in (eqb a b) in change (eqb a b) with v end; cbn [e_text e_kids];
    rewrite ?text_norm; try reflexivity;
    try (destruct (py_str_opt n); reflexivity); try (destruct c; reflexivity); try (destruct sv; reflexivity);
    try (rewrite !map_map; reflexivity);
    try (cbn [e_text leaf]; rewrite text_norm; reflexivity).
Qed.

Lemma variable_roundtrip k v : variable_build (wire (variable_xml (Some k, Some v))) = (Some k, Some v).
Proof. destruct v; reflexivity. Qed.

Lemma vars_roundtrip v : 
  vars_of (match match opt_vars v with None => None | Some l => Some (map (fun kv => variable_build (wire (variable_xml kv))) l) end
           with None | Some [] => None | Some l => Some l end)
  = map (fun kv => (Some (fst kv), Some (snd kv))) (vars_of v).
Proof.
  destruct v as [[|[k x] l]|]; [reflexivity| |reflexivity].
  cbn [opt_vars map vars_of fst snd]. rewrite variable_roundtrip. cbn [vars_of]. f_equal.
  rewrite map_map. apply map_ext. intros [k' x']. apply variable_roundtrip.
Qed.

Lemma lookup_own c : c <> NSIError -> exists d, lookup (Some (match error_id c with Some t => t | None => "" end)) = Ok d /\ subclass c d /\
  (c <> UnsupportedParameter -> c <> DownstreamNSAError -> d = c).
Proof.
  intros Hn. destruct c; try congruence;
    (eexists; split; [vm_compute; reflexivity|]; split;
     [first [apply sub_refl | eapply sub_base; [cbn; left; reflexivity | apply sub_refl]] | intros; congruence]).
Qed.

Lemma roundtrip_ok e provider conn service tag peer : er_class e <> NSIError ->
  exists d, create_exception (se_build (wire (se_xml tag (create_service_exception e provider conn service)))) peer = Ok d /\
    subclass (er_class e) (de_class d) /\
    (er_class e <> UnsupportedParameter -> er_class e <> DownstreamNSAError -> de_class d = er_class e) /\
    de_text d = Some (er_text e) /\
    de_nsa d = py_or (Some (py_str_opt (py_or (er_nsa e) provider))) peer /\
    de_conn d = py_or (er_conn e) conn /\
    vars_of (de_vars d) = map (fun kv => (Some (fst kv), Some (snd kv))) (vars_of (er_vars e)).
Proof.
  intros Hn. rewrite build_xml. unfold create_exception. cbn [se_errorId se_text se_nsa se_conn se_vars create_service_exception].
  destruct (lookup_own (er_class e) Hn) as (c & Hl & Hs & Hk). rewrite Hl. cbn [bind].
  eexists. split; [reflexivity|]. cbn [de_class de_text de_nsa de_conn de_vars].
  split; [exact Hs|]. split; [exact Hk|]. split; [reflexivity|]. split; [reflexivity|]. split; [reflexivity|]. apply vars_roundtrip.
Qed.

Lemma py_or_nonempty n b : n <> "" -> py_or (Some n) b = Some n.
Proof. destruct n; [congruence|reflexivity]. Qed.

Theorem c21_roundtrip e provider conn service tag peer : er_class e <> NSIError ->
  exists d, create_exception (se_build (wire (se_xml tag (create_service_exception e provider conn service)))) peer = Ok d /\
    subclass (er_class e) (de_class d) /\
    de_text d = Some (er_text e) /\
    (forall n, er_nsa e = Some n -> n <> "" -> de_nsa d = Some n) /\
    (forall c, er_conn e = Some c -> c <> "" -> de_conn d = Some c) /\
    vars_of (de_vars d) = map (fun kv => (Some (fst kv), Some (snd kv))) (vars_of (er_vars e)).
Proof.
  intros Hn. destruct (roundtrip_ok e provider conn service tag peer Hn) as (d & H1 & H2 & _ & H3 & H4 & H5 & H6).
  exists d. repeat (split; [assumption|]). split; [|split; [|assumption]].
  - intros n E Hne. rewrite H4, E, (py_or_nonempty n _ Hne). cbn [py_str_opt]. apply py_or_nonempty. exact Hne.
  - intros c E Hne. rewrite H5, E. apply py_or_nonempty. exact Hne.
Qed.

Theorem c21_defaults e n conn service tag peer : er_class e <> NSIError -> n <> "" ->
  exists d, create_exception (se_build (wire (se_xml tag (create_service_exception e (Some n) conn service)))) peer = Ok d /\
    (truthy (er_nsa e) = false -> de_nsa d = Some n) /\
    (truthy (er_conn e) = false -> de_conn d = conn).
Proof.
  intros Hn Hne. destruct (roundtrip_ok e (Some n) conn service tag peer Hn) as (d & H1 & _ & _ & _ & H4 & H5 & _).
  exists d. split; [exact H1|]. split; intros E.
  - rewrite H4. unfold py_or at 2. rewrite E. cbn [py_str_opt]. apply py_or_nonempty. exact Hne.
  - rewrite H5. unfold py_or. rewrite E. reflexivity.
Qed.

Theorem c21_kept e provider conn service tag peer : 
  er_class e <> NSIError -> er_class e <> UnsupportedParameter -> er_class e <> DownstreamNSAError ->
  exists d, create_exception (se_build (wire (se_xml tag (create_service_exception e provider conn service)))) peer = Ok d /\
    de_class d = er_class e.
Proof.
  intros H1 H2 H3. destruct (roundtrip_ok e provider conn service tag peer H1) as (d & E & _ & Hk & _). eauto.
Qed.

Theorem c21_other text provider conn service tag peer :
  exists d, create_exception (se_build (wire (se_xml tag (create_service_exception_other text provider conn service)))) peer = Ok d /\
    de_class d = InternalServerError /\ de_text d = Some text /\ de_conn d = conn.
Proof.
  rewrite build_xml. unfold create_exception. cbn [se_errorId se_text se_nsa se_conn se_vars create_service_exception_other error_id].
  eexists. split; [vm_compute lookup; cbn [bind]; reflexivity|]. cbn. auto.
Qed.

Theorem c22_refuted : exists s peer, create_exception s peer = Err EValue /\ se_errorId s = Some "00999".
Proof. exists (mkSE None None None (Some "00999") None None), None. split; reflexivity. Qed.

Theorem c22_failure s peer e : create_exception s peer = Err e -> e = EValue.
Proof.
  unfold create_exception, lookup. destruct (se_errorId s) as [c|]; cbn [bind]; [|discriminate].
  destruct (negb _); cbn [bind]; [discriminate|]. destruct (aget c _); cbn [bind]; [discriminate|].
  destruct (aget _ _); cbn [bind]; congruence.
Qed.

Theorem c22_partial s peer :
  (forall c, se_errorId s = Some c -> String.length c = 5%nat ->
     exists k rest, In k ["001"; "002"; "003"; "004"; "005"; "006"; "007"] /\ c = k +++ rest) ->
  exists d, create_exception s peer = Ok d.
Proof.
  intros H. unfold create_exception, lookup. destruct (se_errorId s) as [c|]; cbn [bind]; [|eauto].
  destruct (Nat.eqb_spec (String.length c) 5) as [Hl|Hl]; cbn [negb bind]; [|eauto].
  destruct (H c eq_refl Hl) as (k & rest & Hk & ->). destruct (aget (k +++ rest) _); cbn [bind]; [eauto|].
  assert (Ht : stake 3 (k +++ rest) = k).
  { repeat (destruct Hk as [<-|Hk]; [reflexivity|]). destruct Hk. }
  rewrite Ht. clear -Hk. repeat (destruct Hk as [<-|Hk]; [vm_compute; eauto|]). destruct Hk.
Qed.
