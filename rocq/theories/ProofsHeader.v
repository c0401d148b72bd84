(** Proofs about the header encoding. *)
From Verif Require Import Base BaseProofs ModelXml ModelAuthz ModelHeader ProofsErrors.

(** ** Grouping by type *)
Definition vals_of (t : string) (l : list secattr) : list string :=
  map sa_value (filter (fun sa => eqb (sa_type sa) t) l).
Definition flat (d : list (string * list string)) : list secattr :=
  concat (map (fun nv => map (mkSA (fst nv)) (snd nv)) d).
Definition good (d : list (string * list string)) : Prop := NoDup (akeys d) /\ forall t vs, In (t, vs) d -> vs <> [].

Lemma group_snoc l sa : group_attrs (l ++ [sa]) = group_step (group_attrs l) sa.
Proof. unfold group_attrs. rewrite fold_left_app. reflexivity. Qed.

Lemma In_aset_inv {V} (k x : string) (v w : V) d : In (x, w) (aset k v d) -> (x = k /\ w = v) \/ In (x, w) d.
Proof.
  induction d as [|[k1 v1] r IH]; cbn.
  - intros [[= <- <-]|[]]; auto.
  - destruct (eqb_ok k k1) as [->|Hn]; cbn; intros [H|H]; auto.
    + injection H as <- <-. auto.
    + destruct (IH H) as [?|?]; auto.
Qed.

Lemma group_good l : good (group_attrs l).
Proof.
  induction l as [|sa l IH] using rev_ind; [split; [constructor|intros t vs []]|].
  rewrite group_snoc. destruct IH as [H1 H2]. split; [apply NoDup_akeys_aset, H1|].
  intros t vs Hin. apply In_aset_inv in Hin as [[-> ->]|Hin]; [|eapply H2; eauto].
  intros E. apply app_eq_nil in E as [_ E]. discriminate.
Qed.

Lemma group_get l t : aget t (group_attrs l) = match vals_of t l with [] => None | vs => Some vs end.
Proof.
  induction l as [|sa l IH] using rev_ind; [reflexivity|].
  rewrite group_snoc. unfold group_step. rewrite aget_aset. unfold vals_of in *. rewrite filter_app, map_app. cbn [filter].
  destruct (eqb_ok t (sa_type sa)) as [->|Hn].
  - rewrite eqb_refl, IH. cbn [map]. destruct (map sa_value (filter _ l)); reflexivity.
  - rewrite (eqb_neq (sa_type sa) t) by congruence. rewrite IH. cbn [map]. rewrite app_nil_r. reflexivity.
Qed.

Lemma filter_map_same t vs : filter (fun sa => eqb (sa_type sa) t) (map (mkSA t) vs) = map (mkSA t) vs.
Proof. induction vs as [|v r IH]; cbn; [reflexivity|]. rewrite eqb_refl, IH. reflexivity. Qed.
Lemma filter_map_other t k vs : k <> t -> filter (fun sa => eqb (sa_type sa) t) (map (mkSA k) vs) = [].
Proof. intros Hn. induction vs as [|v r IH]; cbn; [reflexivity|]. rewrite eqb_neq by exact Hn. exact IH. Qed.

Lemma flat_type d t : NoDup (akeys d) ->
  filter (fun sa => eqb (sa_type sa) t) (flat d) = match aget t d with None => [] | Some vs => map (mkSA t) vs end.
Proof.
  induction d as [|[k vs] r IH]; [reflexivity|]. unfold flat. cbn [map concat fst snd aget]. rewrite filter_app. fold (flat r).
  intros Hnd. inversion Hnd as [|? ? Hni Hnd']; subst. specialize (IH Hnd').
  destruct (eqb_ok t k) as [->|Hn].
  - rewrite filter_map_same, IH. replace (aget k r) with (@None (list string)); [apply app_nil_r|].
    symmetry. apply aget_None. exact Hni.
  - rewrite filter_map_other by congruence. exact IH.
Qed.

Lemma vals_of_eq t l : map (mkSA t) (vals_of t l) = filter (fun sa => eqb (sa_type sa) t) l.
Proof.
  unfold vals_of. induction l as [|[ty v] l IH]; [reflexivity|]. cbn [filter sa_type].
  destruct (eqb_ok ty t) as [->|Hn]; cbn [map sa_value]; [rewrite IH; reflexivity|exact IH].
Qed.

Lemma group_flat l t : filter (fun sa => eqb (sa_type sa) t) (flat (group_attrs l)) = filter (fun sa => eqb (sa_type sa) t) l.
Proof.
  rewrite flat_type by apply group_good. rewrite group_get, <- vals_of_eq. destruct (vals_of t l); reflexivity.
Qed.

(** ** Encoding and decoding *)
Definition nonempty (v : string) : bool := match v with EmptyString => false | _ => true end.

Lemma attribute_wire nv : snd nv <> [] ->
  attribute_build (wire (attribute_xml nv)) = (Some (fst nv), Some (map (fun v => norm (Some v)) (snd nv))).
Proof.
  destruct nv as [n vs]. cbn [fst snd]. intros Hne. unfold attribute_build, attribute_xml. cbn [wire e_get e_attrs e_kids fst snd].
  rewrite !map_map. cbn [wire]. f_equal. destruct vs as [|v r]; [congruence|].
  cbn [map]. f_equal. f_equal. rewrite map_map. reflexivity.
Qed.

Lemma attr_values_ok n vs : attr_values (Some n) (map (fun v => norm (Some v)) vs) = Ok (map (mkSA n) (filter nonempty vs)).
Proof.
  induction vs as [|v r IH]; [reflexivity|]. cbn [map filter]. destruct v as [|c v].
  - change (norm (Some "")) with (@None string). exact IH.
  - change (norm (Some (String c v))) with (Some (String c v)). cbn [attr_values]. rewrite IH. reflexivity.
Qed.

Definition dropped (d : list (string * list string)) : list (string * list string) :=
  map (fun nv => (fst nv, filter nonempty (snd nv))) d.

Lemma attrs_of_ok d : (forall t vs, In (t, vs) d -> vs <> []) ->
  attrs_of (concat (map ssa_build (map wire (map (fun nv => Elem "sessionSecurityAttr" [] None [attribute_xml nv]) d))))
  = Ok (flat (dropped d)).
Proof.
  intros Hd. unfold attrs_of.
  enough (E : mapM (fun nv => match snd nv with None => Err EType | Some vs => attr_values (fst nv) vs end)
      (concat (map ssa_build (map wire (map (fun nv => Elem "sessionSecurityAttr" [] None [attribute_xml nv]) d))))
      = Ok (map (fun nv => map (mkSA (fst nv)) (snd nv)) (dropped d))).
  { rewrite E. reflexivity. }
  induction d as [|[t vs] r IH]; [reflexivity|]. cbn [map concat].
  assert (Es : ssa_build (wire (Elem "sessionSecurityAttr" [] None [attribute_xml (t, vs)]))
               = [(Some t, Some (map (fun v => norm (Some v)) vs))]).
  { unfold ssa_build, findall. cbn [wire map e_kids filter]. 
    change (e_tag (wire (attribute_xml (t, vs)))) with T_ATTRIBUTE. rewrite eqb_refl. cbn [map].
    rewrite attribute_wire; [reflexivity|]. apply (Hd t vs). left. reflexivity. }
  rewrite Es. cbn [app mapM fst snd]. rewrite attr_values_ok. cbn [bind].
  rewrite IH; [reflexivity|]. intros t' vs' Hin. apply (Hd t' vs'). right. exact Hin.
Qed.

(** ** The trace *)
Lemma trace_wire l : forall i, mapM connection_build (findall "Connection" (Elem T_TRACE [] None (map wire (trace_xml i l))))
  = Ok (combine (map Z.of_nat (seq i (List.length l))) (map (fun c => norm (Some c)) l)).
Proof.
  unfold findall. cbn [e_kids]. induction l as [|c r IH]; intros i; [reflexivity|].
  cbn [trace_xml map filter wire e_tag]. rewrite eqb_refl. cbn [mapM].
  unfold connection_build at 1. unfold e_get. cbn [e_attrs aget]. rewrite eqb_refl, py_int_str. cbn [e_text bind].
  rewrite IH. reflexivity.
Qed.
Lemma insert_idx_min {A} (x : Z * A) l : (forall y, In y l -> (fst x <= fst y)%Z) -> insert_idx x l = x :: l.
Proof.
  destruct l as [|y r]; [reflexivity|]. cbn. intros H. specialize (H y (or_introl eq_refl)).
  destruct (Z.leb_spec (fst x) (fst y)); [reflexivity|lia].
Qed.
Lemma sort_seq {A} (l : list A) : forall i, sort_idx (combine (map Z.of_nat (seq i (List.length l))) l)
  = combine (map Z.of_nat (seq i (List.length l))) l.
Proof.
  induction l as [|c r IH]; intros i; [reflexivity|]. cbn [List.length seq map combine sort_idx]. rewrite IH.
  apply insert_idx_min. intros [z y] Hin. apply in_combine_l in Hin. apply in_map_iff in Hin as (k & <- & Hk).
  apply in_seq in Hk. cbn [fst]. lia.
Qed.
Lemma map_snd_combine {A B} (l : list A) (m : list B) : List.length l = List.length m -> map snd (combine l m) = m.
Proof. revert m; induction l as [|x l IH]; intros [|y m]; cbn; intros H; try discriminate; [reflexivity|]. f_equal. apply IH. lia. Qed.

(** ** Finding the children *)
Lemma findall_app tag n a x k1 k2 : findall tag (Elem n a x (k1 ++ k2)) = findall tag (Elem n a x k1) ++ findall tag (Elem n a x k2).
Proof. unfold findall. cbn [e_kids]. apply filter_app. Qed.
Lemma findall_none tag n a x k : (forall e, In e k -> e_tag e <> tag) -> findall tag (Elem n a x k) = [].
Proof.
  intros H. unfold findall. cbn [e_kids]. induction k as [|e r IH]; [reflexivity|]. cbn [filter].
  rewrite eqb_neq by (apply H; left; reflexivity). apply IH. intros e' He'. apply H. right. exact He'.
Qed.
Lemma findall_all tag n a x k : (forall e, In e k -> e_tag e = tag) -> findall tag (Elem n a x k) = k.
Proof.
  intros H. unfold findall. cbn [e_kids]. induction k as [|e r IH]; [reflexivity|]. cbn [filter].
  rewrite (H e (or_introl eq_refl)), eqb_refl. f_equal. apply IH. intros e' He'. apply H. right. exact He'.
Qed.

Definition decode (fresh proto : string) (h : nsi_header) (body : option element) :=
  parse_request fresh (wire (soap_payload (Some (header_xml proto h)) body)).

Lemma decode_eq fresh proto h body : decode fresh proto h body =
  Ok (mkDH (Some (h_requester h)) (Some (h_provider h)) (py_or (Some (h_corr h)) (Some fresh)) (h_reply_to h)
           (flat (dropped (group_attrs (h_attrs h))))
           (match h_trace h with None | Some [] => None | Some l => Some (map (fun c => norm (Some c)) l) end),
      match body with None => [] | Some b => [wire b] end).
Proof.
  unfold decode, parse_request, soap_payload, parse_soap_payload. cbn [wire map e_tag]. rewrite eqb_refl. cbn [negb e_kids soap_children e_tag].
  rewrite eqb_refl. change (eqb T_SOAP_BODY T_SOAP_HEADER) with false. cbv iota. rewrite eqb_refl. cbn [e_kids bind].
  unfold header_build, header_xml. cbn [wire e_tag]. rewrite eqb_refl. cbn [negb].
  set (sats := map (fun nv => Elem "sessionSecurityAttr" [] None [attribute_xml nv]) (group_attrs (h_attrs h))).
  set (tr := match h_trace h with None | Some [] => [] | Some l => [Elem T_TRACE [] None (trace_xml 0 l)] end).
  set (rt := match h_reply_to h with None => [] | Some r => [leaf "replyTo" (Some r)] end).
  set (fixed := [leaf "protocolVersion" (Some proto); leaf "correlationId" (Some (h_corr h));
      leaf "requesterNSA" (Some (h_requester h)); leaf "providerNSA" (Some (h_provider h))]).
  rewrite !map_app.
  assert (Hsat : forall e, In e (map wire sats) -> e_tag e = "sessionSecurityAttr").
  { intros e He. apply in_map_iff in He as (e0 & <- & He). apply in_map_iff in He as (nv & <- & _). reflexivity. }
  assert (Htr : forall e, In e (map wire tr) -> e_tag e = T_TRACE).
  { intros e He. subst tr. destruct (h_trace h) as [[|c l]|]; cbn [map] in He; [destruct He| |destruct He].
    destruct He as [<-|[]]. reflexivity. }
  assert (Hrt : forall e, In e (map wire rt) -> e_tag e = "replyTo").
  { intros e He. subst rt. destruct (h_reply_to h); cbn [map] in He; [|destruct He]. destruct He as [<-|[]]. reflexivity. }
  assert (Hfx : forall e, In e (map wire fixed) -> e_tag e <> "sessionSecurityAttr" /\ e_tag e <> T_TRACE /\ e_tag e <> "replyTo").
  { intros e He. subst fixed. cbn [map] in He.
    repeat (destruct He as [<-|He]; [repeat split; discriminate|]). destruct He. }
  set (kids := map wire fixed ++ map wire rt ++ map wire sats ++ map wire tr).
  assert (Fs : findall "sessionSecurityAttr" (Elem T_HEADER [] None kids) = map wire sats).
  { unfold kids. rewrite !findall_app. rewrite (findall_none _ _ _ _ (map wire fixed)) by (intros e He; apply Hfx, He).
    rewrite (findall_none _ _ _ _ (map wire rt)) by (intros e He; rewrite (Hrt e He); discriminate).
    rewrite (findall_all _ _ _ _ (map wire sats)) by exact Hsat.
    rewrite (findall_none _ _ _ _ (map wire tr)) by (intros e He; rewrite (Htr e He); discriminate).
    cbn [app]. apply app_nil_r. }
  assert (Ft : findall T_TRACE (Elem T_HEADER [] None kids) = map wire tr).
  { unfold kids. rewrite !findall_app. rewrite (findall_none _ _ _ _ (map wire fixed)) by (intros e He; apply Hfx, He).
    rewrite (findall_none _ _ _ _ (map wire rt)) by (intros e He; rewrite (Hrt e He); discriminate).
    rewrite (findall_none _ _ _ _ (map wire sats)) by (intros e He; rewrite (Hsat e He); discriminate).
    rewrite (findall_all _ _ _ _ (map wire tr)) by exact Htr. reflexivity. }
  assert (Fr : findall "replyTo" (Elem T_HEADER [] None kids) = map wire rt).
  { unfold kids. rewrite !findall_app. rewrite (findall_none _ _ _ _ (map wire fixed)) by (intros e He; apply Hfx, He).
    rewrite (findall_all _ _ _ _ (map wire rt)) by exact Hrt.
    rewrite (findall_none _ _ _ _ (map wire sats)) by (intros e He; rewrite (Hsat e He); discriminate).
    rewrite (findall_none _ _ _ _ (map wire tr)) by (intros e He; rewrite (Htr e He); discriminate).
    cbn [app]. apply app_nil_r. }
  assert (Etr : match find1 T_TRACE (Elem T_HEADER [] None kids) with
               | None => Ok None
               | Some t => do! l <- mapM connection_build (findall "Connection" t); Ok (Some (map snd (sort_idx l)))
               end = Ok (match h_trace h with None | Some [] => None | Some l => Some (map (fun c => norm (Some c)) l) end)).
  { unfold find1. rewrite Ft. subst tr. destruct (h_trace h) as [[|c l]|]; try reflexivity.
    cbn [map]. change (wire (Elem T_TRACE [] None (trace_xml 0 (c :: l)))) with (Elem T_TRACE [] None (map wire (trace_xml 0 (c :: l)))).
    rewrite trace_wire. cbn [bind].
    replace (seq 0 (List.length (c :: l))) with (seq 0 (List.length (map (fun c => norm (Some c)) (c :: l)))) by (rewrite map_length; reflexivity).
    rewrite sort_seq, map_snd_combine by (rewrite !map_length, seq_length; reflexivity). reflexivity. }
  rewrite Etr. cbn [bind]. rewrite Fs. unfold sats. rewrite attrs_of_ok by apply group_good. cbn [bind].
  assert (Er : findtext "replyTo" (Elem T_HEADER [] None kids) = h_reply_to h).
  { unfold findtext, find1. rewrite Fr. subst rt. destruct (h_reply_to h) as [[|]|]; reflexivity. }
  rewrite Er. 
  assert (E1 : forall tag v, In (leaf tag v) (map wire fixed) -> (forall e, In e (map wire fixed) -> e_tag e = tag -> e = leaf tag v) ->
     tag <> "replyTo" -> tag <> "sessionSecurityAttr" -> tag <> T_TRACE ->
     findtext tag (Elem T_HEADER [] None kids) = Some (match v with Some s => s | None => "" end)).
  { intros tag v Hin Hu N1 N2 N3. unfold findtext, find1, kids. rewrite !findall_app.
    rewrite (findall_none _ _ _ _ (map wire rt)) by (intros e He; rewrite (Hrt e He); congruence).
    rewrite (findall_none _ _ _ _ (map wire sats)) by (intros e He; rewrite (Hsat e He); congruence).
    rewrite (findall_none _ _ _ _ (map wire tr)) by (intros e He; rewrite (Htr e He); congruence).
    rewrite !app_nil_r. unfold findall. cbn [e_kids].
    destruct (filter (fun k => eqb (e_tag k) tag) (map wire fixed)) as [|e r] eqn:E.
    - exfalso. assert (Hf : In (leaf tag v) (filter (fun k => eqb (e_tag k) tag) (map wire fixed)))
        by (apply filter_In; split; [exact Hin|apply eqb_refl]). rewrite E in Hf. destruct Hf.
    - assert (Hf : In e (filter (fun k => eqb (e_tag k) tag) (map wire fixed))) by (rewrite E; left; reflexivity).
      apply filter_In in Hf as [Hf1 Hf2]. apply (proj1 (eqb_true _ _)) in Hf2. rewrite (Hu e Hf1 Hf2). reflexivity. }
  assert (Hleaf : forall tag v, In (tag, v) [("protocolVersion", proto); ("correlationId", h_corr h); ("requesterNSA", h_requester h); ("providerNSA", h_provider h)] ->
     findtext tag (Elem T_HEADER [] None kids) = Some v).
  { intros tag v Hin. rewrite (E1 tag (norm (Some v))).
    - rewrite text_norm. reflexivity.
    - unfold fixed. cbn [map]. cbn [In] in Hin. repeat (destruct Hin as [[= <- <-]|Hin]; [rewrite !wire_leaf; cbn [In]; tauto|]). destruct Hin.
    - intros e He Ht. unfold fixed in He. cbn [map In] in He. rewrite !wire_leaf in He.
      cbn [In] in Hin.
      repeat (destruct Hin as [[= <- <-]|Hin];
              [repeat (destruct He as [<-|He]; [first [reflexivity | discriminate Ht]|]); destruct He|]). destruct Hin.
    - intros ->. cbn [In] in Hin. repeat (destruct Hin as [[=]|Hin]). destruct Hin.
    - intros ->. cbn [In] in Hin. repeat (destruct Hin as [[=]|Hin]). destruct Hin.
    - intros ->. cbn [In] in Hin. repeat (destruct Hin as [[=]|Hin]). destruct Hin. }
  rewrite (Hleaf "requesterNSA" (h_requester h)) by (cbn; tauto).
  rewrite (Hleaf "providerNSA" (h_provider h)) by (cbn; tauto).
  rewrite (Hleaf "correlationId" (h_corr h)) by (cbn; tauto).
  destruct body; reflexivity.
Qed.

Lemma dropped_id d : (forall t vs v, In (t, vs) d -> In v vs -> v <> "") -> dropped d = d.
Proof.
  intros H. unfold dropped. induction d as [|[t vs] r IH]; [reflexivity|]. cbn [map fst snd]. f_equal.
  - f_equal. assert (Hv : forall v, In v vs -> v <> "") by (intros v Hv; apply (H t vs v); [left; reflexivity|exact Hv]).
    clear -Hv. induction vs as [|v vs IH]; [reflexivity|]. cbn [filter]. destruct v as [|c v].
    + exfalso. apply (Hv ""); [left; reflexivity|reflexivity].
    + cbn [nonempty]. f_equal. apply IH. intros w Hw. apply Hv. right. exact Hw.
  - apply IH. intros t' vs' v' H1 H2. apply (H t' vs' v'); [right; exact H1|exact H2].
Qed.

Lemma group_values l t vs v : In (t, vs) (group_attrs l) -> In v vs -> In (mkSA t v) l.
Proof.
  intros H Hv. apply In_aget in H; [|apply group_good]. rewrite group_get in H.
  destruct (vals_of t l) as [|w ws] eqn:E; [discriminate|]. injection H as <-. rewrite <- E in Hv.
  apply (in_map (mkSA t)) in Hv. rewrite vals_of_eq in Hv. apply filter_In in Hv. tauto.
Qed.

Theorem c51_roundtrip fresh proto h body :
  (forall sa, In sa (h_attrs h) -> sa_value sa <> "") -> h_corr h <> "" -> h_trace h <> Some [] ->
  (forall tr c, h_trace h = Some tr -> In c tr -> c <> "") ->
  exists d, decode fresh proto h body = Ok (d, match body with None => [] | Some b => [wire b] end) /\
    d_requester d = Some (h_requester h) /\ d_provider d = Some (h_provider h) /\ d_corr d = Some (h_corr h) /\
    d_reply_to d = h_reply_to h /\
    d_trace d = option_map (map Some) (h_trace h) /\
    forall t, filter (fun sa => eqb (sa_type sa) t) (d_attrs d) = filter (fun sa => eqb (sa_type sa) t) (h_attrs h).
Proof.
  intros Ha Hc Ht Htr. rewrite decode_eq. eexists. split; [reflexivity|]. cbn [d_requester d_provider d_corr d_reply_to d_trace d_attrs].
  split; [reflexivity|]. split; [reflexivity|]. split; [destruct (h_corr h); [congruence|reflexivity]|]. split; [reflexivity|]. split.
  - destruct (h_trace h) as [[|c l]|]; [congruence| |reflexivity].
    cbn [option_map]. f_equal. apply map_ext_in. intros x Hx. specialize (Htr _ x eq_refl Hx). destruct x; [congruence|reflexivity].
  - intros t. rewrite dropped_id; [apply group_flat|]. intros t' vs v H1 H2. apply (Ha (mkSA t' v)). eapply group_values; eauto.
Qed.

Lemma filter_le {A} (f : A -> bool) l : (List.length (filter f l) <= List.length l)%nat.
Proof. induction l as [|x l IH]; cbn; [lia|]. destruct (f x); cbn; lia. Qed.

(** the same attributes, from the same attributes of each type *)
Lemma filters_permutation (l : list secattr) : forall m,
  (forall t, filter (fun sa => eqb (sa_type sa) t) l = filter (fun sa => eqb (sa_type sa) t) m) ->
  forall p : secattr -> bool, List.length (filter p l) = List.length (filter p m).
Proof.
  remember (List.length l) as n eqn:En. revert l En. induction n as [n IH] using lt_wf_ind. intros l -> m H p.
  destruct l as [|sa l].
  - destruct m as [|sb m]; [reflexivity|]. specialize (H (sa_type sb)). cbn in H. rewrite eqb_refl in H. discriminate.
  - set (t := sa_type sa).
    assert (Hsplit : forall (q : secattr -> bool) x, List.length (filter p x) =
      (List.length (filter p (filter q x)) + List.length (filter p (filter (fun y => negb (q y)) x)))%nat).
    { intros q x. induction x as [|y x IHx]; [reflexivity|]. cbn [filter].
      destruct (q y) eqn:Eq, (p y) eqn:Ep; cbn [negb filter]; rewrite ?Ep; cbn [List.length]; rewrite IHx; lia. }
    rewrite (Hsplit (fun y => eqb (sa_type y) t) (sa :: l)), (Hsplit (fun y => eqb (sa_type y) t) m), (H t). f_equal.
    apply (IH (List.length (filter (fun y => negb (eqb (sa_type y) t)) (sa :: l)))); [|reflexivity|].
    + cbn [filter]. unfold t at 1. rewrite eqb_refl. cbn [negb List.length].
      pose proof (filter_le (fun y => negb (eqb (sa_type y) t)) l). lia.
    + intros u. assert (Hf : forall x, filter (fun sa0 => eqb (sa_type sa0) u) (filter (fun y => negb (eqb (sa_type y) t)) x)
         = if eqb u t then [] else filter (fun sa0 => eqb (sa_type sa0) u) x).
      { intros x. induction x as [|y x IHx]; [destruct (eqb u t); reflexivity|]. cbn [filter].
        destruct (eqb_ok (sa_type y) t) as [E|E]; cbn [negb filter]; rewrite ?IHx.
        - destruct (eqb_ok u t) as [->|Hn]; [reflexivity|]. rewrite E, eqb_neq by congruence. reflexivity.
        - destruct (eqb_ok u t) as [->|Hn]; [|reflexivity]. rewrite eqb_neq by exact E. reflexivity. }
      rewrite !Hf. destruct (eqb u t); [reflexivity|apply H].
Qed.

Theorem c51_refuted : ~ (forall fresh proto h d b, h_corr h <> "" -> decode fresh proto h None = Ok (d, b) ->
  List.length (d_attrs d) = List.length (h_attrs h)).
Proof.
  intros H. specialize (H "f" "p" (mkHdr "r" "v" "c" None [mkSA "user" ""] None)).
  rewrite decode_eq in H. specialize (H _ _ ltac:(discriminate) eq_refl). discriminate.
Qed.
