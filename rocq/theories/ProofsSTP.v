(** Proofs about STP identifiers. *)
From Verif Require Import Base BaseProofs ModelLabel SpecLabel ProofsLabel ModelSTP SpecSTP.

Lemma contains_cons p c s : contains p (String c s) = starts_with p (String c s) || contains p s.
Proof. reflexivity. Qed.

Lemma remove_all_none p s : contains p s = false -> remove_all p 0 s = s.
Proof.
  induction s as [|c s IH]; [reflexivity|]. rewrite contains_cons. intros H. apply orb_false_iff in H as [H1 H2].
  cbn [remove_all]. rewrite H1, (IH H2). reflexivity.
Qed.
Lemma remove_all_skip p s t : remove_all p (String.length s) (s +++ t) = remove_all p 0 t.
Proof. induction s as [|c s IH]; [reflexivity|]. exact IH. Qed.
Lemma remove_all_prefix p s : p <> "" -> remove_all p 0 (p +++ s) = remove_all p 0 s.
Proof.
  intros Hp. destruct p as [|c p]; [congruence|]. pose proof (starts_with_app (String c p) s) as Hs.
  cbn [append] in *. cbn [remove_all]. rewrite Hs.
  replace (String.length (String c p) - 1)%nat with (String.length p) by (cbn [String.length]; lia).
  apply remove_all_skip.
Qed.

(** an occurrence does not cross a character the pattern lacks *)
Lemma starts_with_has c p s : starts_with p s = true -> shas c p = true -> shas c s = true.
Proof.
  intros H Hc. apply starts_with_Some in H as (r & ->). rewrite shas_app, Hc. reflexivity.
Qed.
Lemma starts_with_cross c p a b : shas c p = false -> starts_with p (a +++ String c b) = starts_with p a.
Proof.
  revert a; induction p as [|d p IH]; intros a; [reflexivity|]. rewrite shas_cons, orb_false_iff. intros [H1 H2].
  destruct a as [|x a]; cbn.
  - rewrite Ascii.eqb_sym, H1. reflexivity.
  - rewrite (IH a H2). reflexivity.
Qed.
Lemma contains_cross c p a b : p <> "" -> shas c p = false -> contains p (a +++ String c b) = contains p a || contains p b.
Proof.
  intros Hne Hp. induction a as [|x a IH].
  - change ("" +++ String c b) with (String c b). rewrite contains_cons.
    pose proof (starts_with_cross c p "" b Hp) as Hs. change ("" +++ String c b) with (String c b) in Hs. rewrite Hs.
    destruct p; [congruence|]. reflexivity.
  - change (String x a +++ String c b) with (String x (a +++ String c b)). rewrite contains_cons, IH.
    pose proof (starts_with_cross c p (String x a) b Hp) as Hs.
    change (String x a +++ String c b) with (String x (a +++ String c b)) in Hs. rewrite Hs.
    rewrite contains_cons, orb_assoc. reflexivity.
Qed.
Lemma contains_lacks c p s : shas c p = true -> shas c s = false -> contains p s = false.
Proof.
  intros Hp. induction s as [|x s IH]; intros Hs.
  - cbn. destruct p; [discriminate|reflexivity].
  - rewrite contains_cons, IH by (rewrite shas_cons in Hs; apply orb_false_iff in Hs; tauto).
    destruct (starts_with p (String x s)) eqn:E; [|reflexivity].
    rewrite (starts_with_has c p _ E Hp) in Hs. discriminate.
Qed.

(** characters of a label text *)
Definition lvchar (c : ascii) : bool := numchar c || Ascii.eqb c ",".
Lemma label_value_chars l : sall lvchar (label_value l) = true.
Proof.
  assert (Hn : forall n, sall lvchar (py_str n) = true).
  { intros n. eapply sall_impl; [|apply py_str_chars]. intros c H. unfold lvchar. rewrite H. reflexivity. }
  assert (Hv : forall v, sall lvchar (value_text v) = true).
  { intros v. unfold value_text. destruct (_ =? _)%Z; rewrite ?sall_app, ?Hn; reflexivity. }
  unfold label_value. induction (lvalues l) as [|v r IH]; [reflexivity|]. cbn [map join].
  destruct (map value_text r) as [|w ws] eqn:E; [apply Hv|].
  rewrite !sall_app, Hv. cbn [sall andb]. rewrite <- E in *. rewrite IH. reflexivity.
Qed.
Lemma label_value_lacks c l : lvchar c = false -> shas c (label_value l) = false.
Proof.
  intros Hc. unfold shas. rewrite negb_false_iff. eapply sall_impl; [|apply label_value_chars].
  intros d Hd. destruct (Ascii.eqb_spec c d); [congruence|reflexivity].
Qed.

Lemma URN_facts : shas "?" URN_NETWORK = false /\ shas ":" URN_NETWORK = true /\ URN_NETWORK <> "".
Proof. repeat split; try reflexivity. discriminate. Qed.

Lemma create_stp_tail rest : contains URN_NETWORK rest = false ->
  create_stp (URN_NETWORK +++ rest) =
  (do! (loc, label) <- match split_on "?" rest with
                       | [loc] => Ok (loc, None)
                       | [loc; lbp] => do! l <- parse_label lbp; Ok (loc, Some l)
                       | _ => Err EValue
                       end;
   match rsplit1 ":" loc with
   | None => Err EPayload
   | Some (network, port) => Ok (mkSTP network port label)
   end).
Proof.
  intros H. unfold create_stp. rewrite starts_with_app. cbn [negb].
  rewrite remove_all_prefix by apply URN_facts. rewrite remove_all_none by exact H. reflexivity.
Qed.

Lemma parse_label_Ok s l : parse_label s = Ok l <->
  exists t v, s = t +++ "=" +++ v /\ shas "=" v = false /\ (t = "vlan" \/ t = "mpls") /\ label_of_str t v = Ok l.
Proof.
  unfold parse_label. split.
  - pose proof (join_split_on "=" s) as Hj. pose proof (split_on_free "=" s) as Hf.
    destruct (split_on "=" s) as [|t [|v [|]]] eqn:E; try discriminate.
    intros H. exists t, v. split; [symmetry; exact Hj|]. split; [apply Hf; cbn; auto|].
    revert H. cbn [aget LABEL_MAP].
    destruct (eqb_ok t "vlan") as [->|_]; [auto|]. destruct (eqb_ok t "mpls") as [->|_]; [auto|]. discriminate.
  - intros (t & v & -> & Hv & Ht & Hl).
    assert (Hte : shas "=" t = false) by (destruct Ht as [->| ->]; reflexivity).
    change (t +++ "=" +++ v) with (t +++ String "=" v).
    rewrite split_on_app by exact Hte. rewrite split_on_none by exact Hv.
    destruct Ht as [->| ->]; exact Hl.
Qed.

Lemma app_colon net port : net +++ ":" +++ port = net +++ String ":" port.
Proof. reflexivity. Qed.

Theorem c23_accepts rest s : contains URN_NETWORK rest = false ->
  (create_stp (URN_NETWORK +++ rest) = Ok s <-> stp_text rest s).
Proof.
  intros Hc. rewrite create_stp_tail by exact Hc. split.
  - pose proof (join_split_on "?" rest) as Hj. pose proof (split_on_free "?" rest) as Hf.
    destruct (split_on "?" rest) as [|loc [|lbp [|]]] eqn:E; try discriminate.
    + cbn [bind]. destruct (rsplit1 ":" loc) as [[net port]|] eqn:Er; [|discriminate]. intros [= <-].
      apply rsplit1_Some in Er as [-> Hp]. cbn [join] in Hj. subst rest.
      specialize (Hf (net +++ String ":" port) (or_introl eq_refl)). rewrite shas_app, shas_cons in Hf.
      apply orb_false_iff in Hf as [Hf1 Hf2]. apply orb_false_iff in Hf2 as [_ Hf2].
      apply stp_plain; assumption.
    + cbn [bind]. destruct (parse_label lbp) as [l|e] eqn:El; cbn [bind]; [|discriminate].
      destruct (rsplit1 ":" loc) as [[net port]|] eqn:Er; [|discriminate]. intros [= <-].
      apply rsplit1_Some in Er as [-> Hp]. apply parse_label_Ok in El as (t & v & -> & Hv & Ht & Hl).
      cbn [join] in Hj. rewrite append_assoc in Hj. subst rest.
      pose proof (Hf (net +++ String ":" port) (or_introl eq_refl)) as Hf1. rewrite shas_app, shas_cons in Hf1.
      apply orb_false_iff in Hf1 as [Hf1 Hf2]. apply orb_false_iff in Hf2 as [_ Hf2].
      pose proof (Hf (t +++ "=" +++ v) (or_intror (or_introl eq_refl))) as Hf3. rewrite !shas_app in Hf3.
      apply orb_false_iff in Hf3 as [_ Hf3]. apply orb_false_iff in Hf3 as [_ Hf3].
      apply stp_labelled; assumption.
  - intros Ht. inversion Ht as [net port H1 H2 H3 E1 E2|net port t v l H1 H2 H3 H4 H5 H6 H7 E1 E2]; subst rest s.
    + rewrite split_on_none.
      2:{ rewrite !shas_app, H1, H2. reflexivity. }
      cbn [bind]. rewrite app_colon, rsplit1_app by exact H3. reflexivity.
    + change (net +++ ":" +++ port +++ "?" +++ t +++ "=" +++ v) with (net +++ String ":" (port +++ String "?" (t +++ "=" +++ v))).
      replace (net +++ String ":" (port +++ String "?" (t +++ "=" +++ v)))
        with ((net +++ String ":" port) +++ String "?" (t +++ "=" +++ v)) by (rewrite append_assoc; reflexivity).
      rewrite split_on_app.
      2:{ rewrite shas_app, shas_cons, H1, H2. reflexivity. }
      rewrite split_on_none.
      2:{ rewrite !shas_app, H4. destruct H6 as [->| ->]; reflexivity. }
      assert (El : parse_label (t +++ "=" +++ v) = Ok l) by (apply parse_label_Ok; exists t, v; auto).
      rewrite El. cbn [bind]. rewrite rsplit1_app by exact H3. reflexivity.
Qed.

Theorem c23_roundtrip s :
  contains URN_NETWORK (s_network s +++ ":" +++ s_port s) = false ->
  shas "?" (s_network s) = false -> shas "?" (s_port s) = false -> shas ":" (s_port s) = false ->
  (forall l, s_label s = Some l -> (ltype l = "vlan" \/ ltype l = "mpls") /\ wf_values (lvalues l)) ->
  create_stp (urn s) = Ok s.
Proof.
  destruct s as [net port ol]. cbn [s_network s_port s_label]. intros Hc H1 H2 H3 Hl.
  destruct URN_facts as (Hq & Hcol & Hne).
  unfold urn, base_urn. cbn [s_network s_port s_label]. rewrite append_assoc.
  destruct ol as [l|]; cbn [label_suffix].
  - destruct (Hl l eq_refl) as [Ht Hwf].
    assert (Hah : after_hash (ltype l) = ltype l) by (destruct Ht as [->| ->]; reflexivity).
    rewrite Hah. apply c23_accepts.
    + change ("?" +++ ltype l +++ "=" +++ label_value l) with (String "?" (ltype l +++ "=" +++ label_value l)).
      rewrite contains_cross by assumption. rewrite Hc. cbn [orb].
      apply (contains_lacks ":"); [exact Hcol|]. rewrite !shas_app, label_value_lacks by reflexivity.
      destruct Ht as [->| ->]; reflexivity.
    + assert (Ea : (net +++ ":" +++ port) +++ "?" +++ ltype l +++ "=" +++ label_value l
                   = net +++ ":" +++ port +++ "?" +++ ltype l +++ "=" +++ label_value l) by (rewrite append_assoc; reflexivity).
      rewrite Ea. apply stp_labelled; auto; try (apply label_value_lacks; reflexivity). apply label_value_roundtrip. exact Hwf.
  - rewrite append_nil_r. apply c23_accepts; [exact Hc|]. apply stp_plain; assumption.
Qed.

Lemma label_of_str_err t s e : label_of_str t s = Err e -> e = EPayload.
Proof.
  unfold label_of_str, label_of_list, parse_items.
  assert (H : forall l, mapM create_value l = Err e -> e = EPayload).
  { induction l as [|x l IH]; cbn [mapM bind]; [discriminate|].
    destruct (create_value x) as [v|e'] eqn:Ex; cbn [bind].
    - destruct (mapM create_value l); cbn [bind]; [discriminate|]. intros [= ->]. auto.
    - intros [= ->]. unfold create_value in Ex. destruct (split1 "-" x) as [[a b]|].
      + destruct (py_int a), (py_int b); try congruence. destruct (_ >? _)%Z; congruence.
      + destruct (py_int x); congruence. }
  destruct (mapM create_value (split_on "," s)) as [v|e'] eqn:E; cbn [bind]; [discriminate|]. intros [= ->]. eauto.
Qed.

Theorem c23_rejects rest e : create_stp (URN_NETWORK +++ rest) = Err e -> contains URN_NETWORK rest = false ->
  e = EPayload \/ (e = EValue /\ ((exists a b c, rest = a +++ "?" +++ b +++ "?" +++ c) \/
                                  (exists a b c d, rest = a +++ "?" +++ b +++ "=" +++ c +++ "=" +++ d))).
Proof.
  intros H Hc. rewrite create_stp_tail in H by exact Hc. revert H.
  pose proof (join_split_on "?" rest) as Hj.
  destruct (split_on "?" rest) as [|loc [|lbp [|x xs]]] eqn:E.
  - exfalso. eapply split_on_nonnil. exact E.
  - cbn [bind]. destruct (rsplit1 ":" loc) as [[? ?]|]; [discriminate|]. intros [= <-]. auto.
  - cbn [bind]. unfold parse_label. pose proof (join_split_on "=" lbp) as Hj2.
    destruct (split_on "=" lbp) as [|t [|v [|y ys]]] eqn:E2; cbn [bind].
    + intros [= <-]. auto.
    + intros [= <-]. auto.
    + destruct (aget t LABEL_MAP) as [ty|]; cbn [bind]; [|intros [= <-]; auto].
      destruct (label_of_str ty v) as [l|e'] eqn:El; cbn [bind].
      * destruct (rsplit1 ":" loc) as [[? ?]|]; [discriminate|]. intros [= <-]. auto.
      * intros [= <-]. left. eapply label_of_str_err. exact El.
    + intros [= <-]. right. split; [reflexivity|]. right. exists loc, t, v, (join "=" (y :: ys)).
      cbn [join] in Hj, Hj2. rewrite <- Hj, <- Hj2. reflexivity.
  - intros [= <-]. right. split; [reflexivity|]. left. exists loc, lbp, (join "?" (x :: xs)).
    cbn [join] in Hj. rewrite <- Hj. reflexivity.
Qed.

Theorem c23_missing_prefix s : starts_with URN_NETWORK s = false -> create_stp s = Err EPayload.
Proof. intros H. unfold create_stp. rewrite H. reflexivity. Qed.

Theorem c23_refuted : ~ (forall s e, create_stp s = Err e -> e = EPayload).
Proof. intros H. specialize (H (URN_NETWORK +++ "n:p?vlan=1=2") EValue eq_refl). discriminate. Qed.

Theorem stp_eqb_refl s : stp_eqb s s = true.
Proof. unfold stp_eqb. rewrite !eqb_refl. destruct (s_label s) as [l|]; [|reflexivity]. rewrite label_eqb_refl. reflexivity. Qed.
