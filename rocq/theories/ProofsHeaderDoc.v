(** Proofs for C98. *)
From Coq Require Import Sorted.
From Verif Require Import Base BaseProofs ModelXml ModelAuthz ModelHeader SpecHeader ProofsHeader.
Open Scope Z_scope.

Lemma find1_first tag kids a t c : find1 tag (Elem "x" a t kids) = Some c <-> first_kid tag kids c.
Proof.
  unfold find1, findall. cbn [e_kids]. induction kids as [|k r IH].
  - split; [discriminate|]. intros (pre & post & E & _). destruct pre; discriminate.
  - cbn [filter]. destruct (eqb_ok (e_tag k) tag) as [E|N].
    + split.
      * intros [= <-]. exists [], r. split; [reflexivity|]. split; [exact E|]. intros x [].
      * intros (pre & post & Ek & Et & H). destruct pre as [|p pre]; injection Ek as -> ->; [reflexivity|]. destruct (H p (or_introl eq_refl) E).
    + rewrite IH. split; intros (pre & post & Ek & Et & H).
      * exists (k :: pre), post. rewrite Ek. split; [reflexivity|]. split; [exact Et|]. intros x [<-|X]; auto.
      * destruct pre as [|p pre]; injection Ek as -> ->; [congruence|]. exists pre, post. split; [reflexivity|]. split; [exact Et|]. intros x X. apply H. right. exact X.
Qed.
Lemma find1_none tag kids a t : find1 tag (Elem "x" a t kids) = None <-> forall c, In c kids -> e_tag c <> tag.
Proof.
  unfold find1, findall. cbn [e_kids]. induction kids as [|k r IH]; [split; [intros _ c []|reflexivity]|]. cbn [filter]. destruct (eqb_ok (e_tag k) tag) as [E|N].
  - split; [discriminate|]. intros H. destruct (H k (or_introl eq_refl) E).
  - rewrite IH. split; intros H c C; [destruct C as [<-|C]; auto|apply H; right; exact C].
Qed.
Lemma find1_root tag r r' a a' t t' kids : find1 tag (Elem r a t kids) = find1 tag (Elem r' a' t' kids).
Proof. reflexivity. Qed.
Lemma findtext_field tag r a t kids : field tag kids (findtext tag (Elem r a t kids)).
Proof.
  unfold findtext. rewrite (find1_root tag r "x" a a t t). destruct (find1 tag (Elem "x" a t kids)) as [c|] eqn:E.
  - apply find1_first in E. exists c. split; [exact E|]. destruct (e_text c); auto.
  - pose proof (proj1 (find1_none _ _ _ _) E) as E1. exact E1.
Qed.
Lemma first_kid_unique tag kids c c' : first_kid tag kids c -> first_kid tag kids c' -> c = c'.
Proof. intros H H'. apply (find1_first tag kids [] None) in H. apply (find1_first tag kids [] None) in H'. congruence. Qed.
Lemma field_unique tag kids v v' : field tag kids v -> field tag kids v' -> v = v'.
Proof.
  assert (X : forall s, field tag kids (Some s) -> ~ field tag kids None).
  { intros s (c & (pre & post & E & Et & _) & _) H. apply (H c); [rewrite E; apply in_or_app; right; left; reflexivity|exact Et]. }
  destruct v as [s|], v' as [s'|]; intros H H'; [|destruct (X _ H H')|destruct (X _ H' H)|reflexivity].
  destruct H as (c & F & T), H' as (c' & F' & T'). rewrite <- (first_kid_unique _ _ _ _ F F') in T'. destruct T as [T|[-> T]], T' as [T'|[-> T']]; congruence.
Qed.

Lemma in_get (n v : string) (l : list (string * string)) : NoDup (map fst l) -> In (n, v) l <-> aget n l = Some v.
Proof.
  induction l as [|[k w] l IH]; intros N; [split; [intros []|discriminate]|]. cbn [aget In]. inversion N as [|? ? N1 N2]; subst.
  destruct (eqb_ok n k) as [->|Hn].
  - split; [intros [[= <-]|H]; [reflexivity|destruct N1; apply (in_map fst) in H; exact H]|intros [= <-]; left; reflexivity].
  - rewrite <- IH by exact N2. split; [intros [[= <- <-]|H]; [congruence|exact H]|auto].
Qed.

(** Attributes. *)
Lemma values_ok n vs : exists l, attr_values (Some n) vs = Ok l /\ forall m v, In (mkSA m v) l <-> m = n /\ In (Some v) vs.
Proof.
  induction vs as [|[v|] vs (l & E & H)].
  - exists []. split; [reflexivity|]. intros m v. split; [intros []|intros [_ []]].
  - exists (mkSA n v :: l). cbn [attr_values]. rewrite E. split; [reflexivity|]. intros m w. cbn [In]. rewrite H. split.
    + intros [[= <- <-]|[-> I]]; auto.
    + intros [-> [[= <-]|I]]; auto.
  - exists l. cbn [attr_values]. split; [exact E|]. intros m w. rewrite H. cbn [In]. split; [tauto|intros [-> [X|I]]; [discriminate|auto]].
Qed.
Lemma attrs_ok as_ : (forall a, In a as_ -> attrs_once a /\ (exists n, In ("Name", n) (e_attrs a)) /\ e_kids a <> []) ->
  exists l, attrs_of (map attribute_build as_) = Ok l /\ forall m v, In (mkSA m v) l <-> exists a w, In a as_ /\ In ("Name", m) (e_attrs a) /\ In w (e_kids a) /\ e_text w = Some v.
Proof.
  unfold attrs_of. induction as_ as [|a r IH]; intros H.
  - exists []. split; [reflexivity|]. intros m v. split; [intros []|intros (a & w & [] & _)].
  - destruct (IH (fun x X => H x (or_intror X))) as (l & E & L). destruct (H a (or_introl eq_refl)) as (O & (n & N) & K).
    destruct (values_ok n (map e_text (e_kids a))) as (lv & Ev & Lv).
    assert (G : e_get "Name" a = Some n) by (apply in_get; assumption).
    assert (Bd : attribute_build a = (Some n, Some (map e_text (e_kids a)))) by (unfold attribute_build; rewrite G; destruct (e_kids a); [congruence|reflexivity]).
    cbn [map mapM]. rewrite Bd. cbn [snd fst].
    rewrite Ev. cbn [Base.bind]. destruct (mapM _ (map attribute_build r)) as [ls|e] eqn:Em; [|discriminate]. cbn [Base.bind] in E |- *. injection E as <-.
    exists (lv ++ concat ls). split; [reflexivity|]. intros m v. rewrite in_app_iff, Lv, L. split.
    + intros [[-> I]|(b & w & B & X)]; [|exists b, w; split; [right; exact B|exact X]]. apply in_map_iff in I as (w & W & I). exists a, w. repeat split; auto. left. reflexivity.
    + intros (b & w & [<-|B] & Nm & I & W); [left|right; eauto 8]. split; [|rewrite <- W; apply in_map; exact I].
      apply in_get in Nm; [|exact O]. unfold e_get in G. congruence.
Qed.
Lemma ssa_all r a t kids : concat (map ssa_build (findall "sessionSecurityAttr" (Elem r a t kids))) =
  map attribute_build (concat (map (findall "{SAML}Attribute") (filter (fun k => eqb (e_tag k) "sessionSecurityAttr") kids))).
Proof. unfold findall at 1. cbn [e_kids]. rewrite concat_map, map_map. reflexivity. Qed.
Lemma attribute_in_spec kids a : In a (concat (map (findall "{SAML}Attribute") (filter (fun k => eqb (e_tag k) "sessionSecurityAttr") kids))) <-> attribute_in kids a.
Proof.
  rewrite in_concat. split.
  - intros (l & L & I). apply in_map_iff in L as (s & <- & S). apply filter_In in S as [S1 S2]. apply filter_In in I as [I1 I2].
    exists s. split; [exact S1|]. split; [exact (proj1 (eqb_true _ _) S2)|]. split; [exact I1|exact (proj1 (eqb_true _ _) I2)].
  - intros (s & S & T & I & E). exists (findall "{SAML}Attribute" s). split.
    + apply in_map. apply filter_In. split; [exact S|]. rewrite T. apply eqb_refl.
    + apply filter_In. split; [exact I|]. rewrite E. apply eqb_refl.
Qed.

(** The trace. *)
Lemma insert_in {A} (x y : Z * A) l : In y (insert_idx x l) <-> y = x \/ In y l.
Proof. induction l as [|z l IH]; cbn; [intuition|]. destruct (fst x <=? fst z); cbn; [intuition|]. rewrite IH. intuition. Qed.
Lemma sort_in {A} (y : Z * A) l : In y (sort_idx l) <-> In y l.
Proof. induction l as [|x l IH]; [reflexivity|]. cbn [sort_idx In]. rewrite insert_in, IH. intuition. Qed.
Lemma insert_ss {A} (x : Z * A) l : StronglySorted (fun a b => fst a <= fst b) l -> StronglySorted (fun a b => fst a <= fst b) (insert_idx x l).
Proof.
  induction l as [|z l IH]; intros S; cbn [insert_idx]; [repeat constructor|]. destruct (Z.leb_spec (fst x) (fst z)) as [L|G].
  - constructor; [exact S|]. apply StronglySorted_inv in S as [_ F]. constructor; [exact L|]. eapply Forall_impl; [|exact F]. cbn. intros w W. lia.
  - apply StronglySorted_inv in S as [S F]. constructor; [exact (IH S)|]. apply Forall_forall. intros w W. apply insert_in in W as [->|W]; [lia|]. rewrite Forall_forall in F. exact (F _ W).
Qed.
Lemma sort_ss {A} (l : list (Z * A)) : StronglySorted (fun a b => fst a <= fst b) (sort_idx l).
Proof. induction l as [|x l IH]; [constructor|]. apply insert_ss. exact IH. Qed.
Lemma hops_ok cs : (forall c, In c cs -> attrs_once c /\ exists i, In ("index", py_str i) (e_attrs c)) ->
  exists ps, mapM connection_build cs = Ok ps /\ forall i v, In (i, v) ps <-> exists c, In c cs /\ In ("index", py_str i) (e_attrs c) /\ e_text c = v.
Proof.
  induction cs as [|c cs IH]; intros H.
  - exists []. split; [reflexivity|]. intros i v. split; [intros []|intros (c & [] & _)].
  - destruct (IH (fun x X => H x (or_intror X))) as (ps & E & P). destruct (H c (or_introl eq_refl)) as (O & i & I).
    exists ((i, e_text c) :: ps). assert (G : e_get "index" c = Some (py_str i)) by (apply in_get; assumption).
    assert (B : connection_build c = Ok (i, e_text c)) by (unfold connection_build; rewrite G, py_int_str; reflexivity).
    cbn [mapM]. rewrite B. cbn [Base.bind]. rewrite E. split; [reflexivity|]. intros j v. cbn [In]. rewrite P. split.
    + intros [[= <- <-]|(d & D & X)]; [exists c; auto|exists d; auto].
    + intros (d & [<-|D] & X & T); [left|right; eauto]. apply in_get in X; [|exact O]. unfold e_get in G. rewrite G in X. injection X as X. apply py_str_inj in X. congruence.
Qed.

Theorem header_reads fresh env kids body : message env kids body -> attributes_sound kids -> (forall t, first_kid "{GNS}ConnectionTrace" kids t -> trace_sound t) ->
  exists d, parse_request fresh env = Ok (d, body) /\
    field "requesterNSA" kids (d_requester d) /\ field "providerNSA" kids (d_provider d) /\ field "replyTo" kids (d_reply_to d) /\
    (forall c, field "correlationId" kids (Some c) -> c <> "" -> d_corr d = Some c) /\
    ((forall c, field "correlationId" kids (Some c) -> c = "") -> d_corr d = Some fresh) /\
    (forall n v, In (mkSA n v) (d_attrs d) <-> attribute_says kids n v) /\ trace_is kids (d_trace d).
Proof.
  intros M A T. destruct M. unfold parse_request, parse_soap_payload. cbn [e_tag].
  change (eqb "{SOAP}Envelope" T_ENVELOPE) with true. cbn [negb e_kids soap_children e_tag]. change (eqb "{SOAP}Header" T_SOAP_HEADER) with true. cbn [soap_children e_tag e_kids].
  change (eqb "{SOAP}Body" T_SOAP_HEADER) with false. change (eqb "{SOAP}Body" T_SOAP_BODY) with true. cbn [Base.bind]. unfold header_build. cbn [e_tag]. change (eqb "{NSI}nsiHeader" T_HEADER) with true. cbn [negb].
  set (h := Elem "{NSI}nsiHeader" a3 t3 kids).
  assert (Tr : exists tr, match find1 T_TRACE h with None => Ok None | Some t => do! l <- mapM connection_build (findall "Connection" t); Ok (Some (map snd (sort_idx l))) end = Ok tr /\ trace_is kids tr).
  { unfold h. rewrite (find1_root T_TRACE _ "x" a3 a3 t3 t3). destruct (find1 T_TRACE (Elem "x" a3 t3 kids)) as [t|] eqn:E.
    - apply find1_first in E. destruct (hops_ok (findall "Connection" t)) as (ps & -> & P).
      { intros c C. apply filter_In in C as [C1 C2]. apply (T t E). split; [exact C1|exact (proj1 (eqb_true _ _) C2)]. }
      cbn [Base.bind]. eexists. split; [reflexivity|]. exists t, (sort_idx ps). split; [exact E|]. split; [apply sort_ss|]. split; [|reflexivity].
      intros i v. rewrite sort_in, P. unfold hop_says, hop, findall. split.
      + intros (c & C & X). apply filter_In in C as [C1 C2]. exists c. split; [split; [exact C1|exact (proj1 (eqb_true _ _) C2)]|exact X].
      + intros (c & (C1 & C2) & X). exists c. split; [|exact X]. apply filter_In. split; [exact C1|]. rewrite C2. apply eqb_refl.
    - pose proof (proj1 (find1_none _ _ _ _) E) as E1. exists None. split; [reflexivity|exact E1]. }
  destruct Tr as (tr & -> & Htr). cbn [Base.bind]. unfold h at 1. rewrite ssa_all.
  destruct (attrs_ok (concat (map (findall "{SAML}Attribute") (filter (fun k => eqb (e_tag k) "sessionSecurityAttr") kids)))) as (l & -> & L).
  { intros a I. apply A. apply attribute_in_spec. exact I. }
  cbn [Base.bind]. eexists. split; [reflexivity|]. cbn [d_requester d_provider d_reply_to d_corr d_attrs d_trace].
  split; [apply findtext_field|]. split; [apply findtext_field|]. split; [apply findtext_field|].
  pose proof (findtext_field "correlationId" "{NSI}nsiHeader" a3 t3 kids) as F. fold h in F. split; [|split; [|split; [|exact Htr]]].
  - intros c Fc Nc. rewrite (field_unique _ _ _ _ F Fc). unfold py_or, truthy. destruct c; [congruence|reflexivity].
  - intros H. destruct (findtext "correlationId" h) as [c|]; [rewrite (H c F)|]; reflexivity.
  - intros n v. rewrite L. unfold attribute_says. split; intros (a & w & I & X); exists a, w; (split; [apply attribute_in_spec; exact I|exact X]).
Qed.

Theorem header_refused fresh env :
  (e_tag env <> "{SOAP}Envelope" \/
   (exists k, hd_error (e_kids env) = Some k /\ e_tag k = "{SOAP}Body") \/
   (exists k, hd_error (e_kids env) = Some k /\ e_tag k = "{SOAP}Header" /\ (List.length (e_kids k) <> 1%nat \/ exists h, In h (e_kids k) /\ e_tag h <> "{NSI}nsiHeader"))) ->
  exists e, parse_request fresh env = Err e.
Proof.
  unfold parse_request, parse_soap_payload. intros [N|[(k & H & T)|(k & H & T & X)]].
  - rewrite (eqb_neq (e_tag env) T_ENVELOPE) by exact N. cbn [negb Base.bind]. eauto.
  - destruct (negb _); cbn [Base.bind]; [eauto|]. destruct (e_kids env) as [|k0 r]; [discriminate|]. injection H as ->. cbn [soap_children]. rewrite T. change (eqb "{SOAP}Body" T_SOAP_HEADER) with false. change (eqb "{SOAP}Body" T_SOAP_BODY) with true. cbn [Base.bind]. eauto.
  - destruct (negb _); cbn [Base.bind]; [eauto|]. destruct (e_kids env) as [|k0 r]; [discriminate|]. injection H as ->. cbn [soap_children]. rewrite T. change (eqb "{SOAP}Header" T_SOAP_HEADER) with true. cbv iota.
    assert (G : forall r o, (exists e, soap_children (Some o) r = Err e) \/ exists b, soap_children (Some o) r = Ok (Some o, b)).
    { clear. intros r o. destruct r as [|c r]; cbn [soap_children]; [eauto|]. destruct (eqb _ _); [eauto|]. destruct (eqb _ _); eauto. }
    destruct (G r (e_kids k)) as [(e & ->)|(b & ->)]; cbn [Base.bind]; [eauto|]. destruct (e_kids k) as [|h [|h' r']]; [eauto| |eauto].
    destruct X as [X|(h' & [<-|[]] & Th)]; [cbn in X; congruence|]. unfold header_build. rewrite (eqb_neq (e_tag h) T_HEADER) by exact Th. cbn. eauto.
Qed.

(** What is written. *)
Lemma group_head t l : forall vs g, fold_left group_step l ((t, vs) :: g) =
  (t, vs ++ map sa_value (filter (fun sa => eqb (sa_type sa) t) l)) :: fold_left group_step (filter (fun sa => negb (eqb (sa_type sa) t)) l) g.
Proof.
  induction l as [|sa l IH]; intros vs g; [rewrite app_nil_r; reflexivity|]. cbn [fold_left filter]. unfold group_step at 2. cbn [aget aset].
  destruct (eqb_ok (sa_type sa) t) as [E|N].
  - rewrite IH. cbn [negb map]. rewrite <- app_assoc. reflexivity.
  - rewrite IH. cbn [negb fold_left]. reflexivity.
Qed.
Lemma group_grouped l : grouped (map (fun sa => (sa_type sa, sa_value sa)) l) (group_attrs l).
Proof.
  unfold group_attrs. remember (List.length l) as n eqn:En. assert (Hn : (List.length l <= n)%nat) by lia. clear En. revert l Hn.
  induction n as [|n IH]; intros [|[t v] l] Hn; try constructor; [cbn in Hn; lia|].
  cbn [map fold_left sa_type sa_value]. change (group_step [] (mkSA t v)) with [(t, [v])]. rewrite group_head. cbn [app].
  assert (E1 : map sa_value (filter (fun sa => eqb (sa_type sa) t) l) = map snd (filter (fun x => eqb (fst x) t) (map (fun sa => (sa_type sa, sa_value sa)) l))).
  { clear. induction l as [|[t' v'] l IH]; [reflexivity|]. cbn [map filter fst sa_type]. destruct (eqb t' t); cbn [map snd sa_value]; rewrite IH; reflexivity. }
  assert (E2 : filter (fun x => negb (eqb (fst x) t)) (map (fun sa => (sa_type sa, sa_value sa)) l) = map (fun sa => (sa_type sa, sa_value sa)) (filter (fun sa => negb (eqb (sa_type sa) t)) l)).
  { clear. induction l as [|[t' v'] l IH]; [reflexivity|]. cbn [map filter fst sa_type]. destruct (eqb t' t); cbn [negb map sa_type sa_value]; rewrite IH; reflexivity. }
  rewrite E1. constructor. rewrite E2. apply IH. assert (L : (List.length (filter (fun sa => negb (eqb (sa_type sa) t)) l) <= List.length l)%nat).
  { clear. induction l as [|x l IH]; [cbn; lia|]. cbn [filter]. destruct (negb _); cbn [List.length]; lia. }
  cbn [List.length] in Hn. lia.
Qed.
Lemma trace_hops l : forall i, trace_xml i l = map (fun p => Elem "Connection" [("index", py_str (Z.of_nat (fst p)))] (Some (snd p)) []) (combine (seq i (List.length l)) l).
Proof. induction l as [|c l IH]; intros i; [reflexivity|]. cbn [trace_xml List.length seq combine map fst snd]. rewrite IH. reflexivity. Qed.
