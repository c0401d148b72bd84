(** Proofs about exporting and importing topologies. *)
From Verif Require Import Base BaseProofs ModelXml ModelLabel SpecLabel ProofsLabel ModelSTP ModelAuthz ModelNRM ModelNml SpecNml.

Lemma nbind_ok {A B} (r : result A) (f : A -> result B) b : bind r f = Ok b -> exists a, r = Ok a /\ f a = Ok b.
Proof. destruct r; [eauto|discriminate]. Qed.

Lemma ok_inj {A} (a b : A) : Ok a = Ok b -> a = b.
Proof. congruence. Qed.

Lemma base_name_urn s : base_name (URN_NETWORK +++ s) = Ok s.
Proof. unfold base_name. rewrite starts_with_app, sdrop_app. reflexivity. Qed.
Lemma after_colon_id net nm : shas ":" nm = false -> after_colon (net +++ ":" +++ nm) = nm.
Proof. intros H. unfold after_colon. change (":" +++ nm) with (String ":" nm). rewrite rsplit1_app by exact H. reflexivity. Qed.

Lemma label_text l : label_ok (Some l) ->
  aget (ltype l) NML_LABEL_MAPPING = Some (nml_name (ltype l)) /\
  (exists s, (match label_value l with EmptyString => None | _ => Some (label_value l) end) = Some s /\
   label_of_str (nml_name (ltype l)) s = Ok (mkLabel (nml_name (ltype l)) (lvalues l))).
Proof.
  intros (T & W). split; [destruct T as [-> | ->]; reflexivity|].
  pose proof (label_value_roundtrip (mkLabel (nml_name (ltype l)) (lvalues l)) W) as R. cbn [ltype] in R.
  change (label_value (mkLabel (nml_name (ltype l)) (lvalues l))) with (label_value l) in R.
  destruct (label_value l) as [|c s] eqn:V; [|eauto].
  exfalso. revert R. generalize (nml_name (ltype l)). intros t. vm_compute. discriminate.
Qed.

(** one port *)
Lemma port_round net p e : label_ok (np_label p) -> np_id p = net +++ ":" +++ np_name p -> shas ":" (np_name p) = false ->
  starts_with "urn:" (np_id p) = false -> port_xml (URN_NETWORK +++ net) p = Ok e ->
  parse_port (wire e) = Ok (nml_port p) /\ is_port_tag (e_tag (wire e)) = true.
Proof.
  intros L I C U X. unfold port_xml in X. apply nbind_ok in X as (lab & EL & X). cbn zeta in X.
  assert (foldM port_child (map wire lab) (None, None, None) = Ok (None, np_label (nml_port p), None)) as FL.
  { destruct p as [id nm [l|] rem]; cbn [np_label nml_port] in *.
    - destruct (label_text l L) as (M & s & ES & PS). rewrite M in EL.
      assert (lab = [Elem "nml:LabelGroup" [("labeltype", nml_name (ltype l))] (Some (label_value l)) []]) as -> by congruence.
      cbn [map wire foldM]. rewrite ES. unfold port_child. cbn [e_tag e_text].
      change (eqb "nml:LabelGroup" "nml:name") with false. change (eqb "nml:LabelGroup" "nml:Label" || eqb "nml:LabelGroup" "nml:LabelGroup") with true.
      cbv iota. unfold attrib, e_get. cbn [e_attrs aget]. change (eqb "labeltype" "labeltype") with true. cbv iota. cbn [bind].
      rewrite PS. cbn [bind]. reflexivity.
    - injection EL as <-. reflexivity. }
  assert (forall t k, foldM port_child (map wire (lab ++ t)) (None, None, None) = k <->
          foldM port_child (map wire t) (None, np_label (nml_port p), None) = k) as FA.
  { intros t k. rewrite map_app. assert (forall A B (f : A -> B -> result A) l1 l2 a, foldM f (l1 ++ l2) a = do! a' <- foldM f l1 a; foldM f l2 a') as FAP.
    { clear. intros A B f l1 l2. induction l1 as [|x l1 IH]; intros a; cbn; [reflexivity|]. destruct (f a x); cbn; [apply IH|reflexivity]. }
    rewrite FAP, FL. cbn [bind]. reflexivity. }
  set (rem := match np_remote p with None => [] | Some r => _ end) in X.
  assert (foldM port_child (map wire (lab ++ rem)) (None, None, None) = Ok (None, np_label (nml_port p), np_remote p)) as FR.
  { apply FA. unfold rem. destruct (np_remote p) as [r|]; [|reflexivity].
    cbn [map wire foldM]. unfold port_child. cbn [e_tag].
    change (eqb "nml:Relation" "nml:name") with false. change (eqb "nml:Relation" "nml:Label" || eqb "nml:Relation" "nml:LabelGroup") with false.
    change (eqb "nml:Relation" "nml:Relation") with true. cbv iota. unfold attrib, e_get. cbn [e_attrs aget e_kids].
    change (eqb "type" "type") with true. cbv iota. cbn [bind]. change (eqb IS_ALIAS IS_ALIAS) with true. cbv iota.
    change (eqb "id" "id") with true. cbv iota. cbn [bind]. rewrite base_name_urn. reflexivity. }
  apply ok_inj in X. subst e. cbn [wire e_tag]. split; [|reflexivity].
  unfold parse_port. cbn [e_tag e_kids]. change (is_port_tag "nml:PortGroup") with true. cbn [negb].
  unfold attrib at 1, e_get. cbn [e_attrs aget]. change (eqb "id" "id") with true. cbv iota. cbn [bind].
  rewrite append_assoc, base_name_urn. cbn [bind]. rewrite FR. cbn [bind].
  rewrite after_colon_id by exact C. unfold nport_new. rewrite <- I, U, C. reflexivity.
Qed.

(** a relation: the dict holds the ports in order *)
Lemma aset_new {V} (k : string) (v : V) d : ~ In k (map fst d) -> aset k v d = d ++ [(k, v)].
Proof.
  induction d as [|[k' v'] d IH]; intros N; cbn; [reflexivity|]. destruct (eqb_ok k k') as [<-|D].
  - exfalso. apply N. left. reflexivity.
  - rewrite IH; [reflexivity|]. intros I. apply N. right. exact I.
Qed.
Definition port_good (net : string) (p : nport) : Prop :=
  label_ok (np_label p) /\ np_id p = net +++ ":" +++ np_name p /\ shas ":" (np_name p) = false /\ starts_with "urn:" (np_id p) = false.
Definition dict_of (l : list nport) : list (string * nport) := map (fun p => (np_id p, nml_port p)) l.
Lemma relation_fold net l : forall es d, Forall (port_good net) l -> mapM (port_xml (URN_NETWORK +++ net)) l = Ok es ->
  NoDup (map fst d ++ map np_id l) ->
  foldM (fun d npe => if is_port_tag (e_tag npe) then do! p <- parse_port npe; Ok (aset (np_id p) p d) else Ok d) (map wire es) d = Ok (d ++ dict_of l).
Proof.
  induction l as [|p l IH]; intros es d G M ND.
  - injection M as <-. cbn. rewrite app_nil_r. reflexivity.
  - cbn [mapM] in M. apply nbind_ok in M as (e & E & M). apply nbind_ok in M as (es' & ES & M). injection M as <-.
    apply Forall_cons_iff in G as ((L & I & C & U) & G). destruct (port_round net p e L I C U E) as (P & T).
    cbn [map foldM]. rewrite T, P. cbn [bind]. change (np_id (nml_port p)) with (np_id p).
    assert (~ In (np_id p) (map fst d)) as N.
    { cbn [map] in ND. apply NoDup_remove_2 in ND. intros J. apply ND, in_or_app. auto. }
    rewrite aset_new by exact N. rewrite (IH es' _ G ES).
    + rewrite <- app_assoc. reflexivity.
    + rewrite map_app, <- app_assoc. exact ND.
Qed.
Lemma ports_fold rel net l es s : (rel = HAS_IN \/ rel = HAS_OUT) -> Forall (port_good net) l ->
  ports_xml rel (URN_NETWORK +++ net) l = Ok es -> NoDup (map np_id l) ->
  (rel = HAS_IN -> ps_in s = []) -> (rel = HAS_OUT -> ps_out s = []) ->
  foldM topo_child (map wire es) s =
  Ok (if eqb rel HAS_IN then mkPS (ps_name s) (dict_of l) (ps_out s) (ps_bd s) else mkPS (ps_name s) (ps_in s) (dict_of l) (ps_bd s)).
Proof.
  intros R G X ND ZI ZO. destruct l as [|p l].
  - injection X as <-. cbn [map foldM dict_of]. destruct s as [nm i o b]. cbn [ps_in ps_out ps_name ps_bd] in *.
    destruct R as [-> | ->]; [rewrite ZI by reflexivity|rewrite ZO by reflexivity]; reflexivity.
  - assert (exists es', mapM (port_xml (URN_NETWORK +++ net)) (p :: l) = Ok es' /\ es = [Elem "nml:Relation" [("type", rel)] None es']) as (es' & M & ->).
    { unfold ports_xml in X. apply nbind_ok in X as (es' & M & X). injection X as <-. eauto. }
    cbn [map wire foldM]. unfold topo_child. cbn [e_tag].
    change (eqb "nml:Relation" "nml:name") with false. change (eqb "nml:Relation" "nml:Relation") with true. cbv iota.
    unfold attrib, e_get. cbn [e_attrs aget]. change (eqb "type" "type") with true. cbv iota. cbn [bind].
    destruct R as [-> | ->].
    + change (eqb HAS_IN HAS_IN) with true. cbv iota. unfold parse_relation. cbn [e_kids]. rewrite ZI by reflexivity.
      rewrite (relation_fold net (p :: l) es' [] G M ND). reflexivity.
    + change (eqb HAS_OUT HAS_IN) with false. change (eqb HAS_OUT HAS_OUT) with true. cbv iota. unfold parse_relation. cbn [e_kids]. rewrite ZO by reflexivity.
      rewrite (relation_fold net (p :: l) es' [] G M ND). reflexivity.
Qed.

(** bidirectional ports *)
Definition bd_of (net : string) (b : bport) : string * option string * (string * string) :=
  (net +++ ":" +++ bp_name b, Some (bp_name b), (net +++ ":" +++ np_name (bp_in b), net +++ ":" +++ np_name (bp_out b))).
Lemma bd_parse net b : bp_name b <> "" -> parse_bd (wire (bport_xml (URN_NETWORK +++ net) b)) = Ok (bd_of net b).
Proof.
  intros N. unfold bport_xml, leaf. cbn [wire map]. unfold parse_bd, attrib, e_get. cbn [e_attrs aget e_kids].
  change (eqb "id" "id") with true. cbv iota. cbn [bind]. rewrite append_assoc, base_name_urn. cbn [bind foldM].
  unfold bd_child, attrib, e_get. cbn [e_tag e_text e_attrs aget].
  change (eqb "nml:name" "nml:name") with true. change (eqb "nml:PortGroup" "nml:name") with false. change (is_port_tag "nml:PortGroup") with true.
  change (eqb "id" "id") with true. cbv iota. cbn [bind]. rewrite !append_assoc, !base_name_urn. cbn [bind app].
  unfold bd_of. destruct (bp_name b) as [|c nm] eqn:E; [contradiction|]. reflexivity.
Qed.
Lemma bds_fold net l : forall s, Forall (fun b => bp_name b <> "") l ->
  foldM topo_child (map wire (map (bport_xml (URN_NETWORK +++ net)) l)) s = Ok (mkPS (ps_name s) (ps_in s) (ps_out s) (ps_bd s ++ map (bd_of net) l)).
Proof.
  induction l as [|b l IH]; intros s F; cbn [map foldM].
  - rewrite app_nil_r. destruct s. reflexivity.
  - apply Forall_cons_iff in F as (N & F). unfold topo_child at 1.
    change (e_tag (wire (bport_xml (URN_NETWORK +++ net) b))) with "nml:BidirectionalPort".
    change (eqb "nml:BidirectionalPort" "nml:name") with false. change (eqb "nml:BidirectionalPort" "nml:Relation") with false.
    change (eqb "nml:BidirectionalPort" "nml:BidirectionalPort") with true. cbv iota. rewrite bd_parse by exact N. cbn [bind].
    rewrite IH by exact F. cbn [ps_name ps_in ps_out ps_bd]. rewrite <- app_assoc. reflexivity.
Qed.
Lemma foldM_app {A B} (f : A -> B -> result A) l1 l2 : forall a, foldM f (l1 ++ l2) a = do! a' <- foldM f l1 a; foldM f l2 a'.
Proof. induction l1 as [|x l1 IH]; intros a; cbn; [reflexivity|]. destruct (f a x); cbn; [apply IH|reflexivity]. Qed.

Lemma aget_dict l p : NoDup (map np_id l) -> In p l -> aget (np_id p) (dict_of l) = Some (nml_port p).
Proof.
  induction l as [|q l IH]; intros ND I; [destruct I|]. cbn [dict_of map aget]. cbn [map] in ND. apply NoDup_cons_iff in ND as (N & ND).
  destruct (eqb_ok (np_id p) (np_id q)) as [E|D].
  - destruct I as [->|I]; [reflexivity|]. exfalso. apply N. rewrite <- E. apply in_map. exact I.
  - destruct I as [->|I]; [contradiction|]. apply IH; assumption.
Qed.

(** the whole document, for a network whose parts fit together *)
Record net_good (n : network) : Prop := {
  ng_name : nw_name n <> "";
  ng_in : Forall (port_good (nw_id n)) (nw_in n);
  ng_out : Forall (port_good (nw_id n)) (nw_out n);
  ng_in_nd : NoDup (map np_id (nw_in n));
  ng_out_nd : NoDup (map np_id (nw_out n));
  ng_bi : Forall (fun b => bp_name b <> "" /\ In (bp_in b) (nw_in n) /\ In (bp_out b) (nw_out n) /\
             bp_id b = nw_id n +++ ":" +++ bp_name b /\ starts_with "urn:" (bp_id b) = false /\
             np_label (bp_in b) = np_label (bp_out b)) (nw_bi n) }.
Lemma parts_round version swap n e : net_good n -> topology_xml version swap n = Ok e ->
  parse_parts (wire e) = Ok (nw_id n, Some (nw_name n), map nml_port (nw_in n), map nml_port (nw_out n), map nml_bport (nw_bi n)).
Proof.
  intros [NN GI GO DI DO GB] X. unfold topology_xml in X. cbn zeta in X.
  apply nbind_ok in X as (ins & XI & X). apply nbind_ok in X as (outs & XO & X). apply ok_inj in X. subst e.
  cbn [wire]. unfold parse_parts. cbn [e_tag e_kids]. change (eqb "nml:Topology" "nml:Topology") with true. cbn [negb].
  unfold attrib, e_get. cbn [e_attrs aget]. change (eqb "id" "id") with true. cbv iota. cbn [bind]. rewrite base_name_urn. cbn [bind map foldM].
  unfold topo_child at 1. unfold leaf at 1. cbn [wire map e_tag e_text]. change (eqb "nml:name" "nml:name") with true. cbv iota. cbn [bind].
  destruct (nw_name n) as [|nc nn] eqn:NE; [contradiction|]. clear NE.
  cbn [ps_in ps_out ps_bd]. rewrite !map_app, !foldM_app.
  rewrite bds_fold; [|eapply Forall_impl; [|exact GB]; intros b (B & _); exact B]. cbn [bind ps_name ps_in ps_out ps_bd app].
  rewrite foldM_app, (ports_fold HAS_IN (nw_id n) (nw_in n) ins); auto.
  change (eqb HAS_IN HAS_IN) with true. cbv iota. cbn [bind ps_name ps_in ps_out ps_bd].
  rewrite foldM_app, (ports_fold HAS_OUT (nw_id n) (nw_out n) outs); auto; try discriminate.
  change (eqb HAS_OUT HAS_IN) with false. cbv iota. cbn [bind ps_name ps_in ps_out ps_bd].
  match goal with |- bind (foldM topo_child ?l ?s) _ = _ => assert (foldM topo_child l s = Ok s) as -> by reflexivity end.
  cbn [bind ps_name ps_in ps_out ps_bd].
  set (s := mkPS _ _ _ _).
  assert (mapM (make_bd s) (map (bd_of (nw_id n)) (nw_bi n)) = Ok (map nml_bport (nw_bi n))) as ->.
  { rewrite Forall_forall in GI, GO. clear XI XO NN. revert GB. generalize (nw_bi n). induction l as [|b l IH]; intros GB; [reflexivity|].
    apply Forall_cons_iff in GB as ((BN & BI & BO & BE & BU & BL) & GB). specialize (IH GB). cbn [map mapM].
    destruct (GI _ BI) as (_ & EI & _). destruct (GO _ BO) as (_ & EO & _).
    assert (make_bd s (bd_of (nw_id n) b) = Ok (nml_bport b)) as ->.
    { unfold make_bd, bd_of, s, ahas, dget. cbn [ps_in ps_out]. rewrite <- EI, <- EO, (aget_dict _ _ DI BI), (aget_dict _ _ DO BO). cbn [bind].
      unfold bport_new. cbn [nml_port np_label]. rewrite BL. destruct (np_label (bp_out b)) as [lb|].
      - cbn [ltype]. destruct (eqb_ok (nml_name (ltype lb)) (nml_name (ltype lb))) as [_|D]; [|contradiction]. cbn [bind].
        rewrite <- BE, BU. unfold nml_bport. reflexivity.
      - cbn [bind]. rewrite <- BE, BU. reflexivity. }
    cbn [bind]. rewrite IH. reflexivity. }
  cbn [bind]. unfold s, dict_of. cbn [ps_name ps_in ps_out]. rewrite !map_map. reflexivity.
Qed.

(** a configured network fits together *)
Lemma create_ports_inv net p i o b : create_ports net p = Ok (i, o, b) ->
  np_id i = net +++ ":" +++ np_name i /\ np_name i = p_name p +++ "-in" /\ np_label i = p_label p /\ shas ":" (np_name i) = false /\ starts_with "urn:" (np_id i) = false /\
  np_id o = net +++ ":" +++ np_name o /\ np_name o = p_name p +++ "-out" /\ np_label o = p_label p /\ shas ":" (np_name o) = false /\ starts_with "urn:" (np_id o) = false /\
  bp_in b = i /\ bp_out b = o /\ bp_name b = p_name p /\ bp_id b = net +++ ":" +++ p_name p /\ starts_with "urn:" (bp_id b) = false.
Proof.
  unfold create_ports. destruct (eqb (p_type p) "ethernet"); cbn [negb]; [|discriminate].
  intros H. apply nbind_ok in H as (i' & HI & H). apply nbind_ok in H as (o' & HO & H). apply nbind_ok in H as (b' & HB & H).
  injection H as -> -> ->.
  unfold nport_new in HI, HO. revert HI. destruct (starts_with "urn:" (net +++ ":" +++ (p_name p +++ "-in"))) eqn:U1; [discriminate|].
  destruct (shas ":" (p_name p +++ "-in")) eqn:C1; [discriminate|]. intros HI. apply ok_inj in HI. subst i.
  revert HO. destruct (starts_with "urn:" (net +++ ":" +++ (p_name p +++ "-out"))) eqn:U2; [discriminate|].
  destruct (shas ":" (p_name p +++ "-out")) eqn:C2; [discriminate|]. intros HO. apply ok_inj in HO. subst o.
  unfold bport_new in HB. apply nbind_ok in HB as (u & _ & HB). revert HB.
  destruct (starts_with "urn:" (net +++ ":" +++ p_name p)) eqn:U3; [discriminate|]. intros HB.
  apply ok_inj in HB. subst b.
  cbn [np_id np_name np_label bp_in bp_out bp_name bp_id]. auto 20.
Qed.
Lemma append_inj_l s : forall a b, a +++ s = b +++ s -> a = b.
Proof.
  assert (forall a b, String.length (a +++ b) = (String.length a + String.length b)%nat) as L.
  { intros a b. induction a; cbn; [reflexivity|]. f_equal. exact IHa. }
  induction a as [|c a IH]; intros [|d b] E; cbn in E; auto.
  - apply (f_equal String.length) in E. cbn in E. rewrite L in E. lia.
  - apply (f_equal String.length) in E. cbn in E. rewrite L in E. lia.
  - injection E as -> E. f_equal. apply IH, E.
Qed.
Lemma create_good ports net readable n : create_network ports net readable = Ok n -> readable <> "" -> ports_ok ports ->
  net_good n /\ nw_id n = net /\ nw_name n = readable.
Proof.
  intros H R (ND & OK). unfold create_network in H. apply nbind_ok in H as (l & M & H). unfold network_new in H. cbn [negb] in H.
  revert H. destruct (starts_with "urn:" net); [discriminate|]. intros H. injection H as <-. cbn [nw_id nw_name]. split; [|auto].
  assert (forall (f : nrm_port -> string), (forall p x, In p ports -> create_ports net p = Ok x -> True) -> True) as _ by auto.
  assert (Forall2 (fun p x => create_ports net p = Ok x) ports l) as F2.
  { clear R ND OK. revert l M. induction ports as [|p ports IH]; intros l M; cbn [mapM] in M; [injection M as <-; constructor|].
    apply nbind_ok in M as (x & X & M). apply nbind_ok in M as (xs & XS & M). injection M as <-. constructor; [exact X|apply IH; exact XS]. }
  assert (forall x, In x l -> exists p, In p ports /\ create_ports net p = Ok x) as FX.
  { clear M ND OK. induction F2 as [|p x ps xs E F2 IH]; intros y [].
    - subst y. exists p. split; [left; reflexivity|exact E].
    - destruct (IH y H) as (q & Q & E2). exists q. split; [right; exact Q|exact E2]. }
  assert (forall suffix sel, (forall p i o b, create_ports net p = Ok (i, o, b) -> np_id (sel (i, o, b)) = net +++ ":" +++ (p_name p +++ suffix)) ->
          NoDup (map np_id (map sel l))) as NDS.
  { intros suffix sel S. clear M FX OK. induction F2 as [|p [[i o] b] ps xs E F2 IH]; cbn [map]; [constructor|].
    cbn [map] in ND. apply NoDup_cons_iff in ND as (N & ND). constructor; [|apply IH; exact ND].
    rewrite (S _ _ _ _ E). intros I. apply in_map_iff in I as (q & Q1 & Q2). apply in_map_iff in Q2 as ([[i' o'] b'] & <- & X).
    clear IH. revert X. induction F2 as [|p2 x2 ps2 xs2 E2 F2 IH2]; intros X; [destruct X|].
    destruct X as [->|X].
    - rewrite (S _ _ _ _ E2) in Q1. apply append_inj_r, append_inj_r, append_inj_l in Q1. apply N. left. exact Q1.
    - apply IH2; [|cbn [map] in ND; apply NoDup_cons_iff in ND as (_ & ND); exact ND|exact X]. intros J. apply N. right. exact J. }
  constructor; cbn [nw_id nw_name nw_in nw_out nw_bi].
  - exact R.
  - apply Forall_forall. intros q Q. apply in_map_iff in Q as ([[i o] b] & <- & X). destruct (FX _ X) as (p & P & E).
    destruct (create_ports_inv _ _ _ _ _ E) as (A1 & A2 & A3 & A4 & A5 & _). cbn [fst]. unfold port_good. rewrite A3. destruct (OK p P). auto.
  - apply Forall_forall. intros q Q. apply in_map_iff in Q as ([[i o] b] & <- & X). destruct (FX _ X) as (p & P & E).
    destruct (create_ports_inv _ _ _ _ _ E) as (_ & _ & _ & _ & _ & A1 & A2 & A3 & A4 & A5 & _). cbn [fst snd]. unfold port_good. rewrite A3. destruct (OK p P). auto.
  - apply (NDS "-in"). intros p i o b E. destruct (create_ports_inv _ _ _ _ _ E) as (A1 & A2 & _). cbn [fst]. rewrite A1, A2. reflexivity.
  - apply (NDS "-out"). intros p i o b E. destruct (create_ports_inv _ _ _ _ _ E) as (_ & _ & _ & _ & _ & A1 & A2 & _). cbn [fst snd]. rewrite A1, A2. reflexivity.
  - apply Forall_forall. intros q Q. apply in_map_iff in Q as ([[i o] b] & <- & X). destruct (FX _ X) as (p & P & E).
    destruct (create_ports_inv _ _ _ _ _ E) as (_ & _ & A3 & _ & _ & _ & _ & B3 & _ & _ & C1 & C2 & C3 & C4 & C5).
    cbn [snd]. rewrite C1, C2, C3. destruct (OK p P) as (PN & _). repeat split; auto.
    + apply in_map_iff. exists (i, o, b). auto.
    + apply in_map_iff. exists (i, o, b). auto.
    + congruence.
Qed.

(** such a network can be exported *)
Lemma ports_xml_ok rel net l : Forall (port_good net) l -> exists es, ports_xml rel (URN_NETWORK +++ net) l = Ok es.
Proof.
  intros G. assert (exists es, mapM (port_xml (URN_NETWORK +++ net)) l = Ok es) as (es & M).
  { induction G as [|p l (L & _) G (es & E)]; [eexists; reflexivity|]. cbn [mapM]. unfold port_xml at 1.
    destruct (np_label p) as [lb|].
    - destruct (label_text lb L) as (A & _). rewrite A. cbn [bind]. rewrite E. cbn [bind]. eauto.
    - cbn [bind]. rewrite E. cbn [bind]. eauto. }
  destruct l; [eexists; reflexivity|]. unfold ports_xml. rewrite M. cbn [bind]. eauto.
Qed.
Lemma export_ok version swap n : net_good n -> exists e, topology_xml version swap n = Ok e.
Proof.
  intros [_ GI GO _ _ _]. destruct (ports_xml_ok HAS_IN _ _ GI) as (a & A), (ports_xml_ok HAS_OUT _ _ GO) as (b & B).
  unfold topology_xml. cbn zeta. rewrite A. cbn [bind]. rewrite B. cbn [bind]. eauto.
Qed.
Lemma import_fails e : parse_topology e = Err EAssertion \/ exists x, parse_topology e = Err x.
Proof.
  unfold parse_topology. destruct (parse_parts e) as [[[[[i nm] a] b] c]|x]; cbn [bind]; [|eauto].
  left. destruct nm; reflexivity.
Qed.

(** * The network described by the configuration *)
Lemma create_described ports net readable n : create_network ports net readable = Ok n -> n = described net readable ports.
Proof.
  unfold create_network. intros H. apply nbind_ok in H as (l & M & H). unfold network_new in H. cbn [negb] in H.
  revert H. destruct (starts_with "urn:" net); [discriminate|]. intros H. injection H as <-. unfold described.
  assert (l = map (fun p => (in_port net p, out_port net p, mkBPort (net +++ ":" +++ p_name p) (p_name p) (in_port net p) (out_port net p) (p_remote_port p))) ports) as ->.
  { revert l M. induction ports as [|p ports IH]; intros l M; cbn [mapM] in M; [injection M as <-; reflexivity|].
    apply nbind_ok in M as (x & X & M). apply nbind_ok in M as (xs & XS & M). injection M as <-. cbn [map]. f_equal; [|apply IH; exact XS].
    unfold create_ports in X. destruct (negb (eqb (p_type p) "ethernet")); [discriminate|].
    apply nbind_ok in X as (i & I & X). apply nbind_ok in X as (o & O & X). apply nbind_ok in X as (b & B & X). injection X as <-.
    assert (forall id nm lb r q, nport_new id nm lb r = Ok q -> q = mkNPort id nm lb r) as K.
    { intros id nm lb r q. unfold nport_new. destruct (starts_with "urn:" id); [discriminate|]. destruct (shas ":" nm); [discriminate|]. intros E. injection E as <-. reflexivity. }
    apply K in I. apply K in O. subst i o. unfold bport_new in B. apply nbind_ok in B as (u & _ & B).
    destruct (starts_with "urn:" (net +++ ":" +++ p_name p)); [discriminate|]. injection B as <-. reflexivity. }
  rewrite !map_map. reflexivity.
Qed.
Lemma swap_none_map {A} (f : A -> element) l : (forall a, swapping (f a) = []) -> flat_map swapping (map f l) = [].
Proof. intros H. induction l as [|a l IH]; [reflexivity|]. cbn [map flat_map]. rewrite H, IH. reflexivity. Qed.
Lemma swap_port base p e : port_xml base p = Ok e -> swapping (wire e) = [].
Proof.
  unfold port_xml. intros H. apply nbind_ok in H as (lab & L & H). injection H as <-. cbn [wire swapping].
  change (String.eqb "nml:PortGroup" "nml:SwitchingService") with false. cbv iota. cbn [app]. rewrite map_app, flat_map_app.
  assert (flat_map swapping (map wire lab) = []) as ->.
  { destruct (np_label p) as [l|]; [|injection L as <-; reflexivity]. destruct (aget _ NML_LABEL_MAPPING); [|discriminate]. injection L as <-. reflexivity. }
  destruct (np_remote p); reflexivity.
Qed.
Lemma swap_ports rel base l es : ports_xml rel base l = Ok es -> flat_map swapping (map wire es) = [].
Proof.
  unfold ports_xml. destruct l as [|p l]; [intros H; injection H as <-; reflexivity|]. intros H. apply nbind_ok in H as (ps & P & H). injection H as <-.
  cbn [map flat_map wire swapping]. change (String.eqb "nml:Relation" "nml:SwitchingService") with false. cbv iota. cbn [app]. rewrite app_nil_r.
  revert P. generalize (p :: l). clear. intros l. revert ps. induction l as [|p l IH]; intros ps P; cbn [mapM] in P; [injection P as <-; reflexivity|].
  apply nbind_ok in P as (x & X & P). apply nbind_ok in P as (xs & XS & P). injection P as <-. cbn [map flat_map]. rewrite (swap_port _ _ _ X), (IH _ XS). reflexivity.
Qed.
Lemma export_swap version swap n e : topology_xml version swap n = Ok e -> swapping (wire e) = [Some (if swap then "true" else "false")].
Proof.
  unfold topology_xml. intros H. apply nbind_ok in H as (i & I & H). apply nbind_ok in H as (o & O & H). injection H as <-.
  cbn [wire swapping]. change (String.eqb "nml:Topology" "nml:SwitchingService") with false. cbv iota. cbn [app map flat_map].
  rewrite !map_app, !flat_map_app, (swap_ports _ _ _ _ I), (swap_ports _ _ _ _ O).
  rewrite (map_map (bport_xml _) wire), swap_none_map by (intros b; reflexivity). destruct swap; reflexivity.
Qed.
