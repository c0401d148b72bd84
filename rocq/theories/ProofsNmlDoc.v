(** Documents that say a topology are read as it, and the exported ones say it. *)
From Verif Require Import Base BaseProofs ModelXml ModelLabel SpecLabel ProofsLabel ModelSTP ModelAuthz ModelNRM ModelNml SpecNml ProofsNml SpecNmlDoc.
Open Scope Z_scope.

Lemma attr_get name e v : attr_of name e v -> e_get name e = Some v.
Proof.
  unfold attr_of, e_get. generalize (e_attrs e). intros l [H U]. revert H U. induction l as [|[k w] l IH]; intros H U; [destruct H|].
  cbn [aget]. destruct (eqb_ok name k) as [<-|N]; [f_equal; apply U; left; reflexivity|].
  destruct H as [[= <- <-]|H]; [contradiction|]. apply IH; [exact H|]. intros x Hx. apply U. right. exact Hx.
Qed.
Lemma attr_attrib name e v : attr_of name e v -> attrib name e = Ok v.
Proof. intros H. unfold attrib. rewrite (attr_get _ _ _ H). reflexivity. Qed.
Lemma about_base e id : about e id -> exists a, attrib "id" e = Ok a /\ base_name a = Ok id.
Proof. intros H. exists ("urn:ogf:network:" +++ id). split; [apply attr_attrib, H|]. apply (base_name_urn id). Qed.

(** * Labels *)
Lemma ranges_fun items : forall rs rs', Forall2 item_range items rs -> Forall2 item_range items rs' -> rs = rs'.
Proof.
  induction items as [|s items IH]; intros rs rs' H H'; inversion H; inversion H'; subst; [reflexivity|].
  f_equal; [eapply item_range_fun; eassumption|apply IH; assumption].
Qed.
Lemma label_read ty v l : label_says ty v l -> label_of_str ty v = Ok l.
Proof.
  intros (items & rs & -> & Hne & Hc & Hf & <- & Hn & Hd). rewrite (label_of_str_items _ _ Hne Hc). unfold label_of_list.
  destruct (parse_items_spec items) as [(rs' & vs & Hf' & -> & Hn' & Hd' & _)|((s & Hs & Hx) & _)].
  - cbn [bind]. rewrite (ranges_fun _ _ _ Hf' Hf) in Hd'. rewrite (normal_unique vs (lvalues l) Hn' Hn); [destruct l; reflexivity|].
    intros z. rewrite Hd'. symmetry. apply Hd.
  - exfalso. clear -Hf Hs Hx. induction Hf as [|a r items rs H Hf IH]; [destruct Hs|]. destruct Hs as [->|Hs]; [exact (Hx _ H)|exact (IH Hs)].
Qed.
Lemma label_text_says ty l : wf_values (lvalues l) -> ltype l = ty -> label_says ty (label_value l) l.
Proof.
  intros (Hne & Hn & Hp) T. exists (map value_text (lvalues l)), (lvalues l). split; [reflexivity|]. split; [destruct (lvalues l); [contradiction|discriminate]|].
  assert (F : forall vs, (forall lo hi, In (lo, hi) vs -> 0 <= lo /\ lo <= hi) -> Forall2 item_range (map value_text vs) vs /\ forall s, In s (map value_text vs) -> shas "," s = false).
  { induction vs as [|[lo hi] vs IH]; intros H; [split; [constructor|intros s []]|]. destruct (H lo hi (or_introl eq_refl)) as [H1 H2].
    destruct IH as [I1 I2]; [intros a b Hab; apply H; right; exact Hab|]. split; [constructor; [apply value_text_item; assumption|exact I1]|].
    intros s [<-|Hs]; [apply value_text_comma|apply I2, Hs]. }
  destruct (F (lvalues l)) as [F1 F2]; [intros lo hi Hi; split; [exact (Hp _ _ Hi)|exact (normal_In_le _ _ _ Hn Hi)]|].
  repeat (split; [assumption|]). intros z. reflexivity.
Qed.

(** * Relations *)
Lemma relb_kind kind r ty : attr_of "type" r ty -> relb kind r = eqb ty ("http://schemas.ogf.org/nml/2013/05/base#" +++ kind).
Proof.
  intros [Hi Hu]. unfold relb. destruct (existsb _ _) eqn:E.
  - apply existsb_exists in E as ([k w] & Hin & E). cbn [fst snd] in E. apply andb_true_iff in E as [E1 E2]. apply String.eqb_eq in E1, E2. subst.
    rewrite <- (Hu _ Hin). rewrite eqb_refl. reflexivity.
  - symmetry. apply not_true_iff_false. intros E'. apply (proj1 (eqb_true _ _)) in E'. subst ty.
    assert (X : existsb (fun a => String.eqb (fst a) "type" && String.eqb (snd a) ("http://schemas.ogf.org/nml/2013/05/base#" +++ kind)) (e_attrs r) = true); [|congruence].
    apply existsb_exists. eexists. split; [exact Hi|]. cbn [fst snd]. rewrite !String.eqb_refl. reflexivity.
Qed.
Definition tagged (ts : list string) (k : element) : bool := existsb (String.eqb (e_tag k)) ts.
Lemma tag_eqb t k : tagged [t] k = eqb (e_tag k) t.
Proof. unfold tagged. cbn [existsb]. rewrite orb_false_r. reflexivity. Qed.
Lemma tag_port k : tagged ports_in k = is_port_tag (e_tag k).
Proof. unfold tagged, is_port_tag. cbn [existsb ports_in]. rewrite orb_false_r. reflexivity. Qed.

(** * A port *)
Definition is_alias_of (x : option string) (rs : list element) (y : option string) : Prop :=
  match rs with [] => y = x | [r] => exists k ks z, e_kids r = k :: ks /\ about k z /\ y = Some z | _ => False end.
Lemma port_fold kids : forall n0 l0 r0 n1 l1 r1,
  match filter (tagged ["nml:name"]) kids with [] => n1 = n0 | [k] => n1 = e_text k | _ => False end ->
  match filter (tagged ["nml:Label"; "nml:LabelGroup"]) kids with
  | [] => l1 = l0 | [k] => exists ty v l, attr_of "labeltype" k ty /\ e_text k = Some v /\ label_says ty v l /\ l1 = Some l | _ => False end ->
  (forall r, In r (filter (tagged ["nml:Relation"]) kids) -> exists ty, attr_of "type" r ty) ->
  is_alias_of r0 (filter (relb "isAlias") (filter (tagged ["nml:Relation"]) kids)) r1 ->
  foldM port_child kids (n0, l0, r0) = Ok (n1, l1, r1).
Proof.
  induction kids as [|k kids IH]; intros n0 l0 r0 n1 l1 r1 N L R A.
  - cbn in *. subst. reflexivity.
  - cbn [foldM]. cbn [filter] in N, L, R, A. rewrite !tag_eqb in *. unfold port_child at 1.
    destruct (eqb_ok (e_tag k) "nml:name") as [E|E].
    + rewrite E in *. change (tagged ["nml:Label"; "nml:LabelGroup"] k) with (existsb (String.eqb (e_tag k)) ["nml:Label"; "nml:LabelGroup"]) in L. rewrite E in L.
      change (eqb "nml:name" "nml:Relation") with false in *. cbn [existsb String.eqb Ascii.eqb Bool.eqb orb] in L. cbv iota in L, R, A.
      cbn [bind]. apply IH; auto. destruct (filter (tagged ["nml:name"]) kids); [exact N|destruct N].
    + change (tagged ["nml:Label"; "nml:LabelGroup"] k) with (eqb (e_tag k) "nml:Label" || (eqb (e_tag k) "nml:LabelGroup" || false)) in L. rewrite orb_false_r in L.
      destruct (eqb (e_tag k) "nml:Label" || eqb (e_tag k) "nml:LabelGroup") eqn:EL.
      * assert (ER : eqb (e_tag k) "nml:Relation" = false).
        { apply orb_true_iff in EL as [EL|EL]; apply (proj1 (eqb_true _ _)) in EL; rewrite EL; reflexivity. }
        rewrite ER in *. destruct (filter (tagged ["nml:Label"; "nml:LabelGroup"]) kids) eqn:EF; [|destruct L].
        destruct L as (ty & v & l & H1 & H2 & H3 & H4). rewrite (attr_attrib _ _ _ H1). cbn [bind]. rewrite H2, (label_read _ _ _ H3). cbn [bind].
        apply IH; auto.
      * destruct (eqb_ok (e_tag k) "nml:Relation") as [ER|ER].
        -- destruct (R k (or_introl eq_refl)) as (ty & Hty). cbn [filter] in A. rewrite (relb_kind _ _ _ Hty) in A. rewrite (attr_attrib _ _ _ Hty). cbn [bind].
           change ("http://schemas.ogf.org/nml/2013/05/base#" +++ "isAlias") with IS_ALIAS in A. destruct (eqb ty IS_ALIAS) eqn:EA.
           ++ unfold is_alias_of in A. destruct (filter (relb "isAlias") (filter (tagged ["nml:Relation"]) kids)) eqn:EF; [|destruct A].
              destruct A as (k' & ks & z & -> & Hz & ->). destruct (about_base _ _ Hz) as (a & -> & Hb). cbn [bind]. rewrite Hb. cbn [bind].
              apply IH; auto; [intros r Hr; apply R; right; exact Hr|]. reflexivity.
           ++ cbn [bind]. apply IH; auto. intros r Hr. apply R. right. exact Hr.
        -- cbn [bind]. apply IH; auto.
Qed.
Lemma last_part_of id nm : last_part id nm -> after_colon id = nm.
Proof.
  intros [H [->|(a & ->)]]; [|apply after_colon_id, H]. unfold after_colon. rewrite (proj2 (rsplit1_None ":" nm) H). reflexivity.
Qed.
Lemma port_read e p : port_says e p -> parse_port e = Ok p /\ is_port_tag (e_tag e) = true.
Proof.
  intros [T I [PU PC] N L K A].
  assert (HT : is_port_tag (e_tag e) = true) by (destruct T as [<-|[<-|[]]]; reflexivity). split; [|exact HT].
  unfold parse_port. rewrite HT. cbn [negb]. destruct (about_base _ _ I) as (a & -> & Hb). cbn [bind]. rewrite Hb. cbn [bind].
  assert (X : foldM port_child (e_kids e) (None, None, None) =
    Ok (match among ["nml:name"] e with [] => None | k :: _ => e_text k end, np_label p, np_remote p)).
  { apply port_fold.
    - change (filter (tagged ["nml:name"]) (e_kids e)) with (among ["nml:name"] e). destruct (among ["nml:name"] e) as [|k [|]]; auto.
    - exact L.
    - exact K.
    - exact A. }
  rewrite X. cbn [bind]. unfold nport_new. destruct (among ["nml:name"] e) as [|k [|]]; [|rewrite N|destruct N].
  - rewrite (last_part_of _ _ N), PU, PC. destruct p; reflexivity.
  - rewrite PU, PC. destruct p; reflexivity.
Qed.

(** * A pair of ports *)
Lemma bd_fold kids : forall n0 s0 n1 ids,
  match filter (tagged ["nml:name"]) kids with [] => n1 = n0 | [k] => n1 = e_text k | _ => False end ->
  Forall2 about (filter (tagged ports_in) kids) ids ->
  foldM bd_child kids (n0, s0) = Ok (n1, s0 ++ ids).
Proof.
  induction kids as [|k kids IH]; intros n0 s0 n1 ids N P; cbn [filter] in N, P.
  - inversion P; subst. cbn. rewrite app_nil_r. reflexivity.
  - cbn [foldM]. rewrite tag_eqb in N. rewrite tag_port in P. unfold bd_child at 1. destruct (eqb_ok (e_tag k) "nml:name") as [E|E].
    + rewrite E in P. change (is_port_tag "nml:name") with false in P. cbv iota in P. cbn [bind]. apply IH; [|exact P].
      destruct (filter (tagged ["nml:name"]) kids); [exact N|destruct N].
    + destruct (is_port_tag (e_tag k)).
      * inversion P as [|? id ? ids' A P' E1 E2]; subst. destruct (about_base _ _ A) as (a & -> & Hb). cbn [bind]. rewrite Hb. cbn [bind].
        rewrite (IH n0 (s0 ++ [id]) n1 ids' N P'), <- app_assoc. reflexivity.
      * cbn [bind]. apply IH; assumption.
Qed.
Definition reads_pair (b : bport) (r : string * option string * (string * string)) : Prop :=
  r = (bp_id b, Some (bp_name b), (np_id (bp_in b), np_id (bp_out b))) \/ r = (bp_id b, Some (bp_name b), (np_id (bp_out b), np_id (bp_in b))).
Lemma pair_read e b : pair_says e b -> exists r, parse_bd e = Ok r /\ reads_pair b r.
Proof.
  intros [A _ (k & K1 & K2) (x & y & P & O) _ _]. unfold parse_bd. destruct (about_base _ _ A) as (a & -> & Hb). cbn [bind]. rewrite Hb. cbn [bind].
  assert (X : forall i j, about x i -> about y j -> foldM bd_child (e_kids e) (None, []) = Ok (Some (bp_name b), [] ++ [i; j])).
  { intros i j Hi Hj. apply bd_fold.
    - change (filter (tagged ["nml:name"]) (e_kids e)) with (among ["nml:name"] e). rewrite K1. congruence.
    - change (filter (tagged ports_in) (e_kids e)) with (among ports_in e). rewrite P. constructor; [exact Hi|constructor; [exact Hj|constructor]]. }
  destruct O as [[Hi Hj]|[Hi Hj]]; rewrite (X _ _ Hi Hj); cbn [bind app]; eexists; (split; [reflexivity|]); [left|right]; reflexivity.
Qed.
(** * The ports of a relation *)
Definition adds (l : list nport) (d : list (string * nport)) : list (string * nport) := fold_left (fun d p => aset (np_id p) p d) l d.
Lemma relation_read kids : forall d ps, Forall2 port_says (filter (tagged ports_in) kids) ps ->
  foldM (fun d npe => if is_port_tag (e_tag npe) then do! p <- parse_port npe; Ok (aset (np_id p) p d) else Ok d) kids d = Ok (adds ps d).
Proof.
  induction kids as [|k kids IH]; intros d ps P; cbn [filter] in P.
  - inversion P; subst. reflexivity.
  - cbn [foldM]. rewrite tag_port in P. destruct (is_port_tag (e_tag k)) eqn:T.
    + inversion P as [|? p ? ps' A P' E1 E2]; subst. destruct (port_read _ _ A) as [-> _]. cbn [bind]. rewrite (IH _ _ P'). reflexivity.
    + cbn [bind]. apply IH, P.
Qed.
Lemma adds_new l : forall d, NoDup (map fst d ++ map np_id l) -> adds l d = d ++ map (fun p => (np_id p, p)) l.
Proof.
  induction l as [|p l IH]; intros d N; cbn [map] in *; [rewrite app_nil_r; reflexivity|]. unfold adds. cbn [fold_left]. fold (adds l (aset (np_id p) p d)).
  rewrite aset_new; [|apply NoDup_remove_2 in N; intros I; apply N, in_or_app; left; exact I].
  rewrite IH; [rewrite <- app_assoc; reflexivity|]. rewrite map_app, <- app_assoc. exact N.
Qed.
(** * The whole document *)
Definition rels (kind : string) (kids : list element) : list element :=
  flat_map (among ports_in) (filter (relb kind) (filter (tagged ["nml:Relation"]) kids)).
Lemma topo_fold kids : forall s n1 ins outs bds,
  match filter (tagged ["nml:name"]) kids with [] => n1 = ps_name s | [k] => n1 = e_text k | _ => False end ->
  (forall r, In r (filter (tagged ["nml:Relation"]) kids) -> exists ty, attr_of "type" r ty) ->
  Forall2 port_says (rels "hasInboundPort" kids) ins ->
  Forall2 port_says (rels "hasOutboundPort" kids) outs ->
  Forall2 (fun k b => parse_bd k = Ok b) (filter (tagged ["nml:BidirectionalPort"]) kids) bds ->
  foldM topo_child kids s = Ok (mkPS n1 (adds ins (ps_in s)) (adds outs (ps_out s)) (ps_bd s ++ bds)).
Proof.
  induction kids as [|k kids IH]; intros s n1 ins outs bds N R I O B; unfold rels in I, O; cbn [filter] in N, R, I, O, B.
  - inversion I; inversion O; inversion B; subst. cbn. rewrite app_nil_r. destruct s; reflexivity.
  - cbn [foldM]. rewrite !tag_eqb in *. unfold topo_child at 1. destruct (eqb_ok (e_tag k) "nml:name") as [E|E].
    + rewrite E in *. change (eqb "nml:name" "nml:Relation") with false in *. change (eqb "nml:name" "nml:BidirectionalPort") with false in *. cbv iota in R, I, O, B.
      cbn [bind]. rewrite (IH (mkPS (e_text k) (ps_in s) (ps_out s) (ps_bd s)) n1 ins outs bds); auto.
      destruct (filter (tagged ["nml:name"]) kids); [exact N|destruct N].
    + destruct (eqb_ok (e_tag k) "nml:Relation") as [ER|ER].
      * rewrite ER in B. change (eqb "nml:Relation" "nml:BidirectionalPort") with false in B. cbv iota in B.
        destruct (R k (or_introl eq_refl)) as (ty & Hty). cbn [filter] in I, O. rewrite (relb_kind _ _ _ Hty) in I. rewrite (relb_kind _ _ _ Hty) in O. rewrite (attr_attrib _ _ _ Hty). cbn [bind].
        change ("http://schemas.ogf.org/nml/2013/05/base#" +++ "hasInboundPort") with HAS_IN in I.
        change ("http://schemas.ogf.org/nml/2013/05/base#" +++ "hasOutboundPort") with HAS_OUT in O.
        assert (R' : forall r, In r (filter (tagged ["nml:Relation"]) kids) -> exists ty, attr_of "type" r ty) by (intros r Hr; apply R; right; exact Hr).
        destruct (eqb_ok ty HAS_IN) as [EI|EI].
        -- subst ty. change (eqb HAS_IN HAS_OUT) with false in O. cbv iota in O. cbn [flat_map] in I. apply Forall2_app_inv_l in I as (i1 & i2 & I1 & I2 & ->).
           unfold parse_relation. rewrite (relation_read _ _ _ I1). cbn [bind].
           rewrite (IH (mkPS (ps_name s) (adds i1 (ps_in s)) (ps_out s) (ps_bd s)) n1 i2 outs bds N R' I2 O B). cbn [ps_in ps_out ps_bd].
           unfold adds. rewrite fold_left_app. reflexivity.
        -- destruct (eqb_ok ty HAS_OUT) as [EO|EO].
           ++ cbn [flat_map] in O. apply Forall2_app_inv_l in O as (o1 & o2 & O1 & O2 & ->).
              unfold parse_relation. rewrite (relation_read _ _ _ O1). cbn [bind].
              rewrite (IH (mkPS (ps_name s) (ps_in s) (adds o1 (ps_out s)) (ps_bd s)) n1 ins o2 bds N R' I O2 B). cbn [ps_in ps_out ps_bd].
              unfold adds. rewrite fold_left_app. reflexivity.
           ++ cbn [bind]. apply IH; assumption.
      * destruct (eqb_ok (e_tag k) "nml:BidirectionalPort") as [EB|EB].
        -- inversion B as [|? b ? bs B1 B2 E1 E2]; subst. rewrite B1. cbn [bind].
           rewrite (IH (mkPS (ps_name s) (ps_in s) (ps_out s) (ps_bd s ++ [b])) n1 ins outs bs N R I O B2). cbn [ps_in ps_out ps_bd]. rewrite <- app_assoc. reflexivity.
        -- cbn [bind]. apply IH; assumption.
Qed.
Lemma aget_ids l p : NoDup (map np_id l) -> In p l -> aget (np_id p) (map (fun p => (np_id p, p)) l) = Some p.
Proof.
  induction l as [|q l IH]; intros ND I; [destruct I|]. cbn [map aget]. cbn [map] in ND. apply NoDup_cons_iff in ND as (N & ND).
  destruct (eqb_ok (np_id p) (np_id q)) as [E|D].
  - destruct I as [->|I]; [reflexivity|]. exfalso. apply N. rewrite <- E. apply in_map. exact I.
  - destruct I as [->|I]; [contradiction|]. apply IH; assumption.
Qed.
Lemma aget_not l x : ~ In x (map np_id l) -> aget x (map (fun p => (np_id p, p)) l) = None.
Proof.
  induction l as [|q l IH]; intros N; [reflexivity|]. cbn [map aget]. destruct (eqb_ok x (np_id q)) as [->|D]; [exfalso; apply N; left; reflexivity|].
  apply IH. intros I. apply N. right. exact I.
Qed.
Lemma NoDup_parts {A} (l1 l2 : list A) : NoDup (l1 ++ l2) -> NoDup l1 /\ NoDup l2 /\ forall x, In x l2 -> ~ In x l1.
Proof.
  induction l1 as [|x l1 IH]; cbn; intros N; [repeat split; [constructor|exact N|intros x _ []]|]. inversion N as [|? ? H1 H2]; subst.
  destruct (IH H2) as (A1 & A2 & A3). split; [constructor; [intros I; apply H1, in_or_app; left; exact I|exact A1]|]. split; [exact A2|].
  intros y Hy [->|I]; [apply H1, in_or_app; right; exact Hy|exact (A3 y Hy I)].
Qed.
Lemma bport_new_ok b e : pair_says e b -> bport_new (bp_id b) (Some (bp_name b)) (bp_in b) (bp_out b) None = Ok b.
Proof.
  intros [_ U _ _ L A]. unfold bport_new. destruct b as [id nm i o r]; cbn in *. subst r.
  destruct (np_label i) as [a|], (np_label o) as [c|]; try contradiction; [rewrite L, eqb_refl|]; cbn [bind]; rewrite U; reflexivity.
Qed.
Lemma topology_read e id name ins outs bis : topology_says e id name ins outs bis -> parse_parts e = Ok (id, Some name, ins, outs, bis).
Proof.
  intros [T A (k & K1 & K2) R I O ND B P]. unfold parse_parts. rewrite T. change (negb (eqb "nml:Topology" "nml:Topology")) with false. cbv iota.
  destruct (about_base _ _ A) as (a & -> & Hb). cbn [bind]. rewrite Hb. cbn [bind].
  destruct (NoDup_parts _ _ ND) as (NI & NO & NX).
  assert (X : exists bds, Forall2 (fun k b => parse_bd k = Ok b) (among ["nml:BidirectionalPort"] e) bds /\ Forall2 reads_pair bis bds).
  { clear -B. induction B as [|x b l bs H _ (bds & H1 & H2)]; [exists []; split; constructor|]. destruct (pair_read _ _ H) as (r & R1 & R2).
    exists (r :: bds). split; constructor; assumption. }
  destruct X as (bds & X1 & X2).
  rewrite (topo_fold (e_kids e) (mkPS None [] [] []) (Some name) ins outs bds); auto.
  2:{ change (filter (tagged ["nml:name"]) (e_kids e)) with (among ["nml:name"] e). rewrite K1. congruence. }
  cbn [bind ps_name ps_in ps_out ps_bd app]. rewrite !adds_new by assumption. cbn [app].
  set (s := mkPS _ _ _ _). assert (SI : ps_in s = map (fun p => (np_id p, p)) ins) by reflexivity. assert (SO : ps_out s = map (fun p => (np_id p, p)) outs) by reflexivity.
  clearbody s.
  assert (M : mapM (make_bd s) bds = Ok bis).
  { assert (G : forall b, In b bis -> exists x, pair_says x b).
    { clear -B. induction B as [|x b l bs H _ IH]; intros b' Hb; [destruct Hb|]. destruct Hb as [<-|Hb]; eauto. }
    clear -X2 P G NI NO NX SI SO. revert P G. induction X2 as [|b r bs rs H _ IH]; intros P G; [reflexivity|]. cbn [mapM].
    destruct (P b (or_introl eq_refl)) as [PI PO]. destruct (G b (or_introl eq_refl)) as (x & Gx).
    assert (E : make_bd s r = Ok b).
    { unfold make_bd. destruct H as [->| ->]; unfold ahas, dget; rewrite SI, SO.
      - rewrite (aget_ids _ _ NI PI). cbn [bind]. rewrite (aget_ids _ _ NO PO). cbn [bind]. exact (bport_new_ok _ _ Gx).
      - rewrite (aget_not ins (np_id (bp_out b))) by (apply NX, in_map, PO). rewrite (aget_ids _ _ NI PI). cbn [bind]. rewrite (aget_ids _ _ NO PO). cbn [bind]. exact (bport_new_ok _ _ Gx). }
    rewrite E. cbn [bind]. rewrite IH; [reflexivity| |]; intros b' Hb'; [apply P|apply G]; right; exact Hb'. }
  rewrite M. cbn [bind]. rewrite !map_map. cbn [snd]. rewrite !map_id. reflexivity.
Qed.

(** * Written documents *)
Lemma among_map ts l tag : (forall k, In k l -> e_tag k = tag) -> filter (tagged ts) l = if existsb (String.eqb tag) ts then l else [].
Proof.
  intros H. induction l as [|k l IH]; [destruct (existsb _ _); reflexivity|]. cbn [filter]. unfold tagged at 1. rewrite (H k (or_introl eq_refl)).
  rewrite IH by (intros x Hx; apply H; right; exact Hx). destruct (existsb (String.eqb tag) ts); reflexivity.
Qed.
Lemma single_attr name v t x k : attr_of name (Elem t [(name, v)] x k) v.
Proof. split; [left; reflexivity|]. intros w [[= <-]|[]]. reflexivity. Qed.
Lemma about_base_id t x k net nm : about (Elem t [("id", (URN_NETWORK +++ net) +++ ":" +++ nm)] x k) (net +++ ":" +++ nm).
Proof. unfold about. rewrite append_assoc. apply single_attr. Qed.
Lemma port_written net p e : port_good net p -> port_xml (URN_NETWORK +++ net) p = Ok e -> port_says (wire e) (nml_port p).
Proof.
  intros (L & I & C & U) X. unfold port_xml in X. apply nbind_ok in X as (lab & EL & X). apply ok_inj in X. subst e. cbn [wire].
  assert (HL : lab = match np_label p with None => [] | Some l => [Elem "nml:LabelGroup" [("labeltype", nml_name (ltype l))] (Some (label_value l)) []] end).
  { destruct (np_label p) as [l|]; [|congruence]. destruct (label_text l L) as (M & _). rewrite M in EL. congruence. }
  clear EL.
  assert (HX : match np_label p with None => True | Some l => exists s,
     wire (Elem "nml:LabelGroup" [("labeltype", nml_name (ltype l))] (Some (label_value l)) []) = Elem "nml:LabelGroup" [("labeltype", nml_name (ltype l))] (Some s) [] /\
     label_says (nml_name (ltype l)) s (mkLabel (nml_name (ltype l)) (lvalues l)) end).
  { destruct (np_label p) as [l|]; [|exact Logic.I]. destruct (label_text l L) as (_ & s & S & _). exists s. cbn [wire map]. rewrite S. split; [reflexivity|].
    pose proof (label_text_says (nml_name (ltype l)) (mkLabel (nml_name (ltype l)) (lvalues l)) (proj2 L) eq_refl) as H.
    change (label_value (mkLabel (nml_name (ltype l)) (lvalues l))) with (label_value l) in H. destruct (label_value l); [discriminate|]. injection S as <-. exact H. }
  rewrite HL. clear HL lab. constructor.
  - right. left. reflexivity.
  - cbn [nml_port np_id]. rewrite I. apply about_base_id.
  - split; [exact U|exact C].
  - unfold among. cbn [e_kids nml_port np_id np_name]. rewrite map_app, filter_app.
    assert (E : filter (fun k => existsb (String.eqb (e_tag k)) ["nml:name"]) (map wire match np_label p with None => [] | Some l => [Elem "nml:LabelGroup" [("labeltype", nml_name (ltype l))] (Some (label_value l)) []] end) = []) by (destruct (np_label p); reflexivity).
    rewrite E. destruct (np_remote p); cbn [map filter wire e_tag existsb orb app]; change (String.eqb "nml:Relation" "nml:name") with false; cbv iota; cbn [orb]; (split; [exact C|right; exists net; exact I]).
  - unfold among. cbn [e_kids nml_port np_label]. rewrite map_app, filter_app.
    assert (E : forall o : option string, filter (fun k => existsb (String.eqb (e_tag k)) ["nml:Label"; "nml:LabelGroup"])
      (map wire match o with None => [] | Some r => [Elem "nml:Relation" [("type", IS_ALIAS)] None [Elem "nml:PortGroup" [("id", URN_NETWORK +++ r)] None []]] end) = []) by (intros [r|]; reflexivity).
    rewrite E. destruct (np_label p) as [l|]; [|reflexivity]. destruct HX as (s & S & H). cbn [map]. rewrite S. cbn [filter e_tag].
    change (existsb (String.eqb "nml:LabelGroup") ["nml:Label"; "nml:LabelGroup"]) with true. cbv iota. cbn [app].
    exists (nml_name (ltype l)), s, (mkLabel (nml_name (ltype l)) (lvalues l)). split; [apply single_attr|]. split; [reflexivity|]. split; [exact H|reflexivity].
  - intros r Hr. unfold among in Hr. cbn [e_kids] in Hr. rewrite map_app, filter_app in Hr. apply in_app_or in Hr as [Hr|Hr].
    + destruct (np_label p); destruct Hr.
    + destruct (np_remote p); [|destruct Hr]. destruct Hr as [<-|[]]. exists IS_ALIAS. apply single_attr.
  - unfold relations, among. cbn [e_kids nml_port np_remote]. rewrite map_app, !filter_app.
    assert (E : filter (relb "isAlias") (filter (fun k => existsb (String.eqb (e_tag k)) ["nml:Relation"]) (map wire match np_label p with None => [] | Some l => [Elem "nml:LabelGroup" [("labeltype", nml_name (ltype l))] (Some (label_value l)) []] end)) = []) by (destruct (np_label p); reflexivity).
    rewrite E. destruct (np_remote p) as [r|]; [|reflexivity].
    exists (Elem "nml:PortGroup" [("id", URN_NETWORK +++ r)] None []), [], r. split; [reflexivity|]. split; [apply single_attr|reflexivity].
Qed.
Lemma port_xml_tag base p e : port_xml base p = Ok e -> e_tag (wire e) = "nml:PortGroup".
Proof. unfold port_xml. intros H. apply nbind_ok in H as (lab & _ & H). apply ok_inj in H. subst e. reflexivity. Qed.
Lemma mapM_Forall2 {A B} (f : A -> result B) l : forall es, mapM f l = Ok es -> Forall2 (fun x e => f x = Ok e) l es.
Proof.
  induction l as [|x l IH]; intros es M; cbn [mapM] in M; [injection M as <-; constructor|].
  apply nbind_ok in M as (y & Y & M). apply nbind_ok in M as (ys & YS & M). injection M as <-. constructor; [exact Y|apply IH, YS].
Qed.
Lemma relb_single kind ty x k : relb kind (Elem "nml:Relation" [("type", ty)] x k) = String.eqb ty ("http://schemas.ogf.org/nml/2013/05/base#" +++ kind).
Proof. unfold relb. cbn [e_attrs existsb fst snd]. change (String.eqb "type" "type") with true. cbn [andb]. apply orb_false_r. Qed.
(** the relation of the ports of one direction *)
Lemma ports_written rel net l es : Forall (port_good net) l -> ports_xml rel (URN_NETWORK +++ net) l = Ok es ->
  (forall k, In k (map wire es) -> e_tag k = "nml:Relation" /\ attr_of "type" k rel) /\
  forall kind, exists ks, flat_map (among ports_in) (filter (relb kind) (map wire es)) = ks /\
    if String.eqb rel ("http://schemas.ogf.org/nml/2013/05/base#" +++ kind) then Forall2 port_says ks (map nml_port l) else ks = [].
Proof.
  intros G X. destruct l as [|p l].
  - injection X as <-. split; [intros k []|]. intros kind. exists []. split; [reflexivity|]. destruct (String.eqb _ _); constructor.
  - assert (exists es', mapM (port_xml (URN_NETWORK +++ net)) (p :: l) = Ok es' /\ es = [Elem "nml:Relation" [("type", rel)] None es']) as (es' & M & ->).
    { unfold ports_xml in X. apply nbind_ok in X as (es' & M & X). injection X as <-. eauto. }
    clear X. revert M G. generalize (p :: l). clear p l. intros l M G. cbn [map wire]. split; [intros k [<-|[]]; split; [reflexivity|apply single_attr]|].
    intros kind. cbn [filter]. rewrite relb_single. eexists. split; [reflexivity|]. destruct (String.eqb rel _); [|reflexivity]. cbn [flat_map]. rewrite app_nil_r.
    unfold among. cbn [e_kids]. change (fun k : element => existsb (String.eqb (e_tag k)) ports_in) with (tagged ports_in).
    apply mapM_Forall2 in M. assert (T : forall k, In k (map wire es') -> e_tag k = "nml:PortGroup").
    { clear -M. induction M as [|x e l es H _ IH]; intros k Hk; [destruct Hk|]. destruct Hk as [<-|Hk]; [exact (port_xml_tag _ _ _ H)|exact (IH k Hk)]. }
    rewrite (among_map ports_in _ _ T). change (existsb (String.eqb "nml:PortGroup") ports_in) with true. cbv iota.
    clear T. revert G. induction M as [|x e l es H _ IH]; intros G; [constructor|]. apply Forall_cons_iff in G as (G1 & G2). cbn [map].
    constructor; [exact (port_written _ _ _ G1 H)|exact (IH G2)].
Qed.
Lemma pair_written n b : net_good n -> In b (nw_bi n) -> pair_says (wire (bport_xml (URN_NETWORK +++ nw_id n) b)) (nml_bport b).
Proof.
  intros G Hb. pose proof (proj1 (Forall_forall _ _) (ng_bi _ G) b Hb) as (N & HI & HO & BE & BU & BL).
  pose proof (proj1 (Forall_forall _ _) (ng_in _ G) _ HI) as (_ & EI & _). pose proof (proj1 (Forall_forall _ _) (ng_out _ G) _ HO) as (_ & EO & _).
  unfold bport_xml, leaf. cbn [wire map]. constructor.
  - cbn [nml_bport bp_id]. rewrite BE. apply about_base_id.
  - exact BU.
  - eexists. split; [reflexivity|]. cbn [e_text nml_bport bp_name]. destruct (bp_name b); [contradiction|reflexivity].
  - do 2 eexists. split; [reflexivity|]. left. cbn [nml_bport bp_in bp_out nml_port np_id]. rewrite EI, EO. split; apply about_base_id.
  - cbn [nml_bport bp_in bp_out nml_port np_label]. rewrite BL. destruct (np_label (bp_out b)); [reflexivity|exact Logic.I].
  - reflexivity.
Qed.
Lemma in_out_differ a : forall b, a +++ "-in" <> b +++ "-out".
Proof.
  assert (L : forall a b, String.length (a +++ b) = (String.length a + String.length b)%nat).
  { intros x y. induction x; cbn; [reflexivity|]. f_equal. exact IHx. }
  induction a as [|c a IH]; intros [|d b] E.
  - discriminate.
  - apply (f_equal String.length) in E. cbn in E. rewrite L in E. cbn in E. lia.
  - destruct a as [|c' a]; [discriminate|]. apply (f_equal String.length) in E. cbn in E. rewrite L in E. cbn in E. lia.
  - cbn in E. injection E as _ E. exact (IH b E).
Qed.
Lemma described_ids net ports : NoDup (map p_name ports) ->
  NoDup (map np_id (map nml_port (map (in_port net) ports)) ++ map np_id (map nml_port (map (out_port net) ports))).
Proof.
  intros N. rewrite !map_map. cbn [nml_port np_id in_port out_port].
  assert (D : forall suffix, NoDup (map (fun p => net +++ ":" +++ p_name p +++ suffix) ports)).
  { intros suffix. induction ports as [|p ports IH]; [constructor|]. cbn [map] in *. inversion N as [|? ? H1 H2]; subst. constructor; [|exact (IH H2)].
    intros I. apply in_map_iff in I as (q & E & Q). apply append_inj_r, append_inj_r, append_inj_l in E. apply H1. rewrite <- E. apply in_map, Q. }
  assert (X : forall l1 l2 : list string, NoDup l1 -> NoDup l2 -> (forall x, In x l1 -> ~ In x l2) -> NoDup (l1 ++ l2)).
  { induction l1 as [|x l1 IH]; intros l2 H1 H2 H; [exact H2|]. inversion H1; subst. cbn. constructor.
    - intros I. apply in_app_or in I as [I|I]; [contradiction|]. exact (H x (or_introl eq_refl) I).
    - apply IH; [assumption|assumption|]. intros y Hy. apply H. right. exact Hy. }
  apply X; [apply D|apply D|]. intros x I O. apply in_map_iff in I as (p & <- & _). apply in_map_iff in O as (q & E & _).
  apply append_inj_r, append_inj_r in E. symmetry in E. exact (in_out_differ _ _ E).
Qed.
Lemma topology_written version swap n e : net_good n -> topology_xml version swap n = Ok e ->
  NoDup (map np_id (map nml_port (nw_in n)) ++ map np_id (map nml_port (nw_out n))) ->
  topology_says (wire e) (nw_id n) (nw_name n) (map nml_port (nw_in n)) (map nml_port (nw_out n)) (map nml_bport (nw_bi n)) /\
  switching_says (wire e) (nw_id n) swap /\ service_says (wire e) (nw_id n) /\ attr_of "version" (wire e) version.
Proof.
  intros G X ND. unfold topology_xml in X. cbn zeta in X.
  apply nbind_ok in X as (ins & XI & X). apply nbind_ok in X as (outs & XO & X). apply ok_inj in X. subst e.
  destruct (ports_written _ _ _ _ (ng_in _ G) XI) as (TI & RI). destruct (ports_written _ _ _ _ (ng_out _ G) XO) as (TO & RO).
  set (bs := map wire (map (bport_xml (URN_NETWORK +++ nw_id n)) (nw_bi n))).
  assert (TB : forall k, In k bs -> e_tag k = "nml:BidirectionalPort").
  { intros k Hk. apply in_map_iff in Hk as (x & <- & Hx). apply in_map_iff in Hx as (b & <- & _). reflexivity. }
  cbn [wire map]. rewrite !map_app. fold bs. set (I := map wire ins) in *. set (O := map wire outs) in *.
  set (nm := wire (leaf "nml:name" (Some (nw_name n)))).
  set (tail := map wire [_; _]). set (kids := nm :: bs ++ I ++ O ++ tail).
  assert (TI' : forall k, In k I -> e_tag k = "nml:Relation") by (intros k Hk; apply TI, Hk).
  assert (TO' : forall k, In k O -> e_tag k = "nml:Relation") by (intros k Hk; apply TO, Hk).
  assert (SP : forall ts, filter (tagged ts) kids =
    (if existsb (String.eqb "nml:name") ts then [nm] else []) ++ (if existsb (String.eqb "nml:BidirectionalPort") ts then bs else []) ++
    (if existsb (String.eqb "nml:Relation") ts then I ++ O else []) ++ filter (tagged ts) tail).
  { intros ts. unfold kids. cbn [filter]. rewrite !filter_app, (among_map ts _ _ TB), (among_map ts _ _ TI'), (among_map ts _ _ TO').
    unfold tagged at 1. change (e_tag nm) with "nml:name". destruct (existsb (String.eqb "nml:name") ts), (existsb (String.eqb "nml:Relation") ts); cbn [app]; rewrite ?app_assoc; reflexivity. }
  assert (AM : forall ts a, among ts (Elem "nml:Topology" a None kids) = filter (tagged ts) kids) by (intros; reflexivity).
  set (svc := nth 1 tail nm).
  assert (RL : filter (tagged ["nml:Relation"]) tail = [svc]) by reflexivity.
  assert (RS : relb "hasService" svc = true) by reflexivity.
  assert (R0 : forall rel es kind, (forall k, In k es -> e_tag k = "nml:Relation" /\ attr_of "type" k rel) -> eqb rel ("http://schemas.ogf.org/nml/2013/05/base#" +++ kind) = false -> filter (relb kind) es = []).
  { clear. intros rel es kind H N. induction es as [|k es IH]; [reflexivity|]. cbn [filter]. rewrite (relb_kind _ _ _ (proj2 (H k (or_introl eq_refl)))), N. apply IH.
    intros x Hx. apply H. right. exact Hx. }
  split; [|split; [|split]].
  - constructor.
    + reflexivity.
    + split; [left; reflexivity|]. intros w [[= <-]|[[=]|[]]]. reflexivity.
    + exists nm. split; [rewrite AM, SP; reflexivity|]. unfold nm, leaf. cbn [wire e_text]. pose proof (ng_name _ G) as HN. destruct (nw_name n); [contradiction|reflexivity].
    + intros r Hr. rewrite AM, SP, RL in Hr. cbn [existsb app] in Hr. change (String.eqb "nml:name" "nml:Relation") with false in Hr. change (String.eqb "nml:BidirectionalPort" "nml:Relation") with false in Hr.
      change (String.eqb "nml:Relation" "nml:Relation") with true in Hr. cbn [orb app] in Hr. rewrite <- app_assoc in Hr. apply in_app_or in Hr as [Hr|Hr]; [exists HAS_IN; apply TI, Hr|].
      apply in_app_or in Hr as [Hr|[<-|[]]]; [exists HAS_OUT; apply TO, Hr|]. exists HAS_SERVICE. apply single_attr.
    + unfold listed, relations. rewrite AM, SP, RL. change (Forall2 port_says (flat_map (among ports_in) (filter (relb "hasInboundPort") ((I ++ O) ++ [svc]))) (map nml_port (nw_in n))).
      rewrite !filter_app, !flat_map_app, (R0 HAS_OUT O "hasInboundPort" TO eq_refl). change (filter (relb "hasInboundPort") [svc]) with (@nil element). cbn [flat_map]. rewrite !app_nil_r.
      destruct (RI "hasInboundPort") as (ks & <- & H). exact H.
    + unfold listed, relations. rewrite AM, SP, RL. change (Forall2 port_says (flat_map (among ports_in) (filter (relb "hasOutboundPort") ((I ++ O) ++ [svc]))) (map nml_port (nw_out n))).
      rewrite !filter_app, !flat_map_app, (R0 HAS_IN I "hasOutboundPort" TI eq_refl). change (filter (relb "hasOutboundPort") [svc]) with (@nil element). cbn [flat_map app]. rewrite !app_nil_r.
      destruct (RO "hasOutboundPort") as (ks & <- & H). exact H.
    + exact ND.
    + rewrite AM, SP. change (filter (tagged ["nml:BidirectionalPort"]) tail) with (@nil element). cbn [existsb]. change (String.eqb "nml:name" "nml:BidirectionalPort") with false.
      change (String.eqb "nml:BidirectionalPort" "nml:BidirectionalPort") with true. change (String.eqb "nml:Relation" "nml:BidirectionalPort") with false. cbn [orb app]. rewrite app_nil_r.
      unfold bs. rewrite map_map. assert (H : forall b, In b (nw_bi n) -> In b (nw_bi n)) by auto. revert H. generalize (nw_bi n) at 1 3 4. intros l. induction l as [|b l IH]; intros H; [constructor|].
      cbn [map]. constructor; [apply pair_written; [exact G|apply H; left; reflexivity]|]. apply IH. intros x Hx. apply H. right. exact Hx.
    + intros b Hb. apply in_map_iff in Hb as (b' & <- & Hb). pose proof (proj1 (Forall_forall _ _) (ng_bi _ G) b' Hb) as (_ & HI & HO & _).
      cbn [nml_bport bp_in bp_out]. split; apply in_map; assumption.
  - exists svc. do 2 eexists. split.
    { unfold relations. rewrite AM, SP, RL. change (filter (relb "hasService") ((I ++ O) ++ [svc]) = [svc]). rewrite !filter_app, (R0 HAS_IN I "hasService" TI eq_refl), (R0 HAS_OUT O "hasService" TO eq_refl). reflexivity. }
    split; [reflexivity|]. split; [reflexivity|]. split; [|split; [|split; [|split; [reflexivity|split; [reflexivity|]]]]].
    + unfold about. rewrite append_assoc. split; [left; reflexivity|]. intros w [[= <-]|[[=]|[[=]|[]]]]. reflexivity.
    + split; [right; left; reflexivity|]. intros w [[=]|[[= <-]|[[=]|[]]]]. reflexivity.
    + split; [right; right; left; reflexivity|]. intros w [[=]|[[=]|[[= <-]|[]]]]. reflexivity.
    + unfold about. rewrite append_assoc. apply single_attr.
  - eexists. split; [rewrite AM, SP; reflexivity|]. split; [unfold about; rewrite append_assoc; apply single_attr|]. eexists. split; reflexivity.
  - split; [right; left; reflexivity|]. intros w [[=]|[[= <-]|[]]]. reflexivity.
Qed.
Lemma network_written ports net readable n version swap :
  create_network ports net readable = Ok n -> readable <> "" -> ports_ok ports ->
  exists e, topology_xml version swap n = Ok e /\
  topology_says (wire e) net readable (map nml_port (map (in_port net) ports)) (map nml_port (map (out_port net) ports)) (map nml_bport (nw_bi (described net readable ports))) /\
  switching_says (wire e) net swap /\ service_says (wire e) net /\ attr_of "version" (wire e) version.
Proof.
  intros C R P. destruct (create_good _ _ _ _ C R P) as (G & Hi & Hn). destruct (export_ok version swap n G) as (e & E). exists e. split; [exact E|].
  pose proof (create_described _ _ _ _ C) as D. pose proof (topology_written version swap n e G E) as W. rewrite Hi, Hn in W. rewrite D in W at 1 2 3 4 5. apply W.
  cbn [described nw_in nw_out]. apply described_ids, P.
Qed.
