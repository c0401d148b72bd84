(** Proofs about setting up the service (C72, C73). *)
From Verif Require Import Base BaseProofs ModelXml ModelSTP ModelNRM ModelLinkVector SpecLinkVector ProofsLinkVector
  ModelProvreg ModelDiscovery SpecDiscovery ProofsDiscovery ModelConfig ModelSetup SpecSetup.
Open Scope Z_scope.

(** ** the link vector *)
Lemma vectors_get s net port : vectors_of s net port = option_map (fun i => nth i (lv_heap s) []) (aget (net, port) (lv_vecs s)).
Proof.
  unfold vectors_of, lv_table. induction (lv_vecs s) as [|[k1 i] l IH]; cbn; [reflexivity|].
  destruct (eqb (net, port) k1); [reflexivity|exact IH].
Qed.
Fixpoint dicts (ops : list lv_op) : nat := match ops with [] => 0 | LDict _ :: r => S (dicts r) | _ :: r => dicts r end.
Lemma ops_ok_add bl o ops : forall n, ops_ok bl n ops -> op_ok bl (n + dicts ops) o -> ops_ok bl n (ops ++ [o]).
Proof.
  induction ops as [|o' ops IH]; intros n Ho Hop; cbn [app].
  - apply ops_ok_cons. cbn [dicts] in Hop. rewrite Nat.add_0_r in Hop. split; [exact Hop|exact I].
  - apply ops_ok_cons in Ho as [H1 H2]. apply ops_ok_cons. split; [exact H1|]. apply IH; [exact H2|].
    destruct o'; cbn [dicts] in Hop; rewrite ?Nat.add_0_r; try exact Hop.
    replace (n + 1 + dicts ops)%nat with (n + S (dicts ops))%nat by lia. exact Hop.
Qed.
Lemma run_heap ops : forall s, linv s -> ops_ok (lv_black s) (List.length (lv_heap s)) ops ->
  List.length (lv_heap (fold_left (fun s o => fst (lv_step s o)) ops s)) = (List.length (lv_heap s) + dicts ops)%nat.
Proof.
  induction ops as [|o ops IH]; intros s Hi Ho; cbn [fold_left dicts]; [lia|].
  apply ops_ok_cons in Ho as [H1 H2]. destruct (lv_step_linv s o Hi H1) as (Hi' & Hb & _ & Hl & _).
  rewrite IH; [rewrite Hl; destruct o; lia|exact Hi'|]. rewrite Hb, Hl. exact H2.
Qed.
(** a link vector made by the operations of the class *)
Definition made (lv : lvec) : Prop := exists ops, ops_ok [] 0 ops /\ lv = lv_run [] 5 ops.
Lemma made_linv lv : made lv -> linv lv /\ lv_black lv = [] /\ lv_max lv = 5.
Proof. intros (ops & Ho & ->). apply run_linv, Ho. Qed.
Lemma made_step lv o : made lv -> op_ok [] (List.length (lv_heap lv)) o -> made (fst (lv_step lv o)).
Proof.
  intros (ops & Ho & ->) Hop. exists (ops ++ [o]). split; [|symmetry; apply lv_run_snoc].
  apply ops_ok_add; [exact Ho|]. unfold lv_run in Hop. rewrite run_heap in Hop; [exact Hop|apply linv_init|exact Ho].
Qed.
Lemma lv_do_spec lv o : made lv -> op_ok [] (List.length (lv_heap lv)) o ->
  (forall n, o = LAdd n -> ~ In n (lv_local lv)) -> lv_do o lv = Ok (fst (lv_step lv o)) /\ made (fst (lv_step lv o)).
Proof.
  intros Hm Ho Hn. split; [|apply made_step; assumption]. unfold lv_do.
  destruct (made_linv _ Hm) as (Hi & Hb & _). rewrite <- Hb in Ho. destruct (lv_step_linv lv o Hi Ho) as (_ & _ & _ & _ & H).
  destruct (lv_step lv o) as [s' e]; cbn [fst snd] in *. destruct H as [->|(n & E & H & _)]; [reflexivity|]. destruct (Hn n E H).
Qed.
Lemma lv_add_fields lv n : ~ In n (lv_local lv) -> let lv' := fst (lv_step lv (LAdd n)) in
  lv_local lv' = lv_local lv ++ [n] /\ lv_vecs lv' = lv_vecs lv /\ lv_heap lv' = lv_heap lv.
Proof.
  intros Hn. cbn [lv_step]. unfold add_local. destruct (mem n (lv_local lv)) eqn:E; [apply mem_In in E; contradiction|].
  unfold calculate_vectors. match goal with |- context [calculate ?l ?x] => pose proof (calculate_fields l x) as (H1 & _ & _ & H4 & H5) end.
  cbn [lv_local lv_vecs lv_heap] in *. auto.
Qed.
Lemma link_port lv net name r : made lv -> NoDup (map snd (lv_vecs lv)) ->
  exists lv1 lv2, lv_do (LDict [(r, 1)]) lv = Ok lv1 /\ lv_do (LUpdate net name (List.length (lv_heap lv))) lv1 = Ok lv2 /\
    made lv2 /\ NoDup (map snd (lv_vecs lv2)) /\ lv_local lv2 = lv_local lv /\
    forall u p, vectors_of lv2 u p = if eqb (u, p) (net, name)
                                     then Some (match vectors_of lv net name with Some o => merge_new o [(r, 1)] | None => [(r, 1)] end)
                                     else vectors_of lv u p.
Proof.
  intros Hm Hnd.
  assert (Hd : NoDup (akeys [(r, 1)])) by (constructor; [intros []|constructor]).
  destruct (lv_do_spec lv (LDict [(r, 1)]) Hm Hd ltac:(discriminate)) as [E1 Hm1]. cbn [lv_step fst] in E1, Hm1.
  set (lv1 := mkLV _ _ _ _ _ _ _) in *.
  assert (Hop : op_ok [] (List.length (lv_heap lv1)) (LUpdate net name (List.length (lv_heap lv)))).
  { cbn. unfold lv1. cbn. rewrite app_length. cbn. lia. }
  destruct (lv_do_spec lv1 _ Hm1 Hop ltac:(discriminate)) as [E2 Hm2]. cbn [lv_step] in E2, Hm2.
  destruct (made_linv _ Hm) as (Hi & _ & _). destruct (made_linv _ Hm1) as (Hi1 & _ & _).
  assert (Hv1 : forall u p, vectors_of lv1 u p = vectors_of lv u p).
  { intros u p. rewrite !vectors_get. unfold lv1. cbn [lv_vecs lv_heap]. destruct (aget (u, p) (lv_vecs lv)) as [i|] eqn:E; [|reflexivity].
    cbn [option_map]. f_equal. apply app_nth1. eapply l_refs; [exact Hi|]. apply aget_In, E. }
  assert (Hnew : nth (List.length (lv_heap lv)) (lv_heap lv1) [] = [(r, 1)]).
  { unfold lv1. cbn [lv_heap]. rewrite app_nth2 by lia. rewrite Nat.sub_diag. reflexivity. }
  exists lv1, (fst (update_vector net name (List.length (lv_heap lv)) lv1)).
  split; [exact E1|]. split; [exact E2|]. split; [exact Hm2|].
  assert (Hupd : vectors_of (fst (update_vector net name (List.length (lv_heap lv)) lv1)) net name =
                 Some (match vectors_of lv net name with Some o => merge_new o [(r, 1)] | None => [(r, 1)] end)).
  { rewrite update_vector_get by (exact Hi1 || exact Hop). rewrite Hnew, Hv1. reflexivity. }
  unfold update_vector, calculate_vectors in *.
  destruct (aget (net, name) (lv_vecs lv1)) as [r0|] eqn:Er.
  - match goal with |- context [fst (calculate ?l ?x)] =>
      pose proof (calculate_fields l x) as (H1 & _ & _ & H4 & H5); set (Y := fst (calculate l x)) in * end.
    cbn [lv_local lv_vecs lv_heap] in H1, H4, H5.
    rewrite H5. split; [exact Hnd|]. split; [exact H1|]. intros u p.
    destruct (eqb_ok (u, p) (net, name)) as [E|N]; [injection E as -> ->; exact Hupd|].
    rewrite <- Hv1. rewrite !vectors_get, H4, H5. destruct (aget (u, p) (lv_vecs lv1)) as [r1|] eqn:Er1; [|reflexivity]. cbn. f_equal.
    assert (Hr0 : (r0 < List.length (lv_heap lv1))%nat) by (eapply l_refs; [exact Hi1|apply aget_In, Er]).
    rewrite nth_set_nth by assumption. destruct (Nat.eqb_spec r1 r0) as [->|]; [|reflexivity].
    exfalso. apply N. eapply nodup_snd; [exact Hnd|apply aget_In, Er1|apply aget_In, Er].
  - match goal with |- context [fst (calculate ?l ?x)] =>
      pose proof (calculate_fields l x) as (H1 & _ & _ & H4 & H5); set (Y := fst (calculate l x)) in * end.
    cbn [lv_local lv_vecs lv_heap] in H1, H4, H5.
    rewrite H5. split.
    + assert (Es : forall (l : list ((string * string) * nat)) k v, aget k l = None -> map snd (aset k v l) = map snd l ++ [v]).
      { clear. induction l as [|[k1 v1] l IH]; intros k v E; cbn in E |- *; [reflexivity|].
        destruct (eqb k k1); [discriminate|]. cbn. rewrite IH by exact E. reflexivity. }
      rewrite Es by exact Er. apply NoDup_snoc; [exact Hnd|]. intros H. apply in_map_iff in H as ([k i] & E & H). cbn in E. subst i.
      apply (l_refs _ Hi) in H. lia.
    + split; [exact H1|]. intros u p.
      destruct (eqb_ok (u, p) (net, name)) as [E|N]; [injection E as -> ->; exact Hupd|].
      rewrite <- Hv1. rewrite !vectors_get, H4, H5. rewrite aget_aset_ne by exact N. reflexivity.
Qed.

(** ** ports *)
Lemma port_named_snoc ports p name q :
  port_named (ports ++ [p]) name q <-> (p_name p = name /\ q = p) \/ (p_name p <> name /\ port_named ports name q).
Proof.
  split.
  - intros (a & b & E & Hn & Hb). destruct b as [|x b] using rev_ind.
    + apply app_inj_tail in E as [_ <-]. auto.
    + clear IHb. replace (a ++ q :: b ++ [x]) with ((a ++ q :: b) ++ [x]) in E by (rewrite <- app_assoc; reflexivity).
      apply app_inj_tail in E as [-> <-]. right. split; [apply Hb; apply in_or_app; right; left; reflexivity|].
      exists a, b. split; [reflexivity|]. split; [exact Hn|]. intros y Hy. apply Hb. apply in_or_app. auto.
  - intros [[Hn ->]|[Hn (a & b & -> & Hq & Hb)]].
    + exists ports, []. split; [reflexivity|]. split; [exact Hn|intros ? []].
    + exists a, (b ++ [p]). split; [rewrite <- app_assoc; reflexivity|]. split; [exact Hq|].
      intros y Hy. apply in_app_or in Hy as [Hy|[<-|[]]]; auto.
Qed.

(** the state of the loop over the ports of [net], of which [done] are handled *)
Record ports_inv (net : string) (lv0 : lvec) (pm0 : list (string * list (string * nrm_port))) (done : list nrm_port)
    (x : lvec * list (string * list (string * nrm_port))) : Prop := {
  pi_made : made (fst x);
  pi_refs : NoDup (map snd (lv_vecs (fst x)));
  pi_local : lv_local (fst x) = lv_local lv0;
  pi_edges : forall u p v c, edge (lv_table (fst x)) u p v c <->
     edge (lv_table lv0) u p v c \/ (u = net /\ c = 1 /\ exists np, In np done /\ p_name np = p /\ p_remote_network np = Some v);
  pi_other : forall n, n <> net -> aget n (snd x) = aget n pm0;
  pi_ports : forall name q, (exists d, aget net (snd x) = Some d /\ aget name d = Some q) <-> port_named done name q }.

Lemma edge_vectors s u p v c : edge (lv_table s) u p v c <-> exists d, vectors_of s u p = Some d /\ aget v d = Some c.
Proof. reflexivity. Qed.
Lemma setup_port_spec net lv0 pm0 done np x : ports_inv net lv0 pm0 done x ->
  (forall p v c, ~ edge (lv_table lv0) net p v c) ->
  match setup_port net np x with
  | Ok y => ports_inv net lv0 pm0 (done ++ [np]) y /\ (p_remote_network np <> None -> p_vectors np = [])
  | Err e => e = EType /\ p_remote_network np <> None /\ p_vectors np <> []
  end.
Proof.
  intros I Hfresh. destruct x as [lv pm]. unfold setup_port.
  assert (HP : forall lv', made lv' -> NoDup (map snd (lv_vecs lv')) -> lv_local lv' = lv_local lv0 ->
     (forall u p v c, edge (lv_table lv') u p v c <->
       edge (lv_table lv0) u p v c \/ (u = net /\ c = 1 /\ exists q, In q (done ++ [np]) /\ p_name q = p /\ p_remote_network q = Some v)) ->
     ports_inv net lv0 pm0 (done ++ [np])
       (lv', aset net (aset (p_name np) np (match aget net pm with Some d => d | None => [] end)) pm)).
  { intros lv' H1 H2 H3 H4. constructor; cbn [fst snd]; auto.
    - intros n Hn. rewrite aget_aset_ne by exact Hn. apply (pi_other _ _ _ _ _ I n Hn).
    - intros name q. rewrite aget_aset_eq. rewrite port_named_snoc. rewrite <- (pi_ports _ _ _ _ _ I name q). cbn [snd]. split.
      + intros (d & [= <-] & Hd). destruct (eqb_ok name (p_name np)) as [->|N].
        * rewrite aget_aset_eq in Hd. injection Hd as <-. auto.
        * right. split; [congruence|]. rewrite aget_aset_ne in Hd by exact N. destruct (aget net pm) as [d|]; [eauto|discriminate].
      + intros [[<- ->]|[Hn (d & Hd & Hq)]]; eexists; (split; [reflexivity|]).
        * apply aget_aset_eq.
        * rewrite aget_aset_ne by congruence. rewrite Hd. exact Hq. }
  pose proof (pi_made _ _ _ _ _ I) as Hm. pose proof (pi_refs _ _ _ _ _ I) as Hr. pose proof (pi_local _ _ _ _ _ I) as Hl.
  pose proof (pi_edges _ _ _ _ _ I) as He. cbn [fst] in *.
  destruct (p_remote_network np) as [r|] eqn:Er; cbn [Base.bind].
  - destruct (link_port lv net (p_name np) r Hm Hr) as (lv1 & lv2 & E1 & E2 & Hm2 & Hr2 & Hl2 & Hv2).
    rewrite E1. cbn [Base.bind]. rewrite E2. cbn [Base.bind]. destruct (p_vectors np) as [|z zs] eqn:Ev; cbn [Base.bind].
    + split; [|auto]. apply HP; [exact Hm2|exact Hr2|congruence|]. intros u p v c. rewrite edge_vectors, Hv2.
      destruct (eqb_ok (u, p) (net, p_name np)) as [E|N].
      * injection E as -> ->. split.
        -- intros (d & Ed & Hd). right.
           assert (Ed' : d = match vectors_of lv net (p_name np) with Some o => merge_new o [(r, 1)] | None => [(r, 1)] end) by congruence.
           rewrite Ed' in Hd. clear Ed Ed' d.
           assert (Hc : (v = r /\ c = 1) \/ edge (lv_table lv) net (p_name np) v c).
           { destruct (vectors_of lv net (p_name np)) as [o|] eqn:Eo.
             - rewrite merge_new_get in Hd by (constructor; [intros []|constructor]). destruct (aget v o) as [c0|] eqn:Ea.
               + right. injection Hd as <-. exists o. auto.
               + cbn in Hd. destruct (eqb_ok v r); [injection Hd as <-; auto|discriminate].
             - cbn in Hd. destruct (eqb_ok v r); [injection Hd as <-; auto|discriminate]. }
           destruct Hc as [[-> ->]|Hc].
           ++ split; [reflexivity|]. split; [reflexivity|]. exists np. split; [apply in_or_app; right; left; reflexivity|auto].
           ++ apply He in Hc as [Hc|(_ & -> & q & Hq & H)]; [destruct (Hfresh _ _ _ Hc)|].
              split; [reflexivity|]. split; [reflexivity|]. exists q. split; [apply in_or_app; auto|exact H].
        -- intros [H|(_ & -> & q & Hq & Hn & Hv)]; [destruct (Hfresh _ _ _ H)|].
           eexists. split; [reflexivity|].
           assert (Hold : In q done -> exists o, vectors_of lv net (p_name np) = Some o /\ aget v o = Some 1).
           { intros Hin. apply (proj2 (He net (p_name np) v 1)). right. split; [reflexivity|]. split; [reflexivity|]. exists q. auto. }
           apply in_app_or in Hq as [Hq|[<-|[]]].
           ++ destruct (Hold Hq) as (o & -> & Ho). rewrite merge_new_get by (constructor; [intros []|constructor]). rewrite Ho. reflexivity.
           ++ rewrite Er in Hv. injection Hv as ->. destruct (vectors_of lv net (p_name np)) as [o|] eqn:Eo.
              ** rewrite merge_new_get by (constructor; [intros []|constructor]). destruct (aget v o) as [c0|] eqn:Ea.
                 --- assert (Hed : edge (lv_table lv) net (p_name np) v c0) by (exists o; auto).
                     apply He in Hed as [Hed|(_ & -> & _)]; [destruct (Hfresh _ _ _ Hed)|reflexivity].
                 --- cbn. rewrite eqb_refl. reflexivity.
              ** cbn. rewrite eqb_refl. reflexivity.
      * rewrite <- edge_vectors, He. split; intros [H|(-> & -> & q & Hq & Hn & Hv)]; auto; right.
        -- split; [reflexivity|]. split; [reflexivity|]. exists q. split; [apply in_or_app; auto|auto].
        -- split; [reflexivity|]. split; [reflexivity|]. exists q. split; [|auto].
           apply in_app_or in Hq as [Hq|[<-|[]]]; [exact Hq|]. congruence.
    + split; [reflexivity|]. split; discriminate.
  - split; [|congruence]. apply HP; auto. intros u p v c. rewrite He.
    split; (intros [H|(-> & -> & q & Hq & Hn & Hv)]; [left; exact H|right; split; [reflexivity|]; split; [reflexivity|]; exists q]).
    + split; [apply in_or_app; auto|auto].
    + split; [|auto]. apply in_app_or in Hq as [Hq|[<-|[]]]; [exact Hq|congruence].
Qed.
Lemma setup_ports_spec net lv0 pm0 : (forall p v c, ~ edge (lv_table lv0) net p v c) -> forall rest done x,
  ports_inv net lv0 pm0 done x ->
  match setup_ports net rest x with
  | Ok y => ports_inv net lv0 pm0 (done ++ rest) y /\ plain_ports rest
  | Err e => e = EType /\ ~ plain_ports rest
  end.
Proof.
  intros Hfresh. induction rest as [|np rest IH]; intros done x I; cbn [setup_ports].
  - rewrite app_nil_r. split; [exact I|intros p []].
  - pose proof (setup_port_spec net lv0 pm0 done np x I Hfresh) as H. destruct (setup_port net np x) as [y|e]; cbn [Base.bind].
    + destruct H as [I' Hp]. specialize (IH (done ++ [np]) y I'). rewrite <- app_assoc in IH. cbn [app] in IH.
      destruct (setup_ports net rest y) as [z|e].
      * destruct IH as [IH1 IH2]. split; [exact IH1|]. intros p [<-|Hin]; auto.
      * destruct IH as [-> IH2]. split; [reflexivity|]. intros Hpl. apply IH2. intros p Hin. apply Hpl. right. exact Hin.
    + destruct H as (-> & H1 & H2). split; [reflexivity|]. intros Hpl. apply H2, Hpl; [left; reflexivity|exact H1].
Qed.

(** ** backends *)
Fixpoint number {A} (i : nat) (l : list (string * A)) : list (string * (nat * A)) :=
  match l with [] => [] | (n, x) :: r => (n, (i, x)) :: number (S i) r end.
Lemma number_snoc {A} (l : list (string * A)) n x : forall i, number i (l ++ [(n, x)]) = number i l ++ [(n, ((i + List.length l)%nat, x))].
Proof.
  induction l as [|[m y] l IH]; intros i; cbn [app number List.length]; [rewrite Nat.add_0_r; reflexivity|].
  rewrite IH. replace (S i + List.length l)%nat with (i + S (List.length l))%nat by lia. reflexivity.
Qed.
Lemma number_keys {A} (l : list (string * A)) : forall i, map fst (number i l) = map fst l.
Proof. induction l as [|[m y] l IH]; intros i; cbn; [reflexivity|]. rewrite IH. reflexivity. Qed.
Lemma aset_fresh {V} k (v : V) (d : list (string * V)) : ~ In k (map fst d) -> aset k v d = d ++ [(k, v)].
Proof.
  induction d as [|[k1 v1] d IH]; cbn; [reflexivity|]. intros H. rewrite eqb_neq by (intros ->; apply H; auto).
  rewrite IH by (intros Hi; apply H; auto). reflexivity.
Qed.
Lemma number_get {A} (l : list (string * A)) n x : forall i j, NoDup (map fst l) -> nth_error l i = Some (n, x) ->
  aget n (number j l) = Some ((j + i)%nat, x).
Proof.
  induction l as [|[m y] l IH]; intros [|i] j Hnd E; cbn in *; try discriminate.
  - injection E as -> ->. rewrite eqb_refl, Nat.add_0_r. reflexivity.
  - inversion Hnd as [|? ? Hni Hnd']; subst. rewrite eqb_neq.
    + rewrite (IH i (S j) Hnd' E). f_equal. f_equal. lia.
    + intros ->. apply Hni. apply nth_error_In in E. apply (in_map fst) in E. exact E.
Qed.

Lemma nodup_left {A} (a b : list A) : NoDup (a ++ b) -> NoDup a.
Proof.
  induction a as [|x a IH]; intros H; [constructor|]. inversion H as [|? ? Hn Hd]; subst. constructor; [|auto].
  intros Hi. apply Hn, in_or_app. auto.
Qed.

Section Backends.
Variable file_lines : string -> option (list string).
Variable construct : string -> list (string * string) -> option exn.
Variable domain : string.
Notation good b ps := (backend_ok file_lines construct b ps /\ plain_ports ps).
(** the networks of some backends with their ports *)
Definition nets_of (ds : list (backend * list nrm_port)) : list (string * list nrm_port) :=
  map (fun d => (backend_network domain (fst (fst d)), snd d)) ds.
Lemma net_inj a b : backend_network domain a = backend_network domain b -> a = b.
Proof. unfold backend_network. induction domain as [|c d IH]; cbn; intros E; [congruence|]. injection E as E. auto. Qed.

Record svc_inv (n : nat) (ds : list (backend * list nrm_port)) (s : service) : Prop := {
  si_made : made (sv_lv s);
  si_refs : NoDup (map snd (lv_vecs (sv_lv s)));
  si_local : lv_local (sv_lv s) = map fst (nets_of ds);
  si_edges : forall u p v c, edge (lv_table (sv_lv s)) u p v c <-> c = 1 /\ configured (nets_of ds) u p v;
  si_ports : forall net name q, (exists d, aget net (sv_ports s) = Some d /\ aget name d = Some q) <->
     exists ports, In (net, ports) (nets_of ds) /\ port_named ports name q;
  si_nets : sv_nets s = number 0 (nets_of ds);
  si_prov : pr_providers (sv_prov s) = map (fun e => (fst e, fst (snd e))) (number 0 (nets_of ds));
  si_urns : pr_urns (sv_prov s) = map (fun e => (fst e, own_urn domain)) (nets_of ds);
  si_run : exists pops, sv_prov s = pr_run [CS2_SERVICE_TYPE] n pops }.
Lemma number_fst0 {A} (l : list (string * A)) i : map fst (map (fun e : string * (nat * A) => (fst e, fst (snd e))) (number i l)) = map fst l.
Proof. rewrite map_map. cbn. rewrite <- (number_keys l i). apply map_ext. reflexivity. Qed.

Lemma svc_init n : svc_inv n [] (setup_init n).
Proof.
  constructor; cbn; auto; try constructor.
  - exists []. split; [exact I|reflexivity].
  - intros (d & H & _). discriminate.
  - destruct 1 as [_ (ps & np & [] & _)].
  - intros (d & H & _). discriminate.
  - intros (ps & [] & _).
  - exists []. reflexivity.
Qed.
Lemma setup_one_spec n ds b s : svc_inv n ds s -> NoDup (map (fun d => fst (fst d)) ds) -> ~ In (fst b) (map (fun d => fst (fst d)) ds) ->
  match setup_one file_lines construct domain (List.length ds) b s with
  | Ok s' => exists ps, good b ps /\ svc_inv n (ds ++ [(b, ps)]) s'
  | Err _ => forall ps, ~ good b ps
  end.
Proof.
  intros I Hnd Hnew. destruct b as [name [kind options]]. cbn [fst] in Hnew. unfold setup_one, backend_ok.
  destruct (eqb_ok name "") as [->|Nn]; [intros ps [[H _] _]; congruence|].
  destruct (aget "nrmmap" options) as [f|] eqn:Ef; [|intros ps [[_ [(f & ls & H & _) _]] _]; congruence].
  destruct (file_lines f) as [ls|] eqn:El; [|intros ps [[_ [(f' & ls & H & H' & _) _]] _]; congruence].
  destruct (parse_port_spec ls) as [nps|e] eqn:Ep; cbn [Base.bind]; [|intros ps [[_ [(f' & ls' & H & H' & H'') _]] _]; congruence].
  set (net := backend_network domain name).
  assert (Hkeys : ~ In net (map fst (nets_of ds))).
  { intros H. apply Hnew. unfold nets_of in H. rewrite map_map in H. cbn in H. apply in_map_iff in H as (d & E & Hd).
    apply in_map_iff. exists d. split; [apply net_inj, E|exact Hd]. }
  assert (Hloc : ~ In net (lv_local (sv_lv s))) by (rewrite (si_local _ _ _ I); exact Hkeys).
  destruct (lv_do_spec (sv_lv s) (LAdd net) (si_made _ _ _ I) (fun H => H)) as [E1 Hm1].
  { intros n0 [= <-]. exact Hloc. }
  rewrite E1. cbn [Base.bind]. set (lv1 := fst (lv_step (sv_lv s) (LAdd net))) in *.
  pose proof (lv_add_fields (sv_lv s) net Hloc) as (F1 & F2 & F3). cbn zeta in F1, F2, F3. fold lv1 in F1, F2, F3.
  assert (Ht : lv_table lv1 = lv_table (sv_lv s)) by (unfold lv_table; rewrite F2, F3; reflexivity).
  assert (Hno : forall p v c, ~ edge (lv_table lv1) net p v c).
  { intros p v c H. rewrite Ht in H. apply (si_edges _ _ _ I) in H as [_ (ps & np & Hin & _)]. apply Hkeys, (in_map fst _ _ Hin). }
  assert (Hpm : aget net (sv_ports s) = None \/ exists d, aget net (sv_ports s) = Some d /\ forall name, aget name d = None).
  { destruct (aget net (sv_ports s)) as [d|] eqn:Ed; [|auto]. right. exists d. split; [reflexivity|]. intros nm.
    destruct (aget nm d) as [q|] eqn:Eq; [|reflexivity]. exfalso.
    destruct (proj1 (si_ports _ _ _ I net nm q)) as (ps & Hin & _); [eauto|]. apply Hkeys, (in_map fst _ _ Hin). }
  assert (Iv : ports_inv net lv1 (sv_ports s) [] (lv1, sv_ports s)).
  { constructor; cbn [fst snd]; auto.
    - rewrite F2. apply (si_refs _ _ _ I).
    - intros u p v c. split; [auto|]. intros [H|(_ & _ & q & [] & _)]. exact H.
    - intros nm q. split.
      + intros (d & Hd & Hq). destruct Hpm as [Hp|(d' & Hp & Hp')]; rewrite Hp in Hd; [discriminate|].
        injection Hd as <-. rewrite Hp' in Hq. discriminate.
      + intros (a & b & E & _). destruct a; discriminate. }
  pose proof (setup_ports_spec net lv1 (sv_ports s) Hno nps [] _ Iv) as Hs. cbn [app] in Hs.
  assert (Hps : forall ps, (exists f' ls', Some f = Some f' /\ file_lines f' = Some ls' /\ parse_port_spec ls' = Ok ps) -> ps = nps).
  { intros ps (f' & ls' & [= <-] & H & H'). congruence. }
  destruct (setup_ports net nps (lv1, sv_ports s)) as [[lv2 pm2]|e]; cbn [Base.bind].
  2:{ destruct Hs as [_ Hs]. intros ps [(_ & H & _) Hpl]. rewrite (Hps _ H) in Hpl. exact (Hs Hpl). }
  destruct Hs as [J Hpl]. unfold setup_backend. change CONSTRUCTORS with
    ["dud"; "junosmx"; "force10"; "juniperex"; "junipervpls"; "brocade"; "ncsvpn"; "pica8ovs"; "junosspace"; "junosex"; "oess"; "custombackend"].
  destruct (mem kind _) eqn:Ek; cbn [Base.bind].
  2:{ intros ps [(_ & _ & H & _) _]. apply mem_In in H. congruence. }
  apply mem_In in Ek. destruct (construct kind options) as [e|] eqn:Ec; cbn [Base.bind]; [intros ps [(_ & _ & _ & H) _]; congruence|].
  unfold add_provider. assert (Hh : ahas net (pr_providers (sv_prov s)) = false).
  { unfold ahas. destruct (aget net (pr_providers (sv_prov s))) as [i|] eqn:E; [|reflexivity]. exfalso.
    apply aget_Some_In_keys in E. unfold akeys in E. rewrite (si_prov _ _ _ I), number_fst0 in E. exact (Hkeys E). }
  rewrite Hh. exists nps. split; [split; [split; [exact Nn|split; [exists f, ls; auto|auto]]|exact Hpl]|].
  assert (Hnets : nets_of (ds ++ [((name, (kind, options)), nps)]) = nets_of ds ++ [(net, nps)]).
  { unfold nets_of. rewrite map_app. reflexivity. }
  assert (Hlen : List.length (nets_of ds) = List.length ds) by (unfold nets_of; apply map_length).
  constructor; rewrite ?Hnets; cbn [sv_lv sv_ports sv_nets sv_prov pr_providers pr_urns].
  - apply (pi_made _ _ _ _ _ J).
  - apply (pi_refs _ _ _ _ _ J).
  - pose proof (pi_local _ _ _ _ _ J) as H. cbn [fst] in H. rewrite H, F1, (si_local _ _ _ I), map_app. reflexivity.
  - intros u p v c. pose proof (pi_edges _ _ _ _ _ J u p v c) as H. cbn [fst] in H. rewrite H, Ht, (si_edges _ _ _ I). unfold configured. split.
    + intros [[-> (ps & np & Hin & H')]|(-> & -> & np & Hin & H')]; (split; [reflexivity|]).
      * exists ps, np. split; [apply in_or_app; auto|exact H'].
      * exists nps, np. split; [apply in_or_app; right; left; reflexivity|auto].
    + intros (-> & ps & np & Hin & Hnp & H'). apply in_app_or in Hin as [Hin|[[= <- <-]|[]]].
      * left. split; [reflexivity|]. exists ps, np. auto.
      * right. split; [reflexivity|]. split; [reflexivity|]. exists np. auto.
  - intros nt nm q. destruct (eqb_ok nt net) as [->|N].
    + rewrite (pi_ports _ _ _ _ _ J nm q). split.
      * intros H. exists nps. split; [apply in_or_app; right; left; reflexivity|exact H].
      * intros (ps & Hin & H). apply in_app_or in Hin as [Hin|[[= <-]|[]]]; [|exact H].
        destruct (Hkeys (in_map fst _ _ Hin)).
    + pose proof (pi_other _ _ _ _ _ J nt N) as H. cbn [snd] in H. rewrite H, (si_ports _ _ _ I). split.
      * intros (ps & Hin & Hq). exists ps. split; [apply in_or_app; auto|exact Hq].
      * intros (ps & Hin & Hq). apply in_app_or in Hin as [Hin|[[= E _]|[]]]; [eauto|congruence].
  - rewrite (si_nets _ _ _ I), number_snoc, Hlen. apply aset_fresh. rewrite number_keys. exact Hkeys.
  - rewrite (si_prov _ _ _ I), number_snoc, map_app, Hlen. cbn. apply aset_fresh. rewrite number_fst0. exact Hkeys.
  - rewrite (si_urns _ _ _ I), map_app. cbn. apply aset_fresh. rewrite map_map. cbn. exact Hkeys.
  - destruct (si_run _ _ _ I) as [pops E]. exists (pops ++ [PAdd (own_urn domain) net (List.length ds)]).
    unfold pr_run. rewrite fold_left_app. fold (pr_run [CS2_SERVICE_TYPE] n pops). rewrite <- E. cbn [fold_left pr_step].
    unfold add_provider. rewrite Hh. reflexivity.
Qed.
Lemma setup_all_spec n : forall bs ds s, svc_inv n ds s -> NoDup (map (fun d => fst (fst d)) ds ++ map fst bs) ->
  match setup_all file_lines construct domain (List.length ds) bs s with
  | Ok s' => exists ds', map fst ds' = bs /\ (forall b ps, In (b, ps) ds' -> good b ps) /\ svc_inv n (ds ++ ds') s'
  | Err _ => exists b, In b bs /\ forall ps, ~ good b ps
  end.
Proof.
  induction bs as [|b bs IH]; intros ds s I Hnd; cbn [setup_all].
  - exists []. rewrite app_nil_r. split; [reflexivity|]. split; [intros ? ? []|exact I].
  - cbn [map] in Hnd.
    assert (Hnd1 : NoDup (map (fun d : backend * list nrm_port => fst (fst d)) ds)) by (eapply nodup_left; exact Hnd).
    assert (Hnew : ~ In (fst b) (map (fun d : backend * list nrm_port => fst (fst d)) ds)).
    { intros H. apply NoDup_remove in Hnd as [_ Hn]. apply Hn. apply in_or_app. auto. }
    pose proof (setup_one_spec n ds b s I Hnd1 Hnew) as H.
    destruct (setup_one file_lines construct domain (List.length ds) b s) as [s1|e]; cbn [Base.bind].
    + destruct H as (ps & Hg & I'). specialize (IH (ds ++ [(b, ps)]) s1 I').
      rewrite map_app, app_length, Nat.add_1_r in IH. cbn [map fst List.length] in IH. rewrite <- app_assoc in IH. specialize (IH Hnd).
      destruct (setup_all file_lines construct domain (S (List.length ds)) bs s1) as [s2|e].
      * destruct IH as (ds' & <- & Hg' & I2). exists ((b, ps) :: ds'). split; [reflexivity|]. split.
        -- intros b' ps' [[= <- <-]|Hin]; [exact Hg|apply Hg', Hin].
        -- rewrite <- app_assoc in I2. exact I2.
      * destruct IH as (b' & Hb & Hn). exists b'. split; [right; exact Hb|exact Hn].
    + exists b. split; [left; reflexivity|exact H].
Qed.
Lemma setup_backends_spec bs : NoDup (map fst bs) ->
  match setup_backends file_lines construct domain bs with
  | Ok s' => exists ds, map fst ds = bs /\ (forall b ps, In (b, ps) ds -> good b ps) /\ svc_inv (List.length bs) ds s'
  | Err _ => exists b, In b bs /\ forall ps, ~ good b ps
  end.
Proof. intros Hnd. apply (setup_all_spec (List.length bs) bs [] _ (svc_init _)). exact Hnd. Qed.
End Backends.

(** ** C72 *)
Section C72.
Variable file_lines : string -> option (list string).
Variable construct : string -> list (string * string) -> option exn.
Variable domain : string.
Notation netof := (network_of file_lines construct domain).
Notation setup := (setup_backends file_lines construct domain).
Lemma backend_ports b ps ps' : backend_ok file_lines construct b ps -> backend_ok file_lines construct b ps' -> ps = ps'.
Proof.
  destruct b as [name [kind options]]. intros (_ & (f & ls & A1 & A2 & A3) & _) (_ & (f' & ls' & B1 & B2 & B3) & _). congruence.
Qed.
Lemma netof_ds ds : (forall b ps, In (b, ps) ds -> backend_ok file_lines construct b ps) -> Forall2 netof (map fst ds) (nets_of domain ds).
Proof.
  induction ds as [|[b ps] ds IH]; intros H; cbn; constructor.
  - split; [reflexivity|]. apply H. left. reflexivity.
  - apply IH. intros b' ps' Hin. apply H. right. exact Hin.
Qed.
Lemma netof_fun bs : forall nets nets', Forall2 netof bs nets -> Forall2 netof bs nets' -> nets = nets'.
Proof.
  induction bs as [|b bs IH]; intros nets nets' H H'; inversion H; inversion H'; subst; [reflexivity|].
  f_equal; [|apply IH; assumption].
  match goal with A : netof b ?x, B : netof b ?y |- ?x = ?y => destruct A as [A1 A2], B as [B1 B2]; destruct x as [xa xb], y as [ya yb] end.
  cbn in *. pose proof (backend_ports _ _ _ A2 B2). congruence.
Qed.
Lemma c72_starts bs : NoDup (map fst bs) ->
  (exists s, setup bs = Ok s) <-> exists nets, Forall2 netof bs nets /\ forall n ps, In (n, ps) nets -> plain_ports ps.
Proof.
  intros Hnd. pose proof (setup_backends_spec file_lines construct domain bs Hnd) as H. split.
  - intros [s E]. rewrite E in H. destruct H as (ds & <- & Hg & _). exists (nets_of domain ds). split.
    + apply netof_ds. intros b ps Hin. apply (Hg b ps Hin).
    + intros n ps Hin. unfold nets_of in Hin. apply in_map_iff in Hin as ([b ps'] & [= _ <-] & Hd). apply (Hg b ps' Hd).
  - intros (nets & Hf & Hp). destruct (setup bs) as [s|e]; [eauto|]. destruct H as (b & Hb & Hn). exfalso.
    clear Hnd. induction Hf as [|b' [n ps] bs nets [H1 H2] Hf IH]; [destruct Hb|]. destruct Hb as [->|Hb].
    + apply (Hn ps). split; [exact H2|]. apply (Hp n ps). left. reflexivity.
    + apply IH; [exact Hb|]. intros n' ps' Hin. apply (Hp n' ps'). right. exact Hin.
Qed.
Lemma setup_inv bs s nets : NoDup (map fst bs) -> setup bs = Ok s -> Forall2 netof bs nets ->
  exists ds, nets = nets_of domain ds /\ map fst ds = bs /\ svc_inv domain (List.length bs) ds s /\ NoDup (map fst nets).
Proof.
  intros Hnd E Hf. pose proof (setup_backends_spec file_lines construct domain bs Hnd) as H. rewrite E in H.
  destruct H as (ds & <- & Hg & I). exists ds. assert (En : nets = nets_of domain ds).
  { eapply netof_fun; [exact Hf|]. apply netof_ds. intros b ps Hin. apply (Hg b ps Hin). }
  split; [exact En|]. split; [reflexivity|]. split; [exact I|]. rewrite En. unfold nets_of. rewrite map_map. cbn.
  clear - Hnd. rewrite map_map in Hnd. induction ds as [|[b ps] ds IH]; cbn in *; [constructor|]. inversion Hnd as [|? ? Hn Hd]; subst.
  constructor; [|auto]. intros Hin. apply Hn. apply in_map_iff in Hin as (d & E & Hd'). apply net_inj in E. rewrite <- E. apply in_map_iff. eauto.
Qed.
Lemma aget_map_const {A B} (l : list (string * A)) n (c : B) : aget n (map (fun e => (fst e, c)) l) = if mem n (map fst l) then Some c else None.
Proof.
  induction l as [|[m x] l IH]; cbn; [reflexivity|]. unfold mem in *. cbn. destruct (eqb n m); [reflexivity|exact IH].
Qed.
Lemma aget_number_fst {A} (l : list (string * A)) n : forall i, aget n (map (fun e : string * (nat * A) => (fst e, fst (snd e))) (number i l)) = option_map fst (aget n (number i l)).
Proof.
  induction l as [|[m x] l IH]; intros i; cbn; [reflexivity|]. destruct (eqb n m); [reflexivity|apply IH].
Qed.
Lemma c72_networks bs s nets : NoDup (map fst bs) -> setup bs = Ok s -> Forall2 netof bs nets ->
  (forall i net ps, nth_error nets i = Some (net, ps) ->
     aget net (sv_nets s) = Some (i, ps) /\ In net (lv_local (sv_lv s)) /\
     aget net (pr_providers (sv_prov s)) = Some i /\ get_provider_urn net (sv_prov s) = Ok (URN_NETWORK +++ domain +++ ":nsa")) /\
  (forall net, ~ In net (map fst nets) ->
     aget net (sv_nets s) = None /\ ~ In net (lv_local (sv_lv s)) /\ aget net (pr_providers (sv_prov s)) = None /\
     get_provider_urn net (sv_prov s) = Err EKey).
Proof.
  intros Hnd E Hf. destruct (setup_inv bs s nets Hnd E Hf) as (ds & -> & Hds & I & Hn). split.
  - intros i net ps Hi. pose proof (number_get _ _ _ _ 0%nat Hn Hi) as Hg. cbn [Nat.add] in Hg.
    assert (Hin : In net (map fst (nets_of domain ds))) by (apply nth_error_In in Hi; apply (in_map fst _ _ Hi)).
    split; [rewrite (si_nets _ _ _ _ I); exact Hg|]. split; [rewrite (si_local _ _ _ _ I); exact Hin|].
    split; [rewrite (si_prov _ _ _ _ I), aget_number_fst, Hg; reflexivity|].
    unfold get_provider_urn. rewrite (si_urns _ _ _ _ I), aget_map_const, (proj2 (mem_In _ _) Hin). reflexivity.
  - intros net Hni. assert (Hm : mem net (map fst (nets_of domain ds)) = false).
    { destruct (mem net (map fst (nets_of domain ds))) eqn:Em; [|reflexivity]. apply mem_In in Em. contradiction. }
    assert (Hg : aget net (number 0 (nets_of domain ds)) = None).
    { destruct (aget net (number 0 (nets_of domain ds))) as [v|] eqn:Eg; [|reflexivity]. apply aget_Some_In_keys in Eg.
      unfold akeys in Eg. rewrite number_keys in Eg. contradiction. }
    split; [rewrite (si_nets _ _ _ _ I); exact Hg|]. split; [rewrite (si_local _ _ _ _ I); exact Hni|].
    split; [rewrite (si_prov _ _ _ _ I), aget_number_fst, Hg; reflexivity|].
    unfold get_provider_urn. rewrite (si_urns _ _ _ _ I), aget_map_const, Hm. reflexivity.
Qed.
Lemma c72_ports bs s nets : NoDup (map fst bs) -> setup bs = Ok s -> Forall2 netof bs nets -> forall net name p,
  (exists d, aget net (sv_ports s) = Some d /\ aget name d = Some p) <-> exists ps, In (net, ps) nets /\ port_named ps name p.
Proof. intros Hnd E Hf. destruct (setup_inv bs s nets Hnd E Hf) as (ds & -> & _ & I & _). apply (si_ports _ _ _ _ I). Qed.
Lemma c72_links bs s nets : NoDup (map fst bs) -> setup bs = Ok s -> Forall2 netof bs nets -> forall u p v c,
  edge (lv_table (sv_lv s)) u p v c <-> c = 1 /\ configured nets u p v.
Proof. intros Hnd E Hf. destruct (setup_inv bs s nets Hnd E Hf) as (ds & -> & _ & I & _). apply (si_edges _ _ _ _ I). Qed.
Lemma walk_chain t nets : (forall u p v c, edge t u p v c <-> c = 1 /\ configured nets u p v) ->
  (forall u w hops c, walk t [] u w hops c -> chain nets u w hops /\ c = Z.of_nat (List.length hops)) /\
  (forall u w hops, chain nets u w hops -> walk t [] u w hops (Z.of_nat (List.length hops))).
Proof.
  intros He. split.
  - induction 1 as [u p v c H _|u p v c w hops c' H _ Hw [IH1 IH2]]; apply He in H as [-> H].
    + split; [constructor; exact H|reflexivity].
    + split; [econstructor; eassumption|]. cbn [List.length]. lia.
  - induction 1 as [u p v H|u p v w hops H Hc IH].
    + apply walk_one; [apply He; auto|intros []].
    + cbn [List.length]. replace (Z.of_nat (S (List.length hops))) with (1 + Z.of_nat (List.length hops)) by lia.
      apply walk_more with v; [apply He; auto|intros []|exact IH].
Qed.
Lemma c72_routes bs s nets : NoDup (map fst bs) -> setup bs = Ok s -> Forall2 netof bs nets ->
  forall dst src, In src (map fst nets) -> dst <> src ->
  (exists hops, lv_path dst src (sv_lv s) = Ok (Some hops) /\ chain nets src dst hops /\ (List.length hops <= 5)%nat /\
     forall hops', chain nets src dst hops' -> (List.length hops <= List.length hops')%nat) \/
  (lv_path dst src (sv_lv s) = Ok None /\ forall hops, chain nets src dst hops -> (5 < List.length hops)%nat).
Proof.
  intros Hnd E Hf dst src Hs Hd. destruct (setup_inv bs s nets Hnd E Hf) as (ds & -> & _ & I & _).
  destruct (walk_chain _ _ (si_edges _ _ _ _ I)) as [W1 W2].
  destruct (made_linv _ (si_made _ _ _ _ I)) as (Hi & Hb & Hm).
  assert (Hnn : nonneg (lv_table (sv_lv s))) by (intros u p v c H; apply (si_edges _ _ _ _ I) in H as [-> _]; lia).
  rewrite <- (si_local _ _ _ _ I) in Hs.
  destruct (lv_path_cases (sv_lv s) dst src Hi Hnn Hs Hd) as [(hops & c & H1 & H2 & H3 & H4)|(H1 & H2)]; rewrite Hb, Hm in *.
  - left. exists hops. apply W1 in H2 as [H2 ->]. split; [exact H1|]. split; [exact H2|]. split; [lia|].
    intros hops' H. specialize (H4 _ _ (W2 _ _ _ H)). lia.
  - right. split; [exact H1|]. intros hops H. specialize (H2 _ _ (W2 _ _ _ H)). lia.
Qed.
Lemma c72_neighbour bs s nets : NoDup (map fst bs) -> setup bs = Ok s -> Forall2 netof bs nets ->
  forall net port r, configured nets net port r -> r <> net -> exists port',
  lv_path r net (sv_lv s) = Ok (Some [(net, port')]) /\ lv_vector r net (sv_lv s) = Ok (Some (net, port')) /\ configured nets net port' r.
Proof.
  intros Hnd E Hf net port r Hc Hr. assert (Hs : In net (map fst nets)) by (destruct Hc as (ps & np & Hin & _); apply (in_map fst _ _ Hin)).
  destruct (c72_routes bs s nets Hnd E Hf r net Hs Hr) as [(hops & H1 & H2 & _ & H4)|(_ & H)].
  - specialize (H4 _ (chain_one nets _ _ _ Hc)). cbn in H4. inversion H2 as [u p v Hp|u p v w hops' Hp Hw]; subst.
    + exists p. unfold lv_vector. rewrite H1. auto.
    + cbn in H4. inversion Hw; subst; cbn in H4; lia.
  - specialize (H _ (chain_one nets _ _ _ Hc)). cbn in H. lia.
Qed.
Lemma urns_const {A} (l : list (string * A)) (c : string) : nodup string_dec (map snd (map (fun e => (fst e, c)) l)) = match l with [] => [] | _ => [c] end.
Proof.
  rewrite map_map. cbn. induction l as [|x l IH]; cbn [map nodup]; [reflexivity|]. destruct (in_dec string_dec c (map (fun _ => c) l)) as [H|H].
  - rewrite IH. destruct l; [destruct H|reflexivity].
  - destruct l; [reflexivity|]. exfalso. apply H. left. reflexivity.
Qed.
Lemma peers_with_set_up bs s : NoDup (map fst bs) -> setup bs = Ok s -> peers_with domain (sv_prov s) = match bs with [] => Err EKey | _ => Ok [] end.
Proof.
  intros Hnd E. pose proof (setup_backends_spec file_lines construct domain bs Hnd) as H. rewrite E in H. destruct H as (ds & <- & _ & I).
  unfold peers_with. rewrite (si_urns _ _ _ _ I), urns_const. destruct ds as [|d ds]; cbn; [reflexivity|].
  unfold mem. cbn. rewrite eqb_refl. reflexivity.
Qed.
Lemma forallb_false {A} (p : A -> bool) l : forallb p l = false -> exists x, In x l /\ p x = false.
Proof.
  induction l as [|x l IH]; cbn [forallb]; [discriminate|]. destruct (p x) eqn:E; cbn [andb]; intros H.
  - destruct (IH H) as (y & H1 & H2). exists y. cbn. auto.
  - exists x. cbn. auto.
Qed.
Lemma c72_service v fqdn version now : NoDup (map fst (vc_backends v)) ->
  match setup_service file_lines construct domain v fqdn version now with
  | Ok (s, pol, doc) => setup (vc_backends v) = Ok s /\ pol = vc_policy v /\ discovery_xml domain v fqdn version now s (sv_prov s) = Ok doc /\
      vc_backends v <> [] /\ forall l, vc_peers v = Some l -> forall u, In u l -> starts_with "http" u = true
  | Err e => vc_backends v = [] \/ setup (vc_backends v) = Err e \/
      exists l u, vc_peers v = Some l /\ In u l /\ starts_with "http" u = false
  end.
Proof.
  intros Hnd. unfold setup_service. destruct (setup (vc_backends v)) as [s|e] eqn:E; cbn [Base.bind]; [|auto].
  destruct (fetcher_init (vc_peers v)) as [[]|e] eqn:Ef; cbn [Base.bind].
  2:{ right. right. unfold fetcher_init in Ef. destruct (vc_peers v) as [l|]; [|discriminate]. exists l.
      destruct (forallb (starts_with "http") l) eqn:Eb; [discriminate|]. apply forallb_false in Eb as (u & H1 & H2). exists u. auto. }
  destruct (discovery_xml domain v fqdn version now s (sv_prov s)) as [doc|e] eqn:Ed; cbn [Base.bind].
  - split; [reflexivity|]. pose proof Ed as Ed'. unfold discovery_xml in Ed'. rewrite (peers_with_set_up _ _ Hnd E) in Ed'.
    destruct (vc_backends v) as [|b bs]; [discriminate|]. split; [reflexivity|]. split; [exact Ed|]. split; [discriminate|].
    intros l Hl u Hu. rewrite Hl in Ef. unfold fetcher_init in Ef. destruct (forallb (starts_with "http") l) eqn:Eb; [|discriminate].
    rewrite forallb_forall in Eb. apply Eb, Hu.
  - left. unfold discovery_xml in Ed. rewrite (peers_with_set_up _ _ Hnd E) in Ed. destruct (vc_backends v); [reflexivity|discriminate].
Qed.
End C72.

(** ** C73 *)
Lemma filter_tag {A} (f : A -> element) t tag l : (forall x, e_tag (f x) = tag) ->
  filter (fun k => eqb (e_tag k) t) (map f l) = if eqb tag t then map f l else [].
Proof.
  intros H. induction l as [|x l IH]; cbn; [destruct (eqb tag t); reflexivity|]. rewrite H, IH. destruct (eqb tag t); reflexivity.
Qed.
Lemma descr_url_some ifs : descr_url (map (fun i => (Some (fst i), Some (snd i))) ifs) = service_url ifs.
Proof.
  unfold descr_url, service_url. match goal with |- fold_left ?f ?l ?n = fold_left ?g ?l' _ => enough (H : forall u, fold_left f l u = fold_left g l' u) by apply H end.
  induction ifs as [|[t h] ifs IH]; intros u; cbn [map fold_left fst snd]; [reflexivity|].
  rewrite IH. f_equal.
  replace (eqb (Some t) (Some CS2_PROVIDER)) with (eqb t CS2_PROVIDER) by reflexivity.
  replace (eqb (Some t) (Some CS2_SERVICE_TYPE)) with (eqb t CS2_SERVICE_TYPE) by reflexivity.
  destruct (eqb t CS2_PROVIDER); [reflexivity|]. destruct (eqb t CS2_SERVICE_TYPE), u; reflexivity.
Qed.
Lemma mapM_text l : mapM text (map Some l) = Ok l.
Proof. induction l as [|x l IH]; cbn; [reflexivity|]. rewrite IH. reflexivity. Qed.
(** what a description says, if every text is there *)
Lemma got_description_document pt d s : d_interface d <> [] ->
  got_description pt (mkDescr (Some (d_id d)) (map Some (d_networks d)) (Some (map (fun i => (Some (fst i), Some (snd i))) (d_interface d)))
                        (Some [Some (map (fun t => (Some (fst t), snd t)) (d_reach d))])) s = got_document pt d s.
Proof.
  intros _. unfold got_description, got_document. cbn [n_interface n_networks n_id n_other]. rewrite descr_url_some, mapM_text.
  destruct (service_url (d_interface d)) as [url|]; [|reflexivity]. cbn [text Base.bind].
  destruct (base_name (d_id d)) as [i|e]; [|reflexivity]. destruct (spawn_all _ _ _) as [p [e|]]; [reflexivity|].
  unfold descr_reach. cbn [flat_map]. rewrite app_nil_r.
  assert (E : mapM (fun t : option string * Z => do! u <- text (fst t); Ok (u, snd t)) (map (fun t => (Some (fst t), snd t)) (d_reach d)) = Ok (d_reach d)).
  { induction (d_reach d) as [|[a b] l IH]; cbn; [reflexivity|]. rewrite IH. reflexivity. }
  rewrite E. reflexivity.
Qed.
Lemma got_description_plain pt id ifs nets s :
  got_description pt (mkDescr (Some id) (map Some nets) (Some (map (fun i => (Some (fst i), Some (snd i))) ifs)) None) s =
  got_document pt (mkDoc id ifs nets []) s.
Proof.
  unfold got_description, got_document. cbn [n_interface n_networks n_id n_other d_interface d_id d_networks]. rewrite descr_url_some, mapM_text.
  destruct (service_url ifs) as [url|]; [|reflexivity]. cbn [text Base.bind].
  destruct (base_name id) as [i|e]; [|reflexivity]. destruct (spawn_all _ _ _) as [p [e|]]; reflexivity.
Qed.
Lemma ok_inj {A} (x y : A) : Ok x = Ok y -> x = y.
Proof. congruence. Qed.
Section C73.
Variable domain : string.
Definition doc_of (v : vconf) (fqdn : string) (s : service) : document :=
  mkDoc (own_urn domain) (interfaces v fqdn s) (map (fun n => URN_NETWORK +++ fst n) (sv_nets s)) [].
Lemma wire_name s : wire (leaf "networkId" (Some (URN_NETWORK +++ s))) = leaf "networkId" (Some (URN_NETWORK +++ s)).
Proof. reflexivity. Qed.
Lemma parsed v fqdn version now s p doc : discovery_xml domain v fqdn version now s p = Ok doc ->
  discovery_parse (wire doc) = Ok (mkDescr (Some (own_urn domain)) (map Some (d_networks (doc_of v fqdn s)))
    (Some (map (fun i => (Some (fst i), Some (snd i))) (interfaces v fqdn s))) None).
Proof.
  unfold discovery_xml. destruct (peers_with domain p) as [peers|e]; cbn [Base.bind]; [|discriminate]. intros E. apply ok_inj in E. subst doc.
  unfold discovery_parse. cbn [wire e_tag]. rewrite eqb_refl. unfold nsa_build, findall. cbn [e_kids].
  rewrite !map_app, !map_map, !filter_app.
  rewrite !(filter_tag (fun x => wire (leaf "networkId" (Some (URN_NETWORK +++ fst x)))) _ "networkId") by reflexivity.
  rewrite !(filter_tag (fun x => wire (interface_xml x)) _ "interface") by reflexivity.
  rewrite !(filter_tag (fun x => wire (feature_xml x)) _ "feature") by reflexivity.
  rewrite !(filter_tag (fun x => wire (leaf "peersWith" (Some x))) _ "peersWith") by reflexivity.
  change (eqb "networkId" "other") with false. change (eqb "interface" "other") with false. change (eqb "feature" "other") with false.
  change (eqb "peersWith" "other") with false. change (eqb "networkId" "networkId") with true. change (eqb "interface" "networkId") with false.
  change (eqb "feature" "networkId") with false. change (eqb "peersWith" "networkId") with false. change (eqb "interface" "interface") with true.
  change (eqb "networkId" "interface") with false. change (eqb "feature" "interface") with false. change (eqb "peersWith" "interface") with false.
  cbv iota. rewrite !app_nil_r.
  set (hd := map wire [leaf "name" (Some domain); leaf "softwareVersion" (Some version); leaf "startTime" (Some now)]).
  assert (F1 : filter (fun k => eqb (e_tag k) "other") hd = []) by reflexivity.
  assert (F2 : filter (fun k => eqb (e_tag k) "networkId") hd = []) by reflexivity.
  assert (F3 : filter (fun k => eqb (e_tag k) "interface") hd = []) by reflexivity.
  rewrite F1, F2, F3. cbn [app Base.bind].
  f_equal. f_equal.
  - cbn [doc_of d_networks]. rewrite !map_map. apply map_ext. intros x. rewrite wire_name. reflexivity.
  - set (l := interfaces v fqdn s). assert (Hl : l <> []) by discriminate. clearbody l. 
    assert (E : map (fun i => (findtext "type" i, findtext "href" i)) (map (fun x => wire (interface_xml x)) l) = map (fun i => (Some (fst i), Some (snd i))) l).
    { rewrite map_map. apply map_ext. intros [t h]. unfold findtext, find1, findall, interface_xml, leaf. cbn.
      destruct t, h; reflexivity. }
    destruct l as [|x l]; [congruence|]. rewrite <- E. reflexivity.
Qed.
Lemma c73_read v fqdn version now s p doc pt d : discovery_xml domain v fqdn version now s p = Ok doc ->
  got_xml pt (wire doc) d = got_document pt (doc_of v fqdn s) d.
Proof. intros H. unfold got_xml. rewrite (parsed _ _ _ _ _ _ _ H). apply got_description_plain. Qed.
Lemma doc_describes v fqdn s : describes (doc_of v fqdn s) (URN_NETWORK +++ domain +++ ":nsa") (endpoint v fqdn) (map fst (sv_nets s)).
Proof.
  split; [reflexivity|]. split; [|split; [|reflexivity]].
  - cbn [doc_of d_interface]. unfold interfaces. apply (url_provider _ [] _ (( CS2_SERVICE_TYPE, endpoint v fqdn) :: ((if vc_rest v then [(OPENNSA_REST, base_url v fqdn +++ "/connections")] else []) ++
  map (fun n => (NML_SERVICE_TYPE, base_url v fqdn +++ "/NSI/" +++ fst n +++ ".nml.xml")) (sv_nets s)))); [reflexivity|].
    intros x [E|H]; [discriminate|]. apply in_app_or in H as [H|H].
    + destruct (vc_rest v); [destruct H as [E|[]]; discriminate|destruct H].
    + apply in_map_iff in H as (n & E & _). discriminate.
  - intros n. unfold own_network. cbn [doc_of d_networks]. rewrite in_map_iff. split.
    + intros (x & E & H). assert (fst x = n) by (unfold URN_NETWORK in E; cbn in E; congruence). subst n. apply in_map, H.
    + intros H. apply in_map_iff in H as (x & <- & H). exists x. auto.
Qed.
End C73.
