(** Proofs for C94 and C95. *)
From Verif Require Import Base BaseProofs ModelXml ModelLabel ModelSTP ModelAuthz ModelNRM ModelNml ModelTopo SpecLabel SpecTopo ProofsLabel.
Open Scope Z_scope.

(** * The collection *)
Lemma in_adel {V} k x (d : list (string * V)) : In x (adel k d) -> In x d.
Proof. induction d as [|[k' v] r IH]; cbn; [auto|]. destruct (eqb k k'); cbn; intuition. Qed.
Lemma in_aset {V} k v x (d : list (string * V)) : In x (aset k v d) -> x = (k, v) \/ In x d.
Proof.
  induction d as [|[k' v'] r IH]; cbn; [intuition|]. destruct (eqb_ok k k') as [<-|]; cbn; intuition.
Qed.
Lemma tidy_add n a t t' : tidy t -> add_network n a t = Ok t' -> tidy t'.
Proof.
  intros (H1 & H2). unfold add_network. destruct (ahas (nw_id n) t) eqn:E; [discriminate|]. intros E'. injection E' as <-. split.
  - apply (NoDup_akeys_aset (nw_id n) (n, a) t H1).
  - intros k m (b & I). apply in_aset in I. destruct I as [I|I]; [injection I as -> -> ->; reflexivity|]. apply H2. exists b. exact I.
Qed.
Lemma tidy_del k t : tidy t -> tidy (adel k t).
Proof. intros (H1 & H2). split; [exact (NoDup_akeys_adel k t H1)|]. intros k' m (b & I). apply H2. exists b. exact (in_adel _ _ _ I). Qed.
Lemma update_ok n a t : tidy t -> update_network n a t = (aset (nw_id n) (n, a) (adel (nw_id n) t), None).
Proof.
  intros (H1 & _). unfold update_network, add_network, ahas. rewrite (aget_adel_eq _ _ H1). reflexivity.
Qed.
Lemma tidy_step t x : tidy t -> tidy (tstep t x).
Proof.
  intros H. destruct x as [n a|n a]; cbn [tstep].
  - destruct (add_network n a t) as [t'|] eqn:E; [exact (tidy_add _ _ _ _ H E)|exact H].
  - rewrite (update_ok _ _ _ H). cbn [fst]. apply (tidy_add n a (adel (nw_id n) t)); [exact (tidy_del _ _ H)|].
    unfold add_network, ahas. rewrite (aget_adel_eq _ _ (proj1 H)). reflexivity.
Qed.
Lemma tidy_run l : tidy (trun l).
Proof.
  unfold trun. assert (H : tidy []) by (split; [constructor|intros k n (a & [])]). revert H. generalize (@nil (string * (network * string))).
  induction l as [|x l IH]; intros t H; cbn; [exact H|]. apply IH. exact (tidy_step _ _ H).
Qed.
Lemma step_entry t x id : tidy t -> aget id (tstep t x) = entry_step id (aget id t) x.
Proof.
  intros H. destruct x as [n a|n a]; cbn [tstep entry_step].
  - unfold add_network, ahas. destruct (aget (nw_id n) t) as [e|] eqn:E.
    + destruct (eqb_ok (nw_id n) id) as [<-|N]; [rewrite E|]; reflexivity.
    + rewrite aget_aset. destruct (eqb_ok id (nw_id n)) as [->|N].
      * destruct (eqb_ok (nw_id n) (nw_id n)) as [_|N]; [rewrite E; reflexivity|congruence].
      * destruct (eqb_ok (nw_id n) id) as [<-|_]; [congruence|reflexivity].
  - rewrite (update_ok _ _ _ H). cbn [fst]. rewrite aget_aset. destruct (eqb_ok id (nw_id n)) as [->|N].
    + destruct (eqb_ok (nw_id n) (nw_id n)) as [_|N]; [reflexivity|congruence].
    + destruct (eqb_ok (nw_id n) id) as [<-|_]; [congruence|]. exact (aget_adel_ne _ _ _ N).
Qed.
Lemma run_entry l id : aget id (trun l) = entry id l.
Proof.
  unfold trun, entry. change (@None (network * string)) with (aget id (@nil (string * (network * string)))).
  assert (H : tidy []) by (split; [constructor|intros k n (a & [])]). revert H. generalize (@nil (string * (network * string))).
  induction l as [|x l IH]; intros t H; cbn; [reflexivity|]. rewrite <- (step_entry _ _ _ H). apply IH. exact (tidy_step _ _ H).
Qed.

Lemma get_network_spec t id n : tidy t -> (get_network t id = Ok n <-> holds t id n).
Proof.
  intros H. unfold get_network, holds. split.
  - destruct (aget id t) as [[m a]|] eqn:E; [|discriminate]. intros X. injection X as <-. exists a. exact (aget_In _ _ _ E).
  - intros (a & I). rewrite (In_aget _ _ _ (proj1 H) I). reflexivity.
Qed.
Lemma holds_one t k n m : tidy t -> holds t k n -> holds t k m -> n = m.
Proof. intros H A B. apply (get_network_spec t k n H) in A. apply (get_network_spec t k m H) in B. congruence. Qed.
Lemma has_port_all n p : has_port n p <-> In p (all_ports n).
Proof.
  unfold all_ports. rewrite !in_app_iff, !in_map_iff. destruct p as [p|p|p]; cbn [has_port]; split; intros H; eauto;
    destruct H as [(x & E & I)|[(x & E & I)|(x & E & I)]]; try discriminate; injection E as <-; exact I.
Qed.
Lemma called_id p id : called p id <-> any_id p = id.
Proof. destruct p; reflexivity. Qed.
Lemma get_port_spec n id p : get_port n id = Ok p -> In p (all_ports n) /\ any_id p = id.
Proof.
  unfold get_port. destruct (find _ _) as [q|] eqn:E; [|discriminate]. intros X. injection X as <-. apply find_some in E. destruct E as (I & E).
  split; [exact I|]. apply (proj1 (eqb_true _ _)) in E. exact E.
Qed.
Lemma get_port_none n id e : get_port n id = Err e -> forall p, In p (all_ports n) -> any_id p <> id.
Proof.
  unfold get_port. destruct (find _ _) as [q|] eqn:E; [discriminate|]. intros _ p I X. pose proof (find_none _ _ E p I) as F. cbv beta in F. rewrite X in F.
  destruct (eqb_ok id id); congruence.
Qed.
(** the first network with the port *)
Lemma network_port_spec t pid :
  match get_network_port t pid with
  | Ok (k, p) => exists t1 n a t2, t = t1 ++ (k, (n, a)) :: t2 /\ In p (all_ports n) /\ any_id p = pid /\
                   forall k' n', holds t1 k' n' -> forall p', In p' (all_ports n') -> any_id p' <> pid
  | Err e => e = ETopology /\ forall k n, holds t k n -> forall p, In p (all_ports n) -> any_id p <> pid
  end.
Proof.
  induction t as [|[k [n a]] t IH]; cbn [get_network_port]; [split; [reflexivity|intros k n (a & [])]|].
  destruct (get_port n pid) as [p|e] eqn:E.
  - apply get_port_spec in E. destruct E. exists [], n, a, t. repeat split; auto. intros k' n' (b & []).
  - pose proof (get_port_none _ _ _ E) as N. destruct (get_network_port t pid) as [[k' p]|e'].
    + destruct IH as (t1 & m & b & t2 & -> & I & J & F). exists ((k, (n, a)) :: t1), m, b, t2. repeat split; auto.
      intros k'' n'' (c & [X|X]); [injection X as <- <- <-; exact N|]. apply (F k'' n''). exists c. exact X.
    + destruct IH as (-> & F). split; [reflexivity|]. intros k' m (c & [X|X]); [injection X as <- <- <-; exact N|]. apply (F k' m). exists c. exact X.
Qed.

Lemma find_all c n : find_ports c n true None None = Ok (map ABi (nw_bi n)).
Proof.
  unfold find_ports, all_ports.
  assert (H : forall ps qs, find_ports_in c true None None qs = Ok ps -> forall rs, (forall p, In p rs -> is_bidirectional p = false) -> find_ports_in c true None None (rs ++ qs) = Ok ps).
  { intros ps qs H rs F. induction rs as [|r rs IH]; [exact H|]. cbn. rewrite IH by (intros p I; apply F; right; exact I). rewrite (F r) by (left; reflexivity). reflexivity. }
  apply H; [|intros p I; apply in_map_iff in I; destruct I as (x & <- & _); reflexivity].
  apply H; [|intros p I; apply in_map_iff in I; destruct I as (x & <- & _); reflexivity].
  clear H. induction (nw_bi n) as [|b l IH]; cbn; [reflexivity|]. rewrite IH. reflexivity.
Qed.
Lemma bis_map l : bis_of (map ABi l) = l.
Proof. induction l as [|b l IH]; cbn; [reflexivity|]. unfold bis_of in IH. rewrite IH. reflexivity. Qed.

Lemma demarcation_sound c t p k q : tidy t -> find_demarcation c t p = Ok (Some (k, q)) -> exists b, port_at t k b /\ bp_id b = q /\ faces p b.
Proof.
  intros T. unfold find_demarcation. destruct (np_remote (bp_in p)) as [ri|] eqn:RI; [|discriminate]. destruct (np_remote (bp_out p)) as [ro|] eqn:RO; [|discriminate].
  pose proof (network_port_spec t ro) as A. pose proof (network_port_spec t ri) as B.
  destruct (get_network_port t ro) as [[k1 p1]|]; cbn [Base.bind]; [|discriminate]. destruct (get_network_port t ri) as [[k2 p2]|]; cbn [Base.bind]; [|discriminate].
  destruct (eqb_ok k1 k2) as [<-|]; cbn [negb]; [|discriminate]. destruct A as (t1 & n & a & t2 & Et & I1 & J1 & _). destruct B as (_ & _ & _ & _ & _ & _ & J2 & _).
  assert (Hn : holds t k1 n) by (exists a; rewrite Et; apply in_or_app; right; left; reflexivity).
  rewrite (proj2 (get_network_spec t k1 n T) Hn). cbn [Base.bind]. rewrite find_all. cbn [Base.bind]. rewrite bis_map.
  destruct (find _ (nw_bi n)) as [b|] eqn:F; [|discriminate]. intros X. injection X as <- <-. apply find_some in F. destruct F as (Ib & F).
  apply andb_prop in F. destruct F as (F1 & F2). apply (proj1 (eqb_true _ _)) in F1. apply (proj1 (eqb_true _ _)) in F2. exists b. split; [exists n; split; [|exact Ib]|split; [reflexivity|]].
  - rewrite (proj2 T k1 n Hn). exact Hn.
  - unfold faces. rewrite RI, RO, F1, F2, J1, J2. split; reflexivity.
Qed.
Lemma demarcation_ok c t p : tidy t -> exists r, find_demarcation c t p = Ok r.
Proof.
  intros T. unfold find_demarcation. destruct (np_remote (bp_in p)) as [ri|]; [|eexists; reflexivity]. destruct (np_remote (bp_out p)) as [ro|]; [|eexists; reflexivity].
  pose proof (network_port_spec t ro) as A. destruct (get_network_port t ro) as [[k1 p1]|]; cbn [Base.bind]; [|eexists; reflexivity].
  destruct (get_network_port t ri) as [[k2 p2]|]; cbn [Base.bind]; [|eexists; reflexivity]. destruct (negb (eqb k1 k2)); [eexists; reflexivity|].
  destruct A as (t1 & n & a & t2 & Et & _). assert (Hn : holds t k1 n) by (exists a; rewrite Et; apply in_or_app; right; left; reflexivity).
  rewrite (proj2 (get_network_spec t k1 n T) Hn). cbn [Base.bind]. rewrite find_all. cbn [Base.bind]. eexists; reflexivity.
Qed.
Lemma in_all_in n p : In p (nw_in n) -> In (AIn p) (all_ports n).
Proof. intros I. apply in_or_app. left. exact (in_map AIn _ _ I). Qed.
Lemma in_all_out n p : In p (nw_out n) -> In (AOut p) (all_ports n).
Proof. intros I. apply in_or_app. right. apply in_or_app. left. exact (in_map AOut _ _ I). Qed.
Lemma in_all_bi n p : In p (nw_bi n) -> In (ABi p) (all_ports n).
Proof. intros I. apply in_or_app. right. apply in_or_app. right. exact (in_map ABi _ _ I). Qed.
Lemma in_bi_all n p : In (ABi p) (all_ports n) -> In p (nw_bi n).
Proof.
  unfold all_ports. rewrite !in_app_iff, !in_map_iff. intros [(x & E & _)|[(x & E & _)|(x & E & I)]]; try discriminate. injection E as <-. exact I.
Qed.
Lemma network_port_own t k n p : tidy t -> own_ports t -> holds t k n -> In p (all_ports n) ->
  exists q, get_network_port t (any_id p) = Ok (k, q) /\ any_id q = any_id p.
Proof.
  intros T O H I. pose proof (network_port_spec t (any_id p)) as A. destruct (get_network_port t (any_id p)) as [[k' q]|e].
  - destruct A as (t1 & m & a & t2 & Et & I' & E & _). exists q. split; [|exact E].
    assert (Hm : holds t k' m) by (exists a; rewrite Et; apply in_or_app; right; left; reflexivity).
    rewrite (O k' m k n q p _ Hm H (proj2 (has_port_all _ _) I') (proj2 (has_port_all _ _) I) (proj2 (called_id _ _) E) (proj2 (called_id p _) eq_refl)). reflexivity.
  - destruct A as (_ & A). destruct (A k n H p I eq_refl).
Qed.
Lemma demarcation_complete c t p k b : tidy t -> own_ports t -> listed t -> port_at t k b -> faces p b ->
  exists b', find_demarcation c t p = Ok (Some (k, bp_id b')) /\ port_at t k b' /\ np_id (bp_in b') = np_id (bp_in b) /\ np_id (bp_out b') = np_id (bp_out b).
Proof.
  intros T O L (n & H & I) (F1 & F2). destruct (L k n b H I) as (L1 & L2). unfold find_demarcation. rewrite F1, F2.
  destruct (network_port_own t k n (AIn (bp_in b)) T O H (in_all_in _ _ L1)) as (q1 & E1 & J1). destruct (network_port_own t k n (AOut (bp_out b)) T O H (in_all_out _ _ L2)) as (q2 & E2 & J2).
  cbn [any_id] in *. rewrite E1, E2. cbn [Base.bind]. destruct (eqb_ok k k) as [_|N]; [|congruence]. cbn [negb].
  rewrite (proj2 (get_network_spec t k n T) H). cbn [Base.bind]. rewrite find_all. cbn [Base.bind]. rewrite bis_map, J1, J2.
  destruct (find _ (nw_bi n)) as [b'|] eqn:F.
  - apply find_some in F. destruct F as (Ib & F). apply andb_prop in F. destruct F as (G1 & G2). apply (proj1 (eqb_true _ _)) in G1. apply (proj1 (eqb_true _ _)) in G2.
    exists b'. rewrite (proj2 T k n H). repeat split; auto. exists n. split; assumption.
  - pose proof (find_none _ _ F b I) as X. cbv beta in X. destruct (eqb_ok (np_id (bp_in b)) (np_id (bp_in b))); [|congruence].
    destruct (eqb_ok (np_id (bp_out b)) (np_id (bp_out b))); [discriminate X|congruence].
Qed.
