(** Properties C94 and C95: the collection of networks, and paths through it. *)
From Verif Require Import Base BaseProofs ModelXml ModelLabel ModelSTP ModelAuthz ModelNRM ModelNml ModelTopo SpecLabel SpecTopo ProofsTopo ProofsTopoPath.
Open Scope Z_scope.

(** ** C94 *)
(** After any additions and updates, what is got for a network is what was first
    added or last updated. *)
Theorem C94_entry : forall l id,
  get_network (trun l) id = match entry id l with Some (n, _) => Ok n | None => Err ETopology end /\
  get_nsa (trun l) id = match entry id l with Some (_, a) => Ok a | None => Err ETopology end.
Proof. intros l id. unfold get_network, get_nsa. rewrite run_entry. destruct (entry id l) as [[n a]|]; split; reflexivity. Qed.
Print Assumptions C94_entry.
(** A network that is there is not added again; an update is never refused. *)
Theorem C94_add : forall l n a,
  match add_network n a (trun l) with
  | Ok t => entry (nw_id n) l = None /\ t = trun (l ++ [Add n a])
  | Err e => e = ETopology /\ entry (nw_id n) l <> None
  end /\ snd (update_network n a (trun l)) = None.
Proof.
  intros l n a. split; [|rewrite (update_ok _ _ _ (tidy_run l)); reflexivity]. destruct (add_network n a (trun l)) as [t|e] eqn:E.
  - assert (S : trun (l ++ [Add n a]) = tstep (trun l) (Add n a)) by (unfold trun; rewrite fold_left_app; reflexivity). rewrite S. cbn [tstep]. rewrite E. split; [|reflexivity]. rewrite <- run_entry.
    unfold add_network, ahas in E. destruct (aget (nw_id n) (trun l)); [discriminate|reflexivity].
  - rewrite <- run_entry. unfold add_network, ahas in E. destruct (aget (nw_id n) (trun l)); [|discriminate]. injection E as <-. split; [reflexivity|discriminate].
Qed.
Print Assumptions C94_add.
(** A port is found in the first network that has one of that name, and not found if none has. *)
Theorem C94_port : forall l pid, let t := trun l in
  match get_network_port t pid with
  | Ok (k, p) => exists t1 n a t2, t = t1 ++ (k, (n, a)) :: t2 /\ has_port n p /\ called p pid /\
                   forall k' n', holds t1 k' n' -> forall p', has_port n' p' -> ~ called p' pid
  | Err e => e = ETopology /\ forall k n, holds t k n -> forall p, has_port n p -> ~ called p pid
  end.
Proof.
  intros l pid t. pose proof (network_port_spec t pid) as A. destruct (get_network_port t pid) as [[k p]|e].
  - destruct A as (t1 & n & a & t2 & E & I & J & F). exists t1, n, a, t2. split; [exact E|]. split; [apply has_port_all, I|]. split; [apply called_id, J|].
    intros k' n' H p' I' J'. apply (F k' n' H p'); [apply has_port_all, I'|apply called_id, J'].
  - destruct A as (E & F). split; [exact E|]. intros k n H p I J. apply (F k n H p); [apply has_port_all, I|apply called_id, J].
Qed.
Print Assumptions C94_port.
(** The port on the other side of a bidirectional port is one of the topology, and
    each of its two halves is the remote of the opposite half. *)
Theorem C94_demarcation : forall c l p k q, let t := trun l in find_demarcation c t p = Ok (Some (k, q)) -> exists b, port_at t k b /\ bp_id b = q /\ faces p b.
Proof. intros c l p k q t. exact (demarcation_sound c t p k q (tidy_run l)). Qed.
Print Assumptions C94_demarcation.
(** Where port ids are not shared, two ports that face each other are found from each other. *)
Theorem C94_mutual : forall c l k p m b, let t := trun l in own_ports t -> listed t ->
  (forall k x y, port_at t k x -> port_at t k y -> np_id (bp_in x) = np_id (bp_in y) -> np_id (bp_out x) = np_id (bp_out y) -> x = y) ->
  port_at t k p -> port_at t m b -> faces p b -> faces b p ->
  find_demarcation c t p = Ok (Some (m, bp_id b)) /\ find_demarcation c t b = Ok (Some (k, bp_id p)).
Proof.
  intros c l k p m b t O L U Pp Pb F1 F2. pose proof (tidy_run l) as T. fold t in T.
  destruct (demarcation_complete c t p m b T O L Pb F1) as (b' & E1 & P1 & I1 & J1). destruct (demarcation_complete c t b k p T O L Pp F2) as (p' & E2 & P2 & I2 & J2).
  rewrite (U m b' b P1 Pb I1 J1) in E1. rewrite (U k p' p P2 Pp I2 J2) in E2. split; assumption.
Qed.
Print Assumptions C94_mutual.

(** networks as configured *)
Definition tp_label (lo hi : Z) : option label := Some (mkLabel "vlan" [(lo, hi)]).
Definition tp_port (name : string) (l : option label) (remote : string) : nrm_port :=
  if eqb remote "" then mkPort "ethernet" name None None None None l 1000 name [] [] false
  else mkPort "ethernet" name None (Some remote) (Some (remote +++ "-in")) (Some (remote +++ "-out")) l 1000 name [] [] false.
Definition tp_net (id : string) (ports : list nrm_port) : network := match create_network ports id id with Ok n => n | Err _ => mkNet "" "" [] [] [] end.
Definition tp_A : network := tp_net "A" [tp_port "ps" (tp_label 100 110) ""; tp_port "ab" (tp_label 100 110) "B:ba"].
Definition tp_B : network := tp_net "B" [tp_port "ba" (tp_label 105 120) "A:ab"; tp_port "ps" (tp_label 105 120) ""].
Definition tp_hist : list tact := [Add tp_A "a"; Update (tp_net "B" []) "old"; Add (tp_net "A" []) "other"; Update tp_B "b"].
Definition tp_two : topo := trun tp_hist.
Definition tp_bi (n : network) (i : nat) : bport := nth i (nw_bi n) (mkBPort "" "" (mkNPort "" "" None None) (mkNPort "" "" None None) None).
Example C94_ex : get_network tp_two "A" = Ok tp_A /\ get_nsa tp_two "B" = Ok "b" /\ get_network tp_two "C" = Err ETopology /\
  add_network tp_A "x" tp_two = Err ETopology /\ get_network_port tp_two "B:ps-in" = Ok ("B", AIn (bp_in (tp_bi tp_B 1))) /\
  find_demarcation as_written tp_two (tp_bi tp_A 1) = Ok (Some ("B", "B:ba")) /\ find_demarcation as_written tp_two (tp_bi tp_A 0) = Ok None.
Proof. repeat split; vm_compute; reflexivity. Qed.
Lemma tp_holds k n : holds tp_two k n -> (k = "A" /\ n = tp_A) \/ (k = "B" /\ n = tp_B).
Proof.
  intros (a & I). assert (E : tp_two = [("A", (tp_A, "a")); ("B", (tp_B, "b"))]) by (vm_compute; reflexivity). rewrite E in I.
  destruct I as [I|[I|[]]]; injection I as <- <- <-; auto.
Qed.
Lemma tp_has : holds tp_two "A" tp_A /\ holds tp_two "B" tp_B.
Proof. assert (E : tp_two = [("A", (tp_A, "a")); ("B", (tp_B, "b"))]) by (vm_compute; reflexivity). rewrite E. split; eexists; [left|right; left]; reflexivity. Qed.
(** the two networks meet what [C94_mutual] asks *)
Example C94_mutual_ex : own_ports tp_two /\ listed tp_two /\ faces (tp_bi tp_A 1) (tp_bi tp_B 0) /\ faces (tp_bi tp_B 0) (tp_bi tp_A 1) /\
  find_demarcation as_written tp_two (tp_bi tp_A 1) = Ok (Some ("B", "B:ba")) /\ find_demarcation as_written tp_two (tp_bi tp_B 0) = Ok (Some ("A", "A:ab")).
Proof.
  assert (O : own_ports tp_two).
  { assert (X : forall p p', In p (all_ports tp_A) -> In p' (all_ports tp_B) -> any_id p = any_id p' -> False).
    { intros p p' I I' E. assert (D : forallb (fun x => negb (existsb (eqb x) (map any_id (all_ports tp_B)))) (map any_id (all_ports tp_A)) = true) by (vm_compute; reflexivity).
      rewrite forallb_forall in D. specialize (D (any_id p) (in_map any_id _ _ I)). apply negb_true_iff in D. assert (Y : existsb (eqb (any_id p)) (map any_id (all_ports tp_B)) = true); [|congruence].
      apply existsb_exists. exists (any_id p'). split; [exact (in_map any_id _ _ I')|]. rewrite E. destruct (eqb_ok (any_id p') (any_id p')); congruence. }
    intros k n k' n' p p' id H H' I I' J J'. apply has_port_all in I. apply has_port_all in I'. apply called_id in J. apply called_id in J'.
    assert (E : any_id p = any_id p') by congruence. apply tp_holds in H. apply tp_holds in H'. destruct H as [(-> & ->)|(-> & ->)], H' as [(-> & ->)|(-> & ->)]; try reflexivity.
    - destruct (X p p' I I' E).
    - destruct (X p' p I' I (eq_sym E)). }
  split; [exact O|]. split; [|repeat split; vm_compute; reflexivity].
  intros k n b H I. apply tp_holds in H. destruct H as [(-> & ->)|(-> & ->)]; vm_compute in I; destruct I as [<-|[<-|[]]]; vm_compute; auto.
Qed.

(** ** C95 *)
(** As written, [findPaths] never returns: every call raises. *)
Theorem C95_never : forall t src dst, exists e, find_paths as_written t src dst = Err e.
Proof. exact never_found. Qed.
Print Assumptions C95_never.
(** Nor do calls of the inner function find a path. *)
Theorem C95_never_inner : forall fuel t src dst ex ps, recurse fuel as_written t src dst ex = Ok ps -> ps = [].
Proof. exact never_found_deeper. Qed.
Print Assumptions C95_never_inner.
(** Were ports matched by their labels and links made of two STPs, then every path
    returned would lead from the source to the destination, have labels that all
    its ends carry, come back to no network it has left, and not come before a
    shorter one.  Missing: the code as it is ([C95_refuted]); that paths are found
    where there are some ([C95_label_refuted]). *)
Theorem C95_repaired_partial : forall l src dst ps, let t := trun l in labels_wf t -> label_wf (s_label src) -> label_wf (s_label dst) ->
  find_paths repaired t src dst = Ok ps -> shortest_first ps /\ forall p, In p ps -> leads t src dst p /\ usable t src dst p /\ no_return p.
Proof. intros l src dst ps t. exact (paths_found t src dst ps (tidy_run l)). Qed.
Print Assumptions C95_repaired_partial.
(** The search ends, however the networks are connected. *)
Theorem C95_ends : forall l src dst, find_paths as_written (trun l) src dst <> Err EFuel /\ find_paths repaired (trun l) src dst <> Err EFuel.
Proof.
  intros l src dst. split; apply paths_end; try exact (tidy_run l); (split; [|discriminate]).
  - intros p [x|]; discriminate.
  - intros p x. cbn. unfold can_match. destruct (np_label p) as [a|], x as [b|]; try discriminate. pose proof (intersect_ends a b) as N. destruct (intersect a b) as [|e]; [discriminate|]. destruct e; congruence.
Qed.
Print Assumptions C95_ends.

Definition tp_at (n p : string) (l : option label) : stp := mkSTP n p l.
Definition tp_src : stp := tp_at "A" "A:ps" (tp_label 100 120).
Definition tp_dst : stp := tp_at "B" "B:ps" (tp_label 100 120).
Definition tp_path : path := [(tp_at "A" "A:ps" (tp_label 105 110), tp_at "A" "A:ab" (tp_label 105 110)); (tp_at "B" "B:ba" (tp_label 105 110), tp_at "B" "B:ps" (tp_label 105 110))].
Lemma one_label_wf lo hi : 0 <= lo <= hi -> label_wf (tp_label lo hi).
Proof.
  intros H. split; [discriminate|]. split; [constructor; lia|]. intros a b [E|[]]. injection E as <- <-. lia.
Qed.
Lemma tp_wf : labels_wf tp_two.
Proof.
  intros k b (n & H & I). apply tp_holds in H. destruct H as [(-> & ->)|(-> & ->)]; vm_compute in I; destruct I as [<-|[<-|[]]]; split; apply one_label_wf; lia.
Qed.
(** there is a path, and [C95_repaired_partial] applies to it *)
Example C95_ex : labels_wf tp_two /\ label_wf (s_label tp_src) /\ label_wf (s_label tp_dst) /\ find_paths repaired tp_two tp_src tp_dst = Ok [tp_path] /\ find_paths as_written tp_two tp_src tp_dst = Err EAttribute.
Proof. split; [exact tp_wf|]. split; [apply one_label_wf; lia|]. split; [apply one_label_wf; lia|]. split; vm_compute; reflexivity. Qed.
Theorem C95_refuted : ~ (forall l src dst, let t := trun l in labels_wf t -> label_wf (s_label src) -> label_wf (s_label dst) ->
  (exists p, leads t src dst p /\ usable t src dst p) -> exists ps, find_paths as_written t src dst = Ok ps).
Proof.
  intros H. destruct C95_ex as (W & Ws & Wd & E & _). destruct (H tp_hist tp_src tp_dst W Ws Wd) as (ps & X).
  - destruct (C95_repaired_partial tp_hist tp_src tp_dst _ W Ws Wd E) as (_ & F). destruct (F tp_path (or_introl eq_refl)) as (A & B & _). exists tp_path. split; assumption.
  - destruct (C95_never (trun tp_hist) tp_src tp_dst) as (e & Y). congruence.
Qed.
Print Assumptions C95_refuted.

(** Repaired, one way with labels unlike those of the source ends the search with an error, whatever other
    ways there are: here A has a second port to B, which the source cannot use. *)
Definition tp_A2 : network := tp_net "A" [tp_port "ps" (tp_label 100 110) ""; tp_port "ab" (tp_label 100 110) "B:ba"; tp_port "a2" (tp_label 111 120) "B:b2"].
Definition tp_B2 : network := tp_net "B" [tp_port "ba" (tp_label 105 120) "A:ab"; tp_port "ps" (tp_label 105 120) ""; tp_port "b2" (tp_label 105 120) "A:a2"].
Definition tp_hist2 : list tact := [Add tp_A2 "a"; Add tp_B2 "b"].
Lemma tp_wf2 : labels_wf (trun tp_hist2).
Proof.
  intros k b (n & (a & H) & I). assert (E : trun tp_hist2 = [("A", (tp_A2, "a")); ("B", (tp_B2, "b"))]) by (vm_compute; reflexivity). rewrite E in H.
  destruct H as [H|[H|[]]]; injection H as <- <- <-; vm_compute in I; destruct I as [<-|[<-|[<-|[]]]]; split; apply one_label_wf; lia.
Qed.
Lemma has_range z lo hi : has z (tp_label lo hi) <-> lo <= z <= hi.
Proof. unfold tp_label. rewrite has_Some. cbn [lvalues]. split; [intros (a & b & [E|[]] & H); injection E as <- <-; exact H|intros H; exists lo, hi; split; [left; reflexivity|exact H]]. Qed.
Theorem C95_label_refuted : ~ (forall l src dst, let t := trun l in labels_wf t -> label_wf (s_label src) -> label_wf (s_label dst) ->
  (exists p, leads t src dst p /\ usable t src dst p) -> exists ps, find_paths repaired t src dst = Ok ps).
Proof.
  intros H. destruct (H tp_hist2 tp_src tp_dst tp_wf2) as (ps & X); [apply one_label_wf; lia|apply one_label_wf; lia| |].
  - assert (E : trun tp_hist2 = [("A", (tp_A2, "a")); ("B", (tp_B2, "b"))]) by (vm_compute; reflexivity).
    assert (HA : forall i, In (tp_bi tp_A2 i) (nw_bi tp_A2) -> port_at (trun tp_hist2) "A" (tp_bi tp_A2 i)) by (intros i I; exists tp_A2; split; [exists "a"; rewrite E; left; reflexivity|exact I]).
    assert (HB : forall i, In (tp_bi tp_B2 i) (nw_bi tp_B2) -> port_at (trun tp_hist2) "B" (tp_bi tp_B2 i)) by (intros i I; exists tp_B2; split; [exists "b"; rewrite E; right; left; reflexivity|exact I]).
    assert (A0 : port_at (trun tp_hist2) "A" (tp_bi tp_A2 0)) by (apply HA; vm_compute; auto). assert (A1 : port_at (trun tp_hist2) "A" (tp_bi tp_A2 1)) by (apply HA; vm_compute; auto).
    assert (B0 : port_at (trun tp_hist2) "B" (tp_bi tp_B2 0)) by (apply HB; vm_compute; auto). assert (B1 : port_at (trun tp_hist2) "B" (tp_bi tp_B2 1)) by (apply HB; vm_compute; auto).
    clear HA HB E. exists tp_path. split.
    + apply (leads_via _ _ _ _ _ (tp_bi tp_A2 1) (tp_bi tp_B2 0) (tp_at "B" "B:ba" None)); [split; reflexivity|reflexivity|split; [exact A1|reflexivity]|split; [exact B0|reflexivity]|split; reflexivity|].
      apply leads_within; [reflexivity|split; reflexivity|split; reflexivity].
    + split; [exists 105; apply has_range; lia|]. intros z Z. apply has_range in Z. split; [apply has_range; lia|]. split; [apply has_range; lia|].
      intros k [<-|[<-|[]]]; (split; (split; [apply has_range; lia|])).
      * exists (tp_bi tp_A2 0). split; [split; [exact A0|reflexivity]|split; apply has_range; lia].
      * exists (tp_bi tp_A2 1). split; [split; [exact A1|reflexivity]|split; apply has_range; lia].
      * exists (tp_bi tp_B2 0). split; [split; [exact B0|reflexivity]|split; apply has_range; lia].
      * exists (tp_bi tp_B2 1). split; [split; [exact B1|reflexivity]|split; apply has_range; lia].
  - assert (Y : find_paths repaired (trun tp_hist2) tp_src tp_dst = Err EEmptyLabelSet) by (vm_compute; reflexivity). congruence.
Qed.
Print Assumptions C95_label_refuted.
(** Repaired, a path may cross a network twice in a row: two ports of A lead to each other. *)
Definition tp_hist3 : list tact := [Add (tp_net "A" [tp_port "ps" (tp_label 100 110) ""; tp_port "ab" (tp_label 100 110) "B:ba"; tp_port "l1" (tp_label 100 110) "A:l2"; tp_port "l2" (tp_label 100 110) "A:l1"]) "a"; Add tp_B "b"].
Theorem C95_twice_refuted : ~ (forall l src dst ps p, find_paths repaired (trun l) src dst = Ok ps -> In p ps -> NoDup (map (fun k => s_network (fst k)) p)).
Proof.
  intros H.
  assert (E : exists p1 p2 p3, find_paths repaired (trun tp_hist3) tp_src tp_dst = Ok [p1; p2; p3] /\ map (fun k => s_network (fst k)) p1 = ["A"; "B"] /\ map (fun k => s_network (fst k)) p2 = ["A"; "A"; "B"])
    by (vm_compute; do 3 eexists; repeat split).
  destruct E as (p1 & p2 & p3 & E & _ & M). specialize (H tp_hist3 tp_src tp_dst _ p2 E (or_intror (or_introl eq_refl))). rewrite M in H. inversion H as [|x l N _]. apply N. left. reflexivity.
Qed.
Print Assumptions C95_twice_refuted.
