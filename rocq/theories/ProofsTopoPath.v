(** Proofs for C95: paths. *)
From Verif Require Import Base BaseProofs ModelXml ModelLabel ModelSTP ModelAuthz ModelNRM ModelNml ModelTopo SpecLabel SpecTopo ProofsLabel ProofsTopo.
Open Scope Z_scope.

(** * As written, nothing is ever found *)
Lemma never_found t src dst : exists e, find_paths as_written t src dst = Err e.
Proof.
  unfold find_paths. destruct (get_network t (s_network src)) as [sn|]; cbn [Base.bind]; [|eexists; reflexivity]. destruct (get_port sn (s_port src)) as [sp|]; cbn [Base.bind]; [|eexists; reflexivity].
  destruct (get_network t (s_network dst)) as [dn|]; cbn [Base.bind]; [|eexists; reflexivity]. destruct (get_port dn (s_port dst)) as [dp|]; cbn [Base.bind]; [|eexists; reflexivity].
  destruct sp as [sp|sp|sp], dp as [dp|dp|dp]; try (eexists; reflexivity). unfold port_matches. cbn [as_written match_label].
  destruct (s_label src); cbn [Base.bind negb]; [eexists; reflexivity|]. destruct (bport_label sp); cbn [Base.bind]; eexists; reflexivity.
Qed.
Lemma never_found_deeper fuel t src dst ex ps : recurse fuel as_written t src dst ex = Ok ps -> ps = [].
Proof.
  destruct fuel as [|fuel]; [discriminate|]. cbn [recurse]. destruct (get_network t (s_network src)) as [sn|]; cbn [Base.bind]; [|discriminate].
  destruct (get_network t (s_network dst)) as [dn|]; cbn [Base.bind]; [|discriminate]. destruct (get_port sn (s_port src)) as [sp|]; cbn [Base.bind]; [|discriminate].
  destruct (get_port dn (s_port dst)) as [dp|]; cbn [Base.bind]; [|discriminate]. unfold port_matches. cbn [as_written match_label].
  destruct sp as [sp|sp|sp], dp as [dp|dp|dp]; destruct (s_label src), (s_label dst); cbn [Base.bind negb]; intros H; try discriminate H; injection H as <-; reflexivity.
Qed.

(** * The rest of it *)
Lemma has_None z : ~ has z None.
Proof. intros (x & E & _). discriminate. Qed.
Lemma intersect_ok a b l : wf_values (lvalues a) -> wf_values (lvalues b) -> intersect a b = Ok l ->
  wf_values (lvalues l) /\ (exists z, denotes (lvalues l) z) /\ forall z, denotes (lvalues l) z <-> denotes (lvalues a) z /\ denotes (lvalues b) z.
Proof.
  intros A B E. assert (T : ltype a = ltype b). { unfold intersect in E. destruct (eqb_ok (ltype a) (ltype b)) as [X|]; [exact X|discriminate E]. }
  destruct (intersect_spec a b A B T) as [(m & E' & _ & W & N & D)|(E' & _)]; rewrite E in E'; [|discriminate]. injection E' as <-. auto.
Qed.
Lemma has_Some z x : has z (Some x) <-> denotes (lvalues x) z.
Proof. unfold has. split; [intros (y & E & D); injection E as <-; exact D|intros D; exists x; auto]. Qed.
Lemma meet_ok a b l : label_wf a -> label_wf b -> meet a b = Ok l ->
  label_wf l /\ (exists z, has z l) /\ forall z, has z l <-> has z a /\ has z b.
Proof.
  unfold meet. destruct a as [a|]; [|discriminate]. destruct b as [b|]; [|discriminate]. intros A B. destruct (intersect a b) as [x|] eqn:E; cbn [Base.bind]; [|discriminate].
  intros X. injection X as <-. destruct (intersect_ok a b x A B E) as (W & (z & N) & D). split; [exact W|]. split; [exists z; apply has_Some; exact N|].
  intros z'. rewrite !has_Some. apply D.
Qed.
Lemma bport_label_ok p l : label_wf (np_label (bp_in p)) -> label_wf (np_label (bp_out p)) -> bport_label p = Ok l ->
  label_wf l /\ forall z, has z l -> has z (np_label (bp_in p)) /\ has z (np_label (bp_out p)).
Proof.
  unfold bport_label. destruct (np_label (bp_in p)) as [a|], (np_label (bp_out p)) as [b|]; intros A B H;
    try (injection H as <-; split; [exact I|]; intros z X; destruct (has_None _ X)).
  destruct (intersect a b) as [x|] eqn:E; cbn [Base.bind] in H; [|discriminate]. injection H as <-. destruct (intersect_ok a b x A B E) as (W & _ & D). split; [exact W|].
  intros z. rewrite !has_Some. apply D.
Qed.
Lemma mapM_in {A B} (f : A -> result B) l ys y : mapM f l = Ok ys -> In y ys -> exists x, In x l /\ f x = Ok y.
Proof.
  revert ys. induction l as [|x l IH]; cbn; intros ys H I; [injection H as <-; destruct I|].
  destruct (f x) as [y'|] eqn:E; cbn [Base.bind] in H; [|discriminate]. destruct (mapM f l) as [ys'|]; cbn [Base.bind] in H; [|discriminate]. injection H as <-.
  destruct I as [<-|I]; [exists x; auto|]. destruct (IH _ eq_refl I) as (x' & I' & E'). exists x'. auto.
Qed.
Lemma in_insert x y l : In y (insert_path x l) <-> y = x \/ In y l.
Proof. induction l as [|z l IH]; cbn; [intuition|]. destruct (_ <=? _)%nat; cbn; rewrite ?IH; intuition. Qed.
Lemma in_sort y l : In y (sort_paths l) <-> In y l.
Proof. induction l as [|x l IH]; cbn; [reflexivity|]. rewrite in_insert, IH. intuition. Qed.

(** a list of ascending lengths *)
Inductive ascending : list path -> Prop :=
| asc_nil : ascending []
| asc_cons x l : (forall y, In y l -> (List.length x <= List.length y)%nat) -> ascending l -> ascending (x :: l).
Lemma insert_asc x l : ascending l -> ascending (insert_path x l).
Proof.
  induction 1 as [|y l H A IH]; cbn; [constructor; [intros y []|constructor]|]. destruct (Nat.leb_spec (List.length x) (List.length y)) as [L|L].
  - constructor; [|constructor; assumption]. intros z [<-|I]; [exact L|]. specialize (H z I). lia.
  - constructor; [|exact IH]. intros z I. apply in_insert in I. destruct I as [->|I]; [lia|exact (H z I)].
Qed.
Lemma sort_asc l : ascending (sort_paths l).
Proof. induction l as [|x l IH]; cbn; [constructor|exact (insert_asc _ _ IH)]. Qed.
Lemma asc_shortest l : ascending l -> shortest_first l.
Proof.
  intros A i j a b L E1 E2. revert i j L E1 E2. induction A as [|x l H A IH]; intros i j L E1 E2; [destruct i; discriminate E1|].
  destruct j as [|j]; [lia|]. cbn in E2. destruct i as [|i]; cbn in E1.
  - injection E1 as <-. apply H. exact (nth_error_In _ _ E2).
  - apply (IH i j); [lia|assumption|assumption].
Qed.

Lemma find_ports_sub c bi l ex ps : forall qs p, find_ports_in c bi l ex qs = Ok ps -> In p ps -> In p qs.
Proof.
  intros qs. revert ps. induction qs as [|q qs IH]; cbn; intros ps p H I; [injection H as <-; destruct I|].
  destruct (if eqb (is_bidirectional q) bi then _ else _) as [ok|]; cbn [Base.bind] in H; [|discriminate].
  destruct (find_ports_in c bi l ex qs) as [r|]; cbn [Base.bind] in H; [|discriminate]. injection H as H.
  destruct (ok && _); subst ps; [destruct I as [<-|I]; [left; reflexivity|]|]; right; exact (IH _ _ eq_refl I).
Qed.
Lemma in_bis b l : In b (bis_of l) <-> In (ABi b) l.
Proof.
  unfold bis_of. rewrite in_flat_map. split.
  - intros (p & I & E). destruct p as [p|p|p]; [destruct E|destruct E|]. destruct E as [<-|[]]. exact I.
  - intros I. exists (ABi b). split; [exact I|left; reflexivity].
Qed.
Lemma get_port_names t n x b : holds t (s_network x) n -> get_port n (s_port x) = Ok (ABi b) -> names t x b.
Proof. intros H E. apply get_port_spec in E. destruct E as (I & E). split; [exists n; split; [exact H|exact (in_bi_all _ _ I)]|exact E]. Qed.

(** what is found below, with the ends asked for, and where it does not go *)
Definition found (t : topo) (src dst : stp) (ex : list string) (p : path) : Prop :=
  leads t src dst p /\ usable t src dst p /\ no_return p /\ (match p with [] => False | k :: r => label_wf (s_label (fst k)) /\ same_place (fst k) src /\ forall k', In k' r -> ~ In (s_network (fst k')) ex end).

Lemma within_found t src dst sp dp ex ps p : labels_wf t -> label_wf (s_label src) -> label_wf (s_label dst) -> names t src sp -> names t dst dp ->
  s_network src = s_network dst -> within repaired src dst sp dp = Ok ps -> In p ps -> found t src dst ex p.
Proof.
  intros W Ws Wd Ns Nd En. unfold within. destruct (s_label src) as [sl|] eqn:Esl; cbn [Base.bind]; [|discriminate].
  destruct (W _ _ (proj1 Ns)) as (W1 & W2). destruct (W _ _ (proj1 Nd)) as (W3 & W4).
  destruct (bport_label sp) as [a|[]] eqn:Ea; cbn [Base.bind]; try discriminate; try (intros X; injection X as <-; intros []).
  destruct a as [a|]; cbn [Base.bind]; [|discriminate].
  destruct (bport_label dp) as [b|[]] eqn:Eb; cbn [Base.bind]; try discriminate; try (intros X; injection X as <-; intros []).
  destruct (bport_label_ok _ _ W1 W2 Ea) as (Wa & Da). destruct (bport_label_ok _ _ W3 W4 Eb) as (Wb & Db).
  destruct (meet (Some a) b) as [l1|[]] eqn:E1; cbn [Base.bind]; try discriminate; try (intros X; injection X as <-; intros []).
  destruct (meet_ok _ _ _ Wa Wb E1) as (Wl1 & _ & D1).
  destruct (meet l1 (Some sl)) as [l2|[]] eqn:E2; cbn [Base.bind]; try discriminate; try (intros X; injection X as <-; intros []).
  destruct (meet_ok _ _ _ Wl1 Ws E2) as (Wl2 & _ & D2).
  destruct (meet l2 (s_label dst)) as [l3|[]] eqn:E3; cbn [Base.bind]; try discriminate; try (intros X; injection X as <-; intros []).
  destruct (meet_ok _ _ _ Wl2 Wd E3) as (Wl3 & N3 & D3). unfold link_of. destruct l3 as [l|]; [|discriminate]. cbn [repaired link_new Base.bind].
  intros X. injection X as <-. intros [<-|[]]. unfold found. rewrite En. split; [apply leads_within; [exact En|split; [symmetry; exact En|reflexivity]|split; reflexivity]|].
  assert (C : forall z, has z (Some l) -> (has z (np_label (bp_in sp)) /\ has z (np_label (bp_out sp))) /\ (has z (np_label (bp_in dp)) /\ has z (np_label (bp_out dp))) /\ has z (Some sl) /\ has z (s_label dst)).
  { intros z Z. apply D3 in Z. destruct Z as (Z & Zd). apply D2 in Z. destruct Z as (Z & Zs). apply D1 in Z. destruct Z as (Z1 & Z2). auto. }
  split.
  - cbn [usable fst s_label]. split; [exact N3|]. intros z Z. rewrite Esl. destruct (C z Z) as (C1 & C2 & C3 & C4). split; [exact C3|]. split; [exact C4|].
    intros k' [<-|[]]. cbn [fst snd]. split; (split; [exact Z|]).
    + exists sp. split; [|exact C1]. split; [|exact (proj2 Ns)]. cbn [s_network]. rewrite <- En. exact (proj1 Ns).
    + exists dp. split; [exact Nd|exact C2].
  - split.
    + intros i j x y L Ei Ej. destruct j as [|[|j]]; [lia|discriminate Ej|discriminate Ej].
    + cbn [fst s_label]. split; [exact Wl3|]. split; [split; [symmetry; exact En|reflexivity]|]. intros k' [].
Qed.
Lemma extend_found t src dst sp lp sl ex p next q : labels_wf t -> label_wf (s_label src) -> names t src sp ->
  port_at t (s_network src) lp -> names t next q -> faces lp q -> ~ In (s_network next) ex -> (forall z, has z (s_label next) -> has z (s_label src)) ->
  found t next dst (s_network src :: ex) sl -> extend repaired src sp lp sl = Ok p -> found t src dst ex p.
Proof.
  intros W Ws Ns Pl Nn Fa Nx Dn (Le & Us & Nr & Fo). unfold extend. destruct (s_label src) as [sll|] eqn:Esl; cbn [Base.bind]; [|discriminate].
  destruct (W _ _ (proj1 Ns)) as (W1 & W2). destruct (W _ _ Pl) as (W3 & W4).
  destruct (bport_label sp) as [a|] eqn:Ea; cbn [Base.bind]; [|discriminate]. destruct (bport_label_ok _ _ W1 W2 Ea) as (Wa & Da).
  destruct (meet a (Some sll)) as [l1|] eqn:E1; cbn [Base.bind]; [|discriminate]. destruct (meet_ok _ _ _ Wa Ws E1) as (Wl1 & _ & D1).
  destruct (bport_label lp) as [b|] eqn:Eb; cbn [Base.bind]; [|discriminate]. destruct (bport_label_ok _ _ W3 W4 Eb) as (Wb & Db).
  destruct (meet l1 b) as [l2|] eqn:E2; cbn [Base.bind]; [|discriminate]. destruct (meet_ok _ _ _ Wl1 Wb E2) as (Wl2 & _ & D2).
  destruct sl as [|k r]; [discriminate|]. destruct Fo as (Wk & Pk & Fk).
  destruct (meet l2 (s_label (fst k))) as [l3|] eqn:E3; cbn [Base.bind]; [|discriminate]. destruct (meet_ok _ _ _ Wl2 Wk E3) as (Wl3 & N3 & D3).
  unfold link_of. destruct l3 as [l|]; [|discriminate]. cbn [repaired link_new Base.bind]. intros X. injection X as <-.
  split; [apply (leads_via t src dst _ _ lp q next (k :: r)); [split; reflexivity|reflexivity|split; [exact Pl|reflexivity]|exact Nn|exact Fa|exact Le]|].
  split; [|split].
  - cbn [usable fst s_label]. split; [exact N3|]. intros z Z. apply D3 in Z. destruct Z as (Z & Zk). destruct Us as (_ & Us). destruct (Us z Zk) as (U1 & U2 & U3).
    pose proof (proj2 (D3 z) (conj Z Zk)) as Zl. apply D2 in Z. destruct Z as (Z & Zb). apply D1 in Z. destruct Z as (Za & Zs). rewrite Esl. split; [exact Zs|]. split; [exact U2|].
    intros k' [<-|I]; [|exact (U3 k' I)]. cbn [fst snd]. split; (split; [exact Zl|]).
    + exists sp. split; [exact Ns|exact (Da z Za)].
    + exists lp. split; [split; [exact Pl|reflexivity]|exact (Db z Zb)].
  - intros i j x y L Ei Ej En. destruct j as [|j]; [lia|]. cbn [nth_error] in Ej. destruct i as [|i].
    + cbn in Ei. injection Ei as <-. cbn [fst s_network] in En. destruct j as [|j]; [reflexivity|]. cbn in Ej.
      destruct (Fk y (nth_error_In _ _ Ej)). left. exact En.
    + cbn in Ei. f_equal. apply (Nr i j x y); [lia|exact Ei|exact Ej|exact En].
  - cbn [fst s_label]. split; [exact Wl3|]. split; [split; reflexivity|]. intros k' [<-|I]; [rewrite (proj1 Pk); exact Nx|].
    intros X. apply (Fk k' I). right. exact X.
Qed.
Lemma recurse_found t : tidy t -> labels_wf t -> forall fuel src dst ex ps p, label_wf (s_label src) -> label_wf (s_label dst) ->
  recurse fuel repaired t src dst ex = Ok ps -> In p ps -> found t src dst ex p.
Proof.
  intros T W. induction fuel as [|fuel IH]; intros src dst ex ps p Ws Wd H I; [discriminate|]. cbn [recurse] in H.
  destruct (get_network t (s_network src)) as [sn|] eqn:E1; cbn [Base.bind] in H; [|discriminate]. destruct (get_network t (s_network dst)) as [dn|] eqn:E2; cbn [Base.bind] in H; [|discriminate].
  apply (get_network_spec t _ _ T) in E1. apply (get_network_spec t _ _ T) in E2.
  destruct (get_port sn (s_port src)) as [sp|] eqn:E3; cbn [Base.bind] in H; [|discriminate]. destruct (get_port dn (s_port dst)) as [dp|] eqn:E4; cbn [Base.bind] in H; [|discriminate].
  destruct (port_matches repaired sp (s_label src)) as [m|]; cbn [Base.bind] in H; [|discriminate].
  destruct (if m then _ else _) as [m'|]; cbn [Base.bind] in H; [|discriminate]. destruct m'; cbn [negb] in H; [|injection H as <-; destruct I].
  destruct sp as [sp|sp|sp]; try discriminate H. destruct dp as [dp|dp|dp]; try discriminate H.
  pose proof (get_port_names t sn src sp E1 E3) as Ns. pose proof (get_port_names t dn dst dp E2 E4) as Nd.
  destruct (eqb_ok (s_network src) (s_network dst)) as [En|En]; [exact (within_found t src dst sp dp ex ps p W Ws Wd Ns Nd En H I)|].
  destruct (find_ports repaired sn true _ _) as [pl|] eqn:E5; cbn [Base.bind] in H; [|discriminate]. destruct (mapM _ _) as [ls|] eqn:E6; cbn [Base.bind] in H; [|discriminate].
  injection H as <-. apply (proj1 (in_sort _ _)) in I. apply in_concat in I. destruct I as (ys & I1 & I2). destruct (mapM_in _ _ _ _ E6 I1) as (lp & I3 & V). clear E6 I1.
  apply filter_In in I3. destruct I3 as (I3 & _). apply in_bis in I3. apply (find_ports_sub _ _ _ _ _ _ _ E5) in I3. apply in_bi_all in I3.
  assert (Pl : port_at t (s_network src) lp) by (exists sn; split; assumption).
  unfold via in V. destruct (find_demarcation repaired t lp) as [[[dk dq]|]|] eqn:ED; cbn [Base.bind] in V; [|injection V as <-; destruct I2|discriminate].
  destruct (existsb (eqb dk) ex) eqn:EX; [injection V as <-; destruct I2|]. destruct (demarcation_sound _ _ _ _ _ T ED) as (q & Pq & Iq & Fq).
  destruct (s_label src) as [sll|] eqn:Esl; cbn [Base.bind] in V; [|discriminate]. destruct (bport_label lp) as [b|] eqn:Eb; cbn [Base.bind] in V; [|discriminate].
  destruct (W _ _ Pl) as (W3 & W4). destruct (bport_label_ok _ _ W3 W4 Eb) as (Wb & _).
  destruct (meet (Some sll) b) as [l|] eqn:El; cbn [Base.bind] in V; [|discriminate]. destruct (meet_ok _ _ _ Ws Wb El) as (Wl & _ & Dl).
  destruct (recurse fuel repaired t (mkSTP dk dq l) dst (nw_id sn :: ex)) as [subs|] eqn:ER; cbn [Base.bind] in V; [|discriminate].
  destruct (mapM_in _ _ _ _ V I2) as (sl & Isl & Ee). rewrite (proj2 T _ _ E1) in ER.
  assert (Fs : found t (mkSTP dk dq l) dst (s_network src :: ex) sl) by (apply (IH _ _ _ subs); [exact Wl|exact Wd|exact ER|exact Isl]).
  apply (extend_found t src dst sp lp sl ex p (mkSTP dk dq l) q W); try assumption.
  - rewrite Esl. exact Ws.
  - split; assumption.
  - cbn [s_network]. intros X. assert (Y : existsb (eqb dk) ex = true); [|congruence]. apply existsb_exists. exists dk. split; [exact X|]. destruct (eqb_ok dk dk); congruence.
  - rewrite Esl. cbn [s_label]. intros z Z. exact (proj1 (proj1 (Dl z) Z)).
Qed.
Lemma paths_sorted c t src dst ps : find_paths c t src dst = Ok ps -> (forall s d, within c src dst s d <> Ok ps) -> shortest_first ps.
Proof.
  unfold find_paths. destruct (get_network t (s_network src)) as [sn|] eqn:E1; cbn [Base.bind]; [|discriminate]. destruct (get_port sn (s_port src)) as [sp|] eqn:E3; cbn [Base.bind]; [|discriminate].
  destruct (get_network t (s_network dst)) as [dn|] eqn:E2; cbn [Base.bind]; [|discriminate]. destruct (get_port dn (s_port dst)) as [dp|] eqn:E4; cbn [Base.bind]; [|discriminate].
  destruct sp as [sp|sp|sp], dp as [dp|dp|dp]; try discriminate. destruct (port_matches c (ABi sp) _) as [m|]; cbn [Base.bind]; [|discriminate].
  destruct m; cbn [negb]; [|destruct (bport_label sp); discriminate]. destruct (port_matches c (ABi dp) _) as [m|]; cbn [Base.bind]; [|discriminate].
  destruct m; cbn [negb]; [|destruct (bport_label dp); discriminate]. cbn [recurse]. rewrite E1. cbn [Base.bind]. rewrite E2. cbn [Base.bind]. rewrite E3. cbn [Base.bind]. rewrite E4. cbn [Base.bind].
  destruct (port_matches c (ABi sp) _) as [m|]; cbn [Base.bind]; [|discriminate]. destruct (if m then _ else _) as [m'|]; cbn [Base.bind]; [|discriminate].
  destruct m'; cbn [negb]; [|intros X; injection X as <-; intros _ i j a b _ X; destruct i; discriminate X]. destruct (eqb (s_network src) (s_network dst)).
  - intros X N. destruct (N _ _ X).
  - destruct (find_ports c sn true _ _) as [pl|]; cbn [Base.bind]; [|discriminate]. destruct (mapM _ _) as [ls|]; cbn [Base.bind]; [|discriminate].
    intros X _. injection X as <-. apply asc_shortest. apply sort_asc.
Qed.
Lemma within_one c src dst s d ps : within c src dst s d = Ok ps -> (List.length ps <= 1)%nat.
Proof.
  unfold within. destruct (Base.bind _ _) as [r|e] eqn:E.
  - intros X. injection X as <-. destruct (s_label src); cbn [Base.bind] in E; [|discriminate].
    destruct (bport_label s) as [a|]; cbn [Base.bind] in E; [|discriminate]. destruct a as [a|]; cbn [Base.bind] in E; [|discriminate].
    destruct (bport_label d) as [b|]; cbn [Base.bind] in E; [|discriminate].
    destruct (meet (Some a) b) as [x|]; cbn [Base.bind] in E; [|discriminate]. destruct (meet x _) as [y|]; cbn [Base.bind] in E; [|discriminate]. destruct (meet y _) as [z|]; cbn [Base.bind] in E; [|discriminate].
    destruct (link_of _ _ _ _ z) as [k|]; cbn [Base.bind] in E; [|discriminate]. injection E as <-. cbn. lia.
  - destruct e; try discriminate. intros X. injection X as <-. cbn. lia.
Qed.
Lemma short_sorted (ps : list path) : (List.length ps <= 1)%nat -> shortest_first ps.
Proof. intros L i j a b Lt E1 E2. destruct ps as [|x [|y ps]]; [destruct i; discriminate E1| |cbn in L; lia]. destruct j as [|[|j]]; [lia|discriminate E2|discriminate E2]. Qed.
Lemma paths_found t src dst ps : tidy t -> labels_wf t -> label_wf (s_label src) -> label_wf (s_label dst) -> find_paths repaired t src dst = Ok ps ->
  shortest_first ps /\ forall p, In p ps -> leads t src dst p /\ usable t src dst p /\ no_return p.
Proof.
  intros T W Ws Wd H. split.
  - destruct (Nat.leb_spec (List.length ps) 1) as [L|L]; [exact (short_sorted _ L)|]. apply (paths_sorted repaired t src dst ps H). intros s d X. apply within_one in X. lia.
  - intros p I. revert H. unfold find_paths. destruct (get_network t (s_network src)) as [sn|]; cbn [Base.bind]; [|discriminate]. destruct (get_port sn (s_port src)) as [sp|]; cbn [Base.bind]; [|discriminate].
    destruct (get_network t (s_network dst)) as [dn|]; cbn [Base.bind]; [|discriminate]. destruct (get_port dn (s_port dst)) as [dp|]; cbn [Base.bind]; [|discriminate].
    destruct sp as [sp|sp|sp], dp as [dp|dp|dp]; try discriminate. destruct (port_matches _ (ABi sp) _) as [m|]; cbn [Base.bind]; [|discriminate].
    destruct m; cbn [negb]; [|destruct (bport_label sp); discriminate]. destruct (port_matches _ (ABi dp) _) as [m|]; cbn [Base.bind]; [|discriminate].
    destruct m; cbn [negb]; [|destruct (bport_label dp); discriminate]. intros H. destruct (recurse_found t T W _ _ _ _ _ p Ws Wd H I) as (A & B & C & _). auto.
Qed.

(** * It ends *)
Definition outside (t : topo) (ex : list string) : nat := List.length (filter (fun k => negb (existsb (eqb k) ex)) (map fst t)).
Definition inb (k : string) (ex : list string) : bool := existsb (eqb k) ex.
Lemma inb_cons k x ex : inb k (x :: ex) = eqb k x || inb k ex.
Proof. reflexivity. Qed.
Lemma outside_same t n ex : inb n ex = true -> outside t (n :: ex) = outside t ex.
Proof.
  intros H. unfold outside. f_equal. apply filter_ext. intros k. change (existsb (eqb k) (n :: ex)) with (eqb k n || inb k ex). change (existsb (eqb k) ex) with (inb k ex).
  destruct (eqb_ok k n) as [->|]; [rewrite H|]; reflexivity.
Qed.
Lemma outside_less t n ex : In n (map fst t) -> inb n ex = false -> (outside t (n :: ex) < outside t ex)%nat.
Proof.
  unfold outside. intros I H. induction (map fst t) as [|k l IH]; [destruct I|]. cbn [filter].
  assert (M : (List.length (filter (fun k => negb (existsb (eqb k) (n :: ex))) l) <= List.length (filter (fun k => negb (existsb (eqb k) ex)) l))%nat).
  { clear. induction l as [|k l IH]; cbn [filter]; [reflexivity|]. change (existsb (eqb k) (n :: ex)) with (eqb k n || existsb (eqb k) ex).
    destruct (existsb (eqb k) ex); [rewrite orb_true_r; exact IH|]. rewrite orb_false_r. destruct (eqb k n); cbn [negb List.length]; lia. }
  change (existsb (eqb k) (n :: ex)) with (eqb k n || existsb (eqb k) ex). destruct I as [<-|I].
  - unfold inb in H. rewrite H. destruct (eqb_ok k k) as [_|N]; [|congruence]. cbn [orb negb List.length]. lia.
  - specialize (IH I). destruct (existsb (eqb k) ex); [rewrite orb_true_r; exact IH|]. rewrite orb_false_r. destruct (eqb k n); cbn [negb List.length]; lia.
Qed.
(** neither of the two calls runs out of fuel, which no code does *)
Definition calls_end (c : calls) : Prop := (forall p l, match_label c p l <> Err EFuel) /\ forall n p q a b, link_new c n p q a b <> Err EFuel.
Lemma parse_ends vs : parse_items vs <> Err EFuel.
Proof.
  unfold parse_items. assert (H : mapM create_value vs <> Err EFuel).
  { induction vs as [|v vs IH]; cbn; [discriminate|]. destruct (create_value v) as [r|e] eqn:E; cbn [Base.bind].
    - destruct (mapM create_value vs); cbn [Base.bind]; [discriminate|]. congruence.
    - revert E. unfold create_value. repeat match goal with |- context [match ?x with _ => _ end] => destruct x end; congruence. }
  destruct (mapM create_value vs); cbn [Base.bind]; [discriminate|congruence].
Qed.
Lemma intersect_ends a b : intersect a b <> Err EFuel.
Proof.
  unfold intersect. destruct (negb _); [discriminate|]. destruct (lvalues b); [discriminate|]. cbv zeta. destruct (isect_outer _ _ _) as [|x y]; [discriminate|].
  unfold label_of_str, label_of_list. pose proof (parse_ends (split_on "," (join "," (map range_text (x :: y))))) as H. destruct (parse_items _); cbn [Base.bind]; congruence.
Qed.
Lemma meet_ends a b : meet a b <> Err EFuel.
Proof. unfold meet. destruct a as [a|]; [|discriminate]. destruct b as [b|]; [|discriminate]. pose proof (intersect_ends a b). destruct (intersect a b); cbn [Base.bind]; congruence. Qed.
Lemma label_ends p : bport_label p <> Err EFuel.
Proof. unfold bport_label. destruct (np_label (bp_in p)) as [a|], (np_label (bp_out p)) as [b|]; try discriminate. pose proof (intersect_ends a b). destruct (intersect a b); cbn [Base.bind]; congruence. Qed.
Lemma match_ends c p l : calls_end c -> port_matches c p l <> Err EFuel.
Proof.
  intros (H & _). destruct p as [p|p|p]; cbn [port_matches]; [apply H|apply H|]. pose proof (H (bp_in p) l). destruct (match_label c (bp_in p) l) as [[]|]; cbn [Base.bind]; [apply H|discriminate|congruence].
Qed.
Lemma bind_ends {A B} (r : result A) (f : A -> result B) : r <> Err EFuel -> (forall a, r = Ok a -> f a <> Err EFuel) -> Base.bind r f <> Err EFuel.
Proof. destruct r as [a|e]; cbn [Base.bind]; intros H1 H2; [exact (H2 a eq_refl)|congruence]. Qed.
Lemma link_ends c n p q l : calls_end c -> link_of c n p q l <> Err EFuel.
Proof. intros (_ & H). destruct l; cbn [link_of]; [apply H|discriminate]. Qed.
Lemma mapM_ends {A B} (f : A -> result B) l : (forall x, In x l -> f x <> Err EFuel) -> mapM f l <> Err EFuel.
Proof.
  induction l as [|x l IH]; cbn; intros H; [discriminate|]. apply bind_ends; [apply H; left; reflexivity|]. intros y _. apply bind_ends; [apply IH; intros z I; apply H; right; exact I|]. discriminate.
Qed.
Lemma ports_end c bi l ex ps : calls_end c -> find_ports_in c bi l ex ps <> Err EFuel.
Proof.
  intros C. induction ps as [|p ps IH]; cbn; [discriminate|]. apply bind_ends.
  - destruct (eqb (is_bidirectional p) bi); [|discriminate]. destruct l; [exact (match_ends c p _ C)|discriminate].
  - intros ok _. apply bind_ends; [exact IH|]. discriminate.
Qed.
Lemma network_ends t k : get_network t k <> Err EFuel.
Proof. unfold get_network. destruct (aget k t) as [[]|]; discriminate. Qed.
Lemma port_ends n k : get_port n k <> Err EFuel.
Proof. unfold get_port. destruct (find _ _); discriminate. Qed.
Lemma within_ends c src dst s d : calls_end c -> within c src dst s d <> Err EFuel.
Proof.
  intros C. unfold within. match goal with |- match ?x with _ => _ end <> _ => assert (H : x <> Err EFuel) end.
  { apply bind_ends; [destruct (s_label src); discriminate|]. intros _ _. apply bind_ends; [apply label_ends|]. intros a _. apply bind_ends; [destruct a; [apply label_ends|discriminate]|].
    intros b _. apply bind_ends; [apply meet_ends|]. intros l1 _. apply bind_ends; [apply meet_ends|]. intros l2 _. apply bind_ends; [apply meet_ends|].
    intros l3 _. apply bind_ends; [exact (link_ends _ _ _ _ _ C)|]. discriminate. }
  destruct (Base.bind _ _) as [r|e]; [discriminate|]. destruct e; congruence.
Qed.
Lemma extend_ends c src s lp sl : calls_end c -> extend c src s lp sl <> Err EFuel.
Proof.
  intros C. unfold extend. apply bind_ends; [destruct (s_label src); discriminate|]. intros _ _. apply bind_ends; [apply label_ends|]. intros a _. apply bind_ends; [apply meet_ends|].
  intros l1 _. apply bind_ends; [apply label_ends|]. intros b _. apply bind_ends; [apply meet_ends|]. intros l2 _. destruct sl as [|k r]; [discriminate|].
  apply bind_ends; [apply meet_ends|]. intros l3 _. apply bind_ends; [exact (link_ends _ _ _ _ _ C)|]. discriminate.
Qed.
Lemma recurse_ends c t : tidy t -> calls_end c -> forall fuel src dst ex, (2 * outside t ex + (if inb (s_network src) ex then 1 else 0) < fuel)%nat -> recurse fuel c t src dst ex <> Err EFuel.
Proof.
  intros T C. induction fuel as [|fuel IH]; intros src dst ex L; [lia|]. cbn [recurse].
  apply bind_ends; [apply network_ends|]. intros sn E1. apply bind_ends; [apply network_ends|]. intros dn _. apply bind_ends; [apply port_ends|]. intros sp _.
  apply bind_ends; [apply port_ends|]. intros dp _. apply bind_ends; [exact (match_ends _ _ _ C)|]. intros m _. apply bind_ends; [destruct m; [discriminate|exact (match_ends _ _ _ C)]|].
  intros m' _. destruct (negb m'); [discriminate|]. destruct sp as [sp|sp|sp]; try discriminate. destruct dp as [dp|dp|dp]; try discriminate.
  destruct (eqb _ _); [exact (within_ends _ _ _ _ _ C)|]. apply bind_ends; [exact (ports_end _ _ _ _ _ C)|]. intros ps _. apply bind_ends; [|discriminate].
  apply mapM_ends. intros lp _. unfold via. apply bind_ends; [destruct (demarcation_ok c t lp T) as (r & ->); discriminate|]. intros d _. destruct d as [[dk dq]|]; [|discriminate].
  destruct (existsb (eqb dk) ex) eqn:EX; [discriminate|]. apply bind_ends; [destruct (s_label src); discriminate|]. intros _ _. apply bind_ends; [apply label_ends|].
  intros b _. apply bind_ends; [apply meet_ends|]. intros l _. apply (get_network_spec t _ _ T) in E1. rewrite (proj2 T _ _ E1). apply bind_ends; [|intros subs _; apply mapM_ends; intros sl _; exact (extend_ends _ _ _ _ _ C)].
  apply IH. cbn [s_network]. rewrite inb_cons. change (inb dk ex = false) in EX. rewrite EX, orb_false_r. destruct (inb (s_network src) ex) eqn:EI.
  - rewrite (outside_same t _ _ EI). destruct (eqb_ok dk (s_network src)) as [->|_]; [congruence|]. lia.
  - assert (I : In (s_network src) (map fst t)) by (destruct E1 as (a & E1); exact (in_map fst _ _ E1)). pose proof (outside_less t _ ex I EI). destruct (eqb dk (s_network src)); lia.
Qed.
Lemma paths_end c t src dst : tidy t -> calls_end c -> find_paths c t src dst <> Err EFuel.
Proof.
  intros T C. unfold find_paths. apply bind_ends; [apply network_ends|]. intros sn _. apply bind_ends; [apply port_ends|]. intros sp _. apply bind_ends; [apply network_ends|]. intros dn _.
  apply bind_ends; [apply port_ends|]. intros dp _. destruct sp as [sp|sp|sp], dp as [dp|dp|dp]; try discriminate.
  apply bind_ends; [exact (match_ends _ _ _ C)|]. intros m _. destruct (negb m); [apply bind_ends; [apply label_ends|discriminate]|].
  apply bind_ends; [exact (match_ends _ _ _ C)|]. intros m' _. destruct (negb m'); [apply bind_ends; [apply label_ends|discriminate]|].
  apply recurse_ends; [exact T|exact C|]. unfold inb. cbn [existsb]. assert (O : outside t [] = List.length t). { unfold outside. cbn. rewrite <- (map_length fst t). clear. induction (map fst t) as [|k l IH]; cbn; [reflexivity|]. rewrite IH. reflexivity. }
  rewrite O. lia.
Qed.
