(** Proofs about recursive query results on the wire. *)
From Verif Require Import Base BaseProofs ModelXml ModelLabel SpecLabel ModelSTP SpecSTP ProofsSTP
  ModelTime SpecTime ProofsTimeText ModelQueryHelper SpecQueryHelper.
Open Scope Z_scope.

(** * Induction over trees *)
Section TreeInd.
  Variables (P : cinfo -> Prop) (Q : crit -> Prop).
  Hypothesis HC : forall cid gid desc ty crits prov req sts nid rid, Forall Q crits -> P (CI cid gid desc ty crits prov req sts nid rid).
  Hypothesis HQ : forall rev sc sd kids, Forall P kids -> Q (QC rev sc sd kids).
  Fixpoint cinfo_ind' (c : cinfo) : P c :=
    let 'CI cid gid desc ty crits prov req sts nid rid := c in
    HC cid gid desc ty crits prov req sts nid rid
      ((fix go (l : list crit) : Forall Q l :=
          match l with [] => Forall_nil Q | k :: r => Forall_cons k (crit_ind' k) (go r) end) crits)
  with crit_ind' (c : crit) : Q c :=
    let 'QC rev sc sd kids := c in
    HQ rev sc sd kids
      ((fix go (l : list cinfo) : Forall P l :=
          match l with [] => Forall_nil P | k :: r => Forall_cons k (cinfo_ind' k) (go r) end) kids).
End TreeInd.

(** * Elements *)
Lemma wire_text_some s : match e_text (wire (leaf "x" (Some s))) with Some t => t | None => "" end = s.
Proof. cbn. destruct s; reflexivity. Qed.
Definition wleaf (tag s : string) : element := Elem tag [] (match s with "" => None | _ => Some s end) [].
Lemma wire_leaf_some tag s : wire (leaf tag (Some s)) = wleaf tag s.
Proof. unfold leaf, wleaf. cbn. destruct s; reflexivity. Qed.
Lemma wleaf_tag tag s : e_tag (wleaf tag s) = tag.
Proof. reflexivity. Qed.
Lemma wleaf_text tag s : match e_text (wleaf tag s) with Some t => t | None => "" end = s.
Proof. unfold wleaf. cbn. destruct s; reflexivity. Qed.
Lemma wire_tag e : e_tag (wire e) = e_tag e.
Proof. destruct e; reflexivity. Qed.
Lemma wire_opt_leaf tag o : map wire (opt_leaf tag o) = match o with None => [] | Some s => [wleaf tag s] end.
Proof. destruct o as [s|]; [|reflexivity]. cbn [opt_leaf map]. rewrite wire_leaf_some. reflexivity. Qed.

(** finding by tag in a list of kids *)
Definition by_tag (tag : string) (l : list element) : list element := filter (fun k => eqb (e_tag k) tag) l.
Lemma by_tag_app tag a b : by_tag tag (a ++ b) = by_tag tag a ++ by_tag tag b.
Proof. apply filter_app. Qed.
Lemma by_tag_none tag l : (forall e, In e l -> e_tag e <> tag) -> by_tag tag l = [].
Proof.
  induction l as [|e l IH]; intros H; [reflexivity|]. cbn. destruct (eqb_ok (e_tag e) tag) as [E|_].
  - elim (H e (or_introl eq_refl) E).
  - apply IH. intros x Hx. apply H. right. exact Hx.
Qed.
Lemma by_tag_all tag l : (forall e, In e l -> e_tag e = tag) -> by_tag tag l = l.
Proof.
  induction l as [|e l IH]; intros H; [reflexivity|]. cbn. destruct (eqb_ok (e_tag e) tag) as [E|N].
  - f_equal. apply IH. intros x Hx. apply H. right. exact Hx.
  - elim N. apply H. left. reflexivity.
Qed.

Lemma find1_hit tag e t a x ks : e_tag e = tag -> find1 tag (Elem t a x (e :: ks)) = Some e.
Proof. intros <-. unfold find1, findall. cbn [e_kids filter]. rewrite eqb_refl. reflexivity. Qed.
Lemma find1_miss tag e t a x ks : e_tag e <> tag -> find1 tag (Elem t a x (e :: ks)) = find1 tag (Elem t a x ks).
Proof. intros N. unfold find1, findall. cbn [e_kids filter]. destruct (eqb_ok (e_tag e) tag); [contradiction|reflexivity]. Qed.
Lemma findtext_hit tag s t a x ks : findtext tag (Elem t a x (wleaf tag s :: ks)) = Some s.
Proof. unfold findtext. rewrite find1_hit by reflexivity. rewrite wleaf_text. reflexivity. Qed.
Lemma findtext_miss tag e t a x ks : e_tag e <> tag -> findtext tag (Elem t a x (e :: ks)) = findtext tag (Elem t a x ks).
Proof. intros N. unfold findtext. rewrite find1_miss by exact N. reflexivity. Qed.
Lemma findtext_nil tag t a x : findtext tag (Elem t a x []) = None.
Proof. reflexivity. Qed.
Ltac ft := repeat first [rewrite findtext_hit | rewrite findtext_nil | rewrite findtext_miss by (rewrite ?wire_tag; discriminate)
  | rewrite find1_hit by (rewrite ?wire_tag; reflexivity) | rewrite find1_miss by (rewrite ?wire_tag; discriminate)].

(** * Leaves of the tree *)
Lemma opt_time_ok o : (forall t, o = Some t -> time_exists t) ->
  exists x, opt_time o = Ok x /\ opt_parse x = Ok o.
Proof.
  destruct o as [t|]; intros H.
  - destruct (create_parse t (H t eq_refl)) as (s & E1 & E2). exists (Some s). unfold opt_time, opt_parse.
    rewrite E1. cbn [bind]. rewrite E2. auto.
  - exists None. auto.
Qed.
Lemma sched_ok_xml sc : sched_ok sc -> exists e, sched_xml sc = Ok e /\ e_tag e = "schedule" /\ sched_build (wire e) = Ok sc.
Proof.
  intros [H1 H2]. destruct (opt_time_ok _ H1) as (a & A1 & A2). destruct (opt_time_ok _ H2) as (b & B1 & B2).
  unfold sched_xml. rewrite A1. cbn [bind]. rewrite B1. cbn [bind]. eexists. split; [reflexivity|]. split; [reflexivity|].
  unfold sched_build. 
  assert (findtext "startTime" (wire (Elem "schedule" [] None (opt_leaf "startTime" a ++ opt_leaf "endTime" b))) = a /\
          findtext "endTime" (wire (Elem "schedule" [] None (opt_leaf "startTime" a ++ opt_leaf "endTime" b))) = b) as F.
  { cbn [wire]. rewrite map_app, !wire_opt_leaf. destruct a as [a|], b as [b|]; cbn [app]; ft; auto. }
  destruct F as [-> ->]. rewrite A2. cbn [bind]. rewrite B2. cbn [bind]. destruct sc; reflexivity.
Qed.
Lemma states_ok s : states_build (wire (states_xml s)) = Ok s.
Proof.
  destruct s as [r p l act ver cons]. unfold states_xml. cbn [cs_r cs_p cs_l cs_act cs_ver cs_cons].
  cbn [wire map]. rewrite !wire_leaf_some. unfold states_build. ft. cbn [need bind]. ft.
  unfold int_opt. rewrite py_int_str. cbn [bind text_or_none]. f_equal. f_equal; [destruct act|destruct cons]; reflexivity.
Qed.
Lemma sd_ok_xml p : p2p_ok p -> exists e, sd_xml (Some p) = Ok e /\ e_tag e = P2PS /\ sd_build (wire e) = Ok (Some p).
Proof.
  intros [H1 H2]. eexists. split; [reflexivity|]. split; [reflexivity|].
  assert (create_stp (urn (p_src p)) = Ok (p_src p)) as E1 by (apply c23_roundtrip; apply H1).
  assert (create_stp (urn (p_dst p)) = Ok (p_dst p)) as E2 by (apply c23_roundtrip; apply H2).
  destruct p as [src dst cap dir sym]. cbn [p_src p_dst p_cap p_dir p_sym] in *.
  unfold sd_build. rewrite wire_tag. cbn [e_tag]. rewrite eqb_refl.
  cbn [wire map]. rewrite !map_app, wire_opt_leaf. cbn [map]. rewrite !wire_leaf_some.
  destruct sym as [b|]; cbn [option_map app]; ft; unfold int_opt; rewrite py_int_str; cbn [bind text_or_none];
  rewrite E1; cbn [bind]; rewrite E2; cbn [bind]; [|reflexivity]. destruct b; reflexivity.
Qed.

(** * Sorting children *)
Lemma insert_last {A} (x : string * A) l :
  (forall y, In y l -> String.ltb (fst y) (fst x) = true) -> insert_sorted x l = l ++ [x].
Proof.
  induction l as [|y l IH]; intros H; [reflexivity|]. cbn [insert_sorted app].
  rewrite (H y (or_introl eq_refl)). cbn [orb]. rewrite IH; [reflexivity|]. intros z Hz. apply H. right. exact Hz.
Qed.
Definition ordered {A} (i : Z) (l : list (string * A)) : Prop := 
  forall n x, nth_error l n = Some x -> fst x = py_str (i + Z.of_nat n).
Lemma digit_order : forall a b, 0 <= a -> a < b -> b <= 9 -> String.ltb (py_str a) (py_str b) = true.
Proof.
  intros a b Ha Hab Hb.
  assert (a = 0 \/ a = 1 \/ a = 2 \/ a = 3 \/ a = 4 \/ a = 5 \/ a = 6 \/ a = 7 \/ a = 8) as Ca by lia.
  assert (b = 1 \/ b = 2 \/ b = 3 \/ b = 4 \/ b = 5 \/ b = 6 \/ b = 7 \/ b = 8 \/ b = 9) as Cb by lia.
  repeat (destruct Ca as [->|Ca]); try subst a; repeat (destruct Cb as [->|Cb]); try subst b; try lia; vm_compute; reflexivity.
Qed.
Lemma sorted_id_acc {A} (l : list (string * A)) : forall acc,
  (length acc + length l <= 10)%nat ->
  ordered 0 acc -> ordered (Z.of_nat (length acc)) l ->
  fold_left (fun acc x => insert_sorted x acc) l acc = acc ++ l.
Proof.
  induction l as [|x l IH]; intros acc L Ha Hl; [cbn; rewrite app_nil_r; reflexivity|].
  cbn [fold_left]. cbn [length] in L.
  assert (fst x = py_str (Z.of_nat (length acc))) as Ex.
  { rewrite (Hl 0%nat x eq_refl). f_equal. lia. }
  rewrite insert_last.
  2:{ intros y Hy. apply In_nth_error in Hy as [n Hn]. rewrite (Ha n y Hn), Ex.
      assert (n < length acc)%nat by (apply nth_error_Some; congruence). apply digit_order; lia. }
  rewrite IH.
  - rewrite <- app_assoc. reflexivity.
  - rewrite app_length. cbn. lia.
  - intros n y Hn. destruct (Nat.lt_ge_cases n (length acc)) as [N|N].
    + rewrite nth_error_app1 in Hn by exact N. apply (Ha n y Hn).
    + rewrite nth_error_app2 in Hn by exact N. destruct (n - length acc)%nat as [|m] eqn:E; [|destruct m; discriminate].
      injection Hn as <-. rewrite Ex. f_equal. lia.
  - intros n y Hn. rewrite (Hl (S n) y Hn). rewrite app_length. cbn [length]. f_equal. lia.
Qed.
Lemma sorted_id {A} (l : list (string * A)) : (length l <= 10)%nat -> ordered 0 l -> sorted_by_text l = l.
Proof. intros L H. unfold sorted_by_text. rewrite sorted_id_acc; auto. intros n x Hn. destruct n; discriminate. Qed.

(** * Trees *)
(** the list encoders, named *)
Fixpoint crits_xml (l : list crit) : result (list element) :=
  match l with [] => Ok [] | k :: r => do! x <- crit_xml k; do! xs <- crits_xml r; Ok (x :: xs) end.
Fixpoint kids_xml (idx : Z) (l : list cinfo) : result (list element) :=
  match l with [] => Ok [] | k :: r => do! x <- child_xml idx k; do! xs <- kids_xml (idx + 1) r; Ok (x :: xs) end.
Lemma crit_xml_eq rev sc sd kids : crit_xml (QC rev sc sd kids) =
  do! se <- sched_xml sc; do! cs <- kids_xml 0 kids; do! de <- sd_xml sd;
  Ok (Elem "criteria" [("version", py_str rev)] None [se; leaf "serviceType" (Some P2PS); Elem "children" [] None cs; de]).
Proof. reflexivity. Qed.
Lemma child_xml_eq idx cid gid desc ty crits prov req sts nid rid : child_xml idx (CI cid gid desc ty crits prov req sts nid rid) =
  do! xs <- crits_xml crits;
  Ok (Elem "child" [("order", py_str idx)] None
        ([leaf "connectionId" (Some cid); leaf "providerNSA" (Some prov); states_xml sts] ++ xs)).
Proof. reflexivity. Qed.
Lemma crits_mapM l : crits_xml l = mapM crit_xml l.
Proof. induction l as [|k l IH]; [reflexivity|]. cbn [crits_xml mapM]. rewrite IH. reflexivity. Qed.
Lemma decode_eq e : decode e = (let kids := map (fun k => (k, decode k)) (e_kids e) in
  mkDec (crit_of e kids) (child_of e kids) (mapM (fun k => d_child (snd k)) kids)).
Proof. destruct e. reflexivity. Qed.

Definition crit_good (c : crit) : Prop := crit_ok 10 c ->
  exists e, crit_xml c = Ok e /\ e_tag e = "criteria" /\ d_crit (decode (wire e)) = Ok (P2PS, seen_crit c).
Definition child_good (c : cinfo) : Prop := child_ok 10 c -> forall idx,
  exists e, child_xml idx c = Ok e /\ e_tag e = "child" /\ d_child (decode (wire e)) = Ok (py_str idx, seen_child c).

Lemma crits_good l : Forall crit_good l -> Forall (crit_ok 10) l ->
  exists es, crits_xml l = Ok es /\ (forall e, In e es -> e_tag e = "criteria") /\
    mapM (fun k => d_crit (decode k)) (map wire es) = Ok (map (fun c => (P2PS, seen_crit c)) l).
Proof.
  induction l as [|c l IH]; intros G K.
  - exists []. cbn. intuition.
  - inversion G as [|? ? G1 G2]. inversion K as [|? ? K1 K2]. subst.
    destruct (G1 K1) as (e & E1 & E2 & E3). destruct (IH G2 K2) as (es & F1 & F2 & F3).
    exists (e :: es). cbn [crits_xml]. rewrite E1. cbn [bind]. rewrite F1. split; [reflexivity|]. split.
    + intros x [<-|Hx]; auto.
    + cbn [map mapM]. rewrite E3. cbn [bind]. rewrite F3. reflexivity.
Qed.
Lemma kids_good l : Forall child_good l -> Forall (child_ok 10) l -> forall idx,
  exists es cs, kids_xml idx l = Ok es /\ mapM (fun k => d_child (decode k)) (map wire es) = Ok cs /\
    map snd cs = map seen_child l /\ ordered idx cs /\ length cs = length l.
Proof.
  induction l as [|c l IH]; intros G K idx.
  - exists [], []. cbn. repeat split; auto. intros n x Hn. destruct n; discriminate.
  - inversion G as [|? ? G1 G2]. inversion K as [|? ? K1 K2]. subst.
    destruct (G1 K1 idx) as (e & E1 & E2 & E3). destruct (IH G2 K2 (idx + 1)) as (es & cs & F1 & F2 & F3 & F4 & F5).
    exists (e :: es), ((py_str idx, seen_child c) :: cs). cbn [kids_xml]. rewrite E1. cbn [bind]. rewrite F1.
    split; [reflexivity|]. split; [cbn [map mapM]; rewrite E3; cbn [bind]; rewrite F2; reflexivity|].
    split; [cbn [map snd]; rewrite F3; reflexivity|]. split; [|cbn [length]; rewrite F5; reflexivity].
    intros n x Hn. destruct n as [|n].
    + injection Hn as <-. cbn [fst]. f_equal. lia.
    + rewrite (F4 n x Hn). f_equal. lia.
Qed.
Lemma mapM_map {A B C} (f : A -> B) (g : B -> result C) l : mapM g (map f l) = mapM (fun x => g (f x)) l.
Proof. induction l as [|x l IH]; [reflexivity|]. cbn [map mapM]. rewrite IH. reflexivity. Qed.
Lemma filter_map_swap {A B} (f : A -> B) (p : B -> bool) l : filter p (map f l) = map f (filter (fun x => p (f x)) l).
Proof. induction l as [|x l IH]; [reflexivity|]. cbn. destruct (p (f x)); cbn; rewrite IH; reflexivity. Qed.

Lemma all_good : (forall c, child_good c) /\ (forall c, crit_good c).
Proof.
  assert (forall cid gid desc ty crits prov req sts nid rid, Forall crit_good crits ->
     child_good (CI cid gid desc ty crits prov req sts nid rid)) as HC.
  { intros cid gid desc ty crits prov req sts nid rid G K idx.
    inversion K as [? ? ? ? ? ? ? ? ? ? N F]; subst.
    destruct (crits_good crits G F) as (es & E1 & E2 & E3).
    rewrite child_xml_eq, E1. cbn [bind]. eexists. split; [reflexivity|]. split; [reflexivity|].
    cbn [app wire map]. rewrite !wire_leaf_some. rewrite decode_eq. cbn [d_child e_kids]. cbv zeta. unfold child_of.
    assert (find1 "connectionStates" (Elem "child" [("order", py_str idx)] None
       (wleaf "connectionId" cid :: wleaf "providerNSA" prov :: wire (states_xml sts) :: map wire es)) = Some (wire (states_xml sts))) as ->.
    { ft. reflexivity. }
    cbn [need bind]. rewrite states_ok. cbn [bind].
    rewrite filter_map_swap. cbn [fst]. cbn [filter]. rewrite !wleaf_tag, wire_tag.
    change (eqb "connectionId" "criteria") with false. change (eqb "providerNSA" "criteria") with false.
    change (eqb (e_tag (states_xml sts)) "criteria") with false. cbv iota.
    change (filter (fun x => eqb (e_tag x) "criteria") (map wire es)) with (by_tag "criteria" (map wire es)).
    rewrite by_tag_all.
    2:{ intros e He. apply in_map_iff in He as (x & <- & Hx). rewrite wire_tag. apply E2, Hx. }
    rewrite mapM_map. cbn [snd]. rewrite E3. cbn [bind].
    destruct crits as [|c crits]; [congruence|]. cbn [map e_get e_attrs aget].
    ft. change (eqb "order" "order") with true. cbv iota. cbn [text_or_none]. f_equal. f_equal.
    cbn [seen_child map]. f_equal. f_equal. rewrite map_map. reflexivity. }
  assert (forall rev sc sd kids, Forall child_good kids -> crit_good (QC rev sc sd kids)) as HQ.
  { intros rev sc sd kids G K. inversion K as [? ? p ? S P L F]; subst.
    destruct (sched_ok_xml sc S) as (se & S1 & S2 & S3). destruct (sd_ok_xml p P) as (de & D1 & D2 & D3).
    destruct (kids_good kids G F 0) as (es & cs & E1 & E2 & E3 & E4 & E5).
    rewrite crit_xml_eq, S1. cbn [bind]. rewrite E1. cbn [bind]. rewrite D1. cbn [bind].
    eexists. split; [reflexivity|]. split; [reflexivity|].
    assert (wire (Elem "criteria" [("version", py_str rev)] None [se; leaf "serviceType" (Some P2PS); Elem "children" [] None es; de]) =
      Elem "criteria" [("version", py_str rev)] None [wire se; wleaf "serviceType" P2PS; Elem "children" [] None (map wire es); wire de]) as -> by reflexivity.
    rewrite decode_eq. cbn [d_crit e_kids]. cbv zeta. unfold crit_of. rewrite filter_map_swap. cbn [fst].
    cbn [filter]. rewrite !wire_tag, wleaf_tag, S2, D2. cbn [e_tag].
    change (is_crit_part "schedule") with true. change (is_crit_part "serviceType") with true. change (is_crit_part "children") with true.
    change (is_crit_part P2PS) with false. cbn [negb]. cbv iota. cbn [map mapM fst]. rewrite D3. cbn [bind].
    assert (find1 "schedule" (Elem "criteria" [("version", py_str rev)] None
       [wire se; wleaf "serviceType" P2PS; Elem "children" [] None (map wire es); wire de]) = Some (wire se)) as ->.
    { unfold find1, findall. cbn [e_kids filter]. rewrite wire_tag, S2. reflexivity. }
    cbn [need bind]. cbn [find fst]. rewrite wire_tag, S2, wleaf_tag. cbn [e_tag].
    change (eqb "schedule" "children") with false. change (eqb "serviceType" "children") with false. change (eqb "children" "children") with true.
    cbv iota. cbn [snd]. rewrite decode_eq. cbn [d_list e_kids]. rewrite mapM_map. cbn [snd]. rewrite E2. cbn [bind].
    rewrite S3. cbn [bind]. cbn [e_get e_attrs aget]. change (eqb "version" "version") with true. cbv iota.
    unfold int_opt. rewrite py_int_str. cbn [bind].
    rewrite sorted_id by (rewrite ?E5; assumption). rewrite E3.
    unfold findtext, find1, findall. cbn [e_kids filter]. rewrite !wire_tag, wleaf_tag, S2. 
    change (eqb "schedule" "serviceType") with false. change (eqb "serviceType" "serviceType") with true. cbv iota.
    rewrite wleaf_text. reflexivity. }
  split; [apply cinfo_ind' with (Q := crit_good)|apply crit_ind' with (P := child_good)]; assumption.
Qed.

Lemma result_good provider c : top_ok 10 c ->
  exists e, result_xml c = Ok e /\ e_tag e = "reservation" /\ result_build provider (wire e) = Ok (seen provider c).
Proof.
  destruct c as [cid gid desc ty crits prov req sts nid rid]. intros [R F].
  destruct req as [req|]; [|congruence].
  destruct (crits_good crits) as (es & E1 & E2 & E3); [|exact F|].
  { apply Forall_forall. intros x _. apply all_good. }
  unfold result_xml. rewrite <- crits_mapM, E1. cbn [bind]. eexists. split; [reflexivity|]. split; [reflexivity|].
  cbn [wire]. rewrite !map_app, !wire_opt_leaf. cbn [map]. rewrite !wire_leaf_some. cbn [py_str_opt].
  set (g := match gid with Some s => [wleaf "globalReservationId" s] | None => [] end).
  set (d := match desc with Some s => [wleaf "description" s] | None => [] end).
  set (n := match option_map py_str nid with Some s => [wleaf "notificationId" s] | None => [] end).
  set (r := match option_map py_str rid with Some s => [wleaf "resultId" s] | None => [] end).
  set (kids := [wleaf "connectionId" cid] ++ g ++ d ++ map wire es ++ [wleaf "requesterNSA" req; wire (states_xml sts)] ++ n ++ r).
  assert (forall e, In e (map wire es) -> e_tag e = "criteria") as Wes.
  { intros e He. apply in_map_iff in He as (x & <- & Hx). rewrite wire_tag. apply E2, Hx. }
  assert (forall tag, tag <> "criteria" -> by_tag tag kids =
     by_tag tag ([wleaf "connectionId" cid] ++ g ++ d ++ [wleaf "requesterNSA" req; wire (states_xml sts)] ++ n ++ r)) as B.
  { intros tag N. unfold kids. rewrite !by_tag_app. rewrite (by_tag_none tag (map wire es)); [reflexivity|].
    intros e He. rewrite (Wes e He). congruence. }
  unfold result_build.
  assert (findall "criteria" (Elem "reservation" [] None kids) = map wire es) as ->.
  { change (by_tag "criteria" kids = map wire es). unfold kids. rewrite !by_tag_app.
    rewrite (by_tag_all "criteria" (map wire es) Wes).
    assert (by_tag "criteria" [wleaf "connectionId" cid] = []) as -> by reflexivity.
    assert (by_tag "criteria" g = []) as -> by (unfold g; destruct gid; reflexivity).
    assert (by_tag "criteria" d = []) as -> by (unfold d; destruct desc; reflexivity).
    assert (by_tag "criteria" n = []) as -> by (unfold n; destruct nid; reflexivity).
    assert (by_tag "criteria" r = []) as -> by (unfold r; destruct rid; reflexivity).
    assert (by_tag "criteria" [wleaf "requesterNSA" req; wire (states_xml sts)] = []) as -> by reflexivity.
    cbn [app]. rewrite app_nil_r. reflexivity. }
  rewrite E3. cbn [bind].
  assert (forall tag, tag <> "criteria" -> find1 tag (Elem "reservation" [] None kids) =
     match by_tag tag ([wleaf "connectionId" cid] ++ g ++ d ++ [wleaf "requesterNSA" req; wire (states_xml sts)] ++ n ++ r) with
     | [] => None | k :: _ => Some k end) as Fd.
  { intros tag N. unfold find1, findall. cbn [e_kids]. change (filter (fun k => eqb (e_tag k) tag) kids) with (by_tag tag kids).
    rewrite (B tag N). reflexivity. }
  rewrite Fd by discriminate.
  assert (match by_tag "connectionStates" ([wleaf "connectionId" cid] ++ g ++ d ++ [wleaf "requesterNSA" req; wire (states_xml sts)] ++ n ++ r)
      with [] => None | k :: _ => Some k end = Some (wire (states_xml sts))) as ->.
  { unfold g, d. destruct gid, desc; reflexivity. }
  cbn [need bind]. rewrite states_ok. cbn [bind]. unfold findtext. rewrite !Fd by discriminate.
  assert (by_tag "notificationId" ([wleaf "connectionId" cid] ++ g ++ d ++ [wleaf "requesterNSA" req; wire (states_xml sts)] ++ n ++ r) = n) as ->.
  { unfold g, d, n, r. destruct gid, desc, nid, rid; reflexivity. }
  assert (by_tag "resultId" ([wleaf "connectionId" cid] ++ g ++ d ++ [wleaf "requesterNSA" req; wire (states_xml sts)] ++ n ++ r) = r) as ->.
  { unfold g, d, n, r. destruct gid, desc, nid, rid; reflexivity. }
  assert (by_tag "connectionId" ([wleaf "connectionId" cid] ++ g ++ d ++ [wleaf "requesterNSA" req; wire (states_xml sts)] ++ n ++ r) = [wleaf "connectionId" cid]) as ->.
  { unfold g, d, n, r. destruct gid, desc, nid, rid; reflexivity. }
  assert (by_tag "globalReservationId" ([wleaf "connectionId" cid] ++ g ++ d ++ [wleaf "requesterNSA" req; wire (states_xml sts)] ++ n ++ r) = g) as ->.
  { unfold g, d, n, r. destruct gid, desc, nid, rid; reflexivity. }
  assert (by_tag "description" ([wleaf "connectionId" cid] ++ g ++ d ++ [wleaf "requesterNSA" req; wire (states_xml sts)] ++ n ++ r) = d) as ->.
  { unfold g, d, n, r. destruct gid, desc, nid, rid; reflexivity. }
  assert (by_tag "requesterNSA" ([wleaf "connectionId" cid] ++ g ++ d ++ [wleaf "requesterNSA" req; wire (states_xml sts)] ++ n ++ r) = [wleaf "requesterNSA" req]) as ->.
  { unfold g, d, n, r. destruct gid, desc, nid, rid; reflexivity. }
  assert (forall o tag, opt_int (match match match option_map py_str o with Some s => [wleaf tag s] | None => [] end with [] => None | k :: _ => Some k end with
     None => None | Some k => Some (match e_text k with Some s => s | None => "" end) end) = Ok o) as Oi.
  { intros [z|] tag; [|reflexivity]. cbn [option_map opt_int]. rewrite wleaf_text. unfold int_opt. rewrite py_int_str. reflexivity. }
  unfold n, r. rewrite !Oi. cbn [bind]. unfold text_or_none. rewrite !wleaf_text.
  cbn [seen]. f_equal. f_equal.
  - unfold g. destruct gid; [rewrite wleaf_text|]; reflexivity.
  - unfold d. destruct desc; [rewrite wleaf_text|]; reflexivity.
  - rewrite map_map. reflexivity.
Qed.
Theorem transfer_ok provider l : Forall (top_ok 10) l -> transfer provider l = Ok (map (seen provider) l).
Proof.
  intros F. unfold transfer, recursive_xml.
  assert (exists es, mapM result_xml l = Ok es /\ (forall e, In e es -> e_tag e = "reservation") /\
    mapM (result_build provider) (map wire es) = Ok (map (seen provider) l)) as (es & E1 & E2 & E3).
  { induction l as [|c l IH]; [exists []; cbn; intuition|]. inversion F as [|? ? F1 F2]; subst.
    destruct (result_good provider c F1) as (e & A1 & A2 & A3). destruct (IH F2) as (es & B1 & B2 & B3).
    exists (e :: es). cbn [mapM map]. rewrite A1. cbn [bind]. rewrite B1. split; [reflexivity|]. split.
    - intros x [<-|Hx]; auto.
    - rewrite A3. cbn [bind]. rewrite B3. reflexivity. }
  rewrite E1. cbn [bind]. unfold recursive_build. cbn [wire].
  assert (findall "reservation" (Elem "queryRecursiveConfirmed" [] None (map wire es)) = map wire es) as ->; [|exact E3].
  apply (by_tag_all "reservation" (map wire es)). intros e He. apply in_map_iff in He as (x & <- & Hx). rewrite wire_tag. apply E2, Hx.
Qed.
