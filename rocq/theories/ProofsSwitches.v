(** Proofs about Brocade and Pica8 switches. *)
From Verif Require Import Base BaseProofs ModelLabel ModelDrivers SpecDrivers ProofsDrivers.
Open Scope Z_scope.
#[local] Arguments vlan_name : simpl never.
#[local] Arguments label_value : simpl never.
#[local] Arguments py_str : simpl never.

Lemma bool_not b : (b = true -> False) -> b = false.
Proof. destruct b; tauto. Qed.

(** * brocade.py *)
Lemma nodot_py_str n : shas "." (py_str n) = false.
Proof.
  pose proof (py_str_chars n) as H. revert H. generalize (py_str n) as s. induction s as [|c s IH]; [reflexivity|].
  cbn [sall]. intros H. apply andb_prop in H as [H1 H2]. rewrite shas_cons, (IH H2), orb_false_r.
  destruct (Ascii.eqb_spec "." c) as [<-|Hn]; [discriminate H1|reflexivity].
Qed.

Lemma port_vlan_ok itf v t : port_vlan (itf +++ "." +++ py_str v) = Ok t -> shas "." itf = false /\ t = (itf, v).
Proof.
  unfold port_vlan. change (itf +++ "." +++ py_str v) with (itf +++ String "." (py_str v)).
  destruct (shas "." itf) eqn:E.
  - intros H. exfalso. destruct (split1 "." itf) as [[a b]|] eqn:Es; [|apply split1_None in Es; congruence].
    apply split1_Some in Es as [-> Ha]. rewrite append_assoc in H.
    change (String "." b +++ String "." (py_str v)) with (String "." (b +++ String "." (py_str v))) in H.
    rewrite split_on_app in H by exact Ha.
    assert (Hl : exists x y z, split_on "." (b +++ String "." (py_str v)) = x :: y :: z).
    { clear. induction b as [|c b IH]; cbn.
      - rewrite split_on_none by apply nodot_py_str. cbn. eauto.
      - destruct (Ascii.eqb c "."); [|destruct IH as (x & y & z & ->); eauto].
        destruct IH as (x & y & z & ->). eauto. }
    destruct Hl as (x & y & z & Hl). rewrite Hl in H. discriminate H.
  - rewrite split_on_app by exact E. rewrite split_on_none by apply nodot_py_str. rewrite int_of_py_str. cbn.
    intros H. injection H as <-. auto.
Qed.
Lemma port_vlan_plain itf v : shas "." itf = false -> port_vlan (itf +++ "." +++ py_str v) = Ok (itf, v).
Proof.
  intros E. unfold port_vlan. change (itf +++ "." +++ py_str v) with (itf +++ String "." (py_str v)).
  rewrite split_on_app by exact E. rewrite split_on_none by apply nodot_py_str. rewrite int_of_py_str. reflexivity.
Qed.

Lemma br_target_ok pm port l t : br_target pm port l = Ok t -> (forall l', l = Some l' -> single_value l' = true) ->
  exists v itf, l = vlan_label v /\ aget port pm = Some itf /\ t = itf +++ "." +++ py_str v.
Proof.
  unfold br_target. destruct l as [l|]; [|discriminate].
  destruct (eqb_ok (ltype l) "vlan") as [E|E]; [|discriminate].
  intros H Hs. destruct (single_vlan l (Hs l eq_refl)) as [v Hv].
  destruct l as [ty vs]; cbn in E, Hv; subst ty vs. rewrite label_value_single in H.
  unfold port_of in H. destruct (aget port pm) as [itf|]; [|discriminate]. cbn [bind] in H. injection H as <-.
  exists v, itf. repeat split.
Qed.

Section Brocade.
  Variable pm : list (string * string).
  Hypothesis Hpm : forall port itf, aget port pm = Some itf -> word itf.
  Variable may : link -> Prop.

  Lemma br_setup_inv k cs : picked k ->
    dr_setup (brocade pm) (k_id k) (k_sp k) (k_sl k) (k_dp k) (k_dl k) = Ok cs ->
    exists si di v, ex_vals pm k si di v /\ shas "." si = false /\ shas "." di = false /\
      cs = ["vlan " +++ py_str v +++ " name " +++ vlan_name v; "tagged ethernet " +++ si; "tagged ethernet " +++ di].
  Proof.
    intros Hp H. cbn in H. unfold via_targets in H.
    destruct (br_target pm (k_sp k) (k_sl k)) as [s|] eqn:Es; [|discriminate]. cbn [bind] in H.
    destruct (br_target pm (k_dp k) (k_dl k)) as [d|] eqn:Ed; [|discriminate]. cbn [bind] in H.
    apply br_target_ok in Es; [|intros l' Hl; apply (Hp (k_sp k)); left; auto].
    apply br_target_ok in Ed; [|intros l' Hl; apply (Hp (k_dp k)); right; auto].
    destruct Es as (v & si & Hsl & Hsi & ->). destruct Ed as (w & di & Hdl & Hdi & ->).
    unfold br_setup in H. destruct (port_vlan (si +++ "." +++ py_str v)) as [t|] eqn:Et; [|discriminate].
    apply port_vlan_ok in Et as [Ds ->]. cbn [bind] in H.
    destruct (port_vlan (di +++ "." +++ py_str w)) as [t|] eqn:Et; [|discriminate].
    apply port_vlan_ok in Et as [Dd ->]. cbn [bind] in H.
    destruct (eqb_ok v w) as [<-|]; [|discriminate]. apply (f_equal (fun r => match r with Ok x => x | Err _ => [] end)) in H. subst cs.
    exists si, di, v. repeat split; assumption.
  Qed.

  Lemma br_words_vlan v : words ("vlan " +++ py_str v +++ " name " +++ vlan_name v) = ["vlan"; py_str v; "name"; vlan_name v].
  Proof. apply (words_join ["vlan"; py_str v; "name"; vlan_name v]); [discriminate|]. wordy. Qed.
  Lemma br_words_tagged p : word p -> words ("tagged ethernet " +++ p) = ["tagged"; "ethernet"; p].
  Proof. intros H. apply (words_join ["tagged"; "ethernet"; p]); [discriminate|]. wordy. Qed.
  Lemma br_words_no v : words ("no vlan " +++ py_str v) = ["no"; "vlan"; py_str v].
  Proof. apply (words_join ["no"; "vlan"; py_str v]); [discriminate|]. wordy. Qed.

  Lemma br_exec_vlan d v : br_exec d ("vlan " +++ py_str v +++ " name " +++ vlan_name v) = mkBr (Some v) (br_members d).
  Proof. unfold br_exec. rewrite br_words_vlan, py_int_str. reflexivity. Qed.
  Lemma br_exec_tagged v m p : word p -> br_exec (mkBr (Some v) m) ("tagged ethernet " +++ p) = mkBr (Some v) ((v, p) :: m).
  Proof. intros H. unfold br_exec. rewrite br_words_tagged by exact H. reflexivity. Qed.
  Lemma br_exec_no d v : br_exec d ("no vlan " +++ py_str v) = mkBr None (filter (fun m => negb (eqb (fst m) v)) (br_members d)).
  Proof. unfold br_exec. rewrite br_words_no. 
    change (eqb "no" "vlan") with false. change (eqb ["no"; "vlan"] ["tagged"; "ethernet"]) with false.
    change (eqb ["no"; "vlan"] ["no"; "vlan"]) with true. cbv iota. rewrite py_int_str. reflexivity. Qed.

  Definition br_adds (k : link) (q : Z * string) : Prop :=
    exists si di v, ex_vals pm k si di v /\ (q = (v, si) \/ q = (v, di)).
  Definition br_kills (k : link) (q : Z * string) : Prop :=
    exists si di, ex_vals pm k si di (fst q).
  Definition br_good (k : link) : Prop := may k /\ picked k /\ exists si di v, ex_vals pm k si di v /\ shas "." si = false /\ shas "." di = false.

  Lemma br_good_ok k cs : may k -> picked k -> nameable (brocade pm) k ->
    dr_setup (brocade pm) (k_id k) (k_sp k) (k_sl k) (k_dp k) (k_dl k) = Ok cs -> br_good k.
  Proof.
    intros Hm Hp _ H. split; [exact Hm|]. split; [exact Hp|]. destruct (br_setup_inv _ _ Hp H) as (si & di & v & Hv & Ds & Dd & _).
    exists si, di, v. auto.
  Qed.

  Lemma br_up_ok d k cs : br_good k -> dr_setup (brocade pm) (k_id k) (k_sp k) (k_sl k) (k_dp k) (k_dl k) = Ok cs ->
    forall q, In q (br_members (fold_left br_exec cs d)) <-> br_adds k q \/ (In q (br_members d) /\ ~ False).
  Proof.
    intros (_ & Hp & _) H q. destruct (br_setup_inv _ _ Hp H) as (si & di & v & Hv & Ds & Dd & ->).
    pose proof (Hpm _ _ (proj1 Hv)) as Ws. pose proof (Hpm _ _ (proj1 (proj2 Hv))) as Wd.
    cbn [fold_left]. rewrite br_exec_vlan, !br_exec_tagged by assumption. cbn [br_vlan br_members In]. unfold br_adds. split.
    - intros [H1|[H1|H1]]; [left; exists si, di, v; auto|left; exists si, di, v; auto|right; tauto].
    - intros [(si' & di' & v' & Hv' & Hq)|[H1 _]]; [|auto].
      destruct (ex_vals_fun pm _ _ _ _ _ _ _ Hv Hv') as (-> & -> & ->). destruct Hq; auto.
  Qed.

  Lemma br_teardown_eq k si di v : ex_vals pm k si di v -> shas "." si = false -> shas "." di = false ->
    dr_teardown (brocade pm) (k_id k) (k_sp k) (k_sl k) (k_dp k) (k_dl k) = Ok ["no vlan " +++ py_str v].
  Proof.
    intros (A & B & E & F) Ds Dd. cbn. unfold via_targets, br_target. rewrite E, F. unfold vlan_label. cbn [ltype].
    change (eqb "vlan" "vlan") with true. cbv iota. rewrite label_value_single. unfold port_of. rewrite A, B. cbn [bind].
    unfold br_teardown. rewrite !port_vlan_plain by assumption. cbn [bind]. rewrite eqb_refl. reflexivity.
  Qed.

  Lemma br_down_ok d k cs : br_good k -> dr_teardown (brocade pm) (k_id k) (k_sp k) (k_sl k) (k_dp k) (k_dl k) = Ok cs ->
    forall q, In q (br_members (fold_left br_exec cs d)) <-> In q (br_members d) /\ ~ br_kills k q.
  Proof.
    intros (_ & Hp & si & di & v & Hv & Ds & Dd) H q. rewrite (br_teardown_eq _ _ _ _ Hv Ds Dd) in H. 
    apply (f_equal (fun r => match r with Ok x => x | Err _ => [] end)) in H. subst cs.
    cbn [fold_left]. rewrite br_exec_no. cbn [br_members].
    rewrite filter_In, negb_true_iff. unfold br_kills. split; intros [H1 H2]; (split; [exact H1|]).
    - apply eqb_false in H2. intros (si' & di' & Hv'). destruct (ex_vals_fun pm _ _ _ _ _ _ _ Hv Hv') as (_ & _ & E). congruence.
    - apply eqb_false. intros E. apply H2. rewrite E. exists si, di. exact Hv.
  Qed.

  Lemma br_apart_vlan k k' si di v si' di' v' : ex_vals pm k si di v -> ex_vals pm k' si' di' v' -> apart (brocade pm) k k' -> v <> v'.
  Proof.
    intros (A & B & E & F) (A' & B' & E' & F') [_ Ha] <-. apply (Ha (py_str v)).
    split.
    - exists (k_sp k), (k_sl k). split; [left; auto|]. rewrite E. cbn. rewrite label_value_single. reflexivity.
    - exists (k_sp k'), (k_sl k'). split; [left; auto|]. rewrite E'. cbn. rewrite label_value_single. reflexivity.
  Qed.

  Theorem br_config d0 d ks : br_fresh may d0 -> reach (brocade pm) br_exec may d0 d ks ->
    Forall br_good ks /\ forall q, In q (br_members d) <-> In q (br_members d0) \/ exists k, In k ks /\ br_adds k q.
  Proof.
    intros Hf Hr.
    destruct (reach_inv (brocade pm) br_exec (fun d q => In q (br_members d)) may d0 br_adds br_kills (fun _ _ => False) br_good
      br_up_ok br_down_ok br_good_ok) with (d := d) (ks := ks) as (Hg & _ & Hq); [| | |exact Hr|split; assumption].
    - intros k q _ (si & di & v & Hv & Hq). exists si, di. destruct Hq as [->| ->]; exact Hv.
    - intros k k' q _ _ Ha (si & di & v & Hv & Hq). split; [|tauto]. intros (si' & di' & Hv').
      pose proof (br_apart_vlan _ _ _ _ _ _ _ _ Hv' Hv Ha) as Hn. apply Hn. destruct Hq as [->| ->]; reflexivity.
    - intros k [v itf] (Hm & _ & _) Hin. split; [|tauto]. intros (si & di & (A & B & E & F)). cbn in E.
      apply (Hf k (k_sp k) v itf Hm); [left; auto|exact Hin].
  Qed.

  Theorem br_vlans d0 d ks : br_fresh may d0 -> reach (brocade pm) br_exec may d0 d ks ->
    forall itf v, br_carries d itf v <-> br_carries d0 itf v \/ link_on pm ks itf v.
  Proof.
    intros Hf Hr itf v. destruct (br_config _ _ _ Hf Hr) as [Hg Hq]. rewrite Forall_forall in Hg. unfold br_carries. rewrite Hq.
    split; (intros [H|H]; [left; exact H|right]).
    - destruct H as (k & Hk & si & di & w & (A & B & E & F) & [H|H]); injection H as -> ->.
      + exists k, (k_sp k). split; [exact Hk|]. split; [left; auto|exact A].
      + exists k, (k_dp k). split; [exact Hk|]. split; [right; auto|exact B].
    - destruct H as (k & port & Hk & He & Hi). exists k. split; [exact Hk|].
      destruct (Hg k Hk) as (_ & _ & si & di & w & (A & B & E & F) & _).
      exists si, di, w. split; [repeat split; assumption|]. destruct He as [[-> El]|[-> El]].
      + rewrite E in El. unfold vlan_label in El. injection El as ->. left. congruence.
      + rewrite F in El. unfold vlan_label in El. injection El as ->. right. congruence.
  Qed.

  Lemma br_teardown_total k cs : picked k -> dr_setup (brocade pm) (k_id k) (k_sp k) (k_sl k) (k_dp k) (k_dl k) = Ok cs ->
    exists cs', dr_teardown (brocade pm) (k_id k) (k_sp k) (k_sl k) (k_dp k) (k_dl k) = Ok cs'.
  Proof.
    intros Hp H. destruct (br_setup_inv _ _ Hp H) as (si & di & v & Hv & Ds & Dd & _).
    rewrite (br_teardown_eq _ _ _ _ Hv Ds Dd). eauto.
  Qed.
End Brocade.

(** an interface with a dot in its name can never be used *)
Lemma br_dotted pm cid sp sl dp dl cs : br_target pm sp sl = Ok cs -> forall itf, aget sp pm = Some itf ->
  (forall l', sl = Some l' -> single_value l' = true) -> shas "." itf = true ->
  exists e, dr_setup (brocade pm) cid sp sl dp dl = Err e.
Proof.
  intros H itf Hi Hs Hd. destruct (br_target_ok _ _ _ _ H Hs) as (v & itf' & -> & Hi' & ->).
  rewrite Hi in Hi'. injection Hi' as <-. cbn. unfold via_targets. rewrite H. cbn [bind].
  destruct (br_target pm dp dl) as [t|e]; [|cbn; eauto]. cbn [bind]. unfold br_setup.
  destruct (port_vlan (itf +++ "." +++ py_str v)) as [x|e] eqn:E; [|cbn; eauto].
  apply port_vlan_ok in E as [E _]. congruence.
Qed.

(** * pica8ovs.py *)
Lemma nocomma_py_str n : shas "," (py_str n) = false.
Proof.
  pose proof (py_str_chars n) as H. revert H. generalize (py_str n) as s. induction s as [|c s IH]; [reflexivity|].
  cbn [sall]. intros H. apply andb_prop in H as [H1 H2]. rewrite shas_cons, (IH H2), orb_false_r.
  destruct (Ascii.eqb_spec "," c) as [<-|Hn]; [discriminate H1|reflexivity].
Qed.
Lemma after_app p s : after p (p +++ s) = Some s.
Proof. unfold after. rewrite starts_with_app, sdrop_app. reflexivity. Qed.

Lemma shas_lit_app c a b : shas c a = false -> shas c b = false -> shas c (a +++ b) = false.
Proof. intros Ha Hb. rewrite shas_app, Ha, Hb. reflexivity. Qed.

Lemma split_commas l : l <> [] -> Forall (fun x => shas "," x = false) l -> split_on "," (join "," l) = l.
Proof. intros Hn H. apply split_on_join; [exact Hn|]. rewrite Forall_forall in H. exact H. Qed.

Ltac nocommas := repeat first [exact (@Forall_nil _ _) | apply Forall_cons];
  try solve [repeat (apply shas_lit_app; [reflexivity|]); first [apply nocomma_py_str|reflexivity]].

Lemma flow_match i v : shas "," i = false ->
  flow_of ("in_port=" +++ i +++ ",dl_vlan=" +++ py_str v) = Some ((i, v), None).
Proof.
  intros Hi. unfold flow_of.
  change ("in_port=" +++ i +++ ",dl_vlan=" +++ py_str v) with (("in_port=" +++ i) +++ String "," ("dl_vlan=" +++ py_str v)).
  rewrite split_on_app by (apply shas_lit_app; [reflexivity|exact Hi]).
  rewrite split_on_none by (apply shas_lit_app; [reflexivity|apply nocomma_py_str]).
  rewrite !after_app. cbn [oint]. rewrite py_int_str. reflexivity.
Qed.
Lemma flow_add i v o : shas "," i = false -> shas "," o = false ->
  flow_of ("in_port=" +++ i +++ ",dl_vlan=" +++ py_str v +++ ",actions=output:" +++ o) = Some ((i, v), Some (o, v)).
Proof.
  intros Hi Ho. unfold flow_of.
  change ("in_port=" +++ i +++ ",dl_vlan=" +++ py_str v +++ ",actions=output:" +++ o)
    with (("in_port=" +++ i) +++ String "," (("dl_vlan=" +++ py_str v) +++ String "," ("actions=output:" +++ o))).
  rewrite split_on_app by (apply shas_lit_app; [reflexivity|exact Hi]).
  rewrite split_on_app by (apply shas_lit_app; [reflexivity|apply nocomma_py_str]).
  rewrite split_on_none by (apply shas_lit_app; [reflexivity|exact Ho]).
  rewrite !after_app. cbn [oint]. rewrite py_int_str. reflexivity.
Qed.
Lemma nodash_digits s : sall is_digit s = true -> shas "-" s = false.
Proof. apply shas_digits. reflexivity. Qed.
Lemma flow_swap i v w o : shas "," i = false -> shas "," o = false -> 0 <= w ->
  flow_of ("in_port=" +++ i +++ ",dl_vlan=" +++ py_str v +++ ",action=set_field=" +++ py_str w +++ "-\>vlan_vid,output:" +++ o)
  = Some ((i, v), Some (o, w)).
Proof.
  intros Hi Ho Hw. unfold flow_of.
  change ("in_port=" +++ i +++ ",dl_vlan=" +++ py_str v +++ ",action=set_field=" +++ py_str w +++ "-\>vlan_vid,output:" +++ o)
    with (("in_port=" +++ i) +++ String "," (("dl_vlan=" +++ py_str v) +++ String ","
      ("action=set_field=" +++ (py_str w +++ ("-\>vlan_vid" +++ String "," ("output:" +++ o)))))).
  rewrite <- (append_assoc (py_str w)), <- (append_assoc "action=set_field=").
  rewrite split_on_app by (apply shas_lit_app; [reflexivity|exact Hi]).
  rewrite split_on_app by (apply shas_lit_app; [reflexivity|apply nocomma_py_str]).
  rewrite split_on_app by (apply shas_lit_app; [reflexivity|apply shas_lit_app; [apply nocomma_py_str|reflexivity]]).
  rewrite split_on_none by (apply shas_lit_app; [reflexivity|exact Ho]).
  rewrite !after_app. cbn [oint]. rewrite py_int_str.
  change (py_str w +++ "-\>vlan_vid") with (py_str w +++ String "-" "\>vlan_vid").
  rewrite split1_app by (apply nodash_digits, py_str_digits; exact Hw). rewrite py_int_str.
  change (eqb "\>vlan_vid" "\>vlan_vid") with true. reflexivity.
Qed.

Lemma p8_target_ok pm port l t : p8_target pm port l = Ok t -> (forall l', l = Some l' -> single_value l' = true) ->
  exists v itf, l = vlan_label v /\ aget port pm = Some itf /\ t = (itf, v) /\ 0 <= v.
Proof.
  unfold p8_target. destruct l as [l|]; [|discriminate].
  destruct (eqb_ok (ltype l) "vlan") as [E|E]; [|discriminate].
  intros H Hs. destruct (single_vlan l (Hs l eq_refl)) as [v Hv].
  destruct l as [ty vs]; cbn in E, Hv; subst ty vs. rewrite label_value_single, int_of_py_str in H. cbn [bind] in H.
  destruct ((1 <=? v) && (v <=? 4095)) eqn:Er; [|discriminate]. unfold port_of in H.
  destruct (aget port pm) as [itf|]; [|discriminate]. cbn in H. injection H as <-.
  exists v, itf. repeat split. lia.
Qed.

Lemma p8_number_flow itf n : p8_number itf n -> flow_port itf = Ok n.
Proof.
  intros (a & b & t & i & -> & Ha & Hb & Ht & Hi & ->). unfold flow_port.
  change (a +++ "/" +++ b +++ "/" +++ t) with (a +++ String "/" (b +++ String "/" t)).
  rewrite !split_on_app by assumption. rewrite split_on_none by exact Ht. cbn [nth_error].
  unfold int_of. rewrite Hi. reflexivity.
Qed.
Lemma p8_number_fun itf n m : p8_number itf n -> p8_number itf m -> n = m.
Proof. intros H1 H2. apply p8_number_flow in H1, H2. congruence. Qed.
Lemma p8_number_word itf n : p8_number itf n -> word n /\ shas "," n = false.
Proof.
  intros (a & b & t & i & _ & _ & _ & _ & _ & ->). split; [apply word_py_str|apply nocomma_py_str].
Qed.

Section Pica8.
  Variable db : string.
  Variable pm : list (string * string).
  Hypothesis Hdb : word db.
  Hypothesis Hpm : p8_ports pm.

  (** interfaces, flow numbers and VLANs of a link *)
  Definition p8_vals (k : link) (si sn : string) (v : Z) (di dn : string) (w : Z) : Prop :=
    aget (k_sp k) pm = Some si /\ aget (k_dp k) pm = Some di /\ p8_number si sn /\ p8_number di dn /\
    k_sl k = vlan_label v /\ k_dl k = vlan_label w /\ 0 <= v /\ 0 <= w.
  Lemma p8_vals_fun k si sn v di dn w si' sn' v' di' dn' w' : p8_vals k si sn v di dn w -> p8_vals k si' sn' v' di' dn' w' ->
    si' = si /\ sn' = sn /\ v' = v /\ di' = di /\ dn' = dn /\ w' = w.
  Proof.
    intros (A & B & E & F & G & H & _ & _) (A' & B' & E' & F' & G' & H' & _ & _). unfold vlan_label in *.
    assert (si' = si) by congruence. assert (di' = di) by congruence. subst si' di'.
    rewrite (p8_number_fun _ _ _ E' E), (p8_number_fun _ _ _ F' F).
    split; [reflexivity|]. split; [reflexivity|]. split; [congruence|]. split; [reflexivity|]. split; [reflexivity|]. congruence.
  Qed.

  Definition p8_stmt : Type := ((string * Z) * (string * Z)) + (string * Z).
  Definition p8_has (d : p8_state) (q : p8_stmt) : Prop :=
    match q with inl f => In f (p8_flows d) | inr t => In t (p8_trunks d) end.
  Definition p8_adds (k : link) (q : p8_stmt) : Prop :=
    exists si sn v di dn w, p8_vals k si sn v di dn w /\
      (q = inl ((sn, v), (dn, w)) \/ q = inl ((dn, w), (sn, v)) \/ q = inr (si, v) \/ q = inr (di, w)).
  Definition p8_keys (k : link) (q : p8_stmt) : Prop :=
    exists si sn v di dn w, p8_vals k si sn v di dn w /\
      match q with inl f => fst f = (sn, v) \/ fst f = (dn, w) | inr t => t = (si, v) \/ t = (di, w) end.
  Definition p8_lone (k : link) (q : p8_stmt) : Prop := match q with inl _ => p8_keys k q | inr _ => False end.
  Definition p8_good (k : link) : Prop := picked k /\ exists si sn v di dn w, p8_vals k si sn v di dn w.

  Lemma p8_targets_vals k s d : picked k -> p8_target pm (k_sp k) (k_sl k) = Ok s -> p8_target pm (k_dp k) (k_dl k) = Ok d ->
    exists si sn v di dn w, p8_vals k si sn v di dn w /\ s = (si, v) /\ d = (di, w).
  Proof.
    intros Hp Es Ed.
    apply p8_target_ok in Es; [|intros l' Hl; apply (Hp (k_sp k)); left; auto].
    apply p8_target_ok in Ed; [|intros l' Hl; apply (Hp (k_dp k)); right; auto].
    destruct Es as (v & si & Hsl & Hsi & -> & Hv). destruct Ed as (w & di & Hdl & Hdi & -> & Hw).
    destruct (proj1 Hpm _ _ Hsi) as (_ & sn & Hsn). destruct (proj1 Hpm _ _ Hdi) as (_ & dn & Hdn).
    exists si, sn, v, di, dn, w. repeat split; assumption.
  Qed.
  Lemma p8_vals_targets k si sn v di dn w s d : p8_vals k si sn v di dn w ->
    p8_target pm (k_sp k) (k_sl k) = Ok s -> p8_target pm (k_dp k) (k_dl k) = Ok d -> s = (si, v) /\ d = (di, w).
  Proof.
    intros (A & B & _ & _ & E & F & _ & _). unfold p8_target. rewrite E, F. unfold vlan_label. cbn [ltype].
    change (eqb "vlan" "vlan") with true. cbv iota. rewrite !label_value_single, !int_of_py_str. cbn [bind].
    destruct (_ && _); [|discriminate]. destruct (_ && _); [|discriminate]. unfold port_of. rewrite A, B. cbn. split; congruence.
  Qed.

  Lemma p8_good_ok (may : link -> Prop) k cs : may k -> picked k -> nameable (pica8 db pm) k ->
    dr_setup (pica8 db pm) (k_id k) (k_sp k) (k_sl k) (k_dp k) (k_dl k) = Ok cs -> p8_good k.
  Proof.
    intros _ Hp _ H. split; [exact Hp|]. cbn in H. unfold via_targets in H.
    destruct (p8_target pm (k_sp k) (k_sl k)) as [s|] eqn:Es; [|discriminate]. cbn [bind] in H.
    destruct (p8_target pm (k_dp k) (k_dl k)) as [d|] eqn:Ed; [|discriminate].
    destruct (p8_targets_vals _ _ _ Hp Es Ed) as (si & sn & v & di & dn & w & Hv & _ & _).
    exists si, sn, v, di, dn, w. exact Hv.
  Qed.

  Lemma p8_exec_add d p v : word p -> p8_exec d (p8_add_port db p v) = mkP8 ((p, v) :: p8_trunks d) (p8_flows d).
  Proof.
    intros Hp. unfold p8_exec.
    replace (words (p8_add_port db p v)) with ["/ovs/bin/ovs-vsctl"; "--db=tcp:" +++ (db +++ ":6640"); "add"; "port"; p; "trunk"; py_str v].
    - rewrite py_int_str. reflexivity.
    - symmetry. transitivity (words (join " " ["/ovs/bin/ovs-vsctl"; "--db=tcp:" +++ (db +++ ":6640"); "add"; "port"; p; "trunk"; py_str v])).
      + unfold p8_add_port. cbn [join]. f_equal.
        change ("--db=tcp:" +++ db +++ ":6640") with ("--db=tcp:" +++ (db +++ ":6640")).
        rewrite (append_assoc "--db=tcp:"), (append_assoc db). reflexivity.
      + apply words_join; [discriminate|]. wordy. apply word_app; [reflexivity|]. apply word_app; [exact Hdb|reflexivity].
  Qed.
  Lemma p8_exec_remove d p v : word p ->
    p8_exec d (p8_remove_port db p v) = mkP8 (filter (fun t => negb (eqb t (p, v))) (p8_trunks d)) (p8_flows d).
  Proof.
    intros Hp. unfold p8_exec.
    replace (words (p8_remove_port db p v)) with ["/ovs/bin/ovs-vsctl"; "--db=tcp:" +++ (db +++ ":6640"); "remove"; "port"; p; "trunk"; py_str v].
    - rewrite py_int_str. change (eqb ["/ovs/bin/ovs-vsctl"; "remove"; "port"; "trunk"] ["/ovs/bin/ovs-vsctl"; "add"; "port"; "trunk"]) with false. 
      change (eqb ["/ovs/bin/ovs-vsctl"; "remove"; "port"; "trunk"] ["/ovs/bin/ovs-vsctl"; "remove"; "port"; "trunk"]) with true. reflexivity.
    - symmetry. transitivity (words (join " " ["/ovs/bin/ovs-vsctl"; "--db=tcp:" +++ (db +++ ":6640"); "remove"; "port"; p; "trunk"; py_str v])).
      + unfold p8_remove_port. cbn [join]. f_equal.
        rewrite (append_assoc "--db=tcp:"), (append_assoc db). reflexivity.
      + apply words_join; [discriminate|]. wordy. apply word_app; [reflexivity|]. apply word_app; [exact Hdb|reflexivity].
  Qed.
  Lemma p8_exec_flow d i v o : word i -> word o -> shas "," i = false -> shas "," o = false ->
    p8_exec d (p8_add_flow i v o) = mkP8 (p8_trunks d) (((i, v), (o, v)) :: filter (fun x => negb (eqb (fst x) (i, v))) (p8_flows d)).
  Proof.
    intros Wi Wo Ci Co. unfold p8_exec.
    replace (words (p8_add_flow i v o)) with ["/ovs/bin/ovs-ofctl"; "add-flow"; "br0"; "in_port=" +++ i +++ ",dl_vlan=" +++ py_str v +++ ",actions=output:" +++ o].
    - rewrite flow_add by assumption. reflexivity.
    - symmetry. apply (words_join ["/ovs/bin/ovs-ofctl"; "add-flow"; "br0"; "in_port=" +++ i +++ ",dl_vlan=" +++ py_str v +++ ",actions=output:" +++ o]); [discriminate|].
      wordy. apply word_app; [reflexivity|]. apply word_app; [exact Wi|]. apply word_app; [reflexivity|].
      apply word_app; [apply word_py_str|]. apply word_app; [reflexivity|exact Wo].
  Qed.
  Lemma p8_exec_swap d i v w o : word i -> word o -> shas "," i = false -> shas "," o = false -> 0 <= w ->
    p8_exec d (p8_add_flow_swap i v w o) = mkP8 (p8_trunks d) (((i, v), (o, w)) :: filter (fun x => negb (eqb (fst x) (i, v))) (p8_flows d)).
  Proof.
    intros Wi Wo Ci Co Hw. unfold p8_exec.
    replace (words (p8_add_flow_swap i v w o)) with ["/ovs/bin/ovs-ofctl"; "add-flow"; "br0";
      "in_port=" +++ i +++ ",dl_vlan=" +++ py_str v +++ ",action=set_field=" +++ py_str w +++ "-\>vlan_vid,output:" +++ o].
    - rewrite flow_swap by assumption. reflexivity.
    - symmetry. apply (words_join ["/ovs/bin/ovs-ofctl"; "add-flow"; "br0";
        "in_port=" +++ i +++ ",dl_vlan=" +++ py_str v +++ ",action=set_field=" +++ py_str w +++ "-\>vlan_vid,output:" +++ o]); [discriminate|].
      wordy. apply word_app; [reflexivity|]. apply word_app; [exact Wi|]. apply word_app; [reflexivity|].
      apply word_app; [apply word_py_str|]. apply word_app; [reflexivity|]. apply word_app; [apply word_py_str|].
      apply word_app; [reflexivity|exact Wo].
  Qed.
  Lemma p8_exec_delete d i v : word i -> shas "," i = false ->
    p8_exec d (p8_delete_flow i v) = mkP8 (p8_trunks d) (filter (fun x => negb (eqb (fst x) (i, v))) (p8_flows d)).
  Proof.
    intros Wi Ci. unfold p8_exec.
    replace (words (p8_delete_flow i v)) with ["/ovs/bin/ovs-ofctl"; "del-flows"; "br0"; "in_port=" +++ i +++ ",dl_vlan=" +++ py_str v].
    - rewrite flow_match by assumption. reflexivity.
    - symmetry. apply (words_join ["/ovs/bin/ovs-ofctl"; "del-flows"; "br0"; "in_port=" +++ i +++ ",dl_vlan=" +++ py_str v]); [discriminate|].
      wordy. apply word_app; [reflexivity|]. apply word_app; [exact Wi|]. apply word_app; [reflexivity|apply word_py_str].
  Qed.

  Lemma p8_up_ok d k cs : p8_good k -> dr_setup (pica8 db pm) (k_id k) (k_sp k) (k_sl k) (k_dp k) (k_dl k) = Ok cs ->
    forall q, p8_has (fold_left p8_exec cs d) q <-> p8_adds k q \/ (p8_has d q /\ ~ p8_lone k q).
  Proof.
    intros [Hp _] H q. cbn in H. unfold via_targets in H.
    destruct (p8_target pm (k_sp k) (k_sl k)) as [s|] eqn:Es; [|discriminate]. cbn [bind] in H.
    destruct (p8_target pm (k_dp k) (k_dl k)) as [t|] eqn:Ed; [|discriminate]. cbn [bind] in H.
    destruct (p8_targets_vals _ _ _ Hp Es Ed) as (si & sn & v & di & dn & w & Hv & -> & ->).
    pose proof Hv as (A & B & E & F & G & I & Pv & Pw).
    unfold p8_configure in H. cbn [fst snd] in H. rewrite (p8_number_flow _ _ E), (p8_number_flow _ _ F) in H. cbn [bind] in H.
    destruct (p8_number_word _ _ E) as [Wsn Csn]. destruct (p8_number_word _ _ F) as [Wdn Cdn].
    destruct (proj1 Hpm _ _ A) as [Wsi _]. destruct (proj1 Hpm _ _ B) as [Wdi _].
    assert (R : fold_left p8_exec cs d = mkP8 ((di, w) :: (si, v) :: p8_trunks d)
      (((dn, w), (sn, v)) :: filter (fun x => negb (eqb (fst x) (dn, w))) (((sn, v), (dn, w)) :: filter (fun x => negb (eqb (fst x) (sn, v))) (p8_flows d)))).
    { destruct (eqb_ok v w) as [<-|Hn].
      - apply (f_equal (fun r => match r with Ok x => x | Err _ => [] end)) in H. subst cs. cbn [app fold_left].
        rewrite !p8_exec_add, !p8_exec_flow by assumption. reflexivity.
      - apply (f_equal (fun r => match r with Ok x => x | Err _ => [] end)) in H. subst cs. cbn [app fold_left].
        rewrite !p8_exec_add, !p8_exec_swap by assumption. reflexivity. }
    rewrite R. clear R H.
    destruct q as [[m a]|t]; cbn [p8_has p8_flows p8_trunks In].
    - rewrite filter_In, negb_true_iff, eqb_false. cbn [In fst]. rewrite filter_In, negb_true_iff, eqb_false. cbn [fst].
      unfold p8_adds, p8_lone, p8_keys. cbn [fst]. split.
      + intros [X|[[X|[X Hm]] Hm']].
        * left. exists si, sn, v, di, dn, w. split; [exact Hv|]. injection X as <- <-. auto.
        * left. exists si, sn, v, di, dn, w. split; [exact Hv|]. injection X as <- <-. auto.
        * right. split; [exact X|]. intros (si' & sn' & v' & di' & dn' & w' & Hv' & Hk).
          destruct (p8_vals_fun _ _ _ _ _ _ _ _ _ _ _ _ _ Hv Hv') as (-> & -> & -> & -> & -> & ->). destruct Hk; contradiction.
      + intros [(si' & sn' & v' & di' & dn' & w' & Hv' & Hk)|[X Hl]].
        * destruct (p8_vals_fun _ _ _ _ _ _ _ _ _ _ _ _ _ Hv Hv') as (-> & -> & -> & -> & -> & ->).
          destruct Hk as [Hk|[Hk|[Hk|Hk]]]; try discriminate Hk; injection Hk as -> ->; [|auto].
          destruct (eqb_ok (sn, v) (dn, w)) as [Eq|Eq]; [left; congruence|]. right. split; [left; reflexivity|exact Eq].
        * right. split.
          { right. split; [exact X|]. intros ->. apply Hl. exists si, sn, v, di, dn, w. auto. }
          intros ->. apply Hl. exists si, sn, v, di, dn, w. auto.
    - unfold p8_adds, p8_lone. split.
      + intros [<-|[<-|X]].
        * left. exists si, sn, v, di, dn, w. auto.
        * left. exists si, sn, v, di, dn, w. auto.
        * right. auto.
      + intros [(si' & sn' & v' & di' & dn' & w' & Hv' & Hk)|[X _]]; [|auto].
        destruct (p8_vals_fun _ _ _ _ _ _ _ _ _ _ _ _ _ Hv Hv') as (-> & -> & -> & -> & -> & ->).
        destruct Hk as [Hk|[Hk|[Hk|Hk]]]; try discriminate Hk; injection Hk as ->; auto.
  Qed.

  Lemma p8_down_ok d k cs : p8_good k -> dr_teardown (pica8 db pm) (k_id k) (k_sp k) (k_sl k) (k_dp k) (k_dl k) = Ok cs ->
    forall q, p8_has (fold_left p8_exec cs d) q <-> p8_has d q /\ ~ p8_keys k q.
  Proof.
    intros (Hp & si & sn & v & di & dn & w & Hv) H q. cbn in H. unfold via_targets in H.
    destruct (p8_target pm (k_sp k) (k_sl k)) as [s|] eqn:Es; [|discriminate]. cbn [bind] in H.
    destruct (p8_target pm (k_dp k) (k_dl k)) as [t|] eqn:Ed; [|discriminate]. cbn [bind] in H.
    destruct (p8_vals_targets _ _ _ _ _ _ _ _ _ Hv Es Ed) as [-> ->].
    pose proof Hv as (A & B & E & F & G & I & Pv & Pw).
    unfold p8_delete in H. cbn [fst snd] in H. rewrite (p8_number_flow _ _ E), (p8_number_flow _ _ F) in H. cbn [bind] in H.
    destruct (p8_number_word _ _ E) as [Wsn Csn]. destruct (p8_number_word _ _ F) as [Wdn Cdn].
    destruct (proj1 Hpm _ _ A) as [Wsi _]. destruct (proj1 Hpm _ _ B) as [Wdi _].
    apply (f_equal (fun r => match r with Ok x => x | Err _ => [] end)) in H. subst cs. cbn [fold_left].
    rewrite !p8_exec_delete, !p8_exec_remove by assumption. cbn [p8_trunks p8_flows].
    unfold p8_keys. destruct q as [[m a]|t]; cbn [p8_has p8_flows p8_trunks]; rewrite !filter_In, !negb_true_iff, !eqb_false; cbn [fst].
    - split.
      + intros [[X H1] H2]. split; [exact X|]. intros (si' & sn' & v' & di' & dn' & w' & Hv' & Hk).
        destruct (p8_vals_fun _ _ _ _ _ _ _ _ _ _ _ _ _ Hv Hv') as (-> & -> & -> & -> & -> & ->). destruct Hk; contradiction.
      + intros [X Hk]. repeat split; [exact X| |]; intros ->; apply Hk; exists si, sn, v, di, dn, w; auto.
    - split.
      + intros [[X H1] H2]. split; [exact X|]. intros (si' & sn' & v' & di' & dn' & w' & Hv' & Hk).
        destruct (p8_vals_fun _ _ _ _ _ _ _ _ _ _ _ _ _ Hv Hv') as (-> & -> & -> & -> & -> & ->). destruct Hk; contradiction.
      + intros [X Hk]. repeat split; [exact X| |]; intros ->; apply Hk; exists si, sn, v, di, dn, w; auto.
  Qed.

  Lemma p8_own k q : p8_good k -> p8_adds k q -> p8_keys k q.
  Proof.
    intros _ (si & sn & v & di & dn & w & Hv & Hq). exists si, sn, v, di, dn, w. split; [exact Hv|].
    destruct Hq as [->|[->|[->| ->]]]; cbn; auto.
  Qed.

  (** the same port and VLAN is the same resource *)
  Lemma p8_apart_ends k k' p v : apart (pica8 db pm) k k' -> end_of k p (vlan_label v) -> end_of k' p (vlan_label v) -> False.
  Proof.
    intros [_ Ha] He He'. apply (Ha (p +++ ":" +++ py_str v)). unfold holds.
    split; exists p, (vlan_label v); (split; [assumption|]); cbn; rewrite label_value_single; reflexivity.
  Qed.

  Lemma p8_same_port p p' i i' n : aget p pm = Some i -> aget p' pm = Some i' -> p8_number i n -> p8_number i' n -> p = p'.
  Proof. apply (proj2 Hpm). Qed.
  Lemma p8_same_port' p p' i n : aget p pm = Some i -> aget p' pm = Some i -> p8_number i n -> p = p'.
  Proof. intros H1 H2 H3. apply (proj2 Hpm p p' i i n); assumption. Qed.

  Lemma p8_apart_ok k k' q : p8_good k -> p8_good k' -> apart (pica8 db pm) k k' -> p8_adds k' q -> ~ p8_keys k q /\ ~ p8_lone k q.
  Proof.
    intros _ _ Ha (si' & sn' & v' & di' & dn' & w' & Hv' & Hq).
    assert (N : ~ p8_keys k q).
    { intros (si & sn & v & di & dn & w & Hv & Hk).
      destruct Hv as (A & B & E & F & G & I & _ & _). destruct Hv' as (A' & B' & E' & F' & G' & I' & _ & _).
      assert (X : forall p l i n u p' l' i' n' u', aget p pm = Some i -> aget p' pm = Some i' -> p8_number i n -> p8_number i' n' ->
        end_of k p l -> end_of k' p' l' -> l = vlan_label u -> l' = vlan_label u' -> (n' = n \/ i' = i) -> u' = u -> False).
      { intros p l i n u p' l' i' n' u' H1 H2 H3 H4 H5 H6 H7 H8 H9 H10. subst l l' u'.
        assert (p = p').
        { destruct H9 as [->| ->]; [apply (p8_same_port p p' i i' n); assumption|apply (p8_same_port' p p' i n); assumption]. }
        subst p'. exact (p8_apart_ends k k' p u Ha H5 H6). }
      assert (S : end_of k (k_sp k) (k_sl k)) by (left; auto). assert (T : end_of k (k_dp k) (k_dl k)) by (right; auto).
      assert (S' : end_of k' (k_sp k') (k_sl k')) by (left; auto). assert (T' : end_of k' (k_dp k') (k_dl k')) by (right; auto).
      destruct Hq as [->|[->|[->| ->]]]; cbn in Hk; destruct Hk as [Hk|Hk]; injection Hk as Hx Hy.
      - exact (X _ _ _ _ _ _ _ _ _ _ A A' E E' S S' G G' (or_introl Hx) Hy).
      - exact (X _ _ _ _ _ _ _ _ _ _ B A' F E' T S' I G' (or_introl Hx) Hy).
      - exact (X _ _ _ _ _ _ _ _ _ _ A B' E F' S T' G I' (or_introl Hx) Hy).
      - exact (X _ _ _ _ _ _ _ _ _ _ B B' F F' T T' I I' (or_introl Hx) Hy).
      - exact (X _ _ _ _ _ _ _ _ _ _ A A' E E' S S' G G' (or_intror Hx) Hy).
      - exact (X _ _ _ _ _ _ _ _ _ _ B A' F E' T S' I G' (or_intror Hx) Hy).
      - exact (X _ _ _ _ _ _ _ _ _ _ A B' E F' S T' G I' (or_intror Hx) Hy).
      - exact (X _ _ _ _ _ _ _ _ _ _ B B' F F' T T' I I' (or_intror Hx) Hy). }
    split; [exact N|]. unfold p8_lone. destruct q; [exact N|tauto].
  Qed.

  Lemma p8_fresh_ok d0 : p8_fresh pm d0 -> forall k q, p8_good k -> p8_has d0 q -> ~ p8_keys k q /\ ~ p8_lone k q.
  Proof.
    intros Hf k q _ Hin.
    assert (N : ~ p8_keys k q).
    { intros (si & sn & v & di & dn & w & (A & B & E & F & _) & Hk). destruct q as [[m a]|t]; cbn in Hin, Hk.
      - destruct Hk as [->| ->]; [destruct (Hf _ _ _ v a A E) as [H _]|destruct (Hf _ _ _ w a B F) as [H _]]; contradiction.
      - destruct Hk as [->| ->]; [destruct (Hf _ _ _ v (sn, v) A E) as [_ H]|destruct (Hf _ _ _ w (sn, v) B F) as [_ H]]; contradiction. }
    split; [exact N|]. unfold p8_lone. destruct q; [exact N|tauto].
  Qed.

  Theorem p8_config may d0 d ks : p8_fresh pm d0 -> reach (pica8 db pm) p8_exec may d0 d ks ->
    Forall p8_good ks /\ forall q, p8_has d q <-> p8_has d0 q \/ exists k, In k ks /\ p8_adds k q.
  Proof.
    intros Hf Hr.
    destruct (reach_inv (pica8 db pm) p8_exec p8_has may d0 p8_adds p8_keys p8_lone p8_good
      p8_up_ok p8_down_ok (p8_good_ok may) p8_own p8_apart_ok (p8_fresh_ok d0 Hf) d ks Hr) as (Hg & _ & Hq).
    split; assumption.
  Qed.

  Theorem p8_forwarding may d0 d ks : p8_fresh pm d0 -> reach (pica8 db pm) p8_exec may d0 d ks ->
    (forall i v o w, In ((i, v), (o, w)) (p8_flows d) <-> In ((i, v), (o, w)) (p8_flows d0) \/ link_flow pm ks i v o w) /\
    (forall itf v, In (itf, v) (p8_trunks d) <-> In (itf, v) (p8_trunks d0) \/ link_on pm ks itf v).
  Proof.
    intros Hf Hr. destruct (p8_config _ _ _ _ Hf Hr) as [Hg Hq]. rewrite Forall_forall in Hg. split.
    - intros i v o w. rewrite (Hq (inl ((i, v), (o, w)))). cbn [p8_has]. split; (intros [H|H]; [left; exact H|right]).
      + destruct H as (k & Hk & si & sn & a & di & dn & b & (A & B & E & F & G & I & _) & [H|[H|[H|H]]]); try discriminate H;
          injection H as -> -> -> ->.
        * exists k, (k_sp k), (k_dp k), si, di. split; [exact Hk|]. split; [left; auto|]. auto.
        * exists k, (k_dp k), (k_sp k), di, si. split; [exact Hk|]. split; [right; auto|]. auto.
      + destruct H as (k & pa & pb & ia & ib & Hk & Hx & Ha & Hb & Na & Nb). exists k. split; [exact Hk|].
        destruct (Hg k Hk) as (_ & si & sn & a & di & dn & b & Hv). exists si, sn, a, di, dn, b. split; [exact Hv|].
        destruct Hv as (A & B & E & F & G & I & _). destruct Hx as [(-> & X & -> & Y)|(-> & X & -> & Y)].
        * left. rewrite G in X. rewrite I in Y. unfold vlan_label in X, Y. injection X as ->. injection Y as ->.
          rewrite A in Ha. injection Ha as <-. rewrite B in Hb. injection Hb as <-.
          rewrite (p8_number_fun _ _ _ Na E), (p8_number_fun _ _ _ Nb F). reflexivity.
        * right. left. rewrite I in X. rewrite G in Y. unfold vlan_label in X, Y. injection X as ->. injection Y as ->.
          rewrite B in Ha. injection Ha as <-. rewrite A in Hb. injection Hb as <-.
          rewrite (p8_number_fun _ _ _ Na F), (p8_number_fun _ _ _ Nb E). reflexivity.
    - intros itf v. rewrite (Hq (inr (itf, v))). cbn [p8_has]. split; (intros [H|H]; [left; exact H|right]).
      + destruct H as (k & Hk & si & sn & a & di & dn & b & (A & B & E & F & G & I & _) & [H|[H|[H|H]]]); try discriminate H;
          injection H as -> ->.
        * exists k, (k_sp k). split; [exact Hk|]. split; [left; auto|exact A].
        * exists k, (k_dp k). split; [exact Hk|]. split; [right; auto|exact B].
      + destruct H as (k & port & Hk & He & Hi). exists k. split; [exact Hk|].
        destruct (Hg k Hk) as (_ & si & sn & a & di & dn & b & Hv). exists si, sn, a, di, dn, b. split; [exact Hv|].
        destruct Hv as (A & B & E & F & G & I & _). destruct He as [[-> El]|[-> El]].
        * rewrite G in El. unfold vlan_label in El. injection El as ->. rewrite A in Hi. injection Hi as <-. auto.
        * rewrite I in El. unfold vlan_label in El. injection El as ->. rewrite B in Hi. injection Hi as <-. auto.
  Qed.

  Lemma p8_teardown_total k cs : dr_setup (pica8 db pm) (k_id k) (k_sp k) (k_sl k) (k_dp k) (k_dl k) = Ok cs ->
    exists cs', dr_teardown (pica8 db pm) (k_id k) (k_sp k) (k_sl k) (k_dp k) (k_dl k) = Ok cs'.
  Proof.
    cbn. unfold via_targets. destruct (p8_target pm (k_sp k) (k_sl k)) as [s|]; [|discriminate].
    destruct (p8_target pm (k_dp k) (k_dl k)) as [t|]; [|discriminate]. cbn [bind]. unfold p8_configure, p8_delete.
    destruct (flow_port (fst s)); [|discriminate]. destruct (flow_port (fst t)); [|discriminate]. cbn [bind]. eauto.
  Qed.
End Pica8.
