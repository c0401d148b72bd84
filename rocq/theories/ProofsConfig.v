(** Proofs about the configuration (C71). *)
From Verif Require Import Base BaseProofs ModelHttpClient SpecHttpClient ModelConfig SpecConfig ProofsHttpClient.
Open Scope Z_scope.

(** ** strip *)
Lemma cfg_app_nil_r s : s +++ "" = s.
Proof. induction s as [|c s IH]; cbn; congruence. Qed.
Lemma cfg_app_assoc a b c : (a +++ b) +++ c = a +++ b +++ c.
Proof. induction a as [|x a IH]; cbn; congruence. Qed.
Lemma lstrip_split s : exists a, s = a +++ lstrip s /\ sall is_space a = true /\ (lstrip s = "" \/ exists c r, lstrip s = String c r /\ is_space c = false).
Proof.
  induction s as [|c s (a & E & Ha & Hs)]; cbn [lstrip]; [exists ""; auto|].
  destruct (is_space c) eqn:Ec.
  - exists (String c a). cbn. rewrite Ec, <- E. auto.
  - exists "". split; [reflexivity|]. split; [reflexivity|]. right. eauto.
Qed.
Lemma rstrip_split s : exists b, s = rstrip s +++ b /\ sall is_space b = true /\ (rstrip s = "" \/ exists r c, rstrip s = r +++ String c "" /\ is_space c = false).
Proof.
  induction s as [|c s (b & E & Hb & Hs)]; cbn [rstrip]; [exists ""; auto|].
  destruct (rstrip s) as [|d r] eqn:Er.
  - cbn in E. subst b. destruct (is_space c) eqn:Ec.
    + exists (String c s). cbn. rewrite Ec, Hb. auto.
    + exists s. split; [reflexivity|]. split; [exact Hb|]. right. exists "", c. auto.
  - exists b. split; [cbn in *; congruence|]. split; [exact Hb|]. right.
    destruct Hs as [Hs|(r' & c' & Hs & Hc)]; [discriminate|]. exists (String c r'), c'. rewrite Hs. auto.
Qed.
Lemma rstrip_head c s : is_space c = false -> exists r, rstrip (String c s) = String c r.
Proof. intros Hc. cbn [rstrip]. destruct (rstrip s); [rewrite Hc|]; eauto. Qed.
Lemma strip_trims s : trims s (strip s).
Proof.
  unfold strip. destruct (lstrip_split s) as (a & E & Ha & Hl). destruct (rstrip_split (lstrip s)) as (b & E2 & Hb & Hr).
  exists a, b. split; [rewrite <- E2; exact E|]. split; [exact Ha|]. split; [exact Hb|].
  destruct Hr as [Hr|Hr]; [auto|]. right. split; [|exact Hr].
  destruct Hl as [Hl|(c & r & Hl & Hc)].
  - destruct Hr as (r & c & Hr & _). rewrite Hl in Hr. destruct r; discriminate.
  - rewrite Hl. destruct (rstrip_head c r Hc) as [r' ->]. eauto.
Qed.
Lemma lstrip_spaces a s : sall is_space a = true -> lstrip (a +++ s) = lstrip s.
Proof. induction a as [|c a IH]; cbn; [auto|]. intros H. apply andb_prop in H as [-> H]. auto. Qed.
Lemma rstrip_spaces b : sall is_space b = true -> rstrip b = "".
Proof. induction b as [|c b IH]; cbn; [auto|]. intros H. apply andb_prop in H as [Hc H]. rewrite IH, Hc by exact H. reflexivity. Qed.
Lemma rstrip_last r c b : is_space c = false -> sall is_space b = true -> rstrip ((r +++ String c "") +++ b) = r +++ String c "".
Proof.
  intros Hc Hb. induction r as [|d r IH]; cbn [String.append rstrip].
  - rewrite rstrip_spaces by exact Hb. rewrite Hc. reflexivity.
  - rewrite IH. destruct r; reflexivity.
Qed.
Lemma trims_strip s t : trims s t -> strip s = t.
Proof.
  intros (a & b & -> & Ha & Hb & H). unfold strip. rewrite lstrip_spaces by exact Ha.
  destruct H as [->|[(c & r & Ey & Hc) (r' & c' & Ey' & Hc')]].
  - cbn [String.append]. rewrite <- (cfg_app_nil_r b), lstrip_spaces by exact Hb. reflexivity.
  - assert (El : lstrip (t +++ b) = t +++ b) by (rewrite Ey; cbn; rewrite Hc; reflexivity).
    rewrite El, Ey'. apply rstrip_last; assumption.
Qed.
Lemma pieces_split sep s : pieces sep s (split_on sep s).
Proof. split; [apply split_on_nonnil|]. split; [intros x; apply split_on_free|apply join_split_on]. Qed.
Lemma pieces_unique sep s l : pieces sep s l -> l = split_on sep s.
Proof. intros (H1 & H2 & <-). symmetry. apply split_on_join; assumption. Qed.
Lemma comma_list_entry s x : In x (comma_list s) <-> entry s x.
Proof.
  unfold comma_list, entry. rewrite in_map_iff. split.
  - intros (p & <- & Hp). apply filter_In in Hp as [Hp Hn]. exists (split_on "," s), p.
    split; [apply pieces_split|]. split; [exact Hp|]. split; [|apply strip_trims]. intros ->. rewrite eqb_refl in Hn. discriminate.
  - intros (l & p & Hl & Hp & Hn & Ht). exists p. split; [apply trims_strip, Ht|]. apply filter_In.
    rewrite (pieces_unique _ _ _ Hl) in Hp. split; [exact Hp|]. rewrite eqb_neq by exact Hn. reflexivity.
Qed.

(** ** options *)
Lemma opt_says c o : file_ok c -> match opt c o with Some v => says c o v /\ (forall v', says c o v' -> v' = v) | None => silent c o end.
Proof.
  intros (Hnd & [l Hl] & Hopt). unfold opt. rewrite (In_aget "service" l c Hnd Hl).
  pose proof (Hopt _ _ Hl) as Hndl.
  assert (Hu : forall l', In ("service", l') c -> l' = l).
  { intros l' H'. apply (In_aget "service" l' c Hnd) in H'. rewrite (In_aget "service" l c Hnd Hl) in H'. congruence. }
  destruct (aget o l) as [v|] eqn:E.
  - split; [exists l; split; [exact Hl|apply aget_In, E]|]. intros v' (l' & H' & Hv'). rewrite (Hu _ H') in Hv'.
    apply (In_aget o v' l Hndl) in Hv'. congruence.
  - intros v (l' & H' & Hv). rewrite (Hu _ H') in Hv. apply (In_aget o v l Hndl) in Hv. congruence.
Qed.
Lemma opt_iff c o v : file_ok c -> opt c o = Some v <-> says c o v.
Proof.
  intros W. pose proof (opt_says c o W) as H. destruct (opt c o) as [w|].
  - destruct H as [H1 H2]. split; [intros [= <-]; exact H1|intros H; f_equal; symmetry; auto].
  - split; [discriminate|intros Hs; destruct (H _ Hs)].
Qed.
Lemma opt_none c o : file_ok c -> opt c o = None <-> silent c o.
Proof.
  intros W. pose proof (opt_says c o W) as H. destruct (opt c o) as [w|].
  - split; [discriminate|intros Hs; destruct (Hs _ (proj1 H))].
  - split; auto.
Qed.
Lemma opt_said_opt c o : file_ok c -> said_opt c o (opt c o).
Proof. intros W. pose proof (opt_says c o W) as H. destruct (opt c o); [apply H|exact H]. Qed.
Lemma truth_lower s b : truth s b <-> In (lower s) (if b then ["1"; "yes"; "true"; "on"] else ["0"; "no"; "false"; "off"]).
Proof.
  unfold truth. split.
  - intros (t & H & Ht). rewrite (proj2 (lower_caseless s t ltac:(destruct b; cbn [In] in Ht; repeat (destruct Ht as [<-|Ht]; [reflexivity|]); contradiction)) H). exact Ht.
  - intros Ht. exists (lower s). split; [|exact Ht]. apply lower_caseless; [|reflexivity].
    destruct b; cbn [In] in Ht; repeat (destruct Ht as [<-|Ht]; [reflexivity|]); contradiction.
Qed.
Lemma py_bool_spec s : match py_bool s with Ok b => truth s b /\ ~ truth s (negb b) | Err e => e = EValue /\ forall b, ~ truth s b end.
Proof.
  pose proof (truth_lower s) as T. unfold py_bool. destruct (mem (lower s) ["1"; "yes"; "true"; "on"]) eqn:E1.
  - apply mem_In in E1. split; [apply T; exact E1|]. cbn [negb]. intros H2. apply T in H2. cbn [In] in E1, H2.
    destruct E1 as [E|[E|[E|[E|[]]]]]; rewrite <- E in H2; destruct H2 as [H|[H|[H|[H|[]]]]]; discriminate.
  - assert (N1 : ~ In (lower s) ["1"; "yes"; "true"; "on"]) by (intros H; apply mem_In in H; congruence).
    destruct (mem (lower s) ["0"; "no"; "false"; "off"]) eqn:E2.
    + apply mem_In in E2. split; [apply T; exact E2|]. intros H. apply T in H. auto.
    + split; [reflexivity|]. intros [] H; apply T in H; apply mem_In in H; congruence.
Qed.
Lemma get_bool_spec c o d : file_ok c ->
  match get_bool c o d with
  | Ok b => flag c o d b /\ ~ flag c o d (negb b) /\ (forall s, says c o s -> exists b, truth s b)
  | Err e => e = EValue /\ exists s, says c o s /\ forall b, ~ truth s b
  end.
Proof.
  intros W. unfold get_bool, flag. pose proof (opt_says c o W) as H. destruct (opt c o) as [s|].
  - destruct H as [H1 H2]. pose proof (py_bool_spec s) as Hb. destruct (py_bool s) as [b|e].
    + destruct Hb as [Hb Hn]. split; [left; eauto|]. split.
      * intros [(s' & Hs & Ht)|[Hs _]]; [apply H2 in Hs; subst; auto|apply (Hs _ H1)].
      * intros s' Hs. apply H2 in Hs. subst. eauto.
    + destruct Hb as [-> Hb]. eauto.
  - split; [right; auto|]. split.
    + intros [(s & Hs & _)|[_ E]]; [apply (H _ Hs)|destruct d; discriminate].
    + intros s Hs. destruct (H _ Hs).
Qed.

(** ** backends *)
Lemma section_name_spec n :
  match section_name n with
  | Ok (t, name) => section_is n t name /\ (forall t' name', section_is n t' name' -> t' = t /\ name' = name) /\
                    (forall x y z, n <> x +++ ":" +++ y +++ ":" +++ z)
  | Err e => e = EValue /\ exists x y z, n = x +++ ":" +++ y +++ ":" +++ z
  end.
Proof.
  unfold section_name. destruct (split1 ":" n) as [[t m]|] eqn:E.
  - pose proof E as E0. apply split1_Some in E as [-> Ht]. destruct (shas ":" m) eqn:Em.
    + split; [reflexivity|]. destruct (split1 ":" m) as [[y z]|] eqn:Es.
      * apply split1_Some in Es as [-> _]. exists t, y, z. reflexivity.
      * apply split1_None in Es. congruence.
    + split; [right; auto|]. split.
      * intros t' name' [(H & _)|(H & H')]; [rewrite shas_app, shas_cons, Ascii.eqb_refl, orb_true_r in H; discriminate|].
        assert (Es : split1 ":" (t' +++ ":" +++ name') = Some (t', name')).
        { clear -H'. induction t' as [|c t' IH]; [reflexivity|]. rewrite shas_cons in H'. apply orb_false_iff in H' as [Hc H'].
          cbn [String.append split1]. rewrite Ascii.eqb_sym, Hc. cbn [String.append] in IH. rewrite IH by exact H'. reflexivity. }
        rewrite <- H, E0 in Es. injection Es as -> ->. auto.
      * intros x y z H.
        assert (Hg : forall a b, shas ":" a = false -> a +++ String ":" m = b +++ ":" +++ y +++ ":" +++ z -> shas ":" m = true).
        { assert (Hy : shas ":" (y +++ ":" +++ z) = true).
          { rewrite shas_app. change (":" +++ z) with (String ":" z). rewrite shas_cons, Ascii.eqb_refl. apply orb_true_r. }
          clear -Hy. induction a as [|c a IH]; intros [|d b] Ha H.
          - assert (E : m = y +++ ":" +++ z) by (cbn in H |- *; congruence). rewrite E. exact Hy.
          - assert (E : m = b +++ ":" +++ y +++ ":" +++ z) by (cbn in H |- *; congruence). rewrite E, shas_app.
            change (":" +++ y +++ ":" +++ z) with (String ":" (y +++ ":" +++ z)). rewrite shas_cons, Ascii.eqb_refl. apply orb_true_r.
          - assert (E : c = ":"%char) by (cbn in H; congruence). rewrite shas_cons, E, Ascii.eqb_refl in Ha. discriminate.
          - rewrite shas_cons in Ha. apply orb_false_iff in Ha as [_ Ha]. apply (IH b Ha). cbn in H |- *. congruence. }
        rewrite (Hg t x Ht H) in Em. discriminate.
  - apply split1_None in E. split; [left; auto|]. split.
    + intros t' name' [(_ & -> & ->)|(H & _)]; [auto|]. rewrite H, shas_app in E.
      change (":" +++ name') with (String ":" name') in E. rewrite shas_cons, Ascii.eqb_refl, orb_true_r in E. discriminate.
    + intros x y z H. rewrite H, shas_app in E. change (":" +++ y +++ ":" +++ z) with (String ":" (y +++ ":" +++ z)) in E.
      rewrite shas_cons, Ascii.eqb_refl, orb_true_r in E. discriminate.
Qed.

(** the backends of some sections *)
Definition backend_in (c : file) (name kind : string) (l : list (string * string)) : Prop :=
  exists n, In (n, l) c /\ n <> "service" /\ section_is n kind name /\ In kind kinds.
Definition clash_free (c : file) : Prop :=
  forall c1 n1 l1 c2 n2 l2 c3 k1 k2 name, c = c1 ++ (n1, l1) :: c2 ++ (n2, l2) :: c3 -> n1 <> "service" -> n2 <> "service" ->
    section_is n1 k1 name -> In k1 kinds -> section_is n2 k2 name -> False.
Definition colons_ok (c : file) : Prop := forall n l x y z, In (n, l) c -> n <> x +++ ":" +++ y +++ ":" +++ z.

Lemma load_backends_spec : forall rest pre acc,
  NoDup (akeys acc) -> (forall name k l, aget name acc = Some (k, l) <-> backend_in pre name k l) ->
  clash_free pre -> colons_ok pre ->
  match load_backends rest acc with
  | Ok r => NoDup (akeys r) /\ (forall name k l, aget name r = Some (k, l) <-> backend_in (pre ++ rest) name k l) /\
            clash_free (pre ++ rest) /\ colons_ok (pre ++ rest)
  | Err e => (e = EConfiguration /\ clash (pre ++ rest)) \/ (e = EValue /\ ~ colons_ok (pre ++ rest))
  end.
Proof.
  induction rest as [|[n l] rest IH]; intros pre acc Hnd Hacc Hcf Hco; cbn [load_backends].
  { rewrite app_nil_r. auto. }
  replace (pre ++ (n, l) :: rest) with ((pre ++ [(n, l)]) ++ rest) by (rewrite <- app_assoc; reflexivity).
  (* a pair within the longer prefix is within the prefix, or ends with the new section *)
  assert (Hsnoc : forall c1 n1 l1 c2 n2 l2 c3, pre ++ [(n, l)] = c1 ++ (n1, l1) :: c2 ++ (n2, l2) :: c3 ->
            (exists c3', pre = c1 ++ (n1, l1) :: c2 ++ (n2, l2) :: c3') \/ (n2 = n /\ l2 = l /\ In (n1, l1) pre)).
  { intros c1 n1 l1 c2 n2 l2 c3 E. destruct c3 as [|x c3] using rev_ind.
    - right. replace (c1 ++ (n1, l1) :: c2 ++ [(n2, l2)]) with ((c1 ++ (n1, l1) :: c2) ++ [(n2, l2)]) in E
        by (rewrite <- app_assoc; reflexivity).
      apply app_inj_tail in E as [-> E]. injection E as <- <-. split; [reflexivity|]. split; [reflexivity|].
      apply in_or_app. right. left. reflexivity.
    - left. exists c3. replace (c1 ++ (n1, l1) :: c2 ++ (n2, l2) :: c3 ++ [x]) with ((c1 ++ (n1, l1) :: c2 ++ (n2, l2) :: c3) ++ [x]) in E
        by (rewrite <- app_assoc; cbn; rewrite <- app_assoc; reflexivity).
      apply app_inj_tail in E as [-> _]. reflexivity. }
  destruct (eqb_ok n "service") as [->|Ns].
  - apply IH; [exact Hnd| | |].
    + intros name k l'. rewrite Hacc. unfold backend_in. split.
      * intros (m & Hm & H). exists m. split; [apply in_or_app; auto|exact H].
      * intros (m & Hm & H). apply in_app_or in Hm as [Hm|[[= <- <-]|[]]]; [exists m; auto|]. destruct H as [H _]. congruence.
    + intros c1 n1 l1 c2 n2 l2 c3 k1 k2 name E N1 N2 S1 K1 S2.
      destruct (Hsnoc _ _ _ _ _ _ _ E) as [[c3' E']|(-> & _ & _)]; [eapply Hcf; eauto|congruence].
    + intros m l' x y z H. apply in_app_or in H as [H|[[= <- <-]|[]]]; [eapply Hco, H|].
      intros Hx. assert (Hs : shas ":" "service" = true); [|discriminate].
      rewrite Hx, shas_app. change (":" +++ y +++ ":" +++ z) with (String ":" (y +++ ":" +++ z)). rewrite shas_cons, Ascii.eqb_refl. apply orb_true_r.
  - pose proof (section_name_spec n) as Hn. destruct (section_name n) as [[t name]|e]; cbn [Base.bind].
    + destruct Hn as (Hn & Hu & Hc).
      unfold ahas. destruct (aget name acc) as [[k0 l0]|] eqn:Ea.
      * left. split; [reflexivity|]. apply Hacc in Ea as (m & Hm & Nm & Sm & Km).
        apply in_split in Hm as (c1 & c2 & ->). exists c1, m, l0, c2, n, l, rest, k0, t, name.
        split; [rewrite <- !app_assoc; reflexivity|auto].
      * assert (Hcf' : clash_free (pre ++ [(n, l)])).
        { intros c1 n1 l1 c2 n2 l2 c3 k1 k2 nm E N1 N2 S1 K1 S2.
          destruct (Hsnoc _ _ _ _ _ _ _ E) as [[c3' E']|(-> & _ & Hin)]; [eapply Hcf; eauto|].
          destruct (Hu _ _ S2) as [_ ->].
          assert (Hg : aget name acc = Some (k1, l1)) by (apply Hacc; exists n1; auto). congruence. }
        assert (Hco' : colons_ok (pre ++ [(n, l)])).
        { intros m l' x y z H. apply in_app_or in H as [H|[[= <- <-]|[]]]; [eapply Hco, H|apply Hc]. }
        change BACKENDS with kinds. destruct (mem t kinds) eqn:Ek.
        -- apply mem_In in Ek. apply IH; [apply NoDup_akeys_aset, Hnd| |exact Hcf'|exact Hco'].
           intros nm k l'. destruct (eqb_ok nm name) as [->|Nn].
           ++ rewrite aget_aset_eq. split.
              ** intros [= <- <-]. exists n. split; [apply in_or_app; right; left; reflexivity|auto].
              ** intros (m & Hm & Nm & Sm & Km). apply in_app_or in Hm as [Hm|[[= <- <-]|[]]].
                 --- assert (Hg : aget name acc = Some (k, l')) by (apply Hacc; exists m; auto). congruence.
                 --- destruct (Hu _ _ Sm) as [-> _]. reflexivity.
           ++ rewrite aget_aset_ne by exact Nn. rewrite Hacc. split.
              ** intros (m & Hm & H). exists m. split; [apply in_or_app; auto|exact H].
              ** intros (m & Hm & Nm & Sm & Km). apply in_app_or in Hm as [Hm|[[= <- <-]|[]]]; [exists m; auto|].
                 destruct (Hu _ _ Sm) as [_ E]. congruence.
        -- apply IH; [exact Hnd| |exact Hcf'|exact Hco'].
           intros nm k l'. rewrite Hacc. split.
           ++ intros (m & Hm & H). exists m. split; [apply in_or_app; auto|exact H].
           ++ intros (m & Hm & Nm & Sm & Km). apply in_app_or in Hm as [Hm|[[= <- <-]|[]]]; [exists m; auto|].
              destruct (Hu _ _ Sm) as [-> _]. apply mem_In in Km. congruence.
    + destruct Hn as (-> & x & y & z & Hx). right. split; [reflexivity|]. intros H.
      apply (H n l x y z); [|exact Hx]. apply in_or_app. left. apply in_or_app. right. left. reflexivity.
Qed.
Lemma load_backends_all c :
  match load_backends c [] with
  | Ok r => NoDup (akeys r) /\ (forall name k l, aget name r = Some (k, l) <-> backend_in c name k l) /\ clash_free c /\ colons_ok c
  | Err e => (e = EConfiguration /\ clash c) \/ (e = EValue /\ ~ colons_ok c)
  end.
Proof.
  apply (load_backends_spec c [] []); [constructor| | |].
  - intros. split; [discriminate|intros (n & [] & _)].
  - intros c1 n1 l1 c2 n2 l2 c3 k1 k2 name E. destruct c1; discriminate.
  - intros n l x y z [].
Qed.
Lemma clash_free_not c : clash_free c -> ~ clash c.
Proof. intros H (c1 & n1 & l1 & c2 & n2 & l2 & c3 & k1 & k2 & name & E & N1 & N2 & S1 & K1 & S2). eapply H; eauto. Qed.

(** ** the whole file *)
Lemma silent_says c o v : silent c o -> says c o v -> False.
Proof. intros H H'. exact (H v H'). Qed.
Lemma opt_said c o d : file_ok c -> said c o d (match opt c o with Some s => s | None => d end).
Proof. intros W. pose proof (opt_says c o W) as H. destruct (opt c o); [left; apply H|right; auto]. Qed.
Lemma policy_check l : forallb (fun p => mem p POLICIES) l = true <-> forall p, In p l -> In p policies.
Proof. rewrite forallb_forall. split; intros H p Hp; apply mem_In, H, Hp. Qed.
Lemma given_true o : given o = true <-> exists v, o = Some v /\ v <> "".
Proof. destruct o as [[|c s]|]; cbn; split; try discriminate; try (intros (v & [= <-] & H); congruence); eauto. intros _. exists (String c s). split; [reflexivity|discriminate]. Qed.
Lemma load_tls_spec ex c tls : file_ok c ->
  match load_tls ex c tls (opt c "key") (opt c "certificate") with
  | Ok h => h = (if tls then option_map comma_list (opt c "allowedhosts") else None) /\
            (tls = true -> forall o, In o ["key"; "certificate"] -> exists v, says c o v /\ v <> "" /\ ex v = true)
  | Err e => e = EConfiguration /\ tls = true /\
             ~ (forall o, In o ["key"; "certificate"] -> exists v, says c o v /\ v <> "" /\ ex v = true)
  end.
Proof.
  intros W. unfold load_tls. destruct tls; cbn [negb]; [|split; [reflexivity|discriminate]].
  assert (Hone : forall o, (given (opt c o) = true /\ match opt c o with Some k => ex k | None => false end = true) <->
                           exists v, says c o v /\ v <> "" /\ ex v = true).
  { intros o. rewrite given_true. split.
    - intros [(v & E & Hv) Hx]. rewrite E in Hx. exists v. split; [apply opt_iff; assumption|auto].
    - intros (v & Hs & Hv & Hx). apply opt_iff in Hs; [|exact W]. rewrite Hs. eauto. }
  pose proof (Hone "key") as Hk. pose proof (Hone "certificate") as Hc.
  unfold require.
  destruct (given (opt c "key")) eqn:G1; cbn [Base.bind];
    [|split; [reflexivity|]; split; [reflexivity|]; intros H; destruct (proj2 Hk (H "key" (or_introl eq_refl))); discriminate].
  destruct (match opt c "key" with Some k => ex k | None => false end) eqn:X1; cbn [Base.bind];
    [|split; [reflexivity|]; split; [reflexivity|]; intros H; destruct (proj2 Hk (H "key" (or_introl eq_refl))); discriminate].
  destruct (given (opt c "certificate")) eqn:G2; cbn [Base.bind];
    [|split; [reflexivity|]; split; [reflexivity|]; intros H; destruct (proj2 Hc (H "certificate" (or_intror (or_introl eq_refl)))); discriminate].
  destruct (match opt c "certificate" with Some k => ex k | None => false end) eqn:X2; cbn [Base.bind];
    [|split; [reflexivity|]; split; [reflexivity|]; intros H; destruct (proj2 Hc (H "certificate" (or_intror (or_introl eq_refl)))); discriminate].
  split; [reflexivity|]. intros _ o [<-|[<-|[]]]; [apply Hk|apply Hc]; auto.
Qed.
Lemma flag_unique c o d b : file_ok c -> flag c o d b -> ~ flag c o d (negb b) -> forall b', flag c o d b' -> b' = b.
Proof. intros _ _ Hn b' Hb'. destruct b, b'; auto; destruct (Hn Hb'). Qed.
Lemma Forall2_strip ps : Forall2 trims ps (map strip ps).
Proof. induction ps; cbn; constructor; auto. apply strip_trims. Qed.

Lemma load_spec ex c : file_ok c ->
  match load_config ex c with
  | Ok v => acceptable ex c /\ readable c /\ contents c v
  | Err e => (e = EConfiguration /\ ~ acceptable ex c) \/ (e = EValue /\ ~ readable c)
  end.
Proof.
  intros W. unfold load_config, mandatory.
  pose proof (opt_says c "nrmmap" W) as Hnrm. destruct (opt c "nrmmap"); cbn [require Base.bind].
  { left. split; [reflexivity|]. intros (_ & H & _). exact (H _ (proj1 Hnrm)). }
  pose proof (opt_says c "domain" W) as Hdom. destruct (opt c "domain") as [dom|]; cbn [Base.bind].
  2:{ left. split; [reflexivity|]. intros (H & _). destruct (H "domain") as [v Hv]; [left; reflexivity|]. exact (Hdom v Hv). }
  pose proof (opt_says c "network" W) as Hnet. destruct (opt c "network"); cbn [require Base.bind].
  { left. split; [reflexivity|]. intros (_ & _ & H & _). exact (H _ (proj1 Hnet)). }
  pose proof (get_bool_spec c "rest" false W) as Hrest. destruct (get_bool c "rest" false) as [rest|e]; cbn [Base.bind].
  2:{ right. destruct Hrest as (-> & s & Hs & Ht). split; [reflexivity|]. intros (H & _).
      destruct (H "rest" s) as [b Hb]; [left; reflexivity|exact Hs|]. exact (Ht b Hb). }
  pose proof (get_bool_spec c "tls" true W) as Htls. destruct (get_bool c "tls" true) as [tls|e]; cbn [Base.bind].
  2:{ right. destruct Htls as (-> & s & Hs & Ht). split; [reflexivity|]. intros (H & _).
      destruct (H "tls" s) as [b Hb]; [right; left; reflexivity|exact Hs|]. exact (Ht b Hb). }
  unfold get_int. pose proof (opt_says c "port" W) as Hport.
  assert (HP : match (match opt c "port" with
                      | Some s => match py_int s with Some n => Ok n | None => Err EValue end
                      | None => Ok (if tls then 9443 else 9080) end) with
               | Ok p => ((exists s, says c "port" s /\ py_int s = Some p) \/ (silent c "port" /\ p = if tls then 9443 else 9080)) /\
                         (forall s, says c "port" s -> py_int s <> None)
               | Err e => e = EValue /\ ~ readable c end).
  { destruct (opt c "port") as [s|].
    - destruct Hport as [Hp Hu]. destruct (py_int s) as [n|] eqn:En.
      + split; [left; eauto|]. intros s' Hs'. rewrite (Hu _ Hs'). congruence.
      + split; [reflexivity|]. intros (_ & H & _). exact (H s Hp En).
    - split; [right; auto|]. intros s Hs. destruct (Hport s Hs). }
  destruct (match opt c "port" with
            | Some s => match py_int s with Some n => Ok n | None => Err EValue end
            | None => Ok (if tls then 9443 else 9080) end) as [port|e]; cbn [Base.bind]; [|right; exact HP].
  clear Hport.
  assert (HPol : match (match opt c "policy" with
                        | None => Ok []
                        | Some s => do! _ <- require (forallb (fun p => mem p POLICIES) (split_on "," s)); Ok (split_on "," s)
                        end) with
                 | Ok l => ((exists s, says c "policy" s /\ pieces "," s l) \/ (silent c "policy" /\ l = [])) /\
                           (forall s l p, says c "policy" s -> pieces "," s l -> In p l -> In p policies)
                 | Err e => e = EConfiguration /\ ~ acceptable ex c end).
  { pose proof (opt_says c "policy" W) as Hp. destruct (opt c "policy") as [s|].
    - destruct Hp as [Hs Hu]. destruct (forallb (fun p => mem p POLICIES) (split_on "," s)) eqn:Ef; cbn [require Base.bind].
      + split; [left; exists s; split; [exact Hs|apply pieces_split]|]. intros s' l p Hs' Hl Hi.
        rewrite (Hu _ Hs') in Hl. rewrite (pieces_unique _ _ _ Hl) in Hi. exact (proj1 (policy_check _) Ef p Hi).
      + split; [reflexivity|]. intros (_ & _ & _ & H & _).
        assert (Et : forallb (fun p => mem p POLICIES) (split_on "," s) = true); [|congruence].
        apply policy_check. intros p Hi. exact (H s _ p Hs (pieces_split "," s) Hi).
    - split; [right; auto|]. intros s l p Hs. destruct (Hp s Hs). }
  destruct (match opt c "policy" with
            | None => Ok []
            | Some s => do! _ <- require (forallb (fun p => mem p POLICIES) (split_on "," s)); Ok (split_on "," s)
            end) as [policy|e]; cbn [Base.bind]; [|left; exact HPol].
  pose proof (opt_says c "database" W) as Hdb. destruct (opt c "database") as [db|]; cbn [Base.bind].
  2:{ left. split; [reflexivity|]. intros (H & _). destruct (H "database") as [v Hv]; [right; left; reflexivity|]. exact (Hdb v Hv). }
  pose proof (opt_says c "dbuser" W) as Hdu. destruct (opt c "dbuser") as [dbuser|]; cbn [Base.bind].
  2:{ left. split; [reflexivity|]. intros (H & _). destruct (H "dbuser") as [v Hv]; [right; right; left; reflexivity|]. exact (Hdu v Hv). }
  assert (HCd : match (match opt c "certdir" with
                       | None => Ok "/etc/ssl/certs"
                       | Some d => do! _ <- require (ex d); Ok d end) with
                | Ok d => said c "certdir" "/etc/ssl/certs" d /\ (forall d, says c "certdir" d -> ex d = true)
                | Err e => e = EConfiguration /\ ~ acceptable ex c end).
  { pose proof (opt_says c "certdir" W) as Hp. destruct (opt c "certdir") as [d|].
    - destruct Hp as [Hs Hu]. destruct (ex d) eqn:Ed; cbn [require Base.bind].
      + split; [left; exact Hs|]. intros d' Hd'. rewrite (Hu _ Hd'). exact Ed.
      + split; [reflexivity|]. intros (_ & _ & _ & _ & H & _). rewrite (H d Hs) in Ed. discriminate.
    - split; [right; auto|]. intros d Hd. destruct (Hp d Hd). }
  destruct (match opt c "certdir" with
            | None => Ok "/etc/ssl/certs"
            | Some d => do! _ <- require (ex d); Ok d end) as [certdir|e]; cbn [Base.bind]; [|left; exact HCd].
  pose proof (get_bool_spec c "verify" true W) as Hver. destruct (get_bool c "verify" true) as [verify|e]; cbn [Base.bind].
  2:{ right. destruct Hver as (-> & s & Hs & Ht). split; [reflexivity|]. intros (H & _).
      destruct (H "verify" s) as [b Hb]; [right; right; left; reflexivity|exact Hs|]. exact (Ht b Hb). }
  pose proof (load_tls_spec ex c tls W) as Ht.
  destruct (load_tls ex c tls (opt c "key") (opt c "certificate")) as [hosts|e]; cbn [Base.bind].
  2:{ left. destruct Ht as (-> & -> & Ht). split; [reflexivity|]. intros (_ & _ & _ & _ & _ & H & _). apply Ht, H, Htls. }
  pose proof (load_backends_all c) as Hb. destruct (load_backends c []) as [bs|e]; cbn [Base.bind].
  2:{ destruct Hb as [[-> Hb]|[-> Hb]]; [left|right]; split; auto.
      - intros (_ & _ & _ & _ & _ & _ & H). exact (H Hb).
      - intros (_ & _ & H). exact (Hb H). }
  destruct Hb as (Bnd & Bin & Bcf & Bco). destruct Ht as [-> Ht].
  split; [|split].
  - split; [|split; [exact Hnrm|split; [exact Hnet|split; [apply HPol|split; [apply HCd|split; [|apply clash_free_not, Bcf]]]]]].
    + intros o [<-|[<-|[<-|[]]]]; eexists; [apply Hdom|apply Hdb|apply Hdu].
    + intros Hf. apply Ht. symmetry. eapply flag_unique; [exact W|apply Htls|apply Htls|exact Hf].
  - split; [|split; [apply HP|exact Bco]].
    intros o s [<-|[<-|[<-|[]]]]; [apply Hrest|apply Htls|apply Hver].
  - constructor; cbn; try (apply opt_said_opt, W); try (apply opt_said, W).
    + apply Hdom.
    + apply Hrest.
    + pose proof (opt_says c "peers" W) as Hp. destruct (opt c "peers") as [s|]; [|exact Hp].
      exists s, (split_on LF s). split; [apply Hp|]. split; [apply pieces_split|apply Forall2_strip].
    + apply Htls.
    + apply HP.
    + apply HPol.
    + apply Hdb.
    + apply Hdu.
    + apply HCd.
    + apply Hver.
    + destruct tls; [|auto]. pose proof (opt_says c "allowedhosts" W) as Hp. destruct (opt c "allowedhosts") as [s|]; cbn; [|auto].
      split; [reflexivity|]. exists s. split; [apply Hp|]. intros x. apply comma_list_entry.
    + intros x. pose proof (opt_says c "allowed_admins" W) as Hp. destruct (opt c "allowed_admins") as [s|].
      * rewrite comma_list_entry. split; [intros H; exists s; split; [apply Hp|exact H]|].
        intros (s' & Hs' & H). rewrite (proj2 Hp _ Hs') in H. exact H.
      * split; [intros []|]. intros (s & Hs & _). destruct (Hp s Hs).
    + split; [exact Bnd|]. intros name k l. rewrite <- (Bin name k l). split; [apply In_aget, Bnd|apply aget_In].
Qed.

Lemma c71_accepted ex c : file_ok c -> (exists v, load_config ex c = Ok v) <-> acceptable ex c /\ readable c.
Proof.
  intros W. pose proof (load_spec ex c W) as H. destruct (load_config ex c) as [v|e].
  - split; [intros _; split; apply H|eauto].
  - split; [intros [v [=]]|]. intros [Ha Hr]. destruct H as [[_ H]|[_ H]]; contradiction.
Qed.
Lemma c71_refused ex c e : file_ok c -> load_config ex c = Err e ->
  (e = EConfiguration /\ ~ acceptable ex c) \/ (e = EValue /\ ~ readable c).
Proof. intros W E. pose proof (load_spec ex c W) as H. rewrite E in H. exact H. Qed.
Lemma c71_contents ex c v : file_ok c -> load_config ex c = Ok v -> contents c v.
Proof. intros W E. pose proof (load_spec ex c W) as H. rewrite E in H. apply H. Qed.
(** reading any files in turn, starting with nothing read *)
Lemma read_all_first ex c0 v0 : load_config ex c0 = Ok v0 -> forall files s, sg_cfg s = Some c0 -> (sg_vc s = None \/ sg_vc s = Some v0) ->
  forall s' r, read_all ex s files = (s', r) -> Forall (fun x => x = Ok v0) r /\ (files <> [] -> sg_vc s' = Some v0).
Proof.
  intros E0. induction files as [|f files IH]; intros s Hc Hv s' r E; cbn [read_all] in E.
  - injection E as <- <-. split; [constructor|congruence].
  - destruct (read_config ex s f) as [s1 r1] eqn:E1. destruct (read_all ex s1 files) as [s2 r2] eqn:E2. injection E as <- <-.
    assert (H1 : s1 = mkSing (Some c0) (Some v0) /\ r1 = Ok v0).
    { unfold read_config in E1. rewrite Hc in E1. destruct Hv as [Hv|Hv]; rewrite Hv in E1; [rewrite E0 in E1|]; injection E1 as <- <-; auto. }
    destruct H1 as [-> ->]. destruct (IH (mkSing (Some c0) (Some v0)) eq_refl (or_intror eq_refl) _ _ E2) as [Ha Hb].
    split; [constructor; auto|]. intros _. destruct files as [|g files]; [injection E2 as <- _; reflexivity|apply Hb; discriminate].
Qed.
Lemma read_all_bad ex c0 e0 : load_config ex c0 = Err e0 -> forall files s, sg_cfg s = Some c0 -> sg_vc s = None ->
  forall s' r, read_all ex s files = (s', r) -> Forall (fun x => x = Err e0) r /\ sg_vc s' = None.
Proof.
  intros E0. induction files as [|f files IH]; intros s Hc Hv s' r E; cbn [read_all] in E.
  - injection E as <- <-. auto.
  - destruct (read_config ex s f) as [s1 r1] eqn:E1. destruct (read_all ex s1 files) as [s2 r2] eqn:E2. injection E as <- <-.
    assert (H1 : s1 = mkSing (Some c0) None /\ r1 = Err e0).
    { unfold read_config in E1. rewrite Hc, Hv, E0 in E1. injection E1 as <- <-. auto. }
    destruct H1 as [-> ->]. destruct (IH (mkSing (Some c0) None) eq_refl eq_refl _ _ E2) as [Ha Hb]. auto.
Qed.
Lemma c71_once ex f files s r : read_all ex (mkSing None None) (f :: files) = (s, r) ->
  Forall (fun x => x = load_config ex f) r /\ List.length r = S (List.length files) /\
  sg_vc s = match load_config ex f with Ok v => Some v | Err _ => None end.
Proof.
  intros E. assert (Hl : forall fs s0 s1 r1, read_all ex s0 fs = (s1, r1) -> List.length r1 = List.length fs).
  { induction fs as [|g fs IH]; intros s0 s1 r1 H; cbn [read_all] in H; [injection H as _ <-; reflexivity|].
    destruct (read_config ex s0 g) as [a b]. destruct (read_all ex a fs) as [a' b'] eqn:E'. injection H as _ <-. cbn. f_equal. eauto. }
  pose proof (Hl _ _ _ _ E) as Hlen. cbn [read_all] in E.
  destruct (read_config ex (mkSing None None) f) as [s1 r1] eqn:E1. destruct (read_all ex s1 files) as [s2 r2] eqn:E2. injection E as <- <-.
  unfold read_config in E1. cbn [sg_cfg sg_vc] in E1. destruct (load_config ex f) as [v|e] eqn:E0; injection E1 as <- <-.
  - destruct (read_all_first ex f v E0 files (mkSing (Some f) (Some v)) eq_refl (or_intror eq_refl) _ _ E2) as [Ha Hb].
    split; [constructor; auto|]. split; [exact Hlen|]. destruct files; [injection E2 as <- _; reflexivity|apply Hb; discriminate].
  - destruct (read_all_bad ex f e E0 files (mkSing (Some f) None) eq_refl eq_refl _ _ E2) as [Ha Hb].
    split; [constructor; auto|]. split; [exact Hlen|exact Hb].
Qed.
Lemma c71_admin ex f files s r urn : file_ok f -> read_all ex (mkSing None None) (f :: files) = (s, r) ->
  is_admin_override s urn = true <-> (exists v, load_config ex f = Ok v) /\ exists t, says f "allowed_admins" t /\ entry t urn.
Proof.
  intros W E. destruct (c71_once _ _ _ _ _ E) as (_ & _ & Hs). unfold is_admin_override. rewrite Hs.
  destruct (load_config ex f) as [v|e] eqn:E0.
  - rewrite existsb_exists. rewrite <- (ct_admins _ _ (c71_contents _ _ _ W E0) urn). split.
    + intros (x & Hx & Ex). apply (proj1 (eqb_true x urn)) in Ex. rewrite Ex in Hx. split; [eauto|exact Hx].
    + intros [_ H]. exists urn. split; [exact H|apply eqb_refl].
  - split; [discriminate|intros [[v [=]] _]].
Qed.
