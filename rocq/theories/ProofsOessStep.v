(** Proofs for C83: every step keeps links and circuits together. *)
From Verif Require Import Base BaseProofs ModelLabel ModelRest ModelDrivers SpecDrivers ModelOess SpecOess ProofsDrivers ProofsOess ProofsOessInv.
Open Scope Z_scope.

Section Steps.
  Context (order : bool) (pm : list (string * string)) (group : string) (g : Z) (may : link -> Prop) (ct0 : controller).
  Context (Hmay : forall k, may k -> (exists a b, ends pm k a b) /\ (order = true \/ two_nodes pm k)).
  Context (Hstart : ready_start pm group g may ct0).
  Notation inv := (inv order pm g may ct0).
  Notation inv_place := (inv_place order pm g ct0).
  Notation setting_up := (setting_up order g ct0).
  Notation one := (one pm g).
  Notation none := (none pm g).

  Lemma settle_su k a b known t : setting_up a b known t -> ends pm k a b -> forall ct wg wg' p, none ct k -> (known = true -> wg = JInt g) -> settle wg t = (wg', p) ->
    (wg = JInt g -> wg' = JInt g) /\
    match p with
    | Waiting q go => inv_place ct wg' k (GoesUp (CWait q go))
    | Ended (Err e) => inv_place ct wg' k (GoesUp (CGo (TEnd (Err e))))
    | Ended (Ok _) => False
    end.
  Proof.
    intros S. induction S as [known e|known t S IH|known q go Hh Hn IH|prim back go Np Nb Hg]; intros E ct wg wg' p N K H; cbn [settle] in H.
    - injection H as <- <-. split; [auto|]. left. split; [exact N|]. exists a, b, known. split; [exact E|]. split; [exact K|]. constructor.
    - destruct (IH E ct (JInt g) wg' p N (fun _ => eq_refl) H) as (W & P). split; [intros _; exact (W eq_refl)|exact P].
    - injection H as <- <-. split; [auto|]. cbn [ProofsOessInv.inv_place]. split; [exact N|]. exists a, b. split; [exact E|]. left. split; [exact Hh|].
      exists known. split; [exact K|exact Hn].
    - pose proof (K eq_refl) as W. rewrite W in *. destruct (q_provision_ok (JInt g) (fst (fst a)) (snd (fst a)) (snd a) (fst (fst b)) (snd (fst b)) (snd b) prim back Np Nb) as (q & Hq).
      unfold prov_query in H. rewrite Hq in H. injection H as <- <-. split; [auto|]. cbn [ProofsOessInv.inv_place]. split; [exact N|].
      exists a, b. split; [exact E|]. right. split; [reflexivity|]. exists prim, back. repeat (split; [assumption|]). exact Hg.
  Qed.

  (** The values of a provisioning query. *)
  Lemma fields_links l key : key <> "link" -> key <> "backup_link" -> (forall kv : string * string, In kv l -> fst kv = "link" \/ fst kv = "backup_link") ->
    filter (fun kv => eqb (fst kv) key) l = [].
  Proof.
    intros N1 N2 H. induction l as [|kv l IH]; [reflexivity|]. cbn [filter].
    rewrite eqb_neq; [apply IH; intros x Hx; apply H; right; exact Hx|]. destruct (H kv (or_introl eq_refl)) as [->| ->]; congruence.
  Qed.
  Lemma prov_values k a b prim back q : ends pm k a b -> names_ok prim -> names_ok back -> prov_query a b prim back (JInt g) = Ok q ->
    action q "provision_circuit" /\ values "workgroup_id" q = [py_str g] /\ values "node" q = [fst (fst a); fst (fst b)] /\
    values "interface" q = [snd (fst a); snd (fst b)] /\ values "tag" q = [snd a; snd b].
  Proof.
    intros (Ha & Hb) Np Nb Hq. destruct (end_plain _ _ _ _ Ha) as (A1 & A2 & A3 & _), (end_plain _ _ _ _ Hb) as (B1 & B2 & B3 & _).
    destruct (fields_provision _ _ _ _ _ _ _ _ _ _ Hq Np Nb) as (l & l' & Hl & F).
    { intros x [<-|[<-|[<-|[<-|[<-|[<-|[]]]]]]]; [apply A1|apply A2|exact A3|apply B1|apply B2|exact B3]. }
    assert (V : forall key, key <> "link" -> key <> "backup_link" -> forall h t,
      filter (fun kv : string * string => eqb (fst kv) key) (h ++ l ++ l' ++ t) = filter (fun kv => eqb (fst kv) key) (h ++ t)).
    { intros key N1 N2 h t. rewrite (app_assoc l l'). rewrite (filter_app _ h), (filter_app _ (l ++ l')), (fields_links (l ++ l') key N1 N2 Hl). cbn [app].
      symmetry. apply filter_app. }
    unfold action, values. rewrite F. rewrite !V by discriminate.
    split; [eexists; reflexivity|]. repeat (split; [reflexivity|]). reflexivity.
  Qed.
  Lemma rem_values id : action (q_remove (JInt g) (py_str id)) "remove_circuit" /\ values "circuit_id" (q_remove (JInt g) (py_str id)) = [py_str id].
  Proof. unfold action, values. rewrite fields_remove. split; [eexists; reflexivity|reflexivity]. Qed.

  Lemma answer_up ct ct' wg l1 k q go l2 x : inv (mkOess ct wg (l1 ++ (k, GoesUp (CWait q go)) :: l2)) ->
    answers order frank ct q x ct' -> inv (mkOess ct' wg (l1 ++ (k, GoesUp (CGo (go x))) :: l2)).
  Proof.
    intros I H. pose proof (i_place _ _ _ _ _ _ I k (GoesUp (CWait q go))) as P. cbn [os_links os_ctl os_wg] in P.
    specialize (P (in_elt _ l1 l2)). cbn [ProofsOessInv.inv_place] in P. destruct P as (N & a & b & E & [(Hh & known & Hw & Hs)|(Hw & prim & back & Np & Nb & Hq & Hg)]).
    - pose proof (harmless_ct _ _ _ _ _ _ Hh H). subst ct'. apply (upd_same order pm g may ct0 ct wg l1 k _ l2 wg _ I); [auto|].
      left. split; [exact N|]. exists a, b, known. split; [exact E|]. split; [exact Hw|]. apply (Hs ct x ct); [exact (i_groups _ _ _ _ _ _ I)|exact H].
    - destruct (prov_values k a b prim back q E Np Nb Hq) as (A0 & V1 & V2 & V3 & V4).
      assert (Fail : forall e, x = Err e -> inv (mkOess ct wg (l1 ++ (k, GoesUp (CGo (go x))) :: l2))).
      { intros e ->. apply (upd_same order pm g may ct0 ct wg l1 k _ l2 wg _ I); [auto|]. left. split; [exact N|]. exists a, b, true.
        split; [exact E|]. split; [auto|]. destruct (proj1 Hg e) as (e' & ->). constructor. }
      destruct H as [js A R F|gg js A V R F|js A R F|y A Y|gg n0 i0 t0 n1 i1 t1 id j r A W G N1 N2 N3 Hid Hfr Hx Hj Hs Hc|id r A|y A Y F|e Hx];
        try (pose proof (action_unique _ _ _ A0 A); discriminate).
      + pose proof (action_unique _ _ _ A0 A). subst y. destruct Y; discriminate.
      + rewrite V1 in W. injection W as W. apply py_str_inj in W. subst gg. rewrite V2 in N1. rewrite V3 in N2. rewrite V4 in N3.
        injection N1 as <- <-. injection N2 as <- <-. injection N3 as <- <-.
        set (c := mkCircuit id g (fst (fst a), snd (fst a), snd a) (fst (fst b), snd (fst b), snd b)).
        assert (O : circuit_of pm g k c). { split; [reflexivity|]. unfold c. cbn [ci_a ci_b]. destruct a as [[? ?] ?], b as [[? ?] ?]. exact E. }
        pose proof I as [Ig Ii Ip Is Ia Im Io Ipl]. cbn [os_ctl os_wg os_links] in *.
        apply (upd order pm g may ct0 ct wg l1 k _ l2 _ wg _ I); cbn [ct_groups ct_circuits]; auto.
        * rewrite map_app. cbn [map ci_id]. apply NoDup_rev in Ii. rewrite <- (rev_involutive (map ci_id (ct_circuits ct) ++ [ci_id c])).
          apply NoDup_rev. rewrite rev_app_distr. cbn [rev app]. constructor; [|exact Ii]. rewrite <- in_rev. exact Hfr.
        * intros c' Hc'. apply in_app_or in Hc'. destruct Hc' as [Hc'|[<-|[]]]; [exact (Ip c' Hc')|exact Hid].
        * intros c' Hc'. apply in_or_app. left. exact (Is c' Hc').
        * intros c' Hc'. apply in_app_or in Hc'. destruct Hc' as [Hc'|[<-|[]]]; [left; exact Hc'|right; exact O].
        * intros k' S. exact (frame_add pm g ct k' k c S O).
        * right. split; [exact Hw|]. split; [|rewrite Hx; exact (proj2 Hg j r id Hj Hs Hc)].
          exists id, c. cbn [ct_circuits]. split; [apply in_or_app; right; left; reflexivity|]. split; [exact O|]. split; [reflexivity|].
          intros c' Hc' G' J. apply in_app_or in Hc'. destruct Hc' as [Hc'|[<-|[]]]; [|reflexivity]. exfalso. exact (N c' Hc' G' J).
      + destruct F as (e & He). exact (Fail e He).
      + exact (Fail e Hx).
  Qed.

  Lemma answer_down ct ct' wg l1 k q go l2 x : inv (mkOess ct wg (l1 ++ (k, GoesDown (CWait q go)) :: l2)) ->
    answers order frank ct q x ct' -> inv (mkOess ct' wg (l1 ++ (k, GoesDown (CGo (go x))) :: l2)).
  Proof.
    intros I H. pose proof (i_place _ _ _ _ _ _ I k (GoesDown (CWait q go))) as P. cbn [os_links os_ctl os_wg] in P.
    specialize (P (in_elt _ l1 l2)). cbn [ProofsOessInv.inv_place] in P. destruct P as (Hw & id & O & [(Hq & Hl)|(Hq & Hg)]); subst q.
    - assert (Hh : harmless (q_circuits (JInt g))).
      { exists "get_existing_circuits". split; [unfold action, values; rewrite fields_circuits; eexists; reflexivity|split; discriminate]. }
      pose proof (harmless_ct _ _ _ _ _ _ Hh H). subst ct'.
      assert (Hk : may k) by (apply (i_may _ _ _ _ _ _ I k (GoesDown (CWait (q_circuits (JInt g)) go))); apply in_elt).
      assert (Hpos : 0 < id). { destruct O as (c & Hc & _ & <- & _). exact (i_pos _ _ _ _ _ _ I c Hc). }
      apply (upd_same order pm g may ct0 ct wg l1 k _ l2 wg _ I); [auto|]. split; [exact Hw|].
      destruct (list_answer order pm g may Hmay ct k id go x ct Hk O Hpos Hl H) as [(e & Ee)|(go' & Ego & Hr)].
      + left. split; [exists id; exact O|exists e; exact Ee].
      + right. left. exists id, go'. split; [exact O|]. split; assumption.
    - destruct (rem_values id) as (A0 & V0).
      assert (Fail : forall e, x = Err e -> inv (mkOess ct wg (l1 ++ (k, GoesDown (CGo (go x))) :: l2))).
      { intros e ->. apply (upd_same order pm g may ct0 ct wg l1 k _ l2 wg _ I); [auto|]. split; [exact Hw|]. left. split; [exists id; exact O|].
        exact (proj1 Hg e). }
      destruct H as [js A R F|gg js A V R F|js A R F|y A Y|gg n0 i0 t0 n1 i1 t1 idd j r A W G N1 N2 N3 Hid Hfr Hx Hj Hs Hc|idd r A V Hin Hx Hs|y A Y F|e Hx];
        try (pose proof (action_unique _ _ _ A0 A); discriminate).
      + pose proof (action_unique _ _ _ A0 A). subst y. destruct Y; discriminate.
      + rewrite V0 in V. injection V as V. apply py_str_inj in V. subst idd.
        pose proof I as [Ig Ii Ip Is Ia Im Io Ipl]. cbn [os_ctl os_wg os_links] in *.
        assert (Hk : may k) by (apply (Im k (GoesDown (CWait (q_remove (JInt g) (py_str id)) go))); apply in_elt).
        apply (upd order pm g may ct0 ct wg l1 k _ l2 _ wg _ I); cbn [ct_groups ct_circuits]; auto.
        * revert Ii. generalize (ct_circuits ct). induction l as [|c l IH]; [intros _; constructor|]. cbn [map filter]. intros ND. apply NoDup_cons_iff in ND.
          destruct ND as (N1 & N2). destruct (negb (ci_id c =? id)); [|exact (IH N2)]. cbn [map]. constructor; [|exact (IH N2)].
          intros H'. apply N1. apply in_map_iff in H'. destruct H' as (c' & E' & H'). apply filter_In in H'. rewrite <- E'. apply in_map. apply H'.
        * intros c Hc. apply filter_In in Hc. apply Ip. apply Hc.
        * intros c Hc. apply filter_In. split; [exact (Is c Hc)|]. destruct (ci_id c =? id) eqn:Ec; [|reflexivity]. exfalso.
          destruct O as (c1 & H1 & H2 & H3 & _). assert (c = c1) by (apply (same_id ct c c1 Ii (Is c Hc) H1); lia). subst c1.
          destruct Hstart as (_ & _ & _ & Fr). exact (Fr k c Hk Hc (proj1 H2) (of_joins pm g k c H2)).
        * intros c Hc. apply filter_In in Hc. left. apply Hc.
        * intros k' S. eapply frame_remove; eassumption.
        * split; [exact Hw|]. right. right. split; [|exact (proj2 Hg x r Hx Hs)].
          intros c Hc G J. cbn [ct_circuits] in Hc. apply filter_In in Hc. destruct Hc as (Hc & Hne). destruct O as (c1 & H1 & H2 & H3 & U).
          rewrite (U c Hc G J) in Hne. rewrite H3, Z.eqb_refl in Hne. discriminate.
      + destruct F as (e & He). exact (Fail e He).
      + exact (Fail e Hx).
  Qed.

  Lemma inv_none ct wg ls k : inv (mkOess ct wg ls) -> may k -> (forall k' x, In (k', x) ls -> separate pm k k') -> none ct k.
  Proof.
    intros I Hk S c Hc G J. destruct (i_all _ _ _ _ _ _ I c Hc) as [H|(k1 & p1 & H1 & H2)].
    - destruct Hstart as (_ & _ & _ & Fr). exact (Fr k c Hk H G J).
    - exact (separate_circuit pm g k k1 c (S k1 p1 H1) H2 J).
  Qed.

  Lemma step_inv s s' : inv s -> ostep order frank pm group may (separate pm) s s' -> inv s'.
  Proof.
    intros I H. destruct H as [ct wg ls k t wg' p Hk Hs Ht Hset|ct wg l1 k l2 t wg' p Ht Hset|ct ct' wg l1 k q go l2 x up Hx|ct wg l1 k t l2 up wg' q go Hset|ct wg l1 k t l2 wg' Hset|ct wg l1 k t l2 wg' e Hset|ct wg l1 k t l2 wg' Hset|ct wg l1 k t l2 wg' e Hset].
    - destruct (Hmay k Hk) as ((a & b & E) & _). rewrite (oe_setup_talk pm group k a b t E Ht) in Hset.
      pose proof (inv_none ct wg ls k I Hk Hs) as N.
      destruct (settle_su k a b false _ (provisioning_su order pm group g may ct0 Hstart k a b E) E ct wg wg' p N) as (W & P); [discriminate|exact Hset|].
      assert (P' : inv_place ct wg' k (GoesUp (conv_of p))). { destruct p as [[u|e]|q go]; [contradiction|exact P|exact P]. }
      destruct I as [Ig Ii Ip Is Ia Im Io Ipl]. cbn [os_ctl os_wg os_links] in *. constructor; cbn [os_ctl os_wg os_links]; auto.
      + intros c Hc. destruct (Ia c Hc) as [H|(k1 & p1 & H1 & H2)]; [left; exact H|right]. exists k1, p1. split; [right; exact H1|exact H2].
      + intros k1 p1 [H1|H1]; [injection H1 as <- <-; exact Hk|exact (Im k1 p1 H1)].
      + cbn [map fst]. constructor; [|exact Io]. rewrite Forall_forall. intros k1 H1. apply in_map_iff in H1. destruct H1 as ((k2 & p2) & <- & H1). exact (Hs k2 p2 H1).
      + intros k1 p1 [H1|H1]; [injection H1 as <- <-; exact P'|]. apply (inv_frame order pm g ct0 ct ct wg wg'); [apply frame_refl|exact W|exact (Ipl k1 p1 H1)].
    - assert (Hk : may k) by (apply (i_may _ _ _ _ _ _ I k IsUp); apply in_elt).
      destruct (Hmay k Hk) as ((a & b & E) & _). rewrite (oe_teardown_talk pm k a b t E Ht) in Hset.
      pose proof (i_place _ _ _ _ _ _ I k IsUp (in_elt _ l1 l2)) as (Hw & id & O). cbn [os_wg os_ctl] in Hw, O. subst wg.
      unfold removal in Hset. cbn [settle] in Hset. injection Hset as <- <-. cbn [conv_of].
      apply (upd_same order pm g may ct0 ct (JInt g) l1 k IsUp l2 (JInt g) _ I); [auto|]. split; [reflexivity|]. exists id. split; [exact O|]. left.
      split; [reflexivity|]. exists a, b. split; [exact E|]. eexists. reflexivity.
    - destruct up; [apply (answer_up ct ct' wg l1 k q go l2 x I Hx)|apply (answer_down ct ct' wg l1 k q go l2 x I Hx)].
    - destruct up.
      + pose proof (i_place _ _ _ _ _ _ I k (GoesUp (CGo t)) (in_elt _ l1 l2)) as P. cbn [os_ctl os_wg ProofsOessInv.inv_place] in P.
        destruct P as [(N & a & b & known & E & Hw & S)|(_ & _ & ->)]; [|discriminate Hset].
        destruct (settle_su k a b known t S E ct wg wg' _ N Hw Hset) as (W & P). exact (upd_same order pm g may ct0 ct wg l1 k _ l2 wg' _ I W P).
      + pose proof (i_place _ _ _ _ _ _ I k (GoesDown (CGo t)) (in_elt _ l1 l2)) as P. cbn [os_ctl os_wg ProofsOessInv.inv_place] in P.
        destruct P as (Hw & [(_ & e & ->)|[(id & go' & O & -> & Hr)|(_ & ->)]]); try discriminate Hset. subst wg.
        cbn [settle] in Hset. injection Hset as <- <- <-. apply (upd_same order pm g may ct0 ct (JInt g) l1 k _ l2 (JInt g) _ I); [auto|].
        split; [reflexivity|]. exists id. split; [exact O|]. right. split; [reflexivity|exact Hr].
    - pose proof (i_place _ _ _ _ _ _ I k (GoesUp (CGo t)) (in_elt _ l1 l2)) as P. cbn [os_ctl os_wg ProofsOessInv.inv_place] in P.
      destruct P as [(N & a & b & known & E & Hw & S)|(Hw & O & ->)].
      + destruct (settle_su k a b known t S E ct wg wg' _ N Hw Hset) as (_ & []).
      + injection Hset as <-. apply (upd_same order pm g may ct0 ct wg l1 k _ l2 wg _ I); [auto|]. split; assumption.
    - pose proof (i_place _ _ _ _ _ _ I k (GoesUp (CGo t)) (in_elt _ l1 l2)) as P. cbn [os_ctl os_wg ProofsOessInv.inv_place] in P.
      destruct P as [(N & a & b & known & E & Hw & S)|(_ & _ & ->)]; [|discriminate Hset].
      destruct (settle_su k a b known t S E ct wg wg' _ N Hw Hset) as (W & _). exact (drop order pm g may ct0 ct wg l1 k _ l2 wg' I W N).
    - pose proof (i_place _ _ _ _ _ _ I k (GoesDown (CGo t)) (in_elt _ l1 l2)) as P. cbn [os_ctl os_wg ProofsOessInv.inv_place] in P.
      destruct P as (Hw & [(_ & e & ->)|[(id & go' & O & -> & Hr)|(N & ->)]]); try discriminate Hset.
      injection Hset as <-. apply (drop order pm g may ct0 ct wg l1 k _ l2 wg I); [auto|exact N].
    - pose proof (i_place _ _ _ _ _ _ I k (GoesDown (CGo t)) (in_elt _ l1 l2)) as P. cbn [os_ctl os_wg ProofsOessInv.inv_place] in P.
      destruct P as (Hw & [(O & e' & ->)|[(id & go' & O & -> & Hr)|(_ & ->)]]); try discriminate Hset.
      injection Hset as <- _. apply (upd_same order pm g may ct0 ct wg l1 k _ l2 wg _ I); [auto|exact O].
  Qed.

  Lemma reach_inv s : oreach order frank pm group may (separate pm) ct0 s -> inv s.
  Proof.
    intros H. induction H as [|s s' H IH S]; [|exact (step_inv s s' IH S)].
    destruct Hstart as (_ & H1 & H2 & _). constructor; cbn [os_ctl os_wg os_links]; auto; try (intros k p []). constructor.
  Qed.
End Steps.
