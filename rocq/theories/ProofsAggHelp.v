(** What the aggregator's helper functions do to the invariant. *)
From Verif Require Import Base BaseProofs ModelLabel ModelSTP ModelAuthz ModelNRM ModelState ModelLinkVector ModelProvreg ModelAggregator SpecAggInv ProofsAggInv ProofsAggTab ProofsAggAct.

Definition okact (log : list call) (s : st) (a : act) : Prop := honest log s a /\ addressed s a.
Definition same_subs (s s' : st) : Prop := t_subs s' = t_subs s /\ h_subs s' = h_subs s /\ c_subs s' = c_subs s.
Definition same_out (s s' : st) : Prop := outs s' = outs s /\ resvs s' = resvs s /\ n_corr s' = n_corr s.
Record ext (s s' : st) : Prop := mkExt {
  ex_hc : forall o c, aget o (h_conns s) = Some c -> aget o (h_conns s') = Some c;
  ex_hs : forall o x, aget o (h_subs s) = Some x -> aget o (h_subs s') = Some x;
  ex_out : same_out s s'; ex_k : keeps s s' }.
Lemma ext_refl s : ext s s.
Proof. constructor; auto using keeps_refl. repeat split. Qed.
Lemma ext_trans a b c : ext a b -> ext b c -> ext a c.
Proof.
  intros [A1 A2 (A3 & A4 & A5) A6] [B1 B2 (B3 & B4 & B5) B6]. constructor; auto; [repeat split; congruence|eapply keeps_trans; eauto].
Qed.
Lemma same_subs_refl s : same_subs s s.
Proof. repeat split. Qed.
Lemma same_subs_trans a b c : same_subs a b -> same_subs b c -> same_subs a c.
Proof. intros (A1 & A2 & A3) (B1 & B2 & B3). repeat split; congruence. Qed.

Section Ghost.
Context {GH : ghost}.
Lemma find_conn_row cid s c : tab s -> find_conn cid s = Some c -> aget (cn_key c) (t_conns s) = Some c /\ cn_cid c = cid.
Proof.
  intros T H. apply find_some in H. destruct H as [H E]. apply (proj1 (eqb_true (cn_cid c) cid)) in E. split; auto.
  apply in_map_iff in H. destruct H as ([k c'] & E1 & H). cbn in E1. subst c'.
  apply In_aget in H; [|apply T]. destruct (tb_ck _ T _ _ H) as [-> _]. exact H.
Qed.
Lemma find_conn_none cid s k c : find_conn cid s = None -> aget k (t_conns s) = Some c -> cn_cid c <> cid.
Proof.
  intros H E Q. apply aget_In in E. apply find_none with (x := c) in H; [|apply in_map_iff; exists (k, c); auto].
  rewrite Q, eqb_refl in H. discriminate.
Qed.
Lemma sub_row k s y : tab s -> In y (map snd (t_subs s)) -> aget (sb_key y) (t_subs s) = Some y /\ (In y (subs_of k s) <-> sb_conn y = k).
Proof.
  intros T H. pose proof H as H0. apply in_map_iff in H. destruct H as ([k' c'] & E1 & H). cbn in E1. subst c'.
  apply In_aget in H; [|apply T]. destruct (tb_sk _ T _ _ H) as [E _]. split; [congruence|].
  unfold subs_of. rewrite filter_In. split; [intros [_ Q]; apply (proj1 (eqb_true (sb_conn y) k)) in Q; auto|]. intros ->. split; auto. apply eqb_refl.
Qed.
Lemma find_sub_row p cid s x : tab s -> find_sub p cid s = Some x -> aget (sb_key x) (t_subs s) = Some x /\ sb_cid x = cid /\ sb_provider x = p.
Proof.
  intros T H. apply find_some in H. destruct H as [H E]. apply andb_prop in E. destruct E as [E1 E2]. apply (proj1 (eqb_true (sb_provider x) p)) in E1. apply (proj1 (eqb_true (sb_cid x) cid)) in E2.
  split; auto. apply (sub_row 0); auto.
Qed.
Lemma find_sub_none p cid s : find_sub p cid s = None -> forall k y, aget k (t_subs s) = Some y -> sb_cid y = cid -> sb_provider y = p -> False.
Proof.
  intros H k y E Q1 Q2. apply aget_In in E. apply find_none with (x := y) in H; [|apply in_map_iff; exists (k, y); auto].
  rewrite Q1, Q2, !eqb_refl in H. discriminate.
Qed.

Lemma Forall2_in_r {A B} (P : A -> B -> Prop) l l' : Forall2 P l l' -> forall y, In y l' -> exists x, In x l /\ P x y.
Proof. induction 1 as [|a b l l' H1 H2 IH]; intros y []; [subst; exists a; cbn; auto|]. destruct (IH y) as (x & ? & ?); auto. exists x; cbn; auto. Qed.

Section Help.
  Context (urn : string).
  Notation W := (wp (inv urn None None) keeps okact).
  Context {log : list call}.

  Lemma w_act a s (Q : unit -> list call -> st -> Prop) (E : list call -> st -> Prop) : okact log s a -> keeps s (do_act a s) -> Q tt log (do_act a s) -> W (act1 a) Q E log s.
  Proof. cbn. auto. Qed.
  Lemma w_conn_obj o c s (Q : conn -> list call -> st -> Prop) (E : list call -> st -> Prop) : aget o (h_conns s) = Some c -> Q c log s -> W (conn_obj o) Q E log s.
  Proof. intros H HQ. cbn. rewrite H. exact HQ. Qed.
  Lemma w_sub_obj o x s (Q : sub -> list call -> st -> Prop) (E : list call -> st -> Prop) : aget o (h_subs s) = Some x -> Q x log s -> W (sub_obj o) Q E log s.
  Proof. intros H HQ. cbn. rewrite H. exact HQ. Qed.
  Lemma w_lift {A} (r : result A) s (Q : A -> list call -> st -> Prop) (E : list call -> st -> Prop) : (forall a, r = Ok a -> Q a log s) -> E log s -> W (lift r) Q E log s.
  Proof. destruct r; cbn; auto. Qed.

  Lemma w_save_conn x t o c s (Q : unit -> list call -> st -> Prop) (E : list call -> st -> Prop) : inv urn x t log s -> aget o (h_conns s) = Some c ->
    (forall s', inv urn x t log s' -> ext s s' -> same_subs s s' -> h_conns s' = h_conns s -> Q tt log s') -> W (save_conn o) Q E log s.
  Proof.
    intros I H HQ. cbn. rewrite H. cbn.
    destruct (tb_hc _ (i_tab _ _ _ _ _ I) _ _ H) as (_ & HC & HR).
    destruct (inv_write_conn urn log x t c s I HR) as [I' K]; [intros k; rewrite (cobj_obj o c s (i_tab _ _ _ _ _ I) H); cbn [obusy]; lia|].
    split; [split; exact Logic.I|]. split; [exact K|]. apply HQ; auto; destruct s; try reflexivity; [|repeat split].
    constructor; auto. repeat split.
  Qed.
  Lemma w_save_sub x t o y s (Q : unit -> list call -> st -> Prop) (E : list call -> st -> Prop) : inv urn x t log s -> aget o (h_subs s) = Some y ->
    (forall s', inv urn x t log s' -> ext s s' -> h_conns s' = h_conns s -> h_subs s' = h_subs s -> Q tt log s') -> W (save_sub o) Q E log s.
  Proof.
    intros I H HQ. cbn. rewrite H. cbn.
    destruct (tb_hs _ (i_tab _ _ _ _ _ I) _ _ H) as (_ & HR).
    destruct (inv_write_sub urn log x t y s I HR) as [I' K]; [eapply (i_sub _ _ _ _ _ I); eauto|].
    split; [split; exact Logic.I|]. split; [exact K|]. apply HQ; auto; destruct s; try reflexivity.
    constructor; auto. repeat split.
  Qed.
  Lemma w_get_connection x t cid s (Q : nat -> list call -> st -> Prop) (E : list call -> st -> Prop) : inv urn x t log s ->
    (forall o c s', inv urn x t log s' -> ext s s' -> same_subs s s' -> aget o (h_conns s') = Some c -> cn_cid c = cid -> Q o log s') ->
    (aget cid (c_conns s) = None -> find_conn cid s = None -> E log s) -> W (get_connection cid) Q E log s.
  Proof.
    intros I HQ HE. cbn. destruct (aget cid (c_conns s)) as [o|] eqn:E1; cbn.
    - destruct (tb_cc _ (i_tab _ _ _ _ _ I) _ _ E1) as (c & H1 & H2). eapply HQ; eauto using ext_refl, same_subs_refl.
    - destruct (find_conn cid s) as [c|] eqn:E2; cbn; [|auto].
      destruct (find_conn_row _ _ _ (i_tab _ _ _ _ _ I) E2) as [R1 R2]. subst cid.
      destruct (inv_load_conn urn log x t c s I R1 E1) as [I' K].
      split; [split; exact Logic.I|]. split; [exact K|]. apply (HQ _ c); auto.
      + constructor; auto; [|destruct s; auto|destruct s; repeat split].
        intros o c' H. pose proof (tb_hc _ (i_tab _ _ _ _ _ I) _ _ H) as (H1 & _). destruct s; cbn in *. rewrite aget_aset_ne; auto. lia.
      + destruct s; repeat split.
      + destruct s; cbn. apply aget_aset_eq.
  Qed.
  Lemma w_get_by_key x t key c0 s (Q : nat -> list call -> st -> Prop) (E : list call -> st -> Prop) : inv urn x t log s -> aget key (t_conns s) = Some c0 ->
    (forall o c s', inv urn x t log s' -> ext s s' -> same_subs s s' -> aget o (h_conns s') = Some c -> cn_cid c = cn_cid c0 -> cn_key c = key ->
       Q o log s') -> W (get_connection_by_key key) Q E log s.
  Proof.
    intros I H0 HQ. unfold get_connection_by_key, await. cbn [wp bind get]. rewrite H0. cbn [wp bind].
    apply w_get_connection with x t; auto.
    - intros o c s' I' HX HS HO HC. apply (HQ o c); auto.
      destruct (tb_hc _ (i_tab _ _ _ _ _ I') _ _ HO) as (_ & _ & c' & R1 & R2 & R3).
      destruct (ex_k _ _ HX _ _ H0) as (c1 & K1 & K2 & K3).
      eapply (tb_cu _ (i_tab _ _ _ _ _ I')); eauto. congruence.
    - intros _ N. exfalso. eapply find_conn_none; eauto.
  Qed.
  Lemma w_fetch_sub x t p cid s (Q : nat -> list call -> st -> Prop) (E : list call -> st -> Prop) : inv urn x t log s ->
    (forall y, aget (sb_key y) (t_subs s) = Some y -> sb_cid y = cid -> sb_provider y = p -> inv urn x t log (do_act (ALoadSub y) s) ->
       ext s (do_act (ALoadSub y) s) -> aget (n_obj s) (h_subs (do_act (ALoadSub y) s)) = Some y -> Q (n_obj s) log (do_act (ALoadSub y) s)) ->
    (find_sub p cid s = None -> E log s) -> W (fetch_sub p cid) Q E log s.
  Proof.
    intros I HQ HE. cbn. destruct (find_sub p cid s) as [y|] eqn:E1; cbn; [|auto].
    destruct (find_sub_row _ _ _ _ (i_tab _ _ _ _ _ I) E1) as (R1 & R2 & R3).
    destruct (inv_load_sub urn log x t y s I) as [I' K]; [exists y; auto 9|exact (proj1 (i_sub _ _ _ _ _ I) _ _ R1)|].
    split; [split; exact Logic.I|]. split; [exact K|]. apply HQ; auto.
    - constructor; auto; [destruct s; auto| |destruct s; repeat split].
      intros o z H. pose proof (tb_hs _ (i_tab _ _ _ _ _ I) _ _ H) as (H1 & _). destruct s; cbn in *. rewrite aget_aset_ne; auto. lia.
    - destruct s; cbn. apply aget_aset_eq.
  Qed.
  Lemma w_get_sub x t p cid s (Q : nat -> list call -> st -> Prop) (E : list call -> st -> Prop) : inv urn x t log s ->
    (forall o y s', inv urn x t log s' -> ext s s' -> aget o (h_subs s') = Some y -> sb_cid y = cid -> Q o log s') ->
    E log s -> W (get_sub p cid) Q E log s.
  Proof.
    intros I HQ HE. unfold get_sub. cbn [get wp bind]. destruct (aget cid (c_subs s)) as [o|] eqn:E1.
    - destruct (tb_cs _ (i_tab _ _ _ _ _ I) _ _ E1) as (y & H1 & H2). cbn. eapply HQ; eauto using ext_refl.
    - apply w_fetch_sub with x t; auto. intros y R1 R2 R3 I' HX HO. eapply HQ; eauto.
  Qed.

  (** the segments of connection [k] are among the objects [os] *)
  Definition known (rows : list sub) (os : list nat) (s : st) : Prop :=
    forall y, In y rows -> own_id y s -> exists o z, In o os /\ aget (sb_cid y) (c_subs s) = Some o /\ aget o (h_subs s) = Some z /\ sb_key z = sb_key y.
  Definition subs_exist (os : list nat) (s : st) : Prop := forall o, In o os -> exists x, aget o (h_subs s) = Some x.
  Definition same_conns (s s' : st) : Prop := h_conns s' = h_conns s /\ c_conns s' = c_conns s /\ t_conns s' = t_conns s.
  Lemma cached_key s cid o z y : tab s -> aget cid (c_subs s) = Some o -> aget o (h_subs s) = Some z -> sb_cid y = cid ->
    own_id y s -> sb_key z = sb_key y.
  Proof.
    intros T HC HO HY HU. destruct (tb_cs _ T _ _ HC) as (z' & H1 & H2). assert (z' = z) by congruence. subst z'.
    destruct (tb_hs _ T _ _ HO) as (_ & w & R1 & R2 & _). destruct (tb_sk _ T _ _ R1) as [R3 _]. rewrite <- R3. apply HU; [|congruence].
    apply aget_In in R1. apply in_map_iff. exists (sb_key z, w). auto.
  Qed.

  Lemma w_get_subs_loop x t s0 (Q : list nat -> list call -> st -> Prop) (E : list call -> st -> Prop) :
    (forall cid o, aget cid (c_subs s0) = Some o -> exists z, aget o (h_subs s0) = Some z) ->
    forall rows done os0 s,
    inv urn x t log s -> ext s0 s -> same_conns s0 s -> t_subs s = t_subs s0 ->
    (forall y, In y (done ++ rows) -> In y (map snd (t_subs s))) -> NoDup (map sb_key (done ++ rows)) ->
    (forall cid o, aget cid (c_subs s0) = Some o -> (forall y, In y (done ++ rows) -> own_id y s -> sb_cid y = cid -> aget cid (c_subs s) = Some o)) ->
    known done os0 s ->
    (forall os s', inv urn x t log s' -> ext s s' -> same_conns s0 s' -> t_subs s' = t_subs s0 -> known (done ++ rows) (os0 ++ os) s' -> subs_exist os s' -> List.length os = List.length rows -> Q os log s') ->
    W (mapP (fun y : sub => match aget (sb_cid y) (c_subs s0) with Some o => Ret o | None => fetch_sub (sb_provider y) (sb_cid y) end) rows) Q E log s.
  Proof.
    intros HC0. induction rows as [|y rows IH] in Q |- *; intros done os0 s I HX HS HT HIn HND HC HK HQ.
    - cbn. apply HQ; auto using ext_refl; [rewrite !app_nil_r; auto|intros o []].
    - cbn [mapP].
      assert (A : done ++ y :: rows = (done ++ [y]) ++ rows) by (rewrite <- app_assoc; reflexivity).
      assert (Hy : In y (map snd (t_subs s))) by (apply HIn; rewrite in_app_iff; cbn; auto).
      destruct (sub_row 0 _ _ (i_tab _ _ _ _ _ I) Hy) as [Ry _].
      destruct (aget (sb_cid y) (c_subs s0)) as [o|] eqn:E1.
      + cbn [bind]. apply wp_bind. destruct (HC0 _ _ E1) as (z0 & Z0).
        pose proof (ex_hs _ _ HX _ _ Z0) as Z1.
        apply (IH _ (done ++ [y]) (os0 ++ [o])); auto; rewrite <- ?A; auto.
        * intros y' H' U'. apply in_app_iff in H'. destruct H' as [H'|[<-|[]]].
          -- destruct (HK y' H' U') as (o' & z' & K1 & K2). exists o', z'. split; [rewrite in_app_iff; auto|exact K2].
          -- assert (C : aget (sb_cid y) (c_subs s) = Some o) by (apply (HC _ _ E1 y); auto; rewrite in_app_iff; cbn; auto).
             exists o, z0. split; [rewrite in_app_iff; cbn; auto|]. repeat split; auto.
             eapply cached_key; eauto. apply I.
        * intros os s' I' HX' HS' HT' HK' HE' HN'. cbn. rewrite <- app_assoc in HK'. apply (HQ (o :: os) s'); auto; [|cbn; congruence].
          intros o' [<-|H']; [|auto]. exists z0. apply (ex_hs _ _ HX'). exact Z1.
      + apply wp_bind. apply w_fetch_sub with x t; auto.
        * intros y1 R1 R2 R3 I1 X1 O1.
          assert (y1 = y). { pose proof (tb_su _ (i_tab _ _ _ _ _ I) _ _ _ _ R1 Ry R2 R3) as K. rewrite K in R1. congruence. }
          subst y1. set (s1 := do_act (ALoadSub y) s) in *.
          assert (T1 : t_subs s1 = t_subs s) by (unfold s1; destruct s; reflexivity).
          assert (U1 : forall w, own_id w s1 <-> own_id w s) by (intros w; unfold own_id; rewrite T1; reflexivity).
          assert (C1 : forall cid, aget cid (c_subs s1) = if eqb cid (sb_cid y) then Some (n_obj s) else aget cid (c_subs s))
            by (intros; unfold s1; destruct s; cbn; apply aget_aset).
          assert (N1 : forall y', In y' (done ++ rows) -> own_id y' s -> sb_cid y' <> sb_cid y).
          { intros y' H' U' Q'. assert (Ek : sb_key y = sb_key y') by (apply U'; auto).
            rewrite map_app in HND. cbn in HND. apply NoDup_remove_2 in HND. apply HND. rewrite Ek, <- map_app. apply in_map, H'. }
          assert (X' : ext s0 s1) by (eapply ext_trans; eauto).
          apply wp_bind. apply (IH _ (done ++ [y]) (os0 ++ [n_obj s])); rewrite <- ?A; auto; try congruence.
          -- unfold same_conns in *. unfold s1. destruct s; exact HS.
          -- rewrite T1. auto.
          -- intros cid o E2 y' H' U' Q'. rewrite C1. destruct (eqb_ok cid (sb_cid y)) as [->|NE]; [congruence|]. apply (HC _ _ E2 y'); auto. apply U1; auto.
          -- intros y' H' U'. apply U1 in U'. apply in_app_iff in H'. destruct H' as [H'|[<-|[]]].
             ++ destruct (HK y' H' U') as (o' & z' & K1 & K2 & K3 & K4). exists o', z'. split; [rewrite in_app_iff; auto|].
                rewrite C1, (eqb_neq (sb_cid y') (sb_cid y)) by (apply N1; auto; rewrite in_app_iff; auto).
                repeat split; auto. apply (ex_hs _ _ X1). auto.
             ++ exists (n_obj s), y. split; [rewrite in_app_iff; cbn; auto|]. rewrite C1, eqb_refl. auto.
          -- intros os s' I' HX' HS' HT' HK' HE' HN'. cbn. rewrite <- app_assoc in HK'. apply (HQ (n_obj s :: os) s'); auto; [eapply ext_trans; eauto| |cbn; congruence].
             intros o' [<-|H']; [|auto]. exists y. apply (ex_hs _ _ HX'). exact O1.
        * intros N. exfalso. eapply find_sub_none; eauto.
  Qed.

  Lemma w_get_subs_all x t key s (Q : list nat -> list call -> st -> Prop) (E : list call -> st -> Prop) : inv urn x t log s ->
    (forall os s', inv urn x t log s' -> ext s s' -> same_conns s s' -> known (subs_of key s') os s' -> subs_exist os s' -> t_subs s' = t_subs s ->
       List.length os = List.length (subs_of key s) -> Q os log s') ->
    W (get_subs key) Q E log s.
  Proof.
    intros I HQ. unfold get_subs, await, get. cbn [wp bind].
    apply (w_get_subs_loop x t s Q E) with (done := []) (os0 := []); cbn [app]; auto using ext_refl.
    - intros cid o H. destruct (tb_cs _ (i_tab _ _ _ _ _ I) _ _ H) as (z & H1 & _). eauto.
    - repeat split.
    - intros y H. unfold subs_of in H. apply filter_In in H. apply H.
    - unfold subs_of. pose proof (tb_ns _ (i_tab _ _ _ _ _ I)) as ND. pose proof (tb_sk _ (i_tab _ _ _ _ _ I)) as SK.
      assert (G : forall l, NoDup (akeys l) -> (forall k y, In (k, y) l -> sb_key y = k) -> NoDup (map sb_key (filter (fun y => eqb (sb_conn y) key) (map snd l)))).
      { clear. induction l as [|[k y] l IH]; cbn; intros ND H; [constructor|]. inversion ND as [|? ? N1 N2]; subst.
        assert (IH' : NoDup (map sb_key (filter (fun y => eqb (sb_conn y) key) (map snd l)))) by (apply IH; auto).
        destruct (eqb (sb_conn y) key); auto. cbn. constructor; auto.
        rewrite (H k y) by auto. intros HIn. apply N1. apply in_map_iff in HIn. destruct HIn as (y' & E & HIn).
        apply filter_In in HIn. destruct HIn as [HIn _]. apply in_map_iff in HIn. destruct HIn as ([k' y''] & E' & HIn). cbn in E'. subst y''.
        assert (k' = k) by (rewrite <- E; symmetry; apply H; auto). subst k'. apply in_map_iff. exists (k, y'). auto. }
      apply G; auto. intros k y H. apply In_aget in H; auto. apply SK in H. apply H.
    - intros y [].
    - intros os s' I' HX HS HT HK HE HN. apply HQ; auto. unfold subs_of in *. rewrite HT. exact HK.
  Qed.
  Lemma w_get_subs x t key s (Q : list nat -> list call -> st -> Prop) (E : list call -> st -> Prop) : inv urn x t log s ->
    (forall os s', inv urn x t log s' -> ext s s' -> same_conns s s' -> known (subs_of key s') os s' -> subs_exist os s' -> Q os log s') ->
    W (get_subs key) Q E log s.
  Proof. intros I HQ. eapply w_get_subs_all; eauto. Qed.
  Lemma w_sub_objs os s (Q : list sub -> list call -> st -> Prop) (E : list call -> st -> Prop) : subs_exist os s ->
    (forall xs, Forall2 (fun o x => aget o (h_subs s) = Some x) os xs -> Q xs log s) -> W (sub_objs os) Q E log s.
  Proof.
    unfold sub_objs. revert Q. induction os as [|o os IH]; intros Q HE HQ; cbn [mapP].
    - cbn. apply HQ. constructor.
    - destruct (HE o (or_introl eq_refl)) as (x & Hx). apply wp_bind, (w_sub_obj _ _ _ _ _ Hx). apply wp_bind, IH.
      + intros o' H. apply HE. right. exact H.
      + intros xs H. cbn. apply HQ. constructor; auto.
  Qed.
  (** loops *)
  Lemma w_mapP {A B} (P : st -> Prop) (f : A -> prog B) (l : list A) (E : list call -> st -> Prop) :
    (forall a s (Q : B -> list call -> st -> Prop), In a l -> P s -> (forall b s', P s' -> Q b log s') -> W (f a) Q E log s) ->
    forall s (Q : list B -> list call -> st -> Prop), P s -> (forall bs s', P s' -> List.length bs = List.length l -> Q bs log s') -> W (mapP f l) Q E log s.
  Proof.
    induction l as [|a l IH]; intros H s Q HP HQ; cbn [mapP].
    - cbn. apply HQ; auto.
    - apply wp_bind, H; cbn; auto. intros b s' HP'. apply wp_bind, IH; auto.
      + intros a' s1 Q' Ha. apply H. right. exact Ha.
      + intros bs s2 HP2 HL. cbn. apply HQ; auto. cbn. congruence.
  Qed.
  Lemma w_iterP {A} (P : st -> Prop) (f : A -> prog unit) (l : list A) (E : list call -> st -> Prop) :
    (forall a s (Q : unit -> list call -> st -> Prop), In a l -> P s -> (forall s', P s' -> Q tt log s') -> W (f a) Q E log s) ->
    forall s (Q : unit -> list call -> st -> Prop), P s -> (forall s', P s' -> Q tt log s') -> W (iterP f l) Q E log s.
  Proof.
    induction l as [|a l IH]; intros H s Q HP HQ; cbn [iterP].
    - cbn. apply HQ; auto.
    - apply wp_bind, H; cbn; auto. intros s' HP'. apply IH; auto.
      intros a' s1 Q' Ha. apply H. right. exact Ha.
  Qed.
  Lemma w_new_corr x t s (Q : nat -> list call -> st -> Prop) (E : list call -> st -> Prop) : inv urn x t log s ->
    (forall s', s' = do_act ACorr s -> inv urn x t log s' -> keeps s s' -> Q (n_corr s) log s') -> W new_corr Q E log s.
  Proof.
    intros I HQ. unfold new_corr, get, act1. cbn [wp bind].
    destruct (inv_same urn log x t s (do_act ACorr s) I) as [I' K]; try (destruct s; cbn; auto; fail).
    { destruct s; repeat split. }
    split; [split; exact Logic.I|]. split; [exact K|]. apply HQ; auto.
  Qed.
  Lemma w_note x t s (Q : nat -> list call -> st -> Prop) (E : list call -> st -> Prop) : inv urn x t log s ->
    (forall s', s' = do_act ANote s -> inv urn x t log s' -> keeps s s' -> Q (n_note s) log s') -> W notification_id Q E log s.
  Proof.
    intros I HQ. unfold notification_id, get, act1. cbn [wp bind].
    destruct (inv_same urn log x t s (do_act ANote s) I) as [I' K]; try (destruct s; cbn; auto; fail).
    { destruct s; repeat split. }
    split; [split; exact Logic.I|]. split; [exact K|]. apply HQ; auto.
  Qed.
  Lemma w_out_plain x t o s (Q : unit -> list call -> st -> Prop) (E : list call -> st -> Prop) : inv urn x t log s -> plain o -> okact log s (AOut o) ->
    (forall s', s' = do_act (AOut o) s -> inv urn x t log s' -> keeps s s' -> Q tt log s') -> W (out o) Q E log s.
  Proof.
    intros I HP HO HQ. destruct (inv_out_plain urn log x t o s I HP) as [I' K]. apply w_act; auto.
  Qed.
  (** the loops over segments keep this *)
  Definition going (x : option xmp) (t : token) (os : list nat) (s : st) : Prop := inv urn x t log s /\ subs_exist os s.
  Lemma subs_exist_same os s s' : h_subs s' = h_subs s -> subs_exist os s -> subs_exist os s'.
  Proof. intros E H o Ho. rewrite E. auto. Qed.
  Lemma w_call_sub x t g h b o os s (Q : string -> list call -> st -> Prop) (E : list call -> st -> Prop) :
    (forall c, match b c with DReserve _ _ _ _ _ _ => False | _ => True end) ->
    going x t os s -> In o os -> (forall s', inv urn x t log s' -> E log s') -> (forall u s', going x t os s' -> Q u log s') -> W (call_sub g h b o) Q E log s.
  Proof.
    intros HB [I HE] Ho HEx HQ. unfold call_sub. destruct (HE o Ho) as (y & Hy).
    apply wp_bind, (w_sub_obj _ _ _ _ _ Hy). unfold get. cbn [wp bind]. apply wp_bind, w_lift; [|auto]. intros p _.
    apply wp_bind, (w_new_corr x t); auto. intros s' -> I' K'.
    apply wp_bind, (w_out_plain x t); auto.
    - cbn. specialize (HB (sb_cid y)). destruct (b (sb_cid y)); auto.
    - split; cbn; auto.
    - intros s'' -> I'' K''. cbn [wp]. apply HQ. split; auto. eapply subs_exist_same; [|exact HE]. destruct s; reflexivity.
  Qed.
  Lemma w_set_sub x t o y (F : states -> states) s (Q : unit -> list call -> st -> Prop) (E : list call -> st -> Prop) os :
    going x t os s -> aget o (h_subs s) = Some y -> slog log (sb_set_states (F (sb_states y)) y) ->
    (forall s', going x t os s' -> h_subs s' = aset o (sb_set_states (F (sb_states y)) y) (h_subs s) -> h_conns s' = h_conns s -> outs s' = outs s -> keeps s s' -> Q tt log s') ->
    W (act1 (ASetSub o (sb_set_states (F (sb_states y)) y))) Q E log s.
  Proof.
    intros [I HE] Hy HS HQ.
    destruct (inv_set_sub urn log x t o y (sb_set_states (F (sb_states y)) y) s I Hy) as [I' K]; auto.
    apply w_act; [split; exact Logic.I|exact K|]. apply HQ; auto; try (destruct s; reflexivity).
    split; auto. intros o' H. destruct (HE o' H) as (z & Hz). destruct s; cbn in *. rewrite aget_aset. destruct (eqb o' o); eauto.
  Qed.
  Definition benign (op : state_op) : Prop :=
    match op with OpReserveAbort | OpReserveTimeout | OpProvisioning | OpReleasing | OpReleased => True | _ => False end.
  Lemma slog_benign op y z e : benign op -> slog log y -> op_mem op (sb_states y) = (z, e) -> slog log (sb_set_states z y).
  Proof.
    intros HB (S1 & S2 & S3) H. unfold slog, sb_p, sb_l in *. cbn. destruct (sb_states y) as [r p l] eqn:EY. cbn in S1, S2.
    destruct op; cbn in HB; try contradiction; unfold op_mem, set_r, set_p, set_l, switch_state in H; cbn [st_r st_p st_l] in H.
    all: match type of H with context[if ?c then _ else _] => destruct c end; cbn in H; inversion H; subst; cbn; (split; [|split; [|exact S3]]); auto; discriminate.
  Qed.
  Lemma w_set_sub_state x t op o s (Q : unit -> list call -> st -> Prop) (E : list call -> st -> Prop) os :
    going x t os s -> In o os -> benign op -> (forall s', going x t os s' -> Q tt log s') -> (forall s', inv urn x t log s' -> E log s') -> W (set_sub_state op o) Q E log s.
  Proof.
    intros G Ho HB HQ HE. unfold set_sub_state. destruct (proj2 G o Ho) as (y & Hy). apply wp_bind, (w_sub_obj _ _ _ _ _ Hy).
    destruct (op_mem op (sb_states y)) as [z [e|]] eqn:EO; [cbn; apply HE, G|].
    apply (w_set_sub x t o y (fun _ => z) s Q E os); auto. eapply slog_benign; eauto. apply (proj2 (i_sub _ _ _ _ _ (proj1 G)) _ _ Hy).
  Qed.
  Lemma w_save_sub_going x t o s (Q : unit -> list call -> st -> Prop) (E : list call -> st -> Prop) os :
    going x t os s -> In o os -> (forall s', going x t os s' -> Q tt log s') -> W (save_sub o) Q E log s.
  Proof.
    intros [I HE] Ho HQ. destruct (HE o Ho) as (y & Hy). eapply w_save_sub; eauto. intros s' I' HX _ H2. apply HQ. split; auto. eapply subs_exist_same; eauto.
  Qed.
  (** a change of state of a connection *)
  Definition ext2 (s s' : st) : Prop := keeps s s' /\ same_subs s s' /\ same_out s s'.
  Lemma w_conn_state x t t' op o c s (Q : unit -> list call -> st -> Prop) (E : list call -> st -> Prop) :
    inv urn x t log s -> aget o (h_conns s) = Some c ->
    (forall y, op_mem op (cn_states c) = (y, None) ->
       (forall k cid, (if eqb cid (cn_cid c) then busy k y else 0) + tok t' k cid <= (if eqb cid (cn_cid c) then busy k (cn_states c) else 0) + tok t k cid)%nat /\
       (st_r y = RChecking -> cn_r c = RChecking) /\ (cn_l c = LTerminated -> st_l y = LTerminated)) ->
    (forall y s', op_mem op (cn_states c) = (y, None) -> inv urn x t' log s' -> ext2 s s' -> aget o (h_conns s') = Some (cn_set_states y c) -> Q tt log s') ->
    (forall e, snd (op_mem op (cn_states c)) = Some e -> E log s) -> W (conn_state op o) Q E log s.
  Proof.
    intros I Ho HC HQ HE. unfold conn_state. apply wp_bind. unfold set_conn_state. apply wp_bind, (w_conn_obj _ _ _ _ _ Ho).
    destruct (op_mem op (cn_states c)) as [y [e|]] eqn:EO; [cbn; eapply HE; reflexivity|].
    destruct (HC y eq_refl) as (H1 & H2 & H3).
    destruct (inv_state_conn urn log x t t' o c (cn_set_states y c) s I Ho) as (I' & K & K'); auto.
    apply w_act; [split; exact Logic.I|exact K|].
    assert (Ho' : aget o (h_conns (do_act (ASetConn o (cn_set_states y c)) s)) = Some (cn_set_states y c)) by (destruct s; cbn; apply aget_aset_eq).
    remember (do_act (ASetConn o (cn_set_states y c)) s) as s1 eqn:ES. cbn. rewrite Ho'. cbn.
    split; [split; exact Logic.I|]. split; [exact K'|]. eapply HQ; eauto.
    - split; [eapply keeps_trans; eauto|]. subst s1. destruct s; repeat split.
    - clear - Ho'. destruct s1; exact Ho'.
  Qed.
  Lemma known_same k os s s' : same_subs s s' -> known (subs_of k s) os s -> known (subs_of k s') os s'.
  Proof. intros (E1 & E2 & E3). unfold known, subs_of, own_id. rewrite E1, E2, E3. auto. Qed.
  (** from the objects looked at to all segments *)
  Lemma all_segments_of (P : sub -> Prop) o c os xs s s' :
    tab s' -> aget o (h_conns s') = Some c -> same_subs s s' -> known (subs_of (cn_key c) s) os s ->
    Forall2 (fun o x => aget o (h_subs s) = Some x) os xs -> (forall x, In x xs -> P x) -> all_segments P (cn_cid c) s'.
  Proof.
    intros T Ho HS HK HF HP. destruct (tb_hc _ T _ _ Ho) as (_ & _ & c' & R1 & R2 & R3).
    exists (cn_key c), c'. split; auto. split; auto. intros y Hy HU.
    destruct (known_same _ _ _ _ HS HK y Hy HU) as (o' & z & K1 & K2 & K3 & K4). exists o', z. repeat split; auto; [destruct (tb_cs _ T _ _ K2) as (z' & Z1 & Z2); congruence|].
    destruct HS as (_ & HS & _). rewrite HS in K3. clear - HF HP K1 K3. induction HF as [|a b l l' H1 H2 IH]; [destruct K1|].
    destruct K1 as [->|K1]; [assert (b = z) by congruence; subst; apply HP; cbn; auto|]. apply IH; auto. intros. apply HP. cbn. auto.
  Qed.
End Help.
End Ghost.
