(** Proofs about the routing table: Dijkstra's algorithm, paths, table upkeep. *)
From Verif Require Import Base ModelLinkVector SpecLinkVector.
Open Scope Z_scope.

Definition wft (t : vtable) : Prop :=
  NoDup (akeys t) /\ (forall k d, In (k, d) t -> NoDup (akeys d)).

Lemma edge_In t u p v c : wft t -> (edge t u p v c <-> exists d, In ((u, p), d) t /\ In (v, c) d).
Proof.
  intros [Ht Hd]. split.
  - intros (d & H1 & H2). exists d. split; apply aget_In; assumption.
  - intros (d & H1 & H2). exists d. split; apply In_aget; eauto.
Qed.

Lemma walk_snoc t bl u v hops c p w c' :
  walk t bl u v hops c -> edge t v p w c' -> ~ In w bl -> walk t bl u w (hops ++ [(v, p)]) (c + c').
Proof.
  intros Hw He Hb. induction Hw as [u q v c Hed Hnb|u q v c x hops c2 Hed Hnb Hw IH].
  - cbn. eapply walk_more; eauto. constructor; auto.
  - cbn. rewrite <- Z.add_assoc. eapply walk_more; eauto.
Qed.

(** * One round of relaxation *)
Section Relax.
  Variables (src : string) (bl : list string) (mx : Z) (t : vtable).
  Variables (u : string) (ucost : Z).

  Definition flat_edges (es : vtable) : list (string * (string * Z)) :=
    flat_map (fun e => map (fun vc => (snd (fst e), vc)) (snd e)) es.
  Definition relax1 (dp : dist_map * prev_map) (e : string * (string * Z)) := relax src bl mx u ucost (fst e) dp (snd e).

  Lemma relax_flat es dp :
    fold_left (fun dp e => fold_left (relax src bl mx u ucost (snd (fst e))) (snd e) dp) es dp =
    fold_left relax1 (flat_edges es) dp.
  Proof.
    revert dp; induction es as [|[[n p] d] es IH]; intros dp; cbn [fold_left flat_edges flat_map fst snd]; [reflexivity|].
    rewrite fold_left_app. rewrite IH. f_equal.
    clear. revert dp. induction d as [|vc d IH]; intros dp; cbn [fold_left map]; [reflexivity|]. apply IH.
  Qed.

  Definition relaxed (es : list (string * (string * Z))) (dp0 dp : dist_map * prev_map) (v : string) : Prop :=
    (aget v (fst dp) = aget v (fst dp0) /\ aget v (snd dp) = aget v (snd dp0) /\
     forall p c, In (p, (v, c)) es -> v <> src -> ~ In v bl -> ucost + c <= mx ->
       exists x, aget v (fst dp0) = Some x /\ x <= ucost + c) \/
    (v <> src /\ ~ In v bl /\
     exists p c, In (p, (v, c)) es /\ aget v (fst dp) = Some (ucost + c) /\ aget v (snd dp) = Some (u, p) /\
       ucost + c <= mx /\ (forall x, aget v (fst dp0) = Some x -> ucost + c < x) /\
       forall p' c', In (p', (v, c')) es -> ucost + c' <= mx -> ucost + c <= ucost + c').

  Lemma relax1_other dp e v : v <> fst (snd e) ->
    aget v (fst (relax1 dp e)) = aget v (fst dp) /\ aget v (snd (relax1 dp e)) = aget v (snd dp).
  Proof.
    destruct e as [p [w c]]. unfold relax1, relax. cbn [fst snd]. intros Hn.
    destruct (eqb w src); [auto|]. destruct (mem w bl); [auto|]. destruct (mx <? ucost + c); [auto|].
    destruct (aget w (fst dp)) as [x|].
    - destruct (ucost + c <? x); [|auto]. cbn [fst snd]. rewrite !aget_aset_ne by assumption. auto.
    - cbn [fst snd]. rewrite !aget_aset_ne by assumption. auto.
  Qed.

  Lemma relaxed_fold es dp0 v : relaxed es dp0 (fold_left relax1 es dp0) v.
  Proof.
    induction es as [|e es IH] using rev_ind.
    - left. cbn. split; [|split]; auto. intros ? ? [].
    - rewrite fold_left_app. cbn [fold_left].
      set (dp := fold_left relax1 es dp0) in *. clearbody dp.
      destruct (eqb_ok v (fst (snd e))) as [Hv|Hv].
      2:{ destruct (relax1_other dp e v Hv) as [H1 H2].
          assert (Hin : forall p c, In (p, (v, c)) (es ++ [e]) -> In (p, (v, c)) es).
          { intros p c Hi. apply in_app_iff in Hi as [Hi|[Hi|[]]]; auto. subst e. cbn in Hv. congruence. }
          destruct IH as [(Ha & Hb & Hc)|(Ha & Hb & p & c & H3 & H4 & H5 & H6 & H7 & H8)].
          - left. rewrite H1, H2. split; [|split]; auto. intros p c Hi. apply Hc with p. auto.
          - right. split; [|split]; auto. exists p, c. rewrite H1, H2, in_app_iff.
            repeat (split; [solve [auto]|]). intros p' c' Hi. apply (H8 p'). auto. }
      destruct e as [q [w c0]]. cbn [fst snd] in Hv. subst w.
      unfold relax1, relax. cbn [fst snd].
      assert (Hin : forall p c, In (p, (v, c)) (es ++ [(q, (v, c0))]) -> In (p, (v, c)) es \/ (p = q /\ c = c0)).
      { intros p c Hi. apply in_app_iff in Hi as [Hi|[Hi|[]]]; auto. injection Hi as -> ->. auto. }
      destruct (eqb_ok v src) as [Hs|Hs].
      { destruct IH as [(Ha & Hb & Hc)|(Ha & _)]; [|congruence]. left. split; [|split]; auto. congruence. }
      destruct (mem v bl) eqn:Em.
      { apply mem_In in Em. destruct IH as [(Ha & Hb & Hc)|(Ha & Hb & _)]; [|tauto]. left. split; [|split]; auto. tauto. }
      assert (Hnb : ~ In v bl) by (intros Hi; apply mem_In in Hi; congruence).
      destruct (Z.ltb_spec mx (ucost + c0)) as [Hm|Hm].
      { destruct IH as [(Ha & Hb & Hc)|(Ha & Hb & p & c & H3 & H4 & H5 & H6 & H7 & H8)].
        - left. split; [|split]; auto. intros p c Hi _ _ Hle. destruct (Hin _ _ Hi) as [Hi'|[_ ->]]; [|lia]. eauto.
        - right. split; [|split]; auto. exists p, c. rewrite in_app_iff. repeat (split; [solve [auto]|]).
          intros p' c' Hi Hle. destruct (Hin _ _ Hi) as [Hi'|[_ ->]]; [eauto|lia]. }
      destruct (aget v (fst dp)) as [x|] eqn:Ex.
      + destruct (Z.ltb_spec (ucost + c0) x) as [Hx|Hx].
        * right. split; [|split]; auto. exists q, c0. cbn [fst snd]. rewrite !aget_aset_eq, in_app_iff.
          split; [cbn; auto|]. split; [auto|]. split; [auto|]. split; [auto|].
          destruct IH as [(Ha & Hb & Hc)|(Ha & Hb & p & c & H3 & H4 & H5 & H6 & H7 & H8)].
          -- rewrite Ex in Ha. split.
             ++ intros y Hy. rewrite Hy in Ha. injection Ha as ->. exact Hx.
             ++ intros p' c' Hi Hle. destruct (Hin _ _ Hi) as [Hi'|[_ ->]]; [|lia].
                destruct (Hc _ _ Hi' Hs Hnb Hle) as (y & Hy & Hyle). rewrite Hy in Ha. injection Ha as ->. lia.
          -- rewrite Ex in H4. injection H4 as ->. split.
             ++ intros y Hy. specialize (H7 _ Hy). lia.
             ++ intros p' c' Hi Hle. destruct (Hin _ _ Hi) as [Hi'|[_ ->]]; [|lia]. specialize (H8 _ _ Hi' Hle). lia.
        * destruct IH as [(Ha & Hb & Hc)|(Ha & Hb & p & c & H3 & H4 & H5 & H6 & H7 & H8)].
          -- left. split; [exact Ha|split; [exact Hb|]]. intros p c Hi _ _ Hle. destruct (Hin _ _ Hi) as [Hi'|[_ ->]]; [eauto|].
             exists x. rewrite <- Ha, Ex. split; [reflexivity|lia].
          -- rewrite Ex in H4. injection H4 as Hxx. right. split; [|split]; auto. exists p, c. rewrite Ex, in_app_iff, Hxx.
             repeat (split; [solve [auto]|]).
             intros p' c' Hi Hle. destruct (Hin _ _ Hi) as [Hi'|[_ ->]]; [eauto|lia].
      + destruct IH as [(Ha & Hb & Hc)|(Ha & Hb & p & c & H3 & H4 & H5 & H6 & H7 & H8)]; [|congruence].
        right. split; [|split]; auto. exists q, c0. cbn [fst snd]. rewrite !aget_aset_eq, in_app_iff.
        split; [cbn; auto|]. split; [auto|]. split; [auto|]. split; [auto|]. split.
        * intros y Hy. congruence.
        * intros p' c' Hi Hle. destruct (Hin _ _ Hi) as [Hi'|[_ ->]]; [|lia].
          destruct (Hc _ _ Hi' Hs Hnb Hle) as (y & Hy & Hyle). congruence.
  Qed.

  Lemma flat_edges_In es p v c :
    In (p, (v, c)) (flat_edges es) <-> exists n d, In ((n, p), d) es /\ In (v, c) d.
  Proof.
    unfold flat_edges. rewrite in_flat_map. split.
    - intros ([[n q] d] & Hi & Hm). cbn in Hm. apply in_map_iff in Hm as (vc & E & Hd). injection E as -> ->. eauto.
    - intros (n & d & Hi & Hd). exists ((n, p), d). split; [exact Hi|]. cbn. apply in_map_iff. eauto.
  Qed.

  Definition out_edges := flat_edges (filter (fun e => eqb (fst (fst e)) u) t).
  Lemma relax_all_relaxed dp v : relaxed out_edges dp (relax_all src bl mx t u ucost dp) v.
  Proof. unfold relax_all. rewrite relax_flat. apply relaxed_fold. Qed.
  Lemma out_edges_In p v c : wft t -> (In (p, (v, c)) out_edges <-> edge t u p v c).
  Proof.
    intros Hw. unfold out_edges. rewrite flat_edges_In, (edge_In _ _ _ _ _ Hw). split.
    - intros (n & d & Hi & Hd). apply filter_In in Hi as [Hi E]. cbn in E. apply (proj1 (eqb_true _ _)) in E. subst n. eauto.
    - intros (d & Hi & Hd). exists u, d. split; [|exact Hd]. apply filter_In. split; [exact Hi|]. cbn. apply eqb_refl.
  Qed.
  Lemma relax_all_nonempty dp : fst dp <> [] -> fst (relax_all src bl mx t u ucost dp) <> [].
  Proof.
    intros Hne. destruct (fst dp) as [|[k x] r] eqn:E; [congruence|]. clear Hne.
    assert (Hk : aget k (fst dp) = Some x) by (rewrite E; cbn; rewrite eqb_refl; reflexivity).
    destruct (relax_all_relaxed dp k) as [(Ha & _)|(_ & _ & p & c & _ & Ha & _)]; intros He; rewrite He in Ha.
    - rewrite Hk in Ha. discriminate.
    - discriminate.
  Qed.
End Relax.

(** * The minimum *)
Lemma cn_min_spec l : forall x, (cn_min x l = x \/ In (cn_min x l) l) /\
  fst (cn_min x l) <= fst x /\ (forall y, In y l -> fst (cn_min x l) <= fst y).
Proof.
  unfold cn_min. induction l as [|c l IH]; intros x; cbn [fold_left].
  - split; [auto|]. split; [lia|]. intros y [].
  - assert (Hle : fst (if cn_lt c x then c else x) <= fst x /\ fst (if cn_lt c x then c else x) <= fst c).
    { unfold cn_lt. destruct (Z.ltb_spec (fst c) (fst x)); cbn; [lia|].
      destruct (Z.eqb_spec (fst c) (fst x)); cbn; [|lia]. destruct (String.ltb _ _); lia. }
    destruct (IH (if cn_lt c x then c else x)) as (H1 & H2 & H3). split; [|split].
    + destruct H1 as [H1|H1]; [|cbn; auto]. rewrite H1. destruct (cn_lt c x); cbn; auto.
    + lia.
    + intros y [<-|Hy]; [lia|auto].
Qed.

Lemma all_networks_In locals bl t n :
  In n (all_networks locals bl t) <->
  ~ In n bl /\ (In n locals \/ In n (map (fun e => fst (fst e)) t) \/ In n (flat_map (fun e => akeys (snd e)) t)).
Proof.
  unfold all_networks. rewrite filter_In, nodup_In, !in_app_iff, negb_true_iff.
  assert (mem n bl = false <-> ~ In n bl) by (rewrite <- mem_In; destruct (mem n bl); split; congruence).
  tauto.
Qed.
Lemma all_networks_NoDup locals bl t : NoDup (all_networks locals bl t).
Proof. apply NoDup_filter, NoDup_nodup. Qed.

(** * The loop never fails when the source is not blacklisted *)
Lemma set_remove_ok u l : In u l -> set_remove u l = Ok (remove string_dec u l).
Proof. intros Hi. unfold set_remove. apply mem_In in Hi. rewrite Hi. reflexivity. Qed.
Lemma remove_length_NoDup u l : In u l -> (List.length (remove string_dec u l) < List.length l)%nat.
Proof. apply remove_length_lt. Qed.

Lemma pick_In (dist : dist_map) unv c cs :
  map (fun nc : string * Z => (snd nc, fst nc)) (filter (fun nc => mem (fst nc) unv) dist) = c :: cs ->
  let m := cn_min c cs in
  In (snd m) unv /\ In (snd m, fst m) dist /\ (forall n x, In (n, x) dist -> In n unv -> fst m <= x).
Proof.
  intros E m.
  assert (Hm : In m (c :: cs)) by (destruct (cn_min_spec cs c) as ([H1|H1] & _); unfold m; [rewrite H1; cbn; auto | cbn; auto]).
  rewrite <- E in Hm. apply in_map_iff in Hm as ([n x] & Hx & Hf). cbn in Hx. rewrite <- Hx. cbn [fst snd].
  apply filter_In in Hf as [Hf Hu]. cbn in Hu. apply mem_In in Hu. split; [exact Hu|]. split; [exact Hf|].
  intros n' x' Hi Hn'. destruct (cn_min_spec cs c) as (_ & H2 & H3). fold m in H2, H3. rewrite <- Hx in H2, H3. cbn [fst] in *.
  assert (Hin : In (x', n') (c :: cs)).
  { rewrite <- E. apply in_map_iff. exists (n', x'). split; [reflexivity|]. apply filter_In. split; [exact Hi|]. cbn.
    apply mem_In. exact Hn'. }
  destruct Hin as [->|Hin]; [exact H2|]. apply (H3 _ Hin).
Qed.

Lemma dij_loop_ok src bl mx t : forall fuel unv dp,
  (List.length unv < fuel)%nat -> (fst dp = [] -> In src unv) ->
  exists r, dij_loop fuel src bl mx t unv dp = Ok r.
Proof.
  induction fuel as [|f IH]; intros unv dp Hlen Hsrc; [lia|]. cbn [dij_loop].
  destruct unv as [|n0 unv0] eqn:Eu; [eauto|]. rewrite <- Eu in *. clear Eu n0 unv0.
  assert (Hvisit : forall u uc, In u unv -> (fst dp = [] -> u = src) ->
    exists r, (if eqb u src && match fst (relax_all src bl mx t u uc dp) with [] => true | _ => false end
               then Ok (relax_all src bl mx t u uc dp)
               else do! unv' <- set_remove u unv; dij_loop f src bl mx t unv' (relax_all src bl mx t u uc dp)) = Ok r).
  { intros u uc Hu He.
    destruct (eqb u src && match fst (relax_all src bl mx t u uc dp) with [] => true | _ => false end) eqn:Ec; [eauto|].
    rewrite set_remove_ok by assumption. cbn [bind]. apply IH.
    - pose proof (remove_length_NoDup _ _ Hu). lia.
    - intros He'. exfalso. destruct (fst dp) eqn:Ed.
      + rewrite He' in Ec. rewrite (He eq_refl), eqb_refl in Ec. discriminate.
      + apply (relax_all_nonempty src bl mx t u uc dp); [rewrite Ed; discriminate | exact He']. }
  destruct (fst dp) as [|e0 d0] eqn:Ed.
  - apply Hvisit; auto.
  - rewrite <- Ed in *.
    destruct (map _ (filter _ (fst dp))) as [|c cs] eqn:Em; [eauto|].
    destruct (pick_In _ _ _ _ Em) as (H1 & H2 & _). apply Hvisit; [exact H1|]. rewrite Ed. discriminate.
Qed.

Theorem dijkstra_ok locals bl mx t src : In src locals -> ~ In src bl ->
  exists r, dijkstra locals bl mx t src = Ok r.
Proof.
  intros Hl Hb. unfold dijkstra. apply dij_loop_ok; [lia|]. intros _. apply all_networks_In. auto.
Qed.

(** * The invariant of Dijkstra's algorithm *)
Section Dijkstra.
  Variables (src : string) (locals bl : list string) (mx : Z) (t : vtable).
  Hypothesis (Hwf : wft t) (Hnn : nonneg t).
  Let all := all_networks locals bl t.

  Definition dd (dist : dist_map) (v : string) : option Z := if eqb v src then Some 0 else aget v dist.

  Record inv (unv vis : list string) (dist : dist_map) (prev : prev_map) : Prop := {
    i_unv  : forall n, In n unv <-> In n all /\ ~ In n vis;
    i_nd   : NoDup vis;
    i_dist : forall v x, aget v dist = Some x ->
               v <> src /\ ~ In v bl /\ 0 <= x <= mx /\ In v all /\
               exists u p c xu, aget v prev = Some (u, p) /\ In u vis /\ edge t u p v c /\ dd dist u = Some xu /\ x = xu + c;
    i_prev : forall v, aget v dist = None -> aget v prev = None;
    i_vis  : forall l1 v l2, vis = l1 ++ v :: l2 -> v <> src ->
               exists u p, aget v prev = Some (u, p) /\ In u l2;
    i_ord  : forall v x a b, In v vis -> ~ In x vis -> dd dist v = Some a -> aget x dist = Some b -> a <= b;
    i_rel  : forall v p w c a, In v vis -> edge t v p w c -> dd dist v = Some a -> w <> src -> ~ In w bl -> a + c <= mx ->
               exists b, aget w dist = Some b /\ b <= a + c }.

  Lemma edge_dest_all u p v c : edge t u p v c -> ~ In v bl -> In v all.
  Proof.
    intros He Hb. apply all_networks_In. split; [exact Hb|]. right; right.
    apply (edge_In _ _ _ _ _ Hwf) in He as (d & H1 & H2).
    apply in_flat_map. exists ((u, p), d). split; [exact H1|]. cbn. apply (in_map fst) in H2. exact H2.
  Qed.

  Lemma inv_vis_dist unv vis dist prev v : inv unv vis dist prev -> In v vis -> exists a, dd dist v = Some a.
  Proof.
    intros Hi Hv. unfold dd. destruct (eqb_ok v src) as [|Hn]; [eauto|].
    apply in_split in Hv as (l1 & l2 & E). destruct (i_vis _ _ _ _ Hi l1 v l2 E Hn) as (u & p & Hp & _).
    destruct (aget v dist) as [x|] eqn:Ex; [eauto|]. apply (i_prev _ _ _ _ Hi) in Ex. congruence.
  Qed.

  Lemma inv_step unv vis dist prev u ucost unv' :
    inv unv vis dist prev -> ~ In u vis -> dd dist u = Some ucost -> 0 <= ucost ->
    (forall v a, In v vis -> dd dist v = Some a -> a <= ucost) ->
    (forall x b, ~ In x vis -> aget x dist = Some b -> ucost <= b) ->
    (forall n, In n unv' <-> In n unv /\ n <> u) ->
    let dp := relax_all src bl mx t u ucost (dist, prev) in
    inv unv' (u :: vis) (fst dp) (snd dp).
  Proof.
    intros Hi Hu Hdu H0 Hold Hnew Hunv dp.
    assert (Hr : forall v, relaxed src bl mx u ucost (out_edges t u) (dist, prev) dp v)
      by (intros v; apply relax_all_relaxed).
    assert (Hsame : forall v, In v (u :: vis) -> v <> src -> aget v (fst dp) = aget v dist /\ aget v (snd dp) = aget v prev).
    { intros v Hv Hvs. destruct (Hr v) as [(Ha & Hb & _)|(_ & _ & p & c & He & _ & _ & _ & Hlt & _)]; [auto|].
      exfalso. apply (out_edges_In t u p v c Hwf) in He. apply Hnn in He. cbn [fst] in Hlt.
      destruct Hv as [<-|Hv].
      - unfold dd in Hdu. rewrite eqb_neq in Hdu by assumption. specialize (Hlt _ Hdu). lia.
      - destruct (inv_vis_dist _ _ _ _ _ Hi Hv) as (a & Hda). pose proof (Hold _ _ Hv Hda) as Hle.
        unfold dd in Hda. rewrite eqb_neq in Hda by assumption. specialize (Hlt _ Hda). lia. }
    assert (Hdd : forall v, In v (u :: vis) -> dd (fst dp) v = dd dist v).
    { intros v Hv. unfold dd. destruct (eqb_ok v src) as [|Hn]; [reflexivity|]. apply (Hsame v Hv Hn). }
    split.
    - intros n. rewrite Hunv, (i_unv _ _ _ _ Hi n). cbn. intuition congruence.
    - constructor; [exact Hu | apply (i_nd _ _ _ _ Hi)].
    - intros v x Hx. destruct (Hr v) as [(Ha & Hb & _)|(Hs & Hnb & p & c & He & Ha & Hb & Hm & _)].
      + rewrite Hx in Ha. cbn [fst snd] in *. symmetry in Ha.
        destruct (i_dist _ _ _ _ Hi v x Ha) as (H1 & H2 & H3 & H4 & w & p & c & xw & H5 & H6 & H7 & H8 & H9).
        repeat (split; [assumption|]). exists w, p, c, xw. rewrite Hb. split; [assumption|]. split; [cbn; auto|].
        split; [assumption|]. split; [|assumption]. rewrite Hdd by (cbn; auto). assumption.
      + rewrite Hx in Ha. injection Ha as ->.
        apply (out_edges_In t u p v c Hwf) in He. pose proof (Hnn _ _ _ _ He).
        split; [assumption|]. split; [assumption|]. split; [lia|]. split; [eapply edge_dest_all; eauto|].
        exists u, p, c, ucost. split; [assumption|]. split; [cbn; auto|]. split; [assumption|].
        split; [|reflexivity]. rewrite Hdd by (cbn; auto). assumption.
    - intros v Hv. destruct (Hr v) as [(Ha & Hb & _)|(_ & _ & p & c & _ & Ha & _)]; [|congruence].
      rewrite Hb. cbn [fst snd] in *. apply (i_prev _ _ _ _ Hi). congruence.
    - intros l1 v l2 E Hvs.
      assert (Hv : In v (u :: vis)) by (rewrite E; apply in_app_iff; cbn; auto).
      destruct (Hsame v Hv Hvs) as [_ Hp]. rewrite Hp.
      destruct l1 as [|z l1]; cbn in E; injection E as E1 E2.
      + subst v l2. unfold dd in Hdu. rewrite eqb_neq in Hdu by assumption.
        destruct (i_dist _ _ _ _ Hi u _ Hdu) as (_ & _ & _ & _ & w & p & c & xw & H5 & H6 & _). eauto.
      + apply (i_vis _ _ _ _ Hi l1 v l2 E2 Hvs).
    - intros v x a b Hv Hx Ha Hb. rewrite Hdd in Ha by assumption.
      assert (Hx1 : x <> u /\ ~ In x vis) by (cbn in Hx; intuition congruence).
      assert (Hau : a <= ucost).
      { destruct Hv as [<-|Hv]; [|eauto]. rewrite Hdu in Ha. injection Ha as ->. lia. }
      destruct (Hr x) as [(Hc & _)|(_ & _ & p & c & He & Hc & _)]; rewrite Hb in Hc; cbn [fst] in Hc.
      + symmetry in Hc. pose proof (Hnew x b (proj2 Hx1) Hc). lia.
      + injection Hc as ->. apply (out_edges_In t u p x c Hwf) in He. apply Hnn in He. lia.
    - intros v p w c a Hv He Ha Hws Hwb Hle. rewrite Hdd in Ha by assumption.
      destruct Hv as [<-|Hv].
      + rewrite Hdu in Ha. injection Ha as <-.
        apply (out_edges_In t u p w c Hwf) in He.
        destruct (Hr w) as [(Hb & _ & Hc)|(_ & _ & q & c' & He' & Hb & _ & _ & _ & Hmin)]; cbn [fst] in *.
        * destruct (Hc _ _ He Hws Hwb Hle) as (x & Hx & Hxle). exists x. rewrite Hb. auto.
        * exists (ucost + c'). split; [exact Hb|]. eapply Hmin; eauto.
      + destruct (i_rel _ _ _ _ Hi v p w c a Hv He Ha Hws Hwb Hle) as (b & Hb & Hble).
        destruct (Hr w) as [(Hb' & _)|(_ & _ & q & c' & He' & Hb' & _ & _ & Hlt & _)]; cbn [fst] in *.
        * exists b. rewrite Hb'. auto.
        * exists (ucost + c'). split; [exact Hb'|]. specialize (Hlt _ Hb). lia.
  Qed.

  Definition done (vis : list string) (dp : dist_map * prev_map) : Prop :=
    (exists unv, inv unv vis (fst dp) (snd dp)) /\ In src vis /\ (forall v x, aget v (fst dp) = Some x -> In v vis).

  Lemma in_remove_iff u (l : list string) n : In n (remove string_dec u l) <-> In n l /\ n <> u.
  Proof. split; [apply in_remove | intros [H1 H2]; apply in_in_remove; auto]. Qed.

  Lemma aget_keys_nodup (d : dist_map) n x : NoDup (akeys d) -> In (n, x) d -> aget n d = Some x.
  Proof. intros Hnd Hi. apply In_aget; assumption. Qed.

  Lemma relax_all_nodup u uc dp : NoDup (akeys (fst dp)) -> NoDup (akeys (fst (relax_all src bl mx t u uc dp))).
  Proof.
    unfold relax_all. rewrite relax_flat. generalize (flat_edges (filter (fun e => eqb (fst (fst e)) u) t)). intros es.
    revert dp. induction es as [|[p [v c]] es IH]; intros dp Hnd; cbn [fold_left]; [exact Hnd|].
    apply IH. unfold relax1, relax. cbn [fst snd].
    destruct (eqb v src); [exact Hnd|]. destruct (mem v bl); [exact Hnd|]. destruct (mx <? uc + c); [exact Hnd|].
    destruct (aget v (fst dp)); [destruct (uc + c <? z); [|exact Hnd]|]; cbn [fst]; apply NoDup_akeys_aset; exact Hnd.
  Qed.

  Lemma dij_loop_done : forall fuel unv vis dp r,
    inv unv vis (fst dp) (snd dp) -> NoDup (akeys (fst dp)) -> In src vis -> fst dp <> [] ->
    dij_loop fuel src bl mx t unv dp = Ok r -> exists vis', done vis' r.
  Proof.
    induction fuel as [|f IH]; intros unv vis dp r Hi Hnd Hsrc Hne E; cbn [dij_loop] in E; [discriminate|].
    assert (Hall : forall v x, aget v (fst dp) = Some x -> ~ In v unv -> In v vis).
    { intros v x Hx Hn. destruct (i_dist _ _ _ _ Hi v x Hx) as (_ & _ & _ & Hv & _).
      destruct (in_dec string_dec v vis) as [|Hnv]; [assumption|].
      exfalso. apply Hn. apply (i_unv _ _ _ _ Hi). auto. }
    destruct unv as [|n0 unv0] eqn:Eu.
    { injection E as <-. exists vis. split; [eauto|]. split; [exact Hsrc|]. intros v x Hx. apply (Hall v x Hx). intros []. }
    rewrite <- Eu in *. clear Eu n0 unv0.
    destruct (fst dp) as [|e0 d0] eqn:Ed; [congruence|]. rewrite <- Ed in *.
    destruct (map _ (filter _ (fst dp))) as [|c cs] eqn:Em.
    { injection E as <-. exists vis. split; [eauto|]. split; [exact Hsrc|]. intros v x Hx. apply (Hall v x Hx).
      intros Hu. apply map_eq_nil in Em. apply aget_In in Hx.
      assert (Hf : In (v, x) (filter (fun nc : string * Z => mem (fst nc) unv) (fst dp))).
      { apply filter_In. split; [exact Hx|]. cbn. apply mem_In. exact Hu. }
      rewrite Em in Hf. exact Hf. }
    destruct (pick_In _ _ _ _ Em) as (H1 & H2 & H3). set (m := cn_min c cs) in *. clearbody m.
    destruct m as [uc u]. cbn [fst snd] in *.
    pose proof (proj1 (i_unv _ _ _ _ Hi u) H1) as [Hua Huv].
    assert (Hus : u <> src) by (intros ->; contradiction).
    rewrite (eqb_neq u src) in E by assumption. cbn [andb] in E. rewrite set_remove_ok in E by assumption. cbn [bind] in E.
    assert (Hd : aget u (fst dp) = Some uc) by (apply In_aget; assumption).
    assert (Hdd : dd (fst dp) u = Some uc) by (unfold dd; rewrite eqb_neq by assumption; exact Hd).
    destruct dp as [dist prev]. cbn [fst snd] in *.
    pose proof (inv_step unv vis dist prev u uc (remove string_dec u unv) Hi Huv Hdd) as Hs.
    eapply (IH _ (u :: vis)); [apply Hs| | | |exact E].
    - apply (i_dist _ _ _ _ Hi u uc Hd).
    - intros v a Hv Ha. apply (i_ord _ _ _ _ Hi v u a uc Hv Huv Ha Hd).
    - intros x b Hx Hb. apply (H3 x b); [apply aget_In; exact Hb|].
      apply (i_unv _ _ _ _ Hi). split; [apply (i_dist _ _ _ _ Hi x b Hb)|exact Hx].
    - intros n. apply in_remove_iff.
    - apply (relax_all_nodup u uc (dist, prev)). exact Hnd.
    - cbn; auto.
    - apply (relax_all_nonempty src bl mx t u uc (dist, prev)). exact Hne.
  Qed.

  Lemma inv_init : inv all [] [] [].
  Proof.
    split; try (cbn; discriminate).
    - intros n. cbn. tauto.
    - constructor.
    - intros v _. reflexivity.
    - intros l1 v l2 E. destruct l1; discriminate.
    - intros v p w c a [].
  Qed.

  Lemma dijkstra_done r : In src locals -> ~ In src bl -> dijkstra locals bl mx t src = Ok r -> exists vis, done vis r.
  Proof.
    intros Hl Hb E. unfold dijkstra in E. cbn [dij_loop] in E. fold all in E.
    assert (Hsrc : In src all) by (apply all_networks_In; auto).
    destruct all as [|n0 unv0] eqn:Eu; [destruct Hsrc|]. rewrite <- Eu in *. cbn [fst] in E.
    rewrite eqb_refl in E. cbn [andb] in E.
    assert (Hs : inv (remove string_dec src all) [src] (fst (relax_all src bl mx t src 0 ([], [])))
                     (snd (relax_all src bl mx t src 0 ([], [])))).
    { apply (inv_step all [] [] [] src 0 (remove string_dec src all) inv_init).
      - intros [].
      - unfold dd. rewrite eqb_refl. reflexivity.
      - lia.
      - intros v a [].
      - cbn. discriminate.
      - intros n. apply in_remove_iff. }
    set (dp := relax_all src bl mx t src 0 ([], [])) in *.
    destruct (fst dp) as [|e0 d0] eqn:Ed.
    - injection E as <-. exists [src]. split; [exists (remove string_dec src all); rewrite Ed; exact Hs|]. split; [cbn; auto|].
      rewrite Ed. cbn. discriminate.
    - rewrite set_remove_ok in E by exact Hsrc. cbn [bind] in E. rewrite <- Ed in Hs.
      eapply (dij_loop_done _ _ [src] dp r Hs); [| | |exact E].
      + apply (relax_all_nodup src 0 ([], [])). constructor.
      + cbn; auto.
      + congruence.
  Qed.

  (** optimality: the distances bound every walk *)
  Lemma done_optimal vis dp : done vis dp -> forall u v hops c, walk t bl u v hops c ->
    forall a, In u vis -> dd (fst dp) u = Some a -> 0 <= a -> a + c <= mx -> v <> src ->
    exists b, aget v (fst dp) = Some b /\ b <= a + c.
  Proof.
    intros ((unv & Hi) & Hs & Hd) u v hops c Hw.
    induction Hw as [u p v c He Hb|u p v c w hops c' He Hb Hw IH]; intros a Hu Ha H0 Hle Hn.
    - eapply (i_rel _ _ _ _ Hi); eauto.
    - assert (Hc' : 0 <= c').
      { clear - Hw Hnn. induction Hw as [u p v c He Hb|u p v c w hops c' He Hb Hw IH].
        - apply (Hnn _ _ _ _ He).
        - pose proof (Hnn _ _ _ _ He). lia. }
      pose proof (Hnn _ _ _ _ He) as Hc.
      destruct (eqb_ok v src) as [->|Hvs].
      + destruct (IH 0) as (b & Hb1 & Hb2).
        * exact Hs.
        * unfold dd. rewrite eqb_refl. reflexivity.
        * lia.
        * lia.
        * exact Hn.
        * exists b. split; [exact Hb1|]. lia.
      + destruct (i_rel _ _ _ _ Hi u p v c a Hu He Ha Hvs Hb) as (b & Hb1 & Hb2); [lia|].
        destruct (IH b) as (b' & Hb3 & Hb4).
        * eauto.
        * unfold dd. rewrite eqb_neq by assumption. exact Hb1.
        * apply (i_dist _ _ _ _ Hi v b Hb1).
        * lia.
        * exact Hn.
        * exists b'. split; [exact Hb3|]. lia.
  Qed.

  (** following [prev] *)
  Lemma path_loop_ok unv vis dist prev : inv unv vis dist prev -> forall l l1 v fuel acc,
    vis = l1 ++ l -> In v l -> v <> src -> (List.length l <= fuel)%nat ->
    exists hops c, path_loop fuel prev src v acc = Ok (hops ++ acc) /\ walk t bl src v hops c /\ aget v dist = Some c.
  Proof.
    intros Hi. induction l as [|w l IH]; intros l1 v fuel acc E Hv Hn Hf; [destruct Hv|].
    cbn in Hf. destruct fuel as [|f]; [lia|].
    destruct Hv as [<-|Hv].
    2:{ apply (IH (l1 ++ [w]) v (S f) acc); auto; [|lia]. rewrite <- app_assoc. exact E. }
    destruct (i_vis _ _ _ _ Hi l1 w l E Hn) as (u & p & Hp & Hul).
    cbn [path_loop]. rewrite eqb_neq by assumption. rewrite Hp.
    destruct (aget w dist) as [x|] eqn:Ex; [|apply (i_prev _ _ _ _ Hi) in Ex; congruence].
    destruct (i_dist _ _ _ _ Hi w x Ex) as (_ & Hnb & _ & _ & u' & p' & c & xu & Hp' & Huv & He & Hxu & ->).
    rewrite Hp in Hp'. injection Hp' as <- <-.
    destruct (eqb_ok u src) as [->|Hus].
    - exists [(src, p)], c. unfold dd in Hxu. rewrite eqb_refl in Hxu. injection Hxu as <-.
      split; [|split; [constructor; auto|reflexivity]]. destruct f; cbn [path_loop]; rewrite eqb_refl; reflexivity.
    - destruct (IH (l1 ++ [w]) u f ((u, p) :: acc)) as (hops & c' & H1 & H2 & H3).
      + rewrite <- app_assoc. exact E.
      + exact Hul.
      + exact Hus.
      + lia.
      + exists (hops ++ [(u, p)]), (c' + c). rewrite H1, <- app_assoc. split; [reflexivity|].
        split; [eapply walk_snoc; eauto|]. unfold dd in Hxu. rewrite eqb_neq in Hxu by assumption. congruence.
  Qed.

  Lemma NoDup_remove_length (l : list string) x : NoDup l -> (List.length l <= S (List.length (remove string_dec x l)))%nat.
  Proof.
    induction l as [|y l IH]; cbn; intros Hnd; [lia|]. inversion Hnd as [|? ? Hni Hnd']; subst.
    destruct (string_dec x y) as [->|Hn]; cbn.
    - rewrite notin_remove by assumption. lia.
    - specialize (IH Hnd'). lia.
  Qed.

  Theorem path_from_done vis dp dst : done vis dp -> dst <> src ->
    match aget dst (fst dp) with
    | Some c => exists hops, path_from (snd dp) src dst = Ok (Some hops) /\ walk t bl src dst hops c /\ c <= mx
    | None => path_from (snd dp) src dst = Ok None
    end.
  Proof.
    intros ((unv & Hi) & Hs & Hd) Hn. destruct (aget dst (fst dp)) as [c|] eqn:Ec.
    2:{ unfold path_from. rewrite (i_prev _ _ _ _ Hi dst Ec). reflexivity. }
    pose proof (Hd _ _ Ec) as Hv. apply in_split in Hv as (l1 & l2 & E).
    destruct (i_vis _ _ _ _ Hi l1 dst l2 E Hn) as (u & p & Hp & Hu).
    destruct (i_dist _ _ _ _ Hi dst c Ec) as (_ & Hnb & Hc & _ & u' & p' & c1 & xu & Hp' & _ & He & Hxu & ->).
    rewrite Hp in Hp'. injection Hp' as <- <-.
    unfold path_from. rewrite Hp.
    destruct (eqb_ok u src) as [->|Hus].
    - exists [(src, p)]. unfold dd in Hxu. rewrite eqb_refl in Hxu. injection Hxu as <-.
      split; [|split; [constructor; auto | lia]].
      destruct (List.length (snd dp)); cbn [path_loop]; rewrite eqb_refl; reflexivity.
    - assert (Hlen : (List.length l2 <= List.length (snd dp))%nat).
      { assert (H1 : (List.length (remove string_dec src vis) <= List.length (akeys (snd dp)))%nat).
        { apply NoDup_incl_length.
          - clear -Hi. pose proof (i_nd _ _ _ _ Hi) as Hnd. revert Hnd. generalize vis. intros l.
            induction l as [|y l IH]; intros Hnd; cbn; [constructor|]. inversion Hnd as [|? ? Hni Hnd']; subst.
            destruct (string_dec src y); [auto|]. constructor; [|auto]. intros Hy. apply in_remove in Hy as [Hy _]. auto.
          - intros x Hx. apply in_remove in Hx as [Hx Hxs]. apply in_split in Hx as (m1 & m2 & Ex).
            destruct (i_vis _ _ _ _ Hi m1 x m2 Ex Hxs) as (y & q & Hy & _). apply aget_Some_In_keys in Hy. exact Hy. }
        pose proof (NoDup_remove_length vis src (i_nd _ _ _ _ Hi)) as H2.
        unfold akeys in H1. rewrite map_length in H1. rewrite E, app_length in H2. cbn in H2. rewrite E in H1. lia. }
      destruct (path_loop_ok _ _ _ _ Hi l2 (l1 ++ [dst]) u (List.length (snd dp)) [(u, p)]) as (hops & c2 & H1 & H2 & H3).
      + rewrite <- app_assoc. exact E.
      + exact Hu.
      + exact Hus.
      + exact Hlen.
      + rewrite H1. cbn [bind]. exists (hops ++ [(u, p)]). unfold dd in Hxu. rewrite eqb_neq in Hxu by assumption.
        rewrite H3 in Hxu. injection Hxu as ->. split; [reflexivity|]. split; [eapply walk_snoc; eauto|lia].
  Qed.

  Theorem path_from_src vis dp : done vis dp -> path_from (snd dp) src src = Ok None.
  Proof.
    intros ((unv & Hi) & _). unfold path_from.
    destruct (aget src (fst dp)) as [x|] eqn:E.
    - destruct (i_dist _ _ _ _ Hi _ _ E) as (Hx & _). congruence.
    - rewrite (i_prev _ _ _ _ Hi _ E). reflexivity.
  Qed.
End Dijkstra.

(** * Upkeep of the tables *)
Record linv (s : lvec) : Prop := {
  l_vecs  : NoDup (akeys (lv_vecs s));
  l_heap  : forall d, In d (lv_heap s) -> NoDup (akeys d);
  l_refs  : forall k r, In (k, r) (lv_vecs s) -> (r < List.length (lv_heap s))%nat;
  l_black : forall n, In n (lv_local s) -> ~ In n (lv_black s);
  l_fresh : forall n, In n (lv_local s) ->
              exists d p, dijkstra (lv_local s) (lv_black s) (lv_max s) (lv_table s) n = Ok (d, p) /\
                          aget n (lv_prev s) = Some p }.

Lemma akeys_table s : akeys (lv_table s) = akeys (lv_vecs s).
Proof. unfold lv_table, akeys. rewrite map_map. reflexivity. Qed.

Lemma linv_wft s : linv s -> wft (lv_table s).
Proof.
  intros Hi. split.
  - rewrite akeys_table. apply (l_vecs _ Hi).
  - intros k d Hd. unfold lv_table in Hd. apply in_map_iff in Hd as ([k' r] & E & Hin). injection E as <- <-.
    apply (l_heap _ Hi). apply nth_In. eapply l_refs; eauto.
Qed.

Lemma calculate_ok ns : forall s,
  (forall n, In n ns -> In n (lv_local s) /\ ~ In n (lv_black s)) ->
  exists dist prev, calculate ns s = (mkLV (lv_local s) (lv_black s) (lv_max s) (lv_heap s) (lv_vecs s) dist prev, None) /\
    (forall n, In n ns -> exists d p, dijkstra (lv_local s) (lv_black s) (lv_max s) (lv_table s) n = Ok (d, p) /\ aget n prev = Some p) /\
    (forall n, ~ In n ns -> aget n prev = aget n (lv_prev s)).
Proof.
  induction ns as [|n ns IH]; intros s Hns; cbn [calculate].
  - exists (lv_dist s), (lv_prev s). split; [destruct s; reflexivity|]. split; [intros n []|auto].
  - destruct (Hns n (or_introl eq_refl)) as [Hl Hb].
    destruct (dijkstra_ok (lv_local s) (lv_black s) (lv_max s) (lv_table s) n Hl Hb) as ([d p] & E). rewrite E.
    match goal with |- context [calculate ns ?x] => destruct (IH x) as (dist & prev & H1 & H2 & H3) end.
    { cbn. intros m Hm. apply Hns. cbn; auto. }
    exists dist, prev. split; [exact H1|]. split.
    + intros m [<-|Hm]; [|apply (H2 m Hm)].
      destruct (in_dec string_dec n ns) as [Hi|Hi]; [apply (H2 n Hi)|].
      exists d, p. split; [exact E|]. rewrite (H3 n Hi). cbn [lv_prev]. apply aget_aset_eq.
    + intros m Hm. rewrite (H3 m) by (intros Hx; apply Hm; cbn; auto). cbn [lv_prev]. apply aget_aset_ne.
      intros ->. apply Hm. cbn; auto.
Qed.

Lemma calculate_vectors_linv s :
  NoDup (akeys (lv_vecs s)) -> (forall d, In d (lv_heap s) -> NoDup (akeys d)) ->
  (forall k r, In (k, r) (lv_vecs s) -> (r < List.length (lv_heap s))%nat) ->
  (forall n, In n (lv_local s) -> ~ In n (lv_black s)) ->
  exists s', calculate_vectors s = (s', None) /\ linv s' /\
    lv_local s' = lv_local s /\ lv_black s' = lv_black s /\ lv_max s' = lv_max s /\ lv_heap s' = lv_heap s /\ lv_vecs s' = lv_vecs s.
Proof.
  intros H1 H2 H3 H4. unfold calculate_vectors.
  destruct (calculate_ok (lv_local s) s) as (dist & prev & E & Hc & _); [auto|].
  rewrite E. eexists. split; [reflexivity|]. cbn. split; [|auto 10].
  split; cbn; auto.
Qed.

Lemma set_nth_length {A} i (x : A) l : List.length (set_nth i x l) = List.length l.
Proof. revert i; induction l as [|y l IH]; intros [|i]; cbn; auto. Qed.
Lemma set_nth_In {A} i (x : A) l y : In y (set_nth i x l) -> y = x \/ In y l.
Proof.
  revert i; induction l as [|z l IH]; intros [|i]; cbn; auto.
  - intros [->|H]; auto.
  - intros [->|H]; auto. apply IH in H as [->|H]; auto.
Qed.
Lemma nth_set_nth {A} i j (x d : A) l : (i < List.length l)%nat ->
  nth j (set_nth i x l) d = if (j =? i)%nat then x else nth j l d.
Proof.
  revert i j; induction l as [|y l IH]; intros [|i] [|j] Hl; cbn in *; try lia; auto.
  apply IH. lia.
Qed.

Lemma merge_new_get new : forall old k, NoDup (akeys new) ->
  aget k (merge_new old new) = match aget k old with Some c => Some c | None => aget k new end.
Proof.
  unfold merge_new. induction new as [|[w c] new IH]; intros old k Hnd; cbn [fold_left].
  - cbn. destruct (aget k old); reflexivity.
  - cbn in Hnd. inversion Hnd as [|? ? Hni Hnd']; subst. rewrite IH by assumption. cbn [fst snd].
    unfold ahas. destruct (aget w old) as [x|] eqn:E.
    + cbn [aget]. destruct (aget k old) eqn:Ek; [reflexivity|].
      rewrite eqb_neq by congruence. reflexivity.
    + rewrite aget_aset. cbn [aget]. destruct (eqb_ok k w) as [->|Hn]; [rewrite E; reflexivity|].
      destruct (aget k old); reflexivity.
Qed.
Lemma merge_new_nodup new : forall old, NoDup (akeys old) -> NoDup (akeys (merge_new old new)).
Proof.
  unfold merge_new. induction new as [|[w c] new IH]; intros old Hnd; cbn [fold_left]; [exact Hnd|].
  apply IH. destruct (ahas (fst (w, c)) old); [exact Hnd|]. apply NoDup_akeys_aset. exact Hnd.
Qed.

Lemma In_aset {K V} `{EqB K} (k k' : K) (v v' : V) d : In (k, v) (aset k' v' d) -> v = v' \/ In (k, v) d.
Proof.
  induction d as [|[k1 v1] r IH]; cbn.
  - intros [E|[]]. injection E as -> ->. auto.
  - destruct (eqb k' k1); cbn.
    + intros [E|Hr]; [injection E as _ ->; auto|auto].
    + intros [E|Hr]; [auto|]. apply IH in Hr as [->|Hr]; auto.
Qed.
Lemma In_adel {K V} `{EqB K} (k k' : K) (v : V) d : In (k, v) (adel k' d) -> In (k, v) d.
Proof.
  induction d as [|[k1 v1] r IH]; cbn; [auto|].
  destruct (eqb k' k1); cbn; [auto|]. intros [E|Hr]; auto.
Qed.

Lemma table_ext s s' : (forall k r, In (k, r) (lv_vecs s) -> nth r (lv_heap s') [] = nth r (lv_heap s) []) ->
  lv_vecs s' = lv_vecs s -> lv_table s' = lv_table s.
Proof.
  intros Hh Hv. unfold lv_table. rewrite Hv. apply map_ext_in. intros [k r] Hk. cbn. f_equal. eauto.
Qed.

Definition op_ok (bl : list string) (n : nat) (o : lv_op) : Prop :=
  match o with
  | LDict d => NoDup (akeys d)
  | LAdd l => ~ In l bl
  | LUpdate _ _ r => (r < n)%nat
  | LDelete _ _ => True
  end.

Lemma lv_step_linv s o : linv s -> op_ok (lv_black s) (List.length (lv_heap s)) o ->
  let s' := fst (lv_step s o) in
  linv s' /\ lv_black s' = lv_black s /\ lv_max s' = lv_max s /\
  List.length (lv_heap s') = (List.length (lv_heap s) + match o with LDict _ => 1 | _ => 0 end)%nat /\
  (snd (lv_step s o) = None \/ exists n, o = LAdd n /\ In n (lv_local s) /\ snd (lv_step s o) = Some EValue).
Proof.
  intros Hi Ho. destruct o as [d|n|net port r|net port]; cbn [lv_step fst snd op_ok] in *.
  - cbn [lv_black lv_max lv_heap]. split; [|repeat (split; [reflexivity|]); rewrite app_length; split; [cbn; lia|auto]].
    split; cbn [lv_vecs lv_heap lv_local lv_black lv_max lv_prev].
    + apply (l_vecs _ Hi).
    + intros d' Hd. apply in_app_iff in Hd as [Hd|[<-|[]]]; [apply (l_heap _ Hi); assumption|assumption].
    + intros k r Hr. rewrite app_length. apply (l_refs _ Hi) in Hr. cbn. lia.
    + apply (l_black _ Hi).
    + intros n Hn. destruct (l_fresh _ Hi n Hn) as (dd0 & p & E & Hp). exists dd0, p. split; [|exact Hp].
      rewrite (table_ext s); [exact E| |reflexivity]. cbn. intros k r Hr. apply app_nth1. eapply l_refs; eauto.
  - unfold add_local. destruct (mem n (lv_local s)) eqn:Em.
    + cbn. apply mem_In in Em. split; [exact Hi|]. split; [auto|]. split; [auto|]. split; [lia|]. right; eauto.
    + match goal with |- context [calculate_vectors ?x] => destruct (calculate_vectors_linv x) as (s' & E & Hl & H1 & H2 & H3 & H4 & H5) end.
      * apply (l_vecs _ Hi).
      * apply (l_heap _ Hi).
      * apply (l_refs _ Hi).
      * cbn. intros m Hm. apply in_app_iff in Hm as [Hm|[<-|[]]]; [apply (l_black _ Hi); assumption|assumption].
      * rewrite E. cbn [fst snd]. rewrite H2, H3, H4. cbn. split; [exact Hl|]. split; [auto|]. split; [auto|]. split; [lia|auto].
  - unfold update_vector. destruct (aget (net, port) (lv_vecs s)) as [r0|] eqn:Er.
    + assert (Hr0 : (r0 < List.length (lv_heap s))%nat) by (apply aget_In in Er; eapply l_refs; eauto).
      match goal with |- context [calculate_vectors ?x] => destruct (calculate_vectors_linv x) as (s' & E & Hl & H1 & H2 & H3 & H4 & H5) end;
        cbn [lv_vecs lv_heap lv_local lv_black lv_max lv_prev] in *.
      * apply (l_vecs _ Hi).
      * intros d Hd. apply set_nth_In in Hd as [->|Hd]; [|apply (l_heap _ Hi); assumption].
        apply merge_new_nodup. apply (l_heap _ Hi). apply nth_In. assumption.
      * intros k i Hk. rewrite set_nth_length. eapply l_refs; eauto.
      * apply (l_black _ Hi).
      * rewrite E. cbn [fst snd]. rewrite H2, H3, H4, set_nth_length. split; [exact Hl|]. split; [auto|]. split; [auto|]. split; [lia|auto].
    + match goal with |- context [calculate_vectors ?x] => destruct (calculate_vectors_linv x) as (s' & E & Hl & H1 & H2 & H3 & H4 & H5) end;
        cbn [lv_vecs lv_heap lv_local lv_black lv_max lv_prev] in *.
      * apply NoDup_akeys_aset. apply (l_vecs _ Hi).
      * apply (l_heap _ Hi).
      * intros k i Hk. apply In_aset in Hk as [->|Hk]; [assumption|]. eapply l_refs; eauto.
      * apply (l_black _ Hi).
      * rewrite E. cbn [fst snd]. rewrite H2, H3, H4. split; [exact Hl|]. split; [auto|]. split; [auto|]. split; [lia|auto].
  - unfold delete_vector. destruct (aget (net, port) (lv_vecs s)) as [r0|] eqn:Er.
    + match goal with |- context [calculate_vectors ?x] => destruct (calculate_vectors_linv x) as (s' & E & Hl & H1 & H2 & H3 & H4 & H5) end;
        cbn [lv_vecs lv_heap lv_local lv_black lv_max lv_prev] in *.
      * apply NoDup_akeys_adel. apply (l_vecs _ Hi).
      * apply (l_heap _ Hi).
      * intros k i Hk. apply In_adel in Hk. eapply l_refs; eauto.
      * apply (l_black _ Hi).
      * rewrite E. cbn [fst snd]. rewrite H2, H3, H4. split; [exact Hl|]. split; [auto|]. split; [auto|]. split; [lia|auto].
    + cbn. split; [exact Hi|]. split; [auto|]. split; [auto|]. split; [lia|auto].
Qed.

Lemma linv_init bl mx : linv (lv_init bl mx).
Proof. split; cbn; try constructor; intros; contradiction. Qed.

Lemma ops_ok_cons bl n o ops : ops_ok bl n (o :: ops) <->
  op_ok bl n o /\ ops_ok bl (n + match o with LDict _ => 1 | _ => 0 end)%nat ops.
Proof. destruct o; cbn; rewrite ?Nat.add_0_r, ?Nat.add_1_r; tauto. Qed.

Lemma fold_linv ops : forall s, linv s -> ops_ok (lv_black s) (List.length (lv_heap s)) ops ->
  let s' := fold_left (fun s o => fst (lv_step s o)) ops s in
  linv s' /\ lv_black s' = lv_black s /\ lv_max s' = lv_max s.
Proof.
  induction ops as [|o ops IH]; intros s Hi Ho; cbn [fold_left]; [auto|].
  apply ops_ok_cons in Ho as [Ho1 Ho2].
  destruct (lv_step_linv s o Hi Ho1) as (Hi' & Hb & Hm & Hh & _).
  destruct (IH (fst (lv_step s o)) Hi') as (H1 & H2 & H3).
  - rewrite Hb, Hh. exact Ho2.
  - split; [exact H1|]. split; congruence.
Qed.

Lemma run_linv bl mx ops : ops_ok bl 0 ops -> linv (lv_run bl mx ops) /\ lv_black (lv_run bl mx ops) = bl /\ lv_max (lv_run bl mx ops) = mx.
Proof. intros Ho. apply (fold_linv ops (lv_init bl mx) (linv_init bl mx)). exact Ho. Qed.

(** * The route theorems *)
Lemma lv_path_cases s dst src : linv s -> nonneg (lv_table s) -> In src (lv_local s) -> dst <> src ->
  (exists hops c, lv_path dst src s = Ok (Some hops) /\ walk (lv_table s) (lv_black s) src dst hops c /\ c <= lv_max s /\
     forall hops' c', walk (lv_table s) (lv_black s) src dst hops' c' -> c <= c') \/
  (lv_path dst src s = Ok None /\ forall hops c, walk (lv_table s) (lv_black s) src dst hops c -> lv_max s < c).
Proof.
  intros Hi Hnn Hl Hn. unfold lv_path.
  destruct (l_fresh _ Hi src Hl) as (d & p & E & Hp). rewrite Hp.
  rewrite (proj2 (mem_In _ _) Hl). cbn [negb].
  pose proof (linv_wft _ Hi) as Hw.
  destruct (dijkstra_done src _ _ _ _ Hw Hnn _ Hl (l_black _ Hi src Hl) E) as (vis & Hd).
  pose proof (path_from_done _ _ _ _ _ vis (d, p) dst Hd Hn) as Hpf. cbn [fst snd] in Hpf.
  pose proof (done_optimal src _ _ _ _ Hnn vis (d, p) Hd src dst) as Hopt.
  assert (Hs : In src vis) by apply Hd.
  assert (Hdd : dd src d src = Some 0) by (unfold dd; rewrite eqb_refl; reflexivity).
  destruct (aget dst d) as [c|] eqn:Ec.
  - left. destruct Hpf as (hops & H1 & H2 & H3). exists hops, c. split; [exact H1|]. split; [exact H2|]. split; [exact H3|].
    intros hops' c' Hw'. destruct (Z_le_gt_dec c' (lv_max s)) as [Hle|Hgt]; [|lia].
    destruct (Hopt hops' c' Hw' 0 Hs Hdd) as (b & Hb1 & Hb2); [lia|lia|exact Hn|]. cbn in Hb1. rewrite Ec in Hb1. injection Hb1 as <-. lia.
  - right. split; [exact Hpf|]. intros hops' c' Hw'. destruct (Z_le_gt_dec c' (lv_max s)) as [Hle|Hgt]; [|lia].
    destruct (Hopt hops' c' Hw' 0 Hs Hdd) as (b & Hb1 & Hb2); [lia|lia|exact Hn|]. cbn in Hb1. congruence.
Qed.

Lemma lv_path_self s src : linv s -> nonneg (lv_table s) -> In src (lv_local s) -> lv_path src src s = Ok None.
Proof.
  intros Hi Hnn Hl. unfold lv_path.
  destruct (l_fresh _ Hi src Hl) as (d & p & E & Hp). rewrite Hp.
  rewrite (proj2 (mem_In _ _) Hl). cbn [negb].
  destruct (dijkstra_done src _ _ _ _ (linv_wft _ Hi) Hnn _ Hl (l_black _ Hi src Hl) E) as (vis & Hd).
  apply (path_from_src _ _ _ _ _ vis (d, p) Hd).
Qed.

Lemma lv_path_nonlocal s dst src : ~ In src (lv_local s) -> lv_path dst src s = Err EValue.
Proof. intros Hn. unfold lv_path. destruct (mem src (lv_local s)) eqn:E; [apply mem_In in E; contradiction|reflexivity]. Qed.

Theorem c13 bl mx ops dst src hops : ops_ok bl 0 ops ->
  let s := lv_run bl mx ops in nonneg (lv_table s) -> lv_path dst src s = Ok (Some hops) ->
  In src (lv_local s) /\ exists c, walk (lv_table s) bl src dst hops c /\ c <= mx.
Proof.
  intros Ho s Hnn E. destruct (run_linv bl mx ops Ho) as (Hi & Hb & Hm). fold s in Hi, Hb, Hm.
  destruct (in_dec string_dec src (lv_local s)) as [Hl|Hl]; [|rewrite lv_path_nonlocal in E by assumption; discriminate].
  split; [exact Hl|]. destruct (string_dec dst src) as [->|Hn]; [rewrite lv_path_self in E by assumption; discriminate|].
  destruct (lv_path_cases s dst src Hi Hnn Hl Hn) as [(h & c & H1 & H2 & H3 & _)|(H1 & _)]; rewrite E in H1; [|discriminate].
  injection H1 as <-. rewrite Hb, Hm in *. eauto.
Qed.

Theorem c14_cheapest bl mx ops dst src hops : ops_ok bl 0 ops ->
  let s := lv_run bl mx ops in nonneg (lv_table s) -> lv_path dst src s = Ok (Some hops) ->
  exists c, walk (lv_table s) bl src dst hops c /\ forall hops' c', walk (lv_table s) bl src dst hops' c' -> c <= c'.
Proof.
  intros Ho s Hnn E. destruct (run_linv bl mx ops Ho) as (Hi & Hb & Hm). fold s in Hi, Hb, Hm.
  destruct (in_dec string_dec src (lv_local s)) as [Hl|Hl]; [|rewrite lv_path_nonlocal in E by assumption; discriminate].
  destruct (string_dec dst src) as [->|Hn]; [rewrite lv_path_self in E by assumption; discriminate|].
  destruct (lv_path_cases s dst src Hi Hnn Hl Hn) as [(h & c & H1 & H2 & H3 & H4)|(H1 & _)]; rewrite E in H1; [|discriminate].
  injection H1 as <-. rewrite Hb in *. eauto.
Qed.

Theorem c14_complete bl mx ops dst src : ops_ok bl 0 ops ->
  let s := lv_run bl mx ops in nonneg (lv_table s) -> In src (lv_local s) -> dst <> src ->
  (lv_path dst src s = Ok None <-> ~ exists hops c, walk (lv_table s) bl src dst hops c /\ c <= mx).
Proof.
  intros Ho s Hnn Hl Hn. destruct (run_linv bl mx ops Ho) as (Hi & Hb & Hm). fold s in Hi, Hb, Hm.
  destruct (lv_path_cases s dst src Hi Hnn Hl Hn) as [(h & c & H1 & H2 & H3 & H4)|(H1 & H2)]; rewrite H1; rewrite Hb, Hm in *.
  - split; [discriminate|]. intros Hx. exfalso. eauto.
  - split; [|reflexivity]. intros _ (h & c & Hw & Hc). specialize (H2 _ _ Hw). lia.
Qed.

Theorem c15_path bl mx ops dst src : ops_ok bl 0 ops ->
  let s := lv_run bl mx ops in nonneg (lv_table s) ->
  (In src (lv_local s) -> (exists r, lv_path dst src s = Ok r) /\ exists r, lv_vector dst src s = Ok r) /\
  (~ In src (lv_local s) -> lv_path dst src s = Err EValue /\ lv_vector dst src s = Err EValue).
Proof.
  intros Ho s Hnn. destruct (run_linv bl mx ops Ho) as (Hi & Hb & Hm). fold s in Hi, Hb, Hm. unfold lv_vector. split.
  - intros Hl. destruct (string_dec dst src) as [->|Hn].
    + rewrite lv_path_self by assumption. cbn. eauto.
    + destruct (lv_path_cases s dst src Hi Hnn Hl Hn) as [(h & c & H1 & H2 & _)|(H1 & _)]; rewrite H1; cbn [bind]; [|eauto].
      split; [eauto|]. destruct h as [|h0 h]; [inversion H2|eauto].
  - intros Hl. rewrite lv_path_nonlocal by assumption. auto.
Qed.

Theorem c15_ops bl mx ops o : ops_ok bl 0 (ops ++ [o]) ->
  let r := lv_step (lv_run bl mx ops) o in
  snd r = None \/ exists n, o = LAdd n /\ In n (lv_local (lv_run bl mx ops)) /\ r = (lv_run bl mx ops, Some EValue).
Proof.
  intros Ho r.
  assert (Hsplit : ops_ok bl 0 ops /\ op_ok bl (List.length (lv_heap (lv_run bl mx ops))) o).
  { unfold lv_run. revert Ho. change 0%nat with (List.length (lv_heap (lv_init bl mx))) at 1 2.
    assert (Hbl : lv_black (lv_init bl mx) = bl) by reflexivity. revert Hbl.
    generalize (linv_init bl mx). generalize (lv_init bl mx). induction ops as [|o' ops IH]; intros s Hi Hb Ho; cbn [app fold_left] in *.
    - apply ops_ok_cons in Ho as [Ho _]. cbn; auto.
    - apply ops_ok_cons in Ho as [Ho1 Ho2]. rewrite <- Hb in Ho1.
      destruct (lv_step_linv s o' Hi Ho1) as (Hi' & Hb' & Hm & Hh & _).
      destruct (IH (fst (lv_step s o')) Hi') as [H1 H2]; [congruence|rewrite Hh; exact Ho2|].
      split; [|exact H2]. apply ops_ok_cons. rewrite Hh in H1. rewrite Hb in Ho1. auto. }
  destruct Hsplit as [Ho1 Ho2]. destruct (run_linv bl mx ops Ho1) as (Hi & Hb & Hm).
  assert (Ho3 : op_ok (lv_black (lv_run bl mx ops)) (List.length (lv_heap (lv_run bl mx ops))) o) by (rewrite Hb; exact Ho2).
  destruct (lv_step_linv _ o Hi Ho3) as (_ & _ & _ & _ & [Hx|(n & -> & Hn & Hx)]); [auto|].
  right. exists n. split; [auto|]. split; [auto|]. unfold r. cbn [lv_step]. unfold add_local.
  rewrite (proj2 (mem_In _ _) Hn). reflexivity.
Qed.

Theorem c16_current bl mx ops ops' dst src : ops_ok bl 0 ops -> ops_ok bl 0 ops' ->
  let s := lv_run bl mx ops in let s' := lv_run bl mx ops' in
  lv_local s = lv_local s' -> lv_table s = lv_table s' -> lv_path dst src s = lv_path dst src s'.
Proof.
  intros Ho Ho' s s' Hl Ht.
  destruct (run_linv bl mx ops Ho) as (Hi & Hb & Hm). destruct (run_linv bl mx ops' Ho') as (Hi' & Hb' & Hm').
  fold s in Hi, Hb, Hm. fold s' in Hi', Hb', Hm'. clearbody s s'.
  unfold lv_path. rewrite <- Hl. destruct (mem src (lv_local s)) eqn:Em; cbn [negb]; [|reflexivity].
  apply mem_In in Em. destruct (l_fresh _ Hi src Em) as (d & p & E & Hp). rewrite Hl in Em.
  destruct (l_fresh _ Hi' src Em) as (d' & p' & E' & Hp'). rewrite Hp, Hp'.
  rewrite <- Hl, <- Ht, Hb', Hm' in E'. rewrite Hb, Hm in E. rewrite E in E'. injection E' as _ ->. reflexivity.
Qed.

Lemma walk_edge_In t bl u v hops c n p : walk t bl u v hops c -> In (n, p) hops -> exists w x, edge t n p w x.
Proof.
  induction 1 as [u q v c He Hb|u q v c w hops c' He Hb Hw IH]; cbn; intros Hi.
  - destruct Hi as [Hi|[]]. injection Hi as <- <-. eauto.
  - destruct Hi as [Hi|Hi]; [injection Hi as <- <-; eauto|auto].
Qed.

Lemma lv_run_snoc bl mx ops o : lv_run bl mx (ops ++ [o]) = fst (lv_step (lv_run bl mx ops) o).
Proof. unfold lv_run. rewrite fold_left_app. reflexivity. Qed.

Lemma ops_ok_snoc bl o ops : forall n, ops_ok bl n (ops ++ [o]) -> ops_ok bl n ops.
Proof.
  induction ops as [|o' ops IH]; intros n Ho; [exact I|]. cbn [app] in Ho.
  apply ops_ok_cons in Ho as [H1 H2]. apply ops_ok_cons. auto.
Qed.

Lemma calculate_fields ns : forall s, 
  let s' := fst (calculate ns s) in
  lv_local s' = lv_local s /\ lv_black s' = lv_black s /\ lv_max s' = lv_max s /\ lv_heap s' = lv_heap s /\ lv_vecs s' = lv_vecs s.
Proof.
  induction ns as [|n ns IH]; intros s; cbn [calculate]; [cbn; auto|].
  destruct (dijkstra _ _ _ _ n) as [[d p]|e]; [|cbn; auto]. apply (IH (mkLV _ _ _ _ _ _ _)).
Qed.

Lemma ops_ok_delete bl net port ops : forall n, ops_ok bl n ops -> ops_ok bl n (ops ++ [LDelete net port]).
Proof.
  induction ops as [|o ops IH]; intros n Ho; [exact I|]. cbn [app].
  apply ops_ok_cons in Ho as [H1 H2]. apply ops_ok_cons. auto.
Qed.

Theorem c16_deleted bl mx ops net port dst src hops : ops_ok bl 0 ops ->
  let s := lv_run bl mx (ops ++ [LDelete net port]) in nonneg (lv_table s) ->
  lv_path dst src s = Ok (Some hops) -> ~ In (net, port) hops.
Proof.
  intros Ho s Hnn E Hin.
  pose proof (ops_ok_delete bl net port ops 0%nat Ho) as Ho'.
  destruct (c13 bl mx _ dst src hops Ho' Hnn E) as (_ & c & Hw & _). fold s in Hw.
  destruct (walk_edge_In _ _ _ _ _ _ _ _ Hw Hin) as (w & x & d & Hd & _).
  destruct (run_linv bl mx ops Ho) as (Hi & _ & _).
  apply aget_Some_In_keys in Hd. rewrite akeys_table in Hd.
  assert (Hk : aget (net, port) (lv_vecs s) = None).
  { unfold s. rewrite lv_run_snoc. cbn [lv_step]. unfold delete_vector.
    destruct (aget (net, port) (lv_vecs (lv_run bl mx ops))) as [r0|] eqn:Er; [|exact Er].
    set (s1 := mkLV _ _ _ _ _ _ _).
    pose proof (calculate_fields (lv_local s1) s1) as (_ & _ & _ & _ & Hv).
    unfold calculate_vectors. destruct (calculate (lv_local s1) s1) as [s2 [[]|]]; cbn [fst] in *; rewrite Hv; apply aget_adel_eq; apply (l_vecs _ Hi). }
  apply aget_None in Hk. contradiction.
Qed.

Lemma update_vector_get s net port r : linv s -> (r < List.length (lv_heap s))%nat ->
  vectors_of (fst (update_vector net port r s)) net port =
  Some (match vectors_of s net port with
        | Some old => merge_new old (nth r (lv_heap s) [])
        | None => nth r (lv_heap s) []
        end).
Proof.
  assert (Hget : forall s0 k, aget k (lv_table s0) = option_map (fun i => nth i (lv_heap s0) []) (aget k (lv_vecs s0))).
  { intros s0 k. unfold lv_table. induction (lv_vecs s0) as [|[k1 i] l IH]; cbn; [reflexivity|].
    destruct (eqb k k1); [reflexivity|exact IH]. }
  intros Hi Hr. unfold update_vector, vectors_of, calculate_vectors. rewrite !Hget.
  destruct (aget (net, port) (lv_vecs s)) as [r0|] eqn:Er; cbn [option_map].
  - assert (Hr0 : (r0 < List.length (lv_heap s))%nat) by (apply aget_In in Er; eapply l_refs; eauto).
    set (s1 := mkLV _ _ _ _ _ _ _). pose proof (calculate_fields (lv_local s1) s1) as (_ & _ & _ & Hh & Hv).
    rewrite Hh, Hv. cbn. rewrite Er. cbn. rewrite nth_set_nth by assumption. rewrite Nat.eqb_refl. reflexivity.
  - set (s1 := mkLV _ _ _ _ _ _ _). pose proof (calculate_fields (lv_local s1) s1) as (_ & _ & _ & Hh & Hv).
    rewrite Hh, Hv. cbn. rewrite aget_aset_eq. reflexivity.
Qed.

Theorem c17_partial bl mx ops net port r dest c : ops_ok bl 0 (ops ++ [LUpdate net port r]) ->
  let s := lv_run bl mx ops in let s' := lv_run bl mx (ops ++ [LUpdate net port r]) in
  aget dest (nth r (lv_heap s) []) = Some c ->
  exists d, vectors_of s' net port = Some d /\
    aget dest d = match vectors_of s net port with
                  | Some old => match aget dest old with Some c0 => Some c0 | None => Some c end
                  | None => Some c
                  end.
Proof.
  intros Ho s s' Hd. pose proof (ops_ok_snoc _ _ _ _ Ho) as Ho1. destruct (run_linv bl mx ops Ho1) as (Hi & Hb & Hm).
  assert (Hr : (r < List.length (lv_heap s))%nat).
  { destruct (Nat.lt_ge_cases r (List.length (lv_heap s))) as [Hlt|Hge]; [exact Hlt|].
    rewrite (nth_overflow _ _ Hge) in Hd. discriminate. }
  unfold s'. rewrite lv_run_snoc. cbn [lv_step]. fold s in Hi |- *.
  rewrite (update_vector_get s net port r Hi Hr). eexists. split; [reflexivity|].
  destruct (vectors_of s net port) as [old|]; [|exact Hd].
  rewrite merge_new_get; [rewrite Hd; destruct (aget dest old); reflexivity|].
  apply (l_heap _ Hi). apply nth_In. exact Hr.
Qed.

Theorem c16_learned bl mx ops net port r dest c : ops_ok bl 0 (ops ++ [LUpdate net port r]) ->
  let s := lv_run bl mx ops in let s' := lv_run bl mx (ops ++ [LUpdate net port r]) in
  nonneg (lv_table s') -> In net (lv_local s) -> dest <> net -> ~ In dest bl ->
  aget dest (nth r (lv_heap s) []) = Some c -> c <= mx ->
  (forall old, vectors_of s net port = Some old -> aget dest old = None) ->
  exists hops, lv_path dest net s' = Ok (Some hops).
Proof.
  intros Ho s s' Hnn Hl Hn Hb Hd Hc Hold.
  destruct (c17_partial bl mx ops net port r dest c Ho Hd) as (d & Hv & Hdd). fold s s' in Hv, Hdd.
  assert (Hdc : aget dest d = Some c).
  { rewrite Hdd. destruct (vectors_of s net port) as [old|] eqn:E; [|reflexivity]. rewrite (Hold _ eq_refl). reflexivity. }
  destruct (run_linv bl mx _ Ho) as (Hi & Hbl & Hm). fold s' in Hi, Hbl, Hm.
  assert (Hl' : In net (lv_local s')).
  { unfold s'. rewrite lv_run_snoc. cbn [lv_step]. unfold update_vector, calculate_vectors.
    match goal with |- context [calculate _ ?x] => rewrite (proj1 (calculate_fields (lv_local x) x)) end.
    destruct (aget (net, port) _); exact Hl. }
  destruct (lv_path_cases s' dest net Hi Hnn Hl' Hn) as [(h & c1 & H1 & _)|(_ & H2)]; [eauto|].
  exfalso. specialize (H2 [(net, port)] c). rewrite Hbl, Hm in H2.
  assert (mx < c); [|lia]. apply H2. constructor; [exists d; auto|exact Hb].
Qed.

(** another port's vectors are untouched when no dictionary is shared *)
Theorem c58_partial bl mx ops net port r net' port' : ops_ok bl 0 (ops ++ [LUpdate net port r]) ->
  let s := lv_run bl mx ops in let s' := lv_run bl mx (ops ++ [LUpdate net port r]) in
  NoDup (map snd (lv_vecs s)) -> (net', port') <> (net, port) ->
  vectors_of s' net' port' = vectors_of s net' port'.
Proof.
  assert (Hget : forall s0 k, aget k (lv_table s0) = option_map (fun i => nth i (lv_heap s0) []) (aget k (lv_vecs s0))).
  { intros s0 k. unfold lv_table. induction (lv_vecs s0) as [|[k1 i] l IH]; cbn; [reflexivity|].
    destruct (eqb k k1); [reflexivity|exact IH]. }
  intros Ho s s' Hnd Hn. pose proof (ops_ok_snoc _ _ _ _ Ho) as Ho1. destruct (run_linv bl mx ops Ho1) as (Hi & _ & _). fold s in Hi.
  unfold s'. rewrite lv_run_snoc. fold s. cbn [lv_step]. unfold update_vector, vectors_of, calculate_vectors. rewrite !Hget.
  destruct (aget (net, port) (lv_vecs s)) as [r0|] eqn:Er.
  - set (s1 := mkLV _ _ _ _ _ _ _). pose proof (calculate_fields (lv_local s1) s1) as (_ & _ & _ & Hh & Hv).
    rewrite Hh, Hv. cbn. destruct (aget (net', port') (lv_vecs s)) as [r1|] eqn:Er1; [|reflexivity]. cbn. f_equal.
    assert (Hr0 : (r0 < List.length (lv_heap s))%nat) by (apply aget_In in Er; eapply l_refs; eauto).
    rewrite nth_set_nth by assumption. destruct (Nat.eqb_spec r1 r0) as [->|]; [|reflexivity].
    exfalso. apply Hn. apply aget_In in Er, Er1. clear -Er Er1 Hnd.
    induction (lv_vecs s) as [|[k i] l IH]; [destruct Er|]. cbn in Hnd. inversion Hnd as [|? ? Hni Hnd']; subst.
    destruct Er as [E|Er], Er1 as [E1|Er1].
    + congruence.
    + exfalso. apply Hni. injection E as _ ->. apply (in_map snd) in Er1. exact Er1.
    + exfalso. apply Hni. injection E1 as _ ->. apply (in_map snd) in Er. exact Er.
    + auto.
  - set (s1 := mkLV _ _ _ _ _ _ _). pose proof (calculate_fields (lv_local s1) s1) as (_ & _ & _ & Hh & Hv).
    rewrite Hh, Hv. cbn. rewrite aget_aset_ne by assumption. reflexivity.
Qed.
