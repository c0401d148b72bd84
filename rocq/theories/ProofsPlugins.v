(** Proofs about the plugins. *)
From Verif Require Import Base BaseProofs ModelLabel SpecLabel ProofsLabel ModelSTP ModelPlugins SpecPlugins.
Open Scope Z_scope.

(** * Canarie *)
Lemma append_len a b : String.length (a +++ b) = (String.length a + String.length b)%nat.
Proof. induction a as [|c a IH]; cbn; [reflexivity|]. rewrite IH. reflexivity. Qed.
Lemma append_inj_l a b c d : String.length a = String.length c -> a +++ b = c +++ d -> a = c /\ b = d.
Proof.
  revert c; induction a as [|x a IH]; intros [|y c]; cbn; try discriminate; intros Hl H; [auto|].
  injection H as -> H. injection Hl as Hl. destruct (IH _ Hl H) as [-> ->]. auto.
Qed.
Lemma take_drop n s : stake n s +++ sdrop n s = s.
Proof. revert s; induction n as [|n IH]; intros [|c s]; cbn; try reflexivity. rewrite IH. reflexivity. Qed.
Lemma take_len n s : String.length (stake n s) = Nat.min n (String.length s).
Proof. revert s; induction n as [|n IH]; intros [|c s]; cbn; try reflexivity. rewrite IH. reflexivity. Qed.
Lemma py_str_inj a b : py_str a = py_str b -> a = b.
Proof. intros H. pose proof (py_int_str a) as Ha. rewrite H, py_int_str in Ha. congruence. Qed.
Lemma canarie_id_inj a b : canarie_id a = canarie_id b -> a = b.
Proof.
  unfold canarie_id. set (u := py_str a). set (v := py_str b). intros H. apply py_str_inj. fold u v.
  assert (Hl : String.length u = String.length v).
  { pose proof (f_equal String.length H) as E. rewrite !append_len in E.
    pose proof (f_equal String.length (take_drop 5 u)) as Eu. pose proof (f_equal String.length (take_drop 5 v)) as Ev.
    rewrite append_len in Eu, Ev. cbn [String.length] in E. lia. }
  apply append_inj_l in H; [|rewrite !take_len, Hl; reflexivity]. destruct H as [H1 H2].
  apply append_inj_l in H2; [|reflexivity]. destruct H2 as [_ H2].
  apply append_inj_l in H2.
  - destruct H2 as [H2 _]. rewrite <- (take_drop 5 u), <- (take_drop 5 v), H1, H2. reflexivity.
  - pose proof (f_equal String.length (take_drop 5 u)) as Eu. pose proof (f_equal String.length (take_drop 5 v)) as Ev.
    rewrite append_len, take_len in Eu, Ev. rewrite Hl in Eu. lia.
Qed.
(** identifiers made from a counter are those of later numbers *)
Lemma canarie_later ops : forall c l c' i, canarie_run c ops = (c', l) -> In i l ->
  exists n, i = canarie_id n /\ forall m, c = Some m -> m < n.
Proof.
  induction ops as [|[st|] r IH]; cbn [canarie_run]; intros c l c' i H Hi.
  - injection H as <- <-. destruct Hi.
  - destruct (IH _ _ _ _ H Hi) as (n & -> & Hn). exists n. split; [reflexivity|]. intros m ->. apply Hn.
    unfold setup_counter. destruct st as [s|]; [destruct (s =? 0)|]; reflexivity.
  - unfold canarie_create, backend_connection_id in H. destruct c as [m|].
    + destruct (SERIAL_MAX <=? m).
      * exact (IH _ _ _ _ H Hi).
      * destruct (canarie_run (Some (m + 1)) r) as [c2 l2] eqn:E. injection H as <- <-. destruct Hi as [<-|Hi].
        -- exists (m + 1). split; [reflexivity|]. intros m' Hm. injection Hm as <-. lia.
        -- destruct (IH _ _ _ _ E Hi) as (n & -> & Hn). exists n. split; [reflexivity|]. intros m' Hm. injection Hm as <-. specialize (Hn _ eq_refl). lia.
    + destruct (IH _ _ _ _ H Hi) as (n & -> & Hn). exists n. split; [reflexivity|]. discriminate.
Qed.
Lemma canarie_distinct ops : forall c, NoDup (snd (canarie_run c ops)).
Proof.
  induction ops as [|[st|] r IH]; cbn [canarie_run]; intros c; [constructor|apply IH|].
  unfold canarie_create, backend_connection_id. destruct c as [m|]; [|apply IH]. destruct (SERIAL_MAX <=? m); [apply IH|].
  pose proof (IH (Some (m + 1))) as Hnd. destruct (canarie_run (Some (m + 1)) r) as [c2 l2] eqn:E. cbn [snd] in *. constructor; [|exact Hnd].
  intros Hi. destruct (canarie_later _ _ _ _ _ E Hi) as (n & H1 & H2). apply canarie_id_inj in H1. specialize (H2 _ eq_refl). lia.
Qed.

(** * Pruning *)
Lemma contains_spec p s : contains p s = true <-> exists pre post, s = pre +++ p +++ post.
Proof.
  assert (SW : forall p s, starts_with p s = true <-> exists post, s = p +++ post).
  { clear. induction p as [|c p IH]; intros s; cbn.
    - split; eauto.
    - destruct s as [|d s]; [split; [discriminate|intros (x & H); discriminate]|]. rewrite andb_true_iff, IH. split.
      + intros (E & x & ->). apply Ascii.eqb_eq in E. subst d. exists x. reflexivity.
      + intros (x & E). injection E as -> ->. split; [apply Ascii.eqb_refl|eauto]. }
  induction s as [|c s IH]; cbn [contains]; rewrite orb_true_iff, SW.
  - split; [intros [(x & E)|E]; [exists "", x; exact E|discriminate]|].
    intros ([|c pre] & post & E); [left; eauto|discriminate].
  - rewrite IH. split.
    + intros [(x & E)|(pre & post & ->)]; [exists "", x; exact E|]. exists (String c pre), post. reflexivity.
    + intros ([|d pre] & post & E); [left; eauto|]. injection E as -> ->. right. eauto.
Qed.
Lemma listed_spec ns l : listed ns l = true <-> in_listed ns l.
Proof.
  unfold listed, in_listed. rewrite existsb_exists. split.
  - intros (n & Hn & H). apply contains_spec in H. destruct H as (pre & post & E). eauto 6.
  - intros (n & pre & post & Hn & E). exists n. split; [exact Hn|]. apply contains_spec. eauto.
Qed.

Lemma nth_upd {A} i j (f : A -> A) l : nth_error (upd i f l) j = if eqb i j then option_map f (nth_error l j) else nth_error l j.
Proof.
  revert i j; induction l as [|x l IH]; intros [|i] [|j]; cbn; try reflexivity.
  - destruct (eqb _ _); reflexivity.
  - rewrite IH. change (eqb (S i) (S j)) with (eqb i j). reflexivity.
Qed.
Lemma upd_len {A} i (f : A -> A) l : List.length (upd i f l) = List.length l.
Proof. revert i; induction l as [|x l IH]; intros [|i]; cbn; auto. Qed.

Lemma Ok_inj {A} (x y : A) : Ok x = Ok y -> x = y.
Proof. congruence. Qed.

Section Prune.
Variables (ns : list string) (path : list link).
Definition lst (i : nat) : bool := match nth_error path i with Some l => listed ns l | None => false end.
Definition prv (i : nat) : bool := match i with O => false | S j => lst j end.
(** label of the source / destination of link [i] when the indices below [k] have been done *)
Definition src_of (v : nat -> label) (k i : nat) (s : stp) : stp :=
  if (i <? k)%nat && lst i then set_stp_label (v i) s
  else if (i <=? k)%nat && prv i then set_stp_label (v (pred i)) s else s.
Definition dst_of (v : nat -> label) (k i : nat) (s : stp) : stp :=
  if (S i <? k)%nat && lst (S i) then set_stp_label (v (S i)) s
  else if (i <? k)%nat && lst i then set_stp_label (v i) s else s.
Record st_at (v : nat -> label) (k : nat) (p : list link) : Prop := {
  a_len : List.length p = List.length path;
  a_nth : forall i, nth_error p i = option_map (fun l => mkLink (src_of v k i (l_src l)) (dst_of v k i (l_dst l))) (nth_error path i);
  a_val : forall i l, (i < k)%nat -> nth_error path i = Some l -> listed ns l = true ->
            common_label (mkLink (if prv i then set_stp_label (v (pred i)) (l_src l) else l_src l) (l_dst l)) = Ok (v i) }.

Lemma listed_src l s d : s_network s = s_network (l_src l) -> listed ns (mkLink s d) = listed ns l.
Proof. intros H. unfold listed. cbn [l_src]. rewrite H. reflexivity. Qed.
Lemma src_of_net v k i s : s_network (src_of v k i s) = s_network s.
Proof. unfold src_of. destruct (_ && _); [reflexivity|]. destruct (_ && _); reflexivity. Qed.
Lemma set_set x y s : set_stp_label x (set_stp_label y s) = set_stp_label x s.
Proof. reflexivity. Qed.

Lemma prune_step v k p p' : st_at v k p -> (k < List.length path)%nat -> prune_at ns p k = Ok p' -> exists v', st_at v' (S k) p'.
Proof.
  intros [L N V] Hk H. unfold prune_at in H. rewrite N in H.
  destruct (nth_error path k) as [l|] eqn:El; [|apply nth_error_None in El; lia]. cbn [option_map] in H.
  rewrite (listed_src l) in H by apply src_of_net.
  assert (Lk : lst k = listed ns l) by (unfold lst; rewrite El; reflexivity).
  assert (Hsk : src_of v k k (l_src l) = if prv k then set_stp_label (v (pred k)) (l_src l) else l_src l).
  { unfold src_of. rewrite Nat.ltb_irrefl, Nat.leb_refl. reflexivity. }
  assert (Hdk : dst_of v k k (l_dst l) = l_dst l).
  { unfold dst_of. rewrite Nat.ltb_irrefl. assert (E : (S k <? k)%nat = false) by (apply Nat.ltb_ge; lia). rewrite E. reflexivity. }
  destruct (listed ns l) eqn:Hl.
  - destruct (common_label _) as [x|] eqn:Hc; [|discriminate]. cbn [Base.bind] in H. apply Ok_inj in H. cbv zeta in H. subst p'.
    pose (v' := fun i => if eqb i k then x else v i). exists v'.
    assert (Vk : v' k = x) by (unfold v'; rewrite eqb_refl; reflexivity).
    assert (Vn : forall i, i <> k -> v' i = v i) by (intros i Hi; unfold v'; rewrite eqb_neq by exact Hi; reflexivity).
    split.
    + destruct k; destruct (_ <? _)%nat; rewrite ?upd_len; exact L.
    + intros i.
      assert (HN : nth_error (if (k <? List.length p - 1)%nat then upd (S k) (set_src x) (match k with O => upd k (fun l => set_dst x (set_src x l)) p | S j => upd j (set_dst x) (upd k (fun l => set_dst x (set_src x l)) p) end)
                 else match k with O => upd k (fun l => set_dst x (set_src x l)) p | S j => upd j (set_dst x) (upd k (fun l => set_dst x (set_src x l)) p) end) i =
         option_map (fun l => if eqb (S k) i then set_src x l else if eqb k i then set_dst x (set_src x l) else if eqb k (S i) then set_dst x l else l) (nth_error p i)).
      { assert (A : nth_error (match k with O => upd k (fun l => set_dst x (set_src x l)) p | S j => upd j (set_dst x) (upd k (fun l => set_dst x (set_src x l)) p) end) i =
           option_map (fun l => if eqb k i then set_dst x (set_src x l) else if eqb k (S i) then set_dst x l else l) (nth_error p i)).
        { destruct k as [|j].
          - rewrite nth_upd. change (eqb 0%nat (S i)) with false. destruct (eqb 0%nat i); destruct (nth_error p i); reflexivity.
          - rewrite !nth_upd. change (eqb (S j) (S i)) with (eqb j i). destruct (eqb_ok j i) as [->|Hji].
            + rewrite (eqb_neq (S i) i) by lia. destruct (nth_error p i); reflexivity.
            + destruct (eqb (S j) i); destruct (nth_error p i); reflexivity. }
        destruct (Nat.ltb_spec k (List.length p - 1)) as [Hlt|Hge].
        - rewrite nth_upd, A. destruct (eqb_ok (S k) i) as [<-|Hn]; [|reflexivity].
          rewrite (eqb_neq k (S k)), (eqb_neq k (S (S k))) by lia. destruct (nth_error p (S k)); reflexivity.
        - rewrite A. destruct (eqb_ok (S k) i) as [<-|Hn]; [|reflexivity].
          assert (E : nth_error p (S k) = None) by (apply nth_error_None; lia). rewrite E. reflexivity. }
      rewrite HN, N. clear HN. destruct (nth_error path i) as [m|] eqn:Em; [|reflexivity]. cbn [option_map]. f_equal.
      unfold src_of, dst_of.
      destruct (eqb_ok (S k) i) as [<-|H1].
      { (* i = k+1 *)
        unfold set_src. cbn [l_src l_dst]. f_equal.
        - rewrite Nat.ltb_irrefl, Nat.leb_refl. assert (E : (S k <? k)%nat = false) by (apply Nat.ltb_ge; lia). rewrite E.
          assert (E2 : (S k <=? k)%nat = false) by (apply Nat.leb_gt; lia). rewrite E2. cbn [andb prv pred]. rewrite Lk, Vk. reflexivity.
        - assert (E : (S (S k) <? k)%nat = false) by (apply Nat.ltb_ge; lia). assert (E1 : (S (S k) <? S k)%nat = false) by (apply Nat.ltb_ge; lia).
          assert (E2 : (S k <? k)%nat = false) by (apply Nat.ltb_ge; lia). assert (E3 : (S k <? S k)%nat = false) by (apply Nat.ltb_ge; lia). rewrite E, E1, E2, E3. reflexivity. }
      destruct (eqb_ok k i) as [<-|H2].
      { assert (Em' : m = l) by congruence. subst m. unfold set_src, set_dst. cbn [l_src l_dst]. f_equal.
        - assert (E : (k <? S k)%nat = true) by (apply Nat.ltb_lt; lia). rewrite E, Lk, Nat.ltb_irrefl, Nat.leb_refl. cbn [andb]. rewrite Vk. destruct (prv k); reflexivity.
        - assert (E : (S k <? S k)%nat = false) by (apply Nat.ltb_ge; lia). assert (E2 : (k <? S k)%nat = true) by (apply Nat.ltb_lt; lia).
          assert (E3 : (S k <? k)%nat = false) by (apply Nat.ltb_ge; lia). rewrite E, E2, E3, Lk, Nat.ltb_irrefl. cbn [andb]. rewrite Vk. reflexivity. }
      destruct (eqb_ok k (S i)) as [->|H3].
      { unfold set_dst. cbn [l_src l_dst]. f_equal.
        - assert (E : (i <? S i)%nat = true) by (apply Nat.ltb_lt; lia). assert (E2 : (i <? S (S i))%nat = true) by (apply Nat.ltb_lt; lia).
          assert (E3 : (i <=? S i)%nat = true) by (apply Nat.leb_le; lia). assert (E4 : (i <=? S (S i))%nat = true) by (apply Nat.leb_le; lia).
          rewrite E, E2, E3, E4. rewrite (Vn i) by lia. destruct i as [|i']; [reflexivity|]. cbn [pred]. rewrite (Vn i') by lia. reflexivity.
        - assert (E : (S i <? S (S i))%nat = true) by (apply Nat.ltb_lt; lia). rewrite E, Lk, Nat.ltb_irrefl. cbn [andb]. rewrite Vk.
          destruct (_ && _); reflexivity. }
      assert (Hs1 : (i <? S k)%nat = (i <? k)%nat) by (destruct (Nat.ltb_spec i k), (Nat.ltb_spec i (S k)); lia).
      assert (Hs2 : (i <=? S k)%nat = (i <=? k)%nat) by (destruct (Nat.leb_spec i k), (Nat.leb_spec i (S k)); lia).
      assert (Hs3 : (S i <? S k)%nat = (S i <? k)%nat) by (destruct (Nat.ltb_spec (S i) k), (Nat.ltb_spec (S i) (S k)); lia).
      rewrite Hs1, Hs2, Hs3, (Vn i), (Vn (S i)) by lia. destruct i as [|i']; [reflexivity|]. cbn [pred]. destruct (eqb_ok k i') as [->|Hi']; [|rewrite (Vn i') by lia; reflexivity].
      lia.
    + intros i m Hi Em Hm. destruct (eqb_ok i k) as [->|Hn].
      * assert (m = l) by congruence. subst m. rewrite Vk. rewrite Hsk, Hdk in Hc. destruct k as [|j]; [exact Hc|]. cbn [pred] in *. rewrite (Vn j) by lia. exact Hc.
      * rewrite (Vn i) by exact Hn. specialize (V i m ltac:(lia) Em Hm). destruct i as [|j]; [exact V|]. cbn [pred] in *. rewrite (Vn j) by lia. exact V.
  - injection H as <-. exists v. split; [exact L| |].
    + intros i. rewrite N. destruct (nth_error path i) as [m|] eqn:Em; [|reflexivity]. cbn [option_map]. f_equal. unfold src_of, dst_of. f_equal.
      * destruct (eqb_ok i k) as [->|Hn]; [rewrite Lk, Bool.andb_false_r, Bool.andb_false_r, Nat.leb_refl; assert (E : (k <=? S k)%nat = true) by (apply Nat.leb_le; lia); rewrite E; reflexivity|].
        assert (Hs1 : (i <? S k)%nat = (i <? k)%nat) by (destruct (Nat.ltb_spec i k), (Nat.ltb_spec i (S k)); lia). rewrite Hs1.
        destruct (_ && _); [reflexivity|]. destruct (eqb_ok i (S k)) as [->|Hn2]; [cbn [prv]; rewrite Lk, !Bool.andb_false_r; reflexivity|].
        assert (Hs2 : (i <=? S k)%nat = (i <=? k)%nat) by (destruct (Nat.leb_spec i k), (Nat.leb_spec i (S k)); lia). rewrite Hs2. reflexivity.
      * destruct (eqb_ok (S i) k) as [<-|Hn].
        -- rewrite Lk, !Bool.andb_false_r. assert (Hs1 : (i <? S (S i))%nat = (i <? S i)%nat) by (destruct (Nat.ltb_spec i (S i)), (Nat.ltb_spec i (S (S i))); lia). rewrite Hs1. reflexivity.
        -- assert (Hs3 : (S i <? S k)%nat = (S i <? k)%nat) by (destruct (Nat.ltb_spec (S i) k), (Nat.ltb_spec (S i) (S k)); lia). rewrite Hs3.
           destruct (_ && _); [reflexivity|]. destruct (eqb_ok i k) as [->|Hn2]; [rewrite Lk, !Bool.andb_false_r; reflexivity|].
           assert (Hs1 : (i <? S k)%nat = (i <? k)%nat) by (destruct (Nat.ltb_spec i k), (Nat.ltb_spec i (S k)); lia). rewrite Hs1. reflexivity.
    + intros i m Hi Em Hm. destruct (eqb_ok i k) as [->|Hn]; [congruence|]. apply V; [lia|exact Em|exact Hm].
Qed.

Lemma prune_run : forall n k v p p', st_at v k p -> (k + n = List.length path)%nat -> prune_from ns p (seq k n) = Ok p' ->
  exists v', st_at v' (List.length path) p'.
Proof.
  induction n as [|n IH]; intros k v p p' S Hk H; cbn [seq prune_from] in H.
  - injection H as <-. exists v. replace (List.length path) with k by lia. exact S.
  - destruct (prune_at ns p k) as [q|] eqn:E; [|discriminate]. cbn [Base.bind] in H.
    destruct (prune_step _ _ _ _ S ltac:(lia) E) as [v' S']. apply (IH (Datatypes.S k) v' q p' S'); [lia|exact H].
Qed.
Lemma prune_result p' : prune_labels ns path = Ok p' -> exists v, st_at v (List.length path) p'.
Proof.
  intros H. apply (prune_run (List.length path) 0 (fun _ => mkLabel "" []) path p'); [|reflexivity|exact H].
  split; [reflexivity| |intros; lia]. intros i. destruct (nth_error path i) as [m|] eqn:Em; [|reflexivity]. cbn [option_map]. f_equal. destruct m as [s d]. cbn [l_src l_dst]. f_equal.
  - unfold src_of. cbn [Nat.ltb Nat.leb andb]. destruct i as [|i]; [reflexivity|reflexivity].
Qed.
End Prune.

Lemma common_label_spec l a b : s_label (l_src l) = Some a -> s_label (l_dst l) = Some b -> wf_values (lvalues a) -> wf_values (lvalues b) ->
  forall x, common_label l = Ok x -> wf_values (lvalues x) /\ ltype x = ltype a /\ ltype x = ltype b /\ (forall z, denotes (lvalues x) z <-> denotes (lvalues a) z /\ denotes (lvalues b) z).
Proof.
  intros Ha Hb Wa Wb x H. unfold common_label in H. rewrite Ha, Hb in H.
  destruct (eqb_ok (ltype a) (ltype b)) as [Ht|Ht].
  - destruct (intersect_spec a b Wa Wb Ht) as [(l0 & E & T & W & _ & D)|(E & _)]; rewrite E in H; cbn [Base.bind] in H; [|discriminate].
    rewrite (label_value_roundtrip l0 W) in H. injection H as <-. rewrite T, Ht. auto.
  - unfold intersect in H. rewrite (eqb_neq _ _ Ht) in H. discriminate.
Qed.

Lemma nth_error_ext_eq {A} (l1 l2 : list A) : (forall i, nth_error l1 i = nth_error l2 i) -> l1 = l2.
Proof.
  revert l2; induction l1 as [|x l1 IH]; intros [|y l2] H; [reflexivity|specialize (H 0%nat); discriminate|specialize (H 0%nat); discriminate|].
  pose proof (H 0%nat) as H0. cbn in H0. injection H0 as ->. f_equal. apply IH. intros i. exact (H (S i)).
Qed.

(** the networks, ports and number of links stay *)
Lemma prune_places ns path p' : prune_labels ns path = Ok p' -> map places p' = map places path.
Proof.
  intros H. destruct (prune_result _ _ _ H) as [v [L N _]]. apply nth_error_ext_eq. 
  intros i. rewrite !nth_error_map, N. destruct (nth_error path i) as [m|]; [|reflexivity]. cbn [option_map]. f_equal. unfold places. cbn [l_src l_dst].
  f_equal; [unfold src_of|unfold dst_of]; destruct (_ && _); try reflexivity; destruct (_ && _); reflexivity.
Qed.

Section Out.
Variables (ns : list string) (path p' : list link).
Hypothesis H : prune_labels ns path = Ok p'.
Hypothesis W : labelled path.
Definition touched (l : option link) : Prop := exists m, l = Some m /\ in_listed ns m.
Lemma lst_touched i : lst ns path i = true <-> touched (nth_error path i).
Proof.
  unfold lst, touched. destruct (nth_error path i) as [m|].
  - rewrite listed_spec. split; [eauto|]. intros (x & E & Hx). injection E as ->. exact Hx.
  - split; [discriminate|]. intros (x & E & _). discriminate.
Qed.
Lemma lst_untouched i : lst ns path i = false <-> ~ touched (nth_error path i).
Proof. rewrite <- lst_touched. destruct (lst ns path i); intuition congruence. Qed.

Lemma src_end v i s : (i < List.length path)%nat ->
  src_of ns path v (List.length path) i s = if lst ns path i then set_stp_label (v i) s else if prv ns path i then set_stp_label (v (pred i)) s else s.
Proof.
  intros Hi. unfold src_of. assert (E : (i <? List.length path)%nat = true) by (apply Nat.ltb_lt; lia).
  assert (E2 : (i <=? List.length path)%nat = true) by (apply Nat.leb_le; lia). rewrite E, E2. reflexivity.
Qed.
Lemma dst_end v i s : (i < List.length path)%nat ->
  dst_of ns path v (List.length path) i s = if lst ns path (S i) then set_stp_label (v (S i)) s else if lst ns path i then set_stp_label (v i) s else s.
Proof.
  intros Hi. unfold dst_of. assert (E : (i <? List.length path)%nat = true) by (apply Nat.ltb_lt; lia). rewrite E. cbn [andb].
  destruct (Nat.ltb_spec (S i) (List.length path)) as [Hlt|Hge]; [reflexivity|].
  assert (Hn : lst ns path (S i) = false). { unfold lst. assert (E3 : nth_error path (S i) = None) by (apply nth_error_None; lia). rewrite E3. reflexivity. }
  rewrite Hn. reflexivity.
Qed.

(** both sides of a demarcation next to a listed link carry one label *)
Lemma prune_demarc i l m : nth_error p' i = Some l -> nth_error p' (S i) = Some m ->
  touched (nth_error path i) \/ touched (nth_error path (S i)) ->
  s_label (l_dst l) = s_label (l_src m) /\ s_label (l_dst l) <> None.
Proof.
  intros Hl Hm Ht. destruct (prune_result _ _ _ H) as [v [L N _]]. rewrite N in Hl, Hm.
  destruct (nth_error path i) as [l0|] eqn:E0; [|discriminate]. destruct (nth_error path (S i)) as [m0|] eqn:E1; [|discriminate]. cbn [option_map] in *.
  injection Hl as <-. injection Hm as <-. cbn [l_src l_dst].
  assert (Hi : (S i < List.length path)%nat) by (apply nth_error_Some; congruence).
  rewrite src_end, dst_end by lia. cbn [prv pred].
  destruct (lst ns path (S i)) eqn:D1; [split; [reflexivity|discriminate]|]. destruct (lst ns path i) eqn:D0; [split; [reflexivity|discriminate]|].
  exfalso. apply lst_untouched in D0, D1. rewrite E0 in D0. rewrite E1 in D1. tauto.
Qed.

(** ends not next to a listed link keep their label *)
Lemma prune_others i l l' : nth_error path i = Some l -> nth_error p' i = Some l' -> ~ in_listed ns l ->
  ((forall j, i = S j -> ~ touched (nth_error path j)) -> l_src l' = l_src l) /\ (~ touched (nth_error path (S i)) -> l_dst l' = l_dst l).
Proof.
  intros Hl Hl' Hn. destruct (prune_result _ _ _ H) as [v [L N _]]. rewrite N, Hl in Hl'. cbn [option_map] in Hl'. injection Hl' as <-. cbn [l_src l_dst].
  assert (Hi : (i < List.length path)%nat) by (apply nth_error_Some; congruence). rewrite src_end, dst_end by lia.
  assert (D0 : lst ns path i = false) by (apply lst_untouched; rewrite Hl; intros (x & E & Hx); injection E as <-; tauto). rewrite D0. split.
  - intros Hp. destruct i as [|j]; [reflexivity|]. cbn [prv pred]. assert (Dj : lst ns path j = false) by (apply lst_untouched; apply Hp; reflexivity). rewrite Dj. reflexivity.
  - intros Hp. apply lst_untouched in Hp. rewrite Hp. reflexivity.
Qed.

(** a listed link between unlisted ones *)
Lemma prune_isolated i l l' : nth_error path i = Some l -> nth_error p' i = Some l' -> in_listed ns l ->
  (forall j, i = S j -> ~ touched (nth_error path j)) -> ~ touched (nth_error path (S i)) ->
  exists a b x, s_label (l_src l) = Some a /\ s_label (l_dst l) = Some b /\ s_label (l_src l') = Some x /\ s_label (l_dst l') = Some x /\
    narrows x a /\ narrows x b /\ wf_values (lvalues x) /\ (forall z, denotes (lvalues a) z -> denotes (lvalues b) z -> denotes (lvalues x) z).
Proof.
  intros Hl Hl' Hn Hp Hs. destruct (prune_result _ _ _ H) as [v [L N V]]. rewrite N, Hl in Hl'. cbn [option_map] in Hl'. injection Hl' as <-. cbn [l_src l_dst].
  assert (Hi : (i < List.length path)%nat) by (apply nth_error_Some; congruence). rewrite src_end, dst_end by lia.
  assert (D0 : lst ns path i = true) by (apply lst_touched; rewrite Hl; unfold touched; eauto). rewrite D0.
  apply lst_untouched in Hs. rewrite Hs.
  assert (Dp : prv ns path i = false) by (destruct i as [|j]; [reflexivity|]; cbn; apply lst_untouched; auto).
  destruct (W l (nth_error_In _ _ Hl)) as (a & b & Ha & Hb & Wa & Wb).
  specialize (V i l Hi Hl (proj2 (listed_spec _ _) Hn)). rewrite Dp in V. destruct l as [ls ld]. cbn [l_src l_dst] in *.
  destruct (common_label_spec (mkLink ls ld) a b Ha Hb Wa Wb _ V) as (Wx & T1 & T2 & D).
  exists a, b, (v i). cbn [set_stp_label s_label]. repeat split; auto; try (intros z Hz; apply D in Hz; tauto); [apply Wx| apply Wx | apply Wx |]. intros z H1 H2. apply D. auto.
Qed.

(** the source end of a run of listed links, in general: it narrows the label of
    the previous link's result and the link's own destination *)
Lemma prune_chain i l l' : nth_error path i = Some l -> nth_error p' i = Some l' -> in_listed ns l ->
  exists b x, s_label (l_dst l) = Some b /\ s_label (l_src l') = Some x /\ narrows x b /\ wf_values (lvalues x) /\
    (forall y, s_label (l_dst l') = Some y -> narrows y x) /\
    ((forall j, i = S j -> ~ touched (nth_error path j)) -> exists a, s_label (l_src l) = Some a /\ narrows x a).
Proof.
  intros Hl Hl' Hn. destruct (prune_result _ _ _ H) as [v [L N V]].
  (* every value is a well-formed label *)
  assert (WV : forall k m, nth_error path k = Some m -> lst ns path k = true -> wf_values (lvalues (v k)) /\
     (exists b, s_label (l_dst m) = Some b /\ narrows (v k) b) /\ (prv ns path k = true -> narrows (v k) (v (pred k))) /\
     (prv ns path k = false -> exists a, s_label (l_src m) = Some a /\ narrows (v k) a)).
  { induction k as [|k IH]; intros m Hm Dk.
    - assert (Hk : (0 < List.length path)%nat) by (apply nth_error_Some; congruence).
      assert (Lm : listed ns m = true) by (unfold lst in Dk; rewrite Hm in Dk; exact Dk).
      destruct (W m (nth_error_In _ _ Hm)) as (a & b & Ha & Hb & Wa & Wb).
      specialize (V 0%nat m Hk Hm Lm). cbn [prv] in V. destruct m as [ls ld]. cbn [l_src l_dst] in *.
      destruct (common_label_spec (mkLink ls ld) a b Ha Hb Wa Wb _ V) as (Wx & T1 & T2 & D). split; [exact Wx|].
      split; [exists b; split; [exact Hb|split; [exact T2|intros z Hz; apply D in Hz; tauto]]|].
      split; [discriminate|]. intros _. exists a. split; [exact Ha|split; [exact T1|intros z Hz; apply D in Hz; tauto]].
    - assert (Hk : (S k < List.length path)%nat) by (apply nth_error_Some; congruence).
      assert (Lm : listed ns m = true) by (unfold lst in Dk; rewrite Hm in Dk; exact Dk).
      destruct (W m (nth_error_In _ _ Hm)) as (a & b & Ha & Hb & Wa & Wb).
      specialize (V (S k) m Hk Hm Lm). cbn [prv pred] in *. destruct (lst ns path k) eqn:Dp.
      + destruct (nth_error path k) as [m0|] eqn:Em0; [|unfold lst in Dp; rewrite Em0 in Dp; discriminate].
        destruct (IH m0 eq_refl eq_refl) as (W0 & _).
        destruct (common_label_spec (mkLink (set_stp_label (v k) (l_src m)) (l_dst m)) (v k) b eq_refl Hb W0 Wb _ V) as (Wx & T1 & T2 & D).
        split; [exact Wx|]. split; [exists b; split; [exact Hb|split; [exact T2|intros z Hz; apply D in Hz; tauto]]|].
        split; [intros _; split; [exact T1|intros z Hz; apply D in Hz; tauto]|discriminate].
      + destruct (common_label_spec (mkLink (l_src m) (l_dst m)) a b Ha Hb Wa Wb _ V) as (Wx & T1 & T2 & D).
        split; [exact Wx|]. split; [exists b; split; [exact Hb|split; [exact T2|intros z Hz; apply D in Hz; tauto]]|].
        split; [discriminate|]. intros _. exists a. split; [exact Ha|split; [exact T1|intros z Hz; apply D in Hz; tauto]]. }
  rewrite N, Hl in Hl'. cbn [option_map] in Hl'. injection Hl' as <-. cbn [l_src l_dst].
  assert (Hi : (i < List.length path)%nat) by (apply nth_error_Some; congruence). rewrite src_end, dst_end by lia.
  assert (D0 : lst ns path i = true) by (apply lst_touched; rewrite Hl; unfold touched; eauto). rewrite D0.
  destruct (WV i l Hl D0) as (Wx & (b & Hb & Nb) & _ & Na). exists b, (v i). split; [exact Hb|]. split; [reflexivity|]. split; [exact Nb|]. split; [exact Wx|]. split.
  - intros y. destruct (lst ns path (S i)) eqn:Ds; cbn [set_stp_label s_label]; intros E; injection E as <-; [|split; auto].
    destruct (nth_error path (S i)) as [m|] eqn:Em; [|unfold lst in Ds; rewrite Em in Ds; discriminate].
    destruct (WV (S i) m Em Ds) as (_ & _ & Hc & _). cbn [prv pred] in Hc. exact (Hc D0).
  - intros Hp. apply Na. destruct i as [|j]; [reflexivity|]. cbn. apply lst_untouched. auto.
Qed.
End Out.
