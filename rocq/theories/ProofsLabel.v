From Coq Require Import Sorted Permutation.
From Verif Require Import Base BaseProofs ModelLabel SpecLabel.
Open Scope Z_scope.

Lemma denotes_nil z : denotes [] z <-> False.
Proof. unfold denotes. split; [intros (? & ? & [] & _) | tauto]. Qed.
Lemma denotes_cons lo hi r z : denotes ((lo, hi) :: r) z <-> lo <= z <= hi \/ denotes r z.
Proof.
  unfold denotes. split.
  - intros (a & b & [E|Hin] & Hz); [injection E as -> ->; auto | right; eauto].
  - intros [Hz|(a & b & Hin & Hz)]; [exists lo, hi; cbn; auto | exists a, b; cbn; auto].
Qed.
Lemma denotes_app a b z : denotes (a ++ b) z <-> denotes a z \/ denotes b z.
Proof.
  induction a as [|[lo hi] a IH]; cbn [app].
  - rewrite denotes_nil. tauto.
  - rewrite !denotes_cons, IH. tauto.
Qed.
Lemma denotes_perm a b z : Permutation a b -> denotes a z <-> denotes b z.
Proof.
  intros Hp. unfold denotes. split; intros (lo & hi & Hin & Hz); exists lo, hi; split; auto.
  - eapply Permutation_in; eauto.
  - eapply Permutation_in; [apply Permutation_sym|]; eauto.
Qed.

(** ** createValue *)
Lemma create_value_spec s r : create_value s = Ok r <-> item_range s r.
Proof.
  unfold create_value. split.
  - destruct (split1 "-" s) as [[a b]|] eqn:E.
    + apply split1_Some in E as [-> Ha].
      destruct (py_int a) as [i1|] eqn:E1; [|discriminate].
      destruct (py_int b) as [i2|] eqn:E2; [|discriminate].
      destruct (i1 >? i2) eqn:Eg; [discriminate|]. intros [= <-].
      apply item_interval; auto. lia.
    + apply split1_None in E. destruct (py_int s) as [i|] eqn:E1; [|discriminate].
      intros [= <-]. apply item_single; auto.
  - intros [s' n Hs Hi|a b lo hi Ha Hlo Hhi Hle].
    + apply split1_None in Hs. rewrite Hs. unfold is_int in Hi. rewrite Hi. reflexivity.
    + rewrite split1_app by exact Ha. unfold is_int in *. rewrite Hlo, Hhi.
      destruct (lo >? hi) eqn:Eg; [lia|reflexivity].
Qed.
Lemma create_value_err s e : create_value s = Err e -> e = EPayload.
Proof.
  unfold create_value. destruct (split1 "-" s) as [[a b]|].
  - destruct (py_int a); [|congruence]. destruct (py_int b); [|congruence].
    destruct (_ >? _); congruence.
  - destruct (py_int s); congruence.
Qed.
Lemma item_range_le s lo hi : item_range s (lo, hi) -> lo <= hi.
Proof. intros H. inversion H; subst; lia. Qed.
Lemma py_int_nonneg_or_minus s z : py_int s = Some z -> shas "-" s = false -> 0 <= z.
Proof.
  unfold py_int. intros H Hm.
  assert (Hs : shas "-" (strip s) = false).
  { unfold strip.
    assert (Hl : forall t, shas "-" t = false -> shas "-" (lstrip t) = false).
    { induction t as [|c t IH]; [auto|]. cbn [lstrip]. destruct (is_space c); [|auto].
      rewrite shas_cons, orb_false_iff. tauto. }
    assert (Hr : forall t, shas "-" t = false -> shas "-" (rstrip t) = false).
    { induction t as [|c t IH]; [auto|]. cbn [rstrip]. rewrite shas_cons, orb_false_iff. intros [H1 H2].
      specialize (IH H2). destruct (rstrip t) eqn:E.
      - destruct (is_space c); [reflexivity|]. rewrite shas_cons, H1. reflexivity.
      - rewrite shas_cons, H1. exact IH. }
    auto. }
  destruct (strip s) as [|c r]; [discriminate|].
  rewrite shas_cons, orb_false_iff in Hs. destruct Hs as [Hc _].
  rewrite Ascii.eqb_sym, Hc in H.
  destruct (Ascii.eqb c "+"); eapply digits_nonneg in H; lia.
Qed.
Lemma item_range_nonneg s lo hi : item_range s (lo, hi) -> 0 <= lo.
Proof.
  intros H. inversion H as [s' n Hs Hi|a b lo' hi' Ha Hlo Hhi Hle]; subst; eapply py_int_nonneg_or_minus; eauto.
Qed.

Lemma mapM_create items :
  (exists rs, mapM create_value items = Ok rs /\ Forall2 item_range items rs) \/
  (mapM create_value items = Err EPayload /\ exists s, In s items /\ forall r, ~ item_range s r).
Proof.
  induction items as [|s items IH]; cbn.
  - left. exists []. split; [reflexivity|constructor].
  - destruct (create_value s) as [r|e] eqn:E; cbn.
    + destruct IH as [(rs & -> & Hf)|(-> & s' & Hin & Hs')]; cbn.
      * left. exists (r :: rs). split; [reflexivity|]. constructor; [apply create_value_spec; exact E|exact Hf].
      * right. split; [reflexivity|]. exists s'. auto.
    + right. rewrite (create_value_err _ _ E). split; [reflexivity|]. exists s. split; [auto|].
      intros r Hr. apply create_value_spec in Hr. congruence.
Qed.

(** ** sorting *)
Lemma insert_perm x l : Permutation (insert_range x l) (x :: l).
Proof.
  induction l as [|y l IH]; cbn; [apply Permutation_refl|].
  destruct (range_leb x y); [apply Permutation_refl|].
  eapply perm_trans; [apply perm_skip, IH|]. apply perm_swap.
Qed.
Lemma sort_perm l : Permutation (sort_ranges l) l.
Proof.
  induction l as [|x l IH]; cbn; [constructor|].
  eapply perm_trans; [apply insert_perm|]. apply perm_skip, IH.
Qed.
Definition rle (x y : Z * Z) : Prop := range_leb x y = true.
Lemma rle_trans x y z : rle x y -> rle y z -> rle x z.
Proof. unfold rle, range_leb. destruct x, y, z; cbn. lia. Qed.
Lemma rle_total x y : range_leb x y = false -> rle y x.
Proof. unfold rle, range_leb. destruct x, y; cbn. lia. Qed.
Lemma insert_sorted x l : StronglySorted rle l -> StronglySorted rle (insert_range x l).
Proof.
  induction l as [|y l IH]; cbn; intros Hs.
  - constructor; constructor.
  - inversion Hs as [|? ? Hs' Hf]; subst. destruct (range_leb x y) eqn:E.
    + constructor; [exact Hs|]. constructor; [exact E|].
      eapply Forall_impl; [|exact Hf]. intros z Hz. eapply rle_trans; [exact E|exact Hz].
    + constructor; [auto|]. rewrite Forall_forall in *. intros z Hz.
      apply (Permutation_in _ (insert_perm x l)) in Hz. destruct Hz as [<-|Hz]; [apply rle_total, E|auto].
Qed.
Lemma sort_sorted l : StronglySorted rle (sort_ranges l).
Proof. induction l as [|x l IH]; cbn; [constructor|]. apply insert_sorted, IH. Qed.

(** ** merging *)
Definition rnormal (nv : list (Z * Z)) : Prop := normal (rev nv).

Lemma normal_snoc l lo hi lo' hi' : normal (l ++ [(lo, hi)]) -> lo' <= hi' -> hi + 1 < lo' ->
  normal (l ++ [(lo, hi); (lo', hi')]).
Proof.
  induction l as [|[a b] l IH]; cbn; intros Hn Hle Hgap.
  - inversion Hn; subst. constructor; auto. constructor; auto.
  - destruct l as [|[a' b'] l]; cbn in *.
    + inversion Hn; subst. constructor; auto.
    + inversion Hn; subst. constructor; auto.
Qed.
Lemma normal_last_up l lo hi hi' : normal (l ++ [(lo, hi)]) -> hi <= hi' -> normal (l ++ [(lo, hi')]).
Proof.
  induction l as [|[a b] l IH]; cbn; intros Hn Hle.
  - inversion Hn; subst. constructor; lia.
  - destruct l as [|[a' b'] l]; cbn in *; inversion Hn; subst; constructor; auto.
Qed.
Lemma normal_app_r l1 l2 : normal (l1 ++ l2) -> normal l2.
Proof.
  induction l1 as [|[a b] l1 IH]; cbn; [auto|]. intros Hn. apply IH.
  destruct (l1 ++ l2) as [|[c d] t]; [constructor|]. inversion Hn; subst; auto.
Qed.
Lemma normal_last_le l lo hi : normal (l ++ [(lo, hi)]) -> lo <= hi.
Proof. intros Hn. apply normal_app_r in Hn. inversion Hn; subst; auto. Qed.

Lemma merge_spec l : forall nv,
  StronglySorted rle l -> Forall (fun r => fst r <= snd r) l -> rnormal nv ->
  (forall x, hd_error nv = Some x -> Forall (fun r => fst x <= fst r) l) ->
  normal (merge_ranges nv l) /\
  (forall z, denotes (merge_ranges nv l) z <-> denotes nv z \/ denotes l z) /\
  (merge_ranges nv l = [] -> nv = [] /\ l = []).
Proof.
  induction l as [|[v1 v2] l IH]; cbn [merge_ranges]; intros nv Hs Hle Hn Hhd.
  - split; [exact Hn|]. split.
    + intros z. rewrite denotes_nil. rewrite (denotes_perm (rev nv) nv) by (apply Permutation_sym, Permutation_rev). tauto.
    + intros E. split; [|reflexivity]. rewrite <- (rev_involutive nv), E. reflexivity.
  - inversion Hs as [|? ? Hs' Hf]; subst. inversion Hle as [|? ? Hv Hle']; subst. cbn in Hv.
    assert (Hmin : Forall (fun r => v1 <= fst r) l).
    { eapply Forall_impl; [|exact Hf]. intros [a b]. unfold rle, range_leb; cbn. lia. }
    destruct nv as [|[l0 l1] nv].
    + destruct (IH [(v1, v2)]) as (H1 & H2 & H3); auto.
      * constructor. exact Hv.
      * intros x [= <-]. exact Hmin.
      * split; [exact H1|]. split.
        -- intros z. rewrite H2, denotes_nil, !denotes_cons, denotes_nil. tauto.
        -- intros E. destruct (H3 E); discriminate.
    + pose proof (Hhd _ eq_refl) as Hh. inversion Hh as [|? ? Hh1 Hh2]; subst. cbn in Hh1.
      unfold rnormal in Hn. cbn in Hn. pose proof (normal_last_le _ _ _ Hn) as Hl01.
      destruct (Z.leb_spec v1 (l1 + 1)) as [Hm|Hm].
      * destruct (IH ((l0, Z.max l1 v2) :: nv)) as (H1 & H2 & H3); auto.
        -- unfold rnormal. cbn. eapply normal_last_up; [exact Hn|lia].
        -- intros x [= <-]. eapply Forall_impl; [|exact Hh2]. cbn. auto.
        -- split; [exact H1|]. split.
           ++ intros z. rewrite H2, !denotes_cons.
              assert (Hu : l0 <= z <= Z.max l1 v2 <-> l0 <= z <= l1 \/ v1 <= z <= v2) by lia. tauto.
           ++ intros E. destruct (H3 E); discriminate.
      * destruct (IH ((v1, v2) :: (l0, l1) :: nv)) as (H1 & H2 & H3); auto.
        -- unfold rnormal. cbn. rewrite <- app_assoc. apply normal_snoc; [exact Hn|lia|lia].
        -- intros x [= <-]. exact Hmin.
        -- split; [exact H1|]. split.
           ++ intros z. rewrite H2, !denotes_cons. tauto.
           ++ intros E. destruct (H3 E); discriminate.
Qed.

Lemma parse_ranges_spec rs : Forall (fun r => fst r <= snd r) rs ->
  let vs := merge_ranges [] (sort_ranges rs) in
  normal vs /\ (forall z, denotes vs z <-> denotes rs z) /\ (vs = [] -> rs = []).
Proof.
  intros Hle. destruct (merge_spec (sort_ranges rs) []) as (H1 & H2 & H3).
  - apply sort_sorted.
  - rewrite Forall_forall in *. intros r Hr. apply Hle.
    apply (Permutation_in _ (sort_perm rs)) in Hr. exact Hr.
  - constructor.
  - intros x; discriminate.
  - split; [exact H1|]. split.
    + intros z. rewrite H2, denotes_nil, (denotes_perm _ _ z (sort_perm rs)). tauto.
    + intros E. destruct (H3 E) as [_ E']. pose proof (sort_perm rs) as Hp. rewrite E' in Hp.
      apply Permutation_nil in Hp. exact Hp.
Qed.

(** ** uniqueness of normal forms *)
Lemma normal_tail x r : normal (x :: r) -> normal r.
Proof. intros H. inversion H; subst; [constructor|auto]. Qed.
Lemma normal_head_min lo hi r z : normal ((lo, hi) :: r) -> denotes r z -> hi + 1 < z.
Proof.
  revert lo hi; induction r as [|[a b] r IH]; intros lo hi Hn Hd.
  - apply denotes_nil in Hd. tauto.
  - inversion Hn as [| |? ? ? ? ? Hle Hgap Hn']; subst. apply denotes_cons in Hd as [Hd|Hd]; [lia|].
    specialize (IH _ _ Hn' Hd). assert (a <= b) by (inversion Hn'; subst; auto). lia.
Qed.
Lemma normal_head_le lo hi r : normal ((lo, hi) :: r) -> lo <= hi.
Proof. intros H; inversion H; subst; auto. Qed.
Lemma normal_unique a : forall b, normal a -> normal b -> (forall z, denotes a z <-> denotes b z) -> a = b.
Proof.
  induction a as [|[lo hi] a IH]; intros [|[lo' hi'] b] Ha Hb Hd.
  - reflexivity.
  - exfalso. pose proof (normal_head_le _ _ _ Hb). apply (denotes_nil lo'), Hd, denotes_cons. lia.
  - exfalso. pose proof (normal_head_le _ _ _ Ha). apply (denotes_nil lo), Hd, denotes_cons. lia.
  - pose proof (normal_head_le _ _ _ Ha) as Hla. pose proof (normal_head_le _ _ _ Hb) as Hlb.
    assert (Hin1 : forall z, lo <= z <= hi -> denotes ((lo',hi') :: b) z) by (intros z Hz; apply Hd, denotes_cons; auto).
    assert (Hin2 : forall z, lo' <= z <= hi' -> denotes ((lo,hi) :: a) z) by (intros z Hz; apply Hd, denotes_cons; auto).
    assert (Hmin : forall z, denotes ((lo', hi') :: b) z -> lo' <= z).
    { intros z Hz. apply denotes_cons in Hz as [Hz|Hz]; [lia|]. pose proof (normal_head_min _ _ _ _ Hb Hz). lia. }
    assert (Hmin' : forall z, denotes ((lo, hi) :: a) z -> lo <= z).
    { intros z Hz. apply denotes_cons in Hz as [Hz|Hz]; [lia|]. pose proof (normal_head_min _ _ _ _ Ha Hz). lia. }
    assert (lo = lo').
    { pose proof (Hmin lo (Hin1 lo ltac:(lia))). pose proof (Hmin' lo' (Hin2 lo' ltac:(lia))). lia. }
    subst lo'.
    assert (Hhh : hi = hi').
    { assert (Hc : forall h h' x r1, normal ((x, h) :: r1) -> x <= h' -> (forall z, x <= z <= h' -> denotes ((x,h)::r1) z) -> h' <= h).
      { intros h h' x r1 Hn Hx Hz. pose proof (normal_head_le _ _ _ Hn) as Hnl.
        destruct (Z.le_gt_cases h' h) as [|Hgt]; [auto|]. exfalso.
        specialize (Hz (h + 1) ltac:(lia)). apply denotes_cons in Hz as [Hz|Hz]; [lia|].
        pose proof (normal_head_min _ _ _ _ Hn Hz). lia. }
      pose proof (Hc hi hi' lo a Ha Hlb Hin2). pose proof (Hc hi' hi lo b Hb Hla Hin1). lia. }
    subst hi'. f_equal. apply IH; [eapply normal_tail; eauto|eapply normal_tail; eauto|].
    intros z. specialize (Hd z). rewrite !denotes_cons in Hd. split; intros Hz.
    + pose proof (normal_head_min _ _ _ _ Ha Hz). destruct Hd as [Hd _]. destruct (Hd (or_intror Hz)); [lia|auto].
    + pose proof (normal_head_min _ _ _ _ Hb Hz). destruct Hd as [_ Hd]. destruct (Hd (or_intror Hz)); [lia|auto].
Qed.

(** ** C01 *)
Lemma parse_items_spec items :
  (exists rs vs, Forall2 item_range items rs /\ parse_items items = Ok vs /\ normal vs /\
     (forall z, denotes vs z <-> denotes rs z) /\ (forall lo hi, In (lo, hi) vs -> 0 <= lo) /\
     (items <> [] -> vs <> [])) \/
  ((exists s, In s items /\ forall r, ~ item_range s r) /\ parse_items items = Err EPayload).
Proof.
  unfold parse_items. destruct (mapM_create items) as [(rs & -> & Hf)|(-> & Hex)]; cbn; [left|right; auto].
  assert (Hle : Forall (fun r => fst r <= snd r) rs).
  { clear -Hf. induction Hf as [|s [lo hi] items rs H _ IH]; constructor; [|auto]. eapply item_range_le; eauto. }
  assert (Hnn : forall lo hi, In (lo, hi) rs -> 0 <= lo).
  { clear -Hf. induction Hf as [|s [lo hi] items rs H _ IH]; cbn; [tauto|].
    intros a b [E|Hin]; [injection E as <- <-; eapply item_range_nonneg; eauto|eauto]. }
  destruct (parse_ranges_spec rs Hle) as (H1 & H2 & H3).
  exists rs, (merge_ranges [] (sort_ranges rs)). repeat split; auto; try apply H2.
  - intros lo hi Hin.
    assert (Hlo : lo <= hi).
    { assert (G : forall l, normal l -> In (lo, hi) l -> lo <= hi); [|apply (G _ H1 Hin)].
      clear. induction l as [|[a b] l IH]; cbn; [tauto|]. intros Hn [E|Hi].
      - injection E as -> ->. eapply normal_head_le; eauto.
      - apply IH; [eapply normal_tail; eauto|auto]. }
    assert (Hd : denotes (merge_ranges [] (sort_ranges rs)) lo) by (exists lo, hi; split; [auto|lia]).
    apply H2 in Hd. destruct Hd as (a & b & Hin' & Hz). apply Hnn in Hin'. lia.
  - intros Hne E. apply H3 in E. subst rs. inversion Hf; subst. congruence.
Qed.

Lemma label_of_str_items t items : items <> [] -> (forall s, In s items -> shas "," s = false) ->
  label_of_str t (join "," items) = label_of_list t items.
Proof. intros Hne Hfree. unfold label_of_str. rewrite (split_on_join ","); auto. Qed.

Lemma label_of_str_wf t s l : label_of_str t s = Ok l -> ltype l = t /\ wf_values (lvalues l).
Proof.
  unfold label_of_str, label_of_list.
  destruct (parse_items_spec (split_on "," s)) as [(rs & vs & _ & -> & Hn & _ & Hnn & Hne)|(_ & ->)]; cbn; [|discriminate].
  intros [= <-]. cbn. split; [reflexivity|]. split; [apply Hne, split_on_nonnil|]. auto.
Qed.

(** ** Text of well-formed ranges parses back *)
Lemma hyphen_digits n : 0 <= n -> shas "-" (py_str n) = false.
Proof. intros H. apply shas_digits; [reflexivity|]. apply py_str_digits, H. Qed.
Lemma comma_num n : shas "," (py_str n) = false.
Proof.
  unfold shas. rewrite negb_false_iff. eapply sall_impl; [|apply py_str_chars].
  intros d Hd. destruct (Ascii.eqb_spec "," d); [subst; discriminate|reflexivity].
Qed.
Lemma range_text_item lo hi : 0 <= lo -> lo <= hi -> item_range (range_text (lo, hi)) (lo, hi).
Proof.
  intros H0 Hle. unfold range_text. cbn [fst snd].
  apply item_interval; [apply hyphen_digits; auto|apply py_int_str|apply py_int_str|auto].
Qed.
Lemma value_text_item lo hi : 0 <= lo -> lo <= hi -> item_range (value_text (lo, hi)) (lo, hi).
Proof.
  intros H0 Hle. unfold value_text. cbn [fst snd]. destruct (Z.eqb_spec lo hi) as [<-|Hne].
  - apply item_single; [apply hyphen_digits; auto|apply py_int_str].
  - apply range_text_item; auto.
Qed.
Lemma range_text_comma v : shas "," (range_text v) = false.
Proof. unfold range_text. rewrite !shas_app, !comma_num. reflexivity. Qed.
Lemma value_text_comma v : shas "," (value_text v) = false.
Proof. unfold value_text. destruct (_ =? _); [apply comma_num|apply range_text_comma]. Qed.

Lemma item_range_fun s r r' : item_range s r -> item_range s r' -> r = r'.
Proof. intros H1 H2. apply create_value_spec in H1, H2. congruence. Qed.

(** parsing the texts [f r] of valid non-negative ranges denotes those ranges *)
Lemma label_of_texts t (f : Z * Z -> string) rs :
  rs <> [] -> (forall lo hi, In (lo, hi) rs -> 0 <= lo <= hi) ->
  (forall lo hi, 0 <= lo -> lo <= hi -> item_range (f (lo, hi)) (lo, hi)) ->
  (forall v, shas "," (f v) = false) ->
  exists l, label_of_str t (join "," (map f rs)) = Ok l /\ ltype l = t /\ wf_values (lvalues l) /\
            forall z, denotes (lvalues l) z <-> denotes rs z.
Proof.
  intros Hne Hle Hf Hc. rewrite label_of_str_items.
  2:{ destruct rs; cbn; congruence. }
  2:{ intros s Hs. apply in_map_iff in Hs as (v & <- & _). apply Hc. }
  assert (Hall : Forall2 item_range (map f rs) rs).
  { clear Hne. induction rs as [|[lo hi] rs IH]; constructor.
    - apply Hf; specialize (Hle lo hi (or_introl eq_refl)); lia.
    - apply IH. intros a b Hin. apply Hle. right; exact Hin. }
  unfold label_of_list.
  destruct (parse_items_spec (map f rs)) as [(rs' & vs & Hf2 & -> & Hn & Hd & Hnn & Hne')|((s & Hin & Hs) & _)].
  - assert (E : rs' = rs).
    { clear -Hall Hf2. revert rs' Hf2. induction Hall as [|s r items rs H _ IH]; intros rs' Hf2; inversion Hf2; subst; [reflexivity|].
      f_equal; [eapply item_range_fun; eauto|auto]. }
    subst rs'. cbn. exists (mkLabel t vs). cbn. repeat split; auto; try apply Hd.
    apply Hne'. destruct rs; cbn; congruence.
  - exfalso. apply in_map_iff in Hin as ([lo hi] & <- & Hin). specialize (Hle _ _ Hin).
    apply (Hs (lo, hi)). apply Hf; lia.
Qed.

Lemma normal_In_le vs lo hi : normal vs -> In (lo, hi) vs -> lo <= hi.
Proof.
  induction vs as [|[a b] l IH]; cbn; [tauto|]. intros Hn [E|Hi].
  - injection E as -> ->. eapply normal_head_le; eauto.
  - apply IH; [eapply normal_tail; eauto|auto].
Qed.

(** ** C03 *)
Lemma label_value_roundtrip l : wf_values (lvalues l) -> label_of_str (ltype l) (label_value l) = Ok l.
Proof.
  intros (Hne & Hn & Hnn). unfold label_value.
  destruct (label_of_texts (ltype l) value_text (lvalues l)) as (l' & -> & Ht & (_ & Hn' & _) & Hd); auto.
  - intros lo hi Hin. pose proof (normal_In_le _ _ _ Hn Hin). pose proof (Hnn _ _ Hin). lia.
  - apply value_text_item.
  - apply value_text_comma.
  - f_equal. destruct l as [t vs], l' as [t' vs']; cbn in *. subst t'. f_equal.
    apply normal_unique; auto.
Qed.

Lemma label_eqb_refl l : label_eqb l l = true.
Proof. unfold label_eqb. rewrite !eqb_refl. reflexivity. Qed.
Lemma insert_head x l : Forall (rle x) l -> insert_range x l = x :: l.
Proof. destruct l as [|y l]; cbn; [reflexivity|]. intros H; inversion H; subst. unfold rle in *. destruct (range_leb x y); congruence. Qed.
Lemma sort_normal vs : normal vs -> sort_ranges vs = vs.
Proof.
  induction vs as [|[a b] vs IH]; cbn; [reflexivity|]. intros Hn.
  rewrite IH by (eapply normal_tail; eauto). apply insert_head.
  rewrite Forall_forall. intros [c d] Hin.
  assert (Hd : denotes vs c).
  { exists c, d. split; [auto|]. pose proof (normal_In_le _ _ _ (normal_tail _ _ Hn) Hin). lia. }
  pose proof (normal_head_min _ _ _ _ Hn Hd). pose proof (normal_head_le _ _ _ Hn).
  unfold rle, range_leb; cbn. lia.
Qed.
Lemma label_eqb_spec a b : normal (lvalues a) -> normal (lvalues b) ->
  label_eqb a b = true <-> (ltype a = ltype b /\ forall z, denotes (lvalues a) z <-> denotes (lvalues b) z).
Proof.
  intros Ha Hb. unfold label_eqb. rewrite !sort_normal by auto. rewrite andb_true_iff, !eqb_true.
  split; intros [H1 H2]; (split; [auto|]).
  - rewrite H2. tauto.
  - apply normal_unique; auto.
Qed.

(** ** C02 *)
Lemma isect_inner_spec v1 v2 : v1 <= v2 -> forall i o,
  normal (o :: i) ->
  let '(l, (o', i')) := isect_inner v1 v2 o i in
  (forall z, denotes l z <-> v1 <= z <= v2 /\ denotes (o :: i) z) /\
  normal (o' :: i') /\
  (forall z, v2 < z -> denotes (o :: i) z <-> denotes (o' :: i') z) /\
  (forall lo hi, In (lo, hi) l -> v1 <= lo <= hi).
Proof.
  intros Hv. induction i as [|o' i IH]; intros [o1 o2] Hn; cbn [isect_inner];
    pose proof (normal_head_le _ _ _ Hn) as Ho.
  - destruct (Z.ltb_spec v2 o1).
    + split; [|split; [exact Hn|split; [tauto|cbn; tauto]]].
      intros z. rewrite denotes_cons, denotes_nil. lia.
    + destruct (Z.ltb_spec o2 v1).
      * split; [|split; [exact Hn|split; [tauto|cbn; tauto]]].
        intros z. rewrite denotes_cons, denotes_nil. lia.
      * assert (G : forall z, denotes [(Z.max v1 o1, Z.min v2 o2)] z <-> v1 <= z <= v2 /\ denotes [(o1,o2)] z).
        { intros z. rewrite !denotes_cons, !denotes_nil. lia. }
        assert (G2 : forall lo hi, In (lo, hi) [(Z.max v1 o1, Z.min v2 o2)] -> v1 <= lo <= hi).
        { cbn. intros lo hi [[= <- <-]|[]]. lia. }
        destruct (v2 <=? o2); [|destruct (o2 <=? v2)];
          (split; [exact G|split; [exact Hn|split; [tauto|exact G2]]]).
  - assert (Hgap : forall z, denotes (o' :: i) z -> o2 + 1 < z) by (intros z; eapply normal_head_min; eauto).
    destruct (Z.ltb_spec v2 o1).
    + split; [|split; [exact Hn|split; [tauto|cbn; tauto]]].
      intros z. rewrite denotes_nil. split; [tauto|]. intros [Hz Hd].
      apply denotes_cons in Hd as [Hd|Hd]; [lia|]. specialize (Hgap _ Hd). lia.
    + destruct (Z.ltb_spec o2 v1).
      * specialize (IH o' (normal_tail _ _ Hn)). destruct (isect_inner v1 v2 o' i) as [l [o'' i'']].
        destruct IH as (H1 & H2 & H3 & H4). split; [|split; [auto|split; [|auto]]].
        -- intros z. rewrite H1, (denotes_cons o1 o2). split; [tauto|]. intros [Hz [Hd|Hd]]; [lia|auto].
        -- intros z Hz. rewrite denotes_cons, <- H3 by auto. split; [intros [Hd|Hd]; [lia|auto]|auto].
      * destruct (Z.leb_spec v2 o2).
        -- split; [|split; [auto|split; [tauto|]]].
           ++ intros z. rewrite !denotes_cons, denotes_nil. split; [lia|]. intros [Hz [Hd|Hd]]; [lia|].
              specialize (Hgap _ Hd). lia.
           ++ cbn. intros lo hi [[= <- <-]|[]]. lia.
        -- destruct (Z.leb_spec o2 v2); [|lia].
           specialize (IH o' (normal_tail _ _ Hn)). destruct (isect_inner v1 v2 o' i) as [l [o'' i'']].
           destruct IH as (G1 & G2 & G3 & G4). split; [|split; [auto|split]].
           ++ intros z. rewrite (denotes_cons _ _ l), G1, (denotes_cons o1 o2). split; [intros [Hz|Hz]; [lia|tauto]|].
              intros [Hz [Hd|Hd]]; [lia|auto].
           ++ intros z Hz. rewrite denotes_cons, <- G3 by auto. split; [intros [Hd|Hd]; [lia|auto]|auto].
           ++ intros lo hi [[= <- <-]|Hin]; [lia|auto].
Qed.

Lemma isect_outer_spec vs : forall o i, normal vs -> normal (o :: i) ->
  (forall z, denotes (isect_outer vs o i) z <-> denotes vs z /\ denotes (o :: i) z) /\
  (forall lo hi, In (lo, hi) (isect_outer vs o i) -> lo <= hi).
Proof.
  induction vs as [|[v1 v2] vs IH]; intros o i Hv Ho; cbn [isect_outer].
  - split; [intros z; rewrite denotes_nil; tauto|cbn; tauto].
  - pose proof (normal_head_le _ _ _ Hv) as Hle.
    pose proof (isect_inner_spec v1 v2 Hle i o Ho) as Hi.
    destruct (isect_inner v1 v2 o i) as [l [o' i']]. destruct Hi as (H1 & H2 & H3 & H4).
    destruct (IH o' i' (normal_tail _ _ Hv) H2) as [H5 H6]. split.
    + intros z. rewrite denotes_app, H1, H5, (denotes_cons v1 v2). split.
      * intros [[Ha Hb]|[Ha Hb]]; [auto|]. pose proof (normal_head_min _ _ _ _ Hv Ha).
        split; [auto|]. apply H3; [lia|auto].
      * intros [[Ha|Ha] Hb]; [auto|]. pose proof (normal_head_min _ _ _ _ Hv Ha). right. split; [auto|]. apply H3; [lia|auto].
    + intros lo hi Hin. apply in_app_iff in Hin as [Hin|Hin]; [specialize (H4 _ _ Hin); lia|eauto].
Qed.

Lemma denotes_nonneg vs z : (forall lo hi, In (lo, hi) vs -> 0 <= lo) -> denotes vs z -> 0 <= z.
Proof. intros H (lo & hi & Hin & Hz). specialize (H _ _ Hin). lia. Qed.

Lemma intersect_spec a b : wf_values (lvalues a) -> wf_values (lvalues b) -> ltype a = ltype b ->
  (exists l, intersect a b = Ok l /\ ltype l = ltype a /\ wf_values (lvalues l) /\
     (exists z, denotes (lvalues l) z) /\
     forall z, denotes (lvalues l) z <-> denotes (lvalues a) z /\ denotes (lvalues b) z) \/
  (intersect a b = Err EEmptyLabelSet /\ forall z, ~ (denotes (lvalues a) z /\ denotes (lvalues b) z)).
Proof.
  intros (Hnea & Hna & Hnna) (Hneb & Hnb & Hnnb) Ht. unfold intersect.
  rewrite Ht, eqb_refl. cbn [negb].
  destruct (lvalues b) as [|o i] eqn:Eb; [congruence|]. rewrite <- Eb in *.
  destruct (isect_outer_spec (lvalues a) o i) as [H1 H2]; [auto|rewrite <- Eb; auto|].
  rewrite <- Eb in H1.
  destruct (isect_outer (lvalues a) o i) as [|r0 lv0] eqn:El.
  - right. split; [reflexivity|]. intros z Hz. apply H1 in Hz. apply denotes_nil in Hz. exact Hz.
  - rewrite <- El in *. left.
    assert (Hne : isect_outer (lvalues a) o i <> []) by congruence.
    destruct (label_of_texts (ltype b) range_text (isect_outer (lvalues a) o i)) as (l & -> & Htl & Hwf & Hd); auto.
    + intros lo hi Hin. specialize (H2 _ _ Hin). split; [|auto].
      assert (Hdl : denotes (isect_outer (lvalues a) o i) lo) by (exists lo, hi; split; [auto|lia]).
      apply H1 in Hdl. eapply denotes_nonneg; [|apply Hdl]. auto.
    + intros; apply range_text_item; auto.
    + apply range_text_comma.
    + exists l. split; [reflexivity|]. split; [congruence|]. split; [auto|]. split.
      * destruct Hwf as (Hl & Hn & _). destruct (lvalues l) as [|[lo hi] r] eqn:E; [congruence|].
        exists lo. apply denotes_cons. left. pose proof (normal_head_le _ _ _ Hn). lia.
      * intros z. rewrite Hd. apply H1.
Qed.

Lemma intersect_comm a b : wf_values (lvalues a) -> wf_values (lvalues b) -> ltype a = ltype b ->
  intersect a b = intersect b a.
Proof.
  intros Ha Hb Ht.
  destruct (intersect_spec a b Ha Hb Ht) as [(l & -> & Htl & (_ & Hn & _) & (z & Hz) & Hd)|(-> & Hd)];
  destruct (intersect_spec b a Hb Ha (eq_sym Ht)) as [(l' & -> & Htl' & (_ & Hn' & _) & (z' & Hz') & Hd')|(-> & Hd')].
  - f_equal. destruct l, l'; cbn in *. f_equal; [congruence|]. apply normal_unique; auto.
    intros x. rewrite Hd, Hd'. tauto.
  - exfalso. apply (Hd' z). apply Hd in Hz. tauto.
  - exfalso. apply (Hd z'). apply Hd' in Hz'. tauto.
  - reflexivity.
Qed.

Lemma can_match_spec a b : wf_values (lvalues a) -> wf_values (lvalues b) -> ltype a = ltype b ->
  exists r, can_match (Some a) (Some b) = Ok r /\
    (r = true <-> exists z, denotes (lvalues a) z /\ denotes (lvalues b) z).
Proof.
  intros Ha Hb Ht. unfold can_match.
  destruct (intersect_spec a b Ha Hb Ht) as [(l & -> & _ & _ & (z & Hz) & Hd)|(-> & Hd)].
  - exists true. split; [reflexivity|]. split; [|auto]. intros _. exists z. apply Hd, Hz.
  - exists false. split; [reflexivity|]. split; [discriminate|]. intros (z & Hz). destruct (Hd z Hz).
Qed.

(** ** C04 *)
Lemma zrange_In lo hi z : In z (zrange lo hi) <-> lo <= z <= hi.
Proof.
  unfold zrange. rewrite in_map_iff. split.
  - intros (k & <- & Hk). apply in_seq in Hk. lia.
  - intros Hz. exists (Z.to_nat (z - lo)). split; [lia|]. apply in_seq. lia.
Qed.
Lemma enumerate_In l z : In z (enumerate_values l) <-> denotes (lvalues l) z.
Proof.
  unfold enumerate_values, denotes. rewrite in_flat_map. split.
  - intros ([lo hi] & Hin & Hz). apply zrange_In in Hz. eauto.
  - intros (lo & hi & Hin & Hz). exists (lo, hi). split; [auto|]. apply zrange_In. exact Hz.
Qed.
Lemma ss_app {A} (R : A -> A -> Prop) l1 l2 : StronglySorted R l1 -> StronglySorted R l2 ->
  (forall x y, In x l1 -> In y l2 -> R x y) -> StronglySorted R (l1 ++ l2).
Proof.
  induction l1 as [|x l1 IH]; cbn; [auto|]. intros H1 H2 H3. inversion H1; subst.
  constructor; [apply IH; auto|]. rewrite Forall_forall in *. intros y Hy. apply in_app_iff in Hy as [Hy|Hy]; auto.
Qed.
Lemma zrange_sorted lo hi : StronglySorted Z.lt (zrange lo hi).
Proof.
  unfold zrange. generalize (Z.to_nat (hi + 1 - lo)) as n. generalize 0%nat as s. intros s n. revert s.
  induction n as [|n IH]; intros s; cbn [seq map]; constructor; [apply IH|].
  rewrite Forall_forall. intros y Hy. apply in_map_iff in Hy as (k & <- & Hk). apply in_seq in Hk. lia.
Qed.
Lemma enumerate_sorted l : normal (lvalues l) -> StronglySorted Z.lt (enumerate_values l).
Proof.
  unfold enumerate_values. intros Hn. induction (lvalues l) as [|[lo hi] r IH]; cbn; [constructor|].
  apply ss_app; [apply zrange_sorted|apply IH; eapply normal_tail; eauto|].
  intros x y Hx Hy. apply zrange_In in Hx.
  assert (Hd : denotes r y).
  { apply in_flat_map in Hy as ([a b] & Hin & Hy). apply zrange_In in Hy. exists a, b. auto. }
  pose proof (normal_head_min _ _ _ _ Hn Hd). lia.
Qed.
Lemma ss_lt_NoDup l : StronglySorted Z.lt l -> NoDup l.
Proof.
  induction 1 as [|x l Hs IH Hf]; constructor; [|auto]. intros Hin. rewrite Forall_forall in Hf.
  specialize (Hf _ Hin). lia.
Qed.
Lemma single_value_spec l : wf_values (lvalues l) ->
  single_value l = true <-> exists v, forall z, denotes (lvalues l) z <-> z = v.
Proof.
  intros (Hne & Hn & _). unfold single_value. destruct (lvalues l) as [|[a b] r]; [congruence|].
  pose proof (normal_head_le _ _ _ Hn) as Hab. destruct r as [|[c d] r].
  - split.
    + intros E. exists a. intros z. rewrite denotes_cons, denotes_nil. lia.
    + intros (v & Hv). assert (a = v) by (apply Hv, denotes_cons; lia). assert (b = v) by (apply Hv, denotes_cons; lia). lia.
  - split; [discriminate|]. intros (v & Hv). exfalso.
    assert (a = v) by (apply Hv, denotes_cons; lia).
    assert (Hcd : c <= d) by (eapply normal_head_le, normal_tail; eauto).
    assert (c = v) by (apply Hv, denotes_cons; right; apply denotes_cons; lia).
    inversion Hn; subst. lia.
Qed.

(** ** C05 *)
Lemma random_label_near l k r v : wf_values (lvalues l) ->
  random_label l k r = Some v -> denotes (lvalues l) v \/ denotes (lvalues l) (v - 1).
Proof.
  intros (_ & Hn & _). unfold random_label. destruct (nth_error (lvalues l) k) as [[lo hi]|] eqn:E; [|discriminate].
  apply nth_error_In in E. pose proof (normal_In_le _ _ _ Hn E) as Hle.
  destruct (_ && _) eqn:Eb; [|discriminate]. intros [= <-].
  destruct (Z.eq_dec r (hi + 1)); [right|left]; exists lo, hi; split; auto; lia.
Qed.
