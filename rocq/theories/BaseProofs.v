(** Lemmas about strings and decimal numbers. *)
From Verif Require Import Base.
Open Scope Z_scope.

Lemma append_nil_r s : s +++ "" = s.
Proof. induction s as [|c s IH]; cbn; congruence. Qed.
Lemma append_assoc a b c : (a +++ b) +++ c = a +++ (b +++ c).
Proof. induction a as [|x a IH]; cbn; congruence. Qed.
Lemma append_inj_r a b b' : a +++ b = a +++ b' -> b = b'.
Proof. induction a as [|x a IH]; cbn; [auto|]. intros [= H]. auto. Qed.
Lemma append_cons a c b : a +++ String c b = (a +++ String c "") +++ b.
Proof. rewrite append_assoc. reflexivity. Qed.

Lemma sall_app f a b : sall f (a +++ b) = sall f a && sall f b.
Proof. induction a as [|c a IH]; cbn; [reflexivity|]. rewrite IH, andb_assoc. reflexivity. Qed.
Lemma sall_impl (f g : ascii -> bool) s : (forall c, f c = true -> g c = true) -> sall f s = true -> sall g s = true.
Proof.
  intros H. induction s as [|c s IH]; cbn; [auto|].
  rewrite !andb_true_iff. intros [H1 H2]. auto.
Qed.
Lemma shas_app c a b : shas c (a +++ b) = shas c a || shas c b.
Proof. unfold shas. rewrite sall_app, negb_andb. reflexivity. Qed.
Lemma shas_cons c d s : shas c (String d s) = Ascii.eqb c d || shas c s.
Proof. unfold shas. cbn. rewrite negb_andb, negb_involutive. reflexivity. Qed.

Lemma split1_None c s : split1 c s = None <-> shas c s = false.
Proof.
  induction s as [|d s IH]; [cbn; tauto|].
  rewrite shas_cons. cbn. rewrite Ascii.eqb_sym.
  destruct (Ascii.eqb c d); cbn; [split; congruence|].
  rewrite <- IH. destruct (split1 c s) as [[a b]|]; split; congruence.
Qed.
Lemma split1_app c a b : shas c a = false -> split1 c (a +++ String c b) = Some (a, b).
Proof.
  induction a as [|d a IH]; cbn [append split1].
  - rewrite Ascii.eqb_refl. reflexivity.
  - rewrite shas_cons, orb_false_iff. intros [H1 H2].
    rewrite Ascii.eqb_sym, H1, (IH H2). reflexivity.
Qed.
Lemma split1_Some c s a b : split1 c s = Some (a, b) -> s = a +++ String c b /\ shas c a = false.
Proof.
  revert a b; induction s as [|d s IH]; cbn; [congruence|]. intros a b.
  destruct (Ascii.eqb_spec d c) as [->|Hn].
  - intros [= <- <-]. auto.
  - destruct (split1 c s) as [[a' b']|]; [|congruence]. intros [= <- <-].
    destruct (IH _ _ eq_refl) as [-> Hs]. split; [reflexivity|].
    rewrite shas_cons, Hs, orb_false_r. destruct (Ascii.eqb_spec c d); congruence.
Qed.
Lemma rsplit1_None c s : rsplit1 c s = None <-> shas c s = false.
Proof.
  induction s as [|d s IH]; [cbn; tauto|].
  rewrite shas_cons. cbn. rewrite Ascii.eqb_sym.
  destruct (rsplit1 c s) as [[a b]|].
  - split; [congruence|]. destruct (shas c s); [|destruct IH as [_ IH]; discriminate IH; reflexivity].
    rewrite orb_true_r. congruence.
  - destruct IH as [IH _]. rewrite (IH eq_refl), orb_false_r. rewrite Ascii.eqb_sym. destruct (Ascii.eqb d c); split; congruence.
Qed.
Lemma rsplit1_app c a b : shas c b = false -> rsplit1 c (a +++ String c b) = Some (a, b).
Proof.
  intros Hb. induction a as [|d a IH]; cbn [append rsplit1].
  - apply rsplit1_None in Hb. rewrite Hb, Ascii.eqb_refl. reflexivity.
  - rewrite IH. reflexivity.
Qed.
Lemma rsplit1_Some c s a b : rsplit1 c s = Some (a, b) -> s = a +++ String c b /\ shas c b = false.
Proof.
  revert a b; induction s as [|d s IH]; cbn; [congruence|]. intros a b.
  destruct (rsplit1 c s) as [[a' b']|] eqn:E.
  - intros [= <- <-]. destruct (IH _ _ eq_refl) as [-> Hs]. auto.
  - destruct (Ascii.eqb_spec d c) as [->|Hn]; [|congruence]. intros [= <- <-].
    apply rsplit1_None in E. auto.
Qed.

Lemma split_on_nonnil c s : split_on c s <> [].
Proof. destruct s as [|d s]; cbn; [congruence|]. destruct (Ascii.eqb d c); [congruence|]. destruct (split_on c s); congruence. Qed.
Lemma split_on_none c s : shas c s = false -> split_on c s = [s].
Proof.
  induction s as [|d s IH]; [reflexivity|]. rewrite shas_cons, orb_false_iff. intros [H1 H2].
  cbn. rewrite Ascii.eqb_sym, H1, (IH H2). reflexivity.
Qed.
Lemma split_on_app c a b : shas c a = false -> split_on c (a +++ String c b) = a :: split_on c b.
Proof.
  induction a as [|d a IH]; cbn [append split_on].
  - rewrite Ascii.eqb_refl. reflexivity.
  - rewrite shas_cons, orb_false_iff. intros [H1 H2].
    rewrite Ascii.eqb_sym, H1, (IH H2). reflexivity.
Qed.
Lemma split_on_join c (l : list string) : l <> [] -> (forall x, In x l -> shas c x = false) ->
  split_on c (join (String c "") l) = l.
Proof.
  induction l as [|x l IH]; [congruence|]. intros _ H.
  destruct l as [|y l].
  - cbn. apply split_on_none, H. left; reflexivity.
  - change (join (String c "") (x :: y :: l)) with (x +++ String c (join (String c "") (y :: l))).
    rewrite split_on_app by (apply H; left; reflexivity).
    rewrite IH; [reflexivity|congruence|]. intros z Hz. apply H. right; exact Hz.
Qed.
(** every piece of a split is free of the separator and joining gives the text back *)
Lemma split_on_free c s x : In x (split_on c s) -> shas c x = false.
Proof.
  revert x; induction s as [|d s IH]; cbn; intros x.
  - intros [<-|[]]; reflexivity.
  - destruct (Ascii.eqb_spec d c) as [->|Hn].
    + intros [<-|Hx]; [reflexivity|auto].
    + destruct (split_on c s) as [|w ws] eqn:E.
      * exfalso. apply (split_on_nonnil c s). exact E.
      * intros [<-|Hx]; [|apply IH; right; exact Hx].
        rewrite shas_cons. rewrite (IH w) by (left; reflexivity). rewrite orb_false_r.
        destruct (Ascii.eqb_spec c d); congruence.
Qed.
Lemma join_split_on c s : join (String c "") (split_on c s) = s.
Proof.
  induction s as [|d s IH]; [reflexivity|]. cbn [split_on].
  destruct (split_on c s) as [|w ws] eqn:E.
  - exfalso. apply (split_on_nonnil c s). exact E.
  - destruct (Ascii.eqb_spec d c) as [->|Hn].
    + cbn. destruct ws; cbn in *; congruence.
    + destruct ws; cbn in *; congruence.
Qed.

Lemma starts_with_app p s : starts_with p (p +++ s) = true.
Proof. induction p as [|c p IH]; [reflexivity|]. cbn. rewrite Ascii.eqb_refl. exact IH. Qed.
Lemma starts_with_Some p s : starts_with p s = true -> exists r, s = p +++ r.
Proof.
  revert s; induction p as [|c p IH]; intros s; [exists s; reflexivity|].
  destruct s as [|d s]; cbn; [congruence|]. rewrite andb_true_iff. intros [H1 H2].
  apply Ascii.eqb_eq in H1. subst d. destruct (IH _ H2) as [r ->]. exists r; reflexivity.
Qed.
Lemma sdrop_app p s : sdrop (String.length p) (p +++ s) = s.
Proof. induction p as [|c p IH]; [destruct s; reflexivity|]. exact IH. Qed.

(** ** Decimal numbers *)
Lemma nat_of_digit d : 0 <= d < 10 -> nat_of_ascii (digit_char d) = (Z.to_nat d + 48)%nat.
Proof. intros H. unfold digit_char. rewrite nat_ascii_embedding; lia. Qed.
Lemma digit_of_char d : 0 <= d < 10 -> digit_of (digit_char d) = Some d.
Proof.
  intros H. unfold digit_of. rewrite nat_of_digit by exact H.
  replace ((48 <=? Z.to_nat d + 48)%nat && (Z.to_nat d + 48 <=? 57)%nat) with true by lia.
  f_equal. lia.
Qed.
Lemma is_digit_char d : 0 <= d < 10 -> is_digit (digit_char d) = true.
Proof. intros H. unfold is_digit. rewrite digit_of_char by exact H. reflexivity. Qed.

Lemma dec_rev_digits f n : 0 <= n -> sall is_digit (dec_rev f n) = true.
Proof.
  revert n; induction f as [|f IH]; intros n Hn; [reflexivity|]. cbn [dec_rev].
  destruct (Z.ltb_spec n 10).
  - cbn. rewrite is_digit_char by lia. reflexivity.
  - rewrite sall_app. rewrite IH by (apply Z.div_pos; lia).
    cbn. rewrite is_digit_char; [reflexivity|]. apply Z.mod_pos_bound; lia.
Qed.
Lemma digits_app a : forall s t acc p, sall is_digit s = true -> digits acc p s = Some a -> (s <> "" \/ p = true) ->
  digits acc p (s +++ t) = digits a true t.
Proof.
  induction s as [|c s IH]; intros t acc p Hs Hd Hp.
  - cbn in *. destruct p; [congruence|]. destruct Hp; congruence.
  - cbn in *. apply andb_true_iff in Hs as [Hc Hs]. unfold is_digit in Hc.
    destruct (digit_of c) as [d|]; [|discriminate]. apply IH; auto.
Qed.
Lemma log2_div10 n : 10 <= n -> (Z.to_nat (Z.log2 (n / 10)) < Z.to_nat (Z.log2 n))%nat.
Proof.
  intros H. assert (H1 : 1 <= n / 10) by (apply Z.div_le_lower_bound; lia).
  assert (Hlt : Z.log2 (n / 10) < Z.log2 n); [|pose proof (Z.log2_nonneg (n/10)); lia].
  assert (Hm : n / 10 * 2 <= n) by (pose proof (Z.mul_div_le n 10); lia).
  pose proof (Z.log2_le_mono _ _ Hm) as Hl.
  rewrite Z.mul_comm in Hl. rewrite Z.log2_double in Hl by lia. lia.
Qed.
Lemma dec_rev_val f n : 0 <= n -> (Z.to_nat (Z.log2 n) < f)%nat ->
  dec_rev f n <> "" /\ digits 0 false (dec_rev f n) = Some n.
Proof.
  revert n; induction f as [|f IH]; intros n Hn Hf; [lia|]. cbn [dec_rev].
  destruct (Z.ltb_spec n 10).
  - split; [discriminate|]. cbn [digits]. rewrite digit_of_char by lia. cbn. f_equal; lia.
  - pose proof (log2_div10 n ltac:(lia)) as Hl.
    destruct (IH (n / 10)) as [Hne Hv]; [apply Z.div_pos; lia | lia |].
    split.
    + destruct (dec_rev f (n / 10)); [congruence | discriminate].
    + rewrite (digits_app (n / 10)); [|apply dec_rev_digits, Z.div_pos; lia | exact Hv | auto].
      cbn [digits]. rewrite digit_of_char by (apply Z.mod_pos_bound; lia).
      f_equal. pose proof (Z.div_mod n 10 ltac:(lia)). lia.
Qed.

Lemma digit_not_space c : is_digit c = true -> is_space c = false.
Proof.
  unfold is_digit, digit_of, is_space.
  destruct ((48 <=? nat_of_ascii c)%nat && (nat_of_ascii c <=? 57)%nat) eqn:E; [|discriminate].
  intros _. lia.
Qed.
Lemma lstrip_id s : sall (fun c => negb (is_space c)) s = true -> lstrip s = s.
Proof. destruct s as [|c s]; [reflexivity|]. cbn. destruct (is_space c); [discriminate|reflexivity]. Qed.
Lemma rstrip_id s : sall (fun c => negb (is_space c)) s = true -> rstrip s = s.
Proof.
  induction s as [|c s IH]; [reflexivity|]. cbn. rewrite andb_true_iff. intros [H1 H2]. rewrite (IH H2).
  destruct (is_space c); [discriminate|]. destruct s; reflexivity.
Qed.
Lemma strip_id s : sall (fun c => negb (is_space c)) s = true -> strip s = s.
Proof. intros H. unfold strip. rewrite lstrip_id by exact H. apply rstrip_id, H. Qed.

Definition numchar (c : ascii) : bool := is_digit c || Ascii.eqb c "-".
Lemma numchar_not_space c : numchar c = true -> negb (is_space c) = true.
Proof.
  unfold numchar. intros H. apply orb_true_iff in H as [H|H].
  - rewrite digit_not_space by exact H. reflexivity.
  - apply Ascii.eqb_eq in H. subst. reflexivity.
Qed.
Lemma py_str_chars n : sall numchar (py_str n) = true.
Proof.
  assert (Hd : forall f m, 0 <= m -> sall numchar (dec_rev f m) = true).
  { intros f m Hm. eapply sall_impl; [|apply dec_rev_digits, Hm]. intros c Hc. unfold numchar. rewrite Hc. reflexivity. }
  unfold py_str. destruct (Z.ltb_spec n 0); cbn [sall]; rewrite Hd by lia; reflexivity.
Qed.
Lemma py_str_digits n : 0 <= n -> sall is_digit (py_str n) = true.
Proof. intros H. unfold py_str. destruct (Z.ltb_spec n 0); [lia|]. apply dec_rev_digits, H. Qed.
Lemma py_str_nonempty n : py_str n <> "".
Proof.
  unfold py_str. destruct (Z.ltb_spec n 0); [discriminate|].
  apply dec_rev_val; lia.
Qed.
Theorem py_int_str n : py_int (py_str n) = Some n.
Proof.
  unfold py_int. rewrite strip_id.
  2:{ eapply sall_impl; [|apply py_str_chars]. intros c Hc. apply numchar_not_space, Hc. }
  unfold py_str. destruct (Z.ltb_spec n 0).
  - cbn [Ascii.eqb]. cbn -[digits dec_rev Z.log2 Z.to_nat].
    destruct (dec_rev_val (S (Z.to_nat (Z.log2 (- n)))) (- n)) as [_ ->]; [lia|lia|].
    cbn. f_equal. lia.
  - destruct (dec_rev_val (S (Z.to_nat (Z.log2 n))) n) as [Hne Hv]; [lia|lia|].
    pose proof (dec_rev_digits (S (Z.to_nat (Z.log2 n))) n ltac:(lia)) as Hd.
    destruct (dec_rev (S (Z.to_nat (Z.log2 n))) n) as [|c r] eqn:E; [congruence|].
    cbn [sall] in Hd. apply andb_true_iff in Hd as [Hc _].
    destruct (Ascii.eqb_spec c "-") as [->|_]; [discriminate|].
    destruct (Ascii.eqb_spec c "+") as [->|_]; [discriminate|].
    exact Hv.
Qed.
Lemma py_str_inj n m : py_str n = py_str m -> n = m.
Proof. intros H. pose proof (py_int_str n) as H1. rewrite H, py_int_str in H1. congruence. Qed.
Lemma shas_digits c s : is_digit c = false -> sall is_digit s = true -> shas c s = false.
Proof.
  intros Hc Hs. unfold shas. rewrite negb_false_iff. eapply sall_impl; [|exact Hs].
  intros d Hd. destruct (Ascii.eqb_spec c d); [congruence|reflexivity].
Qed.
Lemma digits_nonneg s : forall acc p z, 0 <= acc -> digits acc p s = Some z -> 0 <= z.
Proof.
  induction s as [|c s IH]; cbn [digits]; intros acc p z Ha.
  - destruct p; [intros [= <-]; exact Ha|discriminate].
  - unfold digit_of. destruct ((48 <=? nat_of_ascii c)%nat && (nat_of_ascii c <=? 57)%nat) eqn:E.
    + apply IH. lia.
    + destruct (Ascii.eqb c "_" && p); [|discriminate]. apply IH. exact Ha.
Qed.
