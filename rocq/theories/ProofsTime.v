(** Proofs about timestamps. *)
From Verif Require Import Base BaseProofs ModelTime SpecTime ProofsTimeCycle.
Open Scope Z_scope.

(** * The calendar *)
Lemma leap_same y : 0 < y -> is_leap y = leap_yearb y.
Proof.
  intros H. unfold is_leap, leap_yearb. rewrite !Z.rem_mod_nonneg by lia.
  destruct (Z.eqb_spec (y mod 400) 0), (Z.eqb_spec (y mod 100) 0), (Z.eqb_spec (y mod 4) 0); cbn; try reflexivity;
  exfalso; Z.div_mod_to_equations; lia.
Qed.
Lemma month_length_same y m : 0 < y -> 1 <= m <= 12 -> days_in_month y m = month_length y m.
Proof.
  intros Hy Hm. unfold days_in_month. rewrite leap_same by exact Hy.
  assert (m = 1 \/ m = 2 \/ m = 3 \/ m = 4 \/ m = 5 \/ m = 6 \/ m = 7 \/ m = 8 \/ m = 9 \/ m = 10 \/ m = 11 \/ m = 12)
    as H by lia.
  repeat (destruct H as [->|H]); try subst m; cbn; destruct (leap_yearb y); reflexivity.
Qed.
Lemma years_same k : days_before_year (Z.of_nat k + 1) = years_days k.
Proof.
  induction k as [|k IH]; [reflexivity|].
  cbn [years_days]. rewrite <- IH. unfold days_before_year, leap_yearb.
  rewrite !Z.rem_mod_nonneg by lia.
  destruct (Z.eqb_spec (Z.of_nat (S k) mod 400) 0), (Z.eqb_spec (Z.of_nat (S k) mod 100) 0), (Z.eqb_spec (Z.of_nat (S k) mod 4) 0);
  cbn -[Z.mul Z.div Z.modulo Z.add Z.sub Z.of_nat]; Z.div_mod_to_equations; lia.
Qed.
Lemma months_same y m : 0 < y -> 1 <= m <= 12 -> days_before_month y m = months_days y (Z.to_nat (m - 1)).
Proof.
  intros Hy Hm. unfold days_before_month. rewrite leap_same by exact Hy.
  assert (m = 1 \/ m = 2 \/ m = 3 \/ m = 4 \/ m = 5 \/ m = 6 \/ m = 7 \/ m = 8 \/ m = 9 \/ m = 10 \/ m = 11 \/ m = 12)
    as H by lia.
  repeat (destruct H as [->|H]); try subst m;
  match goal with |- context [Z.to_nat ?e] => let n := eval vm_compute in (Z.to_nat e) in change (Z.to_nat e) with n end;
  cbn -[leap_yearb]; unfold month_length; cbn -[leap_yearb]; destruct (leap_yearb y); reflexivity.
Qed.
Lemma ymd2ord_day y m d : 0 < y -> 1 <= m <= 12 -> ymd2ord y m d = day_number y m d.
Proof.
  intros Hy Hm. unfold ymd2ord, day_number. rewrite months_same by assumption.
  rewrite <- years_same. replace (Z.of_nat (Z.to_nat (y - 1)) + 1) with y by lia. reflexivity.
Qed.
Lemma micros_instant t : time_exists t -> micros t = instant t.
Proof.
  intros [[H1 [H2 H3]] H]. unfold micros, instant. rewrite ymd2ord_day by lia. lia.
Qed.
Lemma dt_ok_exists t : dt_ok t = true <-> time_exists t.
Proof.
  unfold dt_ok, time_exists, date_exists. rewrite !andb_true_iff, !Z.leb_le.
  split.
  - intros H. assert (days_in_month (dy t) (dmo t) = month_length (dy t) (dmo t)) as E by (apply month_length_same; lia).
    rewrite E in H. lia.
  - intros H. assert (days_in_month (dy t) (dmo t) = month_length (dy t) (dmo t)) as E by (apply month_length_same; lia).
    rewrite E. lia.
Qed.

Lemma days_in_month_le y m : days_in_month y m <= 31.
Proof.
  unfold days_in_month. destruct ((m =? 2) && is_leap y); [lia|].
  destruct (Z.to_nat (m - 1)) as [|[|[|[|[|[|[|[|[|[|[|[|k]]]]]]]]]]]]; cbn; try lia. destruct k; lia.
Qed.
Lemma cycle_inv y m d : 1 <= y <= 400 -> 1 <= m <= 12 -> 1 <= d <= days_in_month y m ->
  ord2ymd (ymd2ord y m d) = (y, m, d) /\ 1 <= ymd2ord y m d <= 146097.
Proof.
  intros Hy Hm Hd. pose proof (days_in_month_le y m).
  pose proof (all3_all _ _ _ _ cycle_ok y m d ltac:(lia) ltac:(lia) ltac:(lia)) as C. unfold cycle_item in C.
  apply orb_true_iff in C as [C|C]; [apply Z.ltb_lt in C; lia|].
  destruct (ord2ymd (ymd2ord y m d)) as [[y' m'] d'].
  rewrite !andb_true_iff, !Z.eqb_eq, !Z.leb_le in C. split; [|lia].
  destruct C as [[[[-> ->] ->] _] _]. reflexivity.
Qed.
Lemma is_leap_shift y q : is_leap (y + 400 * q) = is_leap y.
Proof.
  unfold is_leap.
  replace ((y + 400 * q) mod 4) with (y mod 4) by (Z.div_mod_to_equations; lia).
  replace ((y + 400 * q) mod 100) with (y mod 100) by (Z.div_mod_to_equations; lia).
  replace ((y + 400 * q) mod 400) with (y mod 400) by (Z.div_mod_to_equations; lia).
  reflexivity.
Qed.
Lemma ymd2ord_shift y m d q : ymd2ord (y + 400 * q) m d = ymd2ord y m d + 146097 * q.
Proof.
  unfold ymd2ord, days_before_month, days_before_year. rewrite is_leap_shift.
  assert ((y + 400 * q - 1) * 365 + (y + 400 * q - 1) / 4 - (y + 400 * q - 1) / 100 + (y + 400 * q - 1) / 400 =
          (y - 1) * 365 + (y - 1) / 4 - (y - 1) / 100 + (y - 1) / 400 + 146097 * q) by (Z.div_mod_to_equations; lia).
  lia.
Qed.
Lemma ord2ymd_shift n q : ord2ymd (n + 146097 * q) = (let '(y, m, d) := ord2ymd n in (y + 400 * q, m, d)).
Proof.
  unfold ord2ymd.
  replace ((n + 146097 * q - 1) / 146097) with ((n - 1) / 146097 + q) by (Z.div_mod_to_equations; lia).
  replace ((n + 146097 * q - 1) mod 146097) with ((n - 1) mod 146097) by (Z.div_mod_to_equations; lia).
  cbv zeta.
  destruct (((n - 1) mod 146097 mod 36524 mod 1461 / 365 =? 4) || ((n - 1) mod 146097 / 36524 =? 4)).
  - f_equal. f_equal. lia.
  - match goal with |- context [if ?a <? ?b then _ else _] => destruct (a <? b) end; f_equal; f_equal; lia.
Qed.
Lemma days_in_month_shift y m q : days_in_month (y + 400 * q) m = days_in_month y m.
Proof. unfold days_in_month. rewrite is_leap_shift. reflexivity. Qed.
Lemma ord2ymd_inv y m d : 1 <= m <= 12 -> 1 <= d <= days_in_month y m -> ord2ymd (ymd2ord y m d) = (y, m, d).
Proof.
  intros Hm Hd.
  assert (y = ((y - 1) mod 400 + 1) + 400 * ((y - 1) / 400)) as E by (Z.div_mod_to_equations; lia).
  remember ((y - 1) mod 400 + 1) as r. remember ((y - 1) / 400) as q.
  assert (1 <= r <= 400) by (subst r; Z.div_mod_to_equations; lia).
  rewrite E in Hd. rewrite days_in_month_shift in Hd.
  rewrite E, ymd2ord_shift, ord2ymd_shift.
  destruct (cycle_inv r m d) as [-> _]; try assumption. reflexivity.
Qed.
(** every day number is that of an existing date *)
Lemma find_month y k : 0 <= k < 365 + (if is_leap y then 1 else 0) ->
  exists m d, 1 <= m <= 12 /\ 1 <= d <= days_in_month y m /\ days_before_month y m + d = k + 1.
Proof.
  intros H.
  assert (forall (j : nat), (j < 12)%nat -> k < days_before_month y (Z.of_nat j + 1) + days_in_month y (Z.of_nat j + 1) ->
    exists m d, 1 <= m <= 12 /\ 1 <= d <= days_in_month y m /\ days_before_month y m + d = k + 1) as G.
  { induction j as [|j IH]; intros Hj L.
    - exists 1, (k + 1). cbn in L |- *. destruct (is_leap y); cbn in *; lia.
    - assert (days_before_month y (Z.of_nat (S j) + 1) = days_before_month y (Z.of_nat j + 1) + days_in_month y (Z.of_nat j + 1)) as E.
      { unfold days_before_month, days_in_month. clear IH L H.
        destruct j as [|[|[|[|[|[|[|[|[|[|[|j]]]]]]]]]]]; try lia; destruct (is_leap y); vm_compute; reflexivity. }
      destruct (Z.lt_ge_cases k (days_before_month y (Z.of_nat (S j) + 1))) as [L1|L1].
      + apply IH; [lia|]. rewrite <- E. exact L1.
      + exists (Z.of_nat (S j) + 1), (k + 1 - days_before_month y (Z.of_nat (S j) + 1)). lia. }
  apply (G 11%nat); [lia|]. change (Z.of_nat 11 + 1) with 12. unfold days_before_month, days_in_month.
  change (Z.to_nat (12 - 1)) with 11%nat. destruct (is_leap y); cbn in H |- *; lia.
Qed.
Lemma find_year (n : Z) : 1 <= n <= 146097 -> exists y, 1 <= y <= 400 /\ ymd2ord y 1 1 <= n < ymd2ord (y + 1) 1 1.
Proof.
  intros Hn.
  assert (forall k : nat, (k <= 400)%nat -> n < ymd2ord (Z.of_nat k + 1) 1 1 ->
    exists y, 1 <= y <= 400 /\ ymd2ord y 1 1 <= n < ymd2ord (y + 1) 1 1) as H.
  { induction k as [|k IH]; intros Hk H.
    - change (n < 1) in H. lia.
    - destruct (Z.lt_ge_cases n (ymd2ord (Z.of_nat k + 1) 1 1)) as [L|L].
      + apply IH; [lia|exact L].
      + exists (Z.of_nat k + 1). replace (Z.of_nat (S k)) with (Z.of_nat k + 1) in H by lia. lia. }
  apply (H 400%nat); [lia|]. change (n < 146098). lia.
Qed.
Lemma days_in_year y : ymd2ord (y + 1) 1 1 = ymd2ord y 1 1 + 365 + (if is_leap y then 1 else 0).
Proof.
  unfold ymd2ord, days_before_year, days_before_month.
  change (2 <? 1) with false. cbn [andb]. unfold is_leap.
  replace (y + 1 - 1) with y by lia.
  destruct (Z.eqb_spec (y mod 400) 0), (Z.eqb_spec (y mod 100) 0), (Z.eqb_spec (y mod 4) 0); cbn [andb orb negb];
  Z.div_mod_to_equations; lia.
Qed.
Lemma ord_inv n : 1 <= n -> let '(y, m, d) := ord2ymd n in
  1 <= y /\ 1 <= m <= 12 /\ 1 <= d <= days_in_month y m /\ ymd2ord y m d = n.
Proof.
  intros Hn.
  assert (n = ((n - 1) mod 146097 + 1) + 146097 * ((n - 1) / 146097)) as E by (Z.div_mod_to_equations; lia).
  remember ((n - 1) mod 146097 + 1) as r. remember ((n - 1) / 146097) as q.
  assert (1 <= r <= 146097) as Hr by (subst r; Z.div_mod_to_equations; lia).
  assert (0 <= q) by (subst q; Z.div_mod_to_equations; lia).
  destruct (find_year r Hr) as (y0 & Hy0 & Hl). pose proof (days_in_year y0) as Hd.
  destruct (find_month y0 (r - ymd2ord y0 1 1)) as (m & d & Hm & Hdd & Es); [lia|].
  assert (ymd2ord y0 m d = r) as Er.
  { unfold ymd2ord in *. change (days_before_month y0 1) with 0 in *. lia. }
  rewrite E, ord2ymd_shift, <- Er. rewrite (ord2ymd_inv y0 m d Hm Hdd).
  rewrite days_in_month_shift, ymd2ord_shift. lia.
Qed.

Lemma year_mono a b : a <= b -> days_before_year a <= days_before_year b.
Proof. intros H. unfold days_before_year. Z.div_mod_to_equations; lia. Qed.

(** adding microseconds *)
Lemma last_instant : instant (mkDt 9999 12 31 23 59 59 999999) = 3652059 * 86400000000 + 86399999999.
Proof. rewrite <- micros_instant; [reflexivity|]. unfold time_exists, date_exists. cbn [dy dmo dd dh dmi ds dus month_length]. lia. Qed.
Lemma dt_add_spec t us : time_exists t ->
  match dt_add t us with
  | Ok u => time_exists u /\ instant u = instant t + us
  | Err e => e = EOverflow /\ ~ representable (instant t + us)
  end.
Proof.
  intros Ht. unfold dt_add. rewrite (micros_instant t Ht).
  remember (instant t + us) as total eqn:Etot. cbv zeta.
  destruct ((0 <? total / day_us) && (total / day_us <=? max_ordinal)) eqn:R.
  - apply andb_true_iff in R as [R1 R2]. apply Z.ltb_lt in R1. apply Z.leb_le in R2.
    pose proof (ord_inv (total / day_us) ltac:(lia)) as O.
    destruct (ord2ymd (total / day_us)) as [[y m] d]. destruct O as (O1 & O2 & O3 & O4).
    assert (y <= 9999) as Hy.
    { destruct (Z.le_gt_cases y 9999) as [L|L]; [exact L|]. exfalso.
      pose proof (year_mono 10000 y ltac:(lia)) as Hm. change (days_before_year 10000) with 3652059 in Hm.
      unfold max_ordinal in R2. unfold ymd2ord in O4.
      assert (0 <= days_before_month y m).
      { unfold days_before_month. destruct ((2 <? m) && is_leap y);
        destruct (Z.to_nat (m - 1)) as [|[|[|[|[|[|[|[|[|[|[|[|k]]]]]]]]]]]]; cbn; try lia; destruct k; lia. }
      lia. }
    unfold day_us in *.
    assert (time_exists (mkDt y m d (total mod 86400000000 / 1000000 / 3600)
       (total mod 86400000000 / 1000000 mod 3600 / 60) (total mod 86400000000 / 1000000 mod 60)
       (total mod 86400000000 mod 1000000))) as Hx.
    { unfold time_exists, date_exists. cbn [dy dmo dd dh dmi ds dus].
      rewrite <- (month_length_same y m) by lia.
      split; [lia|]. Z.div_mod_to_equations; lia. }
    split; [exact Hx|].
    rewrite <- (micros_instant _ Hx). unfold micros. cbn [dy dmo dd dh dmi ds dus].
    rewrite O4. Z.div_mod_to_equations; lia.
  - split; [reflexivity|]. unfold representable.
    change (instant (mkDt 1 1 1 0 0 0 0)) with 86400000000.
    rewrite last_instant.
    apply andb_false_iff in R. rewrite Z.ltb_ge, Z.leb_gt in R. unfold day_us, max_ordinal in R.
    intros [L1 L2]. Z.div_mod_to_equations; lia.
Qed.
(** an existing time is determined by its instant *)
Lemma instant_inj t u : time_exists t -> time_exists u -> instant t = instant u -> t = u.
Proof.
  intros Ht Hu E. pose proof (micros_instant t Ht) as Mt. pose proof (micros_instant u Hu) as Mu.
  destruct t as [y m d h mi s us], u as [y' m' d' h' mi' s' us'].
  destruct Ht as [(A1 & A2 & A3) A4], Hu as [(B1 & B2 & B3) B4].
  unfold micros in Mt, Mu. cbn [dy dmo dd dh dmi ds dus] in *.
  assert (ymd2ord y m d = ymd2ord y' m' d' /\ h = h' /\ mi = mi' /\ s = s' /\ us = us') as (P & -> & -> & -> & ->) by lia.
  rewrite <- month_length_same in A3, B3 by lia.
  pose proof (ord2ymd_inv y m d A2 A3) as Q1. pose proof (ord2ymd_inv y' m' d' B2 B3) as Q2.
  rewrite P in Q1. rewrite Q1 in Q2. congruence.
Qed.
Lemma ord_bounds t : 1 <= dy t <= 9999 -> 1 <= dmo t <= 12 -> 1 <= dd t <= days_in_month (dy t) (dmo t) ->
  1 <= ymd2ord (dy t) (dmo t) (dd t) <= 3652059.
Proof.
    intros A1 A2 A3.
    pose proof (year_mono 1 (dy t) ltac:(lia)) as Y1. change (days_before_year 1) with 0 in Y1.
    pose proof (year_mono (dy t) 9999 ltac:(lia)) as Y2. change (days_before_year 9999) with 3651694 in Y2.
    unfold ymd2ord.
    assert (0 <= days_before_month (dy t) (dmo t) /\ days_before_month (dy t) (dmo t) + dd t <= 365 + (if is_leap (dy t) then 1 else 0)) as Q.
    { unfold days_before_month, days_in_month in *.
      assert (dmo t = 1 \/ dmo t = 2 \/ dmo t = 3 \/ dmo t = 4 \/ dmo t = 5 \/ dmo t = 6 \/ dmo t = 7 \/ dmo t = 8 \/ dmo t = 9 \/ dmo t = 10 \/ dmo t = 11 \/ dmo t = 12) as Hm by lia.
      clear - A3 Hm. revert A3. destruct (is_leap (dy t)); intros A3;
      repeat (destruct Hm as [Hm|Hm]); rewrite Hm in *;
      repeat match goal with
        | |- context [nth (Z.to_nat ?e) ?l 0] => let v := eval vm_compute in (nth (Z.to_nat e) l 0) in change (nth (Z.to_nat e) l 0) with v
        | H : context [nth (Z.to_nat ?e) ?l 0] |- _ => let v := eval vm_compute in (nth (Z.to_nat e) l 0) in change (nth (Z.to_nat e) l 0) with v in H
        end; cbn -[Z.add Z.le] in A3 |- *; lia. }
    destruct (is_leap (dy t)) eqn:L; [|lia].
    assert (dy t <> 9999) by (intros X; rewrite X in L; discriminate).
    pose proof (year_mono (dy t) 9998 ltac:(lia)) as Y3. change (days_before_year 9998) with 3651329 in Y3. lia.
Qed.
Lemma instant_representable t : time_exists t -> representable (instant t).
Proof.
  intros Ht. unfold representable. rewrite last_instant. change (instant (mkDt 1 1 1 0 0 0 0)) with 86400000000.
  rewrite <- micros_instant by exact Ht. destruct Ht as [(A1 & A2 & A3) A4].
  rewrite <- month_length_same in A3 by lia. pose proof (ord_bounds t A1 A2 A3).
  unfold micros. lia.
Qed.
