(** Proofs about written timestamps. *)
From Verif Require Import Base BaseProofs ModelTime SpecTime ProofsTime.
Open Scope Z_scope.

(** * Decimal texts *)
Lemma dec_value_app a : forall b acc, dec_value acc (a +++ b) = dec_value (dec_value acc a) b.
Proof. induction a as [|c a IH]; intros b acc; [reflexivity|]. cbn [append dec_value]. apply IH. Qed.
Lemma digit_of_val c d : digit_of c = Some d -> d = Z.of_nat (nat_of_ascii c) - 48 /\ 0 <= d < 10.
Proof.
  unfold digit_of. destruct ((48 <=? nat_of_ascii c)%nat && (nat_of_ascii c <=? 57)%nat) eqn:E; [|discriminate].
  intros [= <-]. apply andb_true_iff in E as [E1 E2]. apply Nat.leb_le in E1, E2. lia.
Qed.
Lemma digits_dec s : forall acc p, sall is_digit s = true -> (s <> "" \/ p = true) ->
  digits acc p s = Some (dec_value acc s).
Proof.
  induction s as [|c s IH]; intros acc p H N.
  - destruct N as [N| ->]; [congruence|reflexivity].
  - cbn [sall] in H. apply andb_true_iff in H as [H1 H2]. cbn [digits dec_value].
    unfold is_digit in H1. destruct (digit_of c) as [d|] eqn:E; [|discriminate].
    destruct (digit_of_val c d E) as [-> _]. rewrite IH by auto. f_equal. f_equal. lia.
Qed.
Lemma py_int_dec s : sall is_digit s = true -> s <> "" -> py_int s = Some (dec_value 0 s).
Proof.
  intros H N. unfold py_int. rewrite strip_id.
  2:{ eapply sall_impl; [|exact H]. intros c Hc. apply negb_true_iff. apply digit_not_space, Hc. }
  destruct s as [|c s]; [congruence|].
  assert (is_digit c = true) as Hc by (cbn [sall] in H; apply andb_true_iff in H; tauto).
  destruct (Ascii.eqb_spec c "-") as [->|_]; [discriminate|].
  destruct (Ascii.eqb_spec c "+") as [->|_]; [discriminate|].
  apply digits_dec; auto.
Qed.
Lemma dec_bound s : sall is_digit s = true -> forall acc, 
  dec_value acc s = acc * 10 ^ Z.of_nat (String.length s) + dec_value 0 s /\
  0 <= dec_value 0 s < 10 ^ Z.of_nat (String.length s).
Proof.
  induction s as [|c s IH]; intros H acc; [cbn; lia|].
  cbn [sall] in H. apply andb_true_iff in H as [H1 H2].
  unfold is_digit in H1. destruct (digit_of c) as [d|] eqn:E; [|discriminate].
  destruct (digit_of_val c d E) as [Ed Hd]. cbn [dec_value String.length]. rewrite <- Ed.
  destruct (IH H2 (acc * 10 + d)) as [I1 I2]. destruct (IH H2 (0 * 10 + d)) as [I3 _].
  rewrite I1, I3. replace (Z.of_nat (S (String.length s))) with (1 + Z.of_nat (String.length s)) by lia.
  rewrite Z.pow_add_r, Z.pow_1_r by lia. nia.
Qed.
Lemma two_digits n : 0 <= n < 100 -> sall is_digit (two n) = true.
Proof.
  intros H. unfold two. cbn [sall]. rewrite !is_digit_char by (Z.div_mod_to_equations; lia). reflexivity.
Qed.
Lemma digit_char_val d : 0 <= d < 10 -> Z.of_nat (nat_of_ascii (digit_char d)) - 48 = d.
Proof. intros H. rewrite nat_of_digit by exact H. lia. Qed.
Lemma two_val n : 0 <= n < 100 -> dec_value 0 (two n) = n.
Proof.
  intros H. unfold two. cbn [dec_value]. rewrite !digit_char_val by (Z.div_mod_to_equations; lia).
  Z.div_mod_to_equations; lia.
Qed.
Lemma int_two n : 0 <= n < 100 -> int_of (two n) = Ok n.
Proof.
  intros H. unfold int_of. rewrite py_int_dec; [|apply two_digits, H|discriminate]. rewrite two_val by exact H. reflexivity.
Qed.
Lemma four_digits n : 0 <= n < 10000 -> sall is_digit (four n) = true.
Proof.
  intros H. unfold four. rewrite sall_app, !two_digits by (Z.div_mod_to_equations; lia). reflexivity.
Qed.
Lemma int_four n : 0 <= n < 10000 -> int_of (four n) = Ok n.
Proof.
  intros H. unfold int_of. rewrite py_int_dec; [|apply four_digits, H|discriminate].
  unfold four. rewrite dec_value_app, two_val by (Z.div_mod_to_equations; lia).
  assert (0 <= n mod 100 < 100) as Hm by (Z.div_mod_to_equations; lia).
  destruct (dec_bound (two (n mod 100)) (two_digits _ Hm) (n / 100)) as [-> _].
  rewrite two_val by (Z.div_mod_to_equations; lia). change (10 ^ Z.of_nat (String.length (two (n mod 100)))) with 100.
  f_equal. Z.div_mod_to_equations; lia.
Qed.
Lemma pad_two n : pad 2 n = String (digit_char (n / 10 mod 10)) (String (digit_char (n mod 10)) "").
Proof. reflexivity. Qed.
Lemma pad2_two n : 0 <= n < 100 -> pad 2 n = two n.
Proof. intros H. rewrite pad_two. unfold two. rewrite (Z.mod_small (n / 10)) by (Z.div_mod_to_equations; lia). reflexivity. Qed.
Lemma pad4_four n : 0 <= n < 10000 -> pad 4 n = four n.
Proof.
  intros H. unfold four, two. cbn [pad append].
  replace (n / 10 / 10 / 10 mod 10) with (n / 100 / 10) by (Z.div_mod_to_equations; lia).
  replace (n / 10 / 10 mod 10) with (n / 100 mod 10) by (Z.div_mod_to_equations; lia).
  replace (n / 10 mod 10) with (n mod 100 / 10) by (Z.div_mod_to_equations; lia).
  replace (n mod 10) with (n mod 100 mod 10) by (Z.div_mod_to_equations; lia). reflexivity.
Qed.
Lemma pad_digits w : forall n, 0 <= n -> sall is_digit (pad w n) = true.
Proof.
  induction w as [|w IH]; intros n H; [reflexivity|]. cbn [pad]. rewrite sall_app, IH by (Z.div_mod_to_equations; lia).
  cbn [sall]. rewrite is_digit_char by (Z.div_mod_to_equations; lia). reflexivity.
Qed.
Lemma pad_length w : forall n, String.length (pad w n) = w.
Proof.
  induction w as [|w IH]; intros n; [reflexivity|]. cbn [pad].
  assert (forall a b, String.length (a +++ b) = (String.length a + String.length b)%nat) as L.
  { induction a as [|c a I]; intros b; [reflexivity|]. cbn. rewrite I. reflexivity. }
  rewrite L, IH. cbn. lia.
Qed.
Lemma pad_val w : forall n, 0 <= n < 10 ^ Z.of_nat w -> dec_value 0 (pad w n) = n.
Proof.
  induction w as [|w IH]; intros n H; [cbn in *; lia|]. cbn [pad]. rewrite dec_value_app.
  replace (Z.of_nat (S w)) with (1 + Z.of_nat w) in H by lia. rewrite Z.pow_add_r, Z.pow_1_r in H by lia.
  rewrite IH by (Z.div_mod_to_equations; lia). cbn [dec_value].
  rewrite digit_char_val by (Z.div_mod_to_equations; lia). Z.div_mod_to_equations; lia.
Qed.

(** * The date part *)
Lemma isodate_chars a b c d e f g h rest :
  parse_isodate (String a (String b (String c (String d (String "-" (String e (String f (String "-" (String g (String h rest)))))))))) =
  do! y <- int_of (String a (String b (String c (String d ""))));
  do! m <- int_of (String e (String f ""));
  do! x <- int_of (String g (String h ""));
  Ok (y, m, x, 10%nat).
Proof.
  unfold parse_isodate. cbn [String.length]. cbn -[int_of substring].
  cbn -[int_of]. destruct rest; reflexivity.
Qed.
Lemma isodate_text y m d rest : 0 <= y < 10000 -> 0 <= m < 100 -> 0 <= d < 100 ->
  parse_isodate (four y +++ "-" +++ two m +++ "-" +++ two d +++ rest) = Ok (y, m, d, 10%nat).
Proof.
  intros Hy Hm Hd. unfold four, two at 1 2 3 4. cbn [append]. rewrite isodate_chars.
  change (int_of (four y) = Ok y) with (int_of (four y) = Ok y).
  assert (int_of (four y) = Ok y) as E1 by (apply int_four, Hy).
  assert (int_of (two m) = Ok m) as E2 by (apply int_two, Hm).
  assert (int_of (two d) = Ok d) as E3 by (apply int_two, Hd).
  unfold four, two in E1, E2, E3. cbn [append] in E1. rewrite E1. cbn [bind]. rewrite E2. cbn [bind]. rewrite E3. reflexivity.
Qed.

(** * The time part *)
Lemma digit_not_zone c : is_digit c = true -> is_zone_start c = false.
Proof.
  intros H. unfold is_zone_start.
  destruct (Ascii.eqb_spec c "-") as [->|_]; [discriminate|]. destruct (Ascii.eqb_spec c "+") as [->|_]; [discriminate|].
  destruct (Ascii.eqb_spec c "Z") as [->|_]; [discriminate|]. destruct (Ascii.eqb_spec c "z") as [->|_]; [discriminate|]. reflexivity.
Qed.
Lemma loop_chars a b c d e f rest : is_digit a = true ->
  isotime_loop 6 0 false (String a (String b (String ":" (String c (String d (String ":" (String e (String f rest)))))))) (mkTc 0 0 0 0 None) =
  do! h <- int_of (String a (String b ""));
  do! m <- int_of (String c (String d ""));
  do! s <- int_of (String e (String f ""));
  isotime_loop 3 3 true rest (mkTc h m s 0 None).
Proof.
  intros Ha. destruct rest as [|r0 rest]; cbn -[int_of is_zone_start]; rewrite (digit_not_zone a Ha); cbn -[int_of is_zone_start];
  (destruct (int_of (String a (String b ""))) as [h|x]; [|reflexivity]); cbn -[int_of is_zone_start];
  (destruct (int_of (String c (String d ""))) as [m|x]; [|reflexivity]); cbn -[int_of is_zone_start];
  destruct (int_of (String e (String f ""))) as [s|x]; reflexivity.
Qed.
Lemma loop_hms h m s rest : 0 <= h < 100 -> 0 <= m < 100 -> 0 <= s < 100 ->
  isotime_loop 6 0 false (two h +++ ":" +++ two m +++ ":" +++ two s +++ rest) (mkTc 0 0 0 0 None) =
  isotime_loop 3 3 true rest (mkTc h m s 0 None).
Proof.
  intros Hh Hm Hs. unfold two at 1 2 3. cbn [append]. rewrite loop_chars by (apply is_digit_char; Z.div_mod_to_equations; lia).
  assert (int_of (two h) = Ok h) as E1 by (apply int_two, Hh).
  assert (int_of (two m) = Ok m) as E2 by (apply int_two, Hm).
  assert (int_of (two s) = Ok s) as E3 by (apply int_two, Hs).
  unfold two in E1, E2, E3. rewrite E1. cbn [bind]. rewrite E2. cbn [bind]. rewrite E3. reflexivity.
Qed.

(** ** zones *)
Lemma tz_chars5 (sg : ascii) a b c d : 
  parse_tzstr (String sg (String a (String b (String c (String d ""))))) =
  do! mult <- (if Ascii.eqb sg "-" then Ok (-1) else if Ascii.eqb sg "+" then Ok 1 else Err EValue);
  do! hours <- int_of (String a (String b ""));
  do! minutes <- int_of (if Ascii.eqb c ":" then String d "" else String c (String d ""));
  if (hours =? 0) && (minutes =? 0) then Ok 0
  else if 59 <? minutes then Err EValue
  else if 23 <? hours then Err EValue
  else Ok (mult * (hours * 60 + minutes)).
Proof.
  unfold parse_tzstr. cbn -[int_of Z.mul Z.add Z.eqb Z.ltb Ascii.eqb].
  destruct (Ascii.eqb sg "Z"), (Ascii.eqb sg "z"); cbn -[int_of Z.mul Z.add Z.eqb Z.ltb Ascii.eqb];
  destruct (Ascii.eqb sg "-"), (Ascii.eqb sg "+"), (Ascii.eqb c ":"); reflexivity.
Qed.
Lemma tz_chars6 (sg : ascii) a b d e : 
  parse_tzstr (String sg (String a (String b (String ":" (String d (String e "")))))) =
  do! mult <- (if Ascii.eqb sg "-" then Ok (-1) else if Ascii.eqb sg "+" then Ok 1 else Err EValue);
  do! hours <- int_of (String a (String b ""));
  do! minutes <- int_of (String d (String e ""));
  if (hours =? 0) && (minutes =? 0) then Ok 0
  else if 59 <? minutes then Err EValue
  else if 23 <? hours then Err EValue
  else Ok (mult * (hours * 60 + minutes)).
Proof.
  unfold parse_tzstr. cbn -[int_of Z.mul Z.add Z.eqb Z.ltb Ascii.eqb].
  destruct (Ascii.eqb sg "Z"), (Ascii.eqb sg "z"); cbn -[int_of Z.mul Z.add Z.eqb Z.ltb Ascii.eqb];
  destruct (Ascii.eqb sg "-"), (Ascii.eqb sg "+"); reflexivity.
Qed.
Lemma tz_chars3 (sg : ascii) a b : 
  parse_tzstr (String sg (String a (String b ""))) =
  do! mult <- (if Ascii.eqb sg "-" then Ok (-1) else if Ascii.eqb sg "+" then Ok 1 else Err EValue);
  do! hours <- int_of (String a (String b ""));
  if (hours =? 0) && (0 =? 0) then Ok 0
  else if 59 <? 0 then Err EValue
  else if 23 <? hours then Err EValue
  else Ok (mult * (hours * 60 + 0)).
Proof.
  unfold parse_tzstr. cbn -[int_of Z.mul Z.add Z.eqb Z.ltb Ascii.eqb].
  destruct (Ascii.eqb sg "Z"), (Ascii.eqb sg "z"); cbn -[int_of Z.mul Z.add Z.eqb Z.ltb Ascii.eqb];
  destruct (Ascii.eqb sg "-"), (Ascii.eqb sg "+"); reflexivity.
Qed.
Lemma digit_not_colon d : 0 <= d < 10 -> Ascii.eqb (digit_char d) ":" = false.
Proof.
  intros H. destruct (Ascii.eqb_spec (digit_char d) ":") as [E|]; [|reflexivity].
  pose proof (is_digit_char d H) as X. rewrite E in X. discriminate.
Qed.
Lemma tz_text z off : zone_ok z -> zone_minutes z = Some off -> parse_tzstr (zone_text z) = Ok off.
Proof.
  destruct z as [| |e colon h m|e h]; cbn [zone_ok zone_minutes]; intros Hok E.
  - discriminate.
  - inversion E. reflexivity.
  - destruct Hok as [Hh Hm]. inversion E; subst off; clear E.
    assert (int_of (two h) = Ok h) as E1 by (apply int_two; lia).
    assert (int_of (two m) = Ok m) as E2 by (apply int_two; lia).
    unfold zone_text. unfold two in *.
    destruct e, colon; cbn [append];
    rewrite ?tz_chars6, ?tz_chars5; rewrite ?digit_not_colon by (Z.div_mod_to_equations; lia);
    rewrite E1; cbn -[Z.mul Z.add Z.eqb Z.ltb int_of]; rewrite E2; cbn -[Z.mul Z.add Z.eqb Z.ltb int_of Z.opp];
    destruct (Z.eqb_spec h 0), (Z.eqb_spec m 0); cbn [andb];
    rewrite ?(proj2 (Z.ltb_ge 59 m)), ?(proj2 (Z.ltb_ge 23 h)) by lia; f_equal; lia.
  - inversion E; subst off; clear E.
    assert (int_of (two h) = Ok h) as E1 by (apply int_two; lia).
    unfold zone_text. unfold two in *.
    destruct e; cbn [append]; rewrite tz_chars3; rewrite E1; cbn -[Z.mul Z.add Z.eqb Z.ltb int_of Z.opp];
    destruct (Z.eqb_spec h 0); cbn [andb Z.eqb]; change (59 <? 0) with false; cbv iota;
    rewrite ?(proj2 (Z.ltb_ge 23 h)) by lia; f_equal; lia.
Qed.
(** a zone text starts with a zone character *)
Lemma zone_start z : match zone_text z with "" => z = ZNone | String c _ => is_zone_start c = true /\ z <> ZNone end.
Proof.
  destruct z as [| |e colon h m|e h]; cbn; [reflexivity|split; [reflexivity|discriminate]| |];
  destruct e; cbn; (split; [reflexivity|discriminate]).
Qed.
Lemma zone_not_digit z : match zone_text z with "" => True | String c _ => is_digit c = false end.
Proof.
  destruct z as [| |e colon h m|e h]; cbn; [exact I|reflexivity| |]; destruct e; reflexivity.
Qed.

(** ** fractions *)
Lemma take_digits_all f rest : sall is_digit f = true ->
  match rest with "" => True | String c _ => is_digit c = false end -> take_digits (f +++ rest) = f.
Proof.
  intros H Hr. induction f as [|c f IH].
  - cbn [append]. destruct rest as [|c r]; [reflexivity|]. cbn. rewrite Hr. reflexivity.
  - cbn [sall] in H. apply andb_true_iff in H as [H1 H2]. cbn [append take_digits]. rewrite H1, IH by exact H2. reflexivity.
Qed.
Lemma substring_sdrop n : forall s, s = substring 0 n s +++ sdrop n s.
Proof.
  induction n as [|n IH]; intros [|c s]; try reflexivity. cbn [substring sdrop append]. rewrite <- IH. reflexivity.
Qed.
Lemma substring_length n : forall s, String.length (substring 0 n s) = Nat.min n (String.length s).
Proof. induction n as [|n IH]; intros [|c s]; try reflexivity. cbn. rewrite IH. reflexivity. Qed.
Lemma slen_app a b : String.length (a +++ b) = (String.length a + String.length b)%nat.
Proof. induction a as [|c a I]; [reflexivity|]. cbn. rewrite I. reflexivity. Qed.
Lemma frac_ok f : sall is_digit f = true -> f <> "" -> frac_micros f = Ok (frac_value f).
Proof.
  intros H N. unfold frac_micros, frac_value.
  pose proof (substring_sdrop 6 f) as E. pose proof (substring_length 6 f) as L.
  remember (substring 0 6 f) as a. remember (sdrop 6 f) as b.
  assert (a <> "") as Na. { intros ->. cbn [String.length] in L. destruct f; [congruence|]. cbn in L. lia. }
  rewrite E, sall_app in H. apply andb_true_iff in H as [Ha Hb].
  unfold int_of. rewrite (py_int_dec a Ha Na). cbn [bind]. f_equal.
  rewrite E, dec_value_app, slen_app, Nat2Z.inj_add, Z.pow_add_r by lia.
  destruct (dec_bound b Hb (dec_value 0 a)) as [-> Hb2].
  assert (0 < 10 ^ Z.of_nat (String.length a)) by (apply Z.pow_pos_nonneg; lia).
  assert (0 < 10 ^ Z.of_nat (String.length b)) by (apply Z.pow_pos_nonneg; lia).
  assert (1000000 = 10 ^ Z.of_nat (String.length a) * 10 ^ Z.of_nat (6 - String.length a)) as M.
  { rewrite <- Z.pow_add_r by lia. replace (Z.of_nat (String.length a) + Z.of_nat (6 - String.length a)) with 6 by lia. reflexivity. }
  assert (0 < 10 ^ Z.of_nat (6 - String.length a)) by (apply Z.pow_pos_nonneg; lia).
  assert (String.length b = 0%nat \/ String.length a = 6%nat) as C.
  { rewrite E, slen_app in L. lia. }
  rewrite M. destruct C as [C|C].
  - rewrite C in *. change (10 ^ Z.of_nat 0) with 1 in *. apply Z.div_unique with 0; nia.
  - rewrite C in *. change (10 ^ Z.of_nat (6 - 6)) with 1 in *. change (10 ^ Z.of_nat 6) with 1000000 in *.
    apply Z.div_unique with (1000000 * dec_value 0 b); nia.
Qed.

(** ** whole texts *)
Lemma loop_tail n comp hs z t : (comp >= 3)%nat -> (n > 0)%nat -> zone_ok z ->
  isotime_loop n comp hs (zone_text z) t = Ok (mkTc (tch t) (tcm t) (tcs t) (tcu t)
     (match z with ZNone => tcz t | _ => zone_minutes z end), "").
Proof.
  intros Hc Hn Hz. destruct n as [|n]; [lia|]. cbn [isotime_loop].
  pose proof (zone_start z) as S. pose proof (tz_text z) as T.
  destruct (zone_text z) as [|c r] eqn:E.
  - subst z. destruct t; reflexivity.
  - destruct S as [S1 S2]. rewrite S1.
    destruct (zone_minutes z) as [off|] eqn:Em; [|destruct z; cbn in Em; congruence].
    rewrite (T off Hz eq_refl). cbn [bind]. destruct z; [congruence|reflexivity..].
Qed.
Lemma loop_frac f z t : sall is_digit f = true -> zone_ok z -> tcz t = None -> tcu t = 0 ->
  isotime_loop 3 3 true (frac_text f +++ zone_text z) t =
  Ok (mkTc (tch t) (tcm t) (tcs t) (frac_value f) (zone_minutes z), "").
Proof.
  intros Hf Hz Ht Hu. unfold frac_text. destruct (String.eqb_spec f "") as [->|N].
  - cbn [append]. rewrite loop_tail by (auto; lia). rewrite Hu, Ht. change (frac_value "") with 0.
    destruct z; reflexivity.
  - cbn [append]. cbn -[isotime_loop take_digits frac_micros sdrop String.eqb append].
    cbn [isotime_loop is_zone_start Ascii.eqb Bool.eqb orb andb Nat.eqb Nat.ltb Nat.leb bind].
    rewrite take_digits_all; [|exact Hf|apply zone_not_digit].
    rewrite (proj2 (String.eqb_neq f "") N). cbn [negb]. rewrite frac_ok by assumption. cbn [bind].
    rewrite sdrop_app. 
    match goal with |- ?l = _ => change l with (isotime_loop 2 4 true (zone_text z) (set_comp 3 (frac_value f) t)) end.
    rewrite loop_tail by (auto; lia). cbn [set_comp tch tcm tcs tcu tcz]. rewrite Ht. destruct z; reflexivity.
Qed.
Lemma frac_value_bound f : sall is_digit f = true -> 0 <= frac_value f < 1000000.
Proof.
  intros H. unfold frac_value. destruct (dec_bound f H 0) as [_ B].
  assert (0 < 10 ^ Z.of_nat (String.length f)) by (apply Z.pow_pos_nonneg; lia).
  split; [apply Z.div_pos; lia|]. apply Z.div_lt_upper_bound; nia.
Qed.
Definition set_frac (t : dt) (f : string) : dt := mkDt (dy t) (dmo t) (dd t) (dh t) (dmi t) (ds t) (frac_value f).
Lemma isoparse_text t f z : time_exists t -> sall is_digit f = true -> zone_ok z ->
  isoparse (stamp t f z) = Ok (set_frac t f, zone_minutes z).
Proof.
  intros [(A1 & A2 & A3) A4] Hf Hz. unfold isoparse, stamp.
  assert (1 <= dd t <= 31) as Hd.
  { rewrite <- month_length_same in A3 by lia. pose proof (days_in_month_le (dy t) (dmo t)). lia. }
  rewrite isodate_text by lia. cbn [bind].
  assert ((10 <? String.length (four (dy t) +++ "-" +++ two (dmo t) +++ "-" +++ two (dd t) +++ "T" +++
     two (dh t) +++ ":" +++ two (dmi t) +++ ":" +++ two (ds t) +++ frac_text f +++ zone_text z))%nat = true) as ->.
  { apply Nat.ltb_lt. unfold four. rewrite !slen_app. cbn [String.length two]. lia. }
  match goal with |- context [parse_isotime ?s] =>
    assert (s = two (dh t) +++ ":" +++ two (dmi t) +++ ":" +++ two (ds t) +++ frac_text f +++ zone_text z) as -> by reflexivity end.
  unfold parse_isotime.
  assert ((String.length (two (dh t) +++ ":" +++ two (dmi t) +++ ":" +++ two (ds t) +++ frac_text f +++ zone_text z) <? 2)%nat = false) as ->.
  { apply Nat.ltb_ge. rewrite !slen_app. cbn [String.length two]. lia. }
  rewrite loop_hms by lia. rewrite loop_frac by (auto; reflexivity). cbn [bind tch tcm tcs tcu tcz].
  change (negb (String.eqb "" "")) with false. cbv iota.
  assert (dh t =? 24 = false) as -> by (apply Z.eqb_neq; lia). cbn [andb]. cbv iota. unfold iso_build. cbn [bind tch tcm tcs tcu tcz].
  assert (dh t =? 24 = false) as -> by (apply Z.eqb_neq; lia).
  unfold datetime_new. pose proof (frac_value_bound f Hf).
  assert (dt_ok (mkDt (dy t) (dmo t) (dd t) (dh t) (dmi t) (ds t) (frac_value f)) = true) as ->.
  { apply dt_ok_exists. unfold time_exists, date_exists. cbn [dy dmo dd dh dmi ds dus]. lia. }
  reflexivity.
Qed.

(** * The theorems *)
Lemma set_frac_exists t f : time_exists t -> sall is_digit f = true -> time_exists (set_frac t f).
Proof.
  intros [A B] Hf. pose proof (frac_value_bound f Hf). unfold set_frac, time_exists in *. cbn [dy dmo dd dh dmi ds dus]. split; [exact A|lia].
Qed.
Theorem parse_zoned t f z off : time_exists t -> sall is_digit f = true -> zone_ok z -> zone_minutes z = Some off ->
  let moment := instant t - dus t + frac_value f - off * 60000000 in
  match parseXMLTimestamp (stamp t f z) with
  | Ok u => time_exists u /\ instant u = moment
  | Err e => e = EOverflow /\ ~ representable moment
  end.
Proof.
  intros Ht Hf Hz Hm. cbv zeta. unfold parseXMLTimestamp. rewrite isoparse_text by assumption. cbn [bind]. rewrite Hm.
  pose proof (dt_add_spec (set_frac t f) (- (off * 60 * 1000000)) (set_frac_exists t f Ht Hf)) as D.
  assert (instant (set_frac t f) + - (off * 60 * 1000000) = instant t - dus t + frac_value f - off * 60000000) as E.
  { unfold instant, set_frac. cbn [dy dmo dd dh dmi ds dus]. lia. }
  rewrite E in D. exact D.
Qed.
Theorem parse_naive t f : time_exists t -> sall is_digit f = true -> parseXMLTimestamp (stamp t f ZNone) = Err EPayload.
Proof.
  intros Ht Hf. unfold parseXMLTimestamp. rewrite isoparse_text by (auto; exact I). reflexivity.
Qed.
Lemma create_text t : time_exists t ->
  createXMLTime false t = Ok (stamp t (if dus t =? 0 then "" else pad 6 (dus t)) ZUtc).
Proof.
  intros [(A1 & A2 & A3) A4]. unfold createXMLTime, isoformat, stamp.
  assert (1 <= dd t <= 31) as Hd.
  { rewrite <- month_length_same in A3 by lia. pose proof (days_in_month_le (dy t) (dmo t)). lia. }
  rewrite pad4_four, !pad2_two by lia. f_equal. rewrite !append_assoc.
  do 11 f_equal. unfold frac_text. destruct (Z.eqb_spec (dus t) 0); [reflexivity|].
  destruct (String.eqb_spec (pad 6 (dus t)) "") as [E|_]; [|reflexivity].
  pose proof (pad_length 6 (dus t)) as L. rewrite E in L. discriminate.
Qed.
Theorem create_parse t : time_exists t ->
  exists s, createXMLTime false t = Ok s /\ parseXMLTimestamp s = Ok t.
Proof.
  intros Ht. eexists. split; [apply create_text, Ht|].
  remember (if dus t =? 0 then "" else pad 6 (dus t)) as f eqn:Ef.
  assert (0 <= dus t < 1000000) as Hu by (destruct Ht; lia).
  assert (sall is_digit f = true) as Hf.
  { subst f. destruct (dus t =? 0); [reflexivity|]. apply pad_digits. lia. }
  assert (frac_value f = dus t) as Ev.
  { subst f. destruct (Z.eqb_spec (dus t) 0) as [->|N]; [reflexivity|].
    unfold frac_value. rewrite pad_val, pad_length by (change (10 ^ Z.of_nat 6) with 1000000; lia).
    change (10 ^ Z.of_nat 6) with 1000000. apply Z.div_mul. lia. }
  pose proof (parse_zoned t f ZUtc 0 Ht Hf I eq_refl) as P. cbv zeta in P. rewrite Ev in P.
  replace (instant t - dus t + dus t - 0 * 60000000) with (instant t) in P by lia.
  destruct (parseXMLTimestamp (stamp t f ZUtc)) as [u|e].
  - destruct P as [P1 P2]. f_equal. apply instant_inj; assumption.
  - destruct P as [_ P]. elim P. apply instant_representable, Ht.
Qed.
Lemma datetime_new_exists x v : datetime_new x = Ok v -> time_exists v.
Proof. unfold datetime_new. destruct (dt_ok x) eqn:E; [|discriminate]. intros H. inversion H. subst v. apply dt_ok_exists, E. Qed.
Lemma dt_add_exists x us v : time_exists x -> dt_add x us = Ok v -> time_exists v.
Proof. intros Hx Hv. pose proof (dt_add_spec x us Hx) as D. rewrite Hv in D. apply D. Qed.
Lemma bind_ok {A B} (r : result A) (f : A -> result B) b : bind r f = Ok b -> exists a, r = Ok a /\ f a = Ok b.
Proof. destruct r as [a|e]; [|discriminate]. cbn. eauto. Qed.
Lemma iso_build_exists y m d t x z : iso_build y m d t = Ok (x, z) -> time_exists x.
Proof.
  unfold iso_build. intros H. destruct (tch t =? 24).
  - apply bind_ok in H as (v & E & H). apply datetime_new_exists in E.
    apply bind_ok in H as (w & Ew & H). apply (dt_add_exists _ _ _ E) in Ew.
    assert (w = x) by congruence. subst w. exact Ew.
  - apply bind_ok in H as (v & E & H). apply datetime_new_exists in E.
    assert (v = x) by congruence. subst v. exact E.
Qed.
Lemma isoparse_exists s x z : isoparse s = Ok (x, z) -> time_exists x.
Proof.
  unfold isoparse. intros H.
  destruct (parse_isodate s) as [[[[y m] d] pos]|e]; [|discriminate]. cbn [bind] in H.
  match type of H with (do! _ <- ?q; _) = _ => destruct q as [t|e]; [|discriminate] end. cbn [bind] in H.
  exact (iso_build_exists _ _ _ _ _ _ H).
Qed.
Theorem parse_exists s u : parseXMLTimestamp s = Ok u -> time_exists u.
Proof.
  unfold parseXMLTimestamp. intros H. destruct (isoparse s) as [[x z]|e] eqn:E; [|discriminate].
  apply isoparse_exists in E. cbn [bind] in H. destruct z as [off|]; [|discriminate].
  exact (dt_add_exists _ _ _ E H).
Qed.
