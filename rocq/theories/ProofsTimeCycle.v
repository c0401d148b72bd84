(** The library's day numbers over one 400-year cycle. *)
From Verif Require Import Base ModelTime.
Open Scope Z_scope.

(** * ord2ymd inverts ymd2ord: one 400-year cycle is checked, the rest follows *)
Definition zrange (a : Z) (n : nat) : list Z := map (fun k => a + Z.of_nat k) (seq 0 n).
Lemma zrange_in a n x : a <= x < a + Z.of_nat n -> In x (zrange a n).
Proof.
  intros H. unfold zrange. apply in_map_iff. exists (Z.to_nat (x - a)). split; [lia|]. apply in_seq. lia.
Qed.
Definition all3 (f : Z -> Z -> Z -> bool) (ny nm nd : nat) : bool :=
  forallb (fun y => forallb (fun m => forallb (fun d => f y m d) (zrange 1 nd)) (zrange 1 nm)) (zrange 1 ny).
Lemma all3_all f ny nm nd : all3 f ny nm nd = true ->
  forall y m d, 1 <= y < 1 + Z.of_nat ny -> 1 <= m < 1 + Z.of_nat nm -> 1 <= d < 1 + Z.of_nat nd -> f y m d = true.
Proof.
  intros C y m d Hy Hm Hd. unfold all3 in C.
  rewrite forallb_forall in C. specialize (C y (zrange_in 1 ny y Hy)). cbv beta in C.
  rewrite forallb_forall in C. specialize (C m (zrange_in 1 nm m Hm)). cbv beta in C.
  rewrite forallb_forall in C. exact (C d (zrange_in 1 nd d Hd)).
Qed.
Definition cycle_item (y m d : Z) : bool :=
  (days_in_month y m <? d) ||
     (let '(y', m', d') := ord2ymd (ymd2ord y m d) in (y' =? y) && (m' =? m) && (d' =? d)
        && (1 <=? ymd2ord y m d) && (ymd2ord y m d <=? 146097)).
Lemma cycle_ok : all3 cycle_item 400 12 31 = true.
Proof. vm_compute. reflexivity. Qed.
