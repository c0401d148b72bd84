(** What labels mean, independently of the code. *)
From Verif Require Import Base.
Open Scope Z_scope.

(** Python's reading of decimal integers is the only thing taken from [Base]. *)
Definition is_int (s : string) (z : Z) : Prop := py_int s = Some z.

(** an item "n" or "lo-hi" denotes a range *)
Inductive item_range : string -> Z * Z -> Prop :=
| item_single s n : shas "-" s = false -> is_int s n -> item_range s (n, n)
| item_interval a b lo hi : shas "-" a = false -> is_int a lo -> is_int b hi -> lo <= hi ->
    item_range (a +++ String "-" b) (lo, hi).

Definition denotes (rs : list (Z * Z)) (z : Z) : Prop :=
  exists lo hi, In (lo, hi) rs /\ lo <= z <= hi.

(** ascending, non-empty, disjoint and non-adjacent ranges *)
Inductive normal : list (Z * Z) -> Prop :=
| normal_nil : normal []
| normal_one lo hi : lo <= hi -> normal [(lo, hi)]
| normal_cons lo hi lo' hi' r : lo <= hi -> hi + 1 < lo' -> normal ((lo', hi') :: r) ->
    normal ((lo, hi) :: (lo', hi') :: r).

(** labels as they come out of the parser *)
Definition wf_values (vs : list (Z * Z)) : Prop :=
  vs <> [] /\ normal vs /\ forall lo hi, In (lo, hi) vs -> 0 <= lo.
