(** Subclassing, from the class statements. *)
From Verif Require Import Base ModelErrors.
Inductive subclass : nclass -> nclass -> Prop :=
| sub_refl c : subclass c c
| sub_base c b d : In b (bases c) -> subclass b d -> subclass c d.

(** two optional values with the same meaning in Python: an absent list and an
    empty one are both false *)
Definition vars_of {A} (v : option (list A)) : list A := match v with Some l => l | None => [] end.
