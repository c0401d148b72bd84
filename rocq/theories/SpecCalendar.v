(** What availability means. *)
From Verif Require Import Base.
Open Scope Z_scope.

(** the instants covered by a span; an absent start is read as [now] *)
Definition covers (forever now : Z) (s e : option Z) (t : Z) : Prop :=
  match s with Some x => x | None => now end <= t <= match e with Some x => x | None => forever end.

Definition share_instant (forever now : Z) (s1 e1 s2 e2 : option Z) : Prop :=
  exists t, covers forever now s1 e1 t /\ covers forever now s2 e2 t.

(** a span that runs forward *)
Definition forward (forever now : Z) (s e : option Z) : Prop :=
  match s with Some x => x | None => now end < match e with Some x => x | None => forever end.

(** the request rules of C06 *)
Definition legal_span (limit now : Z) (s e : option Z) : Prop :=
  (forall a b, s = Some a -> e = Some b -> a <= b) /\
  (forall a, s = Some a -> now <= a <= limit).

(** pairwise condition over a list, by position *)
Definition pairwise {A} (P : A -> A -> Prop) (l : list A) : Prop :=
  forall i j x y, (i < j)%nat -> nth_error l i = Some x -> nth_error l j = Some y -> P x y.
