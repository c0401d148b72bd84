(** C104: the ids of connections. *)
From Verif Require Import Base ModelRest ModelState ModelAggregator.
Open Scope Z_scope.

(** ten indices into sixteen digits *)
Definition ten_draws (l : list nat) : Prop := List.length l = 10%nat /\ Forall (fun k => (k < 16)%nat) l.
(** a digit of a number in base sixteen, in lower case *)
Definition hex (c : ascii) : Prop := (48 <= Z.of_nat (nat_of_ascii c) <= 57) \/ (97 <= Z.of_nat (nat_of_ascii c) <= 102).
Fixpoint each (P : ascii -> Prop) (s : string) : Prop := match s with "" => True | String c r => P c /\ each P r end.
(** letters, digits, hyphens and dots, as in names of domains *)
Definition host_char (c : ascii) : Prop :=
  let n := Z.of_nat (nat_of_ascii c) in 48 <= n <= 57 \/ 65 <= n <= 90 \/ 97 <= n <= 122 \/ n = 45 \/ n = 46.
(** Every stored connection has an id that no other one has. *)
Definition ids_apart (s : st) : Prop :=
  forall k k' c c', aget k (t_conns s) = Some c -> aget k' (t_conns s) = Some c' -> cn_cid c = cn_cid c' -> k = k'.
