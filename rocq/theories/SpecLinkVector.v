(** What a route is, independently of how it is computed. *)
From Verif Require Import Base ModelLinkVector.
Open Scope Z_scope.

(** port [p] of network [u] has a vector to network [v] with cost [c] *)
Definition edge (t : vtable) (u p v : string) (c : Z) : Prop :=
  exists d, aget (u, p) t = Some d /\ aget v d = Some c.

(** a hop sequence [(network, port), ...] from [u] to [dst] which enters no
    network of [bl], and the sum of its costs *)
Inductive walk (t : vtable) (bl : list string) : string -> string -> list (string * string) -> Z -> Prop :=
| walk_one u p v c : edge t u p v c -> ~ In v bl -> walk t bl u v [(u, p)] c
| walk_more u p v c w hops c' :
    edge t u p v c -> ~ In v bl -> walk t bl v w hops c' -> walk t bl u w ((u, p) :: hops) (c + c').

(** every vector cost is non-negative *)
Definition nonneg (t : vtable) : Prop := forall u p v c, edge t u p v c -> 0 <= c.

(** the vectors stored for a port *)
Definition vectors_of (s : lvec) (net port : string) : option vdict := aget (net, port) (lv_table s).

(** operations whose dictionaries are Python dictionaries, that refer to
    existing dictionary objects, and that do not make a blacklisted network local *)
Fixpoint ops_ok (bl : list string) (n : nat) (ops : list lv_op) : Prop :=
  match ops with
  | [] => True
  | LDict d :: r => NoDup (akeys d) /\ ops_ok bl (S n) r
  | LAdd l :: r => ~ In l bl /\ ops_ok bl n r
  | LUpdate _ _ i :: r => (i < n)%nat /\ ops_ok bl n r
  | LDelete _ _ :: r => ops_ok bl n r
  end.
