(** What a collection of networks holds, and what a path through it is (C94, C95). *)
From Verif Require Import Base ModelXml ModelLabel ModelSTP ModelAuthz ModelNRM ModelNml ModelTopo SpecLabel.
Open Scope Z_scope.

(** what is done to a topology *)
Inductive tact := Add (n : network) (a : string) | Update (n : network) (a : string).
Definition tstep (t : topo) (x : tact) : topo :=
  match x with
  | Add n a => match add_network n a t with Ok t' => t' | Err _ => t end
  | Update n a => fst (update_network n a t)
  end.
Definition trun (l : list tact) : topo := fold_left tstep l [].
(** the entry of a network: the first added, or the latest update *)
Definition entry_step (id : string) (cur : option (network * string)) (x : tact) : option (network * string) :=
  match x with
  | Add n a => if eqb (nw_id n) id then match cur with None => Some (n, a) | Some _ => cur end else cur
  | Update n a => if eqb (nw_id n) id then Some (n, a) else cur
  end.
Definition entry (id : string) (l : list tact) : option (network * string) := fold_left (entry_step id) l None.

(** [t] has network [n] under [k] *)
Definition holds (t : topo) (k : string) (n : network) : Prop := exists a, In (k, (n, a)) t.
(** one entry per network, under its id *)
Definition tidy (t : topo) : Prop := NoDup (map fst t) /\ forall k n, holds t k n -> nw_id n = k.
(** a port of a network, of any of the three kinds, and its id *)
Definition has_port (n : network) (p : any_port) : Prop :=
  match p with AIn x => In x (nw_in n) | AOut x => In x (nw_out n) | ABi b => In b (nw_bi n) end.
Definition called (p : any_port) (id : string) : Prop := match p with AIn x | AOut x => np_id x = id | ABi b => bp_id b = id end.
(** no two networks have a port of the same id *)
Definition own_ports (t : topo) : Prop :=
  forall k n k' n' p p' id, holds t k n -> holds t k' n' -> has_port n p -> has_port n' p' -> called p id -> called p' id -> k = k'.
(** the ports a bidirectional port is made of are ports of the network *)
Definition listed (t : topo) : Prop :=
  forall k n b, holds t k n -> In b (nw_bi n) -> In (bp_in b) (nw_in n) /\ In (bp_out b) (nw_out n).
(** [b] is where [p] leads: out of the one is into the other, and back *)
Definition faces (p b : bport) : Prop := np_remote (bp_out p) = Some (np_id (bp_in b)) /\ np_remote (bp_in p) = Some (np_id (bp_out b)).
(** a bidirectional port of network [k] *)
Definition port_at (t : topo) (k : string) (b : bport) : Prop := exists n, holds t k n /\ In b (nw_bi n).

(** * Paths *)
(** [x] names port [b] of [t] *)
Definition names (t : topo) (x : stp) (b : bport) : Prop := port_at t (s_network x) b /\ bp_id b = s_port x.
Definition same_place (x y : stp) : Prop := s_network x = s_network y /\ s_port x = s_port y.
(** a path from [src] to [dst]: every link stays in a network, and the next begins where the port it ends at leads *)
Inductive leads (t : topo) : stp -> stp -> list (stp * stp) -> Prop :=
| leads_within src dst a b : s_network src = s_network dst -> same_place a src -> same_place b dst -> leads t src dst [(a, b)]
| leads_via src dst a b p q next rest : same_place a src -> s_network b = s_network a -> names t b p -> names t next q -> faces p q ->
    leads t next dst rest -> leads t src dst ((a, b) :: rest).
(** label [l] has the value [z] *)
Definition has (z : Z) (l : option label) : Prop := exists x, l = Some x /\ denotes (lvalues x) z.
(** [z] is one of the labels at [x], and one that the port takes in both directions *)
Definition carries (t : topo) (z : Z) (x : stp) : Prop :=
  has z (s_label x) /\ exists b, names t x b /\ has z (np_label (bp_in b)) /\ has z (np_label (bp_out b)).
(** the path can be used as it is: its first link has labels, each of which is in the labels asked for and is carried at all its ends *)
Definition usable (t : topo) (src dst : stp) (p : list (stp * stp)) : Prop :=
  match p with
  | [] => False
  | k :: _ => (exists z, has z (s_label (fst k))) /\
      forall z, has z (s_label (fst k)) -> has z (s_label src) /\ has z (s_label dst) /\ forall k', In k' p -> carries t z (fst k') /\ carries t z (snd k')
  end.
(** no network is crossed twice, but perhaps twice in a row *)
Definition no_return (p : list (stp * stp)) : Prop :=
  forall i j a b, (i < j)%nat -> nth_error p i = Some a -> nth_error p j = Some b -> s_network (fst a) = s_network (fst b) -> j = S i.
(** no path before a shorter one *)
Definition shortest_first (ps : list (list (stp * stp))) : Prop :=
  forall i j a b, (i < j)%nat -> nth_error ps i = Some a -> nth_error ps j = Some b -> (List.length a <= List.length b)%nat.
(** labels as constructed *)
Definition label_wf (l : option label) : Prop := match l with Some x => wf_values (lvalues x) | None => True end.
Definition labels_wf (t : topo) : Prop := forall k b, port_at t k b -> label_wf (np_label (bp_in b)) /\ label_wf (np_label (bp_out b)).
