(** Model of /repo/opennsa/topology/linkvector.py: class LinkVector (22-205). *)
From Verif Require Import Base.
Open Scope Z_scope.

(** [{ network : cost }] *)
Notation vdict := (list (string * Z)).
(** the vectors by value, [(network, port) -> { network : cost }] (linkvector.py:35) *)
Notation vtable := (list ((string * string) * list (string * Z))).
Notation dist_map := (list (string * Z)).
Notation prev_map := (list (string * (string * string))).

(** linkvector.py:127-134: the set of networks, as a duplicate-free list; the
    order of the set is not observable, only membership and removal are used *)
Definition all_networks (locals bl : list string) (t : vtable) : list string :=
  filter (fun n => negb (mem n bl))
    (nodup string_dec (locals ++ map (fun e => fst (fst e)) t ++ flat_map (fun e => akeys (snd e)) t)).

(** linkvector.py:155-166, one [dest_network, cost] of one port of [u] *)
Definition relax (src : string) (bl : list string) (mx : Z) (u : string) (ucost : Z) (port : string)
           (dp : dist_map * prev_map) (e : string * Z) : dist_map * prev_map :=
  let '(dest, cost) := e in
  if eqb dest src then dp
  else if mem dest bl then dp
  else
    let dest_cost := ucost + cost in
    if mx <? dest_cost then dp
    else match aget dest (fst dp) with
         | None => (aset dest dest_cost (fst dp), aset dest (u, port) (snd dp))
         | Some prev_dist =>
             if dest_cost <? prev_dist
             then (aset dest dest_cost (fst dp), aset dest (u, port) (snd dp))
             else dp
         end.

(** linkvector.py:153-166 *)
Definition relax_all (src : string) (bl : list string) (mx : Z) (t : vtable) (u : string) (ucost : Z)
           (dp : dist_map * prev_map) : dist_map * prev_map :=
  fold_left (fun dp e => fold_left (relax src bl mx u ucost (snd (fst e))) (snd e) dp)
            (filter (fun e => eqb (fst (fst e)) u) t) dp.

(** linkvector.py:151, Python's order on [(cost, network)] tuples *)
Definition cn_lt (a b : Z * string) : bool :=
  (fst a <? fst b) || ((fst a =? fst b) && String.ltb (snd a) (snd b)).
(** linkvector.py:151, [min] of the tuples *)
Definition cn_min (x : Z * string) (l : list (Z * string)) : Z * string :=
  fold_left (fun m c => if cn_lt c m then c else m) l x.

(** linkvector.py:170, [set.remove]: [KeyError] when absent *)
Definition set_remove (u : string) (l : list string) : result (list string) :=
  if mem u l then Ok (remove string_dec u l) else Err EKey.

(** linkvector.py:139-172, the while loop *)
Fixpoint dij_loop (fuel : nat) (src : string) (bl : list string) (mx : Z) (t : vtable)
         (unv : list string) (dp : dist_map * prev_map) : result (dist_map * prev_map) :=
  match fuel with
  | O => Err EFuel
  | S f =>
      match unv with
      | [] => Ok dp
      | _ =>
          let visit (u : string) (ucost : Z) :=
            let dp' := relax_all src bl mx t u ucost dp in
            if eqb u src && match fst dp' with [] => true | _ => false end then Ok dp'
            else do! unv' <- set_remove u unv; dij_loop f src bl mx t unv' dp' in
          match fst dp with
          | [] => visit src 0
          | _ =>
              match map (fun nc => (snd nc, fst nc)) (filter (fun nc => mem (fst nc) unv) (fst dp)) with
              | [] => Ok dp
              | c :: cs => let m := cn_min c cs in visit (snd m) (fst m)
              end
          end
      end
  end.

(** linkvector.py:124-172; the fuel is one more than the number of networks *)
Definition dijkstra (locals bl : list string) (mx : Z) (t : vtable) (src : string)
  : result (dist_map * prev_map) :=
  let unv := all_networks locals bl t in
  dij_loop (S (List.length unv)) src bl mx t unv ([], []).

(** linkvector.py:187-192, the while loop of [path], which appends to [acc]; the
    result is the reversed path (194) *)
Fixpoint path_loop (fuel : nat) (prev : prev_map) (src : string) (at_net : string)
         (acc : list (string * string)) : result (list (string * string)) :=
  if eqb at_net src then Ok acc
  else match fuel with
       | O => Err EFuel
       | S f => match aget at_net prev with
                | None => Err EKey
                | Some (n, p) => path_loop f prev src n ((n, p) :: acc)
                end
       end.

(** linkvector.py:182-194, for the [prev] table of the source *)
Definition path_from (prev : prev_map) (src dst : string) : result (option (list (string * string))) :=
  match aget dst prev with
  | None => Ok None
  | Some (n, p) => do! l <- path_loop (List.length prev) prev src n [(n, p)]; Ok (Some l)
  end.

(** linkvector.py:28-41.  Dictionaries are Python objects: [updateVector]
    keeps a reference to the caller's dictionary (98), so the table holds
    references into a heap.  Subscribers (44, 52-58) are not modelled. *)
Record lvec := mkLV {
  lv_local : list string;
  lv_black : list string;
  lv_max   : Z;
  lv_heap  : list vdict;
  lv_vecs  : list ((string * string) * nat);
  lv_dist  : list (string * dist_map);
  lv_prev  : list (string * prev_map) }.

(** linkvector.py:35, [self.vectors] with its dicts looked up in the heap *)
Definition lv_table (s : lvec) : vtable := map (fun e => (fst e, nth (snd e) (lv_heap s) [])) (lv_vecs s).

(** linkvector.py:114-121; an exception leaves the tables computed so far *)
Fixpoint calculate (ns : list string) (s : lvec) : lvec * option exn :=
  match ns with
  | [] => (s, None)
  | n :: r =>
      match dijkstra (lv_local s) (lv_black s) (lv_max s) (lv_table s) n with
      | Err e => (s, Some e)
      | Ok (d, p) =>
          calculate r (mkLV (lv_local s) (lv_black s) (lv_max s) (lv_heap s) (lv_vecs s)
                            (aset n d (lv_dist s)) (aset n p (lv_prev s)))
      end
  end.
(** linkvector.py:114-121 [_calculateVectors] *)
Definition calculate_vectors (s : lvec) : lvec * option exn := calculate (lv_local s) s.

(** linkvector.py:66-76 *)
Definition add_local (n : string) (s : lvec) : lvec * option exn :=
  if mem n (lv_local s) then (s, Some EValue)
  else calculate_vectors (mkLV (lv_local s ++ [n]) (lv_black s) (lv_max s) (lv_heap s) (lv_vecs s)
                               (aset n [] (lv_dist s)) (aset n [] (lv_prev s))).

(** linkvector.py:85-96: destinations already present keep their cost *)
Definition merge_new (old new : vdict) : vdict :=
  fold_left (fun d e => if ahas (fst e) d then d else aset (fst e) (snd e) d) new old.

(** linkvector.py:84-88, in-place change of a dict in the heap *)
Fixpoint set_nth {A} (i : nat) (x : A) (l : list A) : list A :=
  match i, l with
  | _, [] => []
  | O, _ :: r => x :: r
  | S j, y :: r => y :: set_nth j x r
  end.

(** linkvector.py:81-103; [r] is the caller's dictionary object *)
Definition update_vector (net port : string) (r : nat) (s : lvec) : lvec * option exn :=
  calculate_vectors
    match aget (net, port) (lv_vecs s) with
    | Some r0 =>
        mkLV (lv_local s) (lv_black s) (lv_max s)
             (set_nth r0 (merge_new (nth r0 (lv_heap s) []) (nth r (lv_heap s) [])) (lv_heap s))
             (lv_vecs s) (lv_dist s) (lv_prev s)
    | None =>
        mkLV (lv_local s) (lv_black s) (lv_max s) (lv_heap s)
             (aset (net, port) r (lv_vecs s)) (lv_dist s) (lv_prev s)
    end.

(** linkvector.py:106-111; the [except KeyError] also covers the recomputation *)
Definition delete_vector (net port : string) (s : lvec) : lvec * option exn :=
  match aget (net, port) (lv_vecs s) with
  | None => (s, None)
  | Some _ =>
      match calculate_vectors
              (mkLV (lv_local s) (lv_black s) (lv_max s) (lv_heap s)
                    (adel (net, port) (lv_vecs s)) (lv_dist s) (lv_prev s)) with
      | (s', Some EKey) => (s', None)
      | r => r
      end
  end.

(** linkvector.py:175-194 *)
Definition lv_path (network source : string) (s : lvec) : result (option (list (string * string))) :=
  if negb (mem source (lv_local s)) then Err EValue
  else match aget source (lv_prev s) with
       | None => Err EKey
       | Some prev => path_from prev source network
       end.

(** linkvector.py:197-204; [path[0]] of an empty list would be [IndexError] *)
Definition lv_vector (network source : string) (s : lvec) : result (option (string * string)) :=
  do! p <- lv_path network source s;
  match p with
  | None => Ok None
  | Some [] => Err EIndex
  | Some (h :: _) => Ok (Some h)
  end.

(** linkvector.py:24-47 without local networks; those are added with [LAdd] *)
Definition lv_init (bl : list string) (mx : Z) : lvec := mkLV [] bl mx [] [] [] [].

(** the operations of the class, and the creation of a dictionary object by a
    caller (discovery/fetcher.py:96-105, setup.py:252-254), whose reference is
    the number of dictionaries created before *)
Inductive lv_op :=
| LDict (d : vdict)
| LAdd (n : string)
| LUpdate (net port : string) (r : nat)
| LDelete (net port : string).
(** linkvector.py:66-111, one call *)
Definition lv_step (s : lvec) (o : lv_op) : lvec * option exn :=
  match o with
  | LDict d => (mkLV (lv_local s) (lv_black s) (lv_max s) (lv_heap s ++ [d]) (lv_vecs s) (lv_dist s) (lv_prev s), None)
  | LAdd n => add_local n s
  | LUpdate net port r => update_vector net port r s
  | LDelete net port => delete_vector net port s
  end.
(** linkvector.py:66-111, a sequence of calls *)
Definition lv_run (bl : list string) (mx : Z) (ops : list lv_op) : lvec :=
  fold_left (fun s o => fst (lv_step s o)) ops (lv_init bl mx).
