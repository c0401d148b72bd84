(** Model of the plugins: /repo/opennsa/plugins/canarie.py:21-40 with
    /repo/opennsa/database.py:62-81, 110-128, and /repo/opennsa/plugins/pruner.py:21-57. *)
From Verif Require Import Base ModelLabel ModelSTP.
Open Scope Z_scope.

(** * Canarie circuit identifiers *)

(** [s[:n]]; canarie.py:27-40 *)
Fixpoint stake (n : nat) (s : string) : string :=
  match n, s with S m, String c r => String c (stake m r) | _, _ => EmptyString end.

(** canarie.py:35-37; the argument is the number from the database *)
Definition canarie_id (n : Z) : string :=
  let u := py_str n in stake 5 u +++ "CS" +++ sdrop 5 u +++ "-ANA".

(** largest value of the column, schema.sql:115 ([serial] is a four byte integer) *)
Definition SERIAL_MAX : Z := 2147483647.

(** The table backend_connection_id (schema.sql:113-116) holds at most one row. *)
Definition counter := option Z.

(** database.py:78-80: at every start; [None] when the option is not configured.
    A start value of 0 is false in Python. *)
Definition setup_counter (start : option Z) (c : counter) : counter :=
  match start with
  | Some n => if n =? 0 then c else match c with None => Some n | Some _ => c end
  | None => c
  end.

(** database.py:110-128: one UPDATE ... RETURNING statement, atomic in the
    database, so concurrent calls are some sequence of calls *)
Definition backend_connection_id (c : counter) : counter * result (option Z) :=
  match c with
  | None => (c, Ok None)
  | Some n => if SERIAL_MAX <=? n then (c, Err EDatabase) else (Some (n + 1), Ok (Some (n + 1)))
  end.

(** canarie.py:26-40 *)
Definition canarie_create (c : counter) : counter * result string :=
  match backend_connection_id c with
  | (c', Ok (Some n)) => (c', Ok (canarie_id n))
  | (c', Ok None) => (c', Err EValue)
  | (c', Err e) => (c', Err e)
  end.

(** starts of the server and creations of connections; canarie.py:23-40 *)
Inductive canarie_op := CSetup (start : option Z) | CCreate.
(** the identifiers handed out by a sequence of operations; canarie.py:27-40 *)
Fixpoint canarie_run (c : counter) (ops : list canarie_op) : counter * list string :=
  match ops with
  | [] => (c, [])
  | CSetup n :: r => canarie_run (setup_counter n c) r
  | CCreate :: r =>
      match canarie_create c with
      | (c', Ok i) => let '(c2, l) := canarie_run c' r in (c2, i :: l)
      | (c', Err _) => canarie_run c' r
      end
  end.

(** * Pruning labels *)

(** nsa.py:239-244 *)
Record link := mkLink { l_src : stp; l_dst : stp }.

(** Python's [p in s] on strings; pruner.py:30 *)
Fixpoint contains (p s : string) : bool :=
  starts_with p s || match s with EmptyString => false | String _ r => contains p r end.

(** pruner.py:30 *)
Definition listed (networks : list string) (l : link) : bool :=
  existsb (fun n => contains n (s_network (l_src l))) networks.

(** assignments [link.src_stp.label = l] and [link.dst_stp.label = l]; pruner.py:33-42 *)
Definition set_stp_label (x : label) (s : stp) : stp := mkSTP (s_network s) (s_port s) (Some x).
(** pruner.py:33, 42, [link.src_stp.label = l] *)
Definition set_src (x : label) (l : link) : link := mkLink (set_stp_label x (l_src l)) (l_dst l).
(** pruner.py:34, 38, [link.dst_stp.label = l] *)
Definition set_dst (x : label) (l : link) : link := mkLink (l_src l) (set_stp_label x (l_dst l)).

(** in-place change of [path[i]]; pruner.py:37-42 *)
Fixpoint upd {A} (i : nat) (f : A -> A) (l : list A) : list A :=
  match i, l with
  | _, [] => []
  | O, x :: r => f x :: r
  | S j, x :: r => x :: upd j f r
  end.

(** pruner.py:31-32; an absent label has no [intersect] attribute, and
    intersecting with [None] fails on its [type_] (nsa.py:125) *)
Definition common_label (l : link) : result label :=
  match s_label (l_src l), s_label (l_dst l) with
  | Some a, Some b => do! liv <- intersect a b; label_of_str (ltype liv) (label_value liv)
  | _, _ => Err EAttribute
  end.

(** pruner.py:28-42, the body for one index.  Simplification: the STP objects of
    the path are taken to be distinct objects, as the path finding makes them. *)
Definition prune_at (networks : list string) (path : list link) (idx : nat) : result (list link) :=
  match nth_error path idx with
  | None => Ok path
  | Some l =>
      if listed networks l then
        do! lnv <- common_label l;
        let p1 := upd idx (fun l => set_dst lnv (set_src lnv l)) path in
        let p2 := match idx with O => p1 | S j => upd j (set_dst lnv) p1 end in
        Ok (if (idx <? List.length path - 1)%nat then upd (S idx) (set_src lnv) p2 else p2)
      else Ok path
  end.

(** pruner.py:28-42, the loop over the indices *)
Fixpoint prune_from (networks : list string) (path : list link) (idxs : list nat) : result (list link) :=
  match idxs with
  | [] => Ok path
  | i :: r => do! p <- prune_at networks path i; prune_from networks p r
  end.
(** pruner.py:24-44 [pruneLabels] *)
Definition prune_labels (networks : list string) (path : list link) : result (list link) :=
  prune_from networks path (seq 0 (List.length path)).

(** pruner.py:51-53 [prunePaths]: only the first path is kept *)
Definition prune_paths (networks : list string) (paths : list (list link)) : result (list (list link)) :=
  match paths with
  | [] => Err EIndex
  | p :: _ => do! q <- prune_labels networks p; Ok [q]
  end.
