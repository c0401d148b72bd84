(** Model of the queries of /repo/opennsa/backends/common/genericbackend.py (521-561). *)
From Verif Require Import Base ModelLabel ModelSTP ModelAuthz ModelState ModelBackend.
Open Scope Z_scope.

(** nsa.ConnectionInfo (nsa.py:321-343) as filled in at 545-559; the agent's name
    (557, derived from the network's) and the service type are left out *)
Record binfo := mkBInfo {
  bi_cid : string; bi_gid : string; bi_src : stp; bi_dst : stp; bi_start : option Z; bi_end : option Z; bi_bw : Z;
  bi_requester : string; bi_states : states; bi_active : bool; bi_version : Z; bi_consistent : bool }.

(** genericbackend.py:545-559 *)
Definition row_info (g : cfg) (r : row) : binfo :=
  mkBInfo (c_id r) (c_gid r) (mkSTP (network g) (c_sport r) (c_slabel r)) (mkSTP (network g) (c_dport r) (c_dlabel r))
          (c_start r) (c_end r) (c_bw r) (c_requester r) (c_states r) (c_active r) 0 true.

(** genericbackend.py:534-561: the rows of this network (all rows of the model) of the asking agent
    with one of the ids; the second query (541) names a column that does not exist
    (datafiles/schema.sql:77-101 has global_reservation_id) *)
Definition query_rows (g : cfg) (requester : string) (cids gids : list string) (s : st) : result (list binfo) :=
  match cids, gids with
  | _ :: _, _ => Ok (map (row_info g) (filter (fun r => eqb (c_requester r) requester && mem (c_id r) cids) (map snd (db s))))
  | [], _ :: _ => Err EDatabase
  | [], [] => Err EMissingParameter
  end.
