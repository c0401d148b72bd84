(** Model of the collection of networks and its path finding: /repo/opennsa/topology/nml.py:39-52, 98-114, 155-345. *)
From Verif Require Import Base ModelXml ModelLabel ModelSTP ModelAuthz ModelNRM ModelNml.
Open Scope Z_scope.

(** nml.py:170-173: network id -> network and the agent managing it; of the agent only the
    identity (nsa.py:290-297) is kept *)
Definition topo := list (string * (network * string)).

(** nml.py:176-183; the assertions on the types (177-178) hold by typing *)
Definition add_network (n : network) (a : string) (t : topo) : result topo :=
  if ahas (nw_id n) t then Err ETopology else Ok (aset (nw_id n) (n, a) t).
(** nml.py:186-195: the dict afterwards and what is raised; the log entry is left out *)
Definition update_network (n : network) (a : string) (t : topo) : topo * option exn :=
  let existing := aget (nw_id n) t in
  let popped := adel (nw_id n) t in
  match add_network n a popped with
  | Ok t' => (t', None)
  | Err e => (match existing with Some x => aset (nw_id n) x popped | None => popped end, Some e)
  end.
(** nml.py:198-202 *)
Definition get_network (t : topo) (id : string) : result network :=
  match aget id t with Some (n, _) => Ok n | None => Err ETopology end.
(** nml.py:216-220 *)
Definition get_nsa (t : topo) (id : string) : result string :=
  match aget id t with Some (_, a) => Ok a | None => Err ETopology end.
(** nml.py:205-213; the error of [getPort] (152) is a TopologyError (error.py:198) *)
Fixpoint get_network_port (t : topo) (pid : string) : result (string * any_port) :=
  match t with
  | [] => Err ETopology
  | (k, (n, _)) :: r => match get_port n pid with Ok p => Ok (k, p) | Err _ => get_network_port r pid end
  end.

(** nml.py:51-52, 113-114 *)
Definition has_remote (p : bport) : bool :=
  match np_remote (bp_in p), np_remote (bp_out p) with Some _, Some _ => true | _, _ => false end.
(** nml.py:102-106; a label object is true *)
Definition bport_label (p : bport) : result (option label) :=
  match np_label (bp_in p), np_label (bp_out p) with
  | Some a, Some b => do! l <- intersect a b; Ok (Some l)
  | _, _ => Ok None
  end.
(** nml.py:43-44, 98-99 *)
Definition is_bidirectional (p : any_port) : bool := match p with ABi _ => true | _ => false end.

(** The two calls the path finding makes in a way their targets do not understand: [Port.canMatchLabel]
    (nml.py:39-40) and the making of a link (nml.py:302, 338).  The rest of the path finding is modelled for
    any behaviour of these two. *)
Record calls := mkCalls { match_label : nport -> option label -> result bool;
                          link_new : string -> string -> string -> label -> label -> result (stp * stp) }.
(** nml.py:39-40 with nsa.py:174-184: [canMatch] is given the port, not its label; a port is not None, so there is
    no match with None (178), and it has no [intersect] (181).  nml.py:302 with nsa.py:241: five arguments
    for two. *)
Definition as_written : calls :=
  mkCalls (fun _ l => match l with None => Ok false | Some _ => Err EAttribute end) (fun _ _ _ _ _ => Err EType).
(** What the two were meant to be, not part of the code: the port's label is matched (nml.py:40), and the link is made of
    two STPs (nml.py:302) *)
Definition repaired : calls :=
  mkCalls (fun p l => can_match (np_label p) l) (fun n p q a b => Ok (mkSTP n p (Some a), mkSTP n q (Some b))).

(** nml.py:39-40, 109-110 *)
Definition port_matches (c : calls) (p : any_port) (l : option label) : result bool :=
  match p with
  | AIn p | AOut p => match_label c p l
  | ABi p => do! m <- match_label c (bp_in p) l; if m then match_label c (bp_out p) l else Ok false
  end.
(** nml.py:155-162 *)
Fixpoint find_ports_in (c : calls) (bi : bool) (l : option label) (exclude : option string) (ps : list any_port) : result (list any_port) :=
  match ps with
  | [] => Ok []
  | p :: r =>
      do! ok <- if eqb (is_bidirectional p) bi then match l with None => Ok true | Some _ => port_matches c p l end else Ok false;
      do! rest <- find_ports_in c bi l exclude r;
      let out := match exclude with Some x => negb (eqb x "") && eqb (any_id p) x | None => false end in
      Ok (if ok && negb out then p :: rest else rest)
  end.
(** nml.py:155-162 [findPorts] *)
Definition find_ports (c : calls) (n : network) (bi : bool) (l : option label) (exclude : option string) : result (list any_port) :=
  find_ports_in c bi l exclude (all_ports n).
(** nml.py:244, [isinstance(rp, BidirectionalPort)] *)
Definition bis_of (l : list any_port) : list bport := flat_map (fun p => match p with ABi b => [b] | _ => [] end) l.

(** nml.py:223-246; logging is left out *)
Definition find_demarcation (c : calls) (t : topo) (p : bport) : result (option (string * string)) :=
  match np_remote (bp_in p), np_remote (bp_out p) with
  | Some rin, Some rout =>
      match (do! a <- get_network_port t rout; do! b <- get_network_port t rin; Ok (a, b)) with
      | Err _ => Ok None                                                              (* 237-239 *)
      | Ok ((kin, pin), (kout, pout)) =>
          if negb (eqb kin kout) then Ok None else                                    (* 233-235 *)
          do! n <- get_network t kin;
          do! ps <- find_ports c n true None None;
          Ok (match find (fun b => eqb (np_id (bp_in b)) (any_id pin) && eqb (np_id (bp_out b)) (any_id pout)) (bis_of ps) with
              | Some b => Some (nw_id n, bp_id b)
              | None => None
              end)
      end
  | _, _ => Ok None
  end.

(** nml.py:300, 321, 335: [a.intersect(b)], either of which may be None *)
Definition meet (a b : option label) : result (option label) :=
  match a with
  | None => Err EAttribute
  | Some a => match b with None => Err EAssertion | Some b => do! l <- intersect a b; Ok (Some l) end
  end.
(** nml.py:302, 338; [meet] never gives None *)
Definition link_of (c : calls) (n p q : string) (l : option label) : result (stp * stp) :=
  match l with Some l => link_new c n p q l l | None => Err EAttribute end.
(** a path is a list of links, nml.py:303 *)
Definition path := list (stp * stp).
(** nml.py:342, [sorted(links, key=len)]: stable *)
Fixpoint insert_path (x : path) (l : list path) : list path :=
  match l with [] => [x] | y :: r => if (List.length x <=? List.length y)%nat then x :: l else y :: insert_path x r end.
(** nml.py:342 *)
Fixpoint sort_paths (l : list path) : list path := match l with [] => [] | x :: r => insert_path x (sort_paths r) end.

(** nml.py:292-305, both ends in one network; [canSwapLabel] (165-166) is always false *)
Definition within (c : calls) (src dst : stp) (sp dp : bport) : result (list path) :=
  match (do! _ <- match s_label src with None => Err EAttribute | Some _ => Ok tt end;
         do! a <- bport_label sp;
         do! b <- match a with None => Err EAttribute | Some _ => bport_label dp end;
         do! l <- meet a b;
         do! l <- meet l (s_label src);
         do! l <- meet l (s_label dst);
         do! k <- link_of c (s_network src) (s_port src) (s_port dst) l;
         Ok [[k]]) with
  | Err EEmptyLabelSet => Ok []
  | r => r
  end.
(** nml.py:329-340, one path of the rest *)
Definition extend (c : calls) (src : stp) (sp lp : bport) (sl : path) : result path :=
  do! _ <- match s_label src with None => Err EAttribute | Some _ => Ok tt end;
  do! a <- bport_label sp;
  do! l <- meet a (s_label src);
  do! b <- bport_label lp;
  do! l <- meet l b;
  match sl with
  | [] => Err EIndex
  | k :: _ =>
      do! l <- meet l (s_label (fst k));
      do! first <- link_of c (s_network src) (s_port src) (bp_id lp) l;
      Ok (first :: sl)
  end.
(** nml.py:311-340, one port towards another network; [rec] finds the rest *)
Definition via (c : calls) (t : topo) (rec : stp -> list string -> result (list path)) (src : stp) (sn : network) (sp : bport)
           (exclude : list string) (lp : bport) : result (list path) :=
  do! d <- find_demarcation c t lp;
  match d with
  | None => Ok []
  | Some (dn, dp) =>
      if existsb (eqb dn) exclude then Ok [] else                                     (* 318-319 *)
      do! _ <- match s_label src with None => Err EAttribute | Some _ => Ok tt end;
      do! b <- bport_label lp;
      do! l <- meet (s_label src) b;
      do! subs <- rec (mkSTP dn dp l) (nw_id sn :: exclude);
      mapM (extend c src sp lp) subs
  end.
(** nml.py:278-345; no networks excluded is the same as None.  [fuel] bounds the depth of the recursion. *)
Fixpoint recurse (fuel : nat) (c : calls) (t : topo) (src dst : stp) (exclude : list string) : result (list path) :=
  match fuel with
  | O => Err EFuel
  | S fuel =>
      do! sn <- get_network t (s_network src);
      do! dn <- get_network t (s_network dst);
      do! sp <- get_port sn (s_port src);
      do! dp <- get_port dn (s_port dst);
      do! m <- port_matches c sp (s_label src);
      do! m <- if m then Ok true else port_matches c dp (s_label dst);
      if negb m then Ok [] else
      match sp, dp with
      | ABi sp, ABi dp =>
          if eqb (s_network src) (s_network dst) then within c src dst sp dp else
          do! ps <- find_ports c sn true (s_label src) (Some (s_port src));
          do! ls <- mapM (via c t (fun src' ex => recurse fuel c t src' dst ex) src sn sp exclude) (filter has_remote (bis_of ps));
          Ok (sort_paths (concat ls))
      | _, _ => Err ETopology
      end
  end.
(** nml.py:249-275.  The message of the errors at 267 and 269 shows [label()], which may itself raise; a unidirectional port has no
    [orientation] (262); the networks to exclude are not handed on (275). *)
Definition find_paths (c : calls) (t : topo) (src dst : stp) : result (list path) :=
  do! sn <- get_network t (s_network src);
  do! sp <- get_port sn (s_port src);
  do! dn <- get_network t (s_network dst);
  do! dp <- get_port dn (s_port dst);
  match sp, dp with
  | ABi s, ABi d =>
      do! m <- port_matches c sp (s_label src);
      if negb m then (do! _ <- bport_label s; Err ETopology) else
      do! m <- port_matches c dp (s_label dst);
      if negb m then (do! _ <- bport_label d; Err ETopology) else
      recurse (S (2 * List.length t)) c t src dst []
  | ABi _, _ | _, ABi _ => Err ETopology
  | _, _ => Err EAttribute
  end.
