(** What an OESS controller is, and what links on it mean.

    The controller is described independently of the code: how it reads the text
    of a query, what it does and what it answers.  This is an assumption about
    the controller, and part of what the theorems of PropsOess.v say. *)
From Verif Require Import Base ModelLabel ModelRest ModelDrivers SpecDrivers ModelOess.
Open Scope Z_scope.

(** ** Queries as the controller reads them *)
(** The fields after the question mark, each with its name and value. *)
Definition fields (q : string) : list (string * string) :=
  match split1 "?" q with
  | Some (_, fs) => map (fun f => match split1 "=" f with Some kv => kv | None => (f, "") end) (split_on "&" fs)
  | None => []
  end.
(** All values of a field, in order. *)
Definition values (key : string) (q : string) : list string :=
  map snd (filter (fun kv => eqb (fst kv) key) (fields q)).
Definition action (q : string) (a : string) : Prop := exists r, values "action" q = a :: r.

(** ** The controller *)
(** An end of a circuit: node, interface, VLAN tag. *)
Definition cend := (string * string * string)%type.
Record circuit := mkCircuit { ci_id : Z; ci_group : Z; ci_a : cend; ci_b : cend }.
Record controller := mkCtl { ct_groups : list (string * Z); ct_circuits : list circuit }.

(** An object has a member. *)
Definition has (j : json) (key : string) (v : json) : Prop := jget key j = Ok v.
(** The list of results of an answer. *)
Definition results (a : result json) (l : list json) : Prop := exists j, a = Ok j /\ has j "results" (JList l).

Definition end_shown (e : cend) (j : json) : Prop := has j "node" (JStr (fst (fst e))) /\ has j "interface" (JStr (snd (fst e))).
(** A circuit in a list of circuits; the ends may come in any order, unless [order]. *)
Definition shown (order : bool) (c : circuit) (j : json) : Prop :=
  has j "circuit_id" (JInt (ci_id c)) /\
  exists e0 e1, has j "endpoints" (JList [e0; e1]) /\
    ((end_shown (ci_a c) e0 /\ end_shown (ci_b c) e1) \/ (order = false /\ end_shown (ci_b c) e0 /\ end_shown (ci_a c) e1)).

(** A name without the letters that divide queries and interfaces. *)
Definition plain (s : string) : Prop :=
  shas "&" s = false /\ shas "=" s = false /\ shas "?" s = false /\ shas ":" s = false /\ shas "#" s = false.

(** One query: its answer, and the controller after it.  Queries that cannot be
    served are answered with an exception.  [no]: the answers by which it refuses
    to set up or remove a circuit. *)
Inductive answers (order : bool) (no : result json -> Prop) (ct : controller) (q : string) (a : result json) : controller -> Prop :=
| ans_groups js : action q "get_workgroups" -> results a js ->
    Forall2 (fun g j => has j "name" (JStr (fst g)) /\ has j "workgroup_id" (JInt (snd g))) (ct_groups ct) js ->
    answers order no ct q a ct
| ans_circuits g js : action q "get_existing_circuits" -> values "workgroup_id" q = [py_str g] -> results a js ->
    Forall2 (shown order) (filter (fun c => ci_group c =? g) (ct_circuits ct)) js ->
    answers order no ct q a ct
| ans_path js : action q "get_shortest_path" -> results a js ->
    (forall j, In j js -> exists name, has j "link" (JStr name) /\ shas "&" name = false) ->
    answers order no ct q a ct
| ans_look x : action q x -> x = "get_node_interfaces" \/ x = "is_vlan_tag_available" -> answers order no ct q a ct
| ans_provision g n0 i0 t0 n1 i1 t1 id j r :
    action q "provision_circuit" -> values "workgroup_id" q = [py_str g] -> In g (map snd (ct_groups ct)) ->
    values "node" q = [n0; n1] -> values "interface" q = [i0; i1] -> values "tag" q = [t0; t1] ->
    0 < id -> ~ In id (map ci_id (ct_circuits ct)) ->
    a = Ok j -> has j "results" r -> has r "success" (JInt 1) -> has r "circuit_id" (JInt id) ->
    answers order no ct q a (mkCtl (ct_groups ct) (ct_circuits ct ++ [mkCircuit id g (n0, i0, t0) (n1, i1, t1)]))
| ans_remove id r : action q "remove_circuit" -> values "circuit_id" q = [py_str id] -> In id (map ci_id (ct_circuits ct)) ->
    results a [r] -> has r "success" (JInt 1) ->
    answers order no ct q a (mkCtl (ct_groups ct) (filter (fun c => negb (ci_id c =? id)) (ct_circuits ct)))
| ans_refused x : action q x -> x = "provision_circuit" \/ x = "remove_circuit" -> no a -> answers order no ct q a ct
| ans_error e : a = Err e -> answers order no ct q a ct.

(** ** Links *)
(** A port and label as an end of a circuit: the port's interface is given as node
    and interface. *)
Definition end_on (pm : list (string * string)) (port : string) (l : option label) (e : cend) : Prop :=
  exists n i v, aget port pm = Some (n +++ ":" +++ i) /\ plain n /\ plain i /\ l = Some (mkLabel "vlan" [(v, v)]) /\ 1 <= v <= 4094 /\
    e = (n, i, py_str v).
Definition ends (pm : list (string * string)) (k : link) (a b : cend) : Prop :=
  end_on pm (k_sp k) (k_sl k) a /\ end_on pm (k_dp k) (k_dl k) b.
(** The circuit of a link. *)
Definition circuit_of (pm : list (string * string)) (g : Z) (k : link) (c : circuit) : Prop :=
  ci_group c = g /\ ends pm k (ci_a c) (ci_b c).
(** Two ends on the same interface. *)
Definition itf (e : cend) : string * string := fst e.
(** A circuit between the interfaces of a link, whatever the VLANs. *)
Definition same_interfaces (a b a' b' : cend) : Prop := (itf a = itf a' /\ itf b = itf b') \/ (itf a = itf b' /\ itf b = itf a').
Definition joins_same (pm : list (string * string)) (k : link) (c : circuit) : Prop :=
  exists a b, ends pm k a b /\ same_interfaces a b (ci_a c) (ci_b c).
(** Two links that are not between the same two interfaces. *)
Definition separate (pm : list (string * string)) (k k' : link) : Prop :=
  forall a b a' b', ends pm k a b -> ends pm k' a' b' -> ~ same_interfaces a b a' b'.
(** The two ends of a link are at different nodes. *)
Definition two_nodes (pm : list (string * string)) (k : link) : Prop :=
  forall a b, ends pm k a b -> fst (itf a) <> fst (itf b).

(** ** Histories *)
(** Where a link is: up, being set up or torn down, or its removal failed with an
    error.  A conversation waits for an answer, or goes on with it. *)
Inductive conv := CWait (q : string) (go : result json -> talk) | CGo (t : talk).
Inductive place := IsUp | GoesUp (c : conv) | GoesDown (c : conv) | LeftOver.
(** The controller, the [workgroup_id] of the connection manager, and the links. *)
Record oess := mkOess { os_ctl : controller; os_wg : json; os_links : list (link * place) }.

Definition conv_of (p : phase) : conv := match p with Waiting q go => CWait q go | Ended r => CGo (TEnd r) end.

Section Histories.
  Context (order : bool) (no : result json -> Prop) (pm : list (string * string)) (group : string) (may : link -> Prop).
  (** Links are set up and torn down at any time, and many at once; questions and
      answers take their time.  [apart_from]: which links a new one goes with. *)
  Context (apart_from : link -> link -> Prop).
  Inductive ostep : oess -> oess -> Prop :=
  | os_up ct wg ls k t wg' p :
      may k -> (forall k' x, In (k', x) ls -> apart_from k k') ->
      oe_setup pm group (k_sp k) (k_sl k) (k_dp k) (k_dl k) = Ok t -> settle wg t = (wg', p) ->
      ostep (mkOess ct wg ls) (mkOess ct wg' ((k, GoesUp (conv_of p)) :: ls))
  | os_down ct wg l1 k l2 t wg' p :
      oe_teardown pm (k_sp k) (k_sl k) (k_dp k) (k_dl k) = Ok t -> settle wg t = (wg', p) ->
      ostep (mkOess ct wg (l1 ++ (k, IsUp) :: l2)) (mkOess ct wg' (l1 ++ (k, GoesDown (conv_of p)) :: l2))
  | os_answer ct ct' wg l1 k q go l2 a (up : bool) :
      answers order no ct q a ct' ->
      ostep (mkOess ct wg (l1 ++ (k, (if up then GoesUp else GoesDown) (CWait q go)) :: l2))
            (mkOess ct' wg (l1 ++ (k, (if up then GoesUp else GoesDown) (CGo (go a))) :: l2))
  | os_more ct wg l1 k t l2 (up : bool) wg' q go :
      settle wg t = (wg', Waiting q go) ->
      ostep (mkOess ct wg (l1 ++ (k, (if up then GoesUp else GoesDown) (CGo t)) :: l2))
            (mkOess ct wg' (l1 ++ (k, (if up then GoesUp else GoesDown) (CWait q go)) :: l2))
  | os_is_up ct wg l1 k t l2 wg' :
      settle wg t = (wg', Ended (Ok tt)) ->
      ostep (mkOess ct wg (l1 ++ (k, GoesUp (CGo t)) :: l2)) (mkOess ct wg' (l1 ++ (k, IsUp) :: l2))
  | os_not_up ct wg l1 k t l2 wg' e :
      settle wg t = (wg', Ended (Err e)) ->
      ostep (mkOess ct wg (l1 ++ (k, GoesUp (CGo t)) :: l2)) (mkOess ct wg' (l1 ++ l2))
  | os_is_down ct wg l1 k t l2 wg' :
      settle wg t = (wg', Ended (Ok tt)) ->
      ostep (mkOess ct wg (l1 ++ (k, GoesDown (CGo t)) :: l2)) (mkOess ct wg' (l1 ++ l2))
  | os_not_down ct wg l1 k t l2 wg' e :
      settle wg t = (wg', Ended (Err e)) ->
      ostep (mkOess ct wg (l1 ++ (k, GoesDown (CGo t)) :: l2)) (mkOess ct wg' (l1 ++ (k, LeftOver) :: l2)).
  Inductive oreach (ct0 : controller) : oess -> Prop :=
  | or_start : oreach ct0 (mkOess ct0 JNull [])
  | or_step s s' : oreach ct0 s -> ostep s s' -> oreach ct0 s'.
End Histories.

(** A refusal that is an error: neither a success nor any other result. *)
Definition frank (a : result json) : Prop := exists e, a = Err e.
(** Any answer that does not tell of a success. *)
Definition any_refusal (a : result json) : Prop :=
  forall j, a = Ok j -> (forall r, has j "results" r -> ~ has r "success" (JInt 1)) /\
    (forall l r, has j "results" (JList l) -> In r l -> ~ has r "success" (JInt 1)).
(** The start: the own group is known, the ids of circuits are positive and of
    their own, and there is no circuit in the group where links may be asked for. *)
Definition ready_start (pm : list (string * string)) (group : string) (g : Z) (may : link -> Prop) (ct : controller) : Prop :=
  aget group (ct_groups ct) = Some g /\ NoDup (map ci_id (ct_circuits ct)) /\ (forall c, In c (ct_circuits ct) -> 0 < ci_id c) /\
  forall k c, may k -> In c (ct_circuits ct) -> ci_group c = g -> ~ joins_same pm k c.

(** ** What a conversation asks *)
(** A conversation after questions and their answers, whoever answers; others may
    set the [workgroup_id] in between. *)
Inductive heard : talk -> list (string * result json) -> talk -> Prop :=
| hd_none t : heard t [] t
| hd_ask t wg wg' q go a l t' : settle wg t = (wg', Waiting q go) -> heard (go a) l t' -> heard t ((q, a) :: l) t'.

(** The answer lists an entry of a name. *)
Definition lists_name (a : result json) (name : string) : Prop :=
  exists j r l x, a = Ok j /\ has j "results" r /\ j_items r = Ok l /\ In x l /\ has x "name" (JStr name).
(** The answer gives a number for the first result's availability. *)
Definition tells (a : result json) (v : json -> bool) : Prop :=
  exists j r x y, a = Ok j /\ has j "results" r /\ j_at 0 r = Ok x /\ has x "available" y /\ v y = true.
Definition zero_or_one (j : json) : bool :=
  match j with JInt z => (z =? 0) || (z =? 1) | JBool _ => true | JFloat _ zero => zero | _ => false end.
(** An end was looked at: its interface was listed for its node, and its VLAN asked about. *)
Definition looked_at (e : cend) (v : json -> bool) (l : list (string * result json)) : Prop :=
  (exists q a, In (q, a) l /\ action q "get_node_interfaces" /\ values "node" q = [fst (fst e)] /\ lists_name a (snd (fst e))) /\
  (exists q a, In (q, a) l /\ action q "is_vlan_tag_available" /\ values "node" q = [fst (fst e)] /\
     values "interface" q = [snd (fst e)] /\ values "vlan" q = [snd e] /\ tells a v).
