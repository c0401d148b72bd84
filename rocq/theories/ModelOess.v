(** Model of /repo/opennsa/backends/oess.py: links as circuits of an OESS
    controller, which is asked over HTTP.

    An answer is given as the decoded JSON value, or as an exception: a failed
    request is turned into None (oess.py:56), which [json.loads] does not take.
    Simplifications: floats never equal 1; the text of a list or an object in a
    query is left out. *)
From Verif Require Import Base ModelLabel ModelRest ModelDrivers.
Open Scope Z_scope.

(** ** Decoded JSON *)
(** [x == 1]; oess.py:90, 112.  A float is not 1 here, as the model keeps only
    whether it is zero. *)
Definition j_is_one (j : json) : bool := match j with JInt z => z =? 1 | JBool b => b | _ => false end.
(** [x == 0]; oess.py:114 *)
Definition j_is_zero (j : json) : bool := match j with JInt z => z =? 0 | JBool b => negb b | JFloat _ zero => zero | _ => false end.
(** [x == s] for a text; oess.py:70-81, 125, 136 *)
Definition j_is (s : string) (j : json) : bool := match j with JStr t => eqb t s | _ => false end.
(** [x[n]] for a number: a text has letters there, none of which can be looked
    into, and an object has no key that is a number; oess.py:70-81, 112, 336 *)
Definition j_at (n : nat) (j : json) : result json :=
  match j with
  | JList l => match nth_error l n with Some x => Ok x | None => Err EIndex end
  | JStr s => match String.get n s with Some c => Ok (JStr (String c "")) | None => Err EIndex end
  | JObj _ => Err EKey
  | _ => Err EType
  end.
(** [for x in j]; oess.py:69, 102, 124, 135 *)
Definition j_items (j : json) : result (list json) :=
  match j with
  | JList l => Ok l
  | JObj l => Ok (map (fun f => JStr (fst f)) l)
  | JStr s => Ok (map (fun c => JStr (String c "")) (list_ascii_of_string s))
  | _ => Err EType
  end.
(** ['%s' % x], [str(x)]; oess.py:151, 173, 203, 212, 328 *)
Definition j_text (j : json) : string :=
  match j with
  | JNull => "None" | JBool true => "True" | JBool false => "False" | JInt z => py_str z | JFloat t _ => t | JStr s => s
  | JList _ | JObj _ => ""
  end.

(** ** Reading answers *)
(** [oess_get_port_vlan]; oess.py:141-144 *)
Definition port_vlan_of (t : string) : result (string * string * string) :=
  match split_on ":" t with
  | [sw; iv] => match split_on "#" iv with [i; v] => Ok (sw, i, v) | _ => Err EValue end
  | _ => Err EValue
  end.

(** [circuit["endpoints"][n][key]]; oess.py:70-81 *)
Definition endpoint (n : nat) (key : string) (c : json) : result json :=
  do! es <- jget "endpoints" c; do! e <- j_at n es; jget key e.
(** The three inner tests: the second node and both interfaces; oess.py:71-74, 77-80 *)
Definition rest_matches (c : json) (node1 int0 int1 : string) : result bool :=
  do! n1 <- endpoint 1 "node" c;
  if negb (j_is node1 n1) then Ok false else
  do! i0 <- endpoint 0 "interface" c;
  if negb (j_is int0 i0) then Ok false else
  do! i1 <- endpoint 1 "interface" c; Ok (j_is int1 i1).
(** The tests on one circuit; oess.py:70-81 *)
Definition circuit_matches (c : json) (s_sw s_int d_sw d_int : string) : result bool :=
  do! n0 <- endpoint 0 "node" c;
  if j_is s_sw n0 then rest_matches c d_sw s_int d_int
  else if j_is d_sw n0 then rest_matches c s_sw d_int s_int
  else Ok false.
(** The loop; 0 if no circuit is found; oess.py:69-85 *)
Fixpoint find_circuit (cs : list json) (s_sw s_int d_sw d_int : string) : result json :=
  match cs with
  | [] => Ok (JInt 0)
  | c :: r => do! m <- circuit_matches c s_sw s_int d_sw d_int;
              if m then jget "circuit_id" c else find_circuit r s_sw s_int d_sw d_int
  end.
(** [oess_get_circuit_id]; oess.py:65-85 *)
Definition get_circuit_id (answer : result json) (src dst : string) : result json :=
  do! (s_sw, s_int, s_vlan) <- port_vlan_of src;
  do! (d_sw, d_int, d_vlan) <- port_vlan_of dst;
  do! j <- answer; do! rs <- jget "results" j; do! cs <- j_items rs;
  find_circuit cs s_sw s_int d_sw d_int.

(** [oess_process_result]: [None] when the answer has another success than 1;
    oess.py:87-93.  Every exception becomes an Exception, here left as it is. *)
Definition process_result (answer : result json) : result (option json) :=
  do! j <- answer; do! r <- jget "results" j; do! s <- jget "success" r;
  if j_is_one s then do! c <- jget "circuit_id" r; Ok (Some c) else Ok None.
(** [oess_process_path]; oess.py:96-104 *)
Definition process_path (answer : result json) : result (list json) :=
  do! j <- answer; do! r <- jget "results" j; do! ls <- j_items r; mapM (jget "link") ls.
(** [oess_confirm_vlan_availability]; oess.py:107-116 *)
Definition confirm_vlan (answer : result json) : result unit :=
  do! j <- answer; do! r <- jget "results" j; do! x <- j_at 0 r; do! a <- jget "available" x;
  if j_is_one a then Ok tt else if j_is_zero a then Ok tt else Err EValue.
(** The search for an entry with a name; oess.py:124-126, 135-137 *)
Fixpoint named (name : string) (l : list json) : result (option json) :=
  match l with
  | [] => Ok None
  | x :: r => do! n <- jget "name" x; if j_is name n then Ok (Some x) else named name r
  end.
(** [oess_validate_ports]; oess.py:119-127 *)
Definition validate_ports (answer : result json) (intf : string) : result unit :=
  do! j <- answer; do! r <- jget "results" j; do! l <- j_items r;
  do! x <- named intf l; match x with Some _ => Ok tt | None => Err EValue end.
(** [oess_get_workgroup_id]; oess.py:130-138 *)
Definition workgroup_of (answer : result json) (group : string) : result json :=
  do! j <- answer; do! r <- jget "results" j; do! l <- j_items r;
  do! x <- named group l; match x with Some x => jget "workgroup_id" x | None => Err EValue end.

(** ** Queries *)
(** [oess_get_workgroups]; oess.py:193-197 *)
Definition q_workgroups : string := "services/data.cgi?action=get_workgroups".
(** [oess_get_switch_ports]; oess.py:186-190 *)
Definition q_ports (node : string) : string :=
  "services/data.cgi?action=get_node_interfaces&node=" +++ node +++ "&show_down=1&show_trunk=1".
(** [oess_query_vlan_availability]; oess.py:178-183 *)
Definition q_vlan (sw intf vlan : string) : string :=
  "services/data.cgi?action=is_vlan_tag_available" +++ "&node=" +++ sw +++ "&interface=" +++ intf +++ "&vlan=" +++ vlan.
(** [oess_get_path]; oess.py:167-175 *)
Definition q_path (s_sw d_sw : string) (primary : list json) : string :=
  "services/data.cgi?action=" +++ "get_shortest_path&node=" +++ s_sw +++ "&node=" +++ d_sw
  +++ fold_right (fun l t => "&link=" +++ j_text l +++ t) "" primary.
(** ["&link=" + link] takes texts only; oess.py:155-159 *)
Fixpoint link_fields (key : string) (ls : list json) : result string :=
  match ls with
  | [] => Ok ""
  | JStr l :: r => do! t <- link_fields key r; Ok (key +++ l +++ t)
  | _ :: _ => Err EType
  end.
(** [oess_provision_circuit]; oess.py:147-164 *)
Definition q_provision (wg : json) (s_sw s_int s_vlan d_sw d_int d_vlan : string) (primary backup : list json) : result string :=
  do! p <- link_fields "&link=" primary;
  do! b <- link_fields "&backup_link=" backup;
  Ok ("services/provisioning.cgi?" +++ "action=provision_circuit&workgroup_id=" +++ j_text wg
      +++ "&node=" +++ s_sw +++ "&interface=" +++ s_int +++ "&tag=" +++ s_vlan
      +++ "&node=" +++ d_sw +++ "&interface=" +++ d_int +++ "&tag=" +++ d_vlan
      +++ p +++ b +++ "&provision_time=-1&remove_time=-1" +++ "&description=NSI-VLAN-" +++ s_vlan +++ "-" +++ d_vlan).
(** [oess_get_circuits]; oess.py:200-205 *)
Definition q_circuits (wg : json) : string :=
  "services/data.cgi?" +++ "action=get_existing_circuits&workgroup_id=" +++ j_text wg.
(** [oess_cancel_circuit]; oess.py:208-215 *)
Definition q_remove (wg : json) (circuit : string) : string :=
  "services/provisioning.cgi?action=" +++ "remove_circuit&remove_time=-1" +++ "&workgroup_id=" +++ j_text wg +++ "&circuit_id=" +++ circuit.

(** ** Conversations *)
(** A conversation: it ends, sets [self.workgroup_id] (252), or asks the controller
    and goes on with the answer.  The text of a query may depend on
    [self.workgroup_id] as it is then, which all conversations share (JNull stands
    for None, 237); oess.py:229-350 *)
Inductive talk :=
| TEnd (r : result unit)
| TSet (wg : json) (go : talk)
| TAsk (query : json -> result string) (go : result json -> talk).

(** [try ... except]: an exception ends the conversation; oess.py:309-311 *)
Definition t_do {A} (r : result A) (k : A -> talk) : talk := match r with Ok a => k a | Err e => TEnd (Err e) end.
(** [yield] of a query whose text does not depend on the state; oess.py:248 *)
Definition t_ask (q : string) (k : result json -> talk) : talk := TAsk (fun _ => Ok q) k.

(** [oess_provisioning]; oess.py:242-311.  The result of line 304 is only kept in
    [self.circuit_id], which nothing reads. *)
Definition provisioning (group src dst : string) : talk :=
  t_ask q_workgroups (fun a => t_do (workgroup_of a group) (fun wg => TSet wg (
  t_do (port_vlan_of src) (fun '(s_sw, s_int, s_vlan) =>
  t_ask (q_ports s_sw) (fun a => t_do (validate_ports a s_int) (fun _ =>
  t_ask (q_vlan s_sw s_int s_vlan) (fun a => t_do (confirm_vlan a) (fun _ =>
  t_do (port_vlan_of dst) (fun '(d_sw, d_int, d_vlan) =>
  t_ask (q_ports d_sw) (fun a => t_do (validate_ports a d_int) (fun _ =>
  t_ask (q_vlan d_sw d_int d_vlan) (fun a => t_do (confirm_vlan a) (fun _ =>
  t_ask (q_path s_sw d_sw []) (fun a => t_do (process_path a) (fun primary =>
  t_ask (q_path s_sw d_sw primary) (fun a => t_do (process_path a) (fun backup =>
  TAsk (fun wg => q_provision wg s_sw s_int s_vlan d_sw d_int d_vlan primary backup) (fun a =>
  t_do (process_result a) (fun _ => TEnd (Ok tt)))))))))))))))))))).

(** [oess_circuit_removal]; oess.py:314-344 *)
Definition removal (src dst : string) : talk :=
  TAsk (fun wg => Ok (q_circuits wg)) (fun a => t_do (get_circuit_id a src dst) (fun cid =>
  if negb (jtrue cid) then TEnd (Ok tt) else
  TAsk (fun wg => Ok (q_remove wg (j_text cid))) (fun a =>
  t_do (do! j <- a; do! r <- jget "results" j; do! x <- j_at 0 r; jget "success" x) (fun _ => TEnd (Ok tt))))).

(** ** The connection manager *)
(** [getResource]; without a label the attribute access of the log message fails;
    oess.py:366-373.  The test of line 370 lets every label through. *)
Definition oe_resource (port : string) (l : option label) : result string :=
  match l with None => Err EAttribute | Some l => Ok (port +++ ":" +++ label_value l) end.
(** [getTarget]; oess.py:375-382 *)
Definition oe_target (pm : list (string * string)) (port : string) (l : option label) : result string :=
  match l with
  | None => Err EAssertion
  | Some l =>
      if negb (eqb (ltype l) "vlan") then Err EAssertion else
      do! v <- int_of (label_value l);
      if (1 <=? v) && (v <=? 4094) then do! i <- port_of pm port; Ok (i +++ "#" +++ py_str v) else Err EAssertion
  end.
(** getTarget of both ends, then setupLink; oess.py:346-347, 390-400, genericbackend.py:654-658 *)
Definition oe_setup (pm : list (string * string)) (group sp : string) (sl : option label) (dp : string) (dl : option label) : result talk :=
  do! s <- oe_target pm sp sl; do! d <- oe_target pm dp dl; Ok (provisioning group s d).
(** getTarget of both ends, then teardownLink; oess.py:349-350, 402-413, genericbackend.py:704-708 *)
Definition oe_teardown (pm : list (string * string)) (sp : string) (sl : option label) (dp : string) (dl : option label) : result talk :=
  do! s <- oe_target pm sp sl; do! d <- oe_target pm dp dl; Ok (removal s d).

(** How far a conversation is when it gives way to others: at its end, or waiting
    for an answer; [defer.inlineCallbacks], oess.py:242, 314 *)
Inductive phase := Ended (r : result unit) | Waiting (query : string) (go : result json -> talk).
(** Running on until then, with [self.workgroup_id]; a query that cannot be made
    is an exception; oess.py:163, 311 *)
Fixpoint settle (wg : json) (t : talk) : json * phase :=
  match t with
  | TEnd r => (wg, Ended r)
  | TSet j k => settle j k
  | TAsk f go => (wg, match f wg with Ok q => Waiting q go | Err e => Ended (Err e) end)
  end.
