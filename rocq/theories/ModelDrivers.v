(** Model of the connection managers that drive Ethernet switches,
    /repo/opennsa/backends: brocade.py, force10.py, juniperex.py, pica8ovs.py
    and the resource names of dud.py.  Everything up to the texts of the
    commands handed to the SSH channel is modelled; the conversation over the
    channel is in ModelChannel.v, and what a device does with a command is in
    SpecDrivers.v. *)
From Verif Require Import Base ModelLabel.
Open Scope Z_scope.

(** What genericbackend.py uses of a connection manager when it provides a link:
    the name of the resource a port and label stand for (genericbackend.py:288,
    299, 325-326), and the commands that set up and tear down the link between
    two ports and labels, by way of [getTarget] (genericbackend.py:654-655, 704-705) and
    [setupLink], [teardownLink] (genericbackend.py:658, 708).  The first text is
    the connection id.  Simplification: the bandwidth is left out, since no
    connection manager modelled here uses it for its commands. *)
Record driver (C : Type) := mkDriver {
  dr_resource : string -> option label -> result string;
  dr_setup : string -> string -> option label -> string -> option label -> result (list C);
  dr_teardown : string -> string -> option label -> string -> option label -> result (list C) }.
Arguments mkDriver {C}. Arguments dr_resource {C}. Arguments dr_setup {C}. Arguments dr_teardown {C}.

(** [port_map[port]], KeyError for a port that is not there; brocade.py:219 *)
Definition port_of (pm : list (string * string)) (port : string) : result string :=
  match aget port pm with Some i => Ok i | None => Err EKey end.

(** [int(s)] of a text; brocade.py:49, juniperex.py:242 *)
Definition int_of (s : string) : result Z := match py_int s with Some v => Ok v | None => Err EValue end.

(** The name given to a VLAN, ['opennsa-%i']; juniperex.py:37, brocade.py:65 *)
Definition vlan_name (v : Z) : string := "opennsa-" +++ py_str v.

(** * juniperex.py *)

(** juniperex.py:37, 49-51 *)
Definition ex_set_vlan (v : Z) : string := "set vlans " +++ vlan_name v +++ " vlan-id " +++ py_str v.
(** juniperex.py:38, 52-53 *)
Definition ex_set_interface (p : string) (v : Z) : string :=
  "set interfaces " +++ p +++ " unit 0 family ethernet-switching vlan members " +++ vlan_name v.
(** juniperex.py:40, 63 *)
Definition ex_delete_vlan (v : Z) : string := "delete vlans " +++ vlan_name v.
(** juniperex.py:41, 61-62 *)
Definition ex_delete_interface (p : string) (v : Z) : string :=
  "delete interfaces " +++ p +++ " unit 0 family ethernet-switching vlan members " +++ vlan_name v.

(** juniperex.py:49-56 [createConfigureCommands] *)
Definition ex_configure (src dst : string) (v : Z) : list string :=
  [ex_set_vlan v; ex_set_interface src v; ex_set_interface dst v].
(** juniperex.py:59-66 [createDeleteCommands] *)
Definition ex_delete (src dst : string) (v : Z) : list string :=
  [ex_delete_interface src v; ex_delete_interface dst v; ex_delete_vlan v].

(** juniperex.py:234-236 [getResource]; without a label the attribute access of
    line 236 fails *)
Definition ex_resource (port : string) (l : option label) : result string :=
  match l with
  | None => Err EAttribute
  | Some l => if eqb (ltype l) "vlan" then Ok (label_value l) else Err EAssertion
  end.

(** juniperex.py:239-245 [getTarget], the interface and the VLAN *)
Definition ex_target (pm : list (string * string)) (port : string) (l : option label) : result (string * Z) :=
  match l with
  | None => Err EAttribute
  | Some l =>
      if eqb (ltype l) "vlan" then
        do! v <- int_of (label_value l);
        if (1 <=? v) && (v <=? 4095) then do! i <- port_of pm port; Ok (i, v) else Err EAssertion
      else Err EAssertion
  end.

(** juniperex.py:256-265 [setupLink] and 197-200 *)
Definition ex_setup (src dst : string * Z) : result (list string) :=
  if eqb (snd src) (snd dst) then Ok (ex_configure (fst src) (fst dst) (snd dst)) else Err EAssertion.
(** juniperex.py:268-277 [teardownLink] and 203-206 *)
Definition ex_teardown (src dst : string * Z) : result (list string) :=
  if eqb (snd src) (snd dst) then Ok (ex_delete (fst src) (fst dst) (snd dst)) else Err EAssertion.

(** getTarget of both ends and then setupLink or teardownLink, as
    genericbackend.py:654-658 and 704-708 do *)
Definition via_targets {T C} (target : string -> option label -> result T) (f : string -> T -> T -> result (list C))
    (cid sp : string) (sl : option label) (dp : string) (dl : option label) : result (list C) :=
  do! s <- target sp sl; do! d <- target dp dl; f cid s d.

(** juniperex.py:226-277 [JuniperEXConnectionManager] *)
Definition juniperex (pm : list (string * string)) : driver string :=
  mkDriver ex_resource (via_targets (ex_target pm) (fun _ => ex_setup)) (via_targets (ex_target pm) (fun _ => ex_teardown)).

(** * brocade.py *)

(** brocade.py:46-50 [_portToInterfaceVLAN]: the text is split at every dot and
    must have exactly two parts *)
Definition port_vlan (t : string) : result (string * Z) :=
  match split_on "." t with
  | [p; v] => do! n <- int_of v; Ok (p, n)
  | _ => Err EValue
  end.

(** brocade.py:53-73 [_createSetupCommands], with the texts of lines 39-41 *)
Definition br_setup (src dst : string) : result (list string) :=
  do! (sp, sv) <- port_vlan src;
  do! (dp, dv) <- port_vlan dst;
  if eqb sv dv then
    Ok ["vlan " +++ py_str sv +++ " name " +++ vlan_name sv; "tagged ethernet " +++ sp; "tagged ethernet " +++ dp]
  else Err EAssertion.
(** brocade.py:76-86 [_createTeardownCommands], with the text of line 43 *)
Definition br_teardown (src dst : string) : result (list string) :=
  do! (sp, sv) <- port_vlan src;
  do! (dp, dv) <- port_vlan dst;
  if eqb sv dv then Ok ["no vlan " +++ py_str sv] else Err EAssertion.

(** brocade.py:212-214 [getResource] *)
Definition br_resource (port : string) (l : option label) : result string :=
  match l with
  | Some l => if eqb (ltype l) "vlan" then Ok (label_value l) else Err EAssertion
  | None => Err EAssertion
  end.
(** brocade.py:217-219 [getTarget] *)
Definition br_target (pm : list (string * string)) (port : string) (l : option label) : result string :=
  match l with
  | Some l => if eqb (ltype l) "vlan" then do! i <- port_of pm port; Ok (i +++ "." +++ label_value l) else Err EAssertion
  | None => Err EAssertion
  end.

(** brocade.py:195-251 [BrocadeConnectionManager] *)
Definition brocade (pm : list (string * string)) : driver string :=
  mkDriver br_resource (via_targets (br_target pm) (fun _ => br_setup)) (via_targets (br_target pm) (fun _ => br_teardown)).

(** * force10.py *)

(** force10.py:87-102 [_createSetupCommands], with the texts of lines 67-74;
    [rsplit('.')] without a count (line 82) splits at every dot as well *)
Definition f10_setup (src dst : string) : result (list string) :=
  do! (sp, sv) <- port_vlan src;
  do! (dp, dv) <- port_vlan dst;
  if eqb sv dv then
    Ok ["interface vlan " +++ py_str sv; "name " +++ vlan_name sv; "tagged " +++ sp; "tagged " +++ dp; "no shutdown"; "end"]
  else Err EAssertion.
(** force10.py:105-115 [_createTeardownCommands], with the text of line 76 *)
Definition f10_teardown (src dst : string) : result (list string) :=
  do! (sp, sv) <- port_vlan src;
  do! (dp, dv) <- port_vlan dst;
  if eqb sv dv then Ok ["no interface vlan " +++ py_str sv; "end"] else Err EAssertion.

(** force10.py:275-277 [getResource]: a label has no attribute [type], its name
    is [type_] (nsa.py:74), so line 276 raises AttributeError for every label
    and AssertionError for none *)
Definition f10_resource (port : string) (l : option label) : result string :=
  match l with Some _ => Err EAttribute | None => Err EAssertion end.
(** force10.py:280-282 [getTarget], the same attribute *)
Definition f10_target (pm : list (string * string)) (port : string) (l : option label) : result string :=
  match l with Some _ => Err EAttribute | None => Err EAssertion end.

(** force10.py:250-314 [Force10ConnectionManager].  Simplification: the
    constructor (lines 252-272) and the call of the factory (setup.py:96 passes four
    arguments to the five of line 318) fail before that; not modelled. *)
Definition force10 (pm : list (string * string)) : driver string :=
  mkDriver f10_resource (via_targets (f10_target pm) (fun _ => f10_setup)) (via_targets (f10_target pm) (fun _ => f10_teardown)).

(** * pica8ovs.py *)

(** pica8ovs.py:206-210 [getResource]: with no label the assertion itself looks
    at [label.type_] and raises AttributeError; with one it never fails, whatever
    the type of the label *)
Definition p8_resource (port : string) (l : option label) : result string :=
  match l with
  | None => Err EAttribute
  | Some l => Ok (port +++ ":" +++ label_value l)
  end.
(** pica8ovs.py:213-218 [getTarget] *)
Definition p8_target (pm : list (string * string)) (port : string) (l : option label) : result (string * Z) :=
  match l with
  | None => Err EAssertion
  | Some l =>
      if eqb (ltype l) "vlan" then
        do! v <- int_of (label_value l);
        if (1 <=? v) && (v <=? 4095) then do! i <- port_of pm port; Ok (i, v) else Err EAssertion
      else Err EAssertion
  end.

(** pica8ovs.py:34, [str(int(port.split('/')[2]) + 128)], the number of a port
    in the flow table *)
Definition flow_port (p : string) : result string :=
  match nth_error (split_on "/" p) 2 with
  | None => Err EIndex
  | Some t => do! n <- int_of t; Ok (py_str (n + 128))
  end.

(** pica8ovs.py:22 *)
Definition p8_add_port (db p : string) (v : Z) : string :=
  "/ovs/bin/ovs-vsctl --db=tcp:" +++ db +++ ":6640 add port " +++ p +++ " trunk " +++ py_str v.
(** pica8ovs.py:23 *)
Definition p8_remove_port (db p : string) (v : Z) : string :=
  "/ovs/bin/ovs-vsctl --db=tcp:" +++ db +++ ":6640 remove port " +++ p +++ " trunk " +++ py_str v.
(** pica8ovs.py:25 *)
Definition p8_add_flow (i : string) (v : Z) (o : string) : string :=
  "/ovs/bin/ovs-ofctl add-flow br0 in_port=" +++ i +++ ",dl_vlan=" +++ py_str v +++ ",actions=output:" +++ o.
(** pica8ovs.py:26; the text has one backslash, for the shell *)
Definition p8_add_flow_swap (i : string) (v w : Z) (o : string) : string :=
  "/ovs/bin/ovs-ofctl add-flow br0 in_port=" +++ i +++ ",dl_vlan=" +++ py_str v +++ ",action=set_field=" +++ py_str w
  +++ "-\>vlan_vid,output:" +++ o.
(** pica8ovs.py:27 *)
Definition p8_delete_flow (i : string) (v : Z) : string :=
  "/ovs/bin/ovs-ofctl del-flows br0 in_port=" +++ i +++ ",dl_vlan=" +++ py_str v.

(** pica8ovs.py:30-44 [createConfigureCommands] *)
Definition p8_configure (db : string) (src dst : string * Z) : result (list string) :=
  do! sf <- flow_port (fst src);
  do! df <- flow_port (fst dst);
  let flows :=
    if eqb (snd src) (snd dst) then [p8_add_flow sf (snd src) df; p8_add_flow df (snd src) sf]
    else [p8_add_flow_swap sf (snd src) (snd dst) df; p8_add_flow_swap df (snd dst) (snd src) sf] in
  Ok ([p8_add_port db (fst src) (snd src); p8_add_port db (fst dst) (snd dst)] ++ flows).
(** pica8ovs.py:47-57 [createDeleteCommands] *)
Definition p8_delete (db : string) (src dst : string * Z) : result (list string) :=
  do! sf <- flow_port (fst src);
  do! df <- flow_port (fst dst);
  Ok [p8_delete_flow sf (snd src); p8_delete_flow df (snd dst);
      p8_remove_port db (fst src) (snd src); p8_remove_port db (fst dst) (snd dst)].

(** pica8ovs.py:198-246 [Pica8OVSConnectionManager], and 169-178 *)
Definition pica8 (db : string) (pm : list (string * string)) : driver string :=
  mkDriver p8_resource (via_targets (p8_target pm) (fun _ => p8_configure db)) (via_targets (p8_target pm) (fun _ => p8_delete db)).

(** * dud.py *)

(** dud.py:37-39 [getResource] *)
Definition dud_resource (pm : list (string * string)) (port : string) (l : option label) : result string :=
  do! i <- port_of pm port; Ok (i +++ ":" +++ match l with None => "" | Some l => label_value l end).
(** dud.py:42-44 [getTarget] *)
Definition dud_target (pm : list (string * string)) (port : string) (l : option label) : result string :=
  do! i <- port_of pm port; Ok (i +++ "#" +++ match l with None => "" | Some l => label_value l end).
