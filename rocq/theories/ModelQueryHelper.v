(** Recursive query results on the wire: protocols/nsi2/queryhelper.py and the
    binding classes it uses (bindings/nsiconnection.py, bindings/p2pservices.py).
    The Python binding objects between the two steps (native values to binding
    objects, binding objects to XML, and back) are not kept apart: an encoder
    here is the composition of the two, and so is a decoder. *)
From Verif Require Import Base ModelXml ModelLabel ModelSTP ModelTime.
Open Scope Z_scope.

(** nsa.py Point2PointService, the fields the query encoding carries
    (nsa.py:374-392; [ero] and [parameters] are dropped by queryhelper.py:25) *)
Record p2p := mkP2P { p_src : stp; p_dst : stp; p_cap : Z; p_dir : string; p_sym : option bool }.
(** nsa.py:357-367 *)
Record sched := mkSched { sc_start : option dt; sc_end : option dt }.
(** the states tuple (queryhelper.py:33-36): reservation, provision and
    lifecycle state, and data plane active, version, consistent *)
Record cstates := mkCS { cs_r : string; cs_p : string; cs_l : string; cs_act : bool; cs_ver : Z; cs_cons : bool }.
(** nsa.py:322-338 [ConnectionInfo] and nsa.py:341-357 [Criteria, QueryCriteria]; a
    service definition that is not a point-to-point service is [None]. *)
Inductive cinfo := CI (cid : string) (gid desc : option string) (stype : string) (crits : list crit)
                      (prov : string) (req : option string) (sts : cstates) (nid rid : option Z)
with crit := QC (rev : Z) (sc : sched) (sd : option p2p) (kids : list cinfo).

(** p2pservices.py:82-84 *)
Definition P2PS : string := "{http://schemas.ogf.org/nsi/2013/12/services/point2point}p2ps".
(** p2pservices.py:86 *)
Definition P2P_PARAMETER : string := "{http://schemas.ogf.org/nsi/2013/12/services/point2point}parameter".
(** constants.py:26 *)
Definition EVTS_AGOLE : string := "http://services.ogf.org/nsi/2013/07/descriptions/EVTS.A-GOLE".

(** * Encoding, nsiconnection.py and p2pservices.py:70 *)
Definition bool_text (b : bool) : string := if b then "true" else "false".
(** queryhelper.py:71-73 and nsiconnection.py:489-495 *)
Definition opt_time (o : option dt) : result (option string) :=
  match o with None => Ok None | Some t => do! s <- createXMLTime false t; Ok (Some s) end.
(** nsiconnection.py:490-493, a sub element when the value is not None *)
Definition opt_leaf (tag : string) (o : option string) : list element :=
  match o with None => [] | Some s => [leaf tag (Some s)] end.
(** nsiconnection.py:488-494 [ScheduleType.xml] *)
Definition sched_xml (s : sched) : result element :=
  do! a <- opt_time (sc_start s);
  do! b <- opt_time (sc_end s);
  Ok (Elem "schedule" [] None (opt_leaf "startTime" a ++ opt_leaf "endTime" b)).
(** queryhelper.py:22-30 and p2pservices.py:70-87; without a service definition
    nsiconnection.py:747 calls [None.xml] *)
Definition sd_xml (o : option p2p) : result element :=
  match o with
  | None => Err EAttribute
  | Some p => Ok (Elem P2PS [] None
      ([leaf "capacity" (Some (py_str (p_cap p))); leaf "directionality" (Some (p_dir p))] ++
       opt_leaf "symmetricPath" (option_map bool_text (p_sym p)) ++
       [leaf "sourceSTP" (Some (urn (p_src p))); leaf "destSTP" (Some (urn (p_dst p)))]))
  end.
(** queryhelper.py:33-37 and nsiconnection.py:131-137, 22-27 *)
Definition states_xml (s : cstates) : element :=
  Elem "connectionStates" [] None
    [leaf "reservationState" (Some (cs_r s)); leaf "provisionState" (Some (cs_p s)); leaf "lifecycleState" (Some (cs_l s));
     Elem "dataPlaneStatus" [] None
       [leaf "active" (Some (bool_text (cs_act s))); leaf "version" (Some (py_str (cs_ver s)));
        leaf "versionConsistent" (Some (bool_text (cs_cons s)))]].
(** queryhelper.py:67-93 and nsiconnection.py:740-748, 790-797 *)
Fixpoint crit_xml (c : crit) : result element :=
  let 'QC rev sc sd kids := c in
  do! se <- sched_xml sc;
  do! cs <- (fix go (idx : Z) (l : list cinfo) : result (list element) :=
               match l with
               | [] => Ok []
               | k :: r => do! x <- child_xml idx k; do! xs <- go (idx + 1) r; Ok (x :: xs)
               end) 0 kids;
  do! de <- sd_xml sd;
  Ok (Elem "criteria" [("version", py_str rev)] None
        [se; leaf "serviceType" (Some P2PS); Elem "children" [] None cs; de])
with child_xml (idx : Z) (c : cinfo) : result element :=
  let 'CI cid _ _ _ crits prov _ sts _ _ := c in
  do! xs <- (fix go (l : list crit) : result (list element) :=
               match l with
               | [] => Ok []
               | k :: r => do! x <- crit_xml k; do! xs <- go r; Ok (x :: xs)
               end) crits;
  Ok (Elem "child" [("order", py_str idx)] None
        ([leaf "connectionId" (Some cid); leaf "providerNSA" (Some prov); states_xml sts] ++ xs)).
(** queryhelper.py:96-107 and nsiconnection.py:198-215: one reservation;
    [str(None)] for a missing requester *)
Definition result_xml (c : cinfo) : result element :=
  let 'CI cid gid desc _ crits _ req sts nid rid := c in
  do! xs <- mapM crit_xml crits;
  Ok (Elem "reservation" [] None
        ([leaf "connectionId" (Some cid)] ++ opt_leaf "globalReservationId" gid ++ opt_leaf "description" desc ++ xs ++
         [leaf "requesterNSA" (Some (py_str_opt req)); states_xml sts] ++
         opt_leaf "notificationId" (option_map py_str nid) ++ opt_leaf "resultId" (option_map py_str rid))).
(** queryhelper.py:64-107 and nsiconnection.py:244-248 *)
Definition recursive_xml (l : list cinfo) : result element :=
  do! xs <- mapM result_xml l; Ok (Elem "queryRecursiveConfirmed" [] None xs).

(** * Decoding *)
(** [int(text)] of an element's text or attribute; [int(None)] is a TypeError; queryhelper.py:157, p2pservices.py:56 *)
Definition int_opt (o : option string) : result Z :=
  match o with None => Err EType | Some s => match py_int s with Some z => Ok z | None => Err EValue end end.
(** [find(tag)] used as an object: AttributeError on [None]; queryhelper.py:112, 136-137, nsiconnection.py *)
Definition need (o : option element) : result element := match o with Some e => Ok e | None => Err EAttribute end.
(** nsiconnection.py, [findtext] of an element that is only kept as text; nsiconnection.py:56-57 *)
Definition text_or_none (o : option string) : string := match o with Some s => s | None => "" end.
(** nsiconnection.py:13-20, 121-129 and queryhelper.py:135-140 *)
Definition states_build (e : element) : result cstates :=
  do! d <- need (find1 "dataPlaneStatus" e);
  do! v <- int_opt (findtext "version" d);
  Ok (mkCS (text_or_none (findtext "reservationState" e)) (text_or_none (findtext "provisionState" e))
           (text_or_none (findtext "lifecycleState" e))
           (opt_eqb (findtext "active" d) (Some "true")) v (opt_eqb (findtext "versionConsistent" d) (Some "true"))).
(** nsiconnection.py:481-487 and queryhelper.py:112-116 *)
Definition opt_parse (o : option string) : result (option dt) :=
  match o with None => Ok None | Some s => do! t <- parseXMLTimestamp s; Ok (Some t) end.
(** nsiconnection.py:481-486 with queryhelper.py:110-114 *)
Definition sched_build (e : element) : result sched :=
  do! a <- opt_parse (findtext "startTime" e);
  do! b <- opt_parse (findtext "endTime" e);
  Ok (mkSched a b).
(** p2pservices.py:53-63, 95-106 and queryhelper.py:119-132.  A [parameter]
    element as service definition is decoded to another type, for which
    queryhelper.py:131-132 gives None. *)
Definition sd_build (e : element) : result (option p2p) :=
  if eqb (e_tag e) P2PS then
    do! cap <- int_opt (findtext "capacity" e);
    do! src <- create_stp (text_or_none (findtext "sourceSTP" e));
    do! dst <- create_stp (text_or_none (findtext "destSTP" e));
    match findtext "directionality" e with
    | None => Err EMissingParameter
    | Some dir => Ok (Some (mkP2P src dst cap dir
                  (match findtext "symmetricPath" e with None => None | Some s => Some (eqb s "true") end)))
    end
  else if eqb (e_tag e) P2P_PARAMETER then Ok None else Err EValue.

(** Python's [sorted(l, key=...)]: stable, by the text of the order attribute
    (queryhelper.py:149; nsiconnection.py:783 leaves it a text). *)
Fixpoint insert_sorted {A} (x : string * A) (l : list (string * A)) : list (string * A) :=
  match l with
  | [] => [x]
  | y :: r => if String.ltb (fst y) (fst x) || String.eqb (fst y) (fst x) then y :: insert_sorted x r else x :: l
  end.
(** queryhelper.py:149, [sorted(children, key=order)], the order being a text *)
Definition sorted_by_text {A} (l : list (string * A)) : list (string * A) := fold_left (fun acc x => insert_sorted x acc) l [].

(** What an element is, read as criteria, as child, and as list of children.
    nsiconnection.py:728-738, 780-788 and queryhelper.py:143-158.  Python decodes
    top down; the model decodes every element in all three ways, bottom up, so
    that the recursion is structural, and uses the ones Python asks for. *)
Record decoded := mkDec { d_crit : result (string * crit); d_child : result (string * cinfo); d_list : result (list (string * cinfo)) }.
(** nsiconnection.py:720-746, the elements of a criteria that are not the service definition *)
Definition is_crit_part (t : string) : bool := mem t ["schedule"; "serviceType"; "children"].
(** the criteria (with its serviceType), the child (with its order); queryhelper.py:142-158 *)
Definition crit_of (e : element) (kids : list (element * decoded)) : result (string * crit) :=
  do! sds <- mapM (fun k => sd_build (fst k)) (filter (fun k => negb (is_crit_part (e_tag (fst k)))) kids);
  do! se <- need (find1 "schedule" e);
  do! cs <- match find (fun k => eqb (e_tag (fst k)) "children") kids with
            | None => Err EType      (* queryhelper.py:149: sorted(None) *)
            | Some k => d_list (snd k)
            end;
  do! sd <- match sds with [] => Err EIndex | x :: _ => Ok x end;
  do! sc <- sched_build se;
  do! rev <- int_opt (e_get "version" e);
  Ok (text_or_none (findtext "serviceType" e), QC rev sc sd (map snd (sorted_by_text cs))).
(** queryhelper.py:149-155, one child *)
Definition child_of (e : element) (kids : list (element * decoded)) : result (string * cinfo) :=
  do! st <- need (find1 "connectionStates" e);
  do! sts <- states_build st;
  do! crs <- mapM (fun k => d_crit (snd k)) (filter (fun k => eqb (e_tag (fst k)) "criteria") kids);
  match crs with
  | [] => Err EType                  (* queryhelper.py:151: None[0] *)
  | (ty, _) :: _ =>
      match e_get "order" e with
      | None => Err EType
      | Some o => Ok (o, CI (text_or_none (findtext "connectionId" e)) None None ty (map snd crs)
                            (text_or_none (findtext "providerNSA" e)) None sts None None)
      end
  end.
(** queryhelper.py:142-158, an element and everything below it *)
Fixpoint decode (e : element) : decoded :=
  let kids := map (fun k => (k, decode k)) (e_kids e) in
  mkDec (crit_of e kids) (child_of e kids) (mapM (fun k => d_child (snd k)) kids).

(** nsiconnection.py:624-635, 240-243 and queryhelper.py:162-174, requesterservice.py:160 *)
Definition opt_int (o : option string) : result (option Z) :=
  match o with None => Ok None | Some s => do! z <- int_opt (Some s); Ok (Some z) end.
(** queryhelper.py:162-174 [buildQueryResult] without children *)
Definition result_build (provider : string) (e : element) : result cinfo :=
  do! crs <- mapM (fun k => d_crit (decode k)) (findall "criteria" e);
  do! st <- need (find1 "connectionStates" e);
  do! sts <- states_build st;
  do! nid <- opt_int (findtext "notificationId" e);
  do! rid <- opt_int (findtext "resultId" e);
  Ok (CI (text_or_none (findtext "connectionId" e)) (findtext "globalReservationId" e) (findtext "description" e)
         EVTS_AGOLE (map snd crs) provider (findtext "requesterNSA" e) sts nid rid).
(** queryhelper.py:162-174 [buildQueryResult] with children *)
Definition recursive_build (provider : string) (e : element) : result (list cinfo) :=
  mapM (result_build provider) (findall "reservation" e).
