(** C103: what someone asking for connections gets to see.  Every connection is a block of
    lines below an empty one; what it is made of follows it, two columns further in. *)
From Verif Require Import Base ModelXml ModelSTP ModelTime ModelQueryHelper.
Open Scope Z_scope.

Fixpoint blanks (n : nat) : string := match n with O => "" | S k => " " +++ blanks k end.
(** One line: the name of what it says, and from the fourteenth column on what it says. *)
Definition row (d : nat) (name value : string) : string := blanks (d + d) +++ name +++ blanks (13 - String.length name) +++ value.
Definition word_of (b : bool) (s : string) : Prop := (b = true /\ s = "True") \/ (b = false /\ s = "False").
(** A time: as in the documents, with a blank between the day and the hour. *)
Definition time_says (o : option dt) (s : string) : Prop :=
  (o = None /\ s = "None") \/
  exists t day clock, o = Some t /\ createXMLTime false t = Ok (day +++ "T" +++ clock +++ "Z") /\ String.length day = 10%nat /\ s = day +++ " " +++ clock.
(** What is there only if there is something to say. *)
Inductive perhaps (d : nat) (name : string) : option string -> list string -> Prop :=
| perhaps_some s : s <> "" -> perhaps d name (Some s) [row d name s]
| perhaps_empty : perhaps d name (Some "") []
| perhaps_none : perhaps d name None [].
(** Schedule, bandwidth and direction are shown of the outermost connections only. *)
Inductive service_shown : nat -> option p2p -> list string -> Prop :=
| shown_top src dst cap dir : forall sym more,
    (sym = Some true /\ more = [row 0 "Symmetric" "True"]) \/ (sym <> Some true /\ more = []) ->
    service_shown 0 (Some (mkP2P src dst cap dir sym))
      ([row 0 "Path" (short_name src +++ " -- " +++ short_name dst); row 0 "Bandwidth" (py_str cap); row 0 "Direction" dir] ++ more)
| shown_below d src dst cap dir sym : service_shown (S d) (Some (mkP2P src dst cap dir sym)) [row (S d) "Path" (short_name src +++ " -- " +++ short_name dst)]
| shown_other d : service_shown d None [blanks (d + d) +++ "Unrecognized service definition: None"].
Inductive first_shown : nat -> list crit -> list string -> Prop :=
| shown_nothing d : first_shown d [] []
| shown_first rev sc sd kids others a b ls : time_says (sc_start sc) a -> time_says (sc_end sc) b -> service_shown 0 sd ls ->
    first_shown 0 (QC rev sc sd kids :: others) (row 0 "Start-End" (a +++ " - " +++ b) :: ls)
| shown_inner d rev sc sd kids others ls : service_shown (S d) sd ls -> first_shown (S d) (QC rev sc sd kids :: others) ls.
Inductive block : nat -> cinfo -> list string -> Prop :=
| a_block d cid gid desc ty crits prov req s nid rid g t ls act cons : perhaps d "Global ID" gid g -> perhaps d "Description" desc t -> first_shown d crits ls ->
    word_of (cs_act s) act -> word_of (cs_cons s) cons ->
    block d (CI cid gid desc ty crits prov req s nid rid)
      (["";
        row d "Connection" (cid +++ " (" +++ prov +++ ")")] ++ g ++ t ++
       [row d "States" (cs_r s +++ ", " +++ cs_p s +++ ", " +++ cs_l s);
        row d "Dataplane" ("Active : " +++ act +++ ", Version: " +++ py_str (cs_ver s) +++ ", Consistent " +++ cons)] ++ ls).

(** What a connection is made of, by its first criteria. *)
Inductive made_of : cinfo -> list cinfo -> Prop :=
| made_of_none cid gid desc ty prov req s nid rid : made_of (CI cid gid desc ty [] prov req s nid rid) []
| made_of_first cid gid desc ty rev sc sd kids others prov req s nid rid : made_of (CI cid gid desc ty (QC rev sc sd kids :: others) prov req s nid rid) kids.
(** [below n c x]: [x] is [n] steps below [c]. *)
Inductive below : nat -> cinfo -> cinfo -> Prop :=
| below_self c : below 0 c c
| below_kid n c kids k x : made_of c kids -> In k kids -> below n k x -> below (S n) c x.
(** The connections in the order in which they are read, with how far in they stand. *)
Inductive walk : nat -> list cinfo -> list (nat * cinfo) -> Prop :=
| walk_nil d : walk d [] []
| walk_cons d c kids r a b : made_of c kids -> walk (S d) kids a -> walk d r b -> walk d (c :: r) ((d, c) :: a ++ b).

(** Names that can be told from what follows them. *)
Definition lacks (ch : ascii) (s : string) : Prop := sall (fun x => negb (Ascii.eqb x ch)) s = true.
Definition plain (c : cinfo) : Prop := let 'CI cid _ _ _ _ _ _ s _ _ := c in lacks " " cid /\ lacks "," (cs_r s) /\ lacks "," (cs_p s).
(** The same connection of the same provider in the same states. *)
Definition agree (a b : cinfo) : Prop :=
  let 'CI cid _ _ _ _ prov _ s _ _ := a in let 'CI cid' _ _ _ _ prov' _ s' _ _ := b in cid = cid' /\ prov = prov' /\ s = s'.
