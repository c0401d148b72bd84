(** C98: the header of an NSI message as the NSI documents have it, whoever wrote it.
    Namespaces are abbreviated as in ModelXml. *)
From Coq Require Import Sorted.
From Verif Require Import Base ModelXml.

(** An envelope with one header and a body; attributes and white space are free. *)
Inductive message : element -> list element -> list element -> Prop :=
| is_message a1 t1 a2 t2 a3 t3 a4 t4 kids body :
    message (Elem "{SOAP}Envelope" a1 t1 [Elem "{SOAP}Header" a2 t2 [Elem "{NSI}nsiHeader" a3 t3 kids]; Elem "{SOAP}Body" a4 t4 body]) kids body.

(** The first child of a name. *)
Definition first_kid (tag : string) (kids : list element) (c : element) : Prop :=
  exists pre post, kids = pre ++ c :: post /\ e_tag c = tag /\ forall x, In x pre -> e_tag x <> tag.
(** The text of the first child of a name, if there is one. *)
Definition field (tag : string) (kids : list element) (v : option string) : Prop :=
  match v with
  | Some s => exists c, first_kid tag kids c /\ (e_text c = Some s \/ (s = "" /\ e_text c = None))
  | None => forall c, In c kids -> e_tag c <> tag
  end.

(** The security attributes in a header. *)
Definition attribute_in (kids : list element) (a : element) : Prop :=
  exists s, In s kids /\ e_tag s = "sessionSecurityAttr" /\ In a (e_kids s) /\ e_tag a = "{SAML}Attribute".
Definition attribute_says (kids : list element) (name value : string) : Prop :=
  exists a w, attribute_in kids a /\ In ("Name", name) (e_attrs a) /\ In w (e_kids a) /\ e_text w = Some value.
(** No name occurs twice among the attributes of an element. *)
Definition attrs_once (e : element) : Prop := NoDup (map fst (e_attrs e)).
Definition attributes_sound (kids : list element) : Prop :=
  forall a, attribute_in kids a -> attrs_once a /\ (exists n, In ("Name", n) (e_attrs a)) /\ e_kids a <> [].

(** The trace: the connections in the order of their indices. *)
Definition hop (t : element) (c : element) : Prop := In c (e_kids t) /\ e_tag c = "Connection".
Definition hop_says (t : element) (i : Z) (v : option string) : Prop := exists c, hop t c /\ In ("index", py_str i) (e_attrs c) /\ e_text c = v.
Definition trace_sound (t : element) : Prop := forall c, hop t c -> attrs_once c /\ exists i, In ("index", py_str i) (e_attrs c).
Definition trace_is (kids : list element) (tr : option (list (option string))) : Prop :=
  match tr with
  | None => forall c, In c kids -> e_tag c <> "{GNS}ConnectionTrace"
  | Some l => exists t ps, first_kid "{GNS}ConnectionTrace" kids t /\ StronglySorted (fun a b => (fst a <= fst b)%Z) ps /\
      (forall i v, In (i, v) ps <-> hop_says t i v) /\ l = map snd ps
  end.

(** What is to be written for a header: attributes of one type together, in the order in
    which the types first occur. *)
Inductive grouped : list (string * string) -> list (string * list string) -> Prop :=
| grouped_nil : grouped [] []
| grouped_cons t v l g : grouped (filter (fun x => negb (eqb (fst x) t)) l) g ->
    grouped ((t, v) :: l) ((t, v :: map snd (filter (fun x => eqb (fst x) t) l)) :: g).
