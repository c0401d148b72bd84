(** A model of the part of xml.etree.ElementTree the protocol bindings use:
    elements with attributes, text and children.  External library code; the
    definitions state its documented behaviour. *)
From Verif Require Import Base.

(** xml.etree.ElementTree, used by nsiframework.py, nsiconnection.py, p2pservices.py, nmlxml.py;
    e.g. minisoap.py:8 *)
Inductive element := Elem (tag : string) (attrs : list (string * string)) (text : option string) (kids : list element).
(** xml.etree.ElementTree, [element.tag]; nsiframework.py:18-49, nmlxml.py:129-211 *)
Definition e_tag (e : element) := let 'Elem t _ _ _ := e in t.
(** xml.etree.ElementTree, [element.attrib]; nsiframework.py:18-49, nmlxml.py:129-211 *)
Definition e_attrs (e : element) := let 'Elem _ a _ _ := e in a.
(** xml.etree.ElementTree, [element.text]; nsiframework.py:18-49, nmlxml.py:129-211 *)
Definition e_text (e : element) := let 'Elem _ _ x _ := e in x.
(** xml.etree.ElementTree, [list(element)]; nsiframework.py:18-49, nmlxml.py:129-211 *)
Definition e_kids (e : element) := let 'Elem _ _ _ k := e in k.

(** [element.findall(tag)], direct children; nsiframework.py:18-32, nsiconnection.py *)
Definition findall (tag : string) (e : element) : list element := filter (fun k => eqb (e_tag k) tag) (e_kids e).
(** [element.find(tag)]; nsiframework.py:18-32, nsiconnection.py *)
Definition find1 (tag : string) (e : element) : option element :=
  match findall tag e with [] => None | k :: _ => Some k end.
(** [element.findtext(tag)]: [None] without such a child, the empty string for
    a child without text; nsiframework.py:18-32, nsiconnection.py *)
Definition findtext (tag : string) (e : element) : option string :=
  match find1 tag e with
  | None => None
  | Some k => Some (match e_text k with Some s => s | None => "" end)
  end.
(** [element.get(name)]; p2pservices.py:15, nsiframework.py:61 *)
Definition e_get (name : string) (e : element) : option string := aget name (e_attrs e).

(** Serialising and parsing again, /repo/opennsa/protocols/shared/minisoap.py:57-72
    and 105-124: an element with empty text comes back with text [None].
    Simplifications: the white space that [_indent] (minisoap.py:30-43) puts
    into elements with children is left out (no decoder reads the text of such
    an element); characters XML cannot carry (control characters, lone carriage
    returns) are not modelled. *)
Fixpoint wire (e : element) : element :=
  let 'Elem t a x k := e in
  Elem t a (match x with Some EmptyString => None | _ => x end) (map wire k).

(** [ET.SubElement(r, tag).text = s]; nsiframework.py:36-41 *)
Definition leaf (tag : string) (text : option string) : element := Elem tag [] text [].

(** Python's [a or b] on optional strings: [None] and the empty string are false; helper.py, nsa.py:35, error.py *)
Definition truthy (a : option string) : bool := match a with Some EmptyString | None => false | _ => true end.
(** Python's [a or b] on optional strings, as in nsa.py:35 *)
Definition py_or (a b : option string) : option string := if truthy a then a else b.
(** [str(x)] of an optional string; nsiframework.py:37-41 *)
Definition py_str_opt (a : option string) : string := match a with Some s => s | None => "None" end.
