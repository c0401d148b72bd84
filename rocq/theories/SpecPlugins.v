(** What pruning a path should achieve, independently of the code. *)
From Verif Require Import Base SpecLabel ModelLabel ModelSTP ModelPlugins.
Open Scope Z_scope.

(** the link's network carries one of the listed names *)
Definition in_listed (networks : list string) (l : link) : Prop :=
  exists n pre post, In n networks /\ s_network (l_src l) = pre +++ n +++ post.

(** an STP without its label *)
Definition place (s : stp) : string * string := (s_network s, s_port s).
Definition places (l : link) : (string * string) * (string * string) := (place (l_src l), place (l_dst l)).

(** every value of [a] is a value of [b], and they are of one type *)
Definition narrows (a b : label) : Prop :=
  ltype a = ltype b /\ forall z, denotes (lvalues a) z -> denotes (lvalues b) z.

(** every label of the path is present and as the parser makes them *)
Definition labelled (path : list link) : Prop :=
  forall l, In l path -> exists a b, s_label (l_src l) = Some a /\ s_label (l_dst l) = Some b /\
    wf_values (lvalues a) /\ wf_values (lvalues b).
