(** The default plugin: plugin.py:13-50.  Its other methods let everything pass: it refuses
    no request, keeps all paths and does nothing when a connection is made or ends
    (plugin.py:31-32, 40-50). *)
From Verif Require Import Base ModelRest ModelPlugins.
Open Scope Z_scope.

(** [string.hexdigits[:16]]; plugin.py:36 *)
Definition HEXDIGITS : string := "0123456789abcdef".
(** plugin.py:28: the domain up to its second character, in upper case.  Simplification:
    letters other than a to z are left as they are. *)
Definition conn_prefix (domain : string) : string := upper (stake 2 domain) +++ "-".
(** [random.choice(string.hexdigits[:16])], the argument is the index drawn; plugin.py:36 *)
Definition drawn_digit (k : nat) : string := match String.get k HEXDIGITS with Some c => String c "" | None => "" end.
(** plugin.py:35-37; [draws] are the indices drawn, of which there are ten *)
Definition create_connection_id (domain : string) (draws : list nat) : string := conn_prefix domain +++ join "" (map drawn_digit draws).
