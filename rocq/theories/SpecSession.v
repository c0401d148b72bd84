(** What opening a session with a device should come to. *)
From Verif Require Import Base ModelChannel SpecChannel ModelSession.
Open Scope Z_scope.

(** On which connection something leaves. *)
Definition on_wire (x : sent) : nat := match x with Offered k _ => k | Wrote k _ _ => k end.
(** What left on a connection. *)
Definition sent_on (k : nat) (l : list sent) : list sent := filter (fun x => Nat.eqb (on_wire x) k) l.
(** The lines written for a request, each with the connection. *)
Definition written (i : nat) (l : list sent) : list (nat * string) :=
  flat_map (fun x => match x with Wrote k j line => if Nat.eqb j i then [(k, line)] else [] | Offered _ _ => [] end) l.
(** The requests lines were written for, line by line. *)
Definition writers (l : list sent) : list nat := flat_map (fun x => match x with Wrote _ i _ => [i] | Offered _ _ => [] end) l.
(** Everything a conversation writes. *)
Definition all_lines (ts : list turn) : list string := flat_map tn_write ts.
(** A conversation in which something is waited for. *)
Definition waits (ts : list turn) : Prop := exists t, In t ts /\ tn_wait t <> None.

(** What may be shown to the device. *)
Inductive configured (lg : login) : credential -> Prop :=
| by_keys p s : lg_public lg = Some p -> lg_private lg = Some s -> p <> "" -> s <> "" -> configured lg (Keys p s)
| by_password w : (forall p s, lg_public lg = Some p -> lg_private lg = Some s -> p = "" \/ s = "") ->
    lg_password lg = Some w -> w <> "" -> configured lg (Password w).

(** Nobody writes in between the lines of another. *)
Definition uninterrupted (l : list nat) : Prop := forall a b c i, l = a ++ i :: b ++ i :: c -> forall j, In j b -> j = i.

(** A request has ended. *)
Definition ended (p : progress) : Prop := match p with Succeeded | Failed _ => True | _ => False end.
(** A request waits for something on a connection: the connection itself, a
    channel, or the device to answer. *)
Definition hangs_on (k : nat) (p : progress) : Prop :=
  match p with WantsWire k' | WantsChannel k' | Talking k' _ => k' = k | _ => False end.
