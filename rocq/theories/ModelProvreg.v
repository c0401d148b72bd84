(** Model of /repo/opennsa/provreg.py: class ProviderRegistry (18-86). *)
From Verif Require Import Base.

(** nsa.py:290-315, the parts used: the agent's URN, service type and endpoint *)
Record agent := mkAgent { ag_urn : string; ag_service : option string; ag_endpoint : string }.

(** Providers are objects, identified by a number: those handed in by setup
    (29-38) carry their own number, those made by a factory (81) get the next
    number of [pr_next], and [pr_spawned] records for which agent; provreg.py:20-26 *)
Record provreg := mkPR {
  pr_providers : list (string * nat);       (* network -> provider, provreg.py:23 *)
  pr_urns      : list (string * string);    (* network -> agent urn, provreg.py:24 *)
  pr_factories : list string;               (* known service types, provreg.py:26 *)
  pr_next      : nat;
  pr_spawned   : list (nat * agent) }.

(** provreg.py:29-38 *)
Definition add_provider (urn net : string) (p : nat) (s : provreg) : provreg * option exn :=
  if ahas net (pr_providers s) then (s, Some EValue)
  else (mkPR (aset net p (pr_providers s)) (aset net urn (pr_urns s)) (pr_factories s) (pr_next s) (pr_spawned s), None).

(** [s.endswith(x)]; provreg.py:45 *)
Definition ends_with (x s : string) : bool :=
  let n := String.length s in let m := String.length x in
  (m <=? n)%nat && String.eqb (sdrop (n - m) s) x.

(** provreg.py:41-52 *)
Definition get_provider (net : string) (s : provreg) : result nat :=
  if ends_with ":nsa" net then Err EValue
  else match aget net (pr_providers s) with Some p => Ok p | None => Err ESTPResolution end.

(** provreg.py:55-56 *)
Definition get_provider_urn (net : string) (s : provreg) : result string :=
  match aget net (pr_urns s) with Some u => Ok u | None => Err EKey end.

(** provreg.py:71-72, first network of the agent *)
Fixpoint first_with_urn (urn : string) (l : list (string * string)) : option string :=
  match l with
  | [] => None
  | (n, u) :: r => if eqb u urn then Some n else first_with_urn urn r
  end.

(** provreg.py:59-86; the returned provider, [None] when Python returns None *)
Definition spawn_provider (ag : agent) (net : string) (s : provreg) : provreg * result (option nat) :=
  match aget net (pr_providers s) with
  | Some p => (s, Ok (Some p))
  | None =>
      match first_with_urn (ag_urn ag) (pr_urns s) with
      | Some other =>
          match aget other (pr_providers s) with
          | None => (s, Err EKey)
          | Some p => match add_provider (ag_urn ag) net p s with
                      | (s', None) => (s', Ok None)
                      | (s', Some e) => (s', Err e)
                      end
          end
      | None =>
          match ag_service ag with
          | None => (s, Err EValue)
          | Some st =>
              if negb (mem st (pr_factories s)) then (s, Err EKey)
              else
                let p := pr_next s in
                let s1 := mkPR (pr_providers s) (pr_urns s) (pr_factories s) (S p) (pr_spawned s ++ [(p, ag)]) in
                match add_provider (ag_urn ag) net p s1 with
                | (s', None) => (s', Ok (Some p))
                | (s', Some e) => (s', Err e)
                end
          end
      end
  end.

(** provreg.py:29-77, the two calls that change the registry *)
Inductive pr_op := PAdd (urn net : string) (p : nat) | PSpawn (ag : agent) (net : string).
(** provreg.py:29-77, one call *)
Definition pr_step (s : provreg) (o : pr_op) : provreg :=
  match o with
  | PAdd urn net p => fst (add_provider urn net p s)
  | PSpawn ag net => fst (spawn_provider ag net s)
  end.
(** [first] is the number of the first spawned provider; provreg.py:20-26 *)
Definition pr_init (factories : list string) (first : nat) : provreg := mkPR [] [] factories first [].
(** provreg.py:29-77, a sequence of calls *)
Definition pr_run (factories : list string) (first : nat) (ops : list pr_op) : provreg :=
  fold_left pr_step ops (pr_init factories first).
