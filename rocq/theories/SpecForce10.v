(** C75: what the commands for a Force10 switch do to it. *)
From Verif Require Import Base SpecDrivers.
Open Scope Z_scope.

(** The VLAN being configured, the members of each VLAN, and the VLANs that are up. *)
Record f10_state := mkF10 { f10_at : option Z; f10_members : list (Z * string); f10_up : list Z }.

(** The name of an interface may have blanks in it. *)
Definition f10_exec (d : f10_state) (cmd : string) : f10_state :=
  match after "interface vlan " cmd, after "tagged " cmd, after "no interface vlan " cmd with
  | Some v, _, _ => mkF10 (py_int v) (f10_members d) (f10_up d)
  | _, Some i, _ => match f10_at d with Some v => mkF10 (Some v) ((v, i) :: f10_members d) (f10_up d) | None => d end
  | _, _, Some v =>
      match py_int v with
      | Some n => mkF10 None (filter (fun m => negb (eqb (fst m) n)) (f10_members d)) (filter (fun u => negb (eqb u n)) (f10_up d))
      | None => d
      end
  | None, None, None =>
      if eqb cmd "no shutdown" then match f10_at d with Some v => mkF10 (Some v) (f10_members d) (v :: f10_up d) | None => d end
      else if eqb cmd "end" then mkF10 None (f10_members d) (f10_up d)
      else d
  end.
(** An interface carries the traffic of a VLAN. *)
Definition f10_carries (d : f10_state) (itf : string) (v : Z) : Prop := In (v, itf) (f10_members d) /\ In v (f10_up d).
