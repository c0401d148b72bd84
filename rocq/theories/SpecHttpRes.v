(** Histories of a served document. *)
From Verif Require Import Base ModelHttpRes.
Open Scope Z_scope.

(** one update: the clock, the new content, the time given for it *)
Record update := mkUpd { u_now : Z; u_rep : string; u_given : option Z }.
(** the second the update is stamped with *)
Definition u_second (u : update) : Z :=
  match u_given u with Some t => t / 1000000 | None => u_now u / 1000000 end.
(** the resource after a history of updates *)
Definition run (start : Z) (us : list update) : mres :=
  fold_left (fun _ u => updateResource (u_now u) (Some (u_rep u)) (u_given u)) us (res_init start).
(** the document a history leaves *)
Definition current (us : list update) : option string :=
  match rev us with u :: _ => Some (u_rep u) | [] => None end.
