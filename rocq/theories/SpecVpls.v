(** C97: conversations with a VPLS router. *)
From Verif Require Import Base ModelPlugins SpecConfig ModelChannel SpecChannel ModelVpls.
Open Scope Z_scope.

(** The lines that are to be sent. *)
Definition vpls_lines (cmds : list string) : list string := "configure private" :: cmds ++ ["commit"].
(** All that has come in. *)
Definition vpls_heard (es : list vevent) : string := text (flat_map (fun e => match e with VData d => [d] | VClock _ => [] end) es).
(** How long it may take: three seconds for each line but the commit, and twenty for that. *)
Definition vpls_limit (cmds : list string) : Z := 3 * (Z.of_nat (List.length cmds) + 1) + 20.

(** What a router has to show in answer to each line, and how soon. *)
Definition vpls_prompts (cmds : list string) : list (string * Z) :=
  ("[edit]", 3) :: map (fun _ => ("[edit]", 3)) cmds ++ [("commit complete", 20)].
(** A router that answers in time: each answer a line that mentions what is waited for. *)
Inductive timely : Z -> list (string * Z) -> list vevent -> Prop :=
| timely_end now : timely now [] []
| timely_answer now t w s x y rest es : now <= t < now + s -> shas "010" x = false -> trims x y -> mentions w y -> timely t rest es ->
    timely now ((w, s) :: rest) (VClock t :: VData (x +++ LF) :: es).
