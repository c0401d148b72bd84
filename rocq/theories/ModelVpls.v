(** Model of the conversation with a router of /repo/opennsa/backends/junipervpls.py
    (class SSHChannel), with the timeouts of its waiting and a clock.

    Not modelled: opening the connection and the channel, the reply to the request
    for a shell (lines 168, 263-285), and connections that are lost. *)
From Verif Require Import Base ModelPlugins ModelChannel.
Open Scope Z_scope.

(** One turn: [d = self.waitForLine(line, timeout); self.write(text); yield d];
    junipervpls.py:170-172.  Times are in seconds. *)
Record wturn := mkWturn { wt_write : string; wt_wait : string; wt_secs : Z }.

(** The turns of [sendCommands]; junipervpls.py:164-184, with the texts of lines 82-83 *)
Definition vpls_turns (cmds : list string) : list wturn :=
  mkWturn "configure private" "[edit]" 3 :: map (fun c => mkWturn c "[edit]" 3) cmds ++ [mkWturn "commit" "commit complete" 20].

(** The Deferred of [sendCommands]: not fired, or fired with success or a failure;
    junipervpls.py:186-192 *)
Inductive ending := Going | Success | Failure.

(** A channel: [self.line]; [self.wait_line], set and cleared together with
    [self.wait_defer]; the time of [self.delayed_call]; the turns left; what has
    been written; junipervpls.py:154-161, 195-204; and the time *)
Record vpls := mkVpls { vp_buf : string; vp_wait : option string; vp_timer : option Z; vp_left : list wturn;
                        vp_sent : list string; vp_end : ending; vp_now : Z }.

(** The generator goes on to its next [yield], or to its end; junipervpls.py:170-192, 195-204 *)
Definition vpls_next (c : vpls) : vpls :=
  match vp_left c with
  | [] => mkVpls (vp_buf c) None None [] (vp_sent c) Success (vp_now c)
  | t :: r => mkVpls (vp_buf c) (Some (wt_wait t)) (Some (vp_now c + wt_secs t)) r (vp_sent c ++ [wt_write t]) (vp_end c) (vp_now c)
  end.

(** A channel told to send commands; junipervpls.py:154-172 *)
Definition vpls_begin (now : Z) (cmds : list string) : vpls :=
  vpls_next (mkVpls "" None None (vpls_turns cmds) [] Going now).

(** [matchLine]: the timeout is cancelled, and what waits goes on; junipervpls.py:215-236 *)
Definition vpls_line (c : vpls) (line : string) : vpls :=
  match vp_wait c with
  | None => c
  | Some w => if contains w (strip line) then vpls_next (mkVpls (vp_buf c) None None (vp_left c) (vp_sent c) (vp_end c) (vp_now c)) else c
  end.

(** [dataReceived]; junipervpls.py:239-248.  With [bytes] the SSH library hands over
    bytes, which cannot be added to a text: the exception goes to the library. *)
Definition vpls_data (bytes : bool) (data : string) (c : vpls) : vpls :=
  if eqb data "" then c
  else if bytes then c
  else
    let buf := vp_buf c +++ data in
    if shas "010" data then
      fold_left vpls_line (filter (fun l => negb (eqb l "")) (map strip (split_on "010" buf)))
        (mkVpls "" (vp_wait c) (vp_timer c) (vp_left c) (vp_sent c) (vp_end c) (vp_now c))
    else mkVpls buf (vp_wait c) (vp_timer c) (vp_left c) (vp_sent c) (vp_end c) (vp_now c).

(** [waitTimeout]; junipervpls.py:207-212.  As written, [wd = self.wait_defer = None]
    loses the Deferred, and [defer.timeout(None)] raises into the reactor, which logs
    it; so nothing happens but the clearing.  With [repaired] the Deferred fails, and
    with it [sendCommands] (186-188). *)
Definition vpls_timeout (repaired : bool) (c : vpls) : vpls :=
  mkVpls (vp_buf c) None None (vp_left c) (vp_sent c) (if repaired then Failure else vp_end c) (vp_now c).

(** The reactor: time goes on, and a call that is due is made; junipervpls.py:203 *)
Definition vpls_clock (repaired : bool) (t : Z) (c : vpls) : vpls :=
  let c' := mkVpls (vp_buf c) (vp_wait c) (vp_timer c) (vp_left c) (vp_sent c) (vp_end c) (Z.max (vp_now c) t) in
  match vp_timer c with
  | Some d => if d <=? vp_now c' then vpls_timeout repaired c' else c'
  | None => c'
  end.

(** What happens to a channel: data comes in (239), or time passes (203). *)
Inductive vevent := VData (data : string) | VClock (t : Z).
(** junipervpls.py:203, 239-248 *)
Definition vpls_step (repaired bytes : bool) (c : vpls) (e : vevent) : vpls :=
  match e with VData d => vpls_data bytes d c | VClock t => vpls_clock repaired t c end.
(** junipervpls.py:164-192 *)
Definition vpls_run (repaired bytes : bool) (now : Z) (cmds : list string) (es : list vevent) : vpls :=
  fold_left (vpls_step repaired bytes) es (vpls_begin now cmds).
