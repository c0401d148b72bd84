(** Model of the conversations over SSH by which commands get to a device,
    /repo/opennsa/backends: the class SSHChannel of juniperex.py, junosmx.py,
    junosex.py, brocade.py, force10.py and pica8ovs.py, and the lock of the
    command senders of junosmx.py and junosex.py.

    Not modelled: opening the connection and the channel (common/ssh.py), the
    replies to the requests for a shell and a terminal, and connections that are
    lost; nothing in the code ends a conversation then. *)
From Verif Require Import Base ModelPlugins ModelDrivers ModelJunos.
Open Scope Z_scope.

(** The line feed; juniperex.py:142-143 *)
Definition LF : string := String "010" "".

(** How a channel looks for what it waits for: in the lines that came in, as a
    whole line (junosmx.py:115, junosex.py:117) or anywhere in a line
    (juniperex.py:128); or in everything that came in since the last time
    (brocade.py:153, pica8ovs.py:129, force10.py:206). *)
Inductive looking := ByLine (whole : bool) | ByData.

(** A kind of channel, and whether it keeps what comes in as a text, starting
    with [''] (juniperex.py:76, junosmx.py:62, junosex.py:64, pica8ovs.py:67,
    force10.py:126), or as bytes, starting with [b''] (brocade.py:97). *)
Record channel_kind := mkKind { kd_look : looking; kd_text : bool }.

(** One turn of a conversation: lines that are written, and what is waited for
    after that, if anything; [d = self.waitForLine(...); self.write(...); yield d],
    juniperex.py:88-90 *)
Record turn := mkTurn { tn_write : list string; tn_wait : option string }.

(** A channel: [self.line] or [self.data], [self.wait_line] or [self.wait_data],
    the turns that are left, and what has been written; juniperex.py:71-79.  It is
    done when [sendCommands] has come to its end; juniperex.py:115-117. *)
Record chan := mkChan { ch_buf : string; ch_wait : option string; ch_left : list turn; ch_sent : list string; ch_done : bool }.

(** Going on with the turns until something is waited for; juniperex.py:86-117 *)
Fixpoint go_on (buf : string) (sent : list string) (ts : list turn) : chan :=
  match ts with
  | [] => mkChan buf None [] sent true
  | t :: r => match tn_wait t with
              | Some w => mkChan buf (Some w) r (sent ++ tn_write t) false
              | None => go_on buf (sent ++ tn_write t) r
              end
  end.

(** A new channel that is told to send commands; juniperex.py:73-90 *)
Definition begin (ts : list turn) : chan := go_on "" [] ts.

(** [self.wait_line in line], [self.wait_line == line]; juniperex.py:128, junosmx.py:115 *)
Definition line_matches (whole : bool) (w line : string) : bool := if whole then eqb w line else contains w line.

(** [matchLine]: what waits for the line goes on at once; juniperex.py:126-134 *)
Definition match_line (whole : bool) (c : chan) (line : string) : chan :=
  match ch_wait c with
  | Some w => if line_matches whole w (strip line) then go_on (ch_buf c) (ch_sent c) (ch_left c) else c
  | None => c
  end.

(** [dataReceived]; juniperex.py:137-146, brocade.py:148-158.  [bytes] tells
    what the SSH library hands over: bytes on Python 3, which cannot be added to
    a text. *)
Definition data_received (k : channel_kind) (bytes : bool) (data : string) (c : chan) : result chan :=
  if eqb data "" then Ok c
  else if bytes && kd_text k then Err EType
  else
    let buf := ch_buf c +++ data in
    match kd_look k with
    | ByLine whole =>
        if shas "010" data then
          Ok (fold_left (match_line whole) (filter (fun l => negb (eqb l "")) (map strip (split_on "010" buf)))
                (mkChan "" (ch_wait c) (ch_left c) (ch_sent c) (ch_done c)))
        else Ok (mkChan buf (ch_wait c) (ch_left c) (ch_sent c) (ch_done c))
    | ByData =>
        match ch_wait c with
        | Some w => if contains w buf then Ok (go_on "" (ch_sent c) (ch_left c))
                    else Ok (mkChan buf (ch_wait c) (ch_left c) (ch_sent c) (ch_done c))
        | None => Ok (mkChan buf (ch_wait c) (ch_left c) (ch_sent c) (ch_done c))
        end
    end.

(** What a channel is after all the pieces that came in; an exception in
    [dataReceived] goes to the SSH library, and no more data comes; juniperex.py:137-146 *)
Fixpoint received (k : channel_kind) (bytes : bool) (ps : list string) (c : chan) : result chan :=
  match ps with
  | [] => Ok c
  | p :: r => do! c' <- data_received k bytes p c; received k bytes r c'
  end.

(** * The conversations *)

(** A turn with one line; juniperex.py:88-90 *)
Definition says (line w : string) : turn := mkTurn [line] (Some w).

(** juniperex.py:82-117, with the texts of lines 34-35 *)
Definition ex_turns (cmds : list string) : list turn :=
  says "configure" ">" :: map (fun c => says c "[edit]") cmds ++ [says "commit" "commit complete"].
(** juniperex.py:69-146 *)
Definition ex_channel : channel_kind := mkKind (ByLine false) true.

(** junosmx.py:68-104, with the texts of lines 21-22 *)
Definition mx_turns (cmds : list string) : list turn :=
  says "edit private" "[edit]" :: map (fun c => says c "[edit]") cmds ++ [says "commit" "commit complete"].
(** junosmx.py:55-133 *)
Definition mx_channel : channel_kind := mkKind (ByLine true) true.

(** junosex.py:70-106, with the texts of lines 24-25 *)
Definition jx_turns (cmds : list string) : list turn :=
  says "edit private" "{master:0}[edit]" :: map (fun c => says c "{master:0}[edit]") cmds ++ [says "commit" "commit complete"].
(** junosex.py:57-135 *)
Definition jx_channel : channel_kind := mkKind (ByLine true) true.

(** brocade.py:103-139, with the texts of lines 35-37 *)
Definition br_turns (password : string) (cmds : list string) : list turn :=
  says ("enable " +++ password) ">" :: says "configure terminal" "#" :: map (fun c => says c "#") cmds ++ [says "end" "#"].
(** brocade.py:90-158 *)
Definition br_channel : channel_kind := mkKind ByData false.

(** pica8ovs.py:73-115, with the text of line 19 *)
Definition p8_turns (cmds : list string) : list turn :=
  says "echo" LF :: map (fun c => mkTurn [c; "echo"] (Some LF)) cmds ++ [says "echo" LF].
(** pica8ovs.py:60-134 *)
Definition p8_channel : channel_kind := mkKind ByData true.

(** force10.py:132-191, with the texts of lines 65-69 *)
Definition f10_turns (password : string) (cmds : list string) : list turn :=
  mkTurn [] (Some ">") :: says "enable" ":" :: says password "#" :: says "configure" "#" :: map (fun c => says c "#") cmds
  ++ [says "write" "#"; mkTurn ["exit"] None].
(** force10.py:119-211; the very first line of [dataReceived] (201) adds the data to a text *)
Definition f10_channel : channel_kind := mkKind ByData true.

(** * Command senders *)

(** What a command sender has: the conversations that are going on, each with
    the number of its link, those that wait for the lock, and everything written
    so far; juniperex.py:186-194, junosmx.py:138-148, 175-188 *)
Record sender := mkSender { sn_going : list (nat * chan); sn_queue : list (nat * list turn); sn_log : list (nat * string) }.

(** A conversation starts and writes its first lines; juniperex.py:188-193, junosmx.py:183-184 *)
Definition enter (i : nat) (ts : list turn) (s : sender) : sender :=
  let c := begin ts in
  mkSender (if ch_done c then sn_going s else sn_going s ++ [(i, c)]) (sn_queue s) (sn_log s ++ map (pair i) (ch_sent c)).

(** [_sendCommands] without a lock; juniperex.py:186-194 *)
Definition ask_open (i : nat) (ts : list turn) (s : sender) : sender := enter i ts s.

(** [_sendCommands] with a lock: [connection_lock.acquire()] lets the
    conversation start if there is none going on; junosmx.py:175-181 *)
Definition ask_locked (i : nat) (ts : list turn) (s : sender) : sender :=
  match sn_going s with
  | [] => enter i ts s
  | _ => mkSender (sn_going s) (sn_queue s ++ [(i, ts)]) (sn_log s)
  end.

(** Data for the channel of a link: what it writes in answer is logged, and it
    is dropped when it is done; junosmx.py:124-133 *)
Definition feed (k : channel_kind) (bytes : bool) (i : nat) (data : string) (s : sender) : result sender :=
  match aget i (sn_going s) with
  | None => Ok s
  | Some c =>
      do! c' <- data_received k bytes data c;
      let log := sn_log s ++ map (pair i) (skipn (List.length (ch_sent c)) (ch_sent c')) in
      Ok (mkSender (if ch_done c' then adel i (sn_going s) else aset i c' (sn_going s)) (sn_queue s) log)
  end.

(** [connection_lock.release()] hands the lock to the one that has waited
    longest; junosmx.py:183-188 *)
Definition hand_over (s : sender) : sender :=
  match sn_going s, sn_queue s with
  | [], (i, ts) :: q => enter i ts (mkSender [] q (sn_log s))
  | _, _ => s
  end.

(** What happens to a sender: a link asks, or data comes in for it; juniperex.py:137-146, 186-206 *)
Inductive sent_event := Asks (i : nat) (ts : list turn) | Data (i : nat) (data : string).

(** The sender of juniperex.py; juniperex.py:150-206 *)
Definition step_open (k : channel_kind) (bytes : bool) (s : sender) (e : sent_event) : result sender :=
  match e with Asks i ts => Ok (ask_open i ts s) | Data i d => feed k bytes i d s end.
(** The senders of junosmx.py and junosex.py; junosmx.py:138-202 *)
Definition step_locked (k : channel_kind) (bytes : bool) (s : sender) (e : sent_event) : result sender :=
  match e with
  | Asks i ts => Ok (ask_locked i ts s)
  | Data i d => do! s' <- feed k bytes i d s; Ok (hand_over s')
  end.
(** one event after the other; juniperex.py:137-146, 186-206 *)
Fixpoint sender_run (step : sender -> sent_event -> result sender) (es : list sent_event) (s : sender) : result sender :=
  match es with [] => Ok s | e :: r => do! s' <- step s e; sender_run step r s' end.
