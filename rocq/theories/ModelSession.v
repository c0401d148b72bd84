(** Model of how command senders come to a channel over SSH:
    /repo/opennsa/backends/common/ssh.py and the command senders of juniperex.py,
    junosmx.py, junosex.py, brocade.py, pica8ovs.py and force10.py.

    The SSH library calls back: the TCP connection is there or refused, the host
    shows its key, the login has succeeded, a channel is open, the request for a
    shell is answered, data has come in, the connection is gone.  Each is an event,
    and they come in any order.  Not modelled: exchanging keys anew on a connection
    that is up with the same host key, reading the files with the keys of the user,
    and the end of file and exit status of a channel. *)
From Verif Require Import Base ModelChannel.
Open Scope Z_scope.

(** * Logging in *)

(** What an [SSHConnectionCreator] is told, apart from where the device is and the
    name of the user; ssh.py:131-140 *)
Record login := mkLogin { lg_fingerprints : list string; lg_public : option string; lg_private : option string; lg_password : option string }.
(** How the user is shown to be the user; ssh.py:55-84 *)
Inductive credential := Keys (public private : string) | Password (p : string).
(** [None] and [''] are false; ssh.py:169, 171 *)
Definition given (o : option string) : option string := match o with Some s => if eqb s "" then None else Some s | None => None end.
(** ssh.py:169-174 [gotTCPConnection]: the keys if there are both, or else the
    password; without either an AssertionError is raised *)
Definition offer (lg : login) : result credential :=
  match given (lg_public lg), given (lg_private lg), given (lg_password lg) with
  | Some p, Some s, _ => Ok (Keys p s)
  | _, _, Some w => Ok (Password w)
  | _, _, _ => Err EAssertion
  end.
(** ssh.py:22-29 [verifyHostKey] *)
Definition verify_host_key (lg : login) (fingerprint : string) : bool := mem fingerprint (lg_fingerprints lg).

(** What the backends tell: one fingerprint; juniperex.py:155-156, junosmx.py:142-143,
    junosex.py:144-145, brocade.py:167-168, pica8ovs.py:142-143 *)
Definition key_login (fingerprint public private : string) : login := mkLogin [fingerprint] (Some public) (Some private) None.
(** force10.py:262-272: without a password the constructor raises, a KeyError if
    there are no keys, and else since the name [password] is not bound in line 272 *)
Definition force10_login (fingerprint : string) (password public private : option string) : option login :=
  match password with
  | Some w => Some (mkLogin [fingerprint] None None (Some w))
  | None => None
  end.

(** * Connections and requests *)

(** How a sender keeps connections: a new one each time (brocade.py:181,
    force10.py:234, pica8ovs.py:154), or the one it has; whether that one is still
    there is looked at (juniperex.py:174) or not (junosmx.py:162, junosex.py:163) *)
Inductive keeping := EachTime | Kept (looks : bool).
(** A kind of sender: how it keeps connections, whether it has a lock
    (junosmx.py:146, junosex.py:148), and its channels *)
Record sender_kind := mkSenderKind { sk_keeps : keeping; sk_locks : bool; sk_chan : channel_kind }.
(** juniperex.py:150-194 *)
Definition ex_sender : sender_kind := mkSenderKind (Kept true) false ex_channel.
(** junosmx.py:138-188 *)
Definition mx_sender : sender_kind := mkSenderKind (Kept false) true mx_channel.
(** junosex.py:140-189 *)
Definition jx_sender : sender_kind := mkSenderKind (Kept false) true jx_channel.
(** brocade.py:163-191 *)
Definition br_sender : sender_kind := mkSenderKind EachTime false br_channel.
(** pica8ovs.py:137-167 *)
Definition p8_sender : sender_kind := mkSenderKind EachTime false p8_channel.
(** force10.py:216-246 *)
Definition f10_sender : sender_kind := mkSenderKind EachTime false f10_channel.

(** How far a connection is: the TCP connection is being made, the key of the host
    is not known, the login is under way, it is up, it is gone; ssh.py:143-179 *)
Inductive stage := Dialing | Unproved | LoggingIn | Up | Gone.
(** How far a request is: it waits for the connection with a number, for a
    channel, for the lock, for the shell, it is talking, or it has ended;
    juniperex.py:186-194, junosmx.py:175-188, brocade.py:174-191 *)
Inductive progress :=
| WantsWire (k : nat) | WantsChannel (k : nat) | WantsLock (k : nat) | WantsShell (k : nat) | Talking (k : nat) (c : chan)
| Succeeded | Failed (e : exn).
(** What leaves: credentials on a connection, and lines for a request;
    ssh.py:170, 172, juniperex.py:89, 97, 109 *)
Inductive sent := Offered (k : nat) (c : credential) | Wrote (k i : nat) (line : string).

(** A sender: connections, each with the request it was made for; requests, each
    with its conversation; the connection kept (juniperex.py:158); who has the lock
    and who waits for it (junosmx.py:146); what has left *)
Record session := mkSession {
  ss_wires : list (nat * (stage * nat));
  ss_reqs : list (nat * (list turn * progress));
  ss_kept : option nat;
  ss_lock : option nat; ss_queue : list nat;
  ss_sent : list sent }.
(** juniperex.py:158, junosmx.py:145-146 *)
Definition session0 : session := mkSession [] [] None None [] [].

(** ssh.py:143-179, the connection with this number is now so far *)
Definition set_stage (k : nat) (x : stage) (s : session) : session :=
  match aget k (ss_wires s) with
  | Some (_, i) => mkSession (aset k (x, i) (ss_wires s)) (ss_reqs s) (ss_kept s) (ss_lock s) (ss_queue s) (ss_sent s)
  | None => s
  end.
(** juniperex.py:186-194, the request with this number is now so far *)
Definition set_progress (i : nat) (x : progress) (s : session) : session :=
  match aget i (ss_reqs s) with
  | Some (ts, _) => mkSession (ss_wires s) (aset i (ts, x) (ss_reqs s)) (ss_kept s) (ss_lock s) (ss_queue s) (ss_sent s)
  | None => s
  end.
(** ssh.py:170, 172, juniperex.py:89 *)
Definition leaves (x : list sent) (s : session) : session :=
  mkSession (ss_wires s) (ss_reqs s) (ss_kept s) (ss_lock s) (ss_queue s) (ss_sent s ++ x).
(** ssh.py:37-52, 143-179: how far a connection is *)
Definition stage_of (s : session) (k : nat) : option stage := option_map fst (aget k (ss_wires s)).
(** juniperex.py:186-194: how far a request is *)
Definition progress_of (s : session) (i : nat) : option progress := option_map snd (aget i (ss_reqs s)).
(** whether a connection is up; nothing is written to one that is gone *)
Definition is_up (s : session) (k : nat) : bool := match stage_of s k with Some Up => true | _ => false end.
(** [factory.stopped]; ssh.py:43, 52 *)
Definition stopped (s : session) (k : nat) : bool := match stage_of s k with Some Gone => true | _ => false end.

(** ssh.py:158, 177: a new connection for a request *)
Definition dial (i : nat) (s : session) : session :=
  let k := List.length (ss_wires s) in
  set_progress i (WantsWire k) (mkSession (ss_wires s ++ [(k, (Dialing, i))]) (ss_reqs s) (ss_kept s) (ss_lock s) (ss_queue s) (ss_sent s)).
(** juniperex.py:161-183, junosmx.py:150-171, brocade.py:180-185: which connection
    a request gets *)
Definition choose (sk : sender_kind) (i : nat) (s : session) : session :=
  match sk_keeps sk, ss_kept s with
  | Kept looks, Some k => if looks && stopped s k then dial i s else set_progress i (WantsChannel k) s
  | _, _ => dial i s
  end.
(** juniperex.py:186-194 [_sendCommands], a new request with its conversation *)
Definition ask (sk : sender_kind) (i : nat) (ts : list turn) (s : session) : session :=
  match aget i (ss_reqs s) with
  | Some _ => s
  | None => choose sk i (mkSession (ss_wires s) (ss_reqs s ++ [(i, (ts, Failed EFuel))]) (ss_kept s) (ss_lock s) (ss_queue s) (ss_sent s))
  end.

(** junosmx.py:185-188: the lock goes to the one that has waited longest *)
Definition release_lock (s : session) : session :=
  match ss_queue s with
  | [] => mkSession (ss_wires s) (ss_reqs s) (ss_kept s) None [] (ss_sent s)
  | j :: r =>
      let s := mkSession (ss_wires s) (ss_reqs s) (ss_kept s) (Some j) r (ss_sent s) in
      match progress_of s j with Some (WantsLock k) => set_progress j (WantsShell k) s | _ => s end
  end.
(** The end of a request that had a channel: a connection made for it is dropped
    (brocade.py:190-191, pica8ovs.py:164-166, force10.py:245-246), the lock is given
    back (junosmx.py:185-188) *)
Definition finish (sk : sender_kind) (i k : nat) (x : progress) (s : session) : session :=
  let s := set_progress i x s in
  let s := match sk_keeps sk with EachTime => set_stage k Gone s | Kept _ => s end in
  if sk_locks sk then release_lock s else s.
(** The conversation is so far; what it has written since leaves if the connection
    is up; juniperex.py:82-117 *)
Definition talk_on (sk : sender_kind) (i k : nat) (before : nat) (c : chan) (s : session) : session :=
  let s := if is_up s k then leaves (map (Wrote k i) (skipn before (ch_sent c))) s else s in
  if ch_done c then finish sk i k Succeeded s else set_progress i (Talking k c) s.

(** What happens to a sender: a request; and what the SSH library tells;
    ssh.py:22-33, 92-93, 106-108, juniperex.py:137-146 *)
Inductive happening :=
| Request (i : nat) (ts : list turn)
| Connected (k : nat) | Refused (k : nat) (e : exn)
| HostKey (k : nat) (fingerprint : string)
| LoggedIn (k : nat)
| ChannelOpen (i : nat)
| Shell (i : nat) (yes : bool)
| Arrived (i : nat) (data : string)
| Lost (k : nat).

(** ssh.py:22-33, 145-151, 167-176: a key that is not accepted ends the connection
    and nothing else *)
Definition host_key (lg : login) (k : nat) (fp : string) (s : session) : session :=
  match aget k (ss_wires s) with
  | Some (Dialing, _) | Some (Gone, _) | None => s
  | Some (Unproved, i) =>
      if verify_host_key lg fp then
        match offer lg with
        | Ok c => leaves [Offered k c] (set_stage k LoggingIn s)
        | Err e => set_progress i (Failed e) (set_stage k LoggingIn s)
        end
      else set_stage k Gone s
  | Some (_, _) => if verify_host_key lg fp then s else set_stage k Gone s
  end.
(** ssh.py:92-93 [serviceStarted], juniperex.py:163-166 [setSSHConnectionCache] and
    168-171 [gotSSHConnection]; only after the service was asked for, ssh.py:170, 172 *)
Definition logged_in (sk : sender_kind) (lg : login) (k : nat) (s : session) : session :=
  match aget k (ss_wires s), offer lg with
  | Some (LoggingIn, i), Ok _ =>
      let s := set_progress i (WantsChannel k) (set_stage k Up s) in
      match sk_keeps sk with
      | Kept _ => mkSession (ss_wires s) (ss_reqs s) (Some k) (ss_lock s) (ss_queue s) (ss_sent s)
      | EachTime => s
      end
  | _, _ => s
  end.
(** ssh.py:106-108 [channelOpen], juniperex.py:188-190 [gotChannel]; with a lock
    junosmx.py:178-180 *)
Definition channel_open (sk : sender_kind) (i : nat) (s : session) : session :=
  match progress_of s i with
  | Some (WantsChannel k) =>
      if is_up s k then
        if sk_locks sk then
          match ss_lock s with
          | None => set_progress i (WantsShell k) (mkSession (ss_wires s) (ss_reqs s) (ss_kept s) (Some i) (ss_queue s) (ss_sent s))
          | Some _ => set_progress i (WantsLock k) (mkSession (ss_wires s) (ss_reqs s) (ss_kept s) (ss_lock s) (ss_queue s ++ [i]) (ss_sent s))
          end
        else set_progress i (WantsShell k) s
      else s
  | _ => s
  end.
(** juniperex.py:87, 111-113: the request for a shell is answered; if it fails, so
    does the request.  For one that is not answered since the connection is gone
    the library fails it or lets it go on *)
Definition shell (sk : sender_kind) (i : nat) (yes : bool) (s : session) : session :=
  match aget i (ss_reqs s) with
  | Some (ts, WantsShell k) => if yes then talk_on sk i k 0 (begin ts) s else finish sk i k (Failed EConnection) s
  | _ => s
  end.
(** juniperex.py:137-146: data for the channel of a request; an exception goes to
    the library, which drops the connection *)
Definition arrived (sk : sender_kind) (bytes : bool) (i : nat) (data : string) (s : session) : session :=
  match progress_of s i with
  | Some (Talking k c) =>
      if is_up s k then
        match data_received (sk_chan sk) bytes data c with
        | Ok c' => talk_on sk i k (List.length (ch_sent c)) c' s
        | Err _ => set_stage k Gone s
        end
      else s
  | _ => s
  end.
(** ssh.py:15-52, 131-179, with the senders *)
Definition happen (sk : sender_kind) (lg : login) (bytes : bool) (s : session) (e : happening) : session :=
  match e with
  | Request i ts => ask sk i ts s
  | Connected k => match aget k (ss_wires s) with Some (Dialing, _) => set_stage k Unproved s | _ => s end
  | Refused k e => match aget k (ss_wires s) with Some (Dialing, i) => set_progress i (Failed e) (set_stage k Gone s) | _ => s end
  | HostKey k fp => host_key lg k fp s
  | LoggedIn k => logged_in sk lg k s
  | ChannelOpen i => channel_open sk i s
  | Shell i yes => shell sk i yes s
  | Arrived i data => arrived sk bytes i data s
  | Lost k => match stage_of s k with Some Dialing | None => s | _ => set_stage k Gone s end
  end.
(** one thing after the other; ssh.py:131-179 *)
Definition session_run (sk : sender_kind) (lg : login) (bytes : bool) (es : list happening) : session :=
  fold_left (happen sk lg bytes) es session0.
