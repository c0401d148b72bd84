(** What a conversation with a device should achieve.

    The device is described here: it answers the lines it gets, one after the
    other, and its output arrives in pieces. *)
From Verif Require Import Base ModelChannel SpecConfig.
Open Scope Z_scope.

(** One list is the beginning of another. *)
Definition beginning {A} (a b : list A) : Prop := exists r, b = a ++ r.

(** The lines of a conversation, for each driver. *)
Inductive talk_of (cmds : list string) : channel_kind -> list turn -> list string -> Prop :=
| talk_ex : talk_of cmds ex_channel (ex_turns cmds) ("configure" :: cmds ++ ["commit"])
| talk_mx : talk_of cmds mx_channel (mx_turns cmds) ("edit private" :: cmds ++ ["commit"])
| talk_jx : talk_of cmds jx_channel (jx_turns cmds) ("edit private" :: cmds ++ ["commit"])
| talk_br p : talk_of cmds br_channel (br_turns p cmds) (("enable " +++ p) :: "configure terminal" :: cmds ++ ["end"])
| talk_p8 : talk_of cmds p8_channel (p8_turns cmds) ("echo" :: flat_map (fun c => [c; "echo"]) cmds ++ ["echo"])
| talk_f10 p : talk_of cmds f10_channel (f10_turns p cmds) ("enable" :: p :: "configure" :: cmds ++ ["write"; "exit"]).

(** The text of a list of chunks. *)
Fixpoint text (l : list string) : string := match l with [] => "" | s :: r => s +++ text r end.

(** A device: what it may send first, and what it may answer to the line with a
    number.  What it sends comes in chunks that are not cut. *)
Record device := mkDevice { dv_banner : list string -> Prop; dv_answers : nat -> string -> list string -> Prop }.

(** A conversation under way: the channel, how many of its lines the device has
    answered, what is on its way, and all that the device has sent. *)
Record talk := mkTalk { tk_chan : chan; tk_answered : nat; tk_way : list string; tk_out : string }.

(** The device answers the next line, or a number of chunks arrive together. *)
Inductive tstep (k : channel_kind) (bytes : bool) (D : device) : talk -> talk -> Prop :=
| device_answers c n w h l o : nth_error (ch_sent c) n = Some l -> dv_answers D n l o ->
    tstep k bytes D (mkTalk c n w h) (mkTalk c (S n) (w ++ o) (h +++ text o))
| chunks_arrive c n a b h c' : a <> [] -> data_received k bytes (text a) c = Ok c' ->
    tstep k bytes D (mkTalk c n (a ++ b) h) (mkTalk c' n b h).

(** What can come about. *)
Inductive talks (k : channel_kind) (bytes : bool) (D : device) (ts : list turn) : talk -> Prop :=
| talks_start b : dv_banner D b -> talks k bytes D ts (mkTalk (begin ts) 0 b (text b))
| talks_on t t' : talks k bytes D ts t -> tstep k bytes D t t' -> talks k bytes D ts t'.

(** A chunk shows what a channel waits for: a line of its own, from the end of
    the line before to the end of the line, or a text. *)
Definition shows (k : channel_kind) (w s : string) : Prop :=
  match kd_look k with
  | ByLine true => exists x, s = LF +++ x +++ LF /\ shas "010" x = false /\ trims x w
  | ByLine false => exists x y a b, s = LF +++ x +++ LF /\ shas "010" x = false /\ trims x y /\ y = a +++ w +++ b
  | ByData => exists a b, s = a +++ w +++ b
  end.
Definition shown (k : channel_kind) (w : string) (o : list string) : Prop := exists s, In s o /\ shows k w s.

(** The conversation is at its end. *)
Definition finished (t : talk) : Prop := ch_done (tk_chan t) = true.
(** However it goes on, it comes to its end: no step is possible for ever, and
    when none is possible it is at its end. *)
Definition ends (k : channel_kind) (bytes : bool) (D : device) (ts : list turn) : Prop :=
  forall t, talks k bytes D ts t ->
    Acc (fun b a => tstep k bytes D a b) t /\ ((forall t', ~ tstep k bytes D t t') -> finished t).

(** How often a character is in a text. *)
Fixpoint count (c : ascii) (s : string) : nat :=
  match s with "" => 0%nat | String d r => ((if Ascii.eqb d c then 1 else 0) + count c r)%nat end.

(** A device that answers every line. *)
Definition answering (D : device) : Prop := forall n l, exists o, dv_answers D n l o.
(** A line that must not be among the commands. *)
Definition no_command (l : string) (cmds : list string) : Prop := ~ In l cmds.

(** The device shows what the channel waits for: in its answer to the last line
    of each turn, or, if the first turn writes nothing, before anything else. *)
Definition prompts (k : channel_kind) (D : device) (ts : list turn) : Prop :=
  forall p t q w, ts = p ++ t :: q -> tn_wait t = Some w ->
    (tn_write t = [] -> p = [] /\ forall b, dv_banner D b -> shown k w b) /\
    (tn_write t <> [] -> forall n l o, S n = List.length (flat_map tn_write (p ++ [t])) -> dv_answers D n l o -> shown k w o).

(** All that has been sent contains a text. *)
Definition mentions (w s : string) : Prop := exists a b, s = a +++ w +++ b.
(** A character is in no banner and at most so often in an answer. *)
Definition at_most (c : ascii) (D : device) (f : string -> nat) : Prop :=
  (forall b, dv_banner D b -> count c (text b) = 0%nat) /\
  (forall n l o, dv_answers D n l o -> (count c (text o) <= f l)%nat).

(** What a link asks for in a list of events. *)
Definition asked (es : list sent_event) : list (nat * list turn) :=
  flat_map (fun e => match e with Asks i ts => [(i, ts)] | Data _ _ => [] end) es.
(** The lines of a conversation, each with its link. *)
Definition whole_talk (a : nat * list turn) : list (nat * string) := map (pair (fst a)) (flat_map tn_write (snd a)).
(** What has been written is one conversation after the other, in the order in
    which they were asked for, and the last may be unfinished. *)
Definition in_turn (as_ : list (nat * list turn)) (log : list (nat * string)) : Prop :=
  exists fin act rest part, as_ = fin ++ act ++ rest /\ log = flat_map whole_talk fin ++ part /\
    (List.length act <= 1)%nat /\ beginning part (flat_map whole_talk act).
