(** Specification of the REST interface, independent of the model's helpers. *)
From Verif Require Import Base ModelAuthz ModelSTP ModelTime ModelErrors ModelState ModelRest SpecErrors.
Open Scope Z_scope.

(** Two texts equal up to the case of ASCII letters *)
Definition letters : list (ascii * ascii) :=
  [("a","A");("b","B");("c","C");("d","D");("e","E");("f","F");("g","G");("h","H");("i","I");("j","J");("k","K");
   ("l","L");("m","M");("n","N");("o","O");("p","P");("q","Q");("r","R");("s","S");("t","T");("u","U");("v","V");
   ("w","W");("x","X");("y","Y");("z","Z")]%char.
Inductive same_text : string -> string -> Prop :=
| same_nil : same_text "" ""
| same_char c d s t : c = d \/ In (c, d) letters -> same_text s t -> same_text (String c s) (String d t).

(** the five commands and the operation each one names *)
Inductive command := Commit | Abort | Provision | Release | Terminate.
Definition word (c : command) : string :=
  match c with Commit => "COMMIT" | Abort => "ABORT" | Provision => "PROVISION" | Release => "RELEASE" | Terminate => "TERMINATE" end.
Definition operation (c : command) : string -> request_info -> call :=
  match c with Commit => CCommit | Abort => CAbort | Provision => CProvision | Release => CRelease | Terminate => CTerminate end.

(** the NSI error class an exception belongs to *)
Definition nsi_class (e : exn) : option nclass :=
  match e with
  | EPayload => Some PayloadError | EMissingParameter => Some MissingParameterError | EUnsupportedParameter => Some UnsupportedParameter
  | EConnection => Some ConnectionError | EInvalidTransition => Some InvalidTransitionError | EConnectionExists => Some ConnectionExistsError
  | EConnectionNonExistent => Some ConnectionNonExistentError | EConnectionGone => Some ConnectionGoneError
  | EConnectionCreate => Some ConnectionCreateError | ESecurity => Some SecurityError | EUnauthorized => Some UnauthorizedError
  | ETopology => Some TopologyError | ESTPResolution => Some STPResolutionError | ESTPUnavailable => Some STPUnavailableError
  | EVLANInterchange => Some VLANInterchangeNotSupportedError | EDownstream => Some DownstreamNSAError
  | EInternalServer => Some InternalServerError | EInternalNRM => Some InternalNRMError
  | EResourceUnavailable => Some ResourceUnavailableError | EService => Some ServiceError | EUnknownNSI => Some UnknownNSIError
  | ENSI => Some NSIError
  | _ => None
  end.

(** the request asks for auto-provision and declines auto-commit: fields present,
    with values Python takes as true and false *)
Inductive truthy : json -> Prop :=
| truthy_bool : truthy (JBool true)
| truthy_int z : z <> 0 -> truthy (JInt z)
| truthy_float t : truthy (JFloat t false)
| truthy_str s : s <> "" -> truthy (JStr s)
| truthy_list l : l <> [] -> truthy (JList l)
| truthy_obj l : l <> [] -> truthy (JObj l).
(** the value of a field: the last one of that name *)
Inductive field : string -> json -> json -> Prop :=
| field_intro k before v after : (forall w, ~ In (k, w) after) -> field k v (JObj (before ++ (k, v) :: after)).

(** * Watching a connection: predicates on the observed history *)
(** the state of the watched object after a history *)
Fixpoint state_after (s0 : states) (h : list obs) : states :=
  match h with [] => s0 | OState s :: r => state_after s r | _ :: r => state_after s0 r end.
(** the history contains a state with the given reservation state *)
Definition passed_through (r : rstate) (h : list obs) : Prop := exists s, In (OState s) h /\ st_r s = r.
Fixpoint count (f : obs -> bool) (h : list obs) : nat :=
  match h with [] => O | x :: r => if f x then S (count f r) else count f r end.
Definition is_commit (x : obs) : bool := match x with OCommit => true | _ => false end.
(** the object enters the held state *)
Definition becomes_held (s0 : states) (h : list obs) : Prop :=
  exists pre s post, h = pre ++ OState s :: post /\ st_r s = RHeld /\ st_r (state_after s0 pre) <> RHeld.

(** * What a creation request asks for *)
Definition absent (k : string) (data : json) : Prop := forall v, ~ field k v data.
Definition full_name (s t : string) : Prop := (exists r, s = "urn:ogf:network:" +++ r) /\ t = s \/ (~ (exists r, s = "urn:ogf:network:" +++ r)) /\ t = "urn:ogf:network:" +++ s.
Definition asks_stp (k : string) (data : json) (s : stp) : Prop :=
  exists text full, field k (JStr text) data /\ full_name text full /\ create_stp full = Ok s.
Definition asks_time (k : string) (data : json) (t : option dt) : Prop :=
  (absent k data /\ t = None) \/ exists text x, field k (JStr text) data /\ parseXMLTimestamp text = Ok x /\ t = Some x.
Definition asks_capacity (data : json) (c : json) : Prop := field "capacity" c data \/ absent "capacity" data /\ c = JInt 0.
