(** Model of /repo/opennsa/error.py and of the service exception encoding,
    /repo/opennsa/protocols/nsi2/helper.py:95-125 and
    /repo/opennsa/protocols/nsi2/bindings/nsiframework.py:52-75, 146-182. *)
From Verif Require Import Base ModelXml.

(** error.py:63-205, the NSI error classes *)
Inductive nclass :=
| NSIError | UnknownNSIError
| PayloadError | MissingParameterError | UnsupportedParameter
| ConnectionError | InvalidTransitionError | ConnectionExistsError | ConnectionNonExistentError
| ConnectionGoneError | ConnectionCreateError
| SecurityError | AuthenticationFailure | UnauthorizedError
| TopologyError | NoPathFoundError
| InternalServerError | InternalNRMError | DownstreamNSAError
| ResourceUnavailableError
| ServiceError | UnknownSTPError | STPResolutionError | VLANInterchangeNotSupportedError
| STPUnavailableError | BandwidthUnavailableError.

(** the base classes, as written in the class statements of error.py:63-205 *)
Definition bases (c : nclass) : list nclass :=
  match c with
  | NSIError => []
  | UnknownNSIError | PayloadError | ConnectionError | SecurityError | TopologyError | NoPathFoundError
  | InternalServerError | ResourceUnavailableError | ServiceError | STPResolutionError => [NSIError]
  | MissingParameterError | UnsupportedParameter => [PayloadError]
  | InvalidTransitionError | ConnectionExistsError | ConnectionNonExistentError | ConnectionGoneError
  | ConnectionCreateError => [ConnectionError]
  | AuthenticationFailure | UnauthorizedError => [SecurityError]
  | InternalNRMError | DownstreamNSAError => [InternalServerError]
  | UnknownSTPError | BandwidthUnavailableError => [ServiceError]
  | VLANInterchangeNotSupportedError => [TopologyError]
  | STPUnavailableError => [ServiceError; TopologyError]
  end.

(** the [errorId] attribute, error.py:63-205 *)
Definition error_id (c : nclass) : option string :=
  match c with
  | NSIError | UnknownNSIError => None
  | PayloadError => Some "00100" | MissingParameterError => Some "00101" | UnsupportedParameter => Some "00102"
  | ConnectionError => Some "00200" | InvalidTransitionError => Some "00201" | ConnectionExistsError => Some "00202"
  | ConnectionNonExistentError => Some "00203" | ConnectionGoneError => Some "00204" | ConnectionCreateError => Some "00205"
  | SecurityError => Some "00300" | AuthenticationFailure => Some "00301" | UnauthorizedError => Some "00302"
  | TopologyError => Some "00400" | NoPathFoundError => Some "00403"
  | InternalServerError => Some "00500" | InternalNRMError => Some "00501" | DownstreamNSAError => Some "00505"
  | ResourceUnavailableError => Some "00600"
  | ServiceError => Some "00700" | UnknownSTPError => Some "00701" | STPResolutionError => Some "00702"
  | VLANInterchangeNotSupportedError => Some "00703" | STPUnavailableError => Some "00704"
  | BandwidthUnavailableError => Some "00705"
  end.

(** error.py:209-237 *)
Definition NSI_ERROR_CODE_TABLE : list (string * nclass) :=
  [("00100", PayloadError); ("00101", MissingParameterError);
   ("00200", ConnectionError); ("00201", InvalidTransitionError); ("00202", ConnectionExistsError);
   ("00203", ConnectionNonExistentError); ("00204", ConnectionGoneError); ("00205", ConnectionCreateError);
   ("00300", SecurityError); ("00301", AuthenticationFailure); ("00302", UnauthorizedError);
   ("00400", TopologyError); ("00401", UnknownSTPError); ("00402", STPResolutionError); ("00403", NoPathFoundError);
   ("00404", VLANInterchangeNotSupportedError);
   ("00500", InternalServerError); ("00501", InternalNRMError);
   ("00600", ResourceUnavailableError); ("00601", STPUnavailableError); ("00602", BandwidthUnavailableError);
   ("00700", ServiceError); ("00701", UnknownSTPError); ("00702", STPResolutionError);
   ("00703", VLANInterchangeNotSupportedError); ("00704", STPUnavailableError); ("00705", BandwidthUnavailableError)].

(** [s[0:n]]; error.py:248 *)
Fixpoint stake (n : nat) (s : string) : string :=
  match n, s with S m, String c r => String c (stake m r) | _, _ => EmptyString end.

(** error.py:240-254; [None] is an error code that is not a string *)
Definition lookup (code : option string) : result nclass :=
  match code with
  | None => Ok UnknownNSIError
  | Some c =>
      if negb (String.length c =? 5)%nat then Ok UnknownNSIError
      else match aget c NSI_ERROR_CODE_TABLE with
           | Some ex => Ok ex
           | None => match aget (stake 3 c +++ "00") NSI_ERROR_CODE_TABLE with
                     | Some ex => Ok ex
                     | None => Err EValue
                     end
           end
  end.

(** error.py:76-80, an error object; variable values as strings ([str(value)],
    helper.py:102) *)
Record nsi_error := mkErr {
  er_class : nclass;
  er_text  : string;
  er_nsa   : option string;
  er_conn  : option string;
  er_vars  : option (list (string * string)) }.

(** nsiframework.py:146-154; namespaces of variables and child exceptions are
    never set by this agent (helper.py:102-110) and left out.  A decoded value
    is optional: [None] without a value element. *)
Record service_exception := mkSE {
  se_nsa  : option string;
  se_conn : option string;
  se_service : option string;
  se_errorId : option string;
  se_text : option string;
  se_vars : option (list (option string * option string)) }.

(** helper.py:102, [if err.variables else None] *)
Definition opt_vars (v : option (list (string * string))) : option (list (option string * option string)) :=
  match v with
  | None | Some [] => None
  | Some l => Some (map (fun kv => (Some (fst kv), Some (snd kv))) l)
  end.

(** helper.py:100-104 for an NSI error *)
Definition create_service_exception (e : nsi_error) (provider : option string) (conn service : option string) : service_exception :=
  mkSE (py_or (er_nsa e) provider) (py_or (er_conn e) conn) service (error_id (er_class e)) (Some (er_text e)) (opt_vars (er_vars e)).

(** helper.py:105-110 for any other exception *)
Definition create_service_exception_other (text : string) (provider conn service : option string) : service_exception :=
  mkSE provider conn service (error_id InternalServerError) (Some text) None.

(** nsiframework.py:66-75 with one value (or none) *)
Definition variable_xml (kv : option string * option string) : element :=
  Elem "variable" [("type", py_str_opt (fst kv))] None
       (match snd kv with None => [] | Some v => [leaf "value" (Some v)] end).
(** nsiframework.py:168-182 *)
Definition se_xml (tag : string) (s : service_exception) : element :=
  Elem tag [] None
    ([leaf "nsaId" (Some (py_str_opt (se_nsa s)))] ++
     match se_conn s with None => [] | Some c => [leaf "connectionId" (Some c)] end ++
     match se_service s with None => [] | Some c => [leaf "serviceType" (Some c)] end ++
     [leaf "errorId" (se_errorId s); leaf "text" (se_text s)] ++
     match se_vars s with None => [] | Some l => [Elem "variables" [] None (map variable_xml l)] end).

(** nsiframework.py:59-64 *)
Definition variable_build (e : element) : option string * option string := (e_get "type" e, findtext "value" e).
(** nsiframework.py:157-166 *)
Definition se_build (e : element) : service_exception :=
  mkSE (findtext "nsaId" e) (findtext "connectionId" e) (findtext "serviceType" e) (findtext "errorId" e) (findtext "text" e)
       (match find1 "variables" e with None => None | Some v => Some (map variable_build (e_kids v)) end).

(** a decoded error: text and variables may be missing; nsiframework.py:156-166 *)
Record decoded_error := mkDE {
  de_class : nclass;
  de_text  : option string;
  de_nsa   : option string;
  de_conn  : option string;
  de_vars  : option (list (option string * option string)) }.

(** helper.py:114-125; only AssertionError is caught, and nothing here raises it *)
Definition create_exception (s : service_exception) (provider : option string) : result decoded_error :=
  do! c <- lookup (se_errorId s);
  Ok (mkDE c (se_text s) (py_or (se_nsa s) provider) (se_conn s)
           (match se_vars s with None | Some [] => None | Some l => Some l end)).
