(** Where a request is sent: /repo/opennsa/protocols/shared/httpclient.py:39-85.
    URLs are texts of ASCII characters here; [str] URLs are encoded first (44-45). *)
From Verif Require Import Base.
Open Scope Z_scope.

(** what [httpRequest] does: connect (with TLS or not) to a host and port and
    send the Host header, fail without connecting, or raise; httpclient.py:39-83 *)
Inductive attempt :=
| Connect (tls : bool) (host : string) (port : Z) (host_header : string)
| NotSent                    (* a failed deferred with HTTPRequestError, lines 48, 52, 81 *)
| Raises (e : exn).

(** characters a scheme may have, urllib.parse.scheme_chars; httpclient.py:58 *)
Definition scheme_char (c : ascii) : bool :=
  let n := nat_of_ascii c in
  ((97 <=? n) && (n <=? 122) || (65 <=? n) && (n <=? 90) || is_digit c || Ascii.eqb c "+" || Ascii.eqb c "-" || Ascii.eqb c ".")%nat.
(** [s.lower()] of ASCII; httpclient.py:58 (urllib.parse) *)
Fixpoint lower (s : string) : string :=
  match s with
  | EmptyString => EmptyString
  | String c r =>
      let n := nat_of_ascii c in
      String (if ((65 <=? n) && (n <=? 90))%nat then ascii_of_nat (n + 32) else c) (lower r)
  end.
(** a text up to the first slash, question mark or hash; httpclient.py:58 (urllib.parse) *)
Fixpoint until_path (s : string) : string :=
  match s with
  | EmptyString => EmptyString
  | String c r => if Ascii.eqb c "/" || Ascii.eqb c "?" || Ascii.eqb c "#" then EmptyString else String c (until_path r)
  end.
(** httpclient.py:58, [twhttp.urlparse(url)]: scheme and network location.
    Simplification: the checks of square brackets (ValueError for an unclosed
    one) and the stripping of control characters in urllib.parse are left out. *)
Definition urlparse (url : string) : string * string :=
  let netloc r := if starts_with "//" r then until_path (sdrop 2 r) else "" in
  match split1 ":" url with
  | Some (s, r) => if negb (eqb s "") && sall scheme_char s then (lower s, netloc r) else ("", netloc url)
  | None => ("", netloc url)
  end.
(** httpclient.py:39-85; [ctx]: whether a context factory was given.  Line 61
    compares the scheme, which is bytes, with a [str]: never equal, so the
    default port is 443. *)
Definition http_request (url : string) (ctx : bool) : attempt :=
  if negb (starts_with "http" url) then NotSent else
  let '(scheme, netloc) := urlparse url in
  match (match split1 ":" netloc with
         | None => Ok (netloc, 443)
         | Some (host, p) => match py_int p with Some n => Ok (host, n) | None => Err EValue end
         end) with
  | Err e => Raises e
  | Ok (host, port) =>
      if eqb scheme "https" then if ctx then Connect true host port netloc else NotSent
      else Connect false host port netloc
  end.
