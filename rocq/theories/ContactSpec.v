(** What C95 and C96 talk about: lines of a text, and where a URL leads. *)
From Verif Require Import Base PpmSpec ContactModel.

(** ** Lines *)
Definition line_break : string := String "010" "".
Definition one_line (s : string) : Prop := ~ exists a b, s = (a ++ line_break ++ b)%string.
(** a text of lines, each ended by a line break *)
Inductive text_of : list string -> string -> Prop :=
| text_none : text_of [] ""
| text_line s l t : one_line s -> text_of l t -> text_of (s :: l) (s ++ line_break ++ t)%string.

(** ** Arrivals *)
(** [ds] arrive before the first pause of two seconds *)
Definition arrive (ds : list (list byte)) (l : list arrival) : Prop :=
  l = map Datagram ds \/ exists rest, l = map Datagram ds ++ Nothing :: rest.

(** ** URLs (RFC 3986, 3.2; the default ports: RFC 9110, 4.2 and RFC 8010, RFC 7472) *)
(** a host name or IPv4 address does not contain these *)
Definition host_name (h : string) : Prop := h <> ""%string /\ forall c, In c (bytes_of_string h) -> ~ In c [":"; "/"; "?"; "#"; "@"; "["]%char.
(** [url] leads to this port of this host and this path *)
Definition leads (scheme : string) (default : Z) (url host : string) (port : Z) (path : string) : Prop :=
  exists colon, ((colon = ""%string /\ port = default) \/ exists n, number (bytes_of_string n) port /\ colon = (":" ++ n)%string) /\
  host_name host /\ url = (scheme ++ "://" ++ host ++ colon ++ "/" ++ path)%string.
(** what curl contacts for a URL: with TLS or not *)
Definition contacts (url : string) (tls : bool) : string -> Z -> string -> Prop :=
  leads (if tls then "https" else "http") (if tls then 443 else 80) url.
(** what an ipp or ipps address means *)
Definition means (addr : string) (tls : bool) : string -> Z -> string -> Prop :=
  leads (if tls then "ipps" else "ipp") 631 addr.
