(** What printers' information, requests and jobs have to be (C57-C59), stated without the
    model's functions. *)
From Verif Require Import Base MapModel StringModel IppModel StringSpec.
Local Open Scope Z_scope.

(** ** Lists of attributes (RFC 8011, 1setOf): the values of an attribute *)
Definition values (k : string) (m : ipp_attrs) : list ipp_value :=
  match map_get k m with
  | None => []
  | Some (_, VSet l) => l
  | Some (_, v) => [v]
  end.

(** ** Supplies *)
(** A marker-colors value names colours (RFC 8011/PWG 5100.9: #RRGGBB, several after each
    other, or none): its parts between number signs, the empty ones left out. *)
Definition colours (c : string) (l : list string) : Prop :=
  exists ps, glue "#" ps = c /\ ps <> [] /\ Forall (fun p => ~ occurs "#" p) ps /\
    l = map (fun p => if String.eqb p "none" then p else String.append "#" p) (filter (fun p => negb (String.eqb p "")) ps).

(** ** Requests *)
(** the attributes every request has (RFC 8011 4.1.4-4.1.5, 4.1.8) *)
Definition base_attr (user : option string) (addr k : string) : option ipp_attr :=
  if String.eqb k "attributes-charset" then Some (0x47, VStr "utf-8")
  else if String.eqb k "attributes-natural-language" then Some (0x48, VStr "en-us")
  else if String.eqb k "printer-uri" then Some (0x45, VStr addr)
  else if String.eqb k "requesting-user-name" then Some (0x42, VStr (match user with Some u => u | None => "anonymous" end))
  else None.
(** the request [m] is the operation [op] with the attributes given and the base attributes
    in a version the printer has *)
Definition request (user : option string) (addr : string) (pa : ipp_attrs) (op : Z) (given job prn : ipp_attrs) (m : ipp_msg) : Prop :=
  m_opOrStatus m = op /\
  (forall k, map_get k (m_opAttrs m) = match map_get k given with Some a => Some a | None => base_attr user addr k end) /\
  m_jobAttrs m = [job] /\ m_printerAttrs m = prn /\
  ((m_majVsn m, m_minVsn m) = (2, 0) /\ In (VStr "2.0") (values "ipp-versions-supported" pa) \/
   (m_majVsn m, m_minVsn m) = (1, 1) /\ ~ In (VStr "2.0") (values "ipp-versions-supported" pa)).

(** ** Responses *)
(** RFC 8011 4.1.6.1: 0x0000 to 0x00ff is success *)
Definition success (status : Z) : Prop := 0 <= status <= 0xff.
(** RFC 8010 3.1.1: the status code is the third and fourth byte of a response *)
Definition has_status (body : list byte) (status : Z) : Prop :=
  exists v1 v2 a b rest, body = v1 :: v2 :: a :: b :: rest /\ status = 256 * Zb a + Zb b.
(** a printer that is a file, for debugging *)
Definition file_printer (addr : string) : Prop := exists s, addr = ("file://" ++ s)%string.
