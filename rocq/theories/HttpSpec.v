(** What libcurl does with its settings, as documented, and what IPP needs of it. *)
From Verif Require Import Base HttpModel.
Local Open Scope Z_scope.

(** ** libcurl *)
(** the setting of a kind made last, or the default *)
Definition last_of {A} (pick : setting -> option A) (default : A) (l : list setting) : A :=
  fold_left (fun a s => match pick s with Some x => x | None => a end) l default.
(** A line of CURLOPT_HTTPHEADER is a name, a colon and a value.  Without a value it means that
    curl shall not send a header of its own with that name. *)
Fixpoint before_colon (s : string) : string :=
  match s with EmptyString => "" | String c s' => if Ascii.eqb c ":" then "" else String c (before_colon s') end.
Fixpoint after_colon (s : string) : string :=
  match s with EmptyString => "" | String c s' => if Ascii.eqb c ":" then s' else after_colon s' end.
Fixpoint trim (s : string) : string :=
  match s with String c s' => if Ascii.eqb c " " then trim s' else s | EmptyString => "" end.
Definition lower (c : ascii) : ascii := if (65 <=? Zb c) && (Zb c <=? 90) then bZ (Zb c + 32) else c.
Fixpoint lower_case (s : string) : string :=
  match s with EmptyString => "" | String c s' => String (lower c) (lower_case s') end.
Definition header (name : string) (l : list string) : list string :=
  map (fun s => trim (after_colon s)) (filter (fun s => String.eqb (lower_case (before_colon s)) name) l).

(** How the end of the body is told *)
Inductive framing := Sized (n : Z) | Chunked | Unsized.
Record transfer := mkTransfer {
  t_post : bool;                  (* POST rather than GET *)
  t_url : string;
  t_content_type : list string;   (* the values of the header *)
  t_framing : framing;
  t_waits : bool;                 (* it may wait for a 100 Continue before sending the body *)
  t_fails : bool;                 (* a response with status 400 or above is an error *)
  t_peer : bool;                  (* the certificate of the server is verified *)
  t_host : bool                   (* the certificate must be for the host contacted *)
}.
Definition headers_of (l : list setting) : list string := last_of (fun s => match s with HTTPHEADER h => Some h | _ => None end) [] l.
Definition body_size (l : list setting) : Z := last_of (fun s => match s with POSTFIELDSIZE n => Some n | _ => None end) (-1) l.
Definition posts (l : list setting) : bool := last_of (fun s => match s with POST n => Some (negb (n =? 0)) | _ => None end) false l.
Definition curl (l : list setting) : transfer :=
  let h := headers_of l in
  mkTransfer (posts l)
    (last_of (fun s => match s with URL u => Some u | _ => None end) ""%string l)
    (match header "content-type" h with [] => if posts l then ["application/x-www-form-urlencoded"%string] else [] | v => v end)
    (if existsb (String.eqb "chunked") (header "transfer-encoding" h) then Chunked else if 0 <=? body_size l then Sized (body_size l) else Unsized)
    (match header "expect" h with [] => posts l | v => existsb (fun s => negb (String.eqb s "")) v end)
    (last_of (fun s => match s with FAILONERROR n => Some (negb (n =? 0)) | _ => None end) false l)
    (last_of (fun s => match s with SSL_VERIFYPEER n => Some (negb (n =? 0)) | _ => None end) true l)
    (last_of (fun s => match s with SSL_VERIFYHOST n => Some (negb (n =? 0)) | _ => None end) true l).

(** ** IPP over HTTP: RFC 8010, 3 and 4; RFC 9112, 6 *)
Definition ipp_request (t : transfer) (url : string) (f : framing) : Prop :=
  t_post t = true /\ t_url t = url /\ t_content_type t = ["application/ipp"%string] /\ t_framing t = f /\ t_waits t = false /\ t_fails t = true.
(** the server is who it should be: RFC 8010, 8.1; RFC 2818, 3.1 *)
Definition verified (t : transfer) : Prop := t_peer t = true /\ t_host t = true.
