(** What C43-C46 talk about: resource records in a datagram and printer addresses. *)
From Verif Require Import Base PpmSpec DiscoveryModel DiscoverySpec.

(** names as get_addr takes them: see C41 *)
Definition lenient_name := name_at 191 4096.

(** a record starts at [p]: owner, type, length field; its data start at [e] *)
Definition header_at (d : list byte) (p : nat) (owner : string) (type len : Z) (e : nat) : Prop :=
  exists ls e0 t1 t2 c1 c2 l1 l2 l3 l4 n1 n2 rest, lenient_name d p ls e0 /\ owner = dotted ls /\
  skipn e0 d = [t1; t2; c1; c2; l1; l2; l3; l4; n1; n2] ++ rest /\ type = un16 t1 t2 /\ len = un16 n1 n2 /\ e = (e0 + 10)%nat.
Definition ip_text (a b c f : byte) (ip : string) : Prop :=
  exists n1 n2 n3 n4, ip = (n1 ++ "." ++ n2 ++ "." ++ n3 ++ "." ++ n4)%string /\ number (bytes_of_string n1) (Zb a) /\ number (bytes_of_string n2) (Zb b) /\ number (bytes_of_string n3) (Zb c) /\ number (bytes_of_string n4) (Zb f).
(** key=value; a text without = is both key and value *)
Definition key_value (text k v : string) : Prop :=
  (text = (k ++ "=" ++ v)%string /\ ~ exists a b, k = (a ++ "=" ++ b)%string) \/ (text = k /\ v = text /\ ~ exists a b, k = (a ++ "=" ++ b)%string).
Inductive record_at (d : list byte) (p : nat) : event -> Prop :=
| rec_ptr owner len e ls e' : header_at d p owner 12 len e -> lenient_name d e ls e' -> record_at d p (EPtr owner (dotted ls))
| rec_txt owner len e q b n k v : header_at d p owner 16 len e -> (e <= q)%nat -> nth_error d q = Some b -> Zb b = Z.of_nat n -> (S q + n <= length d)%nat ->
    key_value (string_of_bytes (firstn n (skipn (S q) d))) k v -> record_at d p (ETxt owner k v)
| rec_srv owner len e x1 x2 x3 x4 p1 p2 rest ls e' : header_at d p owner 33 len e -> skipn e d = [x1; x2; x3; x4; p1; p2] ++ rest -> lenient_name d (e + 6) ls e' ->
    record_at d p (ESrv owner (un16 p1 p2) (dotted ls))
| rec_a owner len e a b c f rest ip : header_at d p owner 1 len e -> skipn e d = [a; b; c; f] ++ rest -> ip_text a b c f ip -> record_at d p (EA owner ip).
Definition received (ds : list (list byte)) (e : event) : Prop := exists d p, In d ds /\ record_at d p e.

(** a printer's address: scheme://ip[:port]/path, the port left out if it is the default *)
Definition address (scheme : string) (default port : Z) (ip rp a : string) : Prop :=
  exists colon, (if Z.eqb port default then colon = ""%string else exists n, number (bytes_of_string n) port /\ colon = (":" ++ n)%string) /\
  a = (scheme ++ "://" ++ ip ++ colon ++ "/" ++ rp)%string.
Definition ends_with (s tail : string) : Prop := exists t, s = (t ++ tail)%string.
(** the records that make a printer of the service *)
Definition backed (service scheme : string) (default : Z) (recs : event -> Prop) (ip rp a : string) : Prop :=
  exists owner ptr port target, recs (EPtr owner ptr) /\ ends_with owner service /\ recs (ESrv ptr port target) /\ recs (ETxt ptr "rp" rp) /\ recs (EA target ip) /\
  address scheme default port ip rp a.
Definition ipp_backed := backed "_ipp._tcp.local" "ipp" 631.
Definition ipps_backed := backed "_ipps._tcp.local" "ipps" 443.
Definition reported (acts : list action) : list string := flat_map (fun a => match a with Reported x => [x] | _ => [] end) acts.

(** ** What the latest records say, from the sequence of all records parsed so far *)
Definition last_srv (ptr : string) (evs : list event) : option (Z * string) :=
  fold_left (fun acc e => match e with ESrv o p t => if String.eqb o ptr then Some (p, t) else acc | _ => acc end) evs None.
Definition last_txt (ptr key : string) (evs : list event) : option string :=
  fold_left (fun acc e => match e with ETxt o k v => if String.eqb o ptr && String.eqb k key then Some v else acc | _ => acc end) evs None.
Definition ips_of (target : string) (evs : list event) : list string :=
  flat_map (fun e => match e with EA o ip => if String.eqb o target then [ip] else [] | _ => [] end) evs.
Definition all_events (ds : list (list byte)) : list event := flat_map (fun d => fst (parse d)) ds.

(** ** Where the content of a record ends *)
Inductive strings_at (d : list byte) : nat -> nat -> Prop :=
| strings_none p : strings_at d p p
| strings_more p b n e : nth_error d p = Some b -> Zb b = Z.of_nat n -> (S p + n <= length d)%nat -> strings_at d (S p + n) e -> strings_at d p e.
Inductive content_at (d : list byte) : Z -> nat -> nat -> Prop :=
| content_ptr p ls e : lenient_name d p ls e -> content_at d 12 p e
| content_txt p e : strings_at d p e -> content_at d 16 p e
| content_srv p ls e : lenient_name d (p + 6) ls e -> content_at d 33 p e
| content_a p : content_at d 1 p (p + 4)
| content_other t p e : t <> 12%Z -> t <> 16%Z -> t <> 33%Z -> t <> 1%Z -> content_at d t p e.
