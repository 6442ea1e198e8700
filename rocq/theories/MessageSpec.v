(** What C93 and C94 talk about: whole DNS messages (RFC 1035, 4.1), and when a question is
    needed. *)
From Verif Require Import Base PpmSpec DiscoveryModel DiscoverySpec RecordSpec.

(** ** Messages *)
(** the fields before the data of a record, which start at [e] *)
Definition record_head (d : list byte) (p : nat) (owner : string) (type len : Z) (e : nat) : Prop :=
  exists ls e0 t1 t2 c1 c2 l1 l2 l3 l4 n1 n2 rest, rfc_name d p ls e0 /\ owner = dotted ls /\
  skipn e0 d = [t1; t2; c1; c2; l1; l2; l3; l4; n1; n2] ++ rest /\ type = un16 t1 t2 /\ len = un16 n1 n2 /\ e = (e0 + 10)%nat.
(** the strings of a text record *)
Inductive text_strings (d : list byte) (owner : string) : nat -> list event -> nat -> Prop :=
| text_end p : text_strings d owner p [] p
| text_more p b n k v evs e : nth_error d p = Some b -> Zb b = Z.of_nat n -> (S p + n <= length d)%nat -> key_value (string_of_bytes (firstn n (skipn (S p) d))) k v ->
    text_strings d owner (S p + n) evs e -> text_strings d owner p (ETxt owner k v :: evs) e.
(** a byte in decimal, an address in dotted notation *)
Definition digit (z : Z) : string := String (bZ (48 + z)) "".
Definition octet (b : byte) : string :=
  let z := Zb b in
  (if z <? 10 then digit z else if z <? 100 then digit (z / 10) ++ digit (z mod 10) else digit (z / 100) ++ digit (z / 10 mod 10) ++ digit (z mod 10))%Z%string.
Definition quad (a b c f : byte) : string := (octet a ++ "." ++ octet b ++ "." ++ octet c ++ "." ++ octet f)%string.
(** a record from [p] to [e] whose data are as long as it says, and what it tells *)
Inductive rfc_record (d : list byte) (p : nat) : list event -> nat -> Prop :=
| record_ptr owner len e ls e' : record_head d p owner 12 len e -> rfc_name d e ls e' -> Z.of_nat e' = (Z.of_nat e + len)%Z -> rfc_record d p [EPtr owner (dotted ls)] e'
| record_txt owner len e evs e' : record_head d p owner 16 len e -> text_strings d owner e evs e' -> Z.of_nat e' = (Z.of_nat e + len)%Z -> rfc_record d p evs e'
| record_srv owner len e x1 x2 x3 x4 p1 p2 rest ls e' : record_head d p owner 33 len e -> skipn e d = [x1; x2; x3; x4; p1; p2] ++ rest -> rfc_name d (e + 6) ls e' ->
    Z.of_nat e' = (Z.of_nat e + len)%Z -> rfc_record d p [ESrv owner (un16 p1 p2) (dotted ls)] e'
| record_a owner e a b c f rest : record_head d p owner 1 4 e -> skipn e d = [a; b; c; f] ++ rest -> rfc_record d p [EA owner (quad a b c f)] (e + 4)
| record_other owner type len e e' : record_head d p owner type len e -> (e' <= length d)%nat -> Z.of_nat e' = (Z.of_nat e + len)%Z ->
    type <> 12%Z -> type <> 16%Z -> type <> 33%Z -> type <> 1%Z -> rfc_record d p [] e'.
Inductive rfc_records (d : list byte) : nat -> nat -> list event -> nat -> Prop :=
| records_none p : rfc_records d 0 p [] p
| records_more n p evs q evs' e : rfc_record d p evs q -> rfc_records d n q evs' e -> rfc_records d (S n) p (evs ++ evs') e.
(** questions of any type and class *)
Inductive rfc_questions (d : list byte) : nat -> nat -> nat -> Prop :=
| questions_none p : rfc_questions d 0 p p
| questions_more n p ls e t1 t2 c1 c2 rest e' : rfc_name d p ls e -> skipn e d = [t1; t2; c1; c2] ++ rest -> rfc_questions d n (e + 4) e' -> rfc_questions d (S n) p e'.
(** a message, and what its answers, authorities and additional records tell *)
Definition rfc_message (d : list byte) (evs : list event) : Prop :=
  exists i1 i2 f1 f2 q1 q2 a1 a2 u1 u2 x1 x2 rest p e, d = [i1; i2; f1; f2; q1; q2; a1; a2; u1; u2; x1; x2] ++ rest /\
    rfc_questions d (Z.to_nat (un16 q1 q2)) 12 p /\ rfc_records d (Z.to_nat (un16 a1 a2) + Z.to_nat (un16 u1 u2) + Z.to_nat (un16 x1 x2)) p evs e.

(** ** Questions *)
Definition sent (acts : list action) : list (list byte) := flat_map (fun a => match a with Sent q => [q] | _ => [] end) acts.
(** the single questions of a sequence of queries *)
Definition single (qs : list (Z * list string)) : list (Z * string) := flat_map (fun q => map (pair (fst q)) (snd q)) qs.
(** names of IPP services *)
Definition ipp_owner (owner : string) : Prop := ends_with owner "_ipp._tcp.local" \/ ends_with owner "_ipps._tcp.local".
Definition pointed (evs : list event) (name : string) : Prop := exists owner, ipp_owner owner /\ In (EPtr owner name) evs.
Definition has_text (evs : list event) (name : string) : Prop := exists k v, In (ETxt name k v) evs.
Definition has_service (evs : list event) (name : string) : Prop := exists port target, In (ESrv name port target) evs.
Definition is_target (evs : list event) (name : string) : Prop := exists owner port, In (ESrv owner port name) evs.
Definition has_address (evs : list event) (name : string) : Prop := exists ip, In (EA name ip) evs.
(** with the records [evs] there is a reason to ask for the text (16), the service (33) or
    the address (1) of a name *)
Definition wanted (evs : list event) (q : Z * string) : Prop :=
  (fst q = 16%Z /\ pointed evs (snd q) /\ ~ has_text evs (snd q)) \/ (fst q = 33%Z /\ pointed evs (snd q) /\ ~ has_service evs (snd q))
  \/ (fst q = 1%Z /\ is_target evs (snd q) /\ ~ has_address evs (snd q)).
