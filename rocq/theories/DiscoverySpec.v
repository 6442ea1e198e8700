(** What C41-C46 talk about: DNS names, questions and records in a datagram (RFC 1035). *)
From Verif Require Import Base.

(** [name_at lim ref d p ls e]: at offset [p] of the datagram [d] there is a name with
    labels [ls], and what comes after the name starts at [e] (RFC 1035, 3.1 and 4.1.4).
    Labels have 1 to [lim] bytes, the offset in a pointer is taken modulo [ref]. *)
Inductive name_at (lim ref : Z) (d : list byte) : nat -> list string -> nat -> Prop :=
| name_end p b : nth_error d p = Some b -> Zb b = 0%Z -> name_at lim ref d p [] (S p)
| name_label p b n ls e : nth_error d p = Some b -> Zb b = Z.of_nat n -> (0 < Z.of_nat n <= lim)%Z ->
    (S p + n <= length d)%nat -> name_at lim ref d (S p + n) ls e ->
    name_at lim ref d p (string_of_bytes (firstn n (skipn (S p) d)) :: ls) e
| name_ptr p b1 b2 ls e : nth_error d p = Some b1 -> nth_error d (S p) = Some b2 -> (192 <= Zb b1)%Z ->
    name_at lim ref d (Z.to_nat (un16 b1 b2 mod ref)) ls e -> name_at lim ref d p ls (S (S p)).
(** as the RFC has it *)
Definition rfc_name := name_at 63 16384.

(** the labels with dots between them *)
Fixpoint dotted (ls : list string) : string :=
  match ls with
  | [] => ""
  | [l] => l
  | l :: r => (l ++ "." ++ dotted r)%string
  end.

(** [questions_at d qtype p names e]: questions for [names], of type [qtype] and class IN *)
Inductive questions_at (d : list byte) (qtype : Z) : nat -> list string -> nat -> Prop :=
| no_question p : questions_at d qtype p [] p
| one_question p ls e rest e' : rfc_name d p ls e -> firstn 4 (skipn e d) = be16 qtype ++ be16 1 ->
    questions_at d qtype (e + 4) rest e' -> questions_at d qtype p (dotted ls :: rest) e'.

(** a name that can be put into a question: labels of 1 to 63 bytes without dots *)
Definition label_ok (l : string) : Prop := (1 <= String.length l <= 63)%nat /\ ~ exists a b, l = (a ++ "." ++ b)%string.
Definition name_ok (name : string) : Prop := exists ls, ls <> [] /\ Forall label_ok ls /\ name = dotted ls.
