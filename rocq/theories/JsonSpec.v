(** JSON texts (RFC 8259) as sequences of bytes: sections 2 to 7.  Bytes from 0x80 stand for
    themselves in strings; that they form UTF-8 is not asked for. *)
From Verif Require Import Base.
Local Open Scope Z_scope.

Definition is (z : Z) : list byte := [bZ z].
(** section 2: white space *)
Definition ws (l : list byte) : Prop := Forall (fun c => In (Zb c) [0x20; 0x09; 0x0a; 0x0d]) l.
(** section 7: strings *)
Definition hex (c : byte) : Prop := 48 <= Zb c <= 57 \/ 65 <= Zb c <= 70 \/ 97 <= Zb c <= 102.
Inductive chars : list byte -> Prop :=
| chars_nil : chars []
| chars_plain : forall c l, 0x20 <= Zb c -> Zb c <> 0x22 -> Zb c <> 0x5c -> chars l -> chars (c :: l)
| chars_escape : forall c l, In (Zb c) [0x22; 0x5c; 0x2f; 0x62; 0x66; 0x6e; 0x72; 0x74] -> chars l -> chars (bZ 0x5c :: c :: l)
| chars_unicode : forall a b c d l, hex a -> hex b -> hex c -> hex d -> chars l -> chars (bZ 0x5c :: bZ 0x75 :: a :: b :: c :: d :: l).
Definition jstring (l : list byte) : Prop := exists s, chars s /\ l = is 0x22 ++ s ++ is 0x22.
(** section 6: numbers *)
Definition digits (l : list byte) : Prop := l <> [] /\ Forall (fun c => 48 <= Zb c <= 57) l.
Definition jint (l : list byte) : Prop := l = is 48 \/ exists c l', l = c :: l' /\ 49 <= Zb c <= 57 /\ (l' = [] \/ digits l').
Definition jfrac (l : list byte) : Prop := exists d, digits d /\ l = is 0x2e ++ d.
Definition jexp (l : list byte) : Prop := exists e s d, (Zb e = 0x65 \/ Zb e = 0x45) /\ (s = [] \/ s = is 0x2d \/ s = is 0x2b) /\ digits d /\ l = e :: s ++ d.
Definition jnumber (l : list byte) : Prop :=
  exists m i f e, (m = [] \/ m = is 0x2d) /\ jint i /\ (f = [] \/ jfrac f) /\ (e = [] \/ jexp e) /\ l = m ++ i ++ f ++ e.
(** sections 3 to 5: values, arrays, objects *)
Inductive jvalue : list byte -> Prop :=
| jv_literal : forall l, In l [bytes_of_string "false"; bytes_of_string "null"; bytes_of_string "true"] -> jvalue l
| jv_number : forall l, jnumber l -> jvalue l
| jv_string : forall l, jstring l -> jvalue l
| jv_array_empty : forall w, ws w -> jvalue (is 0x5b ++ w ++ is 0x5d)
| jv_array : forall l, jelements l -> jvalue (is 0x5b ++ l ++ is 0x5d)
| jv_object_empty : forall w, ws w -> jvalue (is 0x7b ++ w ++ is 0x7d)
| jv_object : forall l, jmembers l -> jvalue (is 0x7b ++ l ++ is 0x7d)
with jelements : list byte -> Prop :=
| je_one : forall w1 v w2, ws w1 -> jvalue v -> ws w2 -> jelements (w1 ++ v ++ w2)
| je_more : forall w1 v w2 l, ws w1 -> jvalue v -> ws w2 -> jelements l -> jelements (w1 ++ v ++ w2 ++ is 0x2c ++ l)
with jmembers : list byte -> Prop :=
| jm_one : forall w1 k w2 w3 v w4, ws w1 -> jstring k -> ws w2 -> ws w3 -> jvalue v -> ws w4 -> jmembers (w1 ++ k ++ w2 ++ is 0x3a ++ w3 ++ v ++ w4)
| jm_more : forall w1 k w2 w3 v w4 l, ws w1 -> jstring k -> ws w2 -> ws w3 -> jvalue v -> ws w4 -> jmembers l ->
    jmembers (w1 ++ k ++ w2 ++ is 0x3a ++ w3 ++ v ++ w4 ++ is 0x2c ++ l).
Definition json_text (l : list byte) : Prop := exists w1 v w2, ws w1 /\ jvalue v /\ ws w2 /\ l = w1 ++ v ++ w2.
