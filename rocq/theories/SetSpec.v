(** C108, C109: what set-attrs should do with the pairs it is given, and what a text with a
    language is. *)
From Verif Require Import Base MapModel IppModel ArgModel ArgSpec PpmCmdSpec.
Local Open Scope Z_scope.

(** What a text means as a value of a syntax (the tags of RFC 8010 3.5.2): a number for
    integer and enum, true or false for boolean, itself for the strings.  For the other
    syntaxes (dates, resolutions, ranges, collections, octets) no text means anything. *)
Inductive meant (s : string) : Z -> ipp_value -> Prop :=
| meant_number tag z : In tag [0x21; 0x23] -> integer s z -> meant s tag (VInt z)
| meant_true : s = "true"%string -> meant s 0x22 (VBool true)
| meant_false : s = "false"%string -> meant s 0x22 (VBool false)
| meant_text tag : In tag [0x35; 0x36; 0x41; 0x42; 0x44; 0x45; 0x46; 0x47; 0x48; 0x49] -> meant s tag (VStr s).

(** the value given last for a name *)
Inductive last_given (name : string) : list (string * string) -> string -> Prop :=
| last_here s l : ~ In name (map fst l) -> last_given name ((name, s) :: l) s
| last_later p l s : last_given name l s -> last_given name (p :: l) s.

(** [attrs] are the attributes of the printer that are named, each with what the text given
    last for it means in the syntax the printer uses, and nothing else *)
Definition settled (pa : ipp_attrs) (l : list (string * string)) (attrs : ipp_attrs) : Prop :=
  forall name tag v, map_get name attrs = Some (tag, v) <->
    exists s old, last_given name l s /\ map_get name pa = Some (tag, old) /\ meant s tag v.
(** an attribute of the printer is given a text without a meaning *)
Definition meaningless (pa : ipp_attrs) (l : list (string * string)) : Prop :=
  exists name s tag old, In (name, s) l /\ map_get name pa = Some (tag, old) /\ forall v, ~ meant s tag v.

(** RFC 8010 3.9: textWithLanguage and nameWithLanguage are the length of the language in two
    bytes, the language, the length of the text in two bytes, and the text.  RFC 8011 5.1.9:
    a language has at most 63 bytes. *)
Definition two_bytes (n : nat) : string := String (bZ (Z.of_nat n / 256)) (String (bZ (Z.of_nat n mod 256)) "").
Definition with_language (language text : string) : string :=
  (two_bytes (String.length language) ++ language ++ two_bytes (String.length text) ++ text)%string.
(** words of a command line end at a zero byte *)
Definition a_word (s : string) : Prop := ~ In (bZ 0) (bytes_of_string s).
