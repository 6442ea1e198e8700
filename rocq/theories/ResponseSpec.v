(** Messages as printers may send them: any groups in any order, attributes in any order, and
    attributes without a value.  Written from RFC 8010. *)
From Verif Require Import Base IppModel IppSpec.
From Coq Require Import Permutation.
Local Open Scope Z_scope.

(** RFC 8010 3.5.2: the out-of-band tags (unsupported 0x10, unknown 0x12, no-value 0x13 and
    others); their value is empty (3.9).  The decoder has no value of its own for them. *)
Definition out_of_band (e : string * ipp_attr) : Prop := 0x10 <= fst (snd e) <= 0x1F /\ snd (snd e) = VStr "".
Definition sent_entry (e : string * ipp_attr) : Prop :=
  fst e <> ""%string /\ str_ok (fst e) = true /\ (wf_attr (snd e) = true \/ out_of_band e).
(** RFC 8010 3.5.1: operation, job, printer and unsupported attributes *)
Definition group_tags : list Z := [1; 2; 4; 5].
Definition sent_group (g : Z * list (string * ipp_attr)) : Prop :=
  In (fst g) group_tags /\ Forall sent_entry (snd g) /\ NoDup (map fst (snd g)).
(** RFC 8010 3.1.1 *)
Definition sent_bytes (maj min op id : Z) (groups : list (Z * list (string * ipp_attr))) : list byte :=
  [bZ maj; bZ min] ++ be16 op ++ be32 id ++ flat_map (fun g => bZ (fst g) :: group_bytes (snd g)) groups ++ [bZ 3].
(** the groups with a tag, in their order *)
Definition groups_of (t : Z) (groups : list (Z * list (string * ipp_attr))) : list (list (string * ipp_attr)) :=
  map snd (filter (fun g => fst g =? t) groups).
(** the attributes sent, as a map *)
Definition as_map (sent : list (string * ipp_attr)) (m : ipp_attrs) : Prop := keys_sorted m = true /\ Permutation sent m.
