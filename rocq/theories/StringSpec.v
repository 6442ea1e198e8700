(** What splitting, joining and line-end normalisation mean, independent of the model. *)
From Verif Require Import Base.
Local Open Scope string_scope.

(** the pieces put together with the separator between them *)
Fixpoint glue (sep : string) (l : list string) : string :=
  match l with
  | [] => ""
  | [p] => p
  | p :: rest => p ++ sep ++ glue sep rest
  end.
Definition occurs (what s : string) : Prop := exists a b, s = a ++ what ++ b.

Definition CR : ascii := bZ 13.
Definition LF : ascii := bZ 10.
Definition CRLF : string := String CR (String LF "").
(** every LF and every CRLF becomes one CRLF, everything else stays *)
Inductive normalised : string -> string -> Prop :=
| norm_nil : normalised "" ""
| norm_crlf : forall s t, normalised s t -> normalised (CRLF ++ s) (CRLF ++ t)
| norm_lf : forall s t, normalised s t -> normalised (String LF s) (CRLF ++ t)
| norm_other : forall c s t, c <> LF -> (c = CR -> forall r, s <> String LF r) ->
    normalised s t -> normalised (String c s) (String c t).
