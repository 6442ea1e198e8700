(** lib/argget.h: the help texts. *)
From Verif Require Import Base StringModel ArgModel.
Local Open Scope string_scope.

Definition endl : string := String "010" "".
(** std::left << std::setw(w): spaces are added on the right up to a width of [w] *)
Fixpoint spaces (n : nat) : string := match n with O => "" | S n' => String " " (spaces n') end.
Definition setw_left (w : nat) (s : string) : string := s ++ spaces (w - String.length s).
(** A switch and its documentation (the member _doc: argget.h:87-90). *)
Definition documented : Type := switch * string.
(** ArgGet::_argHelp: argget.h:349-374.  The length of a docName is far below the int that
    setw takes. *)
Definition arg_help_body (defs : list documented) (pos : list posarg) : string :=
  let w := fold_left (fun w d => Nat.max w (String.length (switch_doc (fst d)))) defs O in
  (match defs with [] => "" | _ => " [options]" end)
    ++ fold_left (fun help p => help ++ " " ++ pos_doc p) pos "" ++ endl
    ++ fold_left (fun help d => help ++ "  " ++ setw_left w (switch_doc (fst d)) ++ "    " ++ snd d ++ endl) defs "".
(** ArgGet::argHelp: argget.h:336-340 *)
Definition arg_help (name : string) (defs : list documented) (pos : list posarg) : string := "Usage: " ++ name ++ arg_help_body defs pos.

(** SubArgGet::argHelp: argget.h:437-454.  The sub-commands are those of a std::map that the
    constructor (391-398) filled, in which a later one of the same name replaces an
    earlier one; _order lists all of them. *)
Definition sub_docs : Type := list (string * (list documented * list posarg)).
Fixpoint find_docs (subs : sub_docs) (name : string) : option (list documented * list posarg) :=
  match subs with
  | [] => None
  | (n, d) :: subs' =>
      match find_docs subs' name with
      | Some d' => Some d'
      | None => if String.eqb n name then Some d else None
      end
  end.
Definition sub_section (name : string) (subs : sub_docs) (sub : string) : string :=
  match find_docs subs sub with
  | Some (defs, pos) => name ++ " " ++ sub ++ arg_help_body defs pos ++ endl
  | None => ""
  end.
Definition sub_arg_help (name : string) (subs : sub_docs) (sub : string) : string :=
  ("Usage: " ++ name ++ " <sub-command> [options]" ++ endl ++ endl)
    ++ (match find_docs subs sub with
        | Some _ => sub_section name subs sub
        | None => fold_left (fun help s => help ++ sub_section name subs (fst s)) subs ""
        end).
