(** What the values of command line switches mean and which command lines are well formed,
    independent of how ArgModel reads them. *)
From Verif Require Import Base StringModel ParamsModel PpmSpec ParamsSpec ArgModel.
Local Open Scope Z_scope.

(** A number as strtol(3) reads it in base ten: white space, an optional sign, digits, and
    anything that is not a digit after them. *)
Definition int_text (s : string) (negative : bool) (n : Z) : Prop :=
  exists gap sign digits rest, s = (gap ++ sign ++ digits ++ rest)%string
    /\ Forall white (bytes_of_string gap)
    /\ (if negative then sign = "-" else sign = "" \/ sign = "+")%string
    /\ digits_of digits n
    /\ forall c rest', rest = String c rest' -> ~ 48 <= Zb c <= 57.
Definition signed (negative : bool) (n : Z) : Z := if negative then - n else n.
(** the first entry for [s] *)
Definition entry (m : list (string * Z)) (s : string) (z : Z) : Prop :=
  exists before after, m = before ++ (s, z) :: after /\ forall z', ~ In (s, z') before.
(** the text [s] gives a variable of a kind the value [x] *)
Definition value_text (k : kind) (s : string) (x : aval) : Prop :=
  match k with
  | KBool => x = ABool true
  | KString => x = AStr s
  | KInt => exists neg n, int_text s neg n /\ - 2 ^ 31 <= signed neg n < 2 ^ 31 /\ x = AInt (signed neg n)
  | KLong => exists neg n, int_text s neg n /\ - 2 ^ 63 <= signed neg n < 2 ^ 63 /\ x = AInt (signed neg n)
  | KUInt => exists neg n, int_text s neg n /\ n < 2 ^ 64 /\ x = AInt (signed neg n mod 2 ^ 32)
  | KULong => exists neg n, int_text s neg n /\ n < 2 ^ 64 /\ x = AInt (signed neg n mod 2 ^ 64)
  | KEnum m => exists z, entry m s z /\ x = AInt z
  end.

(** ** Command lines *)
(** [d] is the (first) switch called [name] *)
Definition known (defs : list switch) (name : string) (d : switch) : Prop :=
  exists before after, defs = before ++ d :: after /\ In name (sw_names d) /\ forall e, In e before -> ~ In name (sw_names e).
(** A sequence of switches, each with its value where it takes one, and the assignments
    it stands for. *)
Inductive switches (defs : list switch) : list string -> list (nat * aval) -> Prop :=
| switches_none : switches defs [] []
| switches_flag name d args l : known defs name d -> sw_kind d = KBool -> switches defs args l ->
    switches defs (name :: args) ((sw_id d, ABool true) :: l)
| switches_value name value x d args l : known defs name d -> sw_kind d <> KBool -> value_text (sw_kind d) value x -> switches defs args l ->
    switches defs (name :: value :: args) ((sw_id d, x) :: l).
(** Positional arguments: not more than defined, and those missing are optional.  The
    first is not the name of a switch. *)
Definition positional (defs : list switch) (pos : list posarg) (args : list string) : Prop :=
  (length args <= length pos)%nat /\ (forall p, In p (skipn (length args) pos) -> pa_optional p = true)
  /\ match args with [] => True | a :: _ => forall d, In d defs -> ~ In a (sw_names d) end.
Definition pos_assigned (pos : list posarg) (args : list string) : list (nat * aval) :=
  map (fun e => (pa_id (fst e), AStr (snd e))) (combine pos args).
(** the value assigned last *)
Fixpoint last_assigned (l : list (nat * aval)) (i : nat) : option aval :=
  match l with
  | [] => None
  | (j, v) :: l' => match last_assigned l' i with Some w => Some w | None => if Nat.eqb i j then Some v else None end
  end.
(** the command line [args] is well formed and makes the assignments [l] *)
Definition well_formed (defs : list switch) (pos : list posarg) (args : list string) (l : list (nat * aval)) : Prop :=
  exists sw p l1, args = sw ++ p /\ switches defs sw l1 /\ positional defs pos p /\ l = l1 ++ pos_assigned pos p.
(** the variables after the assignments [l] *)
Definition holds (st : astate) (l : list (nat * aval)) (st' : astate) : Prop :=
  forall i, a_val st' i = match last_assigned l i with Some v => v | None => a_val st i end
         /\ a_set st' i = match last_assigned l i with Some _ => true | None => a_set st i end.
(** a sub-command means what it was last defined to be *)
Definition sub_command (subs : list (string * (list switch * list posarg))) (name : string) (d : list switch * list posarg) : Prop :=
  exists before after, subs = before ++ (name, d) :: after /\ forall d', ~ In (name, d') after.
