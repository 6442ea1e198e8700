(** lib/stringutils.h and the std::string / <string> functions the code uses. *)
From Verif Require Import Base.
Local Open Scope string_scope.

(** s.substr(n) for n <= s.length() *)
Fixpoint drop (n : nat) (s : string) : string :=
  match n, s with
  | O, _ => s
  | S n', String _ s' => drop n' s'
  | S _, EmptyString => EmptyString
  end.

(** s.substr(0, n) *)
Definition take (n : nat) (s : string) : string := substring 0 n s.

(** std::string::find(tok): index of the first occurrence, None for npos *)
Fixpoint find_str (tok s : string) : option nat :=
  if prefix tok s then Some O
  else match s with
       | EmptyString => None
       | String _ s' => option_map S (find_str tok s')
       end.

(** stringutils.h:8-15 *)
Definition string_starts_with (s start : string) : bool :=
  if (String.length start <=? String.length s)%nat
  then String.eqb (take (String.length start) s) start
  else false.

(** stringutils.h:17-24 *)
Definition string_ends_with (s ending : string) : bool :=
  if (String.length ending <=? String.length s)%nat
  then String.eqb (take (String.length ending)
                        (drop (String.length s - String.length ending) s)) ending
  else false.

(** stringutils.h:26-29 *)
Definition string_contains (s what : string) : bool :=
  match find_str what s with Some _ => true | None => false end.

(** stringutils.h:31-42.  [rest] is s.substr(pos); the loop condition
    pos <= s.length() holds exactly while there is a rest, and pos = found+1
    passes the end exactly when found was s.length().  Note that the position
    advances by 1, not by the length of the token (line 39). *)
Fixpoint split_loop (fuel : nat) (tok rest : string) : list string :=
  match fuel with
  | O => []
  | S f =>
      let found := match find_str tok rest with
                   | Some k => Nat.min (String.length rest) k
                   | None => String.length rest
                   end in
      take found rest ::
      (if (found <? String.length rest)%nat
       then split_loop f tok (drop (found + 1) rest)
       else [])
  end.
Definition split_string (s tok : string) : list string :=
  split_loop (S (String.length s)) tok s.

(** stringutils.h:44-56 *)
Definition join_string (l : list string) (sep : string) : string :=
  match l with
  | [] => ""
  | first :: rest => fold_left (fun res e => res ++ (sep ++ e)) rest first
  end.

(** converter.h:78-83: the text transformation of FixupText *)
Definition crlf : string := String "013" (String "010" "").
Definition lf : string := String "010" "".
Definition fixup_text (allText : string) : string :=
  join_string (flat_map (fun rnline => split_string rnline lf)
                        (split_string allText crlf)) crlf.

(** Characters *)
Definition is_digit (c : ascii) : bool :=
  (48 <=? Zb c)%Z && (Zb c <=? 57)%Z.
Definition digit_val (c : ascii) : Z := (Zb c - 48)%Z.
(** std::isspace in the "C" locale: space, \t \n \v \f \r *)
Definition is_space (c : ascii) : bool :=
  (Zb c =? 32)%Z || ((9 <=? Zb c)%Z && (Zb c <=? 13)%Z).

(** value of the longest digit prefix, and whether there is one *)
Fixpoint scan_digits (s : string) (acc : Z) : Z :=
  match s with
  | String c s' => if is_digit c then scan_digits s' (acc * 10 + digit_val c)%Z else acc
  | EmptyString => acc
  end.
Definition starts_digit (s : string) : bool :=
  match s with String c _ => is_digit c | EmptyString => false end.
Fixpoint skip_space (s : string) : string :=
  match s with
  | String c s' => if is_space c then skip_space s' else s
  | EmptyString => s
  end.

(** std::stoul(s): strtoul base 10, 64-bit unsigned long.  Leading white space and
    a sign are accepted, trailing characters ignored; no digits: invalid_argument;
    magnitude >= 2^64: out_of_range; a minus sign negates modulo 2^64. *)
Definition stoul (s : string) : outcome Z :=
  let s := skip_space s in
  let '(neg, s) := match s with
                   | String c s' =>
                       if (Zb c =? 45)%Z then (true, s')
                       else if (Zb c =? 43)%Z then (false, s') else (false, s)
                   | EmptyString => (false, s)
                   end in
  if starts_digit s then
    let v := scan_digits s 0%Z in
    if (v <? two64)%Z then Ok (if neg : bool then ((- v) mod two64)%Z else v)
    else Throw OutOfRange
  else Throw InvalidArgument.

(** std::stoi(s): as stoul, signed, 32-bit int *)
Definition stoi (s : string) : outcome Z :=
  let s := skip_space s in
  let '(neg, s) := match s with
                   | String c s' =>
                       if (Zb c =? 45)%Z then (true, s')
                       else if (Zb c =? 43)%Z then (false, s') else (false, s)
                   | EmptyString => (false, s)
                   end in
  if starts_digit s then
    let v := scan_digits s 0%Z in
    let v := if neg : bool then (- v)%Z else v in
    if ((-2147483648 <=? v) && (v <? 2147483648))%Z then Ok v
    else Throw OutOfRange
  else Throw InvalidArgument.

(** decimal rendering of a non-negative number: std::to_string(size_t),
    ostream << size_t *)
Definition digit_char (d : Z) : ascii := bZ (48 + d).
Fixpoint dec_digits (fuel : nat) (z : Z) (acc : string) : string :=
  match fuel with
  | O => acc
  | S f =>
      let acc := String (digit_char (z mod 10)) acc in
      if (z <? 10)%Z then acc else dec_digits f (z / 10) acc
  end.
Definition dec_string (z : Z) : string := dec_digits (S (Z.to_nat (Z.log2 z))) z "".
