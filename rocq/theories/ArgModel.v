(** lib/argget.h, and the command lines of utils/bsplit.cpp and utils/ppm2pwg_main.cpp. *)
From Verif Require Import Base StringModel FloatModel ParamsModel PpmModel.
Local Open Scope Z_scope.

(** What an option variable can hold: a std::string, an integer (or enumerator), a bool *)
Inductive aval := AStr (s : string) | AInt (z : Z) | ABool (b : bool).

(** SwitchArg<T> for the types with a convert overload (argget.h:148-155; long long is
    as long) and EnumSwitchArg<T> with its mappings (a std::map; keys are unique) *)
Inductive kind := KBool | KString | KInt | KLong | KUInt | KULong | KEnum (m : list (string * Z)).

(** A switch: argget.h:28-101.  [sw_id] identifies the object and the variable it refers
    to. *)
Record switch := mkSwitch { sw_id : nat; sw_kind : kind; sw_names : list string; sw_hint : string }.
(** A positional argument: argget.h:213-245 *)
Record posarg := mkPos { pa_id : nat; pa_name : string; pa_optional : bool }.

(** the variables and the _set flags *)
Record astate := mkA { a_val : nat -> aval; a_set : nat -> bool }.
Definition assign (st : astate) (id : nat) (v : aval) : astate :=
  mkA (fun i => if Nat.eqb i id then v else a_val st i) (fun i => if Nat.eqb i id then true else a_set st i).

(** std::stol: as stoi with 64 bits *)
Definition stol (s : string) : outcome Z :=
  let s := skip_space s in
  let '(neg, s) := match s with
                   | String c s' =>
                       if Zb c =? 45 then (true, s')
                       else if Zb c =? 43 then (false, s') else (false, s)
                   | EmptyString => (false, s)
                   end in
  if starts_digit s then
    let v := scan_digits s 0 in
    let v := if neg : bool then - v else v in
    if (-9223372036854775808 <=? v) && (v <? 9223372036854775808) then Ok v
    else Throw OutOfRange
  else Throw InvalidArgument.

Fixpoint enum_get (m : list (string * Z)) (s : string) : option Z :=
  match m with
  | [] => None
  | (k, v) :: m' => if String.eqb s k then Some v else enum_get m' s
  end.
(** convert (argget.h:148-155; unsigned int gets the low 32 bits of an unsigned long) and
    the lookup of EnumSwitchArg::get_value (argget.h:193-206) *)
Definition convert (k : kind) (s : string) : outcome aval :=
  match k with
  | KBool => Ok (ABool true)
  | KString => Ok (AStr s)
  | KInt => let! z := stoi s in Ok (AInt z)
  | KLong => let! z := stol s in Ok (AInt z)
  | KUInt => let! z := stoul s in Ok (AInt (z mod two32))
  | KULong => let! z := stoul s in Ok (AInt z)
  | KEnum m => match enum_get m s with Some z => Ok (AInt z) | None => Throw InvalidArgument end
  end.

(** SwitchArgBase::parse: argget.h:41-66 with get_value (116-130, 193-206); the argument
    list is not empty.  An error leaves the unread arguments, for the error message. *)
Inductive parsed := NoMatch | Parsed (st : astate) (args : list string) | Failed (args : list string).
Definition parse_switch (d : switch) (st : astate) (args : list string) : parsed :=
  match args with
  | [] => NoMatch
  | a :: rest =>
      if existsb (String.eqb a) (sw_names d) then
        match sw_kind d with
        | KBool => Parsed (assign st (sw_id d) (ABool true)) rest
        | k =>
            match rest with
            | [] => Failed []
            | v :: rest' =>
                match convert k v with
                | Ok x => Parsed (assign st (sw_id d) x) rest'
                | _ => Failed rest
                end
            end
        end
      else NoMatch
  end.

(** docName of a switch: argget.h:70-83 with typeHint (132-146, 181-184) *)
Definition type_hint (k : kind) : string :=
  match k with KBool => "" | KString => " <string>" | KEnum _ => " <choice>" | _ => " <int>" end.
Definition switch_doc (d : switch) : string := (join_string (sw_names d) ", " ++ type_hint (sw_kind d))%string.
Definition pos_doc (p : posarg) : string :=
  if pa_optional p then ("[" ++ pa_name p ++ "]")%string else ("<" ++ pa_name p ++ ">")%string.
(** argget.h:289-306 *)
Definition switch_error (d : switch) (args : list string) : string :=
  match args with
  | [] => "Missing value for " ++ switch_doc d
  | a :: _ =>
      if String.eqb (sw_hint d) "" then "Bad value for " ++ switch_doc d ++ " (" ++ a ++ ")"
      else sw_hint d ++ " (" ++ a ++ ")"
  end%string.

(** argget.h:279-307: the definitions tried in order *)
Inductive stepped := Stuck | Went (st : astate) (args : list string) | Bad (msg : string).
Fixpoint try_switches (defs : list switch) (st : astate) (args : list string) : stepped :=
  match defs with
  | [] => Stuck
  | d :: defs' =>
      match parse_switch d st args with
      | Parsed st' args' => Went st' args'
      | Failed args' => Bad (switch_error d args')
      | NoMatch => try_switches defs' st args
      end
  end.
(** argget.h:275-308: while(progress && argList.size() != 0); each iteration takes an
    argument.  The variables keep what was assigned before an error. *)
Fixpoint switch_loop (fuel : nat) (defs : list switch) (st : astate) (args : list string)
  : outcome ((astate * list string) + (string * astate)) :=
  match args with
  | [] => Ok (inl (st, []))
  | _ =>
      match fuel with
      | O => NoFuel
      | S fuel' =>
          match try_switches defs st args with
          | Stuck => Ok (inl (st, args))
          | Went st' args' => switch_loop fuel' defs st' args'
          | Bad msg => Ok (inr (msg, st))
          end
      end
  end.

(** argget.h:316-323 with PosArg::parse (224-234) *)
Fixpoint parse_pos (defs : list posarg) (st : astate) (args : list string) : (astate * list string) + (string * astate) :=
  match defs with
  | [] => inl (st, args)
  | p :: defs' =>
      match args with
      | a :: args' => parse_pos defs' (assign st (pa_id p) (AStr a)) args'
      | [] => if pa_optional p then parse_pos defs' st []
              else inr (("Missing positional argument " ++ pos_doc p)%string, st)
      end
  end.

(** ArgGet::get_args: argget.h:260-334, on the arguments after the program name.  The
    result, the error message and the variables. *)
Definition get_args (defs : list switch) (pos : list posarg) (st : astate) (args : list string) : outcome (bool * string * astate) :=
  let! r := switch_loop (length args) defs st args in
  match r with
  | inr (msg, st) => Ok (false, msg, st)
  | inl (st, rest) =>
      if (length pos <? length rest)%nat then Ok (false, ("Unknown argument: " ++ hd "" rest)%string, st)
      else
        match parse_pos pos st rest with
        | inr (msg, st) => Ok (false, msg, st)
        | inl (st, []) => Ok (true, ""%string, st)
        | inl (st, a :: _) => Ok (false, ("Unknown argument: " ++ a)%string, st)
        end
  end.

(** SubArgGet::get_args: argget.h:400-435, on the arguments after the program name.  The
    constructor (391-398) builds a std::map: a later definition of the same sub-command
    replaces an earlier one.  The selected sub-command is the second component. *)
Fixpoint find_sub (subs : list (string * (list switch * list posarg))) (name : string) : option (list switch * list posarg) :=
  match subs with
  | [] => None
  | (n, d) :: subs' =>
      match find_sub subs' name with
      | Some d' => Some d'
      | None => if String.eqb n name then Some d else None
      end
  end.
Definition sub_get_args (subs : list (string * (list switch * list posarg))) (st : astate) (args : list string)
  : outcome (bool * string * string * astate) :=
  match args with
  | [] => Ok (false, ""%string, "No sub-command given"%string, st)
  | name :: rest =>
      match find_sub subs name with
      | None => Ok (false, name, "Invalid sub-command"%string, st)
      | Some (defs, pos) =>
          let! (r, st') := get_args defs pos st rest in
          let '(ok, msg) := r in
          Ok (ok, name, msg, st')
      end
  end.

(** ** bsplit: utils/bsplit.cpp *)
(** the options: bsplit.cpp:17-31; ids 0 help, 1 head, 2 tail, 3 and 4 the files *)
Definition bsplit_switches : list switch :=
  [ mkSwitch 0 KBool ["-h"; "--help"] ""; mkSwitch 1 KInt ["--head"] ""; mkSwitch 2 KInt ["--tail"] "" ]%string.
Definition bsplit_pos : list posarg := [ mkPos 3 "input file" false; mkPos 4 "output file" false ].
Definition bsplit_init : astate := mkA (fun i => match i with 0%nat => ABool false | 1%nat | 2%nat => AInt 0 | _ => AStr "" end) (fun _ => false).
Definition as_int (v : aval) : Z := match v with AInt z => z | _ => 0 end.
Definition as_bool (v : aval) : bool := match v with ABool b => b | _ => false end.
Definition as_str (v : aval) : string := match v with AStr s => s | _ => ""%string end.

(** bsplit.cpp:59-70 and 71-83: int + size_t is computed in size_t (64 bits) and stored
    to an int; getBytestream and += take a size_t *)
Definition split_length (size n : Z) : Z :=
  if n <? 0 then to_s32 (((size + n) mod two64) mod two32) else n.
Definition bsplit_head (bts : list byte) (n : Z) : outcome (list byte) :=
  let size := Z.of_nat (length bts) in
  let! (b, _) := get_bytes (split_length size n mod two64) bts in Ok b.
Definition bsplit_tail (bts : list byte) (n : Z) : outcome (list byte) :=
  let size := Z.of_nat (length bts) in
  let tail := split_length size n in
  let! (_, rest) := get_bytes ((size - tail) mod two64) bts in
  let! (b, _) := get_bytes (tail mod two64) rest in Ok b.
(** bsplit.cpp:15-89: the exit code and what is written to which file (None: nothing);
    [files] gives the contents of a file that can be opened *)
Definition bsplit (files : string -> option (list byte)) (args : list string) : outcome (Z * option (string * list byte)) :=
  let! (r, st) := get_args bsplit_switches bsplit_pos bsplit_init args in
  let '(ok, _) := r in
  if as_bool (a_val st 0%nat) then Ok (0, None)
  else if negb ok then Ok (1, None)
  else
    match files (as_str (a_val st 3%nat)) with
    | None => Ok (1, None)
    | Some bts =>
        if Bool.eqb (a_set st 1%nat) (a_set st 2%nat) then Ok (1, None)
        else
          let! out := (if a_set st 1%nat then bsplit_head bts (as_int (a_val st 1%nat))
                       else bsplit_tail bts (as_int (a_val st 2%nat))) in
          Ok (0, Some (as_str (a_val st 4%nat), out))
    end.

(** ** The command line of ppm2pwg *)
(** MEDIA_POSITION_MAP: mediaposition.h:4-53 with the values of printparameters.h:56-108 *)
Definition media_positions : list (string * Z) :=
  [ ("auto", 0); ("main", 1); ("alternate", 2); ("large-capacity", 3); ("manual", 4); ("envelope", 5);
    ("disc", 6); ("photo", 7); ("hagaki", 8); ("main-roll", 9); ("alternate-roll", 10); ("top", 11);
    ("middle", 12); ("bottom", 13); ("side", 14); ("left", 15); ("right", 16); ("center", 17); ("rear", 18);
    ("by-pass-tray", 19); ("tray-1", 20); ("tray-2", 21); ("tray-3", 22); ("tray-4", 23); ("tray-5", 24);
    ("tray-6", 25); ("tray-7", 26); ("tray-8", 27); ("tray-9", 28); ("tray-10", 29); ("tray-11", 30);
    ("tray-12", 31); ("tray-13", 32); ("tray-14", 33); ("tray-15", 34); ("tray-16", 35); ("tray-17", 36);
    ("tray-18", 37); ("tray-19", 38); ("tray-20", 39); ("roll-1", 40); ("roll-2", 41); ("roll-3", 42);
    ("roll-4", 43); ("roll-5", 44); ("roll-6", 45); ("roll-7", 46); ("roll-8", 47); ("roll-9", 48);
    ("roll-10", 49) ]%string.

(** ppm2pwg_main.cpp:50-85; enumerators by their position in the types of ParamsModel *)
Definition ppm2pwg_switches : list switch :=
  [ mkSwitch 0 KBool ["-h"; "--help"] "";
    mkSwitch 1 KBool ["-v"; "--verbose"] "";
    mkSwitch 2 (KEnum [("pwg", 2); ("urf", 3)]) ["-f"; "--format"] "Unrecognized target format";
    mkSwitch 3 KInt ["--num-pages"] "";
    mkSwitch 4 KString ["--paper-size"] "";
    mkSwitch 5 KInt ["-r"; "--resolution"] "";
    mkSwitch 6 KInt ["-rx"; "--resolution-x"] "";
    mkSwitch 7 KInt ["-ry"; "--resolution-y"] "";
    mkSwitch 8 KBool ["-d"; "--duplex"] "";
    mkSwitch 9 KBool ["-t"; "--tumble"] "";
    mkSwitch 10 (KEnum [("flip", 2); ("manual-tumble", 3); ("rotate", 1)]) ["-b"; "--back-xform"] "";
    mkSwitch 11 (KEnum [("draft", 3); ("high", 5); ("normal", 4)]) ["-q"; "--quality"] "";
    mkSwitch 12 (KEnum media_positions) ["-mp"; "--media-pos"] "";
    mkSwitch 13 KString ["-mt"; "--media-type"] "" ]%string.
Definition ppm2pwg_pos : list posarg := [ mkPos 14 "in-file" false; mkPos 15 "out-file" false ].
(** the variables before parsing: ppm2pwg_main.cpp:36-48 *)
Definition ppm2pwg_init : astate :=
  mkA (fun i => match i with
                | 0 | 1 | 8 | 9 => ABool false
                | 2 => AInt 2
                | 3 | 5 | 6 | 7 | 10 | 11 | 12 => AInt 0
                | 4 => AStr "iso_a4_210x297mm"
                | _ => AStr ""
                end%nat) (fun _ => false).
Definition if_set {A} (st : astate) (i : nat) (v : A) : option A := if a_set st i then Some v else None.
(** what the rest of main reads from the variables and flags *)
Definition ppm_opts_of (st : astate) : ppm_opts :=
  {| o_format := if_set st 2 (if as_int (a_val st 2%nat) =? 3 then URF else PWG);
     o_pages := if_set st 3 (as_int (a_val st 3%nat));
     o_paperSize := if_set st 4 (as_str (a_val st 4%nat));
     o_res := if_set st 5 (as_int (a_val st 5%nat));
     o_resX := if_set st 6 (as_int (a_val st 6%nat));
     o_resY := if_set st 7 (as_int (a_val st 7%nat));
     o_duplex := as_bool (a_val st 8%nat);
     o_tumble := as_bool (a_val st 9%nat);
     o_backXform := if_set st 10 (let z := as_int (a_val st 10%nat) in
                                  if z =? 1 then Rotated else if z =? 2 then Flipped else if z =? 3 then ManualTumble else Normal);
     o_quality := if_set st 11 (let z := as_int (a_val st 11%nat) in
                                if z =? 3 then DraftQuality else if z =? 4 then NormalQuality else if z =? 5 then HighQuality else DefaultQuality);
     o_mediaPosition := if_set st 12 (as_int (a_val st 12%nat));
     o_mediaType := if_set st 13 (as_str (a_val st 13%nat));
     o_outFile := as_str (a_val st 15%nat) |}.
(** ppm2pwg_main.cpp:34-254 from the command line: exit code and what is written to the
    output file (None if it is not opened) *)
Definition ppm2pwg_cmd (files : string -> option (list byte)) (args : list string) : outcome (Z * option (string * list byte)) :=
  let! (r, st) := get_args ppm2pwg_switches ppm2pwg_pos ppm2pwg_init args in
  let '(ok, _) := r in
  if as_bool (a_val st 0%nat) then Ok (0, None)
  else if negb ok then Ok (1, None)
  else
    match ppm2pwg_params (ppm_opts_of st) with
    | None => Ok (1, None)
    | Some p =>
        match files (as_str (a_val st 14%nat)) with
        | None => Ok (1, None)
        | Some input =>
            let! (code, out) := ppm2pwg p (opt (o_pages (ppm_opts_of st)) 0) input in
            Ok (code, Some (as_str (a_val st 15%nat), out))
        end
    end.
