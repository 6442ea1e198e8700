(** The utilities on a file system: utils/ppm2pwg_main.cpp, pwg2ppm_main.cpp, bsplit.cpp and
    baselinify_main.cpp with lib/binfile.h. *)
From Verif Require Import Base StringModel ParamsModel PpmModel ArgModel.
Local Open Scope Z_scope.

(** Names lead to places (several names may lead to the same one: ./a and a, links); a place
    holds a file or not, a file can be created or written there or not, and there is room
    for so many bytes.  std::ofstream and std::ostream do not raise (their exception masks are
    empty): writing where that is not possible, or more than there is room for, only sets
    flags. *)
Record disk := mkDisk { place : string -> nat; held : nat -> option (list byte); writable : nat -> bool; room : nat -> nat }.
Definition put (d : disk) (at_ : nat) (data : list byte) : disk :=
  mkDisk (place d) (fun q => if Nat.eqb q at_ then Some data else held d q) (writable d) (room d).
(** InBinFile: binfile.h:15-26 and 45-48; None: the stream is not good.  (Reading a directory is
    left out.) *)
Definition open_in (d : disk) (stdin : list byte) (name : string) : option (list byte) :=
  if String.eqb name "-" then Some stdin else held d (place d name).
(** std::ofstream with std::ios::out: the file is created or emptied *)
Definition create (d : disk) (name : string) : disk :=
  if writable d (place d name) then put d (place d name) [] else d.
(** the same, with [data] written and the file closed *)
Definition save (d : disk) (name : string) (data : list byte) : disk :=
  if writable d (place d name) then put d (place d name) (firstn (room d (place d name)) data) else d.
(** OutBinFile: binfile.h:63-74; what is written goes to the standard output for the name - *)
Definition create_out (d : disk) (name : string) : disk := if String.eqb name "-" then d else create d name.
Definition save_out (d : disk) (name : string) (data : list byte) : disk * list byte :=
  if String.eqb name "-" then (d, data) else (save d name data, []).

(** The end of a program: its exit code, the disk and what OutBinFile wrote to the
    standard output (messages are left out). *)
Record ending := mkEnding { e_code : Z; e_disk : disk; e_stdout : list byte }.

(** bsplit.cpp:15-89: the input is read as a whole (52) before the output is opened (85) *)
Definition bsplit_run (d : disk) (stdin : list byte) (args : list string) : outcome ending :=
  let! (code, w) := bsplit (open_in d stdin) args in
  match w with
  | None => Ok (mkEnding code d [])
  | Some (name, data) => let '(d', out) := save_out d name data in Ok (mkEnding code d' out)
  end.

(** ppm2pwg_main.cpp:34-254: the input is opened (158), the output created (165), and then the input
    is read.  The output stays in a buffer while the first words are read; an input that is the
    output file is therefore empty. *)
Definition ppm2pwg_run (d : disk) (stdin : list byte) (args : list string) : outcome ending :=
  let! (r, st) := get_args ppm2pwg_switches ppm2pwg_pos ppm2pwg_init args in
  let '(ok, _) := r in
  if as_bool (a_val st 0%nat) then Ok (mkEnding 0 d [])
  else if negb ok then Ok (mkEnding 1 d [])
  else
    match ppm2pwg_params (ppm_opts_of st) with
    | None => Ok (mkEnding 1 d [])
    | Some p =>
        match open_in d stdin (as_str (a_val st 14%nat)) with
        | None => Ok (mkEnding 1 d [])
        | Some _ =>
            let name := as_str (a_val st 15%nat) in
            let d := create_out d name in
            let input := match open_in d stdin (as_str (a_val st 14%nat)) with Some input => input | None => [] end in
            let! (code, data) := ppm2pwg p (opt (o_pages (ppm_opts_of st)) 0) input in
            let '(d, out) := save_out d name data in
            Ok (mkEnding code d out)
        end
    end.

(** pwg2ppm_main.cpp:8-70 on its two arguments; a file that cannot be opened is read as empty.
    write_ppm (pwg2ppm.cpp:58-77) does not check whether it could write. *)
Definition pwg2ppm_run (d : disk) (args : list string) : outcome ending :=
  match args with
  | [i; prefix] =>
      let file := match held d (place d i) with Some file => file | None => [] end in
      let! (code, files) := pwg2ppm file prefix in
      Ok (mkEnding code (fold_left (fun d f => save d (fst f) (snd f)) files d) [])
  | _ => Ok (mkEnding 1 d [])
  end.

(** baselinify_main.cpp:7-30: the input is opened, the output created, the input read.
    [jpeg] is baselinify (baselinify.cpp:80-128): None if libjpeg ends the program, which it does with the code 1. *)
Definition baselinify_run (jpeg : list byte -> option (list byte)) (d : disk) (stdin : list byte) (args : list string) : outcome ending :=
  match args with
  | [i; o] =>
      match open_in d stdin i with
      | None => Ok (mkEnding 1 d [])
      | Some _ =>
          let d := create_out d o in
          let input := match open_in d stdin i with Some input => input | None => [] end in
          match jpeg input with
          | None => Ok (mkEnding 1 d [])
          | Some data => let '(d, out) := save_out d o data in Ok (mkEnding 0 d out)
          end
      end
  | _ => Ok (mkEnding 1 d [])
  end.
