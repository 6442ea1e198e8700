(** utils/minimime_main.cpp with MiniMime::getMimeType on the file system of FileModel. *)
From Verif Require Import Base StringModel HelpModel ConverterModel FileModel.
Local Open Scope Z_scope.

(** what a tool that only prints leaves behind *)
Record printed := mkPrinted { t_code : Z; t_stdout : string; t_stderr : string }.
(** minimime.cpp:24-25: an ifstream that could not be opened is read as empty.  (Reading a directory is
    left out.)  Unlike InBinFile, - is the name of a file. *)
Definition type_of_name (d : disk) (name : string) : string :=
  getMimeType (match held d (place d name) with Some file => file | None => [] end).
(** main: minimime_main.cpp:5-13; [args] are the words after the name of the program *)
Definition minimime_run (d : disk) (args : list string) : printed :=
  match args with
  | [name] => mkPrinted 0 (type_of_name d name ++ endl) ""
  | _ => mkPrinted 1 "" ("Usage: minimime <file>" ++ endl)
  end.
