(** lib/ippprintjob.cpp: saving and restoring a job's settings, with the text json11 writes
    for them.  The parser and the file system are given. *)
From Verif Require Import Base MapModel StringModel IppModel JsonModel ArgModel SettingModel ConverterModel JobModel PrinterModel.
Local Open Scope Z_scope.

(** ** json11::Json::dump (submodule json11, version unknown; json11.cpp "Serialization") *)
Definition hex_digit (z : Z) : ascii := bZ (if z <? 10 then 48 + z else 87 + z).
(** strings: the escapes, control characters as \u00XX; U+2028 and U+2029 (the bytes e2 80
    a8 and e2 80 a9) as \u2028 and \u2029 *)
Fixpoint dump_chars (s : list byte) : list byte :=
  match s with
  | [] => []
  | c :: s' =>
      let z := Zb c in
      if z =? 92 then bytes_of_string "\\" ++ dump_chars s'
      else if z =? 34 then map bZ [92; 34] ++ dump_chars s'
      else if z =? 8 then bytes_of_string "\b" ++ dump_chars s'
      else if z =? 12 then bytes_of_string "\f" ++ dump_chars s'
      else if z =? 10 then bytes_of_string "\n" ++ dump_chars s'
      else if z =? 13 then bytes_of_string "\r" ++ dump_chars s'
      else if z =? 9 then bytes_of_string "\t" ++ dump_chars s'
      else if z <=? 31 then bytes_of_string "\u00" ++ [hex_digit (z / 16); hex_digit (z mod 16)] ++ dump_chars s'
      else
        match s' with
        | d :: e :: s'' =>
            if (z =? 0xe2) && (Zb d =? 0x80) && (Zb e =? 0xa8) then bytes_of_string "\u2028" ++ dump_chars s''
            else if (z =? 0xe2) && (Zb d =? 0x80) && (Zb e =? 0xa9) then bytes_of_string "\u2029" ++ dump_chars s''
            else c :: dump_chars s'
        | _ => c :: dump_chars s'
        end
  end.
Definition dump_string (s : string) : list byte := map bZ [34] ++ dump_chars (bytes_of_string s) ++ map bZ [34].
(** printf %d *)
Definition dump_int (z : Z) : list byte := bytes_of_string (if z <? 0 then String "-" (dec_string (- z)) else dec_string z).
(** separated by a comma and a space *)
Fixpoint dump_list (l : list (list byte)) : list byte :=
  match l with
  | [] => []
  | [x] => x
  | x :: l' => x ++ bytes_of_string ", " ++ dump_list l'
  end.
Fixpoint dump (j : json) : list byte :=
  match j with
  | JNull => bytes_of_string "null"
  | JStr s => dump_string s
  | JInt z => dump_int z
  | JBool true => bytes_of_string "true"
  | JBool false => bytes_of_string "false"
  | JArr l => bytes_of_string "[" ++ dump_list (map dump l) ++ bytes_of_string "]"
  | JObj m => bytes_of_string "{" ++ dump_list (map (fun e => dump_string (fst e) ++ bytes_of_string ": " ++ dump (snd e)) m) ++ bytes_of_string "}"
  end.

(** ** The settings *)
(** std::filesystem::path's operator/ for a left side not ending with a slash: an absolute
    right side replaces it *)
Definition path_append (a b : string) : string := if string_starts_with b "/" then b else (a ++ "/" ++ b)%string.
(** settings_dir: ippprintjob.cpp:317-320 *)
Definition settings_dir (user : option string) : outcome string :=
  let! c := config_dir user in Ok (path_append c "saved_settings").
(** IppPrintJob::canSaveSettings: ippprintjob.cpp:322-325 *)
Definition canSaveSettings (j : job) : bool := map_has "printer-uuid" (j_printerAttrs j).
Definition settings_file (user : option string) (j : job) : outcome string :=
  let! uuid := get_str_attr "printer-uuid" "" (j_printerAttrs j) in
  let! dir := settings_dir user in
  Ok (path_append dir uuid).

(** the object of ippprintjob.cpp:361-369 *)
Definition settings_json (j : job) : json :=
  let member k m := match m with [] => [] | _ => [(k, attrsToJSON m)] end in
  JObj (member "job-attrs"%string (j_jobAttrs j) ++ member "op-attrs"%string (j_opAttrs j)).
(** IppPrintJob::saveSettings: ippprintjob.cpp:354-374: the file and what is written to it
    after it was emptied; nothing if the printer has no uuid *)
Definition saveSettings (user : option string) (j : job) : outcome (option (string * list byte)) :=
  if canSaveSettings j then
    let! path := settings_file user j in
    Ok (Some (path, dump (settings_json j)))
  else Ok None.

(** IppPrintJob::restoreSettings: ippprintjob.cpp:327-352.  A text the parser refuses
    gives the null value; operator[] gives the null value for a missing member. *)
Definition restore_text (parse : list byte -> option json) (text : list byte) (j : job) : outcome job :=
  let obj := object_items (match parse text with Some x => x | None => JNull end) in
  let member k := object_items (match map_get k obj with Some x => x | None => JNull end) in
  let! op := attrsfromJSON (member "op-attrs"%string) [] in
  let! jb := attrsfromJSON (member "job-attrs"%string) [] in
  Ok (with_job (with_op j (overlay op (j_opAttrs j))) (overlay jb (j_jobAttrs j))).
Definition restoreSettings (user : option string) (parse : list byte -> option json) (files : string -> option (list byte)) (j : job) : outcome job :=
  if canSaveSettings j then
    let! path := settings_file user j in
    match files path with
    | Some text => restore_text parse text j
    | None => Ok j
    end
  else Ok j.
