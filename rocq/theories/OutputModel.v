(** utils/ippclient.cpp: what the commands info, get-attrs and get-jobs write to the standard
    output.  (What print writes is not modelled; progress goes to the standard error.) *)
From Verif Require Import Base MapModel StringModel IppModel JsonModel SettingModel SettingsModel ConverterModel JobModel PrinterModel ClientModel.
Local Open Scope Z_scope.

Definition nl : string := String (bZ 10) "".
(** std::ostream << int *)
Definition int_text (z : Z) : string := if z <? 0 then String "-" (dec_string (- z)) else dec_string z.
(** the characters of [0-9a-fA-F] and std::stoul with base 16 on two of them *)
Definition hex_value (c : ascii) : option Z :=
  let z := Zb c in
  if (48 <=? z) && (z <=? 57) then Some (z - 48)
  else if (97 <=? z) && (z <=? 102) then Some (z - 87)
  else if (65 <=? z) && (z <=? 70) then Some (z - 55)
  else None.
Definition hex_pair (a b : ascii) : option Z :=
  match hex_value a, hex_value b with Some x, Some y => Some (16 * x + y) | _, _ => None end.
(** print_colors: ippclient.cpp:22-38; the regular expression has to match the whole *)
Definition color_text (c : string) : string :=
  match c with
  | String h (String r1 (String r2 (String g1 (String g2 (String b1 (String b2 EmptyString)))))) =>
      match (if Ascii.eqb h "#" then hex_pair r1 r2 else None), hex_pair g1 g2, hex_pair b1 b2 with
      | Some r, Some g, Some b =>
          (String (bZ 27) "[48;2;" ++ dec_string r ++ ";" ++ dec_string g ++ ";" ++ dec_string b ++ "m" ++ " " ++ String (bZ 27) "[0m")%string
      | _, _, _ => ""
      end
  | _ => ""
  end.
Fixpoint print_colors (l : list string) : string := match l with [] => "" | c :: l' => (color_text c ++ print_colors l')%string end.
(** operator<< for supplies: ippclient.cpp:46-61 *)
Definition supply_text (s : supply) : outcome string :=
  let color := print_colors (sp_colors s) in
  let! p := getPercent s in
  Ok ("* " ++ sp_name s ++ nl ++ "  " ++ (if negb (String.eqb color "") then color ++ " " else "") ++ int_text p ++ "%" ++
      (if isLow s then "(low)" else "") ++ " " ++ sp_type s)%string.
Fixpoint supplies_text (l : list supply) : outcome string :=
  match l with
  | [] => Ok ""%string
  | s :: l' =>
      let! t := supply_text s in
      let! r := supplies_text l' in
      Ok (match l' with [] => t | _ => (t ++ nl ++ r)%string end)
  end.
(** operator<< for firmware: ippclient.cpp:63-74 *)
Fixpoint firmware_text (l : list (string * string)) : string :=
  match l with
  | [] => ""
  | [f] => (fst f ++ ": " ++ snd f)%string
  | f :: l' => (fst f ++ ": " ++ snd f ++ nl ++ firmware_text l')%string
  end.
(** print_if_set: ippclient.cpp:117-124 for strings, numbers and lists *)
Definition print_text (title value : string) : string := (title ++ nl ++ value ++ nl ++ nl)%string.
Definition print_string (title value : string) : string := if String.eqb value "" then "" else print_text title value.
Definition print_int (title : string) (z : Z) : string := if z =? 0 then "" else print_text title (int_text z).
Definition print_list {A} (title : string) (l : list A) (text : string) : string := match l with [] => "" | _ => print_text title text end.
Definition info_str (pa : ipp_attrs) (title k : string) : outcome string := let! v := get_str_attr k "" pa in Ok (print_string title v).
Definition info_strs (pa : ipp_attrs) (title k sep : string) : outcome string := let! l := str_list k pa in Ok (print_string title (join_string l sep)).
Definition info_int (pa : ipp_attrs) (title k : string) : outcome string := let! v := get_int_attr k pa in Ok (print_int title v).
(** info: ippclient.cpp:295-315 *)
Definition info_text (pa : ipp_attrs) : outcome string :=
  let! t1 := info_str pa "Name:" "printer-name" in
  let! t2 := info_str pa "Make and model:" "printer-make-and-model" in
  let! t3 := info_str pa "Location:" "printer-location" in
  let! t4 := info_str pa "UUID:" "printer-uuid" in
  let! t5 := info_str pa "Printer state message:" "printer-state-message" in
  let! t6 := info_strs pa "Printer state reasons:" "printer-state-reasons" nl in
  let! t7 := info_strs pa "IPP versions:" "ipp-versions-supported" ", " in
  let! t8 := info_strs pa "IPP features:" "ipp-features-supported" nl in
  let! t9 := info_int pa "Pages per minute:" "pages-per-minute" in
  let! t10 := info_int pa "Pages per minute (color):" "pages-per-minute-color" in
  let! s := supplies pa in
  let! st := supplies_text s in
  let t11 := print_list "Supplies:" s st in
  let! f := firmware pa in
  let t12 := print_list "Firmware:" f (firmware_text f) in
  let! t13 := info_strs pa "Settable attributes:" "printer-settable-attributes-supported" nl in
  let! t14 := info_strs pa "Icons:" "printer-icons" nl in
  let! t15 := info_str pa "Strings:" "printer-strings-uri" in
  let! t16 := info_strs pa "Document formats (native):" "document-format-supported" nl in
  let! a := additionalDocumentFormats pa in
  let t17 := print_string "Document formats (guessed):" (join_string a nl) in
  let! c := printerInputFormats pa in
  let t18 := print_string "Document formats (with conversion):" (join_string c nl) in
  Ok (String.concat "" [t1; t2; t3; t4; t5; t6; t7; t8; t9; t10; t11; t12; t13; t14; t15; t16; t17; t18]).
(** get-attrs: ippclient.cpp:327 *)
Definition attributes_text (pa : ipp_attrs) : list byte := dump (attrsToJSON pa).
(** operator<< for jobs: ippclient.cpp:102-115 *)
Definition job_text (i : job_info) : string :=
  (int_text (ji_id i) ++ ": " ++ ji_name i ++ nl ++ "State: " ++ int_text (ji_state i) ++
   (if String.eqb (ji_message i) "" then "" else " (" ++ ji_message i ++ ")") ++ nl)%string.
Definition jobs_text (l : list job_info) : string := String.concat "" (map job_text l).
(** The output of a command for a printer whose attributes have been got: ippclient.cpp:
    295-363; nothing if the request for the jobs fails *)
Definition command_output (e : client_env) (p : printer) (id : Z) (sub : string) : outcome (list byte) :=
  if String.eqb sub "info" then let! t := info_text (pr_attrs p) in Ok (bytes_of_string t)
  else if String.eqb sub "get-attrs" then Ok (attributes_text (pr_attrs p))
  else if String.eqb sub "get-jobs" then
    let! r := snd (get_jobs (e_world e) p id) in
    Ok (match fst r with None => bytes_of_string (jobs_text (snd r)) | Some _ => [] end)
  else Ok [].
