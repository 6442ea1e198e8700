(** utils/ippclient.cpp again, with what it writes to the terminal.

    Left out: debug messages (-v), what is written before an exception ends the program, and
    the warnings about the overrides file (ippprinter.cpp:566-569,589) and about unsupported
    attributes in what the printer sends (WarnModel). *)
From Verif Require Import Base MapModel FloatModel StringModel ParamsModel IppModel JsonModel ArgModel HelpModel SettingModel ConverterModel JobModel PrinterModel SettingsModel ClientModel OutputModel.
Local Open Scope Z_scope.

(** ** Values as text *)
(** operator<<: ippattr.cpp:270-317 with the toStr functions *)
Fixpoint value_text (v : ipp_value) : string :=
  match v with
  | VStr s => s
  | VInt z => int_text z
  | VBool b => if b then "true" else "false"
  | VRange lo hi => int_text lo ++ "-" ++ int_text hi
  | VRes x y u => resolution_text x y u
  | VDate d => date_str d
  | VSet l => (fix texts l := match l with [] => "" | [v] => value_text v | v :: l' => value_text v ++ ", " ++ texts l' end) l
  | VColl _ => "<collection>"
  end%string.
(** IppDateTime::operator==: ippattr.cpp:56-68 *)
Definition date_dec (x y : ipp_date) : {x = y} + {x <> y}.
Proof. decide equality; apply Z.eq_dec. Defined.
(** operator== of std::variant, std::list and std::map; tags are not compared *)
Fixpoint value_eqb (a b : ipp_value) {struct a} : bool :=
  match a, b with
  | VBool x, VBool y => Bool.eqb x y
  | VRange x y, VRange x' y' => (x =? x') && (y =? y')
  | VDate x, VDate y => if date_dec x y then true else false
  | VSet l, VSet l' => (fix go l l' := match l, l' with [], [] => true | x :: l, y :: l' => value_eqb x y && go l l' | _, _ => false end) l l'
  | VColl m, VColl m' =>
      (fix go (m m' : list (string * (Z * ipp_value))) := match m, m' with
        | [], [] => true
        | (k, (_, x)) :: m, (k', (_, y)) :: m' => String.eqb k k' && value_eqb x y && go m m'
        | _, _ => false end) m m'
  | _, _ => basic_eqb a b
  end.
(** Setting::supportedStr: setting.h:28-40 *)
Definition supportedStr (pa : ipp_attrs) (s : setting) : string :=
  match map_get (s_name s ++ "-supported") pa with Some (_, v) => value_text v | None => "unsupported"%string end.
(** PreferredChoiceSetting::supportedStr: setting.h:170-199, for the media with the preference
    "ready" (ippprintjob.h:34) *)
Definition as_list (v : ipp_value) : list ipp_value := match v with VSet l => l | _ => [v] end.
Fixpoint preferred_texts (preferred l : list ipp_value) : string :=
  match l with
  | [] => ""
  | v :: l' =>
      value_text v ++ (if existsb (fun x => value_eqb x v) preferred then "(ready)" else "")
      ++ (match l' with [] => "" | _ => ", " end) ++ preferred_texts preferred l'
  end%string.
Definition media_supportedStr (pa : ipp_attrs) : string :=
  match map_get "media-supported" pa with
  | Some (_, v) => preferred_texts (match map_get "media-ready" pa with Some (_, r) => as_list r | None => [] end) (as_list v)
  | None => "unsupported"%string
  end.

(** ** Options of print *)
(** the docName of an option *)
Definition doc_of (i : nat) : string :=
  match find (fun d => Nat.eqb (sw_id d) i) print_switches with Some d => switch_doc d | None => ""%string end.
(** set_or_fail: ippclient.cpp:133-156: the job, or the text with which it exits *)
Definition refusal (doc : string) (supported : bool) (hint : string) : string :=
  ("Argument " ++ doc ++ " " ++ (if supported then "has an invalid value. " ++ endl ++ hint ++ endl else "is not supported by this printer." ++ endl))%string.
Definition say_or_fail (given : bool) (doc hint : string) (supported : bool) (supports : outcome bool) (force : bool) (set : job -> outcome job) (j : job) : outcome (job + string) :=
  if given then
    let! ok := supports in
    if ok || force then let! j := set j in Ok (inl j) else Ok (inr (refusal doc supported hint))
  else Ok (inl j).
Definition sbind (x : outcome (job + string)) (k : job -> outcome (job + string)) : outcome (job + string) :=
  let! o := x in match o with inl j => k j | inr m => Ok (inr m) end.
Notation "'try!' j := e 'in' k" := (sbind e (fun j => k)) (at level 200, j name, e at level 100, k at level 200).
(** ippclient.cpp:126-131 *)
Definition ipp_doc (i : nat) (s : setting) : string := (doc_of i ++ " (ipp: " ++ s_name s ++ ")")%string.
Definition valid_values (s : string) : string := ("Valid values are: " ++ s)%string.
Definition say_str (st : astate) (i : nat) (s : setting) (hint : string) (force : bool) (j : job) : outcome (job + string) :=
  let v := VStr (as_str (a_val st i)) in
  say_or_fail (a_set st i) (ipp_doc i s) (valid_values hint) (isSupported (j_printerAttrs j) s) (choice_supports (j_printerAttrs j) s v) force (fun j => set_job j s v) j.
Definition say_int (st : astate) (i : nat) (s : setting) (doc hint : string) (force : bool) (j : job) : outcome (job + string) :=
  let v := VInt (as_int (a_val st i)) in
  say_or_fail (a_set st i) doc hint (isSupported (j_printerAttrs j) s) (choice_supports (j_printerAttrs j) s v) force (fun j => set_job j s v) j.
Definition say_res (given : bool) (doc hint : string) (x y : Z) (force : bool) (j : job) : outcome (job + string) :=
  say_or_fail given doc hint (isSupported (j_printerAttrs j) s_resolution) (choice_supports (j_printerAttrs j) s_resolution (VRes x y 3)) force (fun j => set_job j s_resolution (VRes x y 3)) j.
(** an int option for a setting with its supported values *)
Definition say_int_setting (st : astate) (i : nat) (s : setting) (force : bool) (j : job) : outcome (job + string) :=
  say_int st i s (ipp_doc i s) (valid_values (supportedStr (j_printerAttrs j) s)) force j.
Definition say_str_setting (st : astate) (i : nat) (s : setting) (force : bool) (j : job) : outcome (job + string) :=
  say_str st i s (supportedStr (j_printerAttrs j) s) force j.
(** print_error: ippclient.cpp:17-20 with HELPTEXT (15) *)
Definition error_text (hint help : string) : string := (hint ++ endl ++ endl ++ help ++ endl ++ "" ++ endl)%string.
(** ippclient.cpp:409-423 *)
Definition say_pages (help : string) (st : astate) (j : job) : outcome (job + string) :=
  if a_set st 4%nat then
    let! l := parsePageRange (as_str (a_val st 4%nat)) in
    match l with
    | [] => Ok (inr (error_text "Invalid page range." help))
    | _ => let! j := set_job j s_pageRanges (VSet (map (fun r => VRange (pos_clamp (fst r)) (pos_clamp (snd r))) l)) in Ok (inl j)
    end
  else Ok (inl j).
(** ippclient.cpp:425 *)
Definition say_copies (st : astate) (pa : ipp_attrs) (force : bool) (j : job) : outcome (job + string) :=
  let! force := (if force then Ok true else supportsPrinterRaster pa) in
  let v := VInt (as_int (a_val st 5%nat)) in
  let pa := j_printerAttrs j in
  say_or_fail (a_set st 5%nat) (ipp_doc 5 s_copies) (valid_values (supportedStr pa s_copies)) (isSupported pa s_copies) (range_supports pa s_copies v) force (fun j => set_job j s_copies v) j.
(** ippclient.cpp:426 *)
Definition say_collated (st : astate) (force : bool) (j : job) : outcome (job + string) :=
  let v := VStr (if as_int (a_val st 6%nat) =? 1 then "separate-documents-collated-copies" else "separate-documents-uncollated-copies") in
  let pa := j_printerAttrs j in let s := s_multipleDocumentHandling in
  say_or_fail (a_set st 6%nat) (ipp_doc 6 s) (valid_values (supportedStr pa s)) (isSupported pa s) (choice_supports pa s v) force (fun j => set_job j s v) j.
(** ippclient.cpp:455 *)
Definition say_format (st : astate) (force : bool) (j : job) : outcome (job + string) :=
  let v := VStr (as_str (a_val st 15%nat)) in
  let pa := j_printerAttrs j in let s := s_documentFormat in
  say_or_fail (a_set st 15%nat) (ipp_doc 15 s) (valid_values (supportedStr pa s)) (isSupported pa s) (choice_supports pa s v) force (fun j => set_op j s v) j.
(** ippclient.cpp:461-482 *)
Definition say_margin (st : astate) (force : bool) (j : job) : outcome (job + string) :=
  if a_set st 21%nat then
    let pa := j_printerAttrs j in
    if negb force && (negb (isSupported pa s_topMargin) || negb (isSupported pa s_bottomMargin) || negb (isSupported pa s_leftMargin) || negb (isSupported pa s_rightMargin))
    then Ok (inr ("Argument " ++ doc_of 21 ++ " (ipp: margin-*) " ++ "is not supported by this printer." ++ endl)%string)
    else
      let side name s j := say_int st 21 s (doc_of 21) ("Valid values for " ++ name ++ " margin are: " ++ supportedStr pa s)%string force j in
      try! j := side "top"%string s_topMargin j in
      try! j := side "bottom"%string s_bottomMargin j in
      try! j := side "left"%string s_leftMargin j in
      side "right"%string s_rightMargin j
  else Ok (inl j).
(** ippclient.cpp:435-487 *)
Definition say_later (st : astate) (force : bool) (j : job) : outcome (job + string) :=
  let! l := getSupported (j_printerAttrs j) s_resolution in
  let hint := valid_values (resolution_list l) in
  let r := as_int (a_val st 8%nat) in
  try! j := say_res (a_set st 8%nat) (ipp_doc 8 s_resolution) hint r r force j in
  try! j := say_res (a_set st 9%nat && a_set st 10%nat) (doc_of 9 ++ " and/or " ++ ipp_doc 10 s_resolution)%string hint (as_int (a_val st 9%nat)) (as_int (a_val st 10%nat)) force j in
  try! j := say_str_setting st 11 s_sides force j in
  try! j := say_str_setting st 12 s_colorMode force j in
  let! names := (let! q := getSupported (j_printerAttrs j) s_printQuality in aliases q) in
  try! j := say_int st 13 s_printQuality (doc_of 13) (valid_values (join_string names ", ")) force j in
  try! j := say_str_setting st 14 s_scaling force j in
  try! j := say_format st force j in
  try! j := say_str_setting st 17 s_mediaType force j in
  try! j := say_str_setting st 18 s_mediaSource force j in
  try! j := say_str_setting st 19 s_outputBin force j in
  try! j := say_int_setting st 20 s_finishings force j in
  try! j := say_margin st force j in
  try! j := say_int_setting st 22 s_topMargin force j in
  try! j := say_int_setting st 23 s_bottomMargin force j in
  try! j := say_int_setting st 24 s_leftMargin force j in
  say_int_setting st 25 s_rightMargin force j.
(** ippclient.cpp:425-487 *)
Definition say_other (help : string) (st : astate) (pa : ipp_attrs) (force : bool) (j : job) : outcome (job + string) :=
  try! j := say_copies st pa force j in
  try! j := say_collated st force j in
  try! j := say_str st 7 s_media (media_supportedStr (j_printerAttrs j)) force j in
  if negb (Bool.eqb (a_set st 9%nat) (a_set st 10%nat)) then Ok (inr (error_text "Resolution must be specified for both dimensions." help)) else say_later st force j.
(** ippclient.cpp:409-487 *)
Definition say_options (help : string) (st : astate) (pa : ipp_attrs) (force : bool) (j : job) : outcome (job + string) :=
  try! j := say_pages help st j in say_other help st pa force j.
(** ippclient.cpp:380-487 *)
Definition say_prepare (help : string) (e : client_env) (st : astate) (pa : ipp_attrs) : outcome (job * string + string) :=
  let! j := createJob pa in
  let! j := (if as_bool (a_val st 28%nat) then Ok j else restoreSettings (w_user (e_world e)) (parse_opt e) (e_files e) j) in
  let j := if a_set st 3%nat then with_stage j (as_bool (a_val st 3%nat)) else j in
  let j := if a_set st 26%nat then with_params j (set_antialias (j_params j) (as_bool (a_val st 26%nat))) else j in
  match input_format e st with
  | None => Ok (inr ("Failed to determine input file format. (Specify with --mime-type)." ++ endl)%string)
  | Some fmt =>
      let! r := say_options help st pa (as_bool (a_val st 2%nat)) j in
      match r with inl j => Ok (inl (j, fmt)) | inr m => Ok (inr m) end
  end.

(** ** Printing *)
(** what is written to the standard output and the standard error *)
Definition terminal : Type := string * string.
Definition quiet : terminal := (""%string, ""%string).
(** IppPrinter::doPrint: ippprinter.cpp:136-188 *)
Definition say_print (w : world) (p : printer) (j : job) (inFile : string) (conv : conversion) (hdr : list byte) : list event * outcome (terminal * option string) :=
  ([Streamed (pr_addr p) hdr],
   let! c := compression_of j in
   let! error := w_convert w conv inFile j in
   match error with
   | Some e => Ok (quiet, Some e)
   | None =>
       match w_await w (pr_addr p) hdr c conv inFile j with
       | Failed t => Ok (quiet, Some t)
       | Response body =>
           let! (r, _) := decodeMsg body in
           if m_opOrStatus r <? 0xff then
             match m_jobAttrs r with
             | g :: _ =>
                 if pr_printJobId p then
                   let! n := get_int_attr "job-id" g in
                   Ok (("Job submitted successfully, with id: " ++ int_text n ++ endl, "")%string, None)
                 else Ok (quiet, None)
             | [] => Ok (quiet, None)
             end
           else
             let! s := get_str_attr "status-message" "unknown" (m_opAttrs r) in
             Ok (quiet, Some (String.append "Print job failed: " s))
       end
   end).
(** IppPrinter::doPrintToFile: ippprinter.cpp:190-210 *)
Definition say_print_to_file (w : world) (j : job) (inFile : string) (conv : conversion) : list event * outcome (terminal * option string) :=
  do! ext := pure (defaultExtension (j_target j)) in
  let path := (w_temp w ++ "/ippclient-debug-" ++ base_name inFile ++ ext)%string in
  ([Wrote path],
   let! error := w_convert w conv inFile j in
   Ok (match error with Some _ => quiet | None => ("", "Wrote " ++ path ++ endl)%string end, error)).
(** the body of the try block of IppPrinter::runJob: ippprinter.cpp:64-127 *)
Definition say_job_body (w : world) (p : printer) (id : Z) (j : job) (inFile inFormat : string) (pages : Z) : list event * outcome (terminal * option string) :=
  do! supportedOperations := pure (int_list "operations-supported" (pr_attrs p)) in
  let fileName := base_name inFile in
  do! x := pure (finalize j inFormat pages) in
  let (error, j) := x in
  match error with
  | Some e => pure (Ok (quiet, Some e))
  | None =>
      match getConvertFun inFormat (j_target j) with
      | None => pure (Ok (quiet, Some ("No conversion method found for " ++ inFormat ++ " to " ++ j_target j)%string))
      | Some conv =>
          if string_starts_with (pr_addr p) "file://" then
            do! r := say_print_to_file w j inFile conv in pure (Ok (fst r, None))
          else if negb (j_oneStage j) && existsb (Z.eqb opCreateJob) supportedOperations && existsb (Z.eqb opSendDocument) supportedOperations then
            do! createJobMsg := pure (mk_msg w p opCreateJob [("job-name"%string, (tNameWithoutLanguage, VStr fileName))] (j_jobAttrs j) []) in
            do! y := do_request w p id createJobMsg in
            let (error, resp) := y in
            match error with
            | Some e => pure (Ok (quiet, Some (String.append "Create job failed: " e)))
            | None =>
                let g := match m_jobAttrs resp with g :: _ => g | [] => [] end in
                if (m_opOrStatus resp <=? 0xff) && map_has "job-id" g then
                  do! jobId := pure (get_int_attr "job-id" g) in
                  let opAttrs := map_set "last-document" (tBoolean, VBool true) (map_set "job-id" (tInteger, VInt jobId) (j_opAttrs j)) in
                  do! sendDocumentMsg := pure (mk_msg w p opSendDocument opAttrs [] []) in
                  do! hdr := pure (fst (encodeMsg ((id + 1) mod two32) sendDocumentMsg)) in
                  say_print w p j inFile conv hdr
                else
                  do! s := pure (get_str_attr "status-message" "unknown" (m_opAttrs resp)) in
                  pure (Ok (quiet, Some (String.append "Create job failed: " s)))
            end
          else
            let opAttrs := map_set "job-name" (tNameWithoutLanguage, VStr fileName) (j_opAttrs j) in
            do! printJobMsg := pure (mk_msg w p opPrintJob opAttrs (j_jobAttrs j) []) in
            do! hdr := pure (fst (encodeMsg id printJobMsg)) in
            say_print w p j inFile conv hdr
      end
  end.
(** IppPrinter::runJob: ippprinter.cpp:59-134.  Writing to the terminal is the last that is
    done in the try block: before an exception nothing has been written. *)
Definition say_job (w : world) (p : printer) (id : Z) (j : job) (inFile inFormat : string) (pages : Z) : list event * outcome (terminal * option string) :=
  let x := say_job_body w p id (copy_job j) inFile inFormat pages in
  (fst x,
   match snd x with
   | Throw e => Ok (quiet, Some (String.append "Exception caught while printing: " (w_what w e)))
   | y => y
   end).

(** ** The commands *)
(** the bytes written to the standard output, the text written to the standard error and the
    exit code *)
Record said := mkSaid { s_out : list byte; s_err : string; s_code : Z }.
Definition fails (text : string) : said := mkSaid [] text 1.
(** the end of a command with this error: for instance ippclient.cpp:319-323,524-528 *)
Definition ends (what : string) (out : list byte) (error : option string) : said :=
  match error with None => mkSaid out "" 0 | Some e => fails (what ++ " failed: " ++ e ++ endl)%string end.
(** ippclient.cpp:378-529; [pdf_error] is the message of poppler *)
Definition say_print_command (pdf_error : string -> string) (help : string) (e : client_env) (st : astate) (p : printer) (id : Z) : list event * outcome said :=
  do! x := pure (say_prepare help e st (pr_attrs p)) in
  match x with
  | inr m => pure (Ok (fails m))
  | inl (j, fmt) =>
      match count_pages e fmt (as_str (a_val st 32%nat)) with
      | None =>
          let f := path_append (e_cwd e) (as_str (a_val st 32%nat)) in
          pure (Ok (fails ("Failed to open PDF: " ++ pdf_error f ++ " (" ++ f ++ ")" ++ endl)%string))
      | Some (inFile, pages) =>
          do! saved :=
            (if as_bool (a_val st 28%nat) then
               do! s := pure (saveSettings (w_user (e_world e)) j) in
               match s with Some (path, _) => ([Wrote path], Ok true) | None => pure (Ok false) end
             else pure (Ok true)) in
          if negb saved then pure (Ok (fails ("Could not save settings. Aborting." ++ endl)%string))
          else
            do! r := say_job (e_world e) (mkPrinter (pr_addr p) (as_bool (a_val st 27%nat)) (pr_attrs p)) id j inFile fmt pages in
            let '((out, err), error) := r in
            pure (Ok (match error with
                      | None => mkSaid (bytes_of_string out) err 0
                      | Some m => mkSaid (bytes_of_string out) (err ++ "Print failed: " ++ m ++ endl)%string 1
                      end))
      end
  end.
(** ippclient.cpp:329-352 *)
Fixpoint bad_pair (l : list string) : option string :=
  match l with [] => None | kv :: l' => match key_value kv with Some _ => bad_pair l' | None => Some kv end end.
Definition say_set_attrs (e : client_env) (st : astate) (p : printer) (id : Z) : list event * outcome said :=
  let l := split_string (as_str (a_val st 31%nat)) "," in
  match bad_pair l, key_values l with
  | None, Some kvs => do! error := set_attributes (e_world e) p id kvs in pure (Ok (ends "Set attributes" [] error))
  | Some kv, _ => pure (Ok (fails ("Bad key:value: " ++ kv ++ endl)%string))
  | None, None => pure (Ok (fails ""))                                   (* does not happen *)
  end.
(** ippclient.cpp:364-377 *)
Definition say_cancel (e : client_env) (st : astate) (p : printer) (id : Z) : list event * outcome said :=
  if a_set st 29%nat then do! error := cancel_job (e_world e) p id (as_int (a_val st 29%nat)) in pure (Ok (ends "Cancel-job" [] error))
  else pure (Ok (fails ("Please specify a job id with --id." ++ endl)%string)).

(** The texts of the help: ippclient.cpp:199-268 *)
Definition option_docs : list string :=
  [ "Print this help text"; "Be verbose, print headers and progress"; "Force use of unsupported options"; "Force use of one-stage print job";
    "What pages to process, e.g.: 1,17-42,69-"; "Number of copies to output"; "Request collated copies (yes/no)"; "Paper size to output, e.g.: iso_a4_210x297mm";
    "Resolution (in DPI) for rasterization"; "Resolution (in DPI) for rasterization, x-axis"; "Resolution (in DPI) for rasterization, y-axis";
    "Sides (as per IPP)"; "Color mode (as per IPP)"; "Quality (draft/normal/high)"; "Scaling (as per IPP)"; "Transfer format"; "Input file mime-type";
    "Media type (as per IPP)"; "Media source (as per IPP)"; "Output bin (as per IPP)"; "Finishing to apply (as per IPP)";
    "Margin (as per IPP)"; "Top margin (as per IPP)"; "Bottom margin (as per IPP)"; "Left margin (as per IPP)"; "Right margin (as per IPP)";
    "Enable antialiasing in rasterization"; "Print job id on successful submission"; "Save options as local defaults for future jobs"; "Id of print job." ]%string.
Definition with_docs (l : list switch) : list documented := map (fun d => (d, nth (sw_id d) option_docs ""%string)) l.
Definition client_docs : sub_docs := map (fun s => (fst s, (with_docs (fst (snd s)), snd (snd s)))) client_subs.

(** main: ippclient.cpp:158-531; [name] is argv[0] *)
Definition say_client (pdf_error : string -> string) (e : client_env) (junk : nat -> aval) (name : string) (args : list string) : list event * outcome said :=
  do! x := pure (sub_get_args client_subs (client_init junk) args) in
  let '(ok, sub, msg, st) := x in
  let help := sub_arg_help name client_docs sub in
  if as_bool (a_val st 0%nat) then pure (Ok (mkSaid (bytes_of_string (help ++ endl ++ "" ++ endl)%string) "" 0))
  else if negb ok then pure (Ok (fails (error_text msg help)))
  else
    do! y := open_printer e (as_str (a_val st 30%nat)) in
    let '(error, pa, id) := y in
    match error with
    | Some m => pure (Ok (fails ("Could not get printer attributes: " ++ m ++ endl)%string))
    | None =>
        let p := mkPrinter (as_str (a_val st 30%nat)) false pa in
        if String.eqb sub "info" then do! t := pure (info_text pa) in pure (Ok (mkSaid (bytes_of_string t) "" 0))
        else if String.eqb sub "identify" then do! error := identify (e_world e) p id in pure (Ok (ends "Identify" [] error))
        else if String.eqb sub "get-attrs" then pure (Ok (mkSaid (attributes_text pa) "" 0))
        else if String.eqb sub "set-attrs" then say_set_attrs e st p id
        else if String.eqb sub "get-jobs" then do! r := get_jobs (e_world e) p id in pure (Ok (ends "Get-jobs" (bytes_of_string (jobs_text (snd r))) (fst r)))
        else if String.eqb sub "cancel-job" then say_cancel e st p id
        else if String.eqb sub "print" then say_print_command pdf_error help e st p id
        else pure (Ok (mkSaid [] "" 0))
    end.
