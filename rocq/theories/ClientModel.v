(** utils/ippclient.cpp: the command line client.

    Simplified: what is printed to the standard output and the texts of error messages are
    left out, except for the list of resolutions; of the info command only the exceptions of
    the functions it calls remain.  A variable that main does not initialise (ippclient.cpp:
    164-195) holds any value until its option is given: [junk].  Passing such a variable to
    set_or_fail is formally undefined; the model takes it as reading any value. *)
From Verif Require Import Base MapModel FloatModel StringModel ParamsModel IppModel JsonModel ArgModel SettingModel ConverterModel JobModel PrinterModel SettingsModel.
Local Open Scope Z_scope.

(** ** The command line: ippclient.cpp:199-268 *)
Definition oHelp := mkSwitch 0 KBool ["-h"; "--help"]%string "".
Definition oVerbose := mkSwitch 1 KBool ["-v"; "--verbose"]%string "".
Definition oId := mkSwitch 29 KInt ["--id"]%string "".
Definition print_switches : list switch :=
  [ oHelp; oVerbose;
    mkSwitch 2 KBool ["-f"; "--force"] "";
    mkSwitch 3 KBool ["--one-stage"] "";
    mkSwitch 4 KString ["-p"; "--pages"] "";
    mkSwitch 5 KInt ["--copies"] "";
    mkSwitch 6 (KEnum [("no", 0); ("yes", 1)]) ["--collated-copies"] "";
    mkSwitch 7 KString ["--paper-size"] "";
    mkSwitch 8 KUInt ["-r"; "--resolution"] "";
    mkSwitch 9 KUInt ["-rx"; "--resolution-x"] "";
    mkSwitch 10 KUInt ["-ry"; "--resolution-y"] "";
    mkSwitch 11 KString ["-s"; "--sides"] "";
    mkSwitch 12 KString ["-c"; "--color-mode"] "";
    mkSwitch 13 (KEnum [("draft", 3); ("high", 5); ("normal", 4)]) ["-q"; "--quality"] "";
    mkSwitch 14 KString ["--scaling"] "";
    mkSwitch 15 KString ["--format"] "";
    mkSwitch 16 KString ["--mime-type"] "";
    mkSwitch 17 KString ["--media-type"] "";
    mkSwitch 18 KString ["--media-source"] "";
    mkSwitch 19 KString ["--output-bin"] "";
    mkSwitch 20 KInt ["--finishings"] "";
    mkSwitch 21 KInt ["-m"; "--margin"] "";
    mkSwitch 22 KInt ["-tm"; "--top-margin"] "";
    mkSwitch 23 KInt ["-bm"; "--bottom-margin"] "";
    mkSwitch 24 KInt ["-lm"; "--left-margin"] "";
    mkSwitch 25 KInt ["-rm"; "--right-margin"] "";
    mkSwitch 26 KBool ["-aa"; "--antialias"] "";
    mkSwitch 27 KBool ["--print-job-id"] "";
    mkSwitch 28 KBool ["--save"] "" ]%string.
Definition pAddr := mkPos 30 "printer address" false.
Definition pAttrs := mkPos 31 "name=value[,name=value]" false.
Definition pFile := mkPos 32 "input file" false.
Definition client_subs : list (string * (list switch * list posarg)) :=
  [ ("info", ([oHelp; oVerbose], [pAddr])); ("identify", ([oHelp; oVerbose], [pAddr])); ("get-attrs", ([oHelp; oVerbose], [pAddr]));
    ("set-attrs", ([oHelp; oVerbose], [pAddr; pAttrs])); ("get-jobs", ([oHelp; oVerbose], [pAddr]));
    ("cancel-job", ([oHelp; oVerbose; oId], [pAddr])); ("print", (print_switches, [pAddr; pFile])) ]%string.
(** the variables before parsing: ippclient.cpp:160-197 *)
Definition client_init (junk : nat -> aval) : astate :=
  mkA (fun i => match i with
                | 0 | 1 | 2 | 3 | 27 | 28 => ABool false
                | 4 | 7 | 11 | 12 | 14 | 15 | 16 | 17 | 18 | 19 | 30 | 31 | 32 => AStr ""
                | _ => junk i
                end%nat) (fun _ => false).

(** ** Setting options *)
(** equality of strings, ints and resolutions *)
Definition basic_eqb (a b : ipp_value) : bool :=
  match a, b with
  | VStr x, VStr y => String.eqb x y
  | VInt x, VInt y => x =? y
  | VRes x y u, VRes x' y' u' => (x =? x') && (y =? y') && (u =? u')
  | _, _ => false
  end.
(** isSupported: setting.h:23-26 *)
Definition isSupported (pa : ipp_attrs) (s : setting) : bool := map_has (s_name s ++ "-supported") pa.
(** ChoiceSetting::isSupportedValue: setting.h:139-142 with List::contains *)
Definition choice_supports (pa : ipp_attrs) (s : setting) (v : ipp_value) : outcome bool :=
  let! l := getSupported pa s in Ok (existsb (fun x => basic_eqb x v) l).
(** IntegerSetting::isSupportedValue: setting.h:212-225 (for the number of copies) *)
Definition range_supports (pa : ipp_attrs) (s : setting) (v : ipp_value) : outcome bool :=
  if isSupported pa s then
    let! r := attrs_get TRange (s_name s ++ "-supported") (VRange 0 0) pa in
    Ok (match r, v with VRange lo hi, VInt z => (lo <=? z) && (z <=? hi) | _, _ => false end)
  else Ok false.
(** IntegerChoiceSetting::getSupported: setting.h:258-275 (for number-up, which ippclient
    does not use); incrementing the largest int is undefined *)
Fixpoint ints_from (n : nat) (i : Z) : list ipp_value :=
  match n with O => [] | S n' => VInt i :: ints_from n' (i + 1) end.
Definition choice_range (pa : ipp_attrs) (s : setting) : outcome (list ipp_value) :=
  match map_get (s_name s ++ "-supported") pa with
  | Some (_, VRange lo hi) => if (lo <=? hi) && (hi =? 2147483647) then UB else Ok (ints_from (Z.to_nat (hi - lo + 1)) lo)
  | _ => attrs_getList TInt (s_name s ++ "-supported") pa
  end.

(** set_or_fail: ippclient.cpp:126-156; None is exit(1).  The support is determined before
    [force] is looked at. *)
Definition set_or_fail (given : bool) (supports : outcome bool) (force : bool) (set : job -> outcome job) (j : job) : outcome (option job) :=
  if given then
    let! ok := supports in
    if ok || force then let! j := set j in Ok (Some j) else Ok None
  else Ok (Some j).
(** sequencing *)
Definition obind (x : outcome (option job)) (k : job -> outcome (option job)) : outcome (option job) :=
  let! o := x in match o with Some j => k j | None => Ok None end.
Notation "'go!' j := e 'in' k" := (obind e (fun j => k)) (at level 200, j name, e at level 100, k at level 200).

(** an option of type string or int for a setting of the job *)
Definition str_option (st : astate) (i : nat) (s : setting) (force : bool) (j : job) : outcome (option job) :=
  let v := VStr (as_str (a_val st i)) in
  set_or_fail (a_set st i) (choice_supports (j_printerAttrs j) s v) force (fun j => set_job j s v) j.
Definition int_option (st : astate) (i : nat) (s : setting) (force : bool) (j : job) : outcome (option job) :=
  let v := VInt (as_int (a_val st i)) in
  set_or_fail (a_set st i) (choice_supports (j_printerAttrs j) s v) force (fun j => set_job j s v) j.
(** the resolution options: ippclient.cpp:435-443 *)
Definition res_option (given : bool) (x y : Z) (force : bool) (j : job) : outcome (option job) :=
  set_or_fail given (choice_supports (j_printerAttrs j) s_resolution (VRes x y 3)) force (fun j => set_job j s_resolution (VRes x y 3)) j.

(** pos_clamp<int32_t>: ippclient.cpp:40-44 *)
Definition pos_clamp (v : Z) : Z := Z.min v 2147483647.
(** ippclient.cpp:409-423 *)
Definition pages_option (st : astate) (j : job) : outcome (option job) :=
  if a_set st 4%nat then
    let! l := parsePageRange (as_str (a_val st 4%nat)) in
    match l with
    | [] => Ok None
    | _ => let! j := set_job j s_pageRanges (VSet (map (fun r => VRange (pos_clamp (fst r)) (pos_clamp (snd r))) l)) in Ok (Some j)
    end
  else Ok (Some j).
(** IppPrinter::supportsPrinterRaster: ippprinter.cpp:375-379 *)
Definition supportsPrinterRaster (pa : ipp_attrs) : outcome bool :=
  let! l := str_list "document-format-supported" pa in Ok (contains l mPWG || contains l mURF).
(** ippclient.cpp:425 *)
Definition copies_option (st : astate) (pa : ipp_attrs) (force : bool) (j : job) : outcome (option job) :=
  let! force := (if force then Ok true else supportsPrinterRaster pa) in
  let v := VInt (as_int (a_val st 5%nat)) in
  set_or_fail (a_set st 5%nat) (range_supports (j_printerAttrs j) s_copies v) force (fun j => set_job j s_copies v) j.
(** ippclient.cpp:426 with the values of 206-208 *)
Definition collated_option (st : astate) (force : bool) (j : job) : outcome (option job) :=
  let v := VStr (if as_int (a_val st 6%nat) =? 1 then "separate-documents-collated-copies" else "separate-documents-uncollated-copies") in
  set_or_fail (a_set st 6%nat) (choice_supports (j_printerAttrs j) s_multipleDocumentHandling v) force (fun j => set_job j s_multipleDocumentHandling v) j.
(** ippclient.cpp:455 *)
Definition format_option (st : astate) (force : bool) (j : job) : outcome (option job) :=
  let v := VStr (as_str (a_val st 15%nat)) in
  set_or_fail (a_set st 15%nat) (choice_supports (j_printerAttrs j) s_documentFormat v) force (fun j => set_op j s_documentFormat v) j.
(** ippclient.cpp:447-451: EnumSwitchArg::getAlias (argget.h:186-189) is std::map::at *)
Fixpoint aliases (l : list ipp_value) : outcome (list string) :=
  match l with
  | [] => Ok []
  | v :: l' =>
      let! a := (if v_int v =? 3 then Ok "draft"%string else if v_int v =? 4 then Ok "normal"%string else if v_int v =? 5 then Ok "high"%string else Throw OutOfRange) in
      let! r := aliases l' in Ok (a :: r)
  end.
(** ippclient.cpp:461-482; with the margin of all sides *)
Definition margin_option (st : astate) (force : bool) (j : job) : outcome (option job) :=
  if a_set st 21%nat then
    let pa := j_printerAttrs j in
    if negb force && (negb (isSupported pa s_topMargin) || negb (isSupported pa s_bottomMargin) || negb (isSupported pa s_leftMargin) || negb (isSupported pa s_rightMargin))
    then Ok None
    else
      go! j := int_option st 21 s_topMargin force j in
      go! j := int_option st 21 s_bottomMargin force j in
      go! j := int_option st 21 s_leftMargin force j in
      int_option st 21 s_rightMargin force j
  else Ok (Some j).

(** IppResolution::toStr: ippattr.cpp:37-42 and resolution_list: ippclient.cpp:82-100.
    [first] is never changed. *)
Definition resolution_text (x y u : Z) : string :=
  (dec_string x ++ "x" ++ dec_string y ++ (if (u =? 3)%Z then "dpi" else if (u =? 4)%Z then "dots/cm" else "unknown"))%string.
Fixpoint resolution_texts (first : bool) (l : list ipp_value) : string :=
  match l with
  | [] => ""
  | VRes x y u :: l' =>
      if negb (u =? 3)%Z then resolution_texts first l'
      else ((if first then "" else ",") ++ resolution_text x y u ++ resolution_texts first l')%string
  | _ :: l' => resolution_texts first l'
  end.
Definition resolution_list (l : list ipp_value) : string :=
  let s := resolution_texts true l in if String.eqb s "" then "empty"%string else s.

(** ippclient.cpp:435-487: the resolution and the options after it.  The printer's supported
    resolutions and qualities are read for the messages whether or not the options are
    given. *)
Definition later_options (st : astate) (force : bool) (j : job) : outcome (option job) :=
  let! _ := getSupported (j_printerAttrs j) s_resolution in
  let r := as_int (a_val st 8%nat) in
  go! j := res_option (a_set st 8%nat) r r force j in
  go! j := res_option (a_set st 9%nat && a_set st 10%nat) (as_int (a_val st 9%nat)) (as_int (a_val st 10%nat)) force j in
  go! j := str_option st 11 s_sides force j in
  go! j := str_option st 12 s_colorMode force j in
  let! _ := (let! q := getSupported (j_printerAttrs j) s_printQuality in aliases q) in
  go! j := int_option st 13 s_printQuality force j in
  go! j := str_option st 14 s_scaling force j in
  go! j := format_option st force j in
  go! j := str_option st 17 s_mediaType force j in
  go! j := str_option st 18 s_mediaSource force j in
  go! j := str_option st 19 s_outputBin force j in
  go! j := int_option st 20 s_finishings force j in
  go! j := margin_option st force j in
  go! j := int_option st 22 s_topMargin force j in
  go! j := int_option st 23 s_bottomMargin force j in
  go! j := int_option st 24 s_leftMargin force j in
  int_option st 25 s_rightMargin force j.
(** ippclient.cpp:425-487: the options after the page ranges *)
Definition other_options (st : astate) (pa : ipp_attrs) (force : bool) (j : job) : outcome (option job) :=
  go! j := copies_option st pa force j in
  go! j := collated_option st force j in
  go! j := str_option st 7 s_media force j in
  if negb (Bool.eqb (a_set st 9%nat) (a_set st 10%nat)) then Ok None else later_options st force j.
(** ippclient.cpp:409-487: the options *)
Definition apply_options (st : astate) (pa : ipp_attrs) (force : bool) (j : job) : outcome (option job) :=
  go! j := pages_option st j in other_options st pa force j.

(** ** The commands *)
(** What the client finds: the world of PrinterModel, files, the JSON parser (its error or
    the value), the contents of the overrides file, the current directory and the number
    of pages poppler finds in a document (None if it cannot be opened) *)
Record client_env := mkEnv {
  e_world : world;
  e_files : string -> option (list byte);
  e_parse : list byte -> string + json;
  e_overrides : json;
  e_cwd : string;
  e_pages : string -> option Z }.

Definition set_antialias (p : params) (b : bool) : params :=
  {| p_format := p_format p; p_colorMode := p_colorMode p; p_quality := p_quality p; p_antiAlias := b; p_paperSizeName := p_paperSizeName p;
     p_hwResW := p_hwResW p; p_hwResH := p_hwResH p; p_units := p_units p; p_sizeW := p_sizeW p; p_sizeH := p_sizeH p; p_duplexMode := p_duplexMode p;
     p_backXform := p_backXform p; p_copies := p_copies p; p_collated := p_collated p; p_pageRanges := p_pageRanges p; p_mediaPosition := p_mediaPosition p; p_mediaType := p_mediaType p |}.
Definition with_stage (j : job) (b : bool) : job :=
  mkJob (j_opAttrs j) (j_jobAttrs j) (j_params j) (j_target j) b (j_margins j) (j_printerAttrs j) (j_additional j).
(** the text of a settings file: only a value without error counts (ippprintjob.cpp:327-352) *)
Definition parse_opt (e : client_env) (b : list byte) : option json := match e_parse e b with inl _ => None | inr j => Some j end.
(** ippclient.cpp:396-407; a file that cannot be opened reads as empty *)
Definition input_format (e : client_env) (st : astate) : option string :=
  if a_set st 16%nat then Some (as_str (a_val st 16%nat))
  else
    let f := as_str (a_val st 32%nat) in
    let m := if String.eqb f "-" then ""%string else getMimeType (match e_files e f with Some b => b | None => [] end) in
    if String.eqb m "" || String.eqb m OctetStream then None else Some m.
(** ippclient.cpp:489-505: the input file and the number of pages.  Simplified: for the empty
    name, which can only be given together with --mime-type application/pdf, std::filesystem::
    absolute throws; here poppler is asked for the directory. *)
Definition count_pages (e : client_env) (fmt inFile : string) : option (string * Z) :=
  if String.eqb fmt mPDF then
    let f := path_append (e_cwd e) inFile in
    match e_pages e f with Some n => Some (f, n) | None => None end
  else Some (inFile, 0).
(** the exit code for the error of an operation *)
Definition exit_code (o : option string) : Z := match o with None => 0 | Some _ => 1 end.

(** the job ippclient.cpp:380-487 makes: None is an exit with 1 *)
Definition prepare (e : client_env) (st : astate) (pa : ipp_attrs) : outcome (option (job * string)) :=
  let! j := createJob pa in
  let! j := (if as_bool (a_val st 28%nat) then Ok j else restoreSettings (w_user (e_world e)) (parse_opt e) (e_files e) j) in
  let j := if a_set st 3%nat then with_stage j (as_bool (a_val st 3%nat)) else j in
  let j := if a_set st 26%nat then with_params j (set_antialias (j_params j) (as_bool (a_val st 26%nat))) else j in
  match input_format e st with
  | None => Ok None
  | Some fmt =>
      let! r := apply_options st pa (as_bool (a_val st 2%nat)) j in
      match r with Some j => Ok (Some (j, fmt)) | None => Ok None end
  end.
(** ippclient.cpp:378-529 *)
Definition print_command (e : client_env) (st : astate) (p : printer) (id : Z) : list event * outcome Z :=
  do! x := pure (prepare e st (pr_attrs p)) in
  match x with
  | None => pure (Ok 1)
  | Some (j, fmt) =>
      match count_pages e fmt (as_str (a_val st 32%nat)) with
      | None => pure (Ok 1)
      | Some (inFile, pages) =>
          do! saved :=
            (if as_bool (a_val st 28%nat) then
               do! s := pure (saveSettings (w_user (e_world e)) j) in
               match s with Some (path, _) => ([Wrote path], Ok true) | None => pure (Ok false) end
             else pure (Ok true)) in
          if negb saved then pure (Ok 1)
          else
            do! error := run_job (e_world e) (mkPrinter (pr_addr p) (as_bool (a_val st 27%nat)) (pr_attrs p)) id j inFile fmt pages in
            pure (Ok (exit_code error))
      end
  end.

(** ippclient.cpp:329-352: the pairs of set-attrs; the regular expression demands exactly
    one equals sign *)
Definition key_value (kv : string) : option (string * string) :=
  match find_str "=" kv with
  | Some n => let v := drop (S n) kv in if string_contains v "=" then None else Some (take n kv, v)
  | None => None
  end.
Fixpoint key_values (l : list string) : option (list (string * string)) :=
  match l with
  | [] => Some []
  | kv :: l' => match key_value kv with
                | Some p => match key_values l' with Some r => Some (p :: r) | None => None end
                | None => None
                end
  end.
Definition set_attrs_command (e : client_env) (st : astate) (p : printer) (id : Z) : list event * outcome Z :=
  match key_values (split_string (as_str (a_val st 31%nat)) ",") with
  | None => pure (Ok 1)
  | Some l => do! error := set_attributes (e_world e) p id l in pure (Ok (exit_code error))
  end.
(** ippclient.cpp:364-377 *)
Definition cancel_command (e : client_env) (st : astate) (p : printer) (id : Z) : list event * outcome Z :=
  if a_set st 29%nat then do! error := cancel_job (e_world e) p id (as_int (a_val st 29%nat)) in pure (Ok (exit_code error))
  else pure (Ok 1).
(** ippclient.cpp:295-315 with the functions of ippprinter.cpp:212-373 *)
Fixpoint each {A} (f : string -> outcome A) (l : list string) : outcome unit :=
  match l with [] => Ok tt | k :: l' => let! _ := f k in each f l' end.
Definition info_command (pa : ipp_attrs) : outcome Z :=
  let! _ := each (fun k => get_str_attr k "" pa) ["printer-name"; "printer-make-and-model"; "printer-location"; "printer-uuid"; "printer-state-message"]%string in
  let! _ := each (fun k => str_list k pa) ["printer-state-reasons"; "ipp-versions-supported"; "ipp-features-supported"]%string in
  let! _ := each (fun k => get_int_attr k pa) ["pages-per-minute"; "pages-per-minute-color"]%string in
  let! l := supplies pa in
  let! _ := (fix percents l := match l with [] => Ok tt | s :: l' => let! _ := getPercent s in percents l' end) l in
  let! _ := firmware pa in
  let! _ := each (fun k => str_list k pa) ["printer-settable-attributes-supported"; "printer-icons"]%string in
  let! _ := get_str_attr "printer-strings-uri" "" pa in
  let! _ := printerInputFormats pa in
  Ok 0.

(** the constructor of IppPrinter, ippprinter.cpp:10-57: the requests, the error, the
    attributes and the next request id *)
Definition open_printer (e : client_env) (addr : string) : list event * outcome (option string * ipp_attrs * Z) :=
  if string_starts_with addr "file://" then
    do! x := pure (refresh_file (e_world e) (e_parse e) (e_files e (drop 7 addr)) [] (e_overrides e)) in
    pure (Ok (fst x, snd x, 1))
  else
    do! x := refresh (e_world e) (mkPrinter addr false []) 1 (e_overrides e) in
    pure (Ok (fst x, snd x, 2)).

(** main: ippclient.cpp:158-531: what is sent and the exit code; an exception ends the
    program *)
Definition client (e : client_env) (junk : nat -> aval) (args : list string) : list event * outcome Z :=
  do! x := pure (sub_get_args client_subs (client_init junk) args) in
  let '(ok, sub, _, st) := x in
  if as_bool (a_val st 0%nat) then pure (Ok 0)
  else if negb ok then pure (Ok 1)
  else
    do! y := open_printer e (as_str (a_val st 30%nat)) in
    let '(error, pa, id) := y in
    match error with
    | Some _ => pure (Ok 1)
    | None =>
        let p := mkPrinter (as_str (a_val st 30%nat)) false pa in
        if String.eqb sub "info" then pure (info_command pa)
        else if String.eqb sub "identify" then do! error := identify (e_world e) p id in pure (Ok (exit_code error))
        else if String.eqb sub "get-attrs" then pure (Ok 0)
        else if String.eqb sub "set-attrs" then set_attrs_command e st p id
        else if String.eqb sub "get-jobs" then do! r := get_jobs (e_world e) p id in pure (Ok (exit_code (fst r)))
        else if String.eqb sub "cancel-job" then cancel_command e st p id
        else if String.eqb sub "print" then print_command e st p id
        else pure (Ok 0)
    end.
