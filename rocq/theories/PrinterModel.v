(** lib/ippprinter.{h,cpp}: a printer's information, its requests and IppPrinter::runJob.
    The network, the conversions and the file system are parts of a [world] the functions
    are given. *)
From Verif Require Import Base MapModel FloatModel StringModel ParamsModel IppModel JsonModel ArgModel SettingModel ConverterModel JobModel.
Local Open Scope Z_scope.

(** ** More of MiniMime *)
(** minimime.cpp:66-70 *)
Definition isKnownImageFormat (m : string) : bool := contains [mPNG; mGIF; mJPEG; mTIFF] m.
(** minimime.cpp:83-87 *)
Definition isMultiPage (m : string) : bool := contains [mPDF; mPostscript; mPWG; mURF] m.
(** minimime.cpp:89-100; std::map::at *)
Definition extensions : list (string * string) :=
  [ (mPDF, ".pdf"); (mPostscript, ".ps"); (mPWG, ".pwg"); (mURF, ".urf"); (mPNG, ".png"); (mGIF, ".gif"); (mJPEG, ".jpg"); (mTIFF, ".tiff") ]%string.
Definition defaultExtension (m : string) : outcome string :=
  match map_get m extensions with Some e => Ok e | None => Throw OutOfRange end.

(** ** The printer *)
(** IppPrinter's members as far as used: ippprinter.h:103-108 *)
Record printer := mkPrinter { pr_addr : string; pr_printJobId : bool; pr_attrs : ipp_attrs }.

(** getList<std::string> and getList<int> of the printer's attributes *)
Definition str_list (k : string) (pa : ipp_attrs) : outcome (list string) := let! l := attrs_getList TStr k pa in Ok (map v_str l).
Definition int_list (k : string) (pa : ipp_attrs) : outcome (list Z) := let! l := attrs_getList TInt k pa in Ok (map v_int l).
Definition get_str_attr (k dflt : string) (m : ipp_attrs) : outcome string := let! v := attrs_get TStr k (VStr dflt) m in Ok (v_str v).
Definition get_int_attr (k : string) (m : ipp_attrs) : outcome Z := let! v := attrs_get TInt k (VInt 0) m in Ok (v_int v).

(** IppPrinter::Supply and Firmware: ippprinter.h:15-32 *)
Record supply := mkSupply { sp_name : string; sp_type : string; sp_colors : list string; sp_level : Z; sp_low : Z; sp_high : Z }.
(** ippprinter.cpp:294-301 *)
Definition color_list (c : string) : list string :=
  flat_map (fun s => if String.eqb s "" then [] else [if String.eqb s "none" then s else String.append "#" s]) (split_string c "#").
(** the loop of ippprinter.cpp:289-303 over six iterators *)
Fixpoint zip_supplies (names types colors : list string) (levels lows highs : list Z) : list supply :=
  match names, types, colors, levels, lows, highs with
  | n :: names, t :: types, c :: colors, l :: levels, lo :: lows, hi :: highs =>
      mkSupply n t (color_list c) l lo hi :: zip_supplies names types colors levels lows highs
  | _, _, _, _, _, _ => []
  end.
(** IppPrinter::supplies: ippprinter.cpp:272-305 *)
Definition supplies (pa : ipp_attrs) : outcome (list supply) :=
  let! names := str_list "marker-names" pa in
  let! types := str_list "marker-types" pa in
  let! colors := str_list "marker-colors" pa in
  let! levels := int_list "marker-levels" pa in
  let! lows := int_list "marker-low-levels" pa in
  let! highs := int_list "marker-high-levels" pa in
  Ok (zip_supplies names types colors levels lows highs).
(** Supply::getPercent: ippprinter.cpp:381-384 *)
Definition getPercent (s : supply) : outcome Z :=
  f_to_signed 32 (fdiv (fmul (fofZ (sp_level s)) f100) (fofZ (if sp_high s =? 0 then 100 else sp_high s))).
(** Supply::isLow: ippprinter.cpp:386-389 *)
Definition isLow (s : supply) : bool := sp_level s <=? sp_low s.
(** IppPrinter::firmware: ippprinter.cpp:307-320 *)
Definition firmware (pa : ipp_attrs) : outcome (list (string * string)) :=
  let! names := str_list "printer-firmware-name" pa in
  let! versions := str_list "printer-firmware-string-version" pa in
  Ok (combine names versions).

(** IppPrinter::isWarningState: ippprinter.cpp:407-421 *)
Definition isWarningState (pa : ipp_attrs) : outcome bool :=
  let! st := get_int_attr "printer-state" pa in
  if 4 <? st then Ok true
  else
    let! reasons := str_list "printer-state-reasons" pa in
    Ok (existsb (fun r => negb (String.eqb r "none") && negb (string_ends_with r "-report")) reasons).

(** IppPrinter::additionalDocumentFormats: ippprinter.cpp:342-368 *)
Definition additionalDocumentFormats (pa : ipp_attrs) : outcome (list string) :=
  let! base := str_list "document-format-supported" pa in
  let! id := get_str_attr "printer-device-id" "" pa in
  let has x := string_contains id x in
  let add f (b : bool) := if negb (contains base f) && b then [f] else [] in
  Ok (add mPDF (has "PDF"%string)
      ++ add mPostscript (has "POSTSCRIPT"%string || has "PostScript"%string)
      ++ add mPWG (has "PWG"%string)
      ++ add mURF (has "URF"%string || has "AppleRaster"%string)).
(** IppPrinter::possibleInputFormats: ippprinter.cpp:370-373 *)
Definition printerInputFormats (pa : ipp_attrs) : outcome (list string) :=
  let! base := str_list "document-format-supported" pa in
  let! add := additionalDocumentFormats pa in
  Ok (possibleInputFormats (base ++ add)).
(** IppPrinter::createJob: ippprinter.h:56-59 *)
Definition createJob (pa : ipp_attrs) : outcome job :=
  let! add := additionalDocumentFormats pa in Ok (new_job pa add).

(** ** Requests *)
(** What a request over HTTP comes back with: an error text or the body of the response *)
Inductive reply := Failed (text : string) | Response (body : list byte).
Inductive compression := NoCompression | Gzip | Deflate.
(** What the program sends or writes *)
Inductive event :=
| Posted (addr : string) (request : list byte)                        (* CurlIppPoster *)
| Streamed (addr : string) (header : list byte)                       (* CurlIppStreamer: the document follows *)
| Wrote (path : string).                                              (* a file opened for the document *)
(** The rest of the world: the environment's USER; std::exception::what of exceptions;
    posting a request; running a conversion (returning its error, or throwing) with the
    written chunks going to the upload; the end of an upload. *)
Record world := mkWorld {
  w_user : option string;
  w_what : exn -> string;
  w_post : string -> list byte -> reply;
  w_convert : conversion -> string -> job -> outcome (option string);
  w_await : string -> list byte -> compression -> conversion -> string -> job -> reply;
  w_temp : string }.

(** IppPrinter::_mkMsg: ippprinter.cpp:543-554 *)
Definition mk_msg (w : world) (p : printer) (op : Z) (opAttrs jobAttrs printerAttrs : ipp_attrs) : outcome ipp_msg :=
  let! vs := str_list "ipp-versions-supported" (pr_attrs p) in
  Ok (makeRequest (contains vs "2.0"%string) (w_user w) (pr_addr p) op opAttrs jobAttrs printerAttrs).

(** IppPrinter::_doRequest: ippprinter.cpp:503-541.  The request id is the static counter;
    the result is the error and the response (the empty message if there is an error). *)
Definition do_request (w : world) (p : printer) (id : Z) (req : ipp_msg) : list event * outcome (option string * ipp_msg) :=
  match fst (encodeMsg id req) with
  | Ok b =>
      ([Posted (pr_addr p) b],
       match w_post w (pr_addr p) b with
       | Failed t => Ok (Some t, empty_msg)
       | Response body =>
           match decodeMsg body with
           | Ok (r, _) => Ok (None, r)
           | Throw e => Ok (Some (w_what w e), empty_msg)
           | UB => UB | Hang => Hang | NoFuel => NoFuel
           end
       end)
  | Throw e => ([], Throw e)
  | UB => ([], UB) | Hang => ([], Hang) | NoFuel => ([], NoFuel)
  end.

Definition opPrintJob : Z := 0x0002.
Definition opCreateJob : Z := 0x0005.
Definition opSendDocument : Z := 0x0006.
Definition opCancelJob : Z := 0x0008.
Definition opGetJobs : Z := 0x000A.
Definition opGetPrinterAttrs : Z := 0x000B.
Definition opSetPrinterAttrs : Z := 0x0013.
Definition opIdentifyPrinter : Z := 0x003C.

(** sequencing of computations that send *)
Definition ebind {A B} (x : list event * outcome A) (k : A -> list event * outcome B) : list event * outcome B :=
  match snd x with
  | Ok a => let y := k a in (fst x ++ fst y, snd y)
  | Throw e => (fst x, Throw e)
  | UB => (fst x, UB) | Hang => (fst x, Hang) | NoFuel => (fst x, NoFuel)
  end.
Definition pure {A} (x : outcome A) : list event * outcome A := ([], x).
Notation "'do!' x := e 'in' k" := (ebind e (fun x => k)) (at level 200, x pattern, e at level 100, k at level 200).

(** ** Printing *)
(** std::filesystem::path::filename: what follows the last slash *)
Fixpoint base_name_from (acc s : string) : string :=
  match s with
  | EmptyString => acc
  | String c s' => if Ascii.eqb c "/"%char then base_name_from s' s' else base_name_from acc s'
  end.
Definition base_name (s : string) : string := base_name_from s s.

(** the compression of ippprinter.cpp:142-149 *)
Definition compression_of (j : job) : outcome compression :=
  let! v := get_op j s_compression (VStr "") in
  if String.eqb (v_str v) "gzip" then Ok Gzip
  else if String.eqb (v_str v) "deflate" then Ok Deflate
  else Ok NoCompression.

(** IppPrinter::doPrint: ippprinter.cpp:136-188 *)
Definition do_print (w : world) (p : printer) (j : job) (inFile : string) (conv : conversion) (hdr : list byte) : list event * outcome (option string) :=
  ([Streamed (pr_addr p) hdr],
   let! c := compression_of j in
   let! error := w_convert w conv inFile j in
   match error with
   | Some e => Ok (Some e)
   | None =>
       match w_await w (pr_addr p) hdr c conv inFile j with
       | Failed t => Ok (Some t)
       | Response body =>
           let! (r, _) := decodeMsg body in
           if m_opOrStatus r <? 0xff then
             match m_jobAttrs r with
             | g :: _ => if pr_printJobId p then let! _ := get_int_attr "job-id" g in Ok None else Ok None
             | [] => Ok None
             end
           else
             let! s := get_str_attr "status-message" "unknown" (m_opAttrs r) in
             Ok (Some (String.append "Print job failed: " s))
       end
   end).

(** IppPrinter::doPrintToFile: ippprinter.cpp:190-210 *)
Definition do_print_to_file (w : world) (j : job) (inFile : string) (conv : conversion) : list event * outcome (option string) :=
  do! ext := pure (defaultExtension (j_target j)) in
  ([Wrote (w_temp w ++ "/ippclient-debug-" ++ base_name inFile ++ ext)%string], w_convert w conv inFile j).

(** the body of the try block of IppPrinter::runJob: ippprinter.cpp:64-127 *)
Definition run_job_body (w : world) (p : printer) (id : Z) (j : job) (inFile inFormat : string) (pages : Z) : list event * outcome (option string) :=
  do! supportedOperations := pure (int_list "operations-supported" (pr_attrs p)) in
  let fileName := base_name inFile in
  do! x := pure (finalize j inFormat pages) in
  let (error, j) := x in
  match error with
  | Some e => pure (Ok (Some e))
  | None =>
      match getConvertFun inFormat (j_target j) with
      | None => pure (Ok (Some ("No conversion method found for " ++ inFormat ++ " to " ++ j_target j)%string))
      | Some conv =>
          if string_starts_with (pr_addr p) "file://" then
            (* the error returned is not used *)
            do! _ := do_print_to_file w j inFile conv in pure (Ok None)
          else if negb (j_oneStage j) && existsb (Z.eqb opCreateJob) supportedOperations && existsb (Z.eqb opSendDocument) supportedOperations then
            do! createJobMsg := pure (mk_msg w p opCreateJob [("job-name"%string, (tNameWithoutLanguage, VStr fileName))] (j_jobAttrs j) []) in
            do! y := do_request w p id createJobMsg in
            let (error, resp) := y in
            match error with
            | Some e => pure (Ok (Some (String.append "Create job failed: " e)))
            | None =>
                let g := match m_jobAttrs resp with g :: _ => g | [] => [] end in
                if (m_opOrStatus resp <=? 0xff) && map_has "job-id" g then
                  do! jobId := pure (get_int_attr "job-id" g) in
                  let opAttrs := map_set "last-document" (tBoolean, VBool true) (map_set "job-id" (tInteger, VInt jobId) (j_opAttrs j)) in
                  do! sendDocumentMsg := pure (mk_msg w p opSendDocument opAttrs [] []) in
                  do! hdr := pure (fst (encodeMsg ((id + 1) mod two32) sendDocumentMsg)) in
                  do_print w p j inFile conv hdr
                else
                  do! s := pure (get_str_attr "status-message" "unknown" (m_opAttrs resp)) in
                  pure (Ok (Some (String.append "Create job failed: " s)))
            end
          else
            let opAttrs := map_set "job-name" (tNameWithoutLanguage, VStr fileName) (j_opAttrs j) in
            do! printJobMsg := pure (mk_msg w p opPrintJob opAttrs (j_jobAttrs j) []) in
            do! hdr := pure (fst (encodeMsg id printJobMsg)) in
            do_print w p j inFile conv hdr
      end
  end.
(** IppPrinter::runJob: ippprinter.cpp:59-134.  The job is passed by value; all the
    exceptions of the model derive from std::exception. *)
Definition run_job (w : world) (p : printer) (id : Z) (j : job) (inFile inFormat : string) (pages : Z) : list event * outcome (option string) :=
  let x := run_job_body w p id (copy_job j) inFile inFormat pages in
  (fst x,
   match snd x with
   | Throw e => Ok (Some (String.append "Exception caught while printing: " (w_what w e)))
   | y => y
   end).

(** ** The other operations *)
(** IppPrinter::identify: ippprinter.cpp:423-432 with _doRequest 497-501 *)
Definition identify (w : world) (p : printer) (id : Z) : list event * outcome (option string) :=
  if negb (map_has "identify-actions-supported" (pr_attrs p)) then pure (Ok (Some "Identify not supported."%string))
  else
    do! req := pure (mk_msg w p opIdentifyPrinter [] [] []) in
    do! y := do_request w p id req in
    pure (Ok (fst y)).
(** IppPrinter::cancelJob: ippprinter.cpp:479-495 *)
Definition cancel_job (w : world) (p : printer) (id : Z) (jobId : Z) : list event * outcome (option string) :=
  do! req := pure (mk_msg w p opCancelJob [("job-id"%string, (tInteger, VInt jobId))] [] []) in
  do! y := do_request w p id req in
  match fst y with
  | Some e => pure (Ok (Some e))
  | None =>
      if 0xff <? m_opOrStatus (snd y) then
        do! s := pure (get_str_attr "status-message" "unknown" (m_opAttrs (snd y))) in pure (Ok (Some s))
      else pure (Ok None)
  end.
(** IppPrinter::getJobs: ippprinter.cpp:459-477; JobInfo: ippprinter.h:33-39 *)
Record job_info := mkInfo { ji_id : Z; ji_name : string; ji_state : Z; ji_message : string }.
Fixpoint job_infos (l : list ipp_attrs) : outcome (list job_info) :=
  match l with
  | [] => Ok []
  | g :: l' =>
      let! i := get_int_attr "job-id" g in
      let! n := get_str_attr "job-name" "" g in
      let! s := get_int_attr "job-state" g in
      let! m := get_str_attr "job-printer-state-message" "" g in
      let! r := job_infos l' in
      Ok (mkInfo i n s m :: r)
  end.
Definition get_jobs (w : world) (p : printer) (id : Z) : list event * outcome (option string * list job_info) :=
  do! req := pure (mk_msg w p opGetJobs [("requested-attributes"%string, (tKeyword, VStr "all"))] [] []) in
  do! y := do_request w p id req in
  match fst y with
  | Some e => pure (Ok (Some e, []))
  | None => do! l := pure (job_infos (m_jobAttrs (snd y))) in pure (Ok (None, l))
  end.
(** IppAttr::fromString: ippattr.cpp:106-158 *)
Definition attrFromString (s : string) (tag : Z) : outcome ipp_attr :=
  if (tag =? tInteger) || (tag =? tEnum) then let! z := stoi s in Ok (tag, VInt z)
  else if tag =? tBoolean then
    if String.eqb s "true" then Ok (tag, VBool true)
    else if String.eqb s "false" then Ok (tag, VBool false)
    else Throw OutOfRange
  else if existsb (Z.eqb tag) [tTextWithLanguage; tNameWithLanguage; tTextWithoutLanguage; tNameWithoutLanguage; tKeyword; tUri; tUriScheme; tCharset; tNaturalLanguage; tMimeMediaType]
  then Ok (tag, VStr s)
  else Throw LogicError.
(** the loop of IppPrinter::setAttributes: ippprinter.cpp:438-452; an exception is the
    error returned *)
Fixpoint collect_settable (pa : ipp_attrs) (l : list (string * string)) (acc : ipp_attrs) : outcome ipp_attrs :=
  match l with
  | [] => Ok acc
  | (name, value) :: l' =>
      match map_get name pa with
      | Some a => let! x := attrFromString value (fst a) in collect_settable pa l' (map_set name x acc)
      | None => collect_settable pa l' acc
      end
  end.
(** IppPrinter::setAttributes: ippprinter.cpp:434-457 *)
Definition set_attributes (w : world) (p : printer) (id : Z) (l : list (string * string)) : list event * outcome (option string) :=
  match collect_settable (pr_attrs p) l [] with
  | Throw e => pure (Ok (Some (w_what w e)))
  | Ok attrs =>
      do! req := pure (mk_msg w p opSetPrinterAttrs [] [] attrs) in
      do! y := do_request w p id req in
      pure (Ok (fst y))
  | UB => pure UB | Hang => pure Hang | NoFuel => pure NoFuel
  end.

(** IppPrinter::_applyOverrides: ippprinter.cpp:556-591, given the parsed contents of the
    overrides file (JNull if it is missing or malformed).  The exceptions of the loops end
    it; what was assigned before stays. *)
Definition object_items (j : json) : list (string * json) := match j with JObj m => m | _ => [] end.
Fixpoint overlay (l : ipp_attrs) (m : ipp_attrs) : ipp_attrs :=
  match l with [] => m | (k, a) :: l' => overlay l' (map_set k a m) end.
Fixpoint override_values (name : string) (l : list (string * json)) (pa : ipp_attrs) : ipp_attrs * bool :=
  match l with
  | [] => (pa, true)
  | (value, obj) :: l' =>
      match map_get name pa with
      | None => override_values name l' pa
      | Some a =>
          match snd a with
          | VStr s =>
              if String.eqb s value then
                match attrsfromJSON (object_items obj) [] with
                | Ok o => override_values name l' (overlay o pa)
                | _ => (pa, false)
                end
              else override_values name l' pa
          | _ => (pa, false)
          end
      end
  end.
Fixpoint override_all (l : list (string * json)) (pa : ipp_attrs) : ipp_attrs :=
  match l with
  | [] => pa
  | (name, j) :: l' =>
      let (pa, go) := override_values name (object_items j) pa in
      if go then override_all l' pa else pa
  end.
Definition applyOverrides (overrides : json) (pa : ipp_attrs) : ipp_attrs := override_all (object_items overrides) pa.

(** CONFIG_DIR: configdir.h:2; adding the null pointer getenv gives for a variable that is
    not set to a string is undefined *)
Definition config_dir (user : option string) : outcome string :=
  match user with Some u => Ok ("/home/" ++ u ++ "/.ppm2pwg")%string | None => UB end.
(** IppPrinter::refresh for a network printer: ippprinter.cpp:51-56, with the contents of
    the overrides file.  A failed request leaves the empty attributes of the empty
    response. *)
Definition refresh (w : world) (p : printer) (id : Z) (overrides : json) : list event * outcome (option string * ipp_attrs) :=
  do! req := pure (mk_msg w p opGetPrinterAttrs [] [] []) in
  do! y := do_request w p id req in
  do! _ := pure (config_dir (w_user w)) in
  pure (Ok (fst y, applyOverrides overrides (m_printerAttrs (snd y)))).
(** IppPrinter::refresh for a printer that is a file: ippprinter.cpp:18-49, 55-56, given the
    file's contents (None: it cannot be opened), the JSON parser (its error text or the
    value) and the attributes so far, which a failure leaves.  The overrides are not
    applied if the file cannot be opened or parsed, as these return at once. *)
Definition refresh_file (w : world) (parse : list byte -> string + json) (contents : option (list byte)) (pa : ipp_attrs) (overrides : json) : outcome (option string * ipp_attrs) :=
  let finish error pa := let! _ := config_dir (w_user w) in Ok (error, applyOverrides overrides pa) in
  let caught x :=
    match x with
    | Ok pa' => finish None pa'
    | Throw e => finish (Some (w_what w e)) pa
    | UB => UB | Hang => Hang | NoFuel => NoFuel
    end in
  match contents with
  | None => Ok (Some "Failed to open fake-printer file."%string, pa)
  | Some [] => caught (Throw OutOfRange)                                (* peek *)
  | Some (c :: l) =>
      if Zb c =? 123 then
        match parse (c :: l) with
        | inl e => Ok (Some e, pa)
        | inr j => caught (attrsfromJSON (object_items j) [])
        end
      else caught (let! (m, _) := decodeMsg (c :: l) in Ok (m_printerAttrs m))
  end.
