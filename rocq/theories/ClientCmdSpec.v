(** What the words on ippclient's command line mean (the help text and the tables of
    ippclient.cpp:199-268), independent of how ArgModel and ClientModel read them. *)
From Verif Require Import Base MapModel StringModel StringSpec ParamsModel ParamsSpec ParamsProperties IppModel ArgModel ArgSpec PpmCmdSpec SettingModel SettingProperties JobModel ClientSpec.
Local Open Scope Z_scope.

(** ** The commands: options without and with a value (each name with the long name), and
    the number of further words *)
Definition common_flags : list (string * string) := [ ("-h", "--help"); ("--help", "--help"); ("-v", "--verbose"); ("--verbose", "--verbose") ]%string.
Definition print_flags : list (string * string) :=
  common_flags
  ++ [ ("-f", "--force"); ("--force", "--force"); ("--one-stage", "--one-stage"); ("-aa", "--antialias"); ("--antialias", "--antialias");
       ("--print-job-id", "--print-job-id"); ("--save", "--save") ]%string.
Definition print_values : list (string * string) :=
  [ ("-p", "--pages"); ("--pages", "--pages"); ("--copies", "--copies"); ("--collated-copies", "--collated-copies"); ("--paper-size", "--paper-size");
    ("-r", "--resolution"); ("--resolution", "--resolution"); ("-rx", "--resolution-x"); ("--resolution-x", "--resolution-x"); ("-ry", "--resolution-y");
    ("--resolution-y", "--resolution-y"); ("-s", "--sides"); ("--sides", "--sides"); ("-c", "--color-mode"); ("--color-mode", "--color-mode"); ("-q", "--quality");
    ("--quality", "--quality"); ("--scaling", "--scaling"); ("--format", "--format"); ("--mime-type", "--mime-type"); ("--media-type", "--media-type");
    ("--media-source", "--media-source"); ("--output-bin", "--output-bin"); ("--finishings", "--finishings"); ("-m", "--margin"); ("--margin", "--margin");
    ("-tm", "--top-margin"); ("--top-margin", "--top-margin"); ("-bm", "--bottom-margin"); ("--bottom-margin", "--bottom-margin");
    ("-lm", "--left-margin"); ("--left-margin", "--left-margin"); ("-rm", "--right-margin"); ("--right-margin", "--right-margin") ]%string.
Definition commands : list (string * (list (string * string) * list (string * string) * nat)) :=
  [ ("info", (common_flags, [], 1%nat)); ("identify", (common_flags, [], 1%nat)); ("get-attrs", (common_flags, [], 1%nat)); ("set-attrs", (common_flags, [], 2%nat));
    ("get-jobs", (common_flags, [], 1%nat)); ("cancel-job", (common_flags, [("--id", "--id")], 1%nat)); ("print", (print_flags, print_values, 2%nat)) ]%string.

(** ** The values the options take *)
(** an uint32_t, as strtoul(3) reads it *)
Definition natural (t : string) (z : Z) : Prop := value_text KUInt t (AInt z).
Definition collations : list (string * string) := [("yes", "separate-documents-collated-copies"); ("no", "separate-documents-uncollated-copies")]%string.
Definition ipp_qualities : list (string * Z) := [("draft", 3); ("normal", 4); ("high", 5)]%string.
Definition client_takes (name value : string) : Prop :=
  (name = "--collated-copies" -> In value (map fst collations))%string /\ (name = "--quality" -> In value (map fst ipp_qualities))%string
  /\ (In name ["--copies"; "--finishings"; "--margin"; "--top-margin"; "--bottom-margin"; "--left-margin"; "--right-margin"; "--id"] -> exists z, integer value z)%string
  /\ (In name ["--resolution"; "--resolution-x"; "--resolution-y"] -> exists z, natural value z)%string.

(** ** The settings the options of print stand for *)
Inductive reading := Text | Number | Collation | Quality | Square | Axes.
(** the value some texts stand for *)
Definition means (r : reading) (ts : list string) (v : ipp_value) : Prop :=
  match r, ts with
  | Text, [t] => v = VStr t
  | Number, [t] => exists z, integer t z /\ v = VInt z
  | Collation, [t] => exists x, In (t, x) collations /\ v = VStr x
  | Quality, [t] => exists z, In (t, z) ipp_qualities /\ v = VInt z
  | Square, [t] => exists z, natural t z /\ v = VRes z z 3
  | Axes, [t; u] => exists x y, natural t x /\ natural u y /\ v = VRes x y 3
  | _, _ => False
  end.
(** in the order of increasing strength *)
Definition meanings : list (list string * setting * reading) :=
  [ (["--copies"], s_copies, Number); (["--collated-copies"], s_multipleDocumentHandling, Collation); (["--paper-size"], s_media, Text);
    (["--resolution"], s_resolution, Square); (["--resolution-x"; "--resolution-y"], s_resolution, Axes); (["--sides"], s_sides, Text);
    (["--color-mode"], s_colorMode, Text); (["--quality"], s_printQuality, Quality); (["--scaling"], s_scaling, Text);
    (["--media-type"], s_mediaType, Text); (["--media-source"], s_mediaSource, Text); (["--output-bin"], s_outputBin, Text); (["--finishings"], s_finishings, Number);
    (["--margin"], s_topMargin, Number); (["--margin"], s_bottomMargin, Number); (["--margin"], s_leftMargin, Number); (["--margin"], s_rightMargin, Number);
    (["--top-margin"], s_topMargin, Number); (["--bottom-margin"], s_bottomMargin, Number); (["--left-margin"], s_leftMargin, Number); (["--right-margin"], s_rightMargin, Number) ]%string.
(** what the options [rs] demand *)
Inductive demands (rs : list (string * string)) : list (list string * setting * reading) -> list (setting * ipp_value) -> Prop :=
| demands_none : demands rs [] []
| demands_not o s r es l : (exists n, In n o /\ asked rs n = None) -> demands rs es l -> demands rs ((o, s, r) :: es) l
| demands_value o s r es l ts v : Forall2 (fun n t => asked rs n = Some t) o ts -> means r ts v -> demands rs es l -> demands rs ((o, s, r) :: es) ((s, v) :: l).
(** the strongest demand for a setting *)
Fixpoint strongest (l : list (setting * ipp_value)) (s : setting) (default : option ipp_value) : option ipp_value :=
  match l with [] => default | (s', v) :: l' => strongest l' s (if same s s' then Some v else default) end.

(** ** Command lines *)
(** the words [args] are a command with its options [rs] and its further words [p] *)
Definition command_line (read : list (string * string) -> list (string * string) -> list string -> list (string * string) -> Prop)
  (args : list string) (name : string) (rs : list (string * string)) (p : list string) : Prop :=
  exists flags values n sw, In (name, (flags, values, n)) commands /\ args = name :: sw ++ p /\ read flags values sw rs
    /\ Forall (fun e => client_takes (fst e) (snd e)) rs /\ length p = n
    /\ match p with [] => True | w :: _ => ~ In w (map fst flags) /\ ~ In w (map fst values) end.

(** ** Jobs *)
(** only the antialiasing may differ *)
Definition same_apart_from_antialias (p p' : params) : Prop :=
  p_format p' = p_format p /\ p_colorMode p' = p_colorMode p /\ p_quality p' = p_quality p /\ p_paperSizeName p' = p_paperSizeName p /\ p_hwResW p' = p_hwResW p
  /\ p_hwResH p' = p_hwResH p /\ p_units p' = p_units p /\ p_sizeW p' = p_sizeW p /\ p_sizeH p' = p_sizeH p /\ p_duplexMode p' = p_duplexMode p
  /\ p_backXform p' = p_backXform p /\ p_copies p' = p_copies p /\ p_collated p' = p_collated p /\ p_pageRanges p' = p_pageRanges p
  /\ p_mediaPosition p' = p_mediaPosition p /\ p_mediaType p' = p_mediaType p.
(** the page ranges and the format asked for *)
Definition pages_demanded (rs : list (string * string)) (l : list (setting * ipp_value)) : Prop :=
  match asked rs "--pages" with None => l = [] | Some t => exists rgs, range_list t rgs /\ l = [(s_pageRanges, ranges_value rgs)] end.
Definition format_demanded (rs : list (string * string)) : list (setting * ipp_value) :=
  match asked rs "--format" with None => [] | Some t => [(s_documentFormat, VStr t)] end.
(** [j] is [j0] with what the options say *)
Definition job_as_demanded (rs : list (string * string)) (l : list (setting * ipp_value)) (j0 j : job) : Prop :=
  (exists lp, pages_demanded rs lp /\ forall s, job_setting s ->
     option_map snd (lookup s (j_jobAttrs j)) = strongest (lp ++ l) s (option_map snd (lookup s (j_jobAttrs j0))))
  /\ j_opAttrs j = match asked rs "--format" with Some t => map_set "document-format" (tMimeMediaType, VStr t) (j_opAttrs j0) | None => j_opAttrs j0 end
  /\ j_oneStage j = (present rs "--one-stage" || j_oneStage j0)
  /\ p_antiAlias (j_params j) = (present rs "--antialias" || p_antiAlias (j_params j0)) /\ same_apart_from_antialias (j_params j0) (j_params j)
  /\ j_target j = j_target j0 /\ j_margins j = j_margins j0 /\ j_printerAttrs j = j_printerAttrs j0 /\ j_additional j = j_additional j0.
