(** What ippclient should say on the terminal, independent of SayModel. *)
From Verif Require Import Base MapModel StringModel StringSpec ParamsModel ParamsSpec ParamsProperties IppModel ArgModel SettingModel JobModel JobProperties ClientSpec ClientCmdSpec OutputProperties PrinterModel.
Local Open Scope Z_scope.

(** ** Ends of the program *)
(** one or more lines *)
Definition lines (s : string) : Prop := exists t, t <> ""%string /\ s = (t ++ line_feed)%string.
(** The exit code is 0 or 1.  With 1 there is a reason on the standard error and nothing on the
    standard output; with 0 there is at most the name of a file written. *)
Definition explained (events : list event) (out : list byte) (err : string) (code : Z) : Prop :=
  (code = 0 /\ (err = ""%string \/ exists path, In (Wrote path) events /\ err = ("Wrote " ++ path ++ line_feed)%string))
  \/ (code = 1 /\ out = [] /\ lines err).
(** the sentence about a job a response tells of *)
Definition job_told (m : ipp_msg) (out : list byte) : Prop :=
  match m_jobAttrs m with
  | [] => out = []
  | g :: _ => exists n t, (map_get "job-id" g = None /\ n = 0 \/ exists tag, map_get "job-id" g = Some (tag, VInt n)) /\ decimal n t
      /\ out = bytes_of_string ("Job submitted successfully, with id: " ++ t ++ line_feed)
  end.

(** ** Refusals *)
(** how the values a printer supports are listed *)
Inductive hint :=
| Listed (which : string)   (* the values of the attribute; of which margin, if any *)
| Ready                     (* and whether they are loaded *)
| Dpi                       (* resolutions in dots per inch *)
| Named.                    (* the qualities, by the names the option takes *)
(** What is checked.  [Asks words s v h]: the option called [words] asks for the value [v] of
    the setting [s]. *)
Inductive check :=
| Ranges (t : string)
| BothAxes (x y : bool)
| AllMargins
| Asks (words : string) (s : setting) (v : ipp_value) (h : hint).
Definition when (b : bool) (c : check) : list check := if b then [c] else [].
Definition asks (b : bool) (words : string) (s : setting) (v : ipp_value) (h : hint) : list check :=
  when b (Asks (words ++ " (ipp: " ++ s_name s ++ ")") s v h).
(** in the order in which the first that fails is reported *)
Definition checks (st : astate) : list check :=
  when (given st 4) (Ranges (as_str (a_val st 4%nat)))
  ++ asks (given st 5) "--copies <int>" s_copies (number st 5) (Listed "")
  ++ asks (given st 6) "--collated-copies <choice>" s_multipleDocumentHandling
       (VStr (if as_int (a_val st 6%nat) =? 1 then "separate-documents-collated-copies" else "separate-documents-uncollated-copies")) (Listed "")
  ++ asks (given st 7) "--paper-size <string>" s_media (text st 7) Ready
  ++ [BothAxes (given st 9) (given st 10)]
  ++ asks (given st 8) "-r, --resolution <int>" s_resolution (VRes (as_int (a_val st 8%nat)) (as_int (a_val st 8%nat)) 3) Dpi
  ++ asks (given st 9 && given st 10) "-rx, --resolution-x <int> and/or -ry, --resolution-y <int>" s_resolution
       (VRes (as_int (a_val st 9%nat)) (as_int (a_val st 10%nat)) 3) Dpi
  ++ asks (given st 11) "-s, --sides <string>" s_sides (text st 11) (Listed "")
  ++ asks (given st 12) "-c, --color-mode <string>" s_colorMode (text st 12) (Listed "")
  ++ when (given st 13) (Asks "-q, --quality <choice>" s_printQuality (number st 13) Named)
  ++ asks (given st 14) "--scaling <string>" s_scaling (text st 14) (Listed "")
  ++ asks (given st 15) "--format <string>" s_documentFormat (text st 15) (Listed "")
  ++ asks (given st 17) "--media-type <string>" s_mediaType (text st 17) (Listed "")
  ++ asks (given st 18) "--media-source <string>" s_mediaSource (text st 18) (Listed "")
  ++ asks (given st 19) "--output-bin <string>" s_outputBin (text st 19) (Listed "")
  ++ asks (given st 20) "--finishings <int>" s_finishings (number st 20) (Listed "")
  ++ when (given st 21) AllMargins
  ++ when (given st 21) (Asks "-m, --margin <int>" s_topMargin (number st 21) (Listed " for top margin"))
  ++ when (given st 21) (Asks "-m, --margin <int>" s_bottomMargin (number st 21) (Listed " for bottom margin"))
  ++ when (given st 21) (Asks "-m, --margin <int>" s_leftMargin (number st 21) (Listed " for left margin"))
  ++ when (given st 21) (Asks "-m, --margin <int>" s_rightMargin (number st 21) (Listed " for right margin"))
  ++ asks (given st 22) "-tm, --top-margin <int>" s_topMargin (number st 22) (Listed "")
  ++ asks (given st 23) "-bm, --bottom-margin <int>" s_bottomMargin (number st 23) (Listed "")
  ++ asks (given st 24) "-lm, --left-margin <int>" s_leftMargin (number st 24) (Listed "")
  ++ asks (given st 25) "-rm, --right-margin <int>" s_rightMargin (number st 25) (Listed "").

(** the printer tells what it supports *)
Definition offered (pa : ipp_attrs) (s : setting) : Prop := exists a, map_get (s_name s ++ "-supported") pa = Some a.
Definition fine (pa : ipp_attrs) (force : bool) (c : check) : Prop :=
  match c with
  | Ranges t => exists rgs, range_list t rgs
  | BothAxes x y => x = y
  | AllMargins => force = true \/ forall s, In s [s_topMargin; s_bottomMargin; s_leftMargin; s_rightMargin] -> offered pa s
  | Asks _ s v _ => force = true \/ acceptable pa (s, v)
  end.

(** values as text *)
Inductive shown : ipp_value -> string -> Prop :=
| shown_text s : shown (VStr s) s
| shown_number z t : decimal z t -> shown (VInt z) t
| shown_range lo hi t u : decimal lo t -> decimal hi u -> shown (VRange lo hi) (t ++ "-" ++ u).
Inductive shown_dpi : ipp_value -> string -> Prop :=
| shown_res x y t u : decimal x t -> decimal y u -> shown_dpi (VRes x y 3) (t ++ "x" ++ u ++ "dpi").
Definition in_dpi (v : ipp_value) : bool := match v with VRes _ _ u => u =? 3 | _ => false end.
Definition shown_ready (ready : list ipp_value) (v : ipp_value) (t : string) : Prop :=
  exists u, shown v u /\ (In v ready /\ t = (u ++ "(ready)")%string \/ ~ In v ready /\ t = u).
Definition shown_name (v : ipp_value) (t : string) : Prop := exists z, In (t, z) ipp_qualities /\ v = VInt z.
(** Resolutions are listed without anything between them (a finding: C74). *)
Definition hinted (pa : ipp_attrs) (s : setting) (h : hint) (t : string) : Prop :=
  let l := values (s_name s ++ "-supported") pa in
  match h with
  | Listed which => exists ts, Forall2 shown l ts /\ t = ("Valid values" ++ which ++ " are: " ++ glue ", " ts)%string
  | Ready => exists ts, Forall2 (shown_ready (values "media-ready" pa)) l ts /\ t = ("Valid values are: " ++ glue ", " ts)%string
  | Dpi => exists ts, Forall2 shown_dpi (filter in_dpi l) ts /\ t = ("Valid values are: " ++ match ts with [] => "empty" | _ => glue "" ts end)%string
  | Named => exists ts, Forall2 shown_name l ts /\ t = ("Valid values are: " ++ glue ", " ts)%string
  end.
(** the sentence about a check that fails *)
Definition complaint (pa : ipp_attrs) (help : string) (c : check) (m : string) : Prop :=
  match c with
  | Ranges _ => m = ("Invalid page range." ++ line_feed ++ line_feed ++ help ++ line_feed ++ line_feed)%string
  | BothAxes _ _ => m = ("Resolution must be specified for both dimensions." ++ line_feed ++ line_feed ++ help ++ line_feed ++ line_feed)%string
  | AllMargins => m = ("Argument -m, --margin <int> (ipp: margin-*) is not supported by this printer." ++ line_feed)%string
  | Asks words s _ h =>
      (~ offered pa s -> m = ("Argument " ++ words ++ " is not supported by this printer." ++ line_feed)%string)
      /\ (offered pa s -> exists t, hinted pa s h t /\ m = ("Argument " ++ words ++ " has an invalid value. " ++ line_feed ++ t ++ line_feed)%string)
  end.
(** [m] is about the first check that fails *)
Definition first_complaint (pa : ipp_attrs) (force : bool) (help : string) (l : list check) (m : string) : Prop :=
  exists before c after, l = before ++ c :: after /\ Forall (fine pa force) before /\ ~ fine pa force c /\ complaint pa help c m.

(** resolutions are unsigned, as they are in an attribute decoded *)
Definition unsigned_resolutions (pa : ipp_attrs) : Prop :=
  forall x y u, In (VRes x y u) (values "printer-resolution-supported" pa) -> 0 <= x /\ 0 <= y.
