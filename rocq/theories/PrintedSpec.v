(** C103: what a printer reads of the requests of a print command. *)
From Verif Require Import Base MapModel StringModel IppModel IppSpec SettingModel SettingProperties JobModel PrinterModel PrinterSpec WireSpec.
Local Open Scope Z_scope.

(** RFC 8010 3.1.1: the group of job attributes; without attributes there is none *)
Definition group (m : ipp_attrs) : list ipp_attrs := match m with [] => [] | _ => [ones m] end.
(** The message [m] is the operation [op] with the operation attributes [given] on top of
    those of every request and the job attributes [job], in a version of the printer. *)
Definition read_as (user : option string) (addr : string) (pa : ipp_attrs) (op : Z) (given job : ipp_attrs) (m : ipp_msg) : Prop :=
  m_opOrStatus m = op /\
  (forall k, map_get k (m_opAttrs m) = match map_get k given with Some a => Some a | None => base_attr user addr k end) /\
  m_jobAttrs m = group job /\ m_printerAttrs m = [] /\
  ((m_majVsn m, m_minVsn m) = (2, 0) /\ In (VStr "2.0") (values "ipp-versions-supported" pa) \/
   (m_majVsn m, m_minVsn m) = (1, 1) /\ ~ In (VStr "2.0") (values "ipp-versions-supported" pa)).
(** the document is not mistaken for more of the request (C29) *)
Definition distinct_start (doc : list byte) : Prop := ~ exists x, doc = bZ 0 :: bZ 0 :: x.
(** the settings that are changed or taken out when the job is finalized: C35 (copies), C36
    (page ranges), C37 (resolution), C38 (margins), C39 (sides), C61 (size) *)
Definition finalized_names : list string :=
  ["media-top-margin"; "media-bottom-margin"; "media-left-margin"; "media-right-margin"; "media"; "media-size"; "page-ranges"; "copies"; "sides"; "printer-resolution"]%string.
(** the value of a setting in the job attributes of a request *)
Definition setting_read (s : setting) (m : ipp_msg) : option ipp_value := option_map snd (lookup s (match m_jobAttrs m with g :: _ => g | [] => [] end)).
