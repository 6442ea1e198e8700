(** What the options of "ippclient print" ask for and what a printer supports, independent
    of the order in which the program looks at them. *)
From Verif Require Import Base MapModel StringModel StringSpec ParamsModel ParamsSpec ParamsProperties IppModel ArgModel SettingModel SettingProperties JobModel JobProperties.
Local Open Scope Z_scope.

(** the variables of the command line, by the names of their options *)
Definition given (st : astate) (i : nat) : bool := a_set st i.
Definition text (st : astate) (i : nat) : ipp_value := VStr (as_str (a_val st i)).
Definition number (st : astate) (i : nat) : ipp_value := VInt (as_int (a_val st i)).
Definition ask (b : bool) (s : setting) (v : ipp_value) : list (setting * ipp_value) := if b then [(s, v)] else [].
(** What is asked for besides page ranges and the format, in the order in which the last
    counts: the resolution of both axes is stronger than a common one, the margin of a side
    stronger than that of all sides. *)
Definition requests (st : astate) : list (setting * ipp_value) :=
  ask (given st 5) s_copies (number st 5)
  ++ ask (given st 6) s_multipleDocumentHandling
       (VStr (if as_int (a_val st 6%nat) =? 1 then "separate-documents-collated-copies" else "separate-documents-uncollated-copies"))
  ++ ask (given st 7) s_media (text st 7)
  ++ ask (given st 8) s_resolution (VRes (as_int (a_val st 8%nat)) (as_int (a_val st 8%nat)) 3)
  ++ ask (given st 9 && given st 10) s_resolution (VRes (as_int (a_val st 9%nat)) (as_int (a_val st 10%nat)) 3)
  ++ ask (given st 11) s_sides (text st 11)
  ++ ask (given st 12) s_colorMode (text st 12)
  ++ ask (given st 13) s_printQuality (number st 13)
  ++ ask (given st 14) s_scaling (text st 14)
  ++ ask (given st 17) s_mediaType (text st 17)
  ++ ask (given st 18) s_mediaSource (text st 18)
  ++ ask (given st 19) s_outputBin (text st 19)
  ++ ask (given st 20) s_finishings (number st 20)
  ++ ask (given st 21) s_topMargin (number st 21)
  ++ ask (given st 21) s_bottomMargin (number st 21)
  ++ ask (given st 21) s_leftMargin (number st 21)
  ++ ask (given st 21) s_rightMargin (number st 21)
  ++ ask (given st 22) s_topMargin (number st 22)
  ++ ask (given st 23) s_bottomMargin (number st 23)
  ++ ask (given st 24) s_leftMargin (number st 24)
  ++ ask (given st 25) s_rightMargin (number st 25).
Definition format_request (st : astate) : list (setting * ipp_value) := ask (given st 15) s_documentFormat (text st 15).
(** an int32_t that stands for a page number *)
Definition limited (z : Z) : Z := if z <? 2 ^ 31 then z else 2 ^ 31 - 1.
Definition ranges_value (rs : list (Z * Z)) : ipp_value := VSet (map (fun r => VRange (limited (fst r)) (limited (snd r))) rs).

(** the printer lists the value; copies are given by their range *)
Definition supports (pa : ipp_attrs) (s : setting) (v : ipp_value) : Prop :=
  if String.eqb (s_name s) "copies" then exists t lo hi z, map_get "copies-supported" pa = Some (t, VRange lo hi) /\ v = VInt z /\ lo <= z <= hi
  else In v (values (s_name s ++ "-supported") pa).
(** copies can be made here for a printer that takes raster pages *)
Definition raster_printer (pa : ipp_attrs) : Prop :=
  In (VStr "image/pwg-raster") (values "document-format-supported" pa) \/ In (VStr "image/urf") (values "document-format-supported" pa).
Definition acceptable (pa : ipp_attrs) (e : setting * ipp_value) : Prop :=
  supports pa (fst e) (snd e) \/ (fst e = s_copies /\ raster_printer pa).

(** what set-attrs is told: pairs without the separators *)
Definition plain (s : string) : Prop := ~ occurs "=" s /\ ~ occurs "," s.
Definition pairs_text (l : list (string * string)) : string := glue "," (map (fun p => (fst p ++ "=" ++ snd p)%string) l).

(** printer attributes of the types RFC 8011 gives them, as far as printing looks at them *)
Definition typed (t : vtype) (k : string) (pa : ipp_attrs) : Prop := Forall (fun v => has_type t v = true) (values k pa).
Definition choices : list setting :=
  [ s_multipleDocumentHandling; s_media; s_resolution; s_sides; s_colorMode; s_printQuality; s_scaling; s_documentFormat; s_mediaType; s_mediaSource;
    s_outputBin; s_finishings; s_topMargin; s_bottomMargin; s_leftMargin; s_rightMargin ].
Definition well_typed (pa : ipp_attrs) : Prop :=
  (forall s, In s choices -> typed (s_type s) (s_name s ++ "-supported") pa)
  /\ (forall a, map_get "copies-supported" pa = Some a -> has_type TRange (snd a) = true).
(** print-quality-supported holds draft, normal and high only *)
Definition known_qualities (pa : ipp_attrs) : Prop :=
  forall v, In v (values "print-quality-supported" pa) -> v = VInt 3 \/ v = VInt 4 \/ v = VInt 5.
