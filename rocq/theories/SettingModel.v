(** lib/setting.h and the typed access to attributes of lib/ippattr.h. *)
From Verif Require Import Base MapModel StringModel IppModel.
Local Open Scope Z_scope.

(** The template argument T of get<T>: one of the alternatives of IppValue.  A value of
    type T is represented by the IppValue holding it. *)
Inductive vtype := TStr | TInt | TBool | TRange | TRes | TDate | TSet | TColl.
Definition has_type (t : vtype) (v : ipp_value) : bool :=
  match t, v with
  | TStr, VStr _ | TInt, VInt _ | TBool, VBool _ | TRange, VRange _ _ | TRes, VRes _ _ _ | TDate, VDate _ | TSet, VSet _ | TColl, VColl _ => true
  | _, _ => false
  end.
(** Polymorph::get<T>: std::get throws std::bad_variant_access (polymorph.h:18-22) *)
Definition get_as (t : vtype) (v : ipp_value) : outcome ipp_value := if has_type t v then Ok v else Throw BadVariant.
Definition get_coll (v : ipp_value) : outcome ipp_attrs := match v with VColl m => Ok m | _ => Throw BadVariant end.
(** T() *)
Definition type_default (t : vtype) : ipp_value :=
  match t with
  | TStr => VStr "" | TInt => VInt 0 | TBool => VBool false | TRange => VRange 0 0 | TRes => VRes 0 0 0
  | TDate => VDate default_date | TSet => VSet [] | TColl => VColl []
  end.

(** std::map::at *)
Definition attrs_at (k : string) (m : ipp_attrs) : outcome ipp_attr :=
  match map_get k m with Some a => Ok a | None => Throw OutOfRange end.
(** IppAttrs::get: ippattr.h:149-160; only std::out_of_range is caught *)
Definition attrs_get (t : vtype) (k : string) (dflt : ipp_value) (m : ipp_attrs) : outcome ipp_value :=
  match (let! a := attrs_at k m in get_as t (snd a)) with
  | Throw OutOfRange => Ok dflt
  | x => x
  end.
(** IppAttr::asList: ippattr.cpp:94-104 *)
Definition as_list (v : ipp_value) : list ipp_value := match v with VSet l => l | _ => [v] end.
Fixpoint get_each (t : vtype) (l : list ipp_value) : outcome (list ipp_value) :=
  match l with
  | [] => Ok []
  | v :: l' => let! x := get_as t v in let! r := get_each t l' in Ok (x :: r)
  end.
(** IppAttrs::getList: ippattr.h:167-179 *)
Definition attrs_getList (t : vtype) (k : string) (m : ipp_attrs) : outcome (list ipp_value) :=
  match map_get k m with
  | Some a => get_each t (as_list (snd a))
  | None => Ok []
  end.

(** Setting<T>: setting.h:6-129.  The attributes it refers to are passed in. *)
Record setting := mkSetting { s_type : vtype; s_tag : Z; s_name : string; s_sub : string }.

(** setting.h:42-45 *)
Definition getDefault (pa : ipp_attrs) (s : setting) (fallback : ipp_value) : outcome ipp_value :=
  attrs_get (s_type s) (s_name s ++ "-default") fallback pa.
(** the collection named by the sub key, empty if there is none (setting.h:53-57, 83-87) *)
Definition sub_coll (s : setting) (attrs : ipp_attrs) : outcome ipp_attrs :=
  match map_get (s_sub s) attrs with Some a => get_coll (snd a) | None => Ok [] end.
(** setting.h:49-65 *)
Definition setting_set (s : setting) (v : ipp_value) (attrs : ipp_attrs) : outcome ipp_attrs :=
  if String.eqb (s_sub s) "" then Ok (map_set (s_name s) (s_tag s, v) attrs)
  else
    let! col := sub_coll s attrs in
    Ok (map_set (s_sub s) (tBeginCollection, VColl (map_set (s_name s) (s_tag s, v) col)) attrs).
(** setting.h:67-77 *)
Definition setting_isSet (s : setting) (attrs : ipp_attrs) : outcome bool :=
  if String.eqb (s_sub s) "" then Ok (map_has (s_name s) attrs)
  else
    match map_get (s_sub s) attrs with
    | None => Ok false
    | Some a => let! col := get_coll (snd a) in Ok (map_has (s_name s) col)
    end.
(** setting.h:79-102 *)
Definition setting_unset (s : setting) (attrs : ipp_attrs) : outcome ipp_attrs :=
  if String.eqb (s_sub s) "" then Ok (map_erase (s_name s) attrs)
  else
    let! col := sub_coll s attrs in
    match map_erase (s_name s) col with
    | [] => Ok (map_erase (s_sub s) attrs)
    | col' => Ok (map_set (s_sub s) (tBeginCollection, VColl col') attrs)
    end.
(** setting.h:104-121 *)
Definition setting_get (pa : ipp_attrs) (s : setting) (attrs : ipp_attrs) (fallback : ipp_value) : outcome ipp_value :=
  let! set := setting_isSet s attrs in
  if set then
    if String.eqb (s_sub s) "" then let! a := attrs_at (s_name s) attrs in get_as (s_type s) (snd a)
    else
      let! c := attrs_at (s_sub s) attrs in
      let! col := get_coll (snd c) in
      let! a := attrs_at (s_name s) col in
      get_as (s_type s) (snd a)
  else getDefault pa s fallback.
(** ChoiceSetting::getSupported: setting.h:144-148 *)
Definition getSupported (pa : ipp_attrs) (s : setting) : outcome (list ipp_value) :=
  attrs_getList (s_type s) (s_name s ++ "-supported") pa.

(** The settings of a print job on its job attributes: ippprintjob.h:33-59
    (documentFormat and compression are on the operation attributes). *)
Definition s_sides := mkSetting TStr tKeyword "sides" "".
Definition s_media := mkSetting TStr tKeyword "media" "".
Definition s_copies := mkSetting TInt tInteger "copies" "".
Definition s_multipleDocumentHandling := mkSetting TStr tKeyword "multiple-document-handling" "".
Definition s_pageRanges := mkSetting TSet tIntegerRange "page-ranges" "".
Definition s_numberUp := mkSetting TInt tInteger "number-up" "".
Definition s_colorMode := mkSetting TStr tKeyword "print-color-mode" "".
Definition s_printQuality := mkSetting TInt tEnum "print-quality" "".
Definition s_resolution := mkSetting TRes tResolution "printer-resolution" "".
Definition s_scaling := mkSetting TStr tKeyword "print-scaling" "".
Definition s_documentFormat := mkSetting TStr tMimeMediaType "document-format" "".
Definition s_compression := mkSetting TStr tKeyword "compression" "".
Definition s_mediaType := mkSetting TStr tKeyword "media-type" "media-col".
Definition s_mediaSource := mkSetting TStr tKeyword "media-source" "media-col".
Definition s_outputBin := mkSetting TStr tKeyword "output-bin" "".
Definition s_finishings := mkSetting TInt tEnum "finishings" "".
Definition s_topMargin := mkSetting TInt tInteger "media-top-margin" "media-col".
Definition s_bottomMargin := mkSetting TInt tInteger "media-bottom-margin" "media-col".
Definition s_leftMargin := mkSetting TInt tInteger "media-left-margin" "media-col".
Definition s_rightMargin := mkSetting TInt tInteger "media-right-margin" "media-col".
Definition job_settings : list setting :=
  [ s_sides; s_media; s_copies; s_multipleDocumentHandling; s_pageRanges; s_numberUp; s_colorMode; s_printQuality; s_resolution;
    s_scaling; s_mediaType; s_mediaSource; s_outputBin; s_finishings; s_topMargin; s_bottomMargin; s_leftMargin; s_rightMargin ].
Definition op_settings : list setting := [ s_documentFormat; s_compression ].
