(** lib/minimime.cpp and the selection of conversions in lib/converter.h. *)
From Verif Require Import Base StringModel PpmModel.
Local Open Scope string_scope.

(** minimime.cpp:10-20 *)
Definition OctetStream := "application/octet-stream".
Definition mPDF := "application/pdf".
Definition mPostscript := "application/postscript".
Definition mPWG := "image/pwg-raster".
Definition mURF := "image/urf".
Definition mPNG := "image/png".
Definition mGIF := "image/gif".
Definition mJPEG := "image/jpeg".
Definition mTIFF := "image/tiff".

(** bts >>= literal: whether the bytes start with it (a failed match consumes nothing,
    and a successful one returns).  The literals are C strings: the two TIFF signatures
    end at their NUL character. *)
Definition starts (lit : list byte) (b : list byte) : bool := match eat lit b with Some _ => true | None => false end.
Definition str (s : string) : list byte := bytes_of_string s.
(** MiniMime::getMimeType: minimime.cpp:22-64 on the contents of the file *)
Definition getMimeType (file : list byte) : string :=
  let bts := firstn 7 file in
  match bts with
  | [] => ""
  | _ =>
      if starts (str "%PDF") bts then mPDF
      else if starts (str "%!PS") bts then mPostscript
      else if starts (str "RaS2") bts then mPWG
      else if starts (str "UNIRAST") bts then mURF
      else if starts (bZ 0x89 :: str "PNG") bts then mPNG
      else if starts (str "GIF8") bts then mGIF
      else if starts [bZ 0xFF; bZ 0xD8; bZ 0xFF] bts then mJPEG
      else if starts (str "II*") bts || starts (str "MM") bts then mTIFF
      else OctetStream
  end.

(** minimime.cpp:77-81 *)
Definition isPrinterRaster (m : string) : bool := String.eqb m mPWG || String.eqb m mURF.
(** minimime.cpp:72-75 *)
Definition isImage (m : string) : bool := string_starts_with m "image/" && negb (isPrinterRaster m).

(** converter.h:18-88: the conversions *)
Inductive conversion := Pdf2Printable | Baselinify | JustUpload | FixupText.
(** converter.h:90-95 *)
Definition Pipelines : list (string * string * conversion) :=
  [ (mPDF, mPDF, Pdf2Printable); (mPDF, mPostscript, Pdf2Printable); (mPDF, mPWG, Pdf2Printable); (mPDF, mURF, Pdf2Printable);
    (mJPEG, mJPEG, Baselinify); ("text/plain", "text/plain", FixupText) ].

(** List::contains: list.h:25-35 *)
Definition contains (l : list string) (s : string) : bool := existsb (fun e => String.eqb e s) l.

(** converter.h:97-111 *)
Fixpoint find_pipeline (l : list (string * string * conversion)) (i t : string) : option conversion :=
  match l with
  | [] => None
  | (a, b, c) :: l' => if String.eqb a i && String.eqb b t then Some c else find_pipeline l' i t
  end.
Definition getConvertFun (inputFormat targetFormat : string) : option conversion :=
  match find_pipeline Pipelines inputFormat targetFormat with
  | Some c => Some c
  | None => if String.eqb inputFormat targetFormat then Some JustUpload else None
  end.
(** converter.h:113-116 *)
Definition canConvert (i t : string) : bool := match getConvertFun i t with Some _ => true | None => false end.
(** converter.h:118-132 *)
Fixpoint find_target (l : list (string * string * conversion)) (i : string) (supported : list string) : option string :=
  match l with
  | [] => None
  | (a, b, _) :: l' => if String.eqb a i && contains supported b then Some b else find_target l' i supported
  end.
Definition getTargetFormat (i : string) (supported : list string) : option string :=
  match find_target Pipelines i supported with
  | Some t => Some t
  | None => if contains supported i then Some i else None
  end.
(** converter.h:134-152 *)
Fixpoint pipeline_inputs (l : list (string * string * conversion)) (supported acc : list string) : list string :=
  match l with
  | [] => acc
  | (a, b, _) :: l' => pipeline_inputs l' supported (if contains supported b && negb (contains acc a) then acc ++ [a] else acc)%list
  end.
Fixpoint add_formats (l acc : list string) : list string :=
  match l with
  | [] => acc
  | f :: l' => add_formats l' (if contains acc f then acc else acc ++ [f])%list
  end.
Definition possibleInputFormats (supported : list string) : list string :=
  add_formats supported (pipeline_inputs Pipelines supported []).
