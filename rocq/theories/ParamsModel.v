(** lib/printparameters.{h,cpp}: PrintParameters. *)
From Verif Require Import Base FloatModel StringModel.
Local Open Scope Z_scope.

(** printparameters.h:19-26 *)
Inductive fmt := PDF | Postscript | PWG | URF | Invalid.
(** printparameters.h:28-38 *)
Inductive color_mode := sRGB24 | CMYK32 | Gray8 | Black8 | Gray1 | Black1 | sRGB48 | Gray16.
(** printparameters.h:40-46 *)
Inductive quality_t := DefaultQuality | DraftQuality | NormalQuality | HighQuality.
Definition quality_Z (q : quality_t) : Z :=
  match q with DefaultQuality => 0 | DraftQuality => 3 | NormalQuality => 4 | HighQuality => 5 end.
(** printparameters.h:48-54 *)
Inductive back_xform := Normal | Rotated | Flipped | ManualTumble.
(** printparameters.h:120-128 *)
Inductive size_units := Pixels | Millimeters | Inches.
(** printparameters.h:134-139 *)
Inductive duplex_mode := OneSided | TwoSidedLongEdge | TwoSidedShortEdge.

(** printparameters.h:110-153.  [mediaPosition] is the numeric value of the
    MediaPosition enumerator (printparameters.h:56-108, 0..49).  size_t and uint32_t
    members are integers in Z. *)
Record params := mkParams {
  p_format : fmt;
  p_colorMode : color_mode;
  p_quality : quality_t;
  p_antiAlias : bool;
  p_paperSizeName : string;
  p_hwResW : Z;
  p_hwResH : Z;
  p_units : size_units;
  p_sizeW : f64;
  p_sizeH : f64;
  p_duplexMode : duplex_mode;
  p_backXform : back_xform;
  p_copies : Z;
  p_collated : bool;
  p_pageRanges : list (Z * Z);
  p_mediaPosition : Z;
  p_mediaType : string
}.

(** the member initialisers, printparameters.h:110-153 *)
Definition default_params : params :=
  {| p_format := PDF; p_colorMode := sRGB24; p_quality := DefaultQuality;
     p_antiAlias := false; p_paperSizeName := "iso_a4_210x297mm";
     p_hwResW := 300; p_hwResH := 300; p_units := Millimeters;
     p_sizeW := fofZ 210; p_sizeH := fofZ 297;
     p_duplexMode := OneSided; p_backXform := Normal;
     p_copies := 1; p_collated := true; p_pageRanges := [];
     p_mediaPosition := 0; p_mediaType := "" |}.

(** printparameters.cpp:11-14 *)
Definition isTwoSided (p : params) : bool :=
  match p_duplexMode p with OneSided => false | _ => true end.

(** printparameters.cpp:16-44, with size (W or H) and resolution as arguments.
    The conversion of the double result to size_t is undefined behaviour when out
    of range.  (floor and truncation agree up to the sign.) *)
Definition sizeInPixels (u : size_units) (size : f64) (res : Z) : outcome Z :=
  match u with
  | Pixels => f_to_unsigned 64 size
  | Millimeters =>
      match ffloorZ (fdiv (fmul size (fofZ res)) f25_4) with
      | Some z => if (0 <=? z) && (z <? two64) then Ok z else UB
      | None => UB
      end
  | Inches => f_to_unsigned 64 (fmul size (fofZ res))
  end.
Definition getPaperSizeWInPixels (p : params) : outcome Z :=
  sizeInPixels (p_units p) (p_sizeW p) (p_hwResW p).
Definition getPaperSizeHInPixels (p : params) : outcome Z :=
  sizeInPixels (p_units p) (p_sizeH p) (p_hwResH p).

(** printparameters.cpp:46-49 (size_t multiplication) *)
Definition getPaperSizeInPixels (p : params) : outcome Z :=
  let! w := getPaperSizeWInPixels p in
  let! h := getPaperSizeHInPixels p in
  Ok ((w * h) mod two64).

(** printparameters.cpp:51-79 *)
Definition sizeInMillimeters (u : size_units) (size : f64) (res : Z) : f64 :=
  match u with
  | Pixels => round2 (fmul (fdiv size (fofZ res)) f25_4)
  | Millimeters => size
  | Inches => round2 (fmul size f25_4)
  end.
Definition getPaperSizeWInMillimeters (p : params) : f64 :=
  sizeInMillimeters (p_units p) (p_sizeW p) (p_hwResW p).
Definition getPaperSizeHInMillimeters (p : params) : f64 :=
  sizeInMillimeters (p_units p) (p_sizeH p) (p_hwResH p).

(** printparameters.cpp:81-109 *)
Definition sizeInPoints (u : size_units) (size : f64) (res : Z) : f64 :=
  match u with
  | Pixels => round2 (fmul (fdiv size (fofZ res)) f72)
  | Millimeters => round2 (fmul (fdiv size f25_4) f72)
  | Inches => fmul size f72
  end.
Definition getPaperSizeWInPoints (p : params) : f64 :=
  sizeInPoints (p_units p) (p_sizeW p) (p_hwResW p).
Definition getPaperSizeHInPoints (p : params) : f64 :=
  sizeInPoints (p_units p) (p_sizeH p) (p_hwResH p).

(** printparameters.cpp:271-288 *)
Definition isBlack (p : params) : bool :=
  match p_colorMode p with Black8 | Black1 => true | _ => false end.

(** printparameters.cpp:290-308 *)
Definition getNumberOfColors (p : params) : Z :=
  match p_colorMode p with
  | sRGB24 | sRGB48 => 3
  | CMYK32 => 4
  | Gray8 | Black8 | Gray1 | Black1 | Gray16 => 1
  end.

(** printparameters.cpp:310-328 *)
Definition getBitsPerColor (p : params) : Z :=
  match p_colorMode p with
  | sRGB24 | CMYK32 | Gray8 | Black8 => 8
  | Gray1 | Black1 => 1
  | sRGB48 | Gray16 => 16
  end.

(** printparameters.cpp:111-126 (size_t arithmetic) *)
Definition getPaperSizeWInBytes (p : params) : outcome Z :=
  if (getBitsPerColor p =? 1) && (getNumberOfColors p =? 1) then
    let! w := getPaperSizeWInPixels p in
    Ok (((w + 7) mod two64) / 8)
  else if getBitsPerColor p mod 8 =? 0 then
    let! w := getPaperSizeWInPixels p in
    Ok ((w * getNumberOfColors p * (getBitsPerColor p / 8)) mod two64)
  else Throw LogicError.

(** printparameters.cpp:128-131 *)
Definition getPaperSizeInBytes (p : params) : outcome Z :=
  let! b := getPaperSizeWInBytes p in
  let! h := getPaperSizeHInPixels p in
  Ok ((b * h) mod two64).

(** printparameters.cpp:330-341 *)
Definition getBackHFlip (p : params) : bool :=
  match p_duplexMode p with
  | TwoSidedLongEdge => match p_backXform p with Rotated => true | _ => false end
  | TwoSidedShortEdge =>
      match p_backXform p with Flipped | ManualTumble => true | _ => false end
  | OneSided => false
  end.

(** printparameters.cpp:343-354 *)
Definition getBackVFlip (p : params) : bool :=
  match p_duplexMode p with
  | TwoSidedLongEdge =>
      match p_backXform p with Flipped | Rotated => true | _ => false end
  | TwoSidedShortEdge => match p_backXform p with ManualTumble => true | _ => false end
  | OneSided => false
  end.

(** ** Page sequence: printparameters.cpp:133-188 *)

Definition INVALID_PAGE : Z := 0. (* printparameters.h:10 *)

(** printparameters.cpp:140-143: for(p = first; p <= min(last, pages); p++).
    An endless loop when the bound is SIZE_MAX (p <= SIZE_MAX always holds). *)
Fixpoint count_from (n : nat) (first : Z) : list Z :=
  match n with O => [] | S n' => first :: count_from n' (first + 1) end.
Definition range_pages (pages first last : Z) : outcome (list Z) :=
  let bound := Z.min last pages in
  if (bound =? two64 - 1) && (first <=? bound) then Hang
  else Ok (count_from (Z.to_nat (bound - first + 1)) first).

Fixpoint select_pages (pages : Z) (ranges : list (Z * Z)) : outcome (list Z) :=
  match ranges with
  | [] => Ok []
  | (first, last) :: rest =>
      let! l := range_pages pages first last in
      let! r := select_pages pages rest in
      Ok (l ++ r)
  end.

(** printparameters.cpp:154-158: seq += copy, (copies-1) times *)
Fixpoint append_copies (dc : nat) (seq copy : list Z) : list Z :=
  match dc with
  | O => seq
  | S dc' => append_copies dc' (seq ++ copy) copy
  end.

(** printparameters.cpp:169-173 / 178-181: push_back repeated pc times *)
Fixpoint push_sheet (pc : nat) (sheet acc : list Z) : list Z :=
  match pc with
  | O => acc
  | S pc' => push_sheet pc' sheet (acc ++ sheet)
  end.

(** printparameters.cpp:163-183; in the two-sided case *(++it) dereferences the end
    iterator (undefined behaviour) if only one element is left. *)
Fixpoint uncollated (two_sided : bool) (copies : nat) (seq acc : list Z) : outcome (list Z) :=
  match seq with
  | [] => Ok acc
  | front :: rest =>
      if two_sided then
        match rest with
        | [] => UB
        | back :: rest' => uncollated two_sided copies rest' (push_sheet copies [front; back] acc)
        end
      else uncollated two_sided copies rest (push_sheet copies [front] acc)
  end.

Definition getPageSequence (p : params) (pages : Z) : outcome (list Z) :=
  let tmp := match p_pageRanges p with [] => [(1, pages)] | l => l end in
  let! seq := select_pages pages tmp in
  if p_copies p >? 1 then
    let seq := if isTwoSided p && Nat.eqb (Nat.modulo (length seq) 2) 1
               then seq ++ [INVALID_PAGE] else seq in
    if p_collated p then Ok (append_copies (Z.to_nat (p_copies p - 1)) seq seq)
    else uncollated (isTwoSided p) (Z.to_nat (p_copies p)) seq []
  else Ok seq.

(** ** Page range parsing: printparameters.cpp:190-234 *)

Fixpoint all_digits (s : string) : bool :=
  match s with
  | EmptyString => true
  | String c s' => is_digit c && all_digits s'
  end.

(** std::regex_match(s, "^([0-9]+)$"): printparameters.cpp:193 *)
Definition match_single (s : string) : bool :=
  match s with EmptyString => false | _ => all_digits s end.

(** std::regex_match against the range expression of printparameters.cpp:194
    (one or more digits, a minus sign, zero or more digits).  The first group cannot contain '-', so it ends at the first '-'. *)
Fixpoint span_digits (s : string) : string * string :=
  match s with
  | EmptyString => (EmptyString, EmptyString)
  | String c s' =>
      if is_digit c then let '(a, b) := span_digits s' in (String c a, b)
      else (EmptyString, s)
  end.
Definition match_range (s : string) : option (string * string) :=
  match span_digits s with
  | (EmptyString, _) => None
  | (a, String c b) => if Ascii.eqb c "-" && all_digits b then Some (a, b) else None
  | (_, EmptyString) => None
  end.

Definition size_max : Z := two64 - 1.

(** printparameters.cpp:199-227, the loop over the pieces *)
Fixpoint parse_pieces (pieces : list string) (prevMax : Z) (acc : list (Z * Z)) : outcome (list (Z * Z)) :=
  match pieces with
  | [] => Ok acc
  | s :: rest =>
      if match_single s then
        let! v := stoul s in
        if v <=? prevMax then Ok [] else parse_pieces rest v (acc ++ [(v, v)])
      else
        match match_range s with
        | Some (a, b) =>
            let! from := stoul a in
            let! to := (if String.eqb b "" then Ok size_max else stoul b) in
            if (to <? from) || (from <=? prevMax) then Ok []
            else parse_pieces rest to (acc ++ [(from, to)])
        | None => Ok []
        end
  end.

Definition parsePageRange (s : string) : outcome (list (Z * Z)) :=
  parse_pieces (split_string s ",") 0 [].

(** printparameters.cpp:230-234 *)
Definition setPageRange (p : params) (s : string) : outcome (bool * params) :=
  let! l := parsePageRange s in
  Ok (match l with [] => false | _ => true end,
      {| p_format := p_format p; p_colorMode := p_colorMode p; p_quality := p_quality p;
         p_antiAlias := p_antiAlias p; p_paperSizeName := p_paperSizeName p;
         p_hwResW := p_hwResW p; p_hwResH := p_hwResH p; p_units := p_units p;
         p_sizeW := p_sizeW p; p_sizeH := p_sizeH p; p_duplexMode := p_duplexMode p;
         p_backXform := p_backXform p; p_copies := p_copies p; p_collated := p_collated p;
         p_pageRanges := l; p_mediaPosition := p_mediaPosition p;
         p_mediaType := p_mediaType p |}).

(** ** Paper size names: printparameters.cpp:236-269 *)

(** a match of ([0-9]+([.][0-9]+)?) against a whole string *)
Definition match_decimal (s : string) : bool :=
  match span_digits s with
  | (EmptyString, _) => false
  | (_, EmptyString) => true
  | (_, String c b) =>
      Ascii.eqb c "." && match b with EmptyString => false | _ => all_digits b end
  end.

(** the class [0-9a-z_-] *)
Definition name_char (c : ascii) : bool :=
  is_digit c || ((97 <=? Zb c) && (Zb c <=? 122)) || Ascii.eqb c "_" || Ascii.eqb c "-".
Fixpoint all_name_chars (s : string) : bool :=
  match s with EmptyString => true | String c s' => name_char c && all_name_chars s' end.

(** position of the last occurrence of a character: everything before / after it.
    The groups after the '_' of the regular expression cannot contain '_', so that
    '_' is the last one of the string. *)
Fixpoint split_last (c : ascii) (s : string) : option (string * string) :=
  match s with
  | EmptyString => None
  | String d s' =>
      match split_last c s' with
      | Some (a, b) => Some (String d a, b)
      | None => if Ascii.eqb c d then Some (EmptyString, s') else None
      end
  end.

(** split at the first occurrence of a character *)
Fixpoint split_first (c : ascii) (s : string) : option (string * string) :=
  match s with
  | EmptyString => None
  | String d s' =>
      if Ascii.eqb c d then Some (EmptyString, s')
      else match split_first c s' with
           | Some (a, b) => Some (String d a, b)
           | None => None
           end
  end.

(** std::regex_match against
    "^[0-9a-z_-]+_([0-9]+([.][0-9]+)?)x([0-9]+([.][0-9]+)?)(mm|in)$"
    (printparameters.cpp:250): the groups 1, 3 and 5.  Group 1 contains no 'x', so it
    ends at the first 'x' after the last '_'. *)
Definition match_paper_size (s : string) : option (string * string * string) :=
  match split_last "_" s with
  | None => None
  | Some (name, dims) =>
      if String.eqb name "" || negb (all_name_chars name) then None
      else
        match split_first "x" dims with
        | None => None
        | Some (w, hu) =>
            let n := (String.length hu - 2)%nat in
            let h := take n hu in
            let u := drop n hu in
            if match_decimal w && match_decimal h && (String.eqb u "mm" || String.eqb u "in")
               && (2 <=? String.length hu)%nat
            then Some (w, h, u) else None
        end
  end.

(** pow(10, n) for the number n of decimals: exact up to 10^22; correctly rounded
    beyond (simplification: libm's pow is assumed correctly rounded) *)
Definition fpow10 (n : nat) : f64 := fofZ (10 ^ Z.of_nat n).

(** printparameters.cpp:236-246 *)
Definition from_string (s : string) : outcome f64 :=
  match split_first "." s with
  | None => let! v := stoul s in Ok (fofZ v)
  | Some (a, b) =>
      let! v := stoul a in
      let! d := stoul b in
      Ok (fadd (fofZ v) (fdiv (fofZ d) (fpow10 (String.length b))))
  end.

(** printparameters.cpp:248-269.  paperSizeName is assigned before the conversions
    that may raise. *)
Definition with_paper (p : params) (name : string) (w h : f64) (u : size_units) : params :=
  {| p_format := p_format p; p_colorMode := p_colorMode p; p_quality := p_quality p;
     p_antiAlias := p_antiAlias p; p_paperSizeName := name;
     p_hwResW := p_hwResW p; p_hwResH := p_hwResH p; p_units := u;
     p_sizeW := w; p_sizeH := h; p_duplexMode := p_duplexMode p;
     p_backXform := p_backXform p; p_copies := p_copies p; p_collated := p_collated p;
     p_pageRanges := p_pageRanges p; p_mediaPosition := p_mediaPosition p;
     p_mediaType := p_mediaType p |}.
Definition setPaperSize (p : params) (s : string) : outcome (bool * params) :=
  match match_paper_size s with
  | Some (w, h, u) =>
      let! fw := from_string w in
      let! fh := from_string h in
      Ok (true, with_paper p s fw fh (if String.eqb u "in" then Inches else Millimeters))
  | None => Ok (false, p)
  end.
