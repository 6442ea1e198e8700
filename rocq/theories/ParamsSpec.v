(** Page ranges, page sequences and media size names, independent of the model. *)
From Verif Require Import Base ParamsModel PpmSpec StringSpec.
From Coq Require Import Floats.SpecFloat Reals.
From Flocq Require Import Core.Zaux Core.Raux IEEE754.BinarySingleNaN.
Local Open Scope Z_scope.

(** decimal digits of n *)
Definition digits_of (s : string) (n : Z) : Prop := number (bytes_of_string s) n.

(** ** Page ranges *)
(** "to the end" is represented by the largest size_t *)
Definition to_end : Z := 2 ^ 64 - 1.
Inductive range_text : string -> Z * Z -> Prop :=
| range_single : forall s n, digits_of s n -> range_text s (n, n)
| range_closed : forall a b n m, digits_of a n -> digits_of b m -> range_text (a ++ "-" ++ b) (n, m)
| range_open : forall a n, digits_of a n -> range_text (a ++ "-") (n, to_end).
(** a comma separated list *)
Definition ranges_text (s : string) (rs : list (Z * Z)) : Prop :=
  exists texts, texts <> [] /\ s = glue "," texts /\ Forall2 range_text texts rs.
(** strictly increasing, not overlapping, from above [prev] *)
Fixpoint ascending (prev : Z) (rs : list (Z * Z)) : Prop :=
  match rs with
  | [] => True
  | (from, to) :: rest => prev < from /\ from <= to /\ ascending to rest
  end.
Definition in_size_t (rs : list (Z * Z)) : Prop := Forall (fun r => fst r < 2 ^ 64 /\ snd r < 2 ^ 64) rs.

(** ** Page sequences *)
Definition document (n : Z) : list Z := map Z.of_nat (seq 1 (Z.to_nat n)).
(** the pages of one range in a document of n pages, of a list of ranges *)
Definition pages_of (n : Z) (r : Z * Z) : list Z :=
  filter (fun q => (fst r <=? q) && (q <=? snd r)) (document n).
Definition selection (n : Z) (rs : list (Z * Z)) : list Z :=
  match rs with [] => document n | _ => flat_map (pages_of n) rs end.
Definition blank : Z := 0.
(** one copy, filled up to whole sheets *)
Definition whole_sheets (l : list Z) : list Z :=
  if Nat.even (length l) then l else l ++ [blank].
(** the sheets of a two-sided copy *)
Inductive sheets : list Z -> list (Z * Z) -> Prop :=
| sheets_nil : sheets [] []
| sheets_last : forall a, sheets [a] [(a, blank)]
| sheets_more : forall a b l s, sheets l s -> sheets (a :: b :: l) ((a, b) :: s).

(** ** Media size names *)
Definition name_byte (c : ascii) : Prop :=
  48 <= Zb c <= 57 \/ 97 <= Zb c <= 122 \/ c = "_"%char \/ c = "-"%char.
(** an integer part and optional decimals: the value is n + d / 10^k *)
Inductive decimal_text : string -> Z -> Z -> nat -> Prop :=
| decimal_int : forall s n, digits_of s n -> decimal_text s n 0 0
| decimal_frac : forall a b n d, digits_of a n -> digits_of b d ->
    decimal_text (a ++ "." ++ b) n d (String.length b).
Inductive unit_text : string -> bool -> Prop :=
| unit_mm : unit_text "mm" false
| unit_in : unit_text "in" true.
Definition size_name_text (s : string) (w h : string) (inches : bool) : Prop :=
  exists name u, name <> ""%string /\ (forall c, In c (list_ascii_of_string name) -> name_byte c) /\
    unit_text u inches /\ s = (name ++ "_" ++ w ++ "x" ++ h ++ u)%string.
(** the parameters other than the page ranges, and other than the paper size, are kept *)
Definition keeps_paper (p p' : params) : Prop :=
  p_paperSizeName p' = p_paperSizeName p /\ p_units p' = p_units p /\
  p_sizeW p' = p_sizeW p /\ p_sizeH p' = p_sizeH p.
Definition keeps_ranges (p p' : params) : Prop := p_pageRanges p' = p_pageRanges p.
Definition keeps_rest (p p' : params) : Prop :=
  p_format p' = p_format p /\ p_colorMode p' = p_colorMode p /\ p_quality p' = p_quality p /\
  p_antiAlias p' = p_antiAlias p /\ p_hwResW p' = p_hwResW p /\ p_hwResH p' = p_hwResH p /\
  p_duplexMode p' = p_duplexMode p /\ p_backXform p' = p_backXform p /\ p_copies p' = p_copies p /\
  p_collated p' = p_collated p /\ p_mediaPosition p' = p_mediaPosition p /\ p_mediaType p' = p_mediaType p.

(** the double [x] is finite and within two units in the last place (relative 2^-51) of
    n + d / 10^k; exactly n when there are no decimals and n is at most 2^53 *)
Definition reads_as (x : spec_float) (n d : Z) (k : nat) : Prop :=
  is_finite_SF x = true /\
  (let exact := IZR n + IZR d / IZR (10 ^ Z.of_nat k) in
   Rabs (SF2R radix2 x - exact) <= exact * / IZR (2 ^ 51))%R /\
  (k = 0%nat -> n <= 2 ^ 53 -> SF2R radix2 x = IZR n).
