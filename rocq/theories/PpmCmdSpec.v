(** What the options of ppm2pwg mean (its help text, ppm2pwg_main.cpp:50-83), in terms of
    the words on the command line; independent of how ArgModel reads them. *)
From Verif Require Import Base StringModel StringSpec FloatModel ParamsModel ArgModel ArgSpec.
Local Open Scope Z_scope.

(** the options with and without a value: the names and the long name *)
Definition flag_names : list (string * string) :=
  [ ("-h", "--help"); ("--help", "--help"); ("-v", "--verbose"); ("--verbose", "--verbose");
    ("-d", "--duplex"); ("--duplex", "--duplex"); ("-t", "--tumble"); ("--tumble", "--tumble") ]%string.
Definition value_names : list (string * string) :=
  [ ("-f", "--format"); ("--format", "--format"); ("--num-pages", "--num-pages"); ("--paper-size", "--paper-size");
    ("-r", "--resolution"); ("--resolution", "--resolution"); ("-rx", "--resolution-x"); ("--resolution-x", "--resolution-x");
    ("-ry", "--resolution-y"); ("--resolution-y", "--resolution-y"); ("-b", "--back-xform"); ("--back-xform", "--back-xform");
    ("-q", "--quality"); ("--quality", "--quality"); ("-mp", "--media-pos"); ("--media-pos", "--media-pos");
    ("-mt", "--media-type"); ("--media-type", "--media-type") ]%string.
(** words read as options: the long names and the values (none for a flag) *)
Inductive reads : list string -> list (string * string) -> Prop :=
| reads_none : reads [] []
| reads_flag name long args l : In (name, long) flag_names -> reads args l -> reads (name :: args) ((long, ""%string) :: l)
| reads_value name long value args l : In (name, long) value_names -> reads args l -> reads (name :: value :: args) ((long, value) :: l).
(** the last value given for an option *)
Fixpoint asked (l : list (string * string)) (name : string) : option string :=
  match l with
  | [] => None
  | (n, v) :: l' => match asked l' name with Some w => Some w | None => if String.eqb name n then Some v else None end
  end.

Definition formats : list (string * fmt) := [("pwg", PWG); ("urf", URF)]%string.
Definition back_sides : list (string * back_xform) := [("rotate", Rotated); ("flip", Flipped); ("manual-tumble", ManualTumble)]%string.
Definition qualities : list (string * quality_t) := [("draft", DraftQuality); ("normal", NormalQuality); ("high", HighQuality)]%string.
(** positions are numbered as in the PWG raster header (PWG 5102.4 table 6) *)
Definition positions : list (string * Z) :=
  combine ["auto"; "main"; "alternate"; "large-capacity"; "manual"; "envelope"; "disc"; "photo"; "hagaki"; "main-roll";
           "alternate-roll"; "top"; "middle"; "bottom"; "side"; "left"; "right"; "center"; "rear"; "by-pass-tray"]%string (map Z.of_nat (seq 0 20))
  ++ map (fun i => (("tray-" ++ dec_string i)%string, 19 + i)) (map Z.of_nat (seq 1 20))
  ++ map (fun i => (("roll-" ++ dec_string i)%string, 39 + i)) (map Z.of_nat (seq 1 10)).
Definition integer (t : string) (z : Z) : Prop := value_text KInt t (AInt z).
(** every value given is one the option takes, also where a later one replaces it *)
Definition takes (name value : string) : Prop :=
  (name = "--format" -> In value (map fst formats))%string /\ (name = "--back-xform" -> In value (map fst back_sides))%string
  /\ (name = "--quality" -> In value (map fst qualities))%string /\ (name = "--media-pos" -> In value (map fst positions))%string
  /\ (In name ["--num-pages"; "--resolution"; "--resolution-x"; "--resolution-y"] -> exists z, integer value z)%string.
Definition choice {A} (l : list (string * string)) (name : string) (table : list (string * A)) (default x : A) : Prop :=
  match asked l name with None => x = default | Some t => In (t, x) table end.
Definition numeric (l : list (string * string)) (name : string) (default z : Z) : Prop :=
  match asked l name with None => z = default | Some t => integer t z end.
Definition present (l : list (string * string)) (name : string) : bool := match asked l name with Some _ => true | None => false end.
(** what is asked for: the parameters and the number of pages for the file header *)
Definition asks (l : list (string * string)) (out : string) (p : params) (pages : Z) : Prop :=
  choice l "--format" formats (if string_ends_with out ".urf" then URF else PWG) (p_format p)
  /\ numeric l "--num-pages" 0 pages
  /\ p_paperSizeName p = match asked l "--paper-size" with Some t => t | None => "iso_a4_210x297mm"%string end
  /\ (exists r, numeric l "--resolution" 300 r
       /\ (exists x, numeric l "--resolution-x" r x /\ p_hwResW p = x mod 2 ^ 32)
       /\ (exists y, numeric l "--resolution-y" r y /\ p_hwResH p = y mod 2 ^ 32))
  /\ p_duplexMode p = (if present l "--tumble" then TwoSidedShortEdge else if present l "--duplex" then TwoSidedLongEdge else OneSided)
  /\ choice l "--back-xform" back_sides Normal (p_backXform p)
  /\ choice l "--quality" qualities DefaultQuality (p_quality p)
  /\ choice l "--media-pos" positions 0 (p_mediaPosition p)
  /\ p_mediaType p = match asked l "--media-type" with Some t => t | None => ""%string end
  /\ p_colorMode p = sRGB24 /\ p_antiAlias p = false /\ p_units p = Pixels /\ p_sizeW p = fofZ 210 /\ p_sizeH p = fofZ 297
  /\ p_copies p = 1 /\ p_collated p = true /\ p_pageRanges p = [].
(** an input file name that is not taken for an option *)
Definition plain_name (s : string) : Prop := ~ In s (map fst flag_names) /\ ~ In s (map fst value_names).
