(** Further theorems for C55, C82, C85, C87, C91 and C105: literal command lines, the standard
    input and output, missing files, the lines ippdecode writes, chunks without bytes, the
    counter of the JPEG source and refused calls. *)
From Verif Require Import Base BaseLemmas ListLemmas MapModel FloatModel StringModel StringProofs ParamsModel ParamsSpec IppModel JsonModel IppSpec IppEncProofs PpmModel PpmSpec PpmProofs
  JsonSpec SettingsModel SettingsProofs DumpProofs WarnModel WarnProofs DecodeModel DecodeProofs DecodeProperties ArgModel ArgSpec ArgProperties PpmCmdSpec PpmCmdProperties
  FileModel FileProperties RenderModel ConverterModel JobModel UploadModel JpegModel JpegProperties TransModel TransSpec.
From Coq Require Import Lia ZifyBool ZifyNat.
Local Open Scope Z_scope.

(** ** C55: bsplit on literal command lines *)
Definition bsplit_word (s : string) : Prop := In s ["-h"; "--help"; "--head"; "--tail"]%string.
Lemma bsplit_well_formed name k v n i o : (name = "--head"%string /\ k = 1%nat) \/ (name = "--tail"%string /\ k = 2%nat) -> int_text v false n -> n < 2 ^ 31 -> ~ bsplit_word i ->
  well_formed bsplit_switches bsplit_pos [name; v; i; o] [(k, AInt n); (3%nat, AStr i); (4%nat, AStr o)].
Proof.
  intros Hk Hv Hn Hi. exists [name; v], [i; o], [(k, AInt n)]. split; [reflexivity|]. split; [|split; [|reflexivity]].
  - assert (H0 : 0 <= n) by (destruct Hv as (? & ? & ? & ? & _ & _ & _ & D & _); apply number_digits in D; tauto).
    assert (Hx : value_text KInt v (AInt n)) by (exists false, n; split; [exact Hv|]; cbn [signed]; split; [lia|reflexivity]).
    destruct Hk as [[-> ->]|[-> ->]].
    + apply (switches_value bsplit_switches "--head" v (AInt n) (mkSwitch 1 KInt ["--head"%string] "") [] []); [|discriminate|exact Hx|constructor].
      exists (firstn 1 bsplit_switches), (skipn 2 bsplit_switches). split; [reflexivity|]. split; [left; reflexivity|]. intros e [<-|[]]; cbn; intros [F|[F|[]]]; discriminate F.
    + apply (switches_value bsplit_switches "--tail" v (AInt n) (mkSwitch 2 KInt ["--tail"%string] "") [] []); [|discriminate|exact Hx|constructor].
      exists (firstn 2 bsplit_switches), []. split; [reflexivity|]. split; [left; reflexivity|]. intros e [<-|[<-|[]]]; cbn; [intros [F|[F|[]]]|intros [F|[]]]; discriminate F.
  - split; [cbn; lia|]. split; [intros q []|]. intros d Hd Hin. apply Hi. unfold bsplit_word. cbn in Hd. destruct Hd as [<-|[<-|[<-|[]]]]; cbn in Hin |- *; tauto.
Qed.
(** bsplit --head N writes the first N bytes and bsplit --tail N the last N bytes of the input. *)
Theorem C55_command_line : forall files i o v a b, files i = Some (a ++ b) -> Z.of_nat (length (a ++ b)) < 2 ^ 31 -> ~ bsplit_word i ->
  (int_text v false (Z.of_nat (length a)) -> bsplit files ["--head"%string; v; i; o] = Ok (0, Some (o, a))) /\
  (int_text v false (Z.of_nat (length b)) -> bsplit files ["--tail"%string; v; i; o] = Ok (0, Some (o, b))).
Proof.
  intros files i o v a b Hf Hl Hi. rewrite app_length in Hl. change (2 ^ 31) with 2147483648 in Hl.
  destruct (C55_pieces (a ++ b) (Z.of_nat (length a))) as (h & t & E1 & E2 & E3 & E4); [rewrite app_length; lia|lia|rewrite app_length; lia|].
  assert (h = a /\ t = b) as [-> ->].
  { apply Nat2Z.inj in E4. apply app_inj_length in E3; assumption. }
  split; intros Hv.
  - rewrite (C55_program files _ i o (a ++ b) (Z.of_nat (length a)) _ (bsplit_well_formed "--head" 1 v _ i o (or_introl (conj eq_refl eq_refl)) Hv ltac:(lia) Hi) eq_refl eq_refl eq_refl eq_refl eq_refl Hf), E1. reflexivity.
  - rewrite (C55_program_tail files _ i o (a ++ b) (Z.of_nat (length b)) _ (bsplit_well_formed "--tail" 2 v _ i o (or_intror (conj eq_refl eq_refl)) Hv ltac:(lia) Hi) eq_refl eq_refl eq_refl eq_refl eq_refl Hf).
    replace (Z.of_nat (length (a ++ b)) - Z.of_nat (length a)) with (Z.of_nat (length b)) in E2 by (rewrite app_length; lia). rewrite E2. reflexivity.
Qed.
Example C55_command_line_example :
  let files n := if String.eqb n "in" then Some (bytes_of_string "abcde") else None in
  ~ bsplit_word "in" /\ bsplit files ["--head"; "2"; "in"; "out"]%string = Ok (0, Some ("out"%string, bytes_of_string "ab")) /\
  bsplit files ["--tail"; "2"; "in"; "out"]%string = Ok (0, Some ("out"%string, bytes_of_string "de")).
Proof. split; [cbn; intuition discriminate|]. split; vm_compute; reflexivity. Qed.

(** ** C91: the standard input and output; missing files *)
(** the input called [name] has the contents [x] *)
Definition content (d : disk) (stdin : list byte) (name : string) (x : list byte) : Prop := (name = "-"%string /\ x = stdin) \/ (name <> "-"%string /\ file d name = Some x).
Lemma content_open d stdin name x : content d stdin name x -> open_in d stdin name = Some x.
Proof. intros [[-> ->]|[N F]]; [reflexivity|]. unfold open_in. rewrite (not_stdio name N). exact F. Qed.
Theorem C91_bsplit_stdout : forall d stdin i v a b, content d stdin i (a ++ b) -> Z.of_nat (length (a ++ b)) < 2 ^ 31 -> ~ bsplit_word i ->
  (int_text v false (Z.of_nat (length a)) -> bsplit_run d stdin ["--head"%string; v; i; "-"%string] = Ok (mkEnding 0 d a)) /\
  (int_text v false (Z.of_nat (length b)) -> bsplit_run d stdin ["--tail"%string; v; i; "-"%string] = Ok (mkEnding 0 d b)).
Proof.
  intros d stdin i v a b Hc Hl Hi. destruct (C55_command_line (open_in d stdin) i "-" v a b (content_open _ _ _ _ Hc) Hl Hi) as [H T].
  split; intros Hv; unfold bsplit_run; [rewrite (H Hv)|rewrite (T Hv)]; reflexivity.
Qed.
(** ppm2pwg with the output - writes the raster to the standard output and leaves the disk alone. *)
Theorem C91_ppm2pwg_stdout : forall d stdin sw rs i p pages input code data,
  reads sw rs -> Forall (fun e => takes (fst e) (snd e)) rs -> present rs "--help" = false -> plain_name i -> asks rs "-" p pages ->
  (p_format p = URF -> forall t, asked rs "--media-type" = Some t -> urf_media t) ->
  content d stdin i input -> ppm2pwg p pages input = Ok (code, data) ->
  ppm2pwg_run d stdin (sw ++ [i; "-"%string]) = Ok (mkEnding code d data).
Proof.
  intros d stdin sw rs i p pages input code data Hr Ht Hh Hi Ha Hm Hc E.
  assert (G : ppm2pwg_cmd (open_in d stdin) (sw ++ [i; "-"%string]) = Ok (code, Some ("-"%string, data))).
  { destruct (C77_options (open_in d stdin) sw rs i "-" p pages input Hr Ht Hh Hi Ha (content_open _ _ _ _ Hc)) as [(F & (t & T1 & T2) & _)|[_ ->]].
    - destruct (T2 (Hm F t T1)).
    - rewrite E. reflexivity. }
  rewrite (run_cmd d stdin _ code "-" data G G). reflexivity.
Qed.
(** The same for the input - and an output file that can be written. *)
Theorem C91_ppm2pwg_stdin_partial : forall d stdin sw rs o p pages code data,
  reads sw rs -> Forall (fun e => takes (fst e) (snd e)) rs -> present rs "--help" = false -> asks rs o p pages ->
  (p_format p = URF -> forall t, asked rs "--media-type" = Some t -> urf_media t) ->
  o <> "-"%string -> ppm2pwg p pages stdin = Ok (code, data) -> fits d o data ->
  exists d', ppm2pwg_run d stdin (sw ++ ["-"%string; o]) = Ok (mkEnding code d' []) /\ saved d d' o data.
Proof.
  intros d stdin sw rs o p pages code data Hr Ht Hh Ha Hm No E Hs.
  assert (Hi : plain_name "-") by (split; cbn; intuition discriminate).
  assert (G : forall d0, ppm2pwg_cmd (open_in d0 stdin) (sw ++ ["-"%string; o]) = Ok (code, Some (o, data))).
  { intros d0. destruct (C77_options (open_in d0 stdin) sw rs "-" o p pages stdin Hr Ht Hh Hi Ha eq_refl) as [(F & (t & T1 & T2) & _)|[_ ->]].
    - destruct (T2 (Hm F t T1)).
    - rewrite E. reflexivity. }
  rewrite (run_cmd d stdin _ code o data (G _) (G _)). unfold create_out, save_out. rewrite (not_stdio o No). destruct (create_save d o data Hs) as [F1 F2]. destruct (save_saved _ _ _ F1) as (S1 & S2 & _).
  eexists. split; [reflexivity|]. apply F2; [exact S1|]. rewrite S2. unfold create. destruct (writable d (place d o)); reflexivity.
Qed.
Theorem C91_baselinify_streams : forall jpeg d stdin i o input data, content d stdin i input -> jpeg input = Some data ->
  baselinify_run jpeg d stdin [i; "-"%string] = Ok (mkEnding 0 d data) /\
  (i = "-"%string -> o <> "-"%string -> fits d o data -> exists d', baselinify_run jpeg d stdin [i; o] = Ok (mkEnding 0 d' []) /\ saved d d' o data).
Proof.
  intros jpeg d stdin i o input data Hc Hj. split.
  - cbn [baselinify_run]. rewrite (content_open _ _ _ _ Hc). unfold create_out, save_out. cbn [String.eqb Ascii.eqb Bool.eqb]. rewrite (content_open _ _ _ _ Hc), Hj. reflexivity.
  - intros -> No Hs. destruct Hc as [[_ ->]|[N _]]; [|destruct (N eq_refl)]. cbn [baselinify_run]. unfold open_in. cbn [String.eqb Ascii.eqb Bool.eqb]. unfold create_out, save_out. rewrite (not_stdio o No), Hj.
    destruct (create_save d o data Hs) as [F1 F2]. destruct (save_saved _ _ _ F1) as (S1 & S2 & _). eexists. split; [reflexivity|]. apply F2; [exact S1|]. rewrite S2. unfold create. destruct (writable d (place d o)); reflexivity.
Qed.
(** An input file that is not there makes ppm2pwg, bsplit and baselinify fail, and nothing is changed: in particular the
    output file keeps what it held. *)
Theorem C91_missing_input : forall d stdin i o, i <> "-"%string -> file d i = None ->
  (forall sw rs, reads sw rs -> Forall (fun e => takes (fst e) (snd e)) rs -> present rs "--help" = false -> plain_name i -> ppm2pwg_run d stdin (sw ++ [i; o]) = Ok (mkEnding 1 d [])) /\
  (forall word v n, word = "--head"%string \/ word = "--tail"%string -> int_text v false n -> n < 2 ^ 31 -> ~ bsplit_word i -> bsplit_run d stdin [word; v; i; o] = Ok (mkEnding 1 d [])) /\
  (forall jpeg, baselinify_run jpeg d stdin [i; o] = Ok (mkEnding 1 d [])).
Proof.
  intros d stdin i o Ni Hf. assert (Ho : open_in d stdin i = None) by (unfold open_in; rewrite (not_stdio i Ni); exact Hf). split; [|split].
  - intros sw rs Hr Ht Hh [Hp1 Hp2]. destruct (reads_switches sw rs Hr Ht) as [l [Hs Hc]].
    assert (Hw : well_formed ppm2pwg_switches ppm2pwg_pos (sw ++ [i; o]) (l ++ [(14%nat, AStr i); (15%nat, AStr o)])).
    { exists sw, [i; o], l. split; [reflexivity|]. split; [exact Hs|]. split; [|reflexivity]. split; [cbn; lia|]. split; [intros q []|].
      intros d' Hd Hin. assert (K : forallb (fun d => forallb (fun n => existsb (String.eqb n) (map fst flag_names ++ map fst value_names)) (sw_names d)) ppm2pwg_switches = true) by (vm_compute; reflexivity).
      rewrite forallb_forall in K. specialize (K d' Hd). rewrite forallb_forall in K. specialize (K i Hin). apply existsb_name in K. apply in_app_or in K. tauto. }
    destruct (C24_accepts _ _ ppm2pwg_init _ _ Hw) as [st [E Hst]]. unfold ppm2pwg_run. rewrite E. cbn [bind negb].
    destruct (Hst 0%nat) as [V _]. rewrite V, last_app_pos by lia. change (a_val ppm2pwg_init 0) with (ABool false).
    pose proof (flag_field rs l 0 Hc (proj1 (Nat.ltb_lt 0 14) eq_refl) eq_refl eq_refl) as F0. cbn in F0. rewrite F0, Hh. cbv iota.
    destruct (ppm2pwg_params (ppm_opts_of st)); [|reflexivity]. destruct (Hst 14%nat) as [V14 _]. rewrite last_app_in in V14. rewrite V14. cbn [as_str]. rewrite Ho. reflexivity.
  - intros word v n Hword Hv Hn Hi. assert (Hk : exists k, ((word = "--head"%string /\ k = 1%nat) \/ (word = "--tail"%string /\ k = 2%nat))) by (destruct Hword; [exists 1%nat|exists 2%nat]; tauto). destruct Hk as [k Hk].
    destruct (C55_nothing (open_in d stdin) _ _ (bsplit_well_formed word k v n i o Hk Hv Hn Hi)) as (code & E & Hc).
    + right. right. intros i' Hi'. assert (Some (AStr i) = Some (AStr i')) as K by (destruct Hk as [[_ ->]|[_ ->]]; exact Hi'). injection K as <-. exact Ho.
    + unfold bsplit_run. rewrite E, Hc; [reflexivity|]. destruct Hk as [[_ ->]|[_ ->]]; reflexivity.
  - intros jpeg. cbn [baselinify_run]. rewrite Ho. reflexivity.
Qed.
Example C91_streams_example :
  bsplit_run (one_file true 100) [] ["--tail"; "1"; "in"; "-"]%string = Ok (mkEnding 0 (one_file true 100) [bZ 7]) /\
  (exists data, ppm2pwg_run (one_file true 5000) tiny ["-f"; "urf"; "-"; "-"]%string = Ok (mkEnding 0 (one_file true 5000) data) /\ firstn 7 data = bytes_of_string "UNIRAST") /\
  (exists d', ppm2pwg_run (one_file true 5000) tiny ["-"; "out"]%string = Ok (mkEnding 0 d' []) /\ option_map (firstn 4) (file d' "out") = Some (bytes_of_string "RaS2")) /\
  ppm2pwg_run (one_file true 5000) tiny ["out"; "in"]%string = Ok (mkEnding 1 (one_file true 5000) []).
Proof.
  split; [vm_compute; reflexivity|]. split; [eexists; split; [vm_compute; reflexivity|reflexivity]|]. split; [eexists; split; [vm_compute; reflexivity|reflexivity]|]. vm_compute. reflexivity.
Qed.

(** ** C82: the counter of the source *)
(** the states libjpeg can bring the source into *)
Inductive reached (data : list byte) : source -> Prop :=
| reached_init : reached data (source_init data)
| reached_take s b s' : reached data s -> take_byte data s = Ok (Taken b s') -> reached data s'
| reached_skip s n : reached data s -> reached data (skip_input_data s n).
(** bytes_in_buffer is always what is left between next_input_byte and the end of the file, modulo 2^64. *)
Theorem C82_left : forall data s, Z.of_nat (length data) < 2 ^ 64 -> reached data s ->
  s_left s = (Z.of_nat (length data) - s_next s) mod 2 ^ 64 /\ (0 <= s_next s <= Z.of_nat (length data) -> s_left s = Z.of_nat (length data) - s_next s).
Proof.
  intros data s Hl H. assert (G : s_left s = (Z.of_nat (length data) - s_next s) mod 2 ^ 64).
  { induction H as [|s b s' H IH E|s n H IH].
    - cbn [source_init s_left s_next]. rewrite Z.mod_small; lia.
    - rewrite take_eq in E. destruct (get_at data (s_next s)); try discriminate. injection E as _ <-. cbn [s_left s_next]. rewrite IH. unfold two64. change 18446744073709551616 with (2 ^ 64). rewrite Zminus_mod_idemp_l. f_equal. lia.
    - cbn [skip_input_data s_left s_next]. rewrite IH. unfold two64. change 18446744073709551616 with (2 ^ 64). rewrite Zminus_mod_idemp_l. f_equal. lia. }
  split; [exact G|]. intros Hb. rewrite G. apply Z.mod_small. lia.
Qed.
Example C82_left_example : reached (bytes_of_string "abcdef") (mkSource 4 2).
Proof. apply (reached_take _ (mkSource 3 3) (hd (bZ 0) (bytes_of_string "d"))); [|reflexivity]. exact (reached_skip (bytes_of_string "abcdef") (source_init (bytes_of_string "abcdef")) 3 (reached_init _)). Qed.

(** ** C85: chunks without bytes *)
Lemma print_pages_ext r wr wr' p total : (forall seen b, wr seen b = wr' seen b) -> forall seq n bmp out seen, print_pages r wr p total seq n bmp out seen = print_pages r wr' p total seq n bmp out seen.
Proof.
  intros H. induction seq as [|pageNo rest IH]; intros n bmp out seen; [reflexivity|]. cbn [print_pages].
  destruct (if pageNo =? INVALID_PAGE then Ok None else let '(w, h) := r_size r pageNo in let! t := fixup_scale w h p in Ok (Some (pageNo, t))) as [pl| | | |]; try reflexivity. cbn [bind].
  destruct (r_draw r (n + 1) pl) as [data|]; [|reflexivity].
  match goal with |- (let! x := ?e in _) = _ => destruct e as [[bmp' out']| | | |]; try reflexivity end.
  cbn [bind]. rewrite H. destruct (wr' seen out'); [apply IH|reflexivity].
Qed.
Lemma printable_ext r wr wr' p : (forall seen b, wr seen b = wr' seen b) -> pdf_to_printable r wr p = pdf_to_printable r wr' p.
Proof.
  intros H. unfold pdf_to_printable. destruct (match p_format p with URF => negb (p_hwResW p =? p_hwResH p) | _ => false end); [reflexivity|]. destruct (r_pages r) as [pages|]; [|reflexivity].
  destruct (getPageSequence p pages) as [seq| | | |]; try reflexivity. cbn [bind].
  match goal with |- (let! x := ?e in _) = _ => destruct e as [out| | | |]; try reflexivity end. cbn [bind].
  destruct (p_format p); try reflexivity; rewrite (print_pages_ext r wr wr' p _ H);
    match goal with |- (let! x := ?e in _) = _ => destruct e as [[[seen err] o]| | | |]; try reflexivity end; cbn [bind]; destruct err as [e|]; try reflexivity;
    match goal with |- match ?z with [] => _ | _ => _ end = _ => destruct z as [|c z0]; [reflexivity|]; rewrite H; reflexivity end.
Qed.
(** If the streamer takes every chunk of the document that has bytes, the conversion runs as if all were
    taken: chunks without bytes (a page for which cairo has written nothing yet) do not make it fail. *)
Theorem C85_empty_chunks : forall D takes conv inFile j, (forall seen b, b <> [] -> takes seen b = true) ->
  convert D (upload_writer takes) conv inFile j = convert D (fun _ _ => true) conv inFile j.
Proof.
  intros D takes conv inFile j H. destruct conv; try reflexivity. cbn [convert]. destruct (d_pdf D inFile) as [r| | | |]; try reflexivity. cbn [bind]. apply printable_ext.
  intros seen [|c b]; cbn [upload_writer]; [reflexivity|]. apply H. discriminate.
Qed.
(** two pages for which cairo writes nothing until the end, with a streamer that takes nothing empty *)
Example C85_empty_chunks_example :
  let late := {| r_pages := Some 2; r_size := fun _ => (fofZ 595, fofZ 842); r_draw := fun _ _ => Some []; r_stream := fun _ _ => []; r_finish := bytes_of_string "end" |} in
  let D := mkDocs (fun _ => None) (fun _ => Ok late) (fun b => Ok b) in
  convert D (upload_writer (fun _ b => match b with [] => false | _ => true end)) Pdf2Printable "in.pdf" (new_job [] [])
  = Ok ([RenderModel.Wrote []; Progress 1 2; RenderModel.Wrote []; Progress 2 2; RenderModel.Wrote (bytes_of_string "end")], None).
Proof. vm_compute. reflexivity. Qed.

(** ** C87: the lines ippdecode writes *)
Definition lines_of (l : list (list byte)) : list byte := flat_map (fun x => x ++ [bZ 10]) l.
Definition one_line (x : list byte) : Prop := ~ In (bZ 10) x.
(** a line with the attributes of a group as JSON *)
Definition shows (x : list byte) (m : ipp_attrs) : Prop := one_line x /\ exists fuel, read fuel x = Some (attrsToJSON m, []).
Lemma nl_eq c : c = bZ 10 <-> Zb c = 10.
Proof. split; [intros ->; reflexivity|intros H; rewrite <- (bZ_Zb c), H; reflexivity]. Qed.
Lemma one_line_app x y : one_line x -> one_line y -> one_line (x ++ y).
Proof. intros A B H. apply in_app_or in H. destruct H; [exact (A H)|exact (B H)]. Qed.
Lemma digits_one_line l v : number l v -> one_line l.
Proof. induction 1 as [d Hd|l v d Hl IH Hd]; [|apply one_line_app; [exact IH|]]; intros [E|[]]; apply (f_equal Zb) in E; rewrite Zb_bZ_small in E by lia; change (Zb (bZ 10)) with 10 in E; lia. Qed.
Ltac literal_line := let E := fresh in intros E; vm_compute in E; intuition discriminate.
Lemma chars_one_line n : forall s, (length s <= n)%nat -> one_line (dump_chars s).
Proof.
  induction n as [|n IH]; intros [|c s] Hn; cbn [length] in Hn; try lia; try (intros []).
  assert (Hs : one_line (dump_chars s)) by (apply IH; lia). cbn [dump_chars]. destruct (Zb c =? 92); [apply one_line_app; [literal_line|exact Hs]|]. destruct (Zb c =? 34); [apply one_line_app; [literal_line|exact Hs]|].
  destruct (Zb c =? 8); [apply one_line_app; [literal_line|exact Hs]|]. destruct (Zb c =? 12); [apply one_line_app; [literal_line|exact Hs]|].
  destruct (Z.eqb_spec (Zb c) 10) as [|N]; [apply one_line_app; [literal_line|exact Hs]|]. destruct (Zb c =? 13); [apply one_line_app; [literal_line|exact Hs]|]. destruct (Zb c =? 9); [apply one_line_app; [literal_line|exact Hs]|].
  destruct (Z.leb_spec (Zb c) 31) as [L|L].
  - apply one_line_app; [literal_line|]. apply one_line_app; [|exact Hs]. pose proof (Zb_range c).
    assert (K : forall z, 0 <= z < 16 -> hex_digit z <> bZ 10). { intros z Hz E. apply (f_equal Zb) in E. unfold hex_digit in E. destruct (Z.ltb_spec z 10); rewrite Zb_bZ_small in E by lia; change (Zb (bZ 10)) with 10 in E; lia. }
    intros [E|[E|[]]]; revert E; apply K; [split; [apply Z.div_pos; lia|apply Z.div_lt_upper_bound; lia]|apply Z.mod_pos_bound; lia].
  - assert (P : one_line (c :: dump_chars s)). { intros [E|H]; [apply nl_eq in E; lia|exact (Hs H)]. }
    destruct s as [|d [|e s]]; try exact P. cbn [length] in Hn.
    destruct (_ && _ && (Zb e =? 0xa8)); [apply one_line_app; [literal_line|apply IH; lia]|]. destruct (_ && _ && (Zb e =? 0xa9)); [apply one_line_app; [literal_line|apply IH; lia]|]. exact P.
Qed.
Lemma string_one_line s : one_line (dump_string s).
Proof. unfold dump_string. apply one_line_app; [literal_line|]. apply one_line_app; [apply (chars_one_line _ _ (Nat.le_refl _))|literal_line]. Qed.
Lemma list_one_line l : Forall one_line l -> one_line (dump_list l).
Proof.
  induction 1 as [|x l Hx Hl IH]; [intros []|]. cbn [dump_list]. destruct l as [|y l]; [exact Hx|]. apply one_line_app; [exact Hx|]. apply one_line_app; [literal_line|exact IH].
Qed.
Lemma dump_one_line j : one_line (dump j).
Proof.
  induction j as [j Ha Ho|l IH|m IH] using json_ind2.
  - destruct j as [|s|z|[|]|l|m]; try (exfalso; eapply Ha; reflexivity); try (exfalso; eapply Ho; reflexivity); try literal_line; [apply string_one_line|].
    cbn [dump]. unfold dump_int. destruct (Z.ltb_spec z 0).
    + change (bytes_of_string (String "-" (dec_string (- z)))) with ([bZ 45] ++ bytes_of_string (dec_string (- z))). apply one_line_app; [literal_line|]. apply (digits_one_line _ (- z)), dec_string_number. lia.
    + apply (digits_one_line _ z), dec_string_number. lia.
  - cbn [dump]. apply one_line_app; [literal_line|]. apply one_line_app; [|literal_line]. apply list_one_line, Forall_map. exact IH.
  - cbn [dump]. apply one_line_app; [literal_line|]. apply one_line_app; [|literal_line]. apply list_one_line, Forall_map. revert IH. apply Forall_impl. intros e He.
    apply one_line_app; [apply string_one_line|]. apply one_line_app; [literal_line|exact He].
Qed.
Lemma shows_dump m : shows (dump (attrsToJSON m)) m.
Proof.
  split; [apply dump_one_line|]. exists (S (depth (attrsToJSON m))). rewrite <- (app_nil_r (dump (attrsToJSON m))). apply read_dump; [lia|exact I].
Qed.
(** For a message that can be decoded ippdecode writes these lines: the operation or status, and a heading and the
    attributes as JSON for the operation attributes, for each group of job attributes in turn, and for the printer
    attributes.  Nothing in the attributes, line breaks in their texts included, adds or removes a line. *)
Theorem C87_lines : forall file name b m r, file name = Some b -> decodeMsg b = Ok (m, r) ->
  exists err status op jobs printer, ippdecode file [name] =
    Ok (0, lines_of ([bytes_of_string "IPP operation or status: " ++ status; bytes_of_string "Operation attrs: "; op] ++ flat_map (fun j => [bytes_of_string "Job attrs: "; j]) jobs ++ [bytes_of_string "Printer attrs: "; printer]), err) /\
    number status (m_opOrStatus m) /\ shows op (m_opAttrs m) /\ Forall2 shows jobs (m_jobAttrs m) /\ shows printer (m_printerAttrs m).
Proof.
  intros file name b m r F D. destruct (decodeMsg_res _ _ _ D) as [_ S]. destruct (decodeMsg_w b) as [err x] eqn:W. pose proof (decodeMsg_w_snd b) as X. rewrite W, D in X. cbn [snd] in X. subst x.
  exists err, (bytes_of_string (dec_string (m_opOrStatus m))), (dump (attrsToJSON (m_opAttrs m))), (map (fun g => dump (attrsToJSON g)) (m_jobAttrs m)), (dump (attrsToJSON (m_printerAttrs m))).
  split; [|split; [apply dec_string_number; exact S|split; [apply shows_dump|split; [|apply shows_dump]]]].
  - cbn [ippdecode]. rewrite F, W. do 3 f_equal. unfold msg_text, attrs_text, line, lines_of. rewrite bytes_append, !flat_map_app. cbn [flat_map]. rewrite app_nil_r, <- !app_assoc. do 6 f_equal.
    assert (J : forall l, flat_map (fun m0 => (bytes_of_string "Job attrs: " ++ [bZ 10]) ++ dump (attrsToJSON m0) ++ [bZ 10]) l = flat_map (fun x => x ++ [bZ 10]) (flat_map (fun j => [bytes_of_string "Job attrs: "; j]) (map (fun g => dump (attrsToJSON g)) l))).
    { induction l as [|g l IH]; [reflexivity|]. cbn [flat_map map app]. rewrite IH, <- !app_assoc. reflexivity. }
    rewrite J, ?app_nil_r, <- ?app_assoc. reflexivity.
  - induction (m_jobAttrs m) as [|g l IH]; cbn [map]; constructor; [apply shows_dump|exact IH].
Qed.
(** a text with a line break is still one line *)
Example C87_lines_example :
  match fst (encodeMsg 1 (mkMsg 1 1 2 [("job-name"%string, (0x42, VStr (String (bZ 10) "x")))] [] [])) with
  | Ok b => match ippdecode (fun _ => Some b) ["-"%string] with
            | Ok (c, out, _) => c = 0 /\ length (filter (fun x => Zb x =? 10) out) = 5%nat
            | _ => False
            end
  | _ => False
  end.
Proof. vm_compute. split; reflexivity. Qed.

(** ** C105: refused calls *)
(** the calls are accepted one after the other *)
Inductive accepted {S} (step : S -> call -> option S) : S -> list call -> S -> Prop :=
| accepted_none s : accepted step s [] s
| accepted_call s c s1 l s2 : step s c = Some s1 -> accepted step s1 l s2 -> accepted step s (c :: l) s2.
Lemma make_accepted {S} (step : S -> call -> option S) l : forall s s', make_calls step l s = Some s' <-> accepted step s l s'.
Proof.
  induction l as [|c l IH]; intros s s'; cbn [make_calls].
  - split; [intros E; injection E as ->; constructor|intros H; inversion H; reflexivity].
  - destruct (step s c) as [s1|] eqn:E; split.
    + intros H. apply accepted_call with (s1 := s1); [exact E|]. apply IH. exact H.
    + intros H. inversion H as [|? ? s1' ? ? E' H']; subst. rewrite E in E'. injection E' as <-. apply IH. exact H'.
    + discriminate.
    + intros H. inversion H as [|? ? s1' ? ? E' H']; subst. congruence.
Qed.
Lemma accepted_app {S} (step : S -> call -> option S) l l' : forall s s', accepted step s (l ++ l') s' <-> exists s1, accepted step s l s1 /\ accepted step s1 l' s'.
Proof.
  induction l as [|c l IH]; intros s s'; cbn [app].
  - split; [intros H; exists s; split; [constructor|exact H]|]. intros (s1 & H1 & H2). inversion H1; subst. exact H2.
  - split.
    + intros H. inversion H as [|? ? s1 ? ? E H']; subst. apply IH in H'. destruct H' as (s2 & A & B). exists s2. split; [|exact B]. apply accepted_call with (s1 := s1); assumption.
    + intros (s2 & A & B). inversion A as [|? ? s1 ? ? E H']; subst. apply accepted_call with (s1 := s1); [exact E|]. apply IH. exists s2. split; assumption.
Qed.
(** Whatever the library is, baselinify ends if and only if the library accepts all of its calls in the state it is then
    in; the markers copied are those the library has after the file was read.  A call that is refused is its last. *)
Theorem C105_accepted : forall {S} (step : S -> call -> option S) marker_list s s',
  baselinify step marker_list s = Some s' <-> exists s1, accepted step s calls_before s1 /\ accepted step s1 (calls_markers (marker_list s1) ++ calls_after) s'.
Proof.
  intros S step marker_list s s'. unfold baselinify. split.
  - intros H. destruct (make_calls step calls_before s) as [s1|] eqn:E1; [|discriminate]. destruct (make_calls step (calls_markers (marker_list s1)) s1) as [s2|] eqn:E2; [|discriminate].
    exists s1. split; [apply make_accepted; exact E1|]. apply accepted_app. exists s2. split; apply make_accepted; assumption.
  - intros (s1 & A & B). apply accepted_app in B. destruct B as (s2 & B & C). apply make_accepted in A, B, C. rewrite A, B. exact C.
Qed.
(** a library that refuses its third call *)
Example C105_refused_example : baselinify (fun n _ => if Nat.eqb n 2 then None else Some (Datatypes.S n)) (fun _ => []) 0%nat = None.
Proof. reflexivity. Qed.

Print Assumptions C55_command_line.
Print Assumptions C91_bsplit_stdout.
Print Assumptions C91_ppm2pwg_stdout.
Print Assumptions C91_ppm2pwg_stdin_partial.
Print Assumptions C91_baselinify_streams.
Print Assumptions C91_missing_input.
Print Assumptions C82_left.
Print Assumptions C85_empty_chunks.
Print Assumptions C87_lines.
Print Assumptions C105_accepted.
