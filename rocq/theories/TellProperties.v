(** C115: what bsplit, ppm2pwg and pdf2printable tell the user. *)
From Verif Require Import Base BaseLemmas StringModel StringSpec FloatModel ParamsModel HeaderModel PpmModel PpmSpec PpmProofs RenderModel ArgModel ArgSpec ArgProperties HelpModel HelpProperties
  IppEncProofs PpmCmdSpec PpmCmdProperties OptionProofs ParamsProperties PdfCmdModel PdfCmdSpec PdfCmdProperties TellModel.
From Verif Require ParamsSpec.
From Coq Require Import Lia.
Local Open Scope Z_scope.

(** ** Specification *)
(** either the program ends with code 0 and says nothing on the standard error, or with code 1,
    a message there that is more than an empty line, and nothing on the standard output *)
Definition plainly_told (t : told) : Prop :=
  (t_code t = 0 /\ t_err t = ""%string) \/ (t_code t = 1 /\ t_out t = ""%string /\ exists text, text <> ""%string /\ t_err t = (text ++ newline)%string).
(** a hint, the usage and a note *)
Definition hint (text usage_text note : string) : told := mkTold 1 "" (text ++ newline ++ newline ++ usage_text ++ newline ++ note ++ newline).
Definition usage_told (usage_text note : string) : told := mkTold 0 (usage_text ++ newline ++ note ++ newline) "".
Definition one_line (text : string) : told := mkTold 1 "" (text ++ newline).
Definition resolution_note : string := "Options from 'resolution' and onwards only affect raster output formats." ++ newline ++ "Use ""-"" as filename for stdin/stdout.".
Definition file_note : string := "Use ""-"" as filename for stdin/stdout.".
Definition sign_note : string := "Negative numbers means ""all but"" number of bytes from the beginning/end.".
(** two outcomes say the same about the exit code *)
Definition same_end {A} (code : A -> Z) (x : outcome told) (y : outcome A) : Prop :=
  match x, y with
  | Ok t, Ok a => t_code t = code a
  | Throw e, Throw e' => e = e'
  | UB, UB | Hang, Hang | NoFuel, NoFuel => True
  | _, _ => False
  end.
(** a request for help: on a line that is read as switches up to the first mistake *)
Definition no_help (args : list string) : Prop := ~ In "-h"%string args /\ ~ In "--help"%string args.

(** ** Proof *)
Lemma text_not_empty a b c : (a ++ String b c)%string <> ""%string. Proof. destruct a; discriminate. Qed.
Lemma refuses_told hint help note : plainly_told (refuses (print_error hint help note)).
Proof.
  right. split; [reflexivity|]. split; [reflexivity|]. exists (hint ++ endl ++ endl ++ help ++ endl ++ note)%string. split; [apply text_not_empty|].
  unfold refuses, print_error. cbn [t_err]. rewrite !sapp_assoc. reflexivity.
Qed.
Lemma fails_told a s : plainly_told (fails (String a s)).
Proof. right. split; [reflexivity|]. split; [reflexivity|]. exists (String a s). split; [discriminate|reflexivity]. Qed.
Lemma quiet_told out : plainly_told (mkTold 0 out ""). Proof. left. split; reflexivity. Qed.
Lemma same_bind {A B} (code : B -> Z) (x : outcome A) f g : (forall a, same_end code (f a) (g a)) -> same_end code (bind x f) (bind x g).
Proof. intros H. destruct x as [a|e| | |]; cbn [bind]; try reflexivity; try exact I. apply H. Qed.

(** the variable of --help *)
Lemma try_keeps args : no_help args -> forall defs st, (forall d, In d defs -> sw_id d = 0%nat -> sw_names d = ["-h"; "--help"]%string) ->
  match try_switches defs st args with Went st' rest => a_val st' 0%nat = a_val st 0%nat /\ exists used, args = used ++ rest | _ => True end.
Proof.
  intros [N1 N2] defs st. induction defs as [|d defs IH]; intros H; [exact I|]. cbn [try_switches]. assert (IH' := IH (fun d' Hd => H d' (or_intror Hd))). clear IH.
  unfold parse_switch. destruct args as [|a args]; [exact IH'|]. destruct (existsb (String.eqb a) (sw_names d)) eqn:E; [|exact IH'].
  assert (D : sw_id d <> 0%nat).
  { intros D. apply existsb_name in E. rewrite (H d (or_introl eq_refl) D) in E. cbn in E. destruct E as [E|[E|[]]]; [apply N1; left; exact (eq_sym E)|apply N2; left; exact (eq_sym E)]. }
  assert (K : forall x, a_val (assign st (sw_id d) x) 0%nat = a_val st 0%nat).
  { intros x. unfold assign. cbn [a_val]. destruct (sw_id d); [congruence|reflexivity]. }
  destruct (sw_kind d); try (split; [apply K|exists [a]; reflexivity]); (destruct args as [|v args]; [exact I|]);
    match goal with |- match (match (match convert ?k ?v with _ => _ end) with _ => _ end) with _ => _ end => destruct (convert k v) end; try exact I; (split; [apply K|exists [a; v]; reflexivity]).
Qed.
Lemma loop_keeps defs (H : forall d, In d defs -> sw_id d = 0%nat -> sw_names d = ["-h"; "--help"]%string) : forall f st args, no_help args ->
  match switch_loop f defs st args with Ok (inl (st', _)) | Ok (inr (_, st')) => a_val st' 0%nat = a_val st 0%nat | _ => True end.
Proof.
  induction f as [|f IH]; intros st args N; destruct args as [|a args]; cbn [switch_loop]; try reflexivity; try exact I.
  pose proof (try_keeps _ N defs st H) as K. destruct (try_switches defs st (a :: args)) as [|st' rest|msg]; try reflexivity.
  destruct K as [K [used E]]. assert (N' : no_help rest) by (destruct N as [N1 N2]; rewrite E in N1, N2; split; intros X; [apply N1|apply N2]; apply in_or_app; right; exact X).
  specialize (IH st' rest N'). destruct (switch_loop f defs st' rest) as [[[st2 r2]|[m st2]]|e| | |]; try exact I; congruence.
Qed.
Lemma pos_keeps pos (H : forall p, In p pos -> pa_id p <> 0%nat) : forall st args, match parse_pos pos st args with inl (st', _) | inr (_, st') => a_val st' 0%nat = a_val st 0%nat end.
Proof.
  induction pos as [|p pos IH]; intros st args; cbn [parse_pos]; [reflexivity|]. assert (IH' := IH (fun q Hq => H q (or_intror Hq))).
  destruct args as [|a args]; [destruct (pa_optional p); [apply IH'|reflexivity]|]. specialize (IH' (assign st (pa_id p) (AStr a)) args).
  assert (K : a_val (assign st (pa_id p) (AStr a)) 0%nat = a_val st 0%nat) by (unfold assign; cbn [a_val]; pose proof (H p (or_introl eq_refl)); destruct (pa_id p); [congruence|reflexivity]).
  rewrite K in IH'. exact IH'.
Qed.
Lemma args_keep defs pos st args ok msg st' : (forall d, In d defs -> sw_id d = 0%nat -> sw_names d = ["-h"; "--help"]%string) -> (forall p, In p pos -> pa_id p <> 0%nat) ->
  no_help args -> get_args defs pos st args = Ok (ok, msg, st') -> a_val st' 0%nat = a_val st 0%nat.
Proof.
  intros H P N E. unfold get_args in E. pose proof (loop_keeps defs H (length args) st args N) as L.
  destruct (switch_loop (length args) defs st args) as [[[st1 r1]|[m st1]]|e| | |]; cbn [bind] in E; try discriminate.
  - destruct (_ <? _)%nat; [injection E as _ _ <-; exact L|]. pose proof (pos_keeps pos P st1 r1) as Q. destruct (parse_pos pos st1 r1) as [[st2 [|a r2]]|[m st2]]; injection E as _ _ <-; congruence.
  - injection E as _ _ <-. exact L.
Qed.

(** ** bsplit *)
Theorem C115_bsplit files name args : same_end fst (bsplit_tells files name args) (bsplit files args) /\
  match bsplit_tells files name args with Ok t => plainly_told t | _ => True end.
Proof.
  unfold bsplit_tells, bsplit. destruct (get_args bsplit_switches bsplit_pos bsplit_init args) as [[[ok msg] st]|e| | |]; cbn [bind]; try (split; [reflexivity|exact I]); try (split; exact I).
  destruct (as_bool (a_val st 0)); [split; [reflexivity|apply quiet_told]|]. destruct ok; cbn [negb]; [|split; [reflexivity|apply refuses_told]].
  destruct (files (as_str (a_val st 3))) as [bts|]; [|split; [reflexivity|apply fails_told]].
  destruct (Bool.eqb (a_set st 1) (a_set st 2)); [split; [reflexivity|apply fails_told]|]. split.
  - apply same_bind. intros a. reflexivity.
  - match goal with |- match bind ?x _ with _ => _ end => destruct x as [a|e| | |] end; cbn [bind]; try exact I. apply quiet_told.
Qed.
Print Assumptions C115_bsplit.
(** on a well formed line: which of the messages *)
Theorem C115_bsplit_message files name args l i : well_formed bsplit_switches bsplit_pos args l -> last_assigned l 0 = None -> last_assigned l 3 = Some (AStr i) ->
  (files i = None -> bsplit_tells files name args = Ok (one_line "Failed to open input")) /\
  (forall bts, files i = Some bts -> (last_assigned l 1 = None <-> last_assigned l 2 = None) -> bsplit_tells files name args = Ok (one_line "Please give --head *or* --tail.")) /\
  (forall bts t, files i = Some bts -> ~ (last_assigned l 1 = None <-> last_assigned l 2 = None) -> bsplit_tells files name args = Ok t -> t = mkTold 0 "" "").
Proof.
  intros W H0 H3. destruct (C24_accepts _ _ bsplit_init args l W) as (st & E & V). unfold bsplit_tells. rewrite E. cbn [bind].
  assert (V0 : as_bool (a_val st 0%nat) = false) by (destruct (V 0%nat) as [V0 _]; rewrite V0, H0; reflexivity).
  assert (V3 : as_str (a_val st 3%nat) = i) by (destruct (V 3%nat) as [V3 _]; rewrite V3, H3; reflexivity).
  assert (S : forall n, a_set st n = match last_assigned l n with Some _ => true | None => false end).
  { intros n. destruct (V n) as [_ Vn]. rewrite Vn. destruct (last_assigned l n); reflexivity. }
  rewrite V0, V3, !S. cbn [negb]. split; [intros ->; reflexivity|]. split; intros bts.
  - intros -> K. destruct (last_assigned l 1), (last_assigned l 2); try reflexivity; exfalso; [pose proof (proj2 K eq_refl)|pose proof (proj1 K eq_refl)]; discriminate.
  - intros t -> K. destruct (last_assigned l 1) as [x|], (last_assigned l 2) as [y|]; cbn [Bool.eqb].
    + exfalso. apply K. split; discriminate.
    + match goal with |- bind ?z _ = _ -> _ => destruct z as [a|e| | |] end; cbn [bind]; try discriminate. intros [= <-]. reflexivity.
    + match goal with |- bind ?z _ = _ -> _ => destruct z as [a|e| | |] end; cbn [bind]; try discriminate. intros [= <-]. reflexivity.
    + exfalso. apply K. split; reflexivity.
Qed.
Print Assumptions C115_bsplit_message.

(** ** ppm2pwg *)
Lemma mode_same f magic xs r : match ppm_mode_tells f magic xs r, ppm_mode f magic xs r with
  | Ok (inl c), Ok None => exists a s, c = String a s
  | Ok (inr m), Ok (Some m') => m = m'
  | Throw e, Throw e' => e = e' | UB, UB | Hang, Hang | NoFuel, NoFuel => True | _, _ => False end.
Proof.
  unfold ppm_mode_tells, ppm_mode. destruct (String.eqb magic "P6"); [|destruct (String.eqb magic "P5"); [|destruct (String.eqb magic "P4")]].
  1,2: destruct (String.eqb r "255"); [reflexivity|]; destruct (String.eqb r "65535"); [reflexivity|]; do 2 eexists; reflexivity.
  - destruct (stoul xs) as [x|e| | |]; cbn [bind]; try reflexivity; try exact I. destruct (negb (x mod 8 =? 0)); [do 2 eexists; reflexivity|]. destruct f; try reflexivity. do 2 eexists; reflexivity.
  - do 2 eexists. reflexivity.
Qed.
Lemma page_same p n s : match ppm_page_tells p n s, ppm_page p n s with
  | Ok (inl c), Ok None => exists a s, c = String a s
  | Ok (inr x), Ok (Some y) => x = y
  | Throw e, Throw e' => e = e' | UB, UB | Hang, Hang | NoFuel, NoFuel => True | _, _ => False end.
Proof.
  unfold ppm_page_tells, ppm_page. destruct (read_word s) as [magic s1]. destruct (ignore_comments s1) as [s2|e| | |]; cbn [bind]; try reflexivity; try exact I.
  destruct (read_word s2) as [xs s3]. destruct (read_word s3) as [ys s4]. destruct (if _ || _ then _ else _) as [r s5].
  pose proof (mode_same (p_format p) magic xs r) as M. destruct (ppm_mode_tells (p_format p) magic xs r) as [[c|m]|e| | |], (ppm_mode (p_format p) magic xs r) as [[m'|]|e'| | |]; cbn [bind]; try contradiction; try exact M.
  subst m'. repeat match goal with |- match bind ?z _ with _ => _ end => destruct z; cbn [bind]; try reflexivity; try exact I end.
  destruct (read_block _ _) as [bmp s7]. match goal with |- match bind ?z _ with _ => _ end => destruct z; cbn [bind]; try reflexivity; try exact I end.
Qed.
Lemma pages_same : forall f p n s, same_end fst (ppm_pages_tells f p n s) (ppm_pages f p n s) /\ match ppm_pages_tells f p n s with Ok t => plainly_told t /\ t_out t = ""%string | _ => True end.
Proof.
  induction f as [|f IH]; intros p n s; [split; exact I|]. cbn [ppm_pages_tells ppm_pages]. destruct (i_eof s); [split; [reflexivity|split; [apply quiet_told|reflexivity]]|].
  pose proof (page_same p (n + 1) s) as P. destruct (ppm_page_tells p (n + 1) s) as [[c|[[o q] s1]]|e| | |], (ppm_page p (n + 1) s) as [[y|]|e'| | |]; cbn [bind]; try contradiction; try (split; [exact P|exact I]).
  - destruct P as (a & b & ->). split; [reflexivity|]. split; [apply fails_told|reflexivity].
  - subst y. destruct (peek s1) as [c s2]. specialize (IH q (n + 1) s2). destruct IH as [I1 I2]. split; [|exact I2].
    destruct (ppm_pages_tells f q (n + 1) s2), (ppm_pages f q (n + 1) s2) as [[code rest]|e'| | |]; cbn [bind]; exact I1.
Qed.
Theorem C115_ppm2pwg files name args : same_end fst (ppm2pwg_tells files name args) (ppm2pwg_cmd files args) /\
  match ppm2pwg_tells files name args with Ok t => plainly_told t | _ => True end.
Proof.
  unfold ppm2pwg_tells, ppm2pwg_cmd. destruct (get_args ppm2pwg_switches ppm2pwg_pos ppm2pwg_init args) as [[[ok msg] st]|e| | |]; cbn [bind]; try (split; [reflexivity|exact I]); try (split; exact I).
  destruct (as_bool (a_val st 0)); [split; [reflexivity|apply quiet_told]|]. destruct ok; cbn [negb]; [|split; [reflexivity|apply refuses_told]].
  destruct (ppm2pwg_params (ppm_opts_of st)) as [p|]; [|split; [reflexivity|apply refuses_told]].
  destruct (files (as_str (a_val st 14))) as [input|]; [|split; [reflexivity|apply fails_told]].
  destruct (pages_same (S (length input)) p 0 (mkIn input false false)) as [S1 S2]. split.
  - unfold ppm2pwg. destruct (ppm_pages_tells _ p 0 _), (ppm_pages _ p 0 _) as [[code out]|e'| | |]; cbn [bind]; exact S1.
  - destruct (ppm_pages_tells _ p 0 _); try exact I. apply S2.
Qed.
Print Assumptions C115_ppm2pwg.
(** The first header: words between blanks.  What is said about one that is not taken. *)
Definition word (w : list byte) : Prop := w <> [] /\ Forall (fun c => is_space c = false) w /\ hd_error w <> Some "#"%char.
Definition header_complaint (f : fmt) (magic x max : string) (c : string) : Prop :=
  ((magic = "P5" \/ magic = "P6")%string /\ max <> "255"%string /\ max <> "65535"%string /\ c = ("Only 255 and 65535 bit-depths supported, got " ++ max)%string)
  \/ (magic = "P4"%string /\ exists n, stoul x = Ok n /\ n mod 8 <> 0 /\ c = ("Only whole-byte width P4 PBMs supported, got " ++ dec_string n)%string)
  \/ (magic = "P4"%string /\ exists n, stoul x = Ok n /\ n mod 8 = 0 /\ f = URF /\ c = "URF does not support 1-bit (P4/pbm) color."%string)
  \/ (magic <> "P4" /\ magic <> "P5" /\ magic <> "P6" /\ c = "Only P4/P5/P6 (raw) supported, got " ++ magic)%string.
Lemma mode_complaint f magic x r c : ppm_mode_tells f magic x r = Ok (inl c) <-> header_complaint f magic x r c.
Proof.
  unfold ppm_mode_tells, header_complaint. split.
  - destruct (String.eqb_spec magic "P6") as [->|N6].
    { destruct (String.eqb_spec r "255"); [discriminate|]. destruct (String.eqb_spec r "65535"); [discriminate|]. intros [= <-]. left. split; [right; reflexivity|]. split; [assumption|]. split; [assumption|reflexivity]. }
    destruct (String.eqb_spec magic "P5") as [->|N5].
    { destruct (String.eqb_spec r "255"); [discriminate|]. destruct (String.eqb_spec r "65535"); [discriminate|]. intros [= <-]. left. split; [left; reflexivity|]. split; [assumption|]. split; [assumption|reflexivity]. }
    destruct (String.eqb_spec magic "P4") as [->|N4].
    { destruct (stoul x) as [n|e| | |]; cbn [bind]; try discriminate. destruct (Z.eqb_spec (n mod 8) 0) as [M|M]; cbn [negb].
      - destruct f; intros [= <-]. right. right. left. split; [reflexivity|]. exists n. split; [reflexivity|]. split; [exact M|]. split; reflexivity.
      - intros [= <-]. right. left. split; [reflexivity|]. exists n. split; [reflexivity|]. split; [exact M|reflexivity]. }
    intros [= <-]. right. right. right. repeat split; assumption.
  - intros [([-> | ->] & N1 & N2 & ->)|[(-> & n & E & M & ->)|[(-> & n & E & M & -> & ->)|(N4 & N5 & N6 & ->)]]].
    + cbn [String.eqb Ascii.eqb Bool.eqb]. rewrite (proj2 (String.eqb_neq _ _) N1), (proj2 (String.eqb_neq _ _) N2). reflexivity.
    + cbn [String.eqb Ascii.eqb Bool.eqb]. rewrite (proj2 (String.eqb_neq _ _) N1), (proj2 (String.eqb_neq _ _) N2). reflexivity.
    + cbn [String.eqb Ascii.eqb Bool.eqb]. rewrite E. cbn [bind]. rewrite (proj2 (Z.eqb_neq _ _) M). reflexivity.
    + cbn [String.eqb Ascii.eqb Bool.eqb]. rewrite E. cbn [bind]. rewrite (proj2 (Z.eqb_eq _ _) M). reflexivity.
    + rewrite (proj2 (String.eqb_neq _ _) N6), (proj2 (String.eqb_neq _ _) N5), (proj2 (String.eqb_neq _ _) N4). reflexivity.
Qed.
Lemma ignore_gap gap w l : white_gap gap -> word w -> exists gap', Forall white gap' /\ ignore_comments (good (gap ++ w ++ l)) = Ok (good (gap' ++ w ++ l)).
Proof.
  intros [Hn Hg] (W1 & W2 & W3). destruct Hg as [|c gap Hc Hg]; [congruence|]. destruct (Ascii.eqb_spec c "010") as [->|Hnl].
  - exists gap. split; [exact Hg|]. cbn [app]. change "010"%char with PpmSpec.newline. rewrite ignore_comments_newline. apply ignore_comment_lines_stop.
    destruct Hg as [|d gap Hd _].
    + destruct w as [|x w]; [congruence|]. cbn [app]. intros K. apply W3. cbn. rewrite K. reflexivity.
    + cbn [app]. intros ->. unfold white in Hd. cbn in Hd. repeat destruct Hd as [Hd|Hd]; discriminate || contradiction.
  - exists (c :: gap). split; [constructor; assumption|]. unfold ignore_comments.
    assert (E : peek (good ((c :: gap) ++ w ++ l)) = (Some c, good ((c :: gap) ++ w ++ l))) by reflexivity. rewrite E.
    replace (match Some c with
           | Some "010"%char => mkIn (tl (i_rest (good ((c :: gap) ++ w ++ l)))) false false
           | _ => good ((c :: gap) ++ w ++ l) end) with (good ((c :: gap) ++ w ++ l)).
    + apply ignore_comment_lines_stop. cbn [app]. intros ->. unfold white in Hc. cbn in Hc. repeat destruct Hc as [Hc|Hc]; discriminate || contradiction.
    + destruct c as [[] [] [] [] [] [] [] []]; try reflexivity. exfalso. apply Hnl. reflexivity.
Qed.
(** [magic], the width, the height and, for P5 and P6, the greatest value, at the start of the
    input, each followed by white space; [max] is empty for other magic numbers *)
Definition starts_with_header (input : list byte) (magic x max : string) : Prop :=
  exists m gap0 xs gap1 ys gap2 rest, word m /\ word xs /\ word ys /\ white_gap gap0 /\ white_gap gap1 /\ string_of_bytes m = magic /\ string_of_bytes xs = x
    /\ input = m ++ gap0 ++ xs ++ gap1 ++ ys ++ gap2 ++ rest
    /\ ((In magic ["P5"; "P6"]%string /\ white_gap gap2 /\ exists r c rest', word r /\ white c /\ rest = r ++ c :: rest' /\ string_of_bytes r = max)
        \/ (~ In magic ["P5"; "P6"]%string /\ max = ""%string /\ exists c, white c /\ gap2 = [c])).
Lemma white_space c : white c -> is_space c = true.
Proof. unfold white. cbn. intros H. repeat destruct H as [<-|H]; reflexivity || contradiction. Qed.
Lemma gap_head gap l : white_gap gap -> white_head (gap ++ l).
Proof. intros [N H]. destruct H as [|c gap H _]; [congruence|]. cbn. apply white_space. exact H. Qed.
Lemma header_read p n input magic x max c : starts_with_header input magic x max -> header_complaint (p_format p) magic x max c ->
  ppm_page_tells p n (mkIn input false false) = Ok (inl c).
Proof.
  intros (m & gap0 & xs & gap1 & ys & gap2 & rest & Wm & Wx & Wy & G0 & G1 & Em & Ex & -> & T) C. apply mode_complaint in C.
  change (mkIn ?l false false) with (good l). unfold ppm_page_tells.
  rewrite read_word_ok0; [|apply Wm|apply Wm|apply gap_head; exact G0]. destruct (ignore_gap gap0 xs (gap1 ++ ys ++ gap2 ++ rest) G0 Wx) as (g & Hg & ->). cbn [bind].
  rewrite read_word_ok; [|exact Hg|apply Wx|apply Wx|apply gap_head; exact G1].
  assert (H2 : white_head (gap2 ++ rest)) by (destruct T as [(_ & G2 & _)|(_ & _ & d & Hd & ->)]; [apply gap_head; exact G2|cbn; apply white_space; exact Hd]).
  rewrite read_word_ok; [|apply G1|apply Wy|apply Wy|exact H2]. rewrite Em, Ex.
  destruct T as [(I & G2 & r & d & rest' & Wr & Hd & -> & Er)|(I & -> & _)].
  - replace (String.eqb magic "P6" || String.eqb magic "P5") with true by (cbn in I; destruct I as [<-|[<-|[]]]; reflexivity).
    rewrite read_word_ok; [|apply G2|apply Wr|apply Wr|cbn; apply white_space; exact Hd]. rewrite Er, C. reflexivity.
  - replace (String.eqb magic "P6" || String.eqb magic "P5") with false; [rewrite C; reflexivity|].
    cbn in I. destruct (String.eqb_spec magic "P6"); [intuition congruence|]. destruct (String.eqb_spec magic "P5"); intuition congruence.
Qed.
(** Which line is said about the input of ppm2pwg. *)
Theorem C115_ppm2pwg_header files name sw rs i o f : reads sw rs -> Forall (fun e => takes (fst e) (snd e)) rs -> present rs "--help" = false -> plain_name i ->
  choice rs "--format" formats (if string_ends_with o ".urf" then URF else PWG) f ->
  let bad_type := f = URF /\ exists t, asked rs "--media-type" = Some t /\ ~ urf_media t in
  (bad_type -> ppm2pwg_tells files name (sw ++ [i; o]) = Ok (hint "Invalid media type for URF" (arg_help name ppm2pwg_docs ppm2pwg_pos) file_note))
  /\ (~ bad_type -> files i = None -> ppm2pwg_tells files name (sw ++ [i; o]) = Ok (one_line "Failed to open input"))
  /\ (~ bad_type -> forall input magic x max c, files i = Some input -> starts_with_header input magic x max -> header_complaint f magic x max c ->
      ppm2pwg_tells files name (sw ++ [i; o]) = Ok (one_line c)).
Proof.
  intros Hr Ht Hh [Hp1 Hp2] A1 bad_type. destruct (reads_switches sw rs Hr Ht) as [l [Hs Hc]].
  assert (Hw : well_formed ppm2pwg_switches ppm2pwg_pos (sw ++ [i; o]) (l ++ [(14%nat, AStr i); (15%nat, AStr o)])).
  { exists sw, [i; o], l. split; [reflexivity|]. split; [exact Hs|]. split; [|reflexivity]. split; [cbn; lia|]. split; [intros q []|].
    intros d Hd Hin. assert (K : forallb (fun d => forallb (fun n => existsb (String.eqb n) (map fst flag_names ++ map fst value_names)) (sw_names d)) ppm2pwg_switches = true) by (vm_compute; reflexivity).
    rewrite forallb_forall in K. specialize (K d Hd). rewrite forallb_forall in K. specialize (K i Hin). apply existsb_name in K. apply in_app_or in K. tauto. }
  destruct (C24_accepts _ _ ppm2pwg_init _ _ Hw) as [st [E Hst]]. unfold ppm2pwg_tells. rewrite E. cbn [bind negb].
  assert (V : forall n, (n < 14)%nat -> a_val st n = match last_assigned l n with Some v => v | None => a_val ppm2pwg_init n end /\ a_set st n = match last_assigned l n with Some _ => true | None => false end).
  { intros n Hn. destruct (Hst n) as [V1 V2]. rewrite last_app_pos in V1, V2 by exact Hn. rewrite V1, V2. split; [reflexivity|]. destruct (last_assigned l n); reflexivity. }
  destruct (Hst 14%nat) as [V14 _]. destruct (Hst 15%nat) as [V15 _]. rewrite last_app_in in V14. rewrite last_app_out in V15.
  destruct (V 0%nat (proj1 (Nat.ltb_lt 0 14) eq_refl)) as [V0 _]. rewrite V0. pose proof (flag_field rs l 0 Hc (proj1 (Nat.ltb_lt 0 14) eq_refl) eq_refl eq_refl) as F0. cbn in F0. change (a_val ppm2pwg_init 0) with (ABool false). rewrite F0, Hh. cbn [as_bool]. rewrite V14. cbn [as_str].
  set (op := ppm_opts_of st).
  assert (G1 : opt (o_format op) (if string_ends_with o ".urf" then URF else PWG) = f).
  { cbn [op ppm_opts_of o_format]. unfold if_set. destruct (V 2%nat (proj1 (Nat.ltb_lt 2 14) eq_refl)) as [W1 W2]. rewrite W1, W2.
    rewrite (enum_field rs l 2 [("pwg", 2); ("urf", 3)]%string formats (fun z => if z =? 3 then URF else PWG) (if string_ends_with o ".urf" then URF else PWG) f Hc (proj1 (Nat.ltb_lt 2 14) eq_refl) eq_refl eq_refl);
      [|apply distinct_NoDup; vm_compute; reflexivity|intros t z Hz; clear - Hz; cbn in Hz; repeat destruct Hz as [Hz|Hz]; try contradiction; injection Hz as <- <-; cbn; auto|exact A1].
    destruct (last_assigned l 2); reflexivity. }
  assert (G12 : o_mediaType op = asked rs "--media-type").
  { cbn [op ppm_opts_of o_mediaType]. unfold if_set. destruct (V 13%nat (proj1 (Nat.ltb_lt 13 14) eq_refl)) as [W1 W2]. rewrite W1, W2.
    rewrite (str_field rs l 13 Hc (proj1 (Nat.ltb_lt 13 14) eq_refl) eq_refl eq_refl). change (long_name (nth 13 ppm2pwg_switches (mkSwitch 0 KBool [] ""))) with "--media-type"%string. destruct (asked rs "--media-type"); reflexivity. }
  assert (G13 : o_outFile op = o) by (cbn [op ppm_opts_of o_outFile]; rewrite V15; reflexivity).
  unfold ppm2pwg_params. cbv zeta. rewrite G13, G1, G12.
  match goal with |- context [match (if ?b then None else Some ?q) with Some _ => _ | None => _ end] => set (p := q); set (bad := b) end.
  assert (Fp : p_format p = f) by reflexivity. clearbody p.
  assert (B : bad = true <-> bad_type).
  { subst bad bad_type. clear. destruct f; split; try discriminate; try (intros [K _]; discriminate K).
    - destruct (asked rs "--media-type") as [t|]; [|discriminate]. intros H. split; [reflexivity|]. exists t. split; [reflexivity|]. rewrite <- urf_media_spec. destruct (isUrfMediaType t); discriminate.
    - intros [_ [t [-> Hn]]]. rewrite <- urf_media_spec in Hn. destruct (isUrfMediaType t); [destruct (Hn eq_refl)|reflexivity]. }
  clearbody bad bad_type. split; [|split].
  - intros K. apply B in K. subst bad. reflexivity.
  - intros K Hf. destruct bad; [destruct (K (proj1 B eq_refl))|]. rewrite Hf. reflexivity.
  - intros K input magic x max c Hf S C. destruct bad; [destruct (K (proj1 B eq_refl))|]. rewrite Hf. cbn [ppm_pages_tells i_eof]. rewrite <- Fp in C. rewrite (header_read _ _ _ _ _ _ _ S C). reflexivity.
Qed.
Print Assumptions C115_ppm2pwg_header.

(** ** pdf2printable *)
Lemma params_same st : match pdf_params_tells st, pdf_params st with
  | Ok (inl h), Ok None => True | Ok (inr p), Ok (Some p') => p = p'
  | Throw e, Throw e' => e = e' | UB, UB | Hang, Hang | NoFuel, NoFuel => True | _, _ => False end.
Proof.
  unfold pdf_params_tells, pdf_params. cbv zeta. match goal with |- context [bind ?z _] => destruct z as [[ok p1]|e| | |] end; cbn [bind]; try reflexivity; try exact I.
  destruct ok; cbn [negb]; [|exact I]. match goal with |- context [bind ?z _] => destruct z as [[ok p2]|e| | |] end; cbn [bind]; try reflexivity; try exact I.
  destruct ok; cbn [negb]; [|exact I]. unfold urf_refuses. destruct (p_format (resolved st p2)); try reflexivity. destruct (_ || isBlack _); [exact I|]. cbn [orb]. destruct (_ && _); [exact I|reflexivity].
Qed.
Theorem C115_pdf2printable pdf_error e name args : same_end fst (pdf_tells pdf_error e name args) (pdf2printable_cmd e args)
  /\ match pdf_tells pdf_error e name args with Ok t => plainly_told t | _ => True end.
Proof.
  unfold pdf_tells, pdf2printable_cmd. destruct (get_args pdf_switches pdf_pos pdf_init args) as [[[ok msg] st]|x| | |]; cbn [bind]; try (split; [reflexivity|exact I]); try (split; exact I).
  destruct (as_bool (a_val st 0)); [split; [reflexivity|apply quiet_told]|]. destruct ok; cbn [negb]; [|split; [reflexivity|apply refuses_told]].
  pose proof (params_same st) as P. destruct (pdf_params_tells st) as [[h|p]|x| | |], (pdf_params st) as [[p'|]|x'| | |]; cbn [bind]; try contradiction; try (split; [exact P|exact I]); [split; [reflexivity|apply refuses_told]|].
  subst p'. unfold convert_tells, convert_file. match goal with |- context [bind (if ?b then ?u else ?v) _] => destruct (if b then u else v) as [r|x| | |] end; cbn [bind]; try (split; [reflexivity|exact I]); try (split; exact I).
  destruct (pdf_to_printable r _ p) as [[ev [err|]]|x| | |]; cbn [bind]; try (split; [reflexivity|exact I]); try (split; exact I); (split; [reflexivity|]); [apply fails_told|apply quiet_told].
Qed.
Print Assumptions C115_pdf2printable.

(** ** Help and complaints, all three programs *)
Lemma try_helped args : forall defs st, (forall d, In d defs -> sw_id d = 0%nat -> sw_kind d = KBool) -> as_bool (a_val st 0%nat) = true ->
  match try_switches defs st args with Went st' _ => as_bool (a_val st' 0%nat) = true | _ => True end.
Proof.
  intros defs st. induction defs as [|d defs IH]; intros H T; [exact I|]. cbn [try_switches]. assert (IH' := IH (fun d' Hd => H d' (or_intror Hd)) T). clear IH.
  unfold parse_switch. destruct args as [|a args]; [exact IH'|]. destruct (existsb (String.eqb a) (sw_names d)); [|exact IH'].
  pose proof (H d (or_introl eq_refl)) as D. destruct (Nat.eq_dec (sw_id d) 0) as [Z0|Z0].
  - rewrite (D Z0). unfold assign. cbn [a_val]. rewrite Z0. reflexivity.
  - assert (K : forall x, as_bool (a_val (assign st (sw_id d) x) 0%nat) = true) by (intros x; unfold assign; cbn [a_val]; destruct (sw_id d); [congruence|exact T]).
    destruct (sw_kind d); try apply K; (destruct args as [|v args]; [exact I|]);
    match goal with |- match (match (match convert ?k ?v with _ => _ end) with _ => _ end) with _ => _ end => destruct (convert k v) end; try exact I; apply K.
Qed.
Lemma loop_helped defs (H : forall d, In d defs -> sw_id d = 0%nat -> sw_kind d = KBool) : forall f st args, as_bool (a_val st 0%nat) = true ->
  match switch_loop f defs st args with Ok (inl (st', _)) | Ok (inr (_, st')) => as_bool (a_val st' 0%nat) = true | _ => True end.
Proof.
  induction f as [|f IH]; intros st args T; destruct args as [|a args]; cbn [switch_loop]; try exact T; try exact I.
  pose proof (try_helped (a :: args) defs st H T) as K. destruct (try_switches defs st (a :: args)) as [|st' rest|msg]; try exact T. exact (IH st' rest K).
Qed.
Lemma pos_helped pos (H : forall p, In p pos -> pa_id p <> 0%nat) st args : as_bool (a_val st 0%nat) = true -> match parse_pos pos st args with inl (st', _) | inr (_, st') => as_bool (a_val st' 0%nat) = true end.
Proof. intros T. pose proof (pos_keeps pos H st args) as K. destruct (parse_pos pos st args) as [[st' r]|[m st']]; rewrite K; exact T. Qed.
Lemma args_helped defs pos st sw l h d rest : (forall d, In d defs -> sw_id d = 0%nat -> sw_kind d = KBool) -> (forall p, In p pos -> pa_id p <> 0%nat) ->
  switches defs sw l -> known defs h d -> sw_id d = 0%nat -> sw_kind d = KBool ->
  exists ok msg st', get_args defs pos st (sw ++ h :: rest) = Ok (ok, msg, st') /\ as_bool (a_val st' 0%nat) = true.
Proof.
  intros H P S K I0 KB. assert (S' : switches defs (sw ++ [h]) (l ++ [(sw_id d, ABool true)])) by (apply switches_app; [exact S|]; apply switches_flag; [exact K|exact KB|constructor]).
  assert (E : sw ++ h :: rest = (sw ++ [h]) ++ rest) by (rewrite <- app_assoc; reflexivity). unfold get_args.
  assert (T : match switch_loop (length (sw ++ h :: rest)) defs st (sw ++ h :: rest) with Ok (inl (st', _)) | Ok (inr (_, st')) => as_bool (a_val st' 0%nat) = true | _ => False end).
  { pose proof (loop_cases defs (length (sw ++ h :: rest)) st (sw ++ h :: rest) (le_n _)) as C.
    assert (T : match switch_loop (length (sw ++ h :: rest)) defs st (sw ++ h :: rest) with Ok (inl (st', _)) | Ok (inr (_, st')) => as_bool (a_val st' 0%nat) = true | _ => True end).
    { rewrite E. destruct (loop_on defs _ _ S' rest (length ((sw ++ [h]) ++ rest)) st (le_n _)) as (f & _ & ->). apply loop_helped; [exact H|]. rewrite assigns_app. unfold assigns at 1. cbn [fold_left]. rewrite I0. reflexivity. }
    destruct C as [(sw' & l' & r' & _ & _ & _ & C)|(m & st' & C & _)]; rewrite C in T |- *; exact T. }
  destruct (switch_loop _ defs st _) as [[[st1 r1]|[m st1]]|x| | |]; try contradiction; cbn [bind].
  - destruct (_ <? _)%nat; [do 3 eexists; split; [reflexivity|exact T]|]. pose proof (pos_helped pos P st1 r1 T) as Q. destruct (parse_pos pos st1 r1) as [[st2 [|x r2]]|[m st2]]; do 3 eexists; (split; [reflexivity|exact Q]).
  - do 3 eexists. split; [reflexivity|exact T].
Qed.
Lemma help_known defs tl h : defs = mkSwitch 0 KBool ["-h"; "--help"]%string "" :: tl -> In h ["-h"; "--help"]%string -> known defs h (mkSwitch 0 KBool ["-h"; "--help"]%string "").
Proof. intros -> Hh. exists [], tl. split; [reflexivity|]. split; [exact Hh|]. intros e []. Qed.
Lemma bsplit_zero d : In d bsplit_switches -> sw_id d = 0%nat -> d = mkSwitch 0 KBool ["-h"; "--help"]%string "".
Proof. intros Hd. repeat destruct Hd as [<-|Hd]; try contradiction; intros K; try discriminate K; reflexivity. Qed.
Lemma ppm_zero d : In d ppm2pwg_switches -> sw_id d = 0%nat -> d = mkSwitch 0 KBool ["-h"; "--help"]%string "".
Proof. intros Hd. repeat destruct Hd as [<-|Hd]; try contradiction; intros K; try discriminate K; reflexivity. Qed.
Lemma pdf_zero d : In d pdf_switches -> sw_id d = 0%nat -> d = mkSwitch 0 KBool ["-h"; "--help"]%string "".
Proof. intros Hd. repeat destruct Hd as [<-|Hd]; try contradiction; intros K; try discriminate K; reflexivity. Qed.
Lemma pos_zero p : In p (bsplit_pos ++ ppm2pwg_pos ++ pdf_pos) -> pa_id p <> 0%nat.
Proof. intros Hp. repeat destruct Hp as [<-|Hp]; try contradiction; discriminate. Qed.
(** A request for help before the first mistake, if any: the usage, on the standard output;
    nothing else is looked at. *)
Theorem C115_help files pdf_error e name sw l h rest : In h ["-h"; "--help"]%string ->
  (switches bsplit_switches sw l -> bsplit_tells files name (sw ++ h :: rest) = Ok (usage_told (arg_help name bsplit_docs bsplit_pos) sign_note))
  /\ (switches ppm2pwg_switches sw l -> ppm2pwg_tells files name (sw ++ h :: rest) = Ok (usage_told (arg_help name ppm2pwg_docs ppm2pwg_pos) file_note))
  /\ (switches pdf_switches sw l -> pdf_tells pdf_error e name (sw ++ h :: rest) = Ok (usage_told (arg_help name pdf_docs pdf_pos) resolution_note)).
Proof.
  intros Hh. split; [|split]; intros S.
  - destruct (args_helped bsplit_switches bsplit_pos bsplit_init sw l h _ rest (fun d Hd Z => f_equal sw_kind (bsplit_zero d Hd Z)) (fun p Hp => pos_zero p (in_or_app _ _ _ (or_introl Hp))) S (help_known _ _ h eq_refl Hh) eq_refl eq_refl) as (ok & msg & st & E & T).
    unfold bsplit_tells. rewrite E. cbn [bind]. rewrite T. reflexivity.
  - destruct (args_helped ppm2pwg_switches ppm2pwg_pos ppm2pwg_init sw l h _ rest (fun d Hd Z => f_equal sw_kind (ppm_zero d Hd Z)) (fun p Hp => pos_zero p (in_or_app _ _ _ (or_intror (in_or_app _ _ _ (or_introl Hp))))) S (help_known _ _ h eq_refl Hh) eq_refl eq_refl) as (ok & msg & st & E & T).
    unfold ppm2pwg_tells. rewrite E. cbn [bind]. rewrite T. reflexivity.
  - destruct (args_helped pdf_switches pdf_pos pdf_init sw l h _ rest (fun d Hd Z => f_equal sw_kind (pdf_zero d Hd Z)) (fun p Hp => pos_zero p (in_or_app _ _ _ (or_intror (in_or_app _ _ _ (or_intror Hp))))) S (help_known _ _ h eq_refl Hh) eq_refl eq_refl) as (ok & msg & st & E & T).
    unfold pdf_tells. rewrite E. cbn [bind]. rewrite T. reflexivity.
Qed.
Print Assumptions C115_help.
(** Without such words: the complaint about the command line, then the usage. *)
Theorem C115_complaint files pdf_error e name args msg : no_help args ->
  (complaint bsplit_switches bsplit_pos args msg -> bsplit_tells files name args = Ok (hint msg (arg_help name bsplit_docs bsplit_pos) sign_note))
  /\ (complaint ppm2pwg_switches ppm2pwg_pos args msg -> ppm2pwg_tells files name args = Ok (hint msg (arg_help name ppm2pwg_docs ppm2pwg_pos) file_note))
  /\ (complaint pdf_switches pdf_pos args msg -> pdf_tells pdf_error e name args = Ok (hint msg (arg_help name pdf_docs pdf_pos) resolution_note)).
Proof.
  intros N. split; [|split]; intros C.
  - destruct (complaint_made _ _ bsplit_init _ _ C) as [st E]. pose proof (args_keep _ _ _ _ _ _ _ (fun d Hd Z => f_equal sw_names (bsplit_zero d Hd Z)) (fun p Hp => pos_zero p (in_or_app _ _ _ (or_introl Hp))) N E) as V.
    unfold bsplit_tells. rewrite E. cbn [bind]. rewrite V. reflexivity.
  - destruct (complaint_made _ _ ppm2pwg_init _ _ C) as [st E]. pose proof (args_keep _ _ _ _ _ _ _ (fun d Hd Z => f_equal sw_names (ppm_zero d Hd Z)) (fun p Hp => pos_zero p (in_or_app _ _ _ (or_intror (in_or_app _ _ _ (or_introl Hp))))) N E) as V.
    unfold ppm2pwg_tells. rewrite E. cbn [bind]. rewrite V. reflexivity.
  - destruct (complaint_made _ _ pdf_init _ _ C) as [st E]. pose proof (args_keep _ _ _ _ _ _ _ (fun d Hd Z => f_equal sw_names (pdf_zero d Hd Z)) (fun p Hp => pos_zero p (in_or_app _ _ _ (or_intror (in_or_app _ _ _ (or_intror Hp))))) N E) as V.
    unfold pdf_tells. rewrite E. cbn [bind]. rewrite V. reflexivity.
Qed.
Print Assumptions C115_complaint.

(** ** The reasons of pdf2printable *)
Definition pages_good (rs : list (string * string)) : Prop := forall t, asked rs "--pages" = Some t -> exists l, page_list t l.
Definition paper_good (rs : list (string * string)) : Prop := forall t, asked rs "--paper-size" = Some t -> 
  (exists w h inches, size_name t w h inches) /\ forall w h inches, size_name t w h inches -> numbers_fit w /\ numbers_fit h.
(** the first of the four that applies *)
Inductive pdf_reason (rs : list (string * string)) (f : fmt) (m : color_mode) : string -> Prop :=
| reason_pages t : asked rs "--pages" = Some t -> (forall l, ~ page_list t l) -> small_numbers t -> pdf_reason rs f m "Malformed page selection"
| reason_paper t : pages_good rs -> asked rs "--paper-size" = Some t -> (forall w h inches, ~ size_name t w h inches) -> pdf_reason rs f m "Malformed paper size"
| reason_color : pages_good rs -> paper_good rs -> f = URF -> In m [Gray1; Black1; Black8] -> pdf_reason rs f m "URF does not support black or 1-bit color modes"
| reason_type t : pages_good rs -> paper_good rs -> f = URF -> ~ In m [Gray1; Black1; Black8] -> asked rs "--media-type" = Some t -> ~ urf_type t -> pdf_reason rs f m "Invalid media type for URF".
Lemma pages_read rs st : pdf_read rs st -> pages_good rs -> exists p1, (if a_set st 3%nat then setPageRange (parsed_params st) (as_str (a_val st 3%nat)) else Ok (true, parsed_params st)) = Ok (true, p1) /\ ParamsSpec.keeps_rest (parsed_params st) p1.
Proof.
  intros R G. destruct (read_text rs st 3 R (proj1 (Nat.ltb_lt 3 17) eq_refl) eq_refl eq_refl eq_refl) as [T3 S3]. change (long_name (pdf_switch 3)) with "--pages"%string in *.
  rewrite S3, T3. unfold present. destruct (asked rs "--pages") as [t|] eqn:A.
  - destruct (G t A) as [l Hl]. destruct (C16_accepts_grammar (parsed_params st) t l Hl) as (p1 & E & _ & K & _). exists p1. split; [exact E|exact K].
  - eexists. split; [reflexivity|]. unfold ParamsSpec.keeps_rest. repeat split.
Qed.
Lemma paper_read rs st p1 : pdf_read rs st -> paper_good rs ->
  exists p2, (if a_set st 5%nat then setPaperSize p1 (as_str (a_val st 5%nat)) else Ok (true, p1)) = Ok (true, p2) /\ p_format p2 = p_format p1 /\ p_colorMode p2 = p_colorMode p1 /\ p_mediaType p2 = p_mediaType p1.
Proof.
  intros R G. destruct (read_text rs st 5 R (proj1 (Nat.ltb_lt 5 17) eq_refl) eq_refl eq_refl eq_refl) as [T5 S5]. change (long_name (pdf_switch 5)) with "--paper-size"%string in *.
  rewrite S5, T5. unfold present. destruct (asked rs "--paper-size") as [t|] eqn:A.
  - destruct (G t A) as [(w & h & inches & G1) G2]. pose proof (C20_accepts_exactly_partial p1 t) as X. destruct (setPaperSize p1 t) as [[[|] p2]|x| | |] eqn:E; try contradiction.
    + exists p2. split; [reflexivity|]. unfold setPaperSize in E. destruct (match_paper_size t) as [[[a b] u]|]; [|discriminate]. destruct (from_string a); try discriminate. destruct (from_string b); try discriminate. injection E as <-. repeat split.
    + destruct X as [_ X]. destruct (X _ _ _ G1).
    + destruct X as [_ (w' & h' & i' & X1 & X2)]. destruct (X2 (G2 _ _ _ X1)).
  - eexists. split; [reflexivity|]. repeat split.
Qed.
(** Missing: numbers of more than 64 bits, which end the program with an exception
    (C79_exception_refuted). *)
Theorem C115_pdf_reasons_partial pdf_error e name sw rs i o : reads_as_options pdf_flags pdf_values sw rs -> Forall (fun e => pdf_takes (fst e) (snd e)) rs -> present rs "--help" = false -> pdf_plain i ->
  exists f m, match asked rs "--format" with None => name_format o f | Some t => In (t, f) pdf_formats end /\ choice rs "--color-mode" color_modes sRGB24 m
    /\ forall why, pdf_reason rs f m why -> pdf_tells pdf_error e name (sw ++ [i; o]) = Ok (hint why (arg_help name pdf_docs pdf_pos) resolution_note).
Proof.
  intros Hr Ht Hh Hi. destruct (pdf_get_args sw rs i o Hr Ht Hi) as [st [E [V1 [V2 R]]]].
  exists (p_format (parsed_params st)), (p_colorMode (parsed_params st)). split; [exact (parsed_format rs st o R V2)|]. split.
  { cbn [parsed_params p_colorMode]. refine (read_choice rs st 12 _ color_modes color_of sRGB24 R (proj1 (Nat.ltb_lt 12 17) eq_refl) eq_refl eq_refl _ eq_refl). choices. }
  intros why Hw. unfold pdf_tells. rewrite E. cbn [bind negb]. rewrite (read_flag rs st 0 R (proj1 (Nat.ltb_lt 0 17) eq_refl) eq_refl eq_refl eq_refl).
  change (long_name (pdf_switch 0)) with "--help"%string. rewrite Hh. cbn iota. assert (K : pdf_params_tells st = Ok (inl why)); [|rewrite K; reflexivity].
  unfold pdf_params_tells. cbv zeta.
  destruct (read_text rs st 16 R (proj1 (Nat.ltb_lt 16 17) eq_refl) eq_refl eq_refl eq_refl) as [M1 M2]. change (long_name (pdf_switch 16)) with "--media-type"%string in M1, M2.
  assert (C : forall p, (getBitsPerColor p =? 1) || isBlack p = true <-> In (p_colorMode p) [Gray1; Black1; Black8]).
  { intros p. unfold getBitsPerColor, isBlack. destruct (p_colorMode p); cbn; intuition discriminate. }
  inversion Hw as [t A N Sm|t G A N|G G2 F M|t G G2 F M A N]; subst why.
  - destruct (read_text rs st 3 R (proj1 (Nat.ltb_lt 3 17) eq_refl) eq_refl eq_refl eq_refl) as [T3 S3]. change (long_name (pdf_switch 3)) with "--pages"%string in *.
    rewrite S3, T3. unfold present. rewrite A. pose proof (C16_exact_grammar_partial (parsed_params st) t) as X. destruct (setPageRange (parsed_params st) t) as [[[|] p1]|x| | |]; try contradiction.
    + destruct X as [X _]. destruct (N _ X).
    + reflexivity.
    + exfalso. destruct X as [_ [a [d [b [n [G1 [G2 G3]]]]]]]. pose proof (Sm a d b n G1 G2). lia.
  - destruct (pages_read rs st R G) as (p1 & -> & _). cbn [bind negb].
    destruct (read_text rs st 5 R (proj1 (Nat.ltb_lt 5 17) eq_refl) eq_refl eq_refl eq_refl) as [T5 S5]. change (long_name (pdf_switch 5)) with "--paper-size"%string in *.
    rewrite S5, T5. unfold present. rewrite A. pose proof (C20_accepts_exactly_partial p1 t) as X. destruct (setPaperSize p1 t) as [[[|] p2]|x| | |]; try contradiction.
    + destruct X as (w & h & inches & X & _). destruct (N _ _ _ X).
    + reflexivity.
    + destruct X as [_ (w & h & inches & X & _)]. destruct (N _ _ _ X).
  - destruct (pages_read rs st R G) as (p1 & -> & K). cbn [bind negb]. destruct (paper_read rs st p1 R G2) as (p2 & -> & K1 & K2 & K3). cbn [bind negb].
    destruct K as (Kf & Kc & _). change (p_format (resolved st p2)) with (p_format p2). rewrite K1, Kf, F.
    rewrite (proj2 (C (resolved st p2))); [reflexivity|]. change (p_colorMode (resolved st p2)) with (p_colorMode p2). rewrite K2, Kc. exact M.
  - destruct (pages_read rs st R G) as (p1 & -> & K). cbn [bind negb]. destruct (paper_read rs st p1 R G2) as (p2 & -> & K1 & K2 & K3). cbn [bind negb].
    destruct K as (Kf & Kc & _ & _ & _ & _ & _ & _ & _ & _ & _ & Km). change (p_format (resolved st p2)) with (p_format p2). rewrite K1, Kf, F.
    destruct ((getBitsPerColor (resolved st p2) =? 1) || isBlack (resolved st p2)) eqn:B.
    { apply C in B. change (p_colorMode (resolved st p2)) with (p_colorMode p2) in B. rewrite K2, Kc in B. destruct (M B). }
    change (p_mediaType (resolved st p2)) with (p_mediaType p2). rewrite K3, Km. change (p_mediaType (parsed_params st)) with (as_str (a_val st 16)). rewrite M1, M2. unfold present. rewrite A. cbn [andb].
    destruct (isUrfMediaType t) eqn:U; [|reflexivity]. apply urf_media_spec in U. destruct (N U).
Qed.
Print Assumptions C115_pdf_reasons_partial.
(** With none of the reasons, there is either nothing said or one line about the conversion. *)
Theorem C115_pdf_otherwise_partial pdf_error e name sw rs i o said : reads_as_options pdf_flags pdf_values sw rs -> Forall (fun e => pdf_takes (fst e) (snd e)) rs -> present rs "--help" = false -> pdf_plain i ->
  pages_good rs -> paper_good rs -> (forall f m why, match asked rs "--format" with None => name_format o f | Some t => In (t, f) pdf_formats end -> choice rs "--color-mode" color_modes sRGB24 m -> ~ pdf_reason rs f m why) ->
  pdf_tells pdf_error e name (sw ++ [i; o]) = Ok said -> said = mkTold 0 "" "" \/ exists text, said = one_line ("Conversion failed: " ++ text).
Proof.
  intros Hr Ht Hh Hi G G2 No. destruct (pdf_get_args sw rs i o Hr Ht Hi) as [st [E [V1 [V2 R]]]].
  assert (Hm : choice rs "--color-mode" color_modes sRGB24 (p_colorMode (parsed_params st))).
  { cbn [parsed_params p_colorMode]. refine (read_choice rs st 12 _ color_modes color_of sRGB24 R (proj1 (Nat.ltb_lt 12 17) eq_refl) eq_refl eq_refl _ eq_refl). choices. }
  specialize (No _ _ "URF does not support black or 1-bit color modes"%string (parsed_format rs st o R V2) Hm) as No1.
  specialize (No _ _ "Invalid media type for URF"%string (parsed_format rs st o R V2) Hm) as No2.
  unfold pdf_tells. rewrite E. cbn [bind negb]. rewrite (read_flag rs st 0 R (proj1 (Nat.ltb_lt 0 17) eq_refl) eq_refl eq_refl eq_refl).
  change (long_name (pdf_switch 0)) with "--help"%string. rewrite Hh. cbn iota.
  assert (K : exists p, pdf_params_tells st = Ok (inr p)).
  { unfold pdf_params_tells. cbv zeta. destruct (pages_read rs st R G) as (p1 & -> & K). cbn [bind negb]. destruct (paper_read rs st p1 R G2) as (p2 & -> & K1 & K2 & K3). cbn [bind negb].
    destruct K as (Kf & Kc & _ & _ & _ & _ & _ & _ & _ & _ & _ & Km). change (p_format (resolved st p2)) with (p_format p2). rewrite K1, Kf. destruct (p_format (parsed_params st)) eqn:F; try (eexists; reflexivity).
    destruct (read_text rs st 16 R (proj1 (Nat.ltb_lt 16 17) eq_refl) eq_refl eq_refl eq_refl) as [M1 M2]. change (long_name (pdf_switch 16)) with "--media-type"%string in M1, M2.
    assert (C : (getBitsPerColor (resolved st p2) =? 1) || isBlack (resolved st p2) = true <-> In (p_colorMode (parsed_params st)) [Gray1; Black1; Black8]).
    { rewrite <- Kc, <- K2. change (p_colorMode p2) with (p_colorMode (resolved st p2)). unfold getBitsPerColor, isBlack. destruct (p_colorMode (resolved st p2)); cbn; intuition discriminate. }
    destruct ((getBitsPerColor (resolved st p2) =? 1) || isBlack (resolved st p2)).
    { exfalso. apply No1. apply reason_color; [exact G|exact G2|reflexivity|apply C; reflexivity]. }
    change (p_mediaType (resolved st p2)) with (p_mediaType p2). rewrite K3, Km. change (p_mediaType (parsed_params st)) with (as_str (a_val st 16)). rewrite M1, M2. unfold present.
    destruct (asked rs "--media-type") as [mt|] eqn:A; [|eexists; reflexivity]. cbn [andb]. destruct (isUrfMediaType mt) eqn:U; [eexists; reflexivity|].
    exfalso. apply No2. apply (reason_type rs URF _ mt); try assumption; [reflexivity| |].
    - intros B. apply C in B. discriminate.
    - intros B. apply urf_media_spec in B. congruence. }
  destruct K as [p ->]. cbn [bind]. unfold convert_tells. intros T. bind_inv T as r T1 T2. bind_inv T2 as x T3 T4. destruct x as [ev [err|]]; injection T4 as <-; [right; eexists; reflexivity|left; reflexivity].
Qed.
Print Assumptions C115_pdf_otherwise_partial.

(** ** Examples *)
Definition one_file (n : string) : option (list byte) := if String.eqb n "a" then Some (bytes_of_string "P6 3 2 100 xxxxx") else None.
Example C115_bsplit_example :
  let lf := newline in
  bsplit_tells one_file "bsplit" ["a"; "b"]%string = Ok (mkTold 1 "" ("Please give --head *or* --tail." ++ lf))
  /\ bsplit_tells one_file "bsplit" ["-h"; "--head"]%string = Ok (mkTold 0
      ("Usage: bsplit [options] <input file> <output file>" ++ lf
       ++ "  -h, --help      Print this help text" ++ lf
       ++ "  --head <int>    Get head number of bytes from the beginning" ++ lf
       ++ "  --tail <int>    Get tail number of bytes from the end" ++ lf
       ++ lf ++ "Negative numbers means ""all but"" number of bytes from the beginning/end." ++ lf) "").
Proof. cbv zeta. split; vm_compute; reflexivity. Qed.
Example C115_bsplit_message_example : exists l, well_formed bsplit_switches bsplit_pos ["--head"; "1"; "a"; "b"]%string l /\ last_assigned l 0 = None /\ last_assigned l 3 = Some (AStr "a")
  /\ one_file "a" <> None /\ ~ (last_assigned l 1 = None <-> last_assigned l 2 = None).
Proof.
  destruct (proj1 (C24_exactly bsplit_switches bsplit_pos bsplit_init ["--head"; "1"; "a"; "b"]%string)) as [l W]; [vm_compute; do 2 eexists; reflexivity|].
  exists l. split; [exact W|]. destruct (C24_accepts _ _ bsplit_init _ _ W) as (st & E & V). vm_compute in E. injection E as <-.
  assert (S : forall n, match last_assigned l n with Some _ => true | None => false end = (n =? 1)%nat || (n =? 3)%nat || (n =? 4)%nat).
  { intros n. destruct (V n) as [_ Vn]. destruct n as [|[|[|[|[|n]]]]]; cbn in Vn |- *; destruct (last_assigned l _); congruence. }
  destruct (V 3%nat) as [V3 _]. pose proof (S 0%nat) as S0. pose proof (S 1%nat) as S1. pose proof (S 2%nat) as S2. pose proof (S 3%nat) as S3. cbn in V3, S0, S1, S2, S3.
  destruct (last_assigned l 0), (last_assigned l 1), (last_assigned l 2), (last_assigned l 3); try discriminate. subst. split; [reflexivity|]. split; [reflexivity|]. split; [discriminate|]. intros [_ K]. discriminate (K eq_refl).
Qed.
Example C115_header_example : ppm2pwg_tells one_file "ppm2pwg" ["a"; "b.urf"]%string = Ok (one_line "Only 255 and 65535 bit-depths supported, got 100")
  /\ starts_with_header (bytes_of_string "P6 3 2 100 xxxxx") "P6" "3" "100" /\ header_complaint URF "P6" "3" "100" "Only 255 and 65535 bit-depths supported, got 100".
Proof.
  split; [vm_compute; reflexivity|]. split.
  - exists (bytes_of_string "P6"), (bytes_of_string " "), (bytes_of_string "3"), (bytes_of_string " "), (bytes_of_string "2"), (bytes_of_string " "), (bytes_of_string "100 xxxxx").
    assert (G : white_gap (bytes_of_string " ")) by (split; [discriminate|constructor; [left; reflexivity|constructor]]).
    split; [repeat split; try discriminate; repeat constructor|]. split; [repeat split; try discriminate; repeat constructor|]. split; [repeat split; try discriminate; repeat constructor|].
    split; [exact G|]. split; [exact G|]. split; [reflexivity|]. split; [reflexivity|]. split; [reflexivity|]. left. split; [right; left; reflexivity|]. split; [exact G|].
    exists (bytes_of_string "100"), " "%char, (bytes_of_string "xxxxx"). split; [repeat split; try discriminate; repeat constructor|]. split; [left; reflexivity|]. split; reflexivity.
  - left. split; [right; reflexivity|]. split; [discriminate|]. split; [discriminate|reflexivity].
Qed.
Example C115_complaint_example : no_help ["--head"; "x"; "a"; "b"]%string /\ complaint bsplit_switches bsplit_pos ["--head"; "x"; "a"; "b"]%string "Bad value for --head <int> (x)"
  /\ complaint ppm2pwg_switches ppm2pwg_pos ["in.ppm"]%string "Missing positional argument <out-file>".
Proof.
  split; [split; intros K; repeat destruct K as [K|K]; discriminate || contradiction|]. split.
  - apply (C90_message _ _ bsplit_init). vm_compute. eexists. reflexivity.
  - apply (C90_message _ _ ppm2pwg_init). vm_compute. eexists. reflexivity.
Qed.
(** the name of the output asks for URF, which has no black-only colours *)
Example C115_pdf_example pdf_error e :
  pdf_tells pdf_error e "pdf2printable" ["-c"; "black8"; "in.pdf"; "out.urf"]%string
  = Ok (hint "URF does not support black or 1-bit color modes" (arg_help "pdf2printable" pdf_docs pdf_pos) resolution_note)
  /\ pdf_tells pdf_error e "pdf2printable" ["-p"; "3-1"; "-c"; "black8"; "in.pdf"; "out.urf"]%string = Ok (hint "Malformed page selection" (arg_help "pdf2printable" pdf_docs pdf_pos) resolution_note)
  /\ reads_as_options pdf_flags pdf_values ["-c"; "black8"]%string [("--color-mode", "black8")]%string /\ pdf_reason [("--color-mode", "black8")]%string URF Black8 "URF does not support black or 1-bit color modes".
Proof.
  split; [vm_compute; reflexivity|]. split; [vm_compute; reflexivity|]. split.
  - apply (options_value _ _ "-c" "--color-mode" "black8" [] []); [cbn; tauto|constructor].
  - apply reason_color; [intros t K; discriminate K|intros t K; discriminate K|reflexivity|cbn; tauto].
Qed.
