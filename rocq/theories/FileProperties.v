(** C91: the utilities and the files on the disk. *)
From Verif Require Import Base BaseLemmas FloatModel StringModel StringProofs ParamsModel RasterModel HeaderModel HeaderSpec HeaderProofs PpmModel PpmSpec PpmProofs
  PpmProperties ParamsSpec ArgModel ArgSpec ArgProperties PpmCmdSpec PpmCmdProperties FileModel.
From Coq Require Import Lia ZifyBool ZifyNat.
Local Open Scope Z_scope.

(** ** Specification *)
Definition file (d : disk) (name : string) : option (list byte) := held d (place d name).
(** [data] can be written to the file of that name *)
Definition fits (d : disk) (name : string) (data : list byte) : Prop := writable d (place d name) = true /\ (length data <= room d (place d name))%nat.
(** the file of that name holds the data, and all other files are as they were *)
Definition saved (d d' : disk) (name : string) (data : list byte) : Prop :=
  file d' name = Some data /\ forall n, place d n <> place d name -> file d' n = file d n.
(** The parameters that the round trip is for: no transform of back sides, names that fit into the header and, for
    URF, what it can express. *)
Definition faithful (p : params) : Prop :=
  1 <= p_hwResW p < 2 ^ 32 /\ 1 <= p_hwResH p < 2 ^ 32 /\ 0 <= p_mediaPosition p <= 49 /\ untransformed p
  /\ match p_format p with
     | URF => p_hwResW p = p_hwResH p /\ exists c, In (p_mediaType p, c) urf_media_table
     | _ => fits_field (p_mediaType p) /\ fits_field (p_paperSizeName p)
     end.

(** ** Proofs *)
Lemma save_saved d name data : fits d name data -> saved d (save d name data) name data /\ place (save d name data) = place d /\ writable (save d name data) = writable d /\ room (save d name data) = room d.
Proof.
  intros [Hw Hr]. unfold save. rewrite Hw, firstn_all2 by lia. unfold put. split; [|repeat split]. split; unfold file; cbn [held place].
  - rewrite Nat.eqb_refl. reflexivity.
  - intros n Hn. apply Nat.eqb_neq in Hn. rewrite Hn. reflexivity.
Qed.
Lemma create_other d name n : place d n <> place d name -> held (create d name) (place (create d name) n) = held d (place d n).
Proof.
  intros Hn. unfold create. destruct (writable d (place d name)); [|reflexivity]. cbn [put held place]. apply Nat.eqb_neq in Hn. rewrite Hn. reflexivity.
Qed.
Lemma create_save d name data : fits d name data -> fits (create d name) name data /\ forall d', saved (create d name) d' name data -> place d' = place d -> saved d d' name data.
Proof.
  intros [Hw Hr]. unfold create. rewrite Hw. split; [split; [exact Hw|exact Hr]|]. intros d' [S1 S2] Hp. split; [exact S1|].
  intros n Hn. rewrite S2 by exact Hn. unfold file. cbn [put held place]. apply Nat.eqb_neq in Hn. rewrite Hn. reflexivity.
Qed.
Lemma not_stdio name : name <> "-"%string -> String.eqb name "-" = false.
Proof. apply String.eqb_neq. Qed.
(** the run is the conversion of the input, if that is still there when the output was created *)
Lemma run_cmd d stdin args code o data : ppm2pwg_cmd (open_in d stdin) args = Ok (code, Some (o, data)) ->
  ppm2pwg_cmd (open_in (create_out d o) stdin) args = Ok (code, Some (o, data)) ->
  ppm2pwg_run d stdin args = let '(d', out) := save_out (create_out d o) o data in Ok (mkEnding code d' out).
Proof.
  unfold ppm2pwg_cmd, ppm2pwg_run. destruct (get_args ppm2pwg_switches ppm2pwg_pos ppm2pwg_init args) as [[[ok msg] st]| | | |]; try discriminate. cbn [bind].
  destruct (as_bool (a_val st 0%nat)); [discriminate|]. destruct (negb ok); [discriminate|]. destruct (ppm2pwg_params (ppm_opts_of st)) as [p|]; [|discriminate].
  destruct (open_in d stdin (as_str (a_val st 14%nat))) as [i1|]; [|discriminate]. destruct (ppm2pwg p (opt (o_pages (ppm_opts_of st)) 0) i1) as [[c1 x1]| | | |]; try discriminate.
  cbn [bind]. intros E. injection E as -> <- ->. destruct (open_in (create_out d (as_str (a_val st 15%nat))) stdin (as_str (a_val st 14%nat))) as [i2|]; [|discriminate].
  destruct (ppm2pwg p (opt (o_pages (ppm_opts_of st)) 0) i2) as [[c2 x2]| | | |]; try discriminate. cbn [bind]. intros E. injection E as -> ->. reflexivity.
Qed.

(** ** C91 *)
(** ppm2pwg writes the raster for the pictures in its input to the output file and leaves all other
    files alone, if the output is not the input and can be written. *)
Theorem C91_ppm2pwg_partial : forall d stdin sw rs i o p pages input code data,
  reads sw rs -> Forall (fun e => takes (fst e) (snd e)) rs -> present rs "--help" = false -> plain_name i -> asks rs o p pages ->
  (p_format p = URF -> forall t, asked rs "--media-type" = Some t -> urf_media t) ->
  i <> "-"%string -> o <> "-"%string -> file d i = Some input -> place d i <> place d o ->
  ppm2pwg p pages input = Ok (code, data) -> fits d o data ->
  exists d', ppm2pwg_run d stdin (sw ++ [i; o]) = Ok (mkEnding code d' []) /\ saved d d' o data /\ place d' = place d /\ writable d' = writable d /\ room d' = room d.
Proof.
  intros d stdin sw rs i o p pages input code data Hr Ht Hh Hi Ha Hm Ni No Hf Hp E Hs.
  assert (G : forall d0, held d0 (place d0 i) = Some input -> ppm2pwg_cmd (open_in d0 stdin) (sw ++ [i; o]) = Ok (code, Some (o, data))).
  { intros d0 H0. assert (Ho : open_in d0 stdin i = Some input) by (unfold open_in; rewrite (not_stdio i Ni); exact H0).
    destruct (C77_options (open_in d0 stdin) sw rs i o p pages input Hr Ht Hh Hi Ha Ho) as [(F & (t & T1 & T2) & _)|[_ ->]].
    - destruct (T2 (Hm F t T1)).
    - rewrite E. reflexivity. }
  assert (Hc : create_out d o = create d o) by (unfold create_out; rewrite (not_stdio o No); reflexivity).
  rewrite (run_cmd d stdin _ code o data); [|apply G; exact Hf|apply G; rewrite Hc, create_other by exact Hp; exact Hf].
  rewrite Hc. unfold save_out. rewrite (not_stdio o No). destruct (create_save d o data Hs) as [F1 F2]. destruct (save_saved _ _ _ F1) as (S1 & S2 & S3 & S4).
  assert (P : place (create d o) = place d /\ writable (create d o) = writable d /\ room (create d o) = room d) by (unfold create; destruct (writable d (place d o)); repeat split). destruct P as (P1 & P2 & P3).
  eexists. split; [reflexivity|]. split; [apply F2; [exact S1|congruence]|]. repeat split; congruence.
Qed.

(** bsplit reads its input before it opens the output: the output may be the input. *)
Theorem C91_bsplit : forall d stdin args i o bts n l, well_formed bsplit_switches bsplit_pos args l ->
  last_assigned l 0 = None -> last_assigned l 1 = Some (AInt n) -> last_assigned l 2 = None -> last_assigned l 3 = Some (AStr i) -> last_assigned l 4 = Some (AStr o) ->
  i <> "-"%string -> o <> "-"%string -> file d i = Some bts -> 0 <= n <= Z.of_nat (length bts) -> Z.of_nat (length bts) < 2 ^ 31 ->
  let piece := firstn (Z.to_nat n) bts in fits d o piece -> exists d', bsplit_run d stdin args = Ok (mkEnding 0 d' []) /\ saved d d' o piece.
Proof.
  intros d stdin args i o bts n l Hw H0 H1 H2 H3 H4 Ni No Hf Hn Hl piece Hp.
  assert (Ho : open_in d stdin i = Some bts) by (unfold open_in; rewrite (not_stdio i Ni); exact Hf).
  unfold bsplit_run. rewrite (C55_program (open_in d stdin) args i o bts n l Hw H0 H1 H2 H3 H4 Ho). destruct (C55_pieces bts n Hn) as (head & tail & Eh & _ & Eb & El); [lia|lia|].
  rewrite Eh. cbn [bind]. assert (Hd : head = piece) by (unfold piece; rewrite <- Eb, <- El, Nat2Z.id, firstn_app, Nat.sub_diag, firstn_all, app_nil_r; reflexivity).
  rewrite Hd. unfold save_out. rewrite (not_stdio o No). destruct (save_saved d o piece Hp) as (S & _). eexists. split; [reflexivity|exact S].
Qed.

(** baselinify, whatever libjpeg makes of the input *)
Theorem C91_baselinify_partial : forall jpeg d stdin i o input data, i <> "-"%string -> o <> "-"%string -> file d i = Some input -> place d i <> place d o ->
  jpeg input = Some data -> fits d o data -> exists d', baselinify_run jpeg d stdin [i; o] = Ok (mkEnding 0 d' []) /\ saved d d' o data.
Proof.
  intros jpeg d stdin i o input data Ni No Hf Hp Hj Hs. unfold baselinify_run, open_in, create_out, save_out. rewrite (not_stdio i Ni), (not_stdio o No).
  unfold file in Hf. rewrite Hf, create_other, Hf, Hj by exact Hp. destruct (create_save d o data Hs) as [F1 F2]. destruct (save_saved _ _ _ F1) as (S1 & S2 & _).
  eexists. split; [reflexivity|]. apply F2; [exact S1|]. rewrite S2. unfold create. destruct (writable d (place d o)); reflexivity.
Qed.

(** pwg2ppm writes all its files *)
Lemma save_all files : forall d, Forall (fun f => fits d (fst f) (snd f)) files -> NoDup (map (fun f => place d (fst f)) files) ->
  let d' := fold_left (fun d f => save d (fst f) (snd f)) files d in
  (forall name data, In (name, data) files -> file d' name = Some data) /\ (forall n, ~ In (place d n) (map (fun f => place d (fst f)) files) -> file d' n = file d n).
Proof.
  induction files as [|[name data] files IH]; intros d Hf Hn; cbn [fold_left fst snd]; [split; [intros n x []|reflexivity]|].
  apply Forall_cons_iff in Hf. cbn [fst snd] in Hf. destruct Hf as [Hf1 Hf2]. cbn [map fst] in Hn. apply NoDup_cons_iff in Hn. destruct Hn as [Hn1 Hn2].
  destruct (save_saved d name data Hf1) as ([S1 S1'] & S2 & S3 & S4). destruct (IH (save d name data)) as [I1 I2].
  - revert Hf2. apply Forall_impl. intros f [K1 K2]. split; [rewrite S2, S3; exact K1|rewrite S2, S4; exact K2].
  - rewrite S2. exact Hn2.
  - rewrite S2 in I2. split.
    + intros n x [E|Hin]; [injection E as <- <-|apply I1; exact Hin]. rewrite I2 by exact Hn1. exact S1.
    + intros n Hn. cbn [map fst In] in Hn. rewrite I2 by tauto. apply S1'. intros E. apply Hn. left. symmetry. exact E.
Qed.
Lemma number_same l v : number l v -> forall m w, number m w -> l = m -> v = w.
Proof.
  induction 1 as [a Ha|l v a Hl IH Ha]; intros m w Hw E; destruct Hw as [b Hb|m u b Hm Hb].
  - assert (K : bZ (48 + a) = bZ (48 + b)) by exact (f_equal (hd (bZ 0)) E). apply (f_equal Zb) in K. rewrite !Zb_bZ_small in K by lia. lia.
  - destruct m as [|x m]; [destruct (number_digits _ _ Hm) as (_ & K & _); congruence|destruct m; discriminate].
  - destruct l as [|x l]; [destruct (number_digits _ _ Hl) as (_ & K & _); congruence|destruct l; discriminate].
  - apply app_inj_tail in E. destruct E as [-> E]. rewrite (IH m u Hm eq_refl). apply (f_equal Zb) in E. rewrite !Zb_bZ_small in E by lia. lia.
Qed.
Lemma number_unique l v : number l v -> forall w, number l w -> v = w.
Proof. intros H w Hw. exact (number_same l v H l w Hw eq_refl). Qed.
Lemma bytes_append s t : bytes_of_string (s ++ t)%string = bytes_of_string s ++ bytes_of_string t.
Proof. induction s as [|c s IH]; [reflexivity|]. cbn. f_equal. exact IH. Qed.
(** the names of the files of the pages are different *)
Lemma names_differ prefix qs files : same_pictures prefix qs files -> NoDup (map fst files).
Proof.
  intros [L H]. apply NoDup_nth_error. rewrite map_length. intros i j Hi E.
  assert (Q : forall k, (k < length files)%nat -> exists digits ext, nth_error (map fst files) k = Some (prefix ++ string_of_bytes digits ++ ext)%string /\ number digits (Z.of_nat k + 1) /\ String.length ext = 4%nat).
  { intros k Hk. destruct (nth_error qs k) as [q|] eqn:Eq; [|apply nth_error_None in Eq; lia]. destruct (H k q Eq) as (digits & ext & text & E1 & E2 & E3 & _).
    exists digits, ext. split; [rewrite nth_error_map, E1; reflexivity|]. split; [exact E2|]. rewrite E3. destruct (pic_kind q); reflexivity. }
  assert (Hj : (j < length files)%nat).
  { destruct (Q i Hi) as (? & ? & E1 & _). rewrite <- (map_length fst). apply nth_error_Some. rewrite <- E, E1. discriminate. }
  destruct (Q i Hi) as (d1 & e1 & A1 & A2 & A3). destruct (Q j Hj) as (d2 & e2 & B1 & B2 & B3). rewrite A1, B1 in E. injection E as E.
  apply (f_equal bytes_of_string) in E. rewrite !bytes_append, !bytes_string_id in E. apply app_inv_head in E.
  assert (Ed : d1 = d2).
  { assert (Le : length (bytes_of_string e1) = length (bytes_of_string e2)) by (rewrite !bytes_of_string_length; lia).
    pose proof (f_equal (@length byte) E) as El. rewrite !app_length in El. assert (Ld : length d1 = length d2) by lia. clear - E Ld. revert d2 E Ld. induction d1 as [|x d1 IH]; intros [|y d2] E Ld; try discriminate Ld; [reflexivity|].
    cbn [app] in E. injection E as -> E. cbn [length] in Ld. f_equal. apply IH; [exact E|lia]. }
  subst d2. pose proof (number_unique _ _ A2 _ B2). lia.
Qed.

(** ppm2pwg and then pwg2ppm: the pictures in the input are the files written in the end. *)
Theorem C91_round_trip_partial : forall d stdin sw rs i o p pages qs texts prefix,
  reads sw rs -> Forall (fun e => takes (fst e) (snd e)) rs -> present rs "--help" = false -> plain_name i -> asks rs o p pages ->
  (p_format p = URF -> forall t, asked rs "--media-type" = Some t -> urf_media t) -> faithful p ->
  i <> "-"%string -> o <> "-"%string -> place d i <> place d o ->
  file d i = Some (concat texts) -> qs <> [] -> Forall2 (pnm_text newline) qs texts -> Forall reproducible qs ->
  exists raster files, same_pictures prefix qs files
    /\ (fits d o raster -> Forall (fun f => fits d (fst f) (snd f)) files -> (forall f g, In f files -> In g files -> place d (fst f) = place d (fst g) -> fst f = fst g) ->
        exists d1 d2, ppm2pwg_run d stdin (sw ++ [i; o]) = Ok (mkEnding 0 d1 []) /\ pwg2ppm_run d1 [o; prefix] = Ok (mkEnding 0 d2 [])
          /\ (forall name text, In (name, text) files -> file d2 name = Some text)
          /\ forall n, place d n <> place d o -> ~ In (place d n) (map (fun f => place d (fst f)) files) -> file d2 n = file d n).
Proof.
  intros d stdin sw rs i o p pages qs texts prefix Hr Ht Hh Hi Ha Hm (B1 & B2 & B3 & Bx & Bf) Ni No Hp Hf Hne Htx Hq.
  assert (Hu : p_units p = Pixels) by (unfold asks in Ha; tauto).
  destruct (texts_ok p qs texts Htx Hq) as (A1 & A2 & A3 & A4).
  assert (HR : params_in_range p) by (split; [lia|split; [lia|exact B3]]).
  assert (X : exists raster, ppm2pwg p pages (concat texts) = Ok (0, raster) /\ pwg2ppm raster prefix = Ok (0, pic_files prefix 1 qs)).
  { destruct (match p_format p with URF => true | _ => false end) eqn:Ef.
    - assert (Eu : p_format p = URF) by (destruct (p_format p); (reflexivity || discriminate)). rewrite Eu in Bf. destruct Bf as [Bf1 Bf2].
      destruct (urf_pages_rt qs p 0 Hu HR (proj1 B1) Bf1 Bf2 Bx Eu A1) as (outs & Hw & Hlen & Hrd). exists (make_urf_file_hdr pages ++ concat outs). split.
      + rewrite (ppm2pwg_ok p pages qs texts outs) by assumption. unfold ppm2pwg_file_hdr. rewrite Eu. reflexivity.
      + unfold pwg2ppm, make_urf_file_hdr. rewrite <- !app_assoc.
        change (eat (bytes_of_string "RaS2") (bytes_of_string "UNIRAST" ++ [bZ 0] ++ be32 pages ++ concat outs)) with (@None (list byte)). cbv iota.
        change (eat (bytes_of_string "UNIRAST") (bytes_of_string "UNIRAST" ++ [bZ 0] ++ be32 pages ++ concat outs)) with (Some ([bZ 0] ++ be32 pages ++ concat outs)).
        cbv iota. cbn [app get_u8 bind]. change (Zb (bZ 0) =? 0) with true. cbv iota. unfold be32 at 1. cbn [app get_u32 bind]. rewrite (Hrd prefix) by lia. reflexivity.
    - assert (Eu : p_format p <> URF) by (destruct (p_format p); discriminate). assert (Bf' : fits_field (p_mediaType p) /\ fits_field (p_paperSizeName p)) by (destruct (p_format p); (exact Bf || congruence)). destruct Bf' as [F1 F2].
      destruct (pwg_pages_rt qs p 0 Hu HR (proj1 B1) (proj1 B2) F1 F2 Bx Eu A1) as (outs & Hw & Hlen & Hrd). exists (make_pwg_file_hdr ++ concat outs). split.
      + rewrite (ppm2pwg_ok p pages qs texts outs) by assumption. unfold ppm2pwg_file_hdr. destruct (p_format p); (reflexivity || congruence).
      + unfold pwg2ppm. change (eat (bytes_of_string "RaS2") (make_pwg_file_hdr ++ concat outs)) with (Some (concat outs)). cbv iota. rewrite (Hrd prefix) by lia. reflexivity. }
  destruct X as (raster & X1 & X2). exists raster, (pic_files prefix 1 qs). pose proof (pic_files_same prefix qs A3 A4) as Sp. split; [exact Sp|]. intros F1 F2 F3.
  destruct (C91_ppm2pwg_partial d stdin sw rs i o p pages (concat texts) 0 raster Hr Ht Hh Hi Ha Hm Ni No Hf Hp X1 F1) as (d1 & R1 & [S1 S1'] & P1 & P2 & P3).
  exists d1. eexists. split; [exact R1|]. unfold pwg2ppm_run. unfold file in S1. rewrite S1. rewrite X2. cbn [bind]. split; [reflexivity|].
  destruct (save_all (pic_files prefix 1 qs) d1) as [V1 V2].
  - revert F2. apply Forall_impl. intros f [K1 K2]. split; [rewrite P1, P2; exact K1|rewrite P1, P3; exact K2].
  - rewrite P1. pose proof (names_differ prefix qs _ Sp) as Nd. revert Nd F3. generalize (pic_files prefix 1 qs). clear. induction l as [|f l IH]; cbn [map]; intros Nd F3; constructor.
    + apply NoDup_cons_iff in Nd. destruct Nd as [Nd _]. intros Hin. apply Nd. apply in_map_iff in Hin. destruct Hin as (g & E & Hg). apply in_map_iff. exists g. split; [|exact Hg].
      apply F3; [right; exact Hg|left; reflexivity|exact E].
    + apply NoDup_cons_iff in Nd. apply IH; [exact (proj2 Nd)|]. intros f' g Hf' Hg. apply F3; right; assumption.
  - split; [exact V1|]. intros n Hn1 Hn2. rewrite V2 by (rewrite P1; exact Hn2). apply S1'. exact Hn1.
Qed.

(** Without these conditions all of this fails.  With the input as output, ppm2pwg and baselinify destroy it; when
    nothing can be written the exit code is 0 nevertheless. *)
Definition tiny : list byte := bytes_of_string "P5" ++ nl ++ bytes_of_string "1 1" ++ nl ++ bytes_of_string "255" ++ nl ++ [bZ 7].
Definition one_file (w : bool) (n : nat) : disk :=
  mkDisk (fun name => if String.eqb name "in" then 0%nat else if String.eqb name "./in" then 0%nat else 1%nat) (fun q => match q with O => Some tiny | _ => None end) (fun _ => w) (fun _ => n).
Theorem C91_refuted :
  (* the input is lost *)
  (exists d, file d "in" = Some tiny /\ writable d (place d "in") = true /\ exists d', ppm2pwg_run d [] ["in"; "./in"]%string = Ok (mkEnding 1 d' []) /\ file d' "in" = Some (bytes_of_string "RaS2"))
  /\ (exists d, forall jpeg, jpeg [] = None -> exists d', baselinify_run jpeg d [] ["in"; "in"]%string = Ok (mkEnding 1 d' []) /\ file d "in" = Some tiny /\ file d' "in" = Some [])
  (* nothing is written *)
  /\ (exists d, ppm2pwg_run d [] ["in"; "out"]%string = Ok (mkEnding 0 d []) /\ file d "in" = Some tiny /\ file d "out" = None)
  /\ (exists d, bsplit_run d [] ["--head"; "2"; "in"; "out"]%string = Ok (mkEnding 0 d []) /\ file d "in" = Some tiny /\ file d "out" = None)
  (* half of it is written *)
  /\ exists d d', bsplit_run d [] ["--head"; "2"; "in"; "out"]%string = Ok (mkEnding 0 d' []) /\ file d' "out" = Some (firstn 1 tiny).
Proof.
  split; [|split; [|split; [|split]]].
  - exists (one_file true 100). split; [reflexivity|]. split; [reflexivity|]. eexists. split; [vm_compute; reflexivity|reflexivity].
  - exists (one_file true 100). intros jpeg Hj. cbn [baselinify_run open_in String.eqb]. eexists. split; [|split; [reflexivity|]].
    + unfold baselinify_run. cbn [open_in one_file held place String.eqb Ascii.eqb Bool.eqb create_out create writable put Nat.eqb]. rewrite Hj. reflexivity.
    + reflexivity.
  - exists (one_file false 100). split; [vm_compute; reflexivity|]. split; reflexivity.
  - exists (one_file false 100). split; [vm_compute; reflexivity|]. split; reflexivity.
  - exists (one_file true 1). eexists. split; [vm_compute; reflexivity|reflexivity].
Qed.

(** ** Examples *)
Definition wide_disk : disk :=
  mkDisk (fun name => match index 0 name "in.ppm out.urf p1.pgm p2.ppm" with Some k => k | None => 99%nat end) (fun q => match q with O => Some (concat [text_a; text_b]) | _ => None end) (fun _ => true) (fun _ => 5000%nat).
Definition ex_words2 : list string := ["-r"; "150"; "-d"; "-mp"; "tray-2"]%string.
Example C91_example :
  (let! e1 := ppm2pwg_run wide_disk [] (ex_words2 ++ ["in.ppm"; "out.urf"]%string) in
   let! e2 := pwg2ppm_run (e_disk e1) ["out.urf"; "p"]%string in
   Ok (e_code e1, e_code e2, map (file (e_disk e2)) ["p1.pgm"; "p2.ppm"; "in.ppm"]%string))
  = Ok (0, 0, [ Some (bytes_of_string "P5" ++ nl ++ bytes_of_string "2 2" ++ nl ++ bytes_of_string "255" ++ nl ++ pic_data page_a);
                Some (bytes_of_string "P6" ++ nl ++ bytes_of_string "1 2" ++ nl ++ bytes_of_string "255" ++ nl ++ pic_data page_b);
                Some (concat [text_a; text_b]) ]).
Proof. vm_compute. reflexivity. Qed.
(** a file is cut to its first two bytes; a program that changes nothing copies it *)
Example C91_in_place : exists d', bsplit_run (one_file true 100) [] ["--head"; "2"; "in"; "./in"]%string = Ok (mkEnding 0 d' []) /\ saved (one_file true 100) d' "./in" (bytes_of_string "P5").
Proof.
  exists (save (one_file true 100) "./in" (bytes_of_string "P5")). split; [vm_compute; reflexivity|]. apply save_saved. split; [reflexivity|]. apply Nat.leb_le. reflexivity.
Qed.
Example C91_copy : exists d', baselinify_run Some (one_file true 100) [] ["in"; "out"]%string = Ok (mkEnding 0 d' []) /\ file d' "out" = Some tiny /\ file d' "in" = Some tiny.
Proof. eexists. split; [vm_compute; reflexivity|]. split; reflexivity. Qed.

Print Assumptions C91_ppm2pwg_partial.
Print Assumptions C91_bsplit.
Print Assumptions C91_baselinify_partial.
Print Assumptions C91_round_trip_partial.
Print Assumptions C91_refuted.
