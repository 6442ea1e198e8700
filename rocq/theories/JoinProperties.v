(** C120: documents put together (PpmModel.v).  Both programs read and write sequences of
    pages; what comes of a page does not depend on the pages around it. *)
From Verif Require Import Base BaseLemmas ListLemmas FloatModel StringModel ParamsModel RasterModel HeaderModel HeaderSpec RasterProperties PpmModel PpmSpec PpmProofs PpmProperties.
From Coq Require Import Lia ZifyBool ZifyNat.
Local Open Scope Z_scope.

(** ** What the property talks about *)
(** the same files with numbers that are [k] more *)
Definition renumbered (prefix : string) (k : Z) (l l' : list (string * list byte)) : Prop :=
  length l' = length l /\ forall i f, nth_error l i = Some f -> exists ext, fst f = (prefix ++ dec_string (Z.of_nat i + 1) ++ ext)%string /\
    nth_error l' i = Some ((prefix ++ dec_string (Z.of_nat i + 1 + k) ++ ext)%string, snd f).

(** ** Readers: what they take does not depend on what follows *)
Definition reads {A} (k : nat) (f : list byte -> outcome (A * list byte)) : Prop :=
  forall s v r, f s = Ok (v, r) -> exists u, s = u ++ r /\ (k <= length u)%nat /\ forall t, f (u ++ t) = Ok (v, t).
Lemma reads_bind {A B} k (f : list byte -> outcome (A * list byte)) (g : A -> list byte -> outcome (B * list byte)) : reads k f -> (forall v, reads 0 (g v)) ->
  reads k (fun s => let! (v, s) := f s in g v s).
Proof.
  intros F G s v r H. destruct (f s) as [[x s1]| | | |] eqn:E; try discriminate H. cbn [bind] in H. destruct (F _ _ _ E) as (u & -> & L & X). destruct (G x _ _ _ H) as (u' & -> & _ & Y).
  exists (u ++ u'). split; [apply app_assoc|]. split; [rewrite app_length; lia|]. intros t. rewrite <- app_assoc, X. apply Y.
Qed.
Lemma reads_ret {A} (v : A) : reads 0 (fun s => Ok (v, s)).
Proof. intros s x r H. injection H as <- <-. exists []. split; [reflexivity|]. split; [lia|]. reflexivity. Qed.
Lemma reads_u8 : reads 1 get_u8.
Proof. intros s v r H. destruct s as [|a s]; [discriminate|]. injection H as <- <-. exists [a]. split; [reflexivity|]. split; [cbn; lia|]. reflexivity. Qed.
Lemma reads_u32 : reads 4 get_u32.
Proof. intros s v r H. destruct s as [|a [|b [|c [|d s]]]]; try discriminate. injection H as <- <-. exists [a; b; c; d]. split; [reflexivity|]. split; [cbn; lia|]. reflexivity. Qed.
Lemma reads_bytes n : reads (Z.to_nat n) (get_bytes n).
Proof.
  intros s v r H. unfold get_bytes in H. destruct (n <=? Z.of_nat (length s)) eqn:E; [|discriminate]. injection H as <- <-. exists (firstn (Z.to_nat n) s). split; [symmetry; apply firstn_skipn|].
  assert (L : length (firstn (Z.to_nat n) s) = Z.to_nat n) by (rewrite firstn_length; lia). split; [lia|]. intros t. unfold get_bytes. rewrite app_length, L. replace (n <=? Z.of_nat (Z.to_nat n + length t)) with true by lia.
  rewrite firstn_app, skipn_app, L, Nat.sub_diag. cbn [firstn skipn]. rewrite app_nil_r, firstn_firstn, Nat.min_id, skipn_all2 by (rewrite L; lia). reflexivity.
Qed.
Lemma reads_str n : reads (Z.to_nat n) (get_str_field n).
Proof. apply (reads_bind _ (get_bytes n) (fun b s => Ok (string_of_bytes (until_nul b), s)) (reads_bytes n)). intros v. apply reads_ret. Qed.
Lemma reads_s32 : reads 4 get_s32.
Proof. apply (reads_bind 4 get_u32 (fun z s => Ok (to_s32 z, s)) reads_u32). intros v. apply reads_ret. Qed.
Lemma reads_less {A} k k' (f : list byte -> outcome (A * list byte)) : (k' <= k)%nat -> reads k f -> reads k' f.
Proof. intros L F s v r H. destruct (F _ _ _ H) as (u & E & M & X). exists u. split; [exact E|]. split; [lia|exact X]. Qed.
Ltac reader := first [exact reads_u8|exact reads_u32|exact reads_s32|apply reads_str|apply reads_bytes].
Ltac reads0 := repeat (apply reads_bind; [eapply reads_less; [apply Nat.le_0_l|reader]|intros ?]); apply reads_ret.
Lemma reads_pwg_hdr : reads 1 decode_pwg_hdr.
Proof. unfold decode_pwg_hdr. apply reads_bind; [eapply reads_less; [|apply reads_str]; cbn; lia|intros ?]. reads0. Qed.
Lemma reads_urf_hdr : reads 1 decode_urf_hdr.
Proof. unfold decode_urf_hdr. apply reads_bind; [exact reads_u8|intros ?]. reads0. Qed.
Lemma line_reads bw colors urf f : forall s line v r, decode_line f s line bw colors urf = Ok (v, r) ->
  exists u, s = u ++ r /\ forall t f', (length u < f')%nat -> decode_line f' (u ++ t) line bw colors urf = Ok (v, t).
Proof.
  induction f as [|f IH]; intros s line v r H; [discriminate|]. cbn [decode_line] in H. destruct (Z.of_nat (length line) =? bw) eqn:E.
  { injection H as <- <-. exists []. split; [reflexivity|]. intros t f' L. destruct f' as [|f']; [cbn in L; lia|]. cbn [decode_line app]. rewrite E. reflexivity. }
  destruct s as [|c s]; [discriminate|]. cbn [get_u8 bind] in H. destruct (urf && (Zb c =? 128)) eqn:E1; [|destruct (Zb c <? 128) eqn:E2].
  - destruct (fill_white line bw (white_pixel colors)) as [line'| | | |] eqn:EF; try discriminate H. cbn [bind] in H. destruct (IH _ _ _ _ H) as (u & -> & X). exists (c :: u). split; [reflexivity|].
    intros t f' L. destruct f' as [|f']; [cbn in L; lia|]. cbn [decode_line app get_u8 bind]. rewrite E, E1, EF. cbn [bind]. apply X. cbn in L. lia.
  - destruct (get_bytes colors s) as [[tmp s1]| | | |] eqn:EB; try discriminate H. cbn [bind] in H. destruct (reads_bytes _ _ _ _ EB) as (u1 & -> & _ & B). destruct (IH _ _ _ _ H) as (u & -> & X). exists (c :: u1 ++ u). split; [cbn; rewrite <- app_assoc; reflexivity|].
    intros t f' L. destruct f' as [|f']; [cbn in L; lia|]. cbn [decode_line app get_u8 bind]. rewrite E, E1, E2, <- app_assoc, B. cbn [bind]. apply X. cbn in L. rewrite app_length in L. lia.
  - destruct (get_bytes (- (Zb c - 257) * colors) s) as [[tmp s1]| | | |] eqn:EB; try discriminate H. cbn [bind] in H. destruct (reads_bytes _ _ _ _ EB) as (u1 & -> & _ & B). destruct (IH _ _ _ _ H) as (u & -> & X). exists (c :: u1 ++ u). split; [cbn; rewrite <- app_assoc; reflexivity|].
    intros t f' L. destruct f' as [|f']; [cbn in L; lia|]. cbn [decode_line app get_u8 bind]. rewrite E, E1, E2, <- app_assoc, B. cbn [bind]. apply X. cbn in L. rewrite app_length in L. lia.
Qed.
Lemma lines_reads bw colors urf f : forall s height v r, decode_lines f s bw height colors urf = Ok (v, r) ->
  exists u, s = u ++ r /\ forall t f', (length u < f')%nat -> decode_lines f' (u ++ t) bw height colors urf = Ok (v, t).
Proof.
  induction f as [|f IH]; intros s height v r H; [discriminate|]. cbn [decode_lines] in H. destruct (height =? 0) eqn:E.
  { injection H as <- <-. exists []. split; [reflexivity|]. intros t f' L. destruct f' as [|f']; [cbn in L; lia|]. cbn [decode_lines app]. rewrite E. reflexivity. }
  destruct s as [|c s]; [discriminate|]. cbn [get_u8 bind] in H. destruct (decode_line _ s [] bw colors urf) as [[line s1]| | | |] eqn:E1; try discriminate H. cbn [bind] in H. cbv zeta in H.
  destruct (decode_lines f s1 _ _ _ _) as [[rest s2]| | | |] eqn:E2; try discriminate H. cbn [bind] in H. injection H as <- <-. destruct (line_reads _ _ _ _ _ _ _ _ E1) as (u1 & -> & X1). destruct (IH _ _ _ _ E2) as (u2 & -> & X2).
  exists (c :: u1 ++ u2). split; [cbn; rewrite <- app_assoc; reflexivity|]. intros t f' L. destruct f' as [|f']; [cbn in L; lia|]. cbn [decode_lines app get_u8 bind]. rewrite E, <- app_assoc, X1 by (rewrite app_length; lia). cbn [bind]. cbv zeta.
  cbn in L. rewrite app_length in L. rewrite X2 by lia. reflexivity.
Qed.
Lemma raster_reads bw height colors urf : reads 0 (fun s => raster_to_bmp s bw height colors urf).
Proof. intros s v r H. destruct (lines_reads _ _ _ _ _ _ _ _ H) as (u & -> & X). exists u. split; [reflexivity|]. split; [lia|]. intros t. apply X. rewrite app_length. lia. Qed.

(** ** pages *)
(** the page both loops of pwg2ppm read *)
Definition pwg_page (prefix : string) (page : Z) (s : list byte) : outcome (string * list byte * list byte) :=
  let! (h, file) := decode_pwg_hdr s in let! (bmp, file) := raster_to_bmp file (h_BytesPerLine h) (h_Height h) (h_NumColors h) false in
  Ok (write_ppm bmp (h_Width h) (h_Height h) (h_NumColors h) (h_BitsPerColor h) (h_ColorSpace h =? 3) prefix page, file).
Definition urf_page (prefix : string) (page : Z) (s : list byte) : outcome (string * list byte * list byte) :=
  let! (h, file) := decode_urf_hdr s in let! (bmp, file) := raster_to_bmp file ((u_Width h * (u_BitsPerPixel h / 8)) mod two32) (u_Height h) (u_BitsPerPixel h / 8) true in
  Ok (write_ppm bmp (u_Width h) (u_Height h) (u_BitsPerPixel h / 8) 8 false prefix page, file).
Fixpoint loop (one : Z -> list byte -> outcome (string * list byte * list byte)) (fuel : nat) (s : list byte) (page : Z) : outcome (list (string * list byte)) :=
  match fuel with O => NoFuel | S f => match s with [] => Ok [] | _ => let! (o, s) := one (page + 1) s in let! rest := loop one f s (page + 1) in Ok (o :: rest) end end.
Lemma pwg_loop prefix f : forall s page, pwg_pages f s page prefix = loop (pwg_page prefix) f s page.
Proof.
  induction f as [|f IH]; intros s page; [reflexivity|]. cbn [pwg_pages loop]. destruct s as [|c s]; [reflexivity|]. cbv zeta. unfold pwg_page. destruct (decode_pwg_hdr (c :: s)) as [[h s1]| | | |]; try reflexivity. cbn [bind].
  destruct (raster_to_bmp _ _ _ _ _) as [[bmp s2]| | | |]; try reflexivity. cbn [bind]. rewrite IH. reflexivity.
Qed.
Lemma urf_loop prefix f : forall s page, urf_pages f s page prefix = loop (urf_page prefix) f s page.
Proof.
  induction f as [|f IH]; intros s page; [reflexivity|]. cbn [urf_pages loop]. destruct s as [|c s]; [reflexivity|]. cbv zeta. unfold urf_page. destruct (decode_urf_hdr (c :: s)) as [[h s1]| | | |]; try reflexivity. cbn [bind].
  destruct (raster_to_bmp _ _ _ _ _) as [[bmp s2]| | | |]; try reflexivity. cbn [bind]. rewrite IH. reflexivity.
Qed.
Lemma reads_pwg_page prefix page : reads 1 (pwg_page prefix page).
Proof. unfold pwg_page. apply reads_bind; [exact reads_pwg_hdr|]. intros h. apply reads_bind; [apply raster_reads|]. intros bmp. apply reads_ret. Qed.
Lemma reads_urf_page prefix page : reads 1 (urf_page prefix page).
Proof. unfold urf_page. apply reads_bind; [exact reads_urf_hdr|]. intros h. apply reads_bind; [apply raster_reads|]. intros bmp. apply reads_ret. Qed.
(** the number of the page is in the name of the file only *)
Definition numbered (prefix : string) (one : Z -> list byte -> outcome (string * list byte * list byte)) : Prop :=
  forall s page, match one page s with
  | Ok (o, r) => exists ext, fst o = (prefix ++ dec_string page ++ ext)%string /\ forall page', one page' s = Ok ((prefix ++ dec_string page' ++ ext)%string, snd o, r)
  | Throw e => forall page', one page' s = Throw e | UB => forall page', one page' s = UB | Hang => forall page', one page' s = Hang | NoFuel => forall page', one page' s = NoFuel end.
Lemma pwg_numbered prefix : numbered prefix (pwg_page prefix).
Proof.
  intros s page. unfold pwg_page. destruct (decode_pwg_hdr s) as [[h s1]| | | |]; cbn [bind]; try (intros ?; reflexivity). destruct (raster_to_bmp _ _ _ _ _) as [[bmp s2]| | | |]; cbn [bind]; try (intros ?; reflexivity). eexists. split; [reflexivity|]. reflexivity.
Qed.
Lemma urf_numbered prefix : numbered prefix (urf_page prefix).
Proof.
  intros s page. unfold urf_page. destruct (decode_urf_hdr s) as [[h s1]| | | |]; cbn [bind]; try (intros ?; reflexivity). destruct (raster_to_bmp _ _ _ _ _) as [[bmp s2]| | | |]; cbn [bind]; try (intros ?; reflexivity). eexists. split; [reflexivity|]. reflexivity.
Qed.
Section Loop.
Variable prefix : string.
Variable one : Z -> list byte -> outcome (string * list byte * list byte).
Hypothesis one_reads : forall page, reads 1 (one page).
Hypothesis one_numbered : numbered prefix one.
Lemma loop_fuel f : forall f' s page, (length s < f)%nat -> (length s < f')%nat -> loop one f s page = loop one f' s page.
Proof.
  induction f as [|f IH]; intros f' s page L L'; [lia|]. destruct f' as [|f']; [lia|]. cbn [loop]. destruct s as [|c s]; [reflexivity|]. destruct (one (page + 1) (c :: s)) as [[o r]| | | |] eqn:E; try reflexivity. cbn [bind].
  destruct (one_reads _ _ _ _ E) as (u & EU & K & _). assert (length r < length (c :: s))%nat by (rewrite EU, app_length; lia). rewrite (IH f') by lia. reflexivity.
Qed.
Lemma loop_join f : forall s page l, loop one f s page = Ok l -> forall t f', (length (s ++ t) < f')%nat ->
  loop one f' (s ++ t) page = let! l' := loop one (S (length t)) t (page + Z.of_nat (length l)) in Ok (l ++ l').
Proof.
  induction f as [|f IH]; intros s page l H t f' L; [discriminate|]. cbn [loop] in H. destruct s as [|c s].
  - injection H as <-. cbn [app length] in *. rewrite Z.add_0_r, (loop_fuel f' (S (length t))) by lia. destruct (loop one _ t page); reflexivity.
  - destruct (one (page + 1) (c :: s)) as [[o r]| | | |] eqn:E; try discriminate H. cbn [bind] in H. destruct (loop one f r (page + 1)) as [l1| | | |] eqn:E1; try discriminate H. cbn [bind] in H. injection H as <-.
    destruct (one_reads _ _ _ _ E) as (u & EU & K & X). rewrite EU in *. rewrite <- app_assoc in *. remember (S (length t)) as g eqn:G. destruct f' as [|f']; [lia|]. cbn [loop].
    destruct (u ++ r ++ t) as [|c' s'] eqn:EC; [destruct u; [cbn in K; lia|discriminate EC]|]. rewrite <- EC, X. cbn [bind].
    assert (L' : (length (r ++ t) < f')%nat) by (rewrite <- EC in L; rewrite app_length in L; lia). rewrite (IH _ _ _ E1 t f' L'), <- G. replace (page + 1 + Z.of_nat (length l1)) with (page + Z.of_nat (length (o :: l1))) by (cbn [length]; lia).
    destruct (loop one g t _); reflexivity.
Qed.
Lemma loop_shift f : forall s page, match loop one f s page with
  | Ok l => forall page', exists l', loop one f s page' = Ok l' /\ length l' = length l /\ forall i x, nth_error l i = Some x -> exists ext, fst x = (prefix ++ dec_string (page + Z.of_nat i + 1) ++ ext)%string /\
      nth_error l' i = Some ((prefix ++ dec_string (page' + Z.of_nat i + 1) ++ ext)%string, snd x)
  | Throw e => forall page', loop one f s page' = Throw e | UB => forall page', loop one f s page' = UB | Hang => forall page', loop one f s page' = Hang | NoFuel => forall page', loop one f s page' = NoFuel end.
Proof.
  induction f as [|f IH]; intros s page; [cbn; intros ?; reflexivity|]. cbn [loop]. destruct s as [|c s]; [intros page'; exists []; split; [reflexivity|]; split; [reflexivity|]; intros [|i] x H; discriminate H|].
  pose proof (one_numbered (c :: s) (page + 1)) as N. destruct (one (page + 1) (c :: s)) as [[o r]| | | |] eqn:E; cbn [bind]; try (intros page'; rewrite N; reflexivity).
  destruct N as (ext & E1 & N). specialize (IH r (page + 1)). destruct (loop one f r (page + 1)) as [l| | | |]; cbn [bind]; try (intros page'; rewrite N; cbn [bind]; rewrite IH; reflexivity).
  intros page'. rewrite N. cbn [bind]. destruct (IH (page' + 1)) as (l' & EL & LL & X). rewrite EL. cbn [bind]. eexists. split; [reflexivity|]. split; [cbn [length]; rewrite LL; reflexivity|]. intros [|i] x H; cbn [nth_error] in *.
  - injection H as <-. exists ext. rewrite !Z.add_0_r. split; [exact E1|reflexivity].
  - destruct (X i x H) as (ext' & A & B). exists ext'. replace (page + Z.of_nat (S i) + 1) with (page + 1 + Z.of_nat i + 1) by lia. replace (page' + Z.of_nat (S i) + 1) with (page' + 1 + Z.of_nat i + 1) by lia. split; assumption.
Qed.
Lemma loop_both a b la : loop one (S (length a)) a 0 = Ok la -> match loop one (S (length b)) b 0 with
  | Ok lb => exists l, loop one (S (length (a ++ b))) (a ++ b) 0 = Ok (la ++ l) /\ renumbered prefix (Z.of_nat (length la)) lb l
  | Throw e => loop one (S (length (a ++ b))) (a ++ b) 0 = Throw e | UB => loop one (S (length (a ++ b))) (a ++ b) 0 = UB | Hang => loop one (S (length (a ++ b))) (a ++ b) 0 = Hang | NoFuel => True end.
Proof.
  intros A. rewrite (loop_join _ _ _ _ A b) by lia. pose proof (loop_shift (S (length b)) b 0) as S. destruct (loop one (Datatypes.S (length b)) b 0) as [lb| | | |]; try (rewrite S; reflexivity); [|exact I].
  destruct (S (0 + Z.of_nat (length la))) as (l & -> & L & X). cbn [bind]. exists l. split; [reflexivity|]. split; [exact L|]. intros i x H. destruct (X i x H) as (ext & Y1 & Y2). exists ext. split; [rewrite Y1; do 3 f_equal; lia|]. rewrite Y2. do 4 f_equal. f_equal. lia.
Qed.
End Loop.

(** ** C120 *)
Definition pwg_magic : list byte := bytes_of_string "RaS2".
Definition urf_start (n : list byte) : list byte := bytes_of_string "UNIRAST" ++ [bZ 0] ++ n.
(** pwg2ppm on the pages of two PWG files: first the files of the first, then those of the
    second with the next numbers.  Any bytes that the program accepts are pages. *)
Theorem C120_pwg a b prefix la lb : pwg2ppm (pwg_magic ++ a) prefix = Ok (0, la) -> pwg2ppm (pwg_magic ++ b) prefix = Ok (0, lb) ->
  exists l, pwg2ppm (pwg_magic ++ a ++ b) prefix = Ok (0, la ++ l) /\ renumbered prefix (Z.of_nat (length la)) lb l.
Proof.
  unfold pwg2ppm. change (eat (bytes_of_string "RaS2") (pwg_magic ++ a)) with (Some a). change (eat (bytes_of_string "RaS2") (pwg_magic ++ b)) with (Some b). change (eat (bytes_of_string "RaS2") (pwg_magic ++ a ++ b)) with (Some (a ++ b)). cbn iota beta. rewrite !pwg_loop.
  intros A B. destruct (loop _ (S (length a)) a 0) as [x| | | |] eqn:EA; try discriminate A. injection A as <-. pose proof (loop_both prefix _ (reads_pwg_page prefix) (pwg_numbered prefix) a b x EA) as J.
  destruct (loop _ (S (length b)) b 0) as [y| | | |] eqn:EB; try discriminate B. injection B as <-. destruct J as (l & -> & R). exists l. split; [reflexivity|exact R].
Qed.
(** and of two URF files, whatever their page counts *)
Theorem C120_urf n n' m a b prefix la lb : length n = 4%nat -> length n' = 4%nat -> length m = 4%nat ->
  pwg2ppm (urf_start n ++ a) prefix = Ok (0, la) -> pwg2ppm (urf_start n' ++ b) prefix = Ok (0, lb) ->
  exists l, pwg2ppm (urf_start m ++ a ++ b) prefix = Ok (0, la ++ l) /\ renumbered prefix (Z.of_nat (length la)) lb l.
Proof.
  intros L1 L2 L3. assert (G : forall n r, length n = 4%nat -> pwg2ppm (urf_start n ++ r) prefix = let! l := loop (urf_page prefix) (S (length r)) r 0 in Ok (0, l)).
  { intros k r L. destruct k as [|k1 [|k2 [|k3 [|k4 [|? ?]]]]]; try discriminate L. rewrite <- urf_loop. reflexivity. }
  rewrite !G by assumption.
  intros A B. destruct (loop _ (S (length a)) a 0) as [x| | | |] eqn:EA; try discriminate A. injection A as <-. pose proof (loop_both prefix _ (reads_urf_page prefix) (urf_numbered prefix) a b x EA) as J.
  destruct (loop _ (S (length b)) b 0) as [y| | | |] eqn:EB; try discriminate B. injection B as <-. destruct J as (l & -> & R). exists l. split; [reflexivity|exact R].
Qed.
(** A file that ends in an exception does so after the pages of another one too. *)
Theorem C120_bad a b prefix la e : pwg2ppm (pwg_magic ++ a) prefix = Ok (0, la) -> pwg2ppm (pwg_magic ++ b) prefix = Throw e -> pwg2ppm (pwg_magic ++ a ++ b) prefix = Throw e.
Proof.
  unfold pwg2ppm. change (eat (bytes_of_string "RaS2") (pwg_magic ++ a)) with (Some a). change (eat (bytes_of_string "RaS2") (pwg_magic ++ b)) with (Some b). change (eat (bytes_of_string "RaS2") (pwg_magic ++ a ++ b)) with (Some (a ++ b)). cbn iota beta. rewrite !pwg_loop.
  intros A B. destruct (loop _ (S (length a)) a 0) as [x| | | |] eqn:EA; try discriminate A. pose proof (loop_both prefix _ (reads_pwg_page prefix) (pwg_numbered prefix) a b x EA) as J.
  destruct (loop _ (S (length b)) b 0) as [y|e'| | |] eqn:EB; try discriminate B. injection B as <-. rewrite J. reflexivity.
Qed.

(** *** ppm2pwg *)
Lemma pages_more_fuel f : forall p page s, ppm_pages f p page s <> NoFuel -> forall f', (f <= f')%nat -> ppm_pages f' p page s = ppm_pages f p page s.
Proof.
  induction f as [|f IH]; intros p page s H f' L; [destruct H; reflexivity|]. destruct f' as [|f']; [lia|]. cbn [ppm_pages] in *. destruct (i_eof s); [reflexivity|]. destruct (ppm_page p (page + 1) s) as [[[[out p'] s']|]| | | |]; try reflexivity. cbn [bind] in *. destruct (peek s') as [x s2].
  rewrite IH; [reflexivity| |lia]. intros K. rewrite K in H. destruct H. reflexivity.
Qed.
Lemma bmp_parity bmp p page k : bmp_to_pwg bmp (page + 2 * k) p = bmp_to_pwg bmp page p.
Proof. unfold bmp_to_pwg, is_backside. replace ((page + 2 * k) mod 2) with (page mod 2); [reflexivity|]. rewrite Z.mul_comm, Z.mod_add by lia. reflexivity. Qed.
Lemma page_parity p page k s : ppm_page p (page + 2 * k) s = ppm_page p page s.
Proof.
  unfold ppm_page. destruct (read_word s) as [w1 s1]. destruct (ignore_comments s1) as [s2| | | |]; cbn [bind]; [|reflexivity..]. destruct (read_word s2) as [w2 s3]. destruct (read_word s3) as [w3 s4].
  destruct (if String.eqb w1 "P6" || String.eqb w1 "P5" then read_word s4 else (""%string, s4)) as [r s5]. destruct (ppm_mode _ _ _ _) as [[m|]| | | |]; cbn [bind]; [|reflexivity..]. destruct (ignore_comments s5) as [s6| | | |]; cbn [bind]; [|reflexivity..].
  destruct (stoul w2); cbn [bind]; [|reflexivity..]. destruct (stoul w3); cbn [bind]; [|reflexivity..]. destruct (getPaperSizeWInBytes _); cbn [bind]; [|reflexivity..]. destruct (f_to_unsigned _ _); cbn [bind]; [|reflexivity..]. destruct (read_block _ _). rewrite bmp_parity. reflexivity.
Qed.
Lemma pages_parity f k : forall p page s, ppm_pages f p (page + 2 * k) s = ppm_pages f p page s.
Proof.
  induction f as [|f IH]; intros p page s; [reflexivity|]. cbn [ppm_pages]. destruct (i_eof s); [reflexivity|]. replace (page + 2 * k + 1) with (page + 1 + 2 * k) by lia. rewrite page_parity. destruct (ppm_page p (page + 1) s) as [[[[out p'] s']|]| | | |]; try reflexivity. cbn [bind]. destruct (peek s'). rewrite IH. reflexivity.
Qed.
(** the parameters that a page leaves behind are replaced by the next page *)
Lemma page_again p q page s : ppm_page (page_params p q) page s = ppm_page p page s.
Proof. reflexivity. Qed.
Lemma pages_again p q f page s : ppm_pages f (page_params p q) page s = ppm_pages f p page s.
Proof. destruct f as [|f]; [reflexivity|]. cbn [ppm_pages]. rewrite page_again. reflexivity. Qed.
Lemma pages_join qs texts : Forall2 (pnm_text newline) qs texts -> forall p outs page b f, p_units p = Pixels -> Forall (readable p) qs -> pages_written p (page + 1) qs outs -> b <> [] ->
  ppm_pages (length qs + f) p page (good (concat texts ++ b)) = let! (code, rest) := ppm_pages f p (page + Z.of_nat (length qs)) (good b) in Ok (code, concat outs ++ rest).
Proof.
  induction 1 as [|q text qs texts Ht Hts IH]; intros p outs page b f Hu Hr Hw Hb.
  - destruct outs; [|contradiction]. cbn [length concat app plus]. rewrite Z.add_0_r. destruct (ppm_pages f p page (good b)) as [[c r]| | | |]; reflexivity.
  - destruct outs as [|o outs]; [contradiction|]. destruct Hw as [Ho Hw]. inversion Hr as [|? ? Hq Hqs]; subst. cbn [length plus ppm_pages]. change (i_eof (good (concat (text :: texts) ++ b))) with false. cbn iota. cbn [concat]. rewrite <- app_assoc.
    rewrite (ppm_page_ok p (page + 1) q) by assumption. rewrite Ho. cbn [bind].
    assert (Hp : peek (good (concat texts ++ b)) = (hd_error (concat texts ++ b), good (concat texts ++ b))).
    { destruct (concat texts ++ b) eqn:E; [|reflexivity]. apply app_eq_nil in E. destruct E. congruence. }
    rewrite Hp, pages_again, (IH p outs (page + 1) b f Hu Hqs Hw Hb). replace (page + 1 + Z.of_nat (length qs)) with (page + Z.of_nat (S (length qs))) by lia.
    destruct (ppm_pages f p _ (good b)) as [[c r]| | | |]; try reflexivity. cbn [bind]. rewrite <- app_assoc. reflexivity.
Qed.
Lemma pages_inv qs texts : Forall2 (pnm_text newline) qs texts -> forall p page f code O, p_units p = Pixels -> Forall (readable p) qs -> qs <> [] -> ppm_pages f p page (good (concat texts)) = Ok (code, O) ->
  exists outs, pages_written p (page + 1) qs outs /\ O = concat outs.
Proof.
  induction 1 as [|q text qs texts Ht Hts IH]; intros p page f code O Hu Hr Hne H; [congruence|]. destruct f as [|f]; [discriminate|]. cbn [ppm_pages] in H. change (i_eof (good (concat (text :: texts)))) with false in H. cbn iota in H. cbn [concat] in H. inversion Hr as [|? ? Hq Hqs]; subst.
  rewrite (ppm_page_ok p (page + 1) q) in H by assumption. destruct (bmp_to_pwg (pic_data q) (page + 1) (page_params p q)) as [o| | | |] eqn:Eo; try discriminate H. cbn [bind] in H.
  destruct qs as [|q' qs].
  - inversion Hts; subst. cbn [concat peek good i_good i_rest i_eof i_fail orb negb] in H. destruct f as [|f]; [discriminate|]. cbn in H. injection H as <- <-. exists [o]. split; [split; [exact Eo|exact I]|reflexivity].
  - assert (Hn : concat texts <> []). { inversion Hts as [|? ? ? ? H1 H2]; subst. pose proof (text_nonempty _ _ H1). cbn. destruct y; [congruence|discriminate]. }
    assert (Hp : peek (good (concat texts)) = (hd_error (concat texts), good (concat texts))) by (destruct (concat texts); [congruence|reflexivity]).
    rewrite Hp, pages_again in H. destruct (ppm_pages f p (page + 1) (good (concat texts))) as [[c O']| | | |] eqn:E; try discriminate H. cbn [bind] in H. injection H as <- <-.
    destruct (IH p (page + 1) f c O' Hu Hqs ltac:(discriminate) E) as (outs & W & ->). exists (o :: outs). split; [split; [exact Eo|exact W]|reflexivity].
Qed.
(** Missing: pictures that are not read as they are (C13_hash_refuted, C13_separator_refuted).
    After an even number of pictures any further input is converted as it would be alone:
    same exit code, same pages. *)
Theorem C120_ppm2pwg_partial p pages qs texts outs b code out : p_units p = Pixels -> Forall2 (pnm_text newline) qs texts ->
  Forall (fun q => pic_w q <= max_size /\ pic_h q <= max_size /\ (exists c r, pic_data q = c :: r /\ c <> bZ 35) /\ (pic_kind q = PBM -> pic_w q mod 8 = 0 /\ p_format p <> URF)) qs ->
  Nat.even (length qs) = true -> b <> [] -> qs <> [] ->
  ppm2pwg p pages (concat texts) = Ok (0, ppm2pwg_file_hdr p pages ++ outs) -> ppm2pwg p pages b = Ok (code, ppm2pwg_file_hdr p pages ++ out) ->
  ppm2pwg p pages (concat texts ++ b) = Ok (code, ppm2pwg_file_hdr p pages ++ outs ++ out).
Proof.
  intros Hu Ht Hq Ev Hb Hne A B.
  assert (Hr : Forall (readable p) qs).
  { eapply Forall_impl; [|exact Hq]. intros q (H1 & H2 & (c & r & Hd & Hc) & Hk). split; [split; assumption|]. split; [rewrite Hd; exact Hc|assumption]. }
  unfold ppm2pwg in *. change (mkIn (concat texts) false false) with (good (concat texts)) in A. change (mkIn b false false) with (good b) in B. change (mkIn (concat texts ++ b) false false) with (good (concat texts ++ b)).
  destruct (ppm_pages _ p 0 (good (concat texts))) as [[c1 O1]| | | |] eqn:E1; try discriminate A. cbn [bind] in A. injection A as A0 A. subst c1. apply app_inv_head in A. subst O1.
  destruct (ppm_pages _ p 0 (good b)) as [[c2 O2]| | | |] eqn:E2; try discriminate B. cbn [bind] in B. injection B as <- B. apply app_inv_head in B. subst O2.
  destruct (pages_inv qs texts Ht p 0 _ _ _ Hu Hr Hne E1) as (os & W & ->).
  assert (L : (length qs <= length (concat texts))%nat). { clear - Ht. induction Ht as [|q t qs texts Hq _ IH]; [cbn; lia|]. pose proof (text_nonempty _ _ Hq). cbn [length concat]. rewrite app_length. destruct t; [congruence|]. cbn [length]. lia. }
  rewrite app_length. replace (S (length (concat texts) + length b)) with (length qs + (S (length b) + (length (concat texts) - length qs)))%nat by lia. rewrite (pages_join qs texts Ht p os 0 b) by assumption.
  apply Nat.even_spec in Ev. destruct Ev as [k Ev]. replace (0 + Z.of_nat (length qs)) with (0 + 2 * Z.of_nat k) by lia. rewrite pages_parity, (pages_more_fuel (S (length b))) by (rewrite ?E2; try discriminate; lia). rewrite E2. reflexivity.
Qed.

(** Two pictures, then anything: here a third picture, and rubbish. *)
Example C120_example : let p := sample PWG Black1 TwoSidedLongEdge Flipped 3 2 in
  match ppm2pwg p 0 (pbm_text ++ pbm_text), ppm2pwg p 0 pbm_text, ppm2pwg p 0 (pbm_text ++ pbm_text ++ pbm_text) with
  | Ok (0, a), Ok (0, b), Ok (0, c) => c = a ++ skipn 4 b /\ (1000 < length b)%nat | _, _, _ => False end.
Proof. vm_compute. split; [reflexivity|]. apply Nat.ltb_lt. reflexivity. Qed.
Example C120_input_example : let p := sample PWG Black1 TwoSidedLongEdge Flipped 3 2 in p_units p = Pixels /\ Forall2 (pnm_text newline) [pbm_page; pbm_page] [pbm_text; pbm_text] /\
  Forall (fun q => pic_w q <= max_size /\ pic_h q <= max_size /\ (exists c r, pic_data q = c :: r /\ c <> bZ 35) /\ (pic_kind q = PBM -> pic_w q mod 8 = 0 /\ p_format p <> URF)) [pbm_page; pbm_page] /\ Nat.even 2 = true.
Proof.
  cbv zeta. split; [reflexivity|]. pose proof C13_example as C. cbv zeta in C. destruct C as [C _]. split; [constructor; [exact C|constructor; [exact C|constructor]]|]. split; [|reflexivity].
  assert (K : pic_w pbm_page <= max_size /\ pic_h pbm_page <= max_size /\ (exists c r, pic_data pbm_page = c :: r /\ c <> bZ 35) /\ (pic_kind pbm_page = PBM -> pic_w pbm_page mod 8 = 0 /\ PWG <> URF)); [|constructor; [exact K|constructor; [exact K|constructor]]].
  split; [vm_compute; discriminate|]. split; [vm_compute; discriminate|]. split; [exists (bZ 10), [bZ 35]; split; [reflexivity|discriminate]|]. intros _. split; [reflexivity|discriminate].
Qed.
(** the pages of a file, twice *)
Example C120_pwg_example : let p := sample PWG Black1 OneSided Normal 3 2 in
  match ppm2pwg p 0 (pbm_text ++ pbm_text) with
  | Ok (0, file) => match pwg2ppm file "x", pwg2ppm (file ++ skipn 4 file) "x" with
    | Ok (0, la), Ok (0, l) => map fst la = ["x1.pbm"; "x2.pbm"]%string /\ map fst l = ["x1.pbm"; "x2.pbm"; "x3.pbm"; "x4.pbm"]%string /\ map snd l = map snd la ++ map snd la | _, _ => False end
  | _ => False end.
Proof. vm_compute. split; [reflexivity|]. split; reflexivity. Qed.

Print Assumptions C120_pwg.
Print Assumptions C120_urf.
Print Assumptions C120_bad.
Print Assumptions C120_ppm2pwg_partial.
