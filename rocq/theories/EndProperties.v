(** C113: whatever their arguments and files, the utilities come to an end in a defined way. *)
From Verif Require Import Base BaseLemmas FloatModel StringModel StringProofs ParamsModel RasterModel HeaderModel HeaderSpec HeaderProofs PpmModel PpmSpec PpmProofs RasterSpec RasterEncProofs RasterDecProofs GeometryProofs PageProofs RasterProperties PpmProperties ArgModel ArgSpec ArgProperties FileModel IppModel IppEncProofs IppMsgProofs IppProperties WarnModel WarnProofs DecodeModel SafeProperties WireProofs.
From Coq Require Import Lia ZifyBool ZifyNat.
Local Open Scope Z_scope.
Local Notation plain := IppEncProofs.plain.

(** ** Specification *)
(** a text that std::stoul reads as [z] *)
Definition reads_number (s : list byte) (z : Z) : Prop :=
  exists neg n, int_text (string_of_bytes s) neg n /\ n < 2 ^ 64 /\ z = signed neg n mod 2 ^ 64.
Definition starts (c : byte) (l : list byte) : Prop := exists r, l = c :: r.
Definition word (l : list byte) : Prop := l <> [] /\ Forall (fun c => ~ white c) l.
(** What is skipped in front of the data [rest]: a newline and whole lines that begin with #; another white character ends the
    header as well but belongs to the data. *)
Definition data_gap (e rest : list byte) : Prop :=
  (e = [] /\ (rest = [] \/ exists c r, rest = c :: r /\ white c /\ c <> newline)) \/
  (exists comments, e = newline :: concat comments /\ Forall comment_line comments /\ ~ starts (bZ 35) rest) \/
  (exists comments body, e = newline :: concat comments ++ bZ 35 :: body /\ Forall comment_line comments /\ ~ In newline body /\ rest = []).
(** The bytes announce a picture of kind [k] and of the given size, and [rest] is what follows the header. *)
Definition announces (l : list byte) (k : pnm_kind) (w h : Z) (rest : list byte) : Prop :=
  exists lead gap0 ws gap1 hs mpart e, l = lead ++ magic_of k ++ gap0 ++ ws ++ gap1 ++ hs ++ mpart ++ e ++ rest /\
    Forall white lead /\ magic_gap gap0 /\ word ws /\ reads_number ws w /\ white_gap gap1 /\ word hs /\ reads_number hs h /\
    maxval_part k mpart /\ data_gap e rest.
(** where the pages of a file begin: at its beginning, and after the data of a page *)
Inductive page_at (input : list byte) : list byte -> Prop :=
| page_first : page_at input input
| page_next l k w h data rest : page_at input l -> announces l k w h (data ++ rest) -> Z.of_nat (length data) = h * row_bytes k w -> page_at input rest.
(** one of the pages has fewer bytes than it announces, or it is wider or higher than 10^7 pixels *)
Definition short_or_giant (input : list byte) : Prop :=
  exists l k w h rest, page_at input l /\ announces l k w h rest /\ (10000000 < w \/ 10000000 < h \/ Z.of_nat (length rest) < h * row_bytes k w).
(** the file is URF *)
Definition urf_file (input : list byte) : Prop := exists r, input = map bZ [85; 78; 73; 82; 65; 83; 84; 0] ++ r.

(** ** Proofs *)
Lemma get_args_plain defs pos st args : plain (get_args defs pos st args).
Proof.
  unfold get_args. apply plain_bind; [apply loop_plain; lia|]. intros [[st1 r]|[msg st1]] _; [|exact I]. destruct (_ <? _)%nat; [exact I|]. destruct (parse_pos pos st1 r) as [[st2 [|]]|[]]; exact I.
Qed.
Lemma get_bytes_plain n s : plain (get_bytes n s). Proof. unfold get_bytes. destruct (n <=? _); exact I. Qed.
Lemma get_u8_plain s : plain (get_u8 s). Proof. destruct s; exact I. Qed.
Lemma get_u32_plain s : plain (get_u32 s). Proof. destruct s as [|? [|? [|? [|]]]]; exact I. Qed.
Lemma get_str_plain n s : plain (get_str_field n s).
Proof. unfold get_str_field. apply plain_bind; [apply get_bytes_plain|]. intros [x r] _. exact I. Qed.
Lemma get_s32_plain s : plain (get_s32 s).
Proof. unfold get_s32. apply plain_bind; [apply get_u32_plain|]. intros [x r] _. exact I. Qed.
Ltac hp := repeat (apply plain_bind; [first [apply get_str_plain|apply get_bytes_plain|apply get_u32_plain|apply get_u8_plain|apply get_s32_plain]|intros [? ?] _]); exact I.
Lemma pwg_hdr_plain s : plain (decode_pwg_hdr s). Proof. unfold decode_pwg_hdr. hp. Qed.
Lemma urf_hdr_plain s : plain (decode_urf_hdr s). Proof. unfold decode_urf_hdr. hp. Qed.

Lemma pwg_hdr_shorter s h r : decode_pwg_hdr s = Ok (h, r) -> (length r < length s)%nat.
Proof.
  unfold decode_pwg_hdr. intros H. unfold get_str_field at 1 in H. unfold get_bytes at 1 in H. destruct (64 <=? Z.of_nat (length s)) eqn:E; [|discriminate H]. cbn [bind] in H.
  pose proof (suffix_refl (skipn (Z.to_nat 64) s)) as S. repeat hdr_step H S. injection H as _ <-. destruct S as [u Hu]. apply (f_equal (@length _)) in Hu. rewrite app_length, skipn_length in Hu. lia.
Qed.
Lemma urf_hdr_shorter s h r : decode_urf_hdr s = Ok (h, r) -> (length r < length s)%nat.
Proof.
  unfold decode_urf_hdr. intros H. destruct s as [|c s]; [cbn [get_u8 bind] in H; discriminate H|]. unfold get_u8 at 1 in H. cbn [bind] in H.
  pose proof (suffix_refl s) as S. repeat hdr_step H S. injection H as _ <-. destruct S as [u ->]. cbn [length]. rewrite app_length. lia.
Qed.
Lemma pwg_pages_plain f : forall file page prefix, 256 * Z.of_nat (length file) < two64 -> (length file < f)%nat -> plain (pwg_pages f file page prefix).
Proof.
  induction f as [|f IH]; intros file page prefix L F; [lia|]. cbn [pwg_pages]. destruct file as [|c0 file0]; [exact I|]. set (file := c0 :: file0) in *. clearbody file. clear c0 file0.
  apply plain_bind; [apply pwg_hdr_plain|]. intros [h file1] Eh. pose proof (pwg_hdr_shorter _ _ _ Eh) as L1. destruct (decode_pwg_hdr_inv _ _ _ Eh) as (_ & _ & B2 & _ & B4 & _). clear Eh.
  pose proof (raster_to_bmp_total file1 (h_BytesPerLine h) (h_Height h) (h_NumColors h) false ltac:(clear - B4; lia) ltac:(clear - B2; unfold two32, two64 in *; lia) ltac:(clear - L L1; lia)) as T.
  destruct (raster_to_bmp file1 _ _ _ false) as [[bmp file2]| | | |]; [|exact I|destruct T|discriminate T|destruct T]. destruct T as [_ [u Hu]].
  cbn [bind]. apply plain_bind; [apply IH; rewrite Hu, app_length in L1; clear - L F L1; lia|]. intros; exact I.
Qed.
Lemma urf_pages_plain f : forall file page prefix, 256 * Z.of_nat (length file) < two64 -> (length file < f)%nat -> plain (urf_pages f file page prefix) \/ urf_pages f file page prefix = Hang.
Proof.
  induction f as [|f IH]; intros file page prefix L F; [lia|]. cbn [urf_pages]. destruct file as [|c0 file0]; [left; exact I|]. set (file := c0 :: file0) in *. clearbody file. clear c0 file0.
  pose proof (urf_hdr_plain file) as P. destruct (decode_urf_hdr file) as [[h file1]| | | |] eqn:Eh; try destruct P; [|left; exact I]. cbn [bind].
  pose proof (urf_hdr_shorter _ _ _ Eh) as L1. destruct (decode_urf_hdr_inv _ _ _ Eh) as (_ & _ & B2 & B3). clear Eh.
  pose proof (raster_to_bmp_total file1 ((u_Width h * (u_BitsPerPixel h / 8)) mod two32) (u_Height h) (u_BitsPerPixel h / 8) true ltac:(clear - B3; lia) ltac:(clear - B2; unfold two32, two64 in *; lia) ltac:(clear - L L1; lia)) as T.
  destruct (raster_to_bmp file1 _ _ _ true) as [[bmp file2]| | | |]; [|left; exact I|destruct T|right; reflexivity|destruct T]. destruct T as [_ [u Hu]]. cbn [bind].
  destruct (IH file2 (page + 1) prefix) as [Q| ->]; [rewrite Hu, app_length in L1; clear - L L1; lia|rewrite Hu, app_length in L1; clear - F L1; lia| |right; reflexivity].
  left. apply plain_bind; [exact Q|]. intros; exact I.
Qed.
Lemma eat_app lit : forall s r, eat lit s = Some r -> s = lit ++ r.
Proof.
  induction lit as [|a lit IH]; intros s r H; cbn [eat] in H; [injection H as ->; reflexivity|]. destruct s as [|b s]; [discriminate|]. destruct (Ascii.eqb_spec a b) as [->|]; [|discriminate]. cbn [app]. f_equal. apply IH, H.
Qed.
Lemma pwg2ppm_ends file prefix : 256 * Z.of_nat (length file) < two64 -> plain (pwg2ppm file prefix) \/ (pwg2ppm file prefix = Hang /\ urf_file file).
Proof.
  intros L. unfold pwg2ppm. destruct (eat (bytes_of_string "RaS2") file) as [f1|] eqn:E1.
  - apply eat_app in E1. left. apply plain_bind; [|intros; exact I]. apply pwg_pages_plain; [|lia]. rewrite E1, app_length in L. clear - L. lia.
  - destruct (eat (bytes_of_string "UNIRAST") file) as [f2|] eqn:E2; [|left; exact I]. apply eat_app in E2. destruct f2 as [|z f3]; [left; exact I|]. cbn [get_u8 bind].
    destruct (Zb z =? 0) eqn:Z0; [|left; exact I]. destruct (get_u32 f3) as [[n f4]|e| | |] eqn:E3; try (pose proof (get_u32_plain f3) as P; rewrite E3 in P; destruct P); [|left; exact I]. cbn [bind].
    destruct (get_u32_inv _ _ _ E3) as [_ [u Hu]]. destruct (urf_pages_plain (S (length f4)) f4 0 prefix) as [P|P].
    + rewrite E2, Hu in L. rewrite app_length in L. cbn [length] in L. rewrite app_length in L. clear - L. lia.
    + lia.
    + left. apply plain_bind; [exact P|]. intros; exact I.
    + right. rewrite P. split; [reflexivity|]. exists f3. rewrite E2. assert (z = bZ 0) as -> by (apply Zb_inj; rewrite Zb_bZ_small; lia). reflexivity.
Qed.

(** *** ppm2pwg *)
Definition at_end (l : list byte) : bool := match l with [] => true | _ => false end.
Definition head_ok (l : list byte) : Prop := l = [] \/ white_head l.
Lemma skip_ws_inv l : exists gap, l = gap ++ skip_ws l /\ Forall white gap /\ (skip_ws l = [] \/ nonwhite_head (skip_ws l)).
Proof.
  induction l as [|c l IH]; cbn [skip_ws]; [exists []; auto|]. destruct (is_space c) eqn:E; [|exists []; repeat split; auto; right; exact E].
  destruct IH as (gap & H & G & N). exists (c :: gap). split; [cbn [app]; f_equal; exact H|]. split; [constructor; [apply white_spec, E|exact G]|exact N].
Qed.
Lemma span_word_inv l : forall w r, span_word l = (w, r) -> l = w ++ r /\ Forall (fun c => is_space c = false) w /\ head_ok r.
Proof.
  induction l as [|c l IH]; cbn [span_word]; intros w r H; [injection H as <- <-; repeat split; [constructor|left; reflexivity]|].
  destruct (is_space c) eqn:E; [injection H as <- <-; repeat split; [constructor|right; exact E]|]. destruct (span_word l) as [a b]. injection H as <- <-.
  destruct (IH _ _ eq_refl) as (-> & F & K). repeat split; [constructor; assumption|exact K].
Qed.
Lemma nonspace_word l : l <> [] -> Forall (fun c => is_space c = false) l -> word l.
Proof. intros N F. split; [exact N|]. eapply Forall_impl; [|exact F]. intros c Hc W. apply white_spec in W. congruence. Qed.
Lemma read_word_inv s w s' : read_word s = (w, s') -> w <> ""%string ->
  exists gap wb r, i_good s = true /\ i_rest s = gap ++ wb ++ r /\ Forall white gap /\ word wb /\ w = string_of_bytes wb /\ head_ok r /\ s' = mkIn r (at_end r) false.
Proof.
  unfold read_word. intros H N. destruct (i_good s); [|injection H as <- _; contradiction]. destruct (skip_ws_inv (i_rest s)) as (gap & G & Hg & Hn).
  destruct (skip_ws (i_rest s)) as [|c l] eqn:E; [injection H as <- _; contradiction|]. destruct Hn as [Hn|Hn]; [discriminate|].
  destruct (span_word (c :: l)) as [a b] eqn:Es. injection H as <- <-. destruct (span_word_inv _ _ _ Es) as (Ea & F & K). exists gap, a, b.
  rewrite Ea in G. repeat split; auto; try (intros ->; apply N; reflexivity). eapply Forall_impl; [|exact F]. intros x Hx W. apply white_spec in W. congruence.
Qed.
Lemma skip_line_inv l : forall r e, skip_line l = (r, e) -> (e = false /\ exists body, l = body ++ newline :: r /\ ~ In newline body) \/ (e = true /\ r = [] /\ ~ In newline l).
Proof.
  induction l as [|c l IH]; cbn [skip_line]; intros r e H; [injection H as <- <-; right; auto|].
  destruct (Ascii.eqb_spec c "010") as [->|Nc]; [injection H as <- <-; left; split; [reflexivity|]; exists []; split; [reflexivity|intros []]|].
  destruct (IH _ _ H) as [(-> & body & -> & Nb)|(-> & -> & Nb)].
  - left. split; [reflexivity|]. exists (c :: body). split; [reflexivity|]. intros [A|A]; [apply Nc; exact A|exact (Nb A)].
  - right. repeat split. intros [A|A]; [apply Nc; exact A|exact (Nb A)].
Qed.
Lemma peek_bad s : i_good s = false -> peek s = (None, mkIn (i_rest s) (i_eof s) true).
Proof. unfold peek. intros ->. reflexivity. Qed.
(** comment lines: what is skipped from a good stream *)
Lemma lines_inv f : forall l, (length l < f)%nat -> exists s', ignore_comment_lines f (good l) = Ok s' /\
  ((exists cs, l = concat cs ++ i_rest s' /\ Forall comment_line cs /\ ~ starts (bZ 35) (i_rest s') /\ s' = mkIn (i_rest s') (at_end (i_rest s')) false) \/
   (exists cs body, l = concat cs ++ bZ 35 :: body /\ Forall comment_line cs /\ ~ In newline body /\ s' = mkIn [] true true)).
Proof.
  induction f as [|f IH]; intros l L; [lia|]. cbn [ignore_comment_lines]. destruct l as [|c l].
  - exists (mkIn [] true false). split; [reflexivity|]. left. exists []. repeat split; [constructor|]. intros [r Hr]. discriminate Hr.
  - unfold peek. cbn [good i_good i_eof i_fail orb negb i_rest]. destruct (Ascii.eqb_spec c "#") as [->|Nc].
    + cbn [skip_line]. change (Ascii.eqb "#" "010") with false. cbv iota. destruct (skip_line l) as [r e] eqn:E. destruct (skip_line_inv _ _ _ E) as [(-> & body & -> & Nb)|(-> & -> & Nb)].
      * cbn [length] in L. rewrite app_length in L. cbn [length] in L. destruct (IH r ltac:(lia)) as (s' & E' & K). exists s'. split; [exact E'|].
        assert (C : comment_line (bZ 35 :: body ++ [newline])) by (exists body; auto).
        destruct K as [(cs & -> & F & K)|(cs & body' & -> & F & K)]; [left; exists ((bZ 35 :: body ++ [newline]) :: cs)|right; exists ((bZ 35 :: body ++ [newline]) :: cs), body'].
        all: split; [cbn [concat app]; change (bZ 35) with "#"%char; rewrite <- !app_assoc; reflexivity|]; split; [constructor; assumption|exact K].
      * exists (mkIn [] true true). split; [destruct f; [cbn [length] in L; lia|reflexivity]|]. right. exists [], l. repeat split; [constructor|exact Nb].
    + exists (good (c :: l)). split; [destruct c as [[|] [|] [|] [|] [|] [|] [|] [|]]; try reflexivity; contradiction Nc; reflexivity|].
      left. exists []. repeat split; [constructor|]. intros [r Hr]. injection Hr as Hr _. apply Nc. exact Hr.
Qed.
Lemma lines_bad f s : i_good s = false -> ignore_comment_lines (S f) s = Ok (mkIn (i_rest s) (i_eof s) true).
Proof. intros B. cbn [ignore_comment_lines]. rewrite (peek_bad s B). reflexivity. Qed.
Lemma comments_bad s : i_good s = false -> ignore_comments s = Ok (mkIn (i_rest s) (i_eof s) true).
Proof.
  intros B. unfold ignore_comments. rewrite (peek_bad s B). apply (lines_bad _ (mkIn (i_rest s) (i_eof s) true)). unfold i_good. cbn [i_eof i_fail]. destruct (i_eof s); reflexivity.
Qed.
(** after a word *)
Lemma comments_inv r : head_ok r -> exists s', ignore_comments (mkIn r (at_end r) false) = Ok s' /\
  (exists e, r = e ++ i_rest s' /\ data_gap e (i_rest s')) /\ (i_good s' = true \/ (i_eof s' = true /\ i_rest s' = [])) /\
  (i_good s' = true -> s' = good (i_rest s') /\ (r = i_rest s' /\ white_head r \/ exists cs, r = newline :: concat cs ++ i_rest s' /\ Forall comment_line cs)).
Proof.
  intros [->|W].
  - exists (mkIn [] true true). split; [reflexivity|]. split; [exists []; split; [reflexivity|left; split; [reflexivity|left; reflexivity]]|]. split; [right; auto|intros B; discriminate B].
  - destruct r as [|c r]; [destruct W|]. cbn [white_head] in W. change (mkIn (c :: r) (at_end (c :: r)) false) with (good (c :: r)).
    destruct (Ascii.eqb_spec c newline) as [->|Nc].
    + rewrite ignore_comments_newline. destruct (lines_inv (S (length r)) r ltac:(lia)) as (s' & E & K). exists s'. split; [exact E|].
      destruct K as [(cs & Hr & F & Nh & Hs)|(cs & body & Hr & F & Nb & Hs)].
      * split; [exists (newline :: concat cs); split; [cbn [app]; f_equal; exact Hr|right; left; exists cs; auto]|]. rewrite Hs. cbn [i_rest i_eof i_fail i_good]. unfold i_good. cbn [i_eof i_fail].
        destruct (at_end (i_rest s')) eqn:Ea; cbn [orb negb]; [split; [right; split; [reflexivity|destruct (i_rest s'); [reflexivity|discriminate Ea]]|discriminate]|]. split; [left; reflexivity|]. intros _. split; [reflexivity|]. right. exists cs. split; [f_equal; exact Hr|exact F].
      * subst s'. split; [exists (newline :: concat cs ++ bZ 35 :: body); split; [cbn [app i_rest]; rewrite app_nil_r; f_equal; exact Hr|right; right; exists cs, body; auto]|]. split; [right; auto|discriminate].
    + exists (good (c :: r)). split.
      { unfold ignore_comments, peek. cbn [good i_good i_eof i_fail orb negb i_rest]. replace (match c with "010"%char => _ | _ => _ end) with (good (c :: r)) by (destruct c as [[|] [|] [|] [|] [|] [|] [|] [|]]; try reflexivity; contradiction Nc; reflexivity).
        cbn [good i_rest length]. apply ignore_comment_lines_stop. cbn. apply white_not_hash, W. }
      split; [exists []; split; [reflexivity|left; split; [reflexivity|right; exists c, r; split; [reflexivity|]; split; [apply white_spec, W|exact Nc]]]|]. split; [left; reflexivity|]. intros _. split; [reflexivity|]. left. split; [reflexivity|exact W].
Qed.
Lemma comments_total s : exists s', ignore_comments s = Ok s'.
Proof.
  destruct (i_good s) eqn:G; [|eexists; apply comments_bad, G]. destruct s as [l e b]. unfold i_good in G. cbn [i_eof i_fail] in G. destruct e, b; try discriminate G. change (mkIn l false false) with (good l).
  unfold ignore_comments. destruct l as [|c l]; [eexists; reflexivity|]. unfold peek. cbn [good i_good i_eof i_fail orb negb i_rest].
  destruct (Ascii.eqb_spec c "010") as [->|Nc].
  - cbn [tl i_rest]. destruct (lines_inv (S (length l)) l ltac:(lia)) as (s' & E & _). exists s'. exact E.
  - replace (match c with "010"%char => _ | _ => _ end) with (good (c :: l)) by (destruct c as [[|] [|] [|] [|] [|] [|] [|] [|]]; try reflexivity; contradiction Nc; reflexivity).
    destruct (lines_inv (S (length (c :: l))) (c :: l) ltac:(lia)) as (s' & E & _). exists s'. exact E.
Qed.
Lemma expressible_dec p : urf_expressible p \/ ~ urf_expressible p.
Proof.
  unfold urf_expressible. destruct (Z.eq_dec (p_hwResW p) (p_hwResH p)) as [E|E]; [|right; intros [A _]; exact (E A)].
  destruct (mode_urf_space (p_colorMode p)) as [cs|]; [|right; intros (_ & [cs A] & _); discriminate A].
  destruct (in_dec string_dec (p_mediaType p) (map fst urf_media_table)) as [I|I].
  - left. apply in_map_iff in I. destruct I as ([a mt] & A & B). cbn [fst] in A. subst a. eauto.
  - right. intros (_ & _ & [mt A]). apply I. apply in_map_iff. exists (p_mediaType p, mt). auto.
Qed.
Definition page_ended (p : params) (l : list byte) (o : outcome (option (list byte * params * istream))) : Prop :=
  match o with
  | Ok None | Throw _ => True
  | Ok (Some (_, p', s')) => l <> [] /\ p_units p' = p_units p /\ p_hwResW p' = p_hwResW p /\ p_hwResH p' = p_hwResH p /\
      (i_eof s' = true \/ exists k w h data rest, s' = good rest /\ announces l k w h (data ++ rest) /\ Z.of_nat (length data) = h * row_bytes k w)
  | _ => False
  end.
Definition short_page (l : list byte) : Prop := exists k w h rest, announces l k w h rest /\ (10000000 < w \/ 10000000 < h \/ Z.of_nat (length rest) < h * row_bytes k w).
Lemma encode_ends p k w h page bmp : p_units p = Pixels -> 1 <= p_hwResW p < 2 ^ 32 -> 1 <= p_hwResH p < 2 ^ 32 -> 0 <= w <= 10000000 -> 0 <= h <= 10000000 ->
  h * row_bytes k w <= Z.of_nat (length bmp) -> plain (bmp_to_pwg bmp page (with_page p (kind_mode k) (fofZ w) (fofZ h))).
Proof.
  intros U R1 R2 Hw Hh L. set (q := with_page p (kind_mode k) (fofZ w) (fofZ h)).
  assert (S : (p_format q = URF -> urf_expressible q) -> plain (bmp_to_pwg bmp page q)).
  { intros X. destruct (C04_encoder_memory_safe_partial q page w h bmp) as [out ->]; [| | | | |exact X|exact I].
    - repeat split; cbn [q with_page p_sizeW p_sizeH p_hwResW p_hwResH]; try (apply sane_fofZ; unfold max_size); lia.
    - unfold getPaperSizeWInPixels. cbn [q with_page p_units p_sizeW p_hwResW]. rewrite U. apply sizeInPixels_pixels. lia.
    - unfold getPaperSizeHInPixels. cbn [q with_page p_units p_sizeH p_hwResH]. rewrite U. apply sizeInPixels_pixels. lia.
    - cbn [q with_page p_colorMode]. rewrite <- row_bytes_mode by lia. destruct k; cbn [row_bytes]; lia.
    - cbn [q with_page p_colorMode]. rewrite <- row_bytes_mode by lia. exact L. }
  destruct (p_format q) eqn:Ef; try (apply S; intros A; discriminate A). destruct (expressible_dec q) as [X|X]; [apply S; intros _; exact X|].
  unfold bmp_to_pwg. rewrite Ef. destruct (make_urf_hdr_refused q X) as [-> | ->]; exact I.
Qed.
Lemma announces_shorter l k w h r : announces l k w h r -> (length r < length l)%nat.
Proof. intros (a & b & c & d & e & f & g & -> & _). rewrite !app_length. assert (length (magic_of k) = 2%nat) as -> by (destruct k; reflexivity). lia. Qed.
Lemma finish p page k xs ys s l : p_units p = Pixels -> 1 <= p_hwResW p < 2 ^ 32 -> 1 <= p_hwResH p < 2 ^ 32 ->
  (forall w h, stoul xs = Ok w -> stoul ys = Ok h -> exists r, s = mkIn r (at_end r) false /\ head_ok r /\ forall e rest, r = e ++ rest -> data_gap e rest -> announces l k w h rest) ->
  let o := let! s := ignore_comments s in let! w := stoul xs in let! h := stoul ys in
           let p := with_page p (kind_mode k) (fofZ w) (fofZ h) in
           let! bpl := getPaperSizeWInBytes p in
           let! size := f_to_unsigned 64 (fmul (p_sizeH p) (fofZ bpl)) in
           let '(bmp, s) := read_block s size in
           let! out := bmp_to_pwg bmp page p in
           Ok (Some (out, p, s)) in
  page_ended p l o \/ short_page l.
Proof.
  intros U R1 R2 A o. unfold o. clear o. destruct (comments_total s) as [s1 E1]. pose proof E1 as E1'. rewrite E1. cbn [bind].
  destruct (stoul xs) as [w| | | |] eqn:Ew; try (pose proof (stoul_plain xs) as P; rewrite Ew in P; destruct P); [|left; exact I].
  destruct (stoul ys) as [h| | | |] eqn:Eh; try (pose proof (stoul_plain ys) as P; rewrite Eh in P; destruct P); [|left; exact I]. cbn [bind].
  destruct (A w h eq_refl eq_refl) as (r & -> & Hr & An). destruct (comments_inv r Hr) as (s2 & E2 & (e & Er & Hg) & Hge & Hgood). rewrite E2 in E1'. injection E1' as ->. clear E1 E2.
  specialize (An e (i_rest s1) Er Hg). apply stoul_ok in Ew, Eh. assert (Nl : l <> []) by (apply announces_shorter in An; intros ->; cbn [length] in An; lia).
  destruct (Z_le_gt_dec w 10000000) as [W|W]; [|right; exists k, w, h, (i_rest s1); split; [exact An|left; lia]].
  destruct (Z_le_gt_dec h 10000000) as [H|H]; [|right; exists k, w, h, (i_rest s1); split; [exact An|right; left; lia]].
  destruct (Z_le_gt_dec (h * row_bytes k w) (Z.of_nat (length (i_rest s1)))) as [D|D]; [|right; exists k, w, h, (i_rest s1); split; [exact An|right; right; lia]].
  left. set (q := with_page p (kind_mode k) (fofZ w) (fofZ h)).
  assert (Eb : getPaperSizeWInBytes q = Ok (row_bytes k w)).
  { rewrite (bytes_per_line q w).
    - rewrite line_bytes_eq by lia. cbn [q with_page p_colorMode]. rewrite row_bytes_mode by lia. reflexivity.
    - unfold getPaperSizeWInPixels. cbn [q with_page p_units p_sizeW p_hwResW]. rewrite U. apply sizeInPixels_pixels. lia.
    - lia. }
  assert (Rb : 0 <= row_bytes k w <= 60000000) by (destruct k; cbn [row_bytes]; lia).
  rewrite Eb. cbn [bind]. cbn [q with_page p_sizeH]. rewrite fmul_exact by nia. cbn [bind]. fold q.
  unfold read_block. destruct (i_good s1) eqn:G.
  - destruct (Hgood eq_refl) as [-> _]. cbn [good i_rest] in *. replace (h * row_bytes k w <=? Z.of_nat (length (i_rest s1))) with true by lia.
    assert (Pl : plain (bmp_to_pwg (firstn (Z.to_nat (h * row_bytes k w)) (i_rest s1)) page q)) by (apply encode_ends; try assumption; try lia; rewrite firstn_length; lia).
    destruct (bmp_to_pwg _ page q); try destruct Pl; [|exact I]. cbn [bind page_ended]. split; [exact Nl|]. repeat split. right.
    exists k, w, h, (firstn (Z.to_nat (h * row_bytes k w)) (i_rest s1)), (skipn (Z.to_nat (h * row_bytes k w)) (i_rest s1)). rewrite firstn_skipn, firstn_length. repeat split; [exact An|lia].
  - destruct Hge as [Hge|[He Hnil]]; [discriminate Hge|]. rewrite Hnil in D. cbn [length] in D.
    assert (Pl : plain (bmp_to_pwg [] page q)) by (apply encode_ends; try assumption; try lia).
    destruct (bmp_to_pwg [] page q); try destruct Pl; [|exact I]. cbn [bind page_ended]. split; [exact Nl|]. repeat split. left. exact He.
Qed.
Lemma string_bytes w s : s = string_of_bytes w -> w = bytes_of_string s.
Proof. intros ->. symmetry. apply bytes_string_id. Qed.
Lemma stoul_nonempty s w : stoul s = Ok w -> s <> ""%string.
Proof. intros H ->. discriminate H. Qed.
Lemma announces_intro l lead k s2 s3 s4 r1 r5 xs ys w h : l = lead ++ magic_of k ++ r1 -> Forall white lead -> head_ok r1 -> ignore_comments (mkIn r1 (at_end r1) false) = Ok s2 ->
  read_word s2 = (xs, s3) -> read_word s3 = (ys, s4) -> stoul xs = Ok w -> stoul ys = Ok h -> head_ok r5 ->
  (exists mpart, i_rest s4 = mpart ++ r5 /\ maxval_part k mpart) ->
  forall e rest, r5 = e ++ rest -> data_gap e rest -> announces l k w h rest.
Proof.
  intros Hl Ld H1 C2 E3 E4 Ew Eh H5 (mpart & Hm & Mp) e rest -> Dg.
  destruct (read_word_inv _ _ _ E3 (stoul_nonempty _ _ Ew)) as (g0 & wb & r3 & G2 & Hr2 & Fg0 & Wx & -> & Hr3 & ->).
  destruct (read_word_inv _ _ _ E4 (stoul_nonempty _ _ Eh)) as (g1 & hb & r4 & G3 & Hr4 & Fg1 & Wy & -> & Hr4' & ->).
  cbn [i_rest] in *. destruct (comments_inv r1 H1) as (s2' & C2' & _ & _ & Gd). rewrite C2 in C2'. injection C2' as <-. destruct (Gd G2) as [_ Cs]. clear Gd.
  assert (W1 : white_gap g1).
  { split; [|exact Fg1]. intros ->. cbn [app] in Hr4. destruct Hr3 as [-> | Hr3]; [destruct Wy as [Ny _]; destruct hb; [apply Ny; reflexivity|discriminate Hr4]|].
    destruct Wy as [Ny Fy]. destruct hb as [|c hb]; [apply Ny; reflexivity|]. rewrite Hr4 in Hr3. cbn in Hr3. inversion Fy as [|? ? Nc _]; subst. apply Nc, white_spec, Hr3. }
  assert (M : exists gap0, r1 = gap0 ++ wb ++ r3 /\ magic_gap gap0).
  { destruct Cs as [[Er Wh]|(cs & Er & Fc)].
    - exists g0. rewrite Er, Hr2. split; [reflexivity|]. left. split; [|exact Fg0]. intros ->. cbn [app] in Hr2. rewrite Er, Hr2 in Wh. destruct Wx as [Nx Fx]. destruct wb as [|c wb]; [apply Nx; reflexivity|].
      cbn in Wh. inversion Fx as [|? ? Nc _]; subst. apply Nc, white_spec, Wh.
    - exists (newline :: concat cs ++ g0). rewrite Er, Hr2. split; [cbn [app]; rewrite <- app_assoc; reflexivity|]. right. exists cs, g0. auto. }
  destruct M as (gap0 & -> & Mg). exists lead, gap0, wb, g1, hb, mpart, e. split.
  { rewrite Hl, Hr4, Hm, <- ?app_assoc. reflexivity. }
  repeat split; try assumption; try (apply Wx); try (apply Wy); try (apply W1); try (apply stoul_text; assumption).
Qed.
Lemma page_ends p page l : p_units p = Pixels -> 1 <= p_hwResW p < 2 ^ 32 -> 1 <= p_hwResH p < 2 ^ 32 -> page_ended p l (ppm_page p page (good l)) \/ short_page l.
Proof.
  intros U R1 R2. unfold ppm_page. destruct (read_word (good l)) as [magic s1] eqn:E1. destruct (comments_total s1) as [s2 E2]. rewrite E2. cbn [bind].
  destruct (read_word s2) as [xs s3] eqn:E3. destruct (read_word s3) as [ys s4] eqn:E4.
  assert (K : forall k m, magic = m -> m <> ""%string -> bytes_of_string m = magic_of k -> exists lead r1, s1 = mkIn r1 (at_end r1) false /\ l = lead ++ magic_of k ++ r1 /\ Forall white lead /\ head_ok r1).
  { intros k m -> Nm Hm. destruct (read_word_inv _ _ _ E1 Nm) as (lead & wb & r1 & _ & Hl & Fl & _ & Em & Hh & ->). exists lead, r1. apply string_bytes in Em. rewrite <- Hm, <- Em. auto. }
  assert (M : forall k m n r s5, magic = m -> m <> ""%string -> bytes_of_string m = magic_of k -> read_word s4 = (r, s5) -> r = n -> n <> ""%string -> maxval_of k = Some (bytes_of_string n) ->
      forall w h, stoul xs = Ok w -> stoul ys = Ok h -> exists r, s5 = mkIn r (at_end r) false /\ head_ok r /\ forall e rest, r = e ++ rest -> data_gap e rest -> announces l k w h rest).
  { intros k m n r s5 Em Nm Hm E5 -> Nn Hn w h Ew Eh. destruct (K k m Em Nm Hm) as (lead & r1 & Hs1 & Hl & Fl & Hh). subst s1.
    destruct (read_word_inv _ _ _ E5 Nn) as (g & nb & r5 & _ & Hr & Fg & Wn & En & H5 & ->). apply string_bytes in En. exists r5. split; [reflexivity|]. split; [exact H5|].
    apply (announces_intro l lead k s2 s3 s4 r1 r5 xs ys w h Hl Fl Hh E2 E3 E4 Ew Eh H5). exists (g ++ nb). rewrite Hr, <- app_assoc. split; [reflexivity|]. unfold maxval_part. rewrite Hn. exists g. rewrite En. split; [|reflexivity].
    split; [|exact Fg]. intros ->. destruct (read_word_inv _ _ _ E4 (stoul_nonempty _ _ Eh)) as (_ & _ & r4 & _ & _ & _ & _ & _ & Hr4 & ->). cbn [i_rest app] in Hr. subst r4. destruct Wn as [Nn' Fn].
    destruct nb as [|c nb]; [apply Nn'; reflexivity|]. destruct Hr4 as [Hr4|Hr4]; [discriminate Hr4|]. cbn in Hr4. inversion Fn as [|? ? Nc _]; subst. apply Nc, white_spec, Hr4. }
  unfold ppm_mode. destruct (String.eqb_spec magic "P6") as [E6|N6]; [|destruct (String.eqb_spec magic "P5") as [E6|N5]].
  - cbn [orb]. destruct (read_word s4) as [r s5] eqn:E5. destruct (String.eqb_spec r "255") as [Er|]; [|destruct (String.eqb_spec r "65535") as [Er|]]; cbn [bind]; [| |left; exact I].
    + apply (finish p page PPM8 xs ys s5 l U R1 R2). exact (M PPM8 "P6"%string "255"%string r s5 E6 ltac:(discriminate) eq_refl eq_refl Er ltac:(discriminate) eq_refl).
    + apply (finish p page PPM16 xs ys s5 l U R1 R2). exact (M PPM16 "P6"%string "65535"%string r s5 E6 ltac:(discriminate) eq_refl eq_refl Er ltac:(discriminate) eq_refl).
  - cbn [orb]. destruct (read_word s4) as [r s5] eqn:E5. destruct (String.eqb_spec r "255") as [Er|]; [|destruct (String.eqb_spec r "65535") as [Er|]]; cbn [bind]; [| |left; exact I].
    + apply (finish p page PGM8 xs ys s5 l U R1 R2). exact (M PGM8 "P5"%string "255"%string r s5 E6 ltac:(discriminate) eq_refl eq_refl Er ltac:(discriminate) eq_refl).
    + apply (finish p page PGM16 xs ys s5 l U R1 R2). exact (M PGM16 "P5"%string "65535"%string r s5 E6 ltac:(discriminate) eq_refl eq_refl Er ltac:(discriminate) eq_refl).
  - cbn [orb]. destruct (String.eqb_spec magic "P4") as [E6|N4]; [|left; exact I].
    destruct (stoul xs) as [x| | | |] eqn:Ex; try (pose proof (stoul_plain xs) as P; rewrite Ex in P; destruct P); [|left; exact I]. cbn [bind]. destruct (negb _); [left; exact I|].
    assert (F : page_ended p l (let! s := ignore_comments s4 in let! w := stoul xs in let! h := stoul ys in let p := with_page p (kind_mode PBM) (fofZ w) (fofZ h) in
           let! bpl := getPaperSizeWInBytes p in let! size := f_to_unsigned 64 (fmul (p_sizeH p) (fofZ bpl)) in let '(bmp, s) := read_block s size in let! out := bmp_to_pwg bmp page p in Ok (Some (out, p, s))) \/ short_page l).
    { apply (finish p page PBM xs ys s4 l U R1 R2). intros w h Ew Eh. destruct (K PBM "P4"%string E6 ltac:(discriminate) eq_refl) as (lead & r1 & Hs1 & Hl & Fl & Hh). subst s1.
      destruct (read_word_inv _ _ _ E4 (stoul_nonempty _ _ Eh)) as (_ & _ & r4 & _ & _ & _ & _ & _ & Hr4 & Es4). exists r4. split; [exact Es4|]. split; [exact Hr4|].
      apply (announces_intro l lead PBM s2 s3 s4 r1 r4 xs ys w h Hl Fl Hh E2 E3 E4 Ew Eh Hr4). exists []. rewrite Es4. split; reflexivity. }
    rewrite Ex in F. destruct (p_format p); first [exact F|left; exact I].
Qed.
Lemma pages_end input f : forall p page l, page_at input l -> (length l < f)%nat -> p_units p = Pixels -> 1 <= p_hwResW p < 2 ^ 32 -> 1 <= p_hwResH p < 2 ^ 32 ->
  plain (ppm_pages f p page (good l)) \/ short_or_giant input.
Proof.
  induction f as [|f IH]; intros p page l At L U R1 R2; [lia|]. cbn [ppm_pages good i_eof].
  destruct (page_ends p (page + 1) l U R1 R2) as [K|(k & w & h & rest & A & B)]; [|right; exists l, k, w, h, rest; auto].
  destruct (ppm_page p (page + 1) (good l)) as [[[[out p'] s']|]| | | |]; [|left; exact I|left; exact I|destruct K|destruct K|destruct K]. cbn [bind page_ended] in *.
  destruct K as (Nl & U' & R1' & R2' & Q). destruct (peek s') as [c s2] eqn:Ep.
  assert (D : i_eof s2 = true \/ exists rest, s2 = good rest /\ page_at input rest /\ (length rest < f)%nat).
  { destruct Q as [Q|(k & w & h & data & rest & -> & A & B)].
    - left. unfold peek in Ep. unfold i_good in Ep. rewrite Q in Ep. cbn [orb negb] in Ep. injection Ep as _ <-. reflexivity.
    - unfold peek in Ep. cbn [good i_good i_eof i_fail orb negb i_rest] in Ep. destruct rest as [|x rest]; injection Ep as _ <-; [left; reflexivity|]. right. exists (x :: rest). split; [reflexivity|].
      split; [exact (page_next _ _ _ _ _ _ _ At A B)|]. apply announces_shorter in A. rewrite app_length in A. lia. }
  assert (G : plain (ppm_pages f p' (page + 1) s2) \/ short_or_giant input).
  { destruct D as [D|(rest & -> & At' & L')]; [|apply IH; [exact At'|exact L'|congruence|rewrite R1'; exact R1|rewrite R2'; exact R2]]. left. destruct f as [|f]; [|cbn [ppm_pages]; rewrite D; exact I]. exfalso. destruct l; [apply Nl; reflexivity|cbn [length] in L; lia]. }
  destruct G as [G|G]; [left|right; exact G]. apply plain_bind; [exact G|]. intros [? ?] _. exact I.
Qed.
Lemma ppm2pwg_ends p pages input : p_units p = Pixels -> 1 <= p_hwResW p < 2 ^ 32 -> 1 <= p_hwResH p < 2 ^ 32 -> plain (ppm2pwg p pages input) \/ short_or_giant input.
Proof.
  intros U R1 R2. unfold ppm2pwg. destruct (pages_end input (S (length input)) p 0 input (page_first _) ltac:(lia) U R1 R2) as [P|P]; [left|right; exact P].
  apply plain_bind; [exact P|]. intros [? ?] _. exact I.
Qed.
Lemma empty_announces l k w h r : announces l k w h r -> l <> [].
Proof. intros A ->. apply announces_shorter in A. cbn [length] in A. lia. Qed.
Lemma empty_page l : page_at [] l -> l = [].
Proof. induction 1 as [|l k w h data rest _ IH A _]; [reflexivity|]. destruct (empty_announces _ _ _ _ _ A IH). Qed.
Lemma empty_fine : ~ short_or_giant [].
Proof. intros (l & k & w & h & rest & At & A & _). exact (empty_announces _ _ _ _ _ A (empty_page _ At)). Qed.

(** *** what a header announces is determined by the bytes *)
Definition header_of (l : list byte) : option (string * string * string * string * list byte) :=
  let '(m, s) := read_word (good l) in
  match ignore_comments s with
  | Ok s =>
      let '(xs, s) := read_word s in let '(ys, s) := read_word s in
      let '(r, s) := if String.eqb m "P6" || String.eqb m "P5" then read_word s else (""%string, s) in
      match ignore_comments s with Ok s => Some (m, xs, ys, r, i_rest s) | _ => None end
  | _ => None
  end.
Lemma word_nonspace w : word w -> Forall (fun c => is_space c = false) w.
Proof. intros [_ F]. eapply Forall_impl; [|exact F]. intros c N. destruct (is_space c) eqn:E; [|reflexivity]. contradiction N. apply white_spec, E. Qed.
Lemma span_word_end w : Forall (fun c => is_space c = false) w -> span_word w = (w, []).
Proof. induction 1 as [|c w Hc _ IH]; [reflexivity|]. cbn [span_word]. rewrite Hc, IH. reflexivity. Qed.
Lemma read_word_end gap w l : Forall white gap -> word w -> head_ok l -> read_word (good (gap ++ w ++ l)) = (string_of_bytes w, mkIn l (at_end l) false).
Proof.
  intros G W [->|H].
  - pose proof (word_nonspace w W) as F. destruct W as [N _]. rewrite app_nil_r. unfold read_word, good. cbn [i_good i_eof i_fail orb negb i_rest].
    rewrite skip_ws_gap; [|assumption|destruct w; [congruence|inversion F; assumption]]. destruct w as [|c w]; [congruence|]. rewrite (span_word_end (c :: w) F). reflexivity.
  - rewrite read_word_ok; [|exact G|apply W|apply word_nonspace, W|exact H]. destruct l; [destruct H|reflexivity].
Qed.
Lemma reads_not_hash ws w l : word ws -> reads_number ws w -> not_hash (ws ++ l).
Proof. intros [N _] R. apply stoul_text in R. destruct ws as [|c ws]; [contradiction|]. cbn [app not_hash]. intros ->. discriminate R. Qed.
Lemma gap_not_hash gap l : Forall white gap -> not_hash l -> not_hash (gap ++ l).
Proof. intros [|c g Hc _] N; [exact N|]. cbn [app not_hash]. apply white_not_hash, white_spec, Hc. Qed.
Lemma magic_gap_skip gap l : magic_gap gap -> not_hash l -> exists gap', Forall white gap' /\ ignore_comments (good (gap ++ l)) = Ok (good (gap' ++ l)).
Proof.
  intros Hg Hl. destruct Hg as [[Hn Hg]|(comments & g & -> & Hc & Hg)].
  - destruct Hg as [|c gap Hc Hg]; [congruence|]. destruct (Ascii.eqb_spec c newline) as [->|Nc].
    + exists gap. split; [assumption|]. cbn [app]. rewrite ignore_comments_newline. apply ignore_comment_lines_stop, gap_not_hash; assumption.
    + exists (c :: gap). split; [constructor; assumption|]. cbn [app]. unfold ignore_comments, peek. cbn [good i_good i_eof i_fail orb negb i_rest].
      replace (match c with "010"%char => _ | _ => _ end) with (good (c :: gap ++ l)) by (destruct c as [[|] [|] [|] [|] [|] [|] [|] [|]]; try reflexivity; contradiction Nc; reflexivity).
      apply ignore_comment_lines_stop. apply white_not_hash, white_spec, Hc.
  - exists g. split; [assumption|]. cbn [app]. rewrite ignore_comments_newline, <- app_assoc. apply ignore_comment_lines_ok; [assumption|apply gap_not_hash; assumption|].
    pose proof (comment_lines_length comments Hc). rewrite !app_length. lia.
Qed.
Lemma hash_line_unique body r : ~ In newline body -> skip_line (body ++ r) = skip_line r.
Proof. induction body as [|c body IH]; intros N; [reflexivity|]. cbn [app skip_line]. destruct (Ascii.eqb_spec c "010") as [->|Nc]; [destruct N; left; reflexivity|]. apply IH. intros A. apply N. right. exact A. Qed.
Lemma lines_skip cs : Forall comment_line cs -> forall f l, ignore_comment_lines (length cs + f) (good (concat cs ++ l)) = ignore_comment_lines f (good l).
Proof.
  induction 1 as [|c cs (body & -> & Nb) _ IH]; intros f l; [reflexivity|]. cbn [length Nat.add concat]. rewrite <- app_assoc. change ((bZ 35 :: body ++ [newline]) ++ concat cs ++ l) with (hash :: (body ++ [newline]) ++ concat cs ++ l).
  rewrite ignore_comment_lines_step. rewrite <- app_assoc. cbn [skip_line]. change (Ascii.eqb hash "010") with false. cbv iota. cbn [app]. rewrite skip_line_ok by exact Nb. apply IH.
Qed.
Lemma data_gap_head e rest : data_gap e rest -> head_ok (e ++ rest).
Proof.
  intros [[-> [->|(c & r & -> & W & _)]]|[(cs & -> & _)|(cs & body & -> & _)]]; [left; reflexivity|right; apply white_spec, W|right; reflexivity|right; reflexivity].
Qed.
Lemma data_gap_skip e rest : data_gap e rest -> exists s', ignore_comments (mkIn (e ++ rest) (at_end (e ++ rest)) false) = Ok s' /\ i_rest s' = rest.
Proof.
  intros [[-> [->|(c & r & -> & W & Ns)]]|[(cs & -> & Fc & Nh)|(cs & body & -> & Fc & Nb & ->)]].
  - eexists; split; reflexivity.
  - rename r into rest. cbn [app]. exists (good (c :: rest)). split; [|reflexivity]. change (mkIn (c :: rest) _ false) with (good (c :: rest)).
    unfold ignore_comments, peek. cbn [good i_good i_eof i_fail orb negb i_rest].
    replace (match c with "010"%char => _ | _ => _ end) with (good (c :: rest)) by (destruct c as [[|] [|] [|] [|] [|] [|] [|] [|]]; try reflexivity; contradiction Ns; reflexivity).
    apply ignore_comment_lines_stop. apply white_not_hash, white_spec, W.
  - cbn [app]. change (mkIn _ (at_end _) false) with (good (newline :: concat cs ++ rest)). rewrite ignore_comments_newline. pose proof (comment_lines_length cs Fc) as L.
    replace (S (length (concat cs ++ rest))) with (length cs + (S (length (concat cs ++ rest)) - length cs))%nat by (rewrite app_length; lia). rewrite lines_skip by exact Fc.
    destruct (S (length (concat cs ++ rest)) - length cs)%nat as [|f] eqn:Ef; [rewrite app_length in Ef; lia|]. destruct rest as [|c rest]; [eexists; split; reflexivity|].
    exists (good (c :: rest)). split; [|reflexivity]. apply ignore_comment_lines_stop. cbn. intros ->. apply Nh. eexists. reflexivity.
  - rewrite app_nil_r. change (mkIn _ (at_end _) false) with (good (newline :: concat cs ++ bZ 35 :: body)). rewrite ignore_comments_newline. pose proof (comment_lines_length cs Fc) as L.
    set (n := S (length (concat cs ++ bZ 35 :: body))). assert (Hn : exists f, n = (length cs + S (S f))%nat) by (exists (n - length cs - 2)%nat; unfold n; rewrite app_length; cbn [length]; lia). destruct Hn as [f ->]. rewrite lines_skip by exact Fc.
    exists (mkIn [] true true). split; [|reflexivity]. change (bZ 35) with hash. rewrite ignore_comment_lines_step. cbn [skip_line]. change (Ascii.eqb hash "010") with false. cbv iota.
    replace (skip_line body) with (@nil byte, true) by (rewrite <- (app_nil_r body), hash_line_unique by exact Nb; reflexivity). reflexivity.
Qed.
Lemma gap_head g l : white_gap g -> head_ok (g ++ l).
Proof. intros H. right. apply white_gap_head, H. Qed.
Lemma announces_read l k w h rest : announces l k w h rest ->
  exists xs ys, header_of l = Some (string_of_bytes (magic_of k), xs, ys, match maxval_of k with Some m => string_of_bytes m | None => ""%string end, rest) /\ stoul xs = Ok w /\ stoul ys = Ok h.
Proof.
  intros (lead & gap0 & ws & gap1 & hs & mpart & e & -> & Fl & G0 & Ww & Rw & G1 & Wh & Rh & Mp & Dg). exists (string_of_bytes ws), (string_of_bytes hs).
  split; [|split; apply stoul_text; assumption]. unfold header_of.
  assert (Wm : word (magic_of k)) by (apply nonspace_word; destruct k; try discriminate; repeat constructor).
  assert (H4 : head_ok (mpart ++ e ++ rest)).
  { unfold maxval_part in Mp. destruct (maxval_of k); [destruct Mp as (g & Hg & ->); rewrite <- app_assoc; apply gap_head, Hg|subst mpart; exact (data_gap_head _ _ Dg)]. }
  rewrite read_word_end; [|exact Fl|exact Wm|right; apply magic_gap_head, G0].
  assert (Hm : white_head (gap0 ++ ws ++ gap1 ++ hs ++ mpart ++ e ++ rest)) by (apply magic_gap_head, G0).
  destruct (magic_gap_skip gap0 (ws ++ gap1 ++ hs ++ mpart ++ e ++ rest) G0 (reads_not_hash _ _ _ Ww Rw)) as (g' & Fg' & E).
  replace (at_end (gap0 ++ ws ++ gap1 ++ hs ++ mpart ++ e ++ rest)) with false by (destruct (gap0 ++ _); [destruct Hm|reflexivity]). fold (good (gap0 ++ ws ++ gap1 ++ hs ++ mpart ++ e ++ rest)). rewrite E.
  rewrite read_word_end; [|exact Fg'|exact Ww|apply gap_head, G1].
  replace (at_end (gap1 ++ hs ++ mpart ++ e ++ rest)) with false by (destruct G1 as [N1 _]; destruct gap1; [contradiction|reflexivity]). fold (good (gap1 ++ hs ++ mpart ++ e ++ rest)).
  rewrite read_word_end; [|apply G1|exact Wh|exact H4].
  destruct (data_gap_skip e rest Dg) as (s' & Es & Hr).
  assert (Hk : (if String.eqb (string_of_bytes (magic_of k)) "P6" || String.eqb (string_of_bytes (magic_of k)) "P5" then read_word (mkIn (mpart ++ e ++ rest) (at_end (mpart ++ e ++ rest)) false) else (""%string, mkIn (mpart ++ e ++ rest) (at_end (mpart ++ e ++ rest)) false))
     = (match maxval_of k with Some m => string_of_bytes m | None => ""%string end, mkIn (e ++ rest) (at_end (e ++ rest)) false)).
  { unfold maxval_part in Mp. destruct k; cbn [maxval_of] in Mp |- *.
    5:{ subst mpart. reflexivity. }
    all: destruct Mp as (g & Hg & ->); rewrite <- app_assoc; match goal with |- context [at_end ?x] => replace (at_end x) with false by (destruct Hg as [Ng _]; destruct g; [contradiction|reflexivity]) end;
      change (mkIn ?x false false) with (good x); apply read_word_end; [apply Hg|apply nonspace_word; [discriminate|repeat constructor]|apply data_gap_head, Dg]. }
  rewrite Hk, Es, Hr. reflexivity.
Qed.
(** the announced picture is determined by the bytes *)
Lemma announces_unique l k w h rest k' w' h' rest' : announces l k w h rest -> announces l k' w' h' rest' -> k = k' /\ w = w' /\ h = h' /\ rest = rest'.
Proof.
  intros A B. destruct (announces_read _ _ _ _ _ A) as (xs & ys & E & X & Y). destruct (announces_read _ _ _ _ _ B) as (xs' & ys' & E' & X' & Y'). rewrite E in E'. injection E' as Em <- <- Er <-.
  rewrite X in X'. rewrite Y in Y'. injection X' as <-. injection Y' as <-. repeat split. destruct k, k'; try reflexivity; try discriminate Em; discriminate Er.
Qed.

(** ** C113 *)
(** bsplit, always *)
Theorem C113_bsplit : forall d stdin args, defined (bsplit_run d stdin args).
Proof.
  intros d stdin args. apply defined_plain. unfold bsplit_run. apply plain_bind; [|intros [c [[n x]|]] _; [destruct (save_out d n x)|]; exact I].
  unfold bsplit. apply plain_bind; [apply get_args_plain|]. intros [[ok msg] st] _. destruct (as_bool _); [exact I|]. destruct (negb ok); [exact I|]. destruct (open_in _ _ _) as [b|]; [|exact I]. destruct (Bool.eqb _ _); [exact I|].
  apply plain_bind; [|intros; exact I]. destruct (a_set st 1%nat).
  - unfold bsplit_head. apply plain_bind; [apply get_bytes_plain|]. intros [x r] _. exact I.
  - unfold bsplit_tail. apply plain_bind; [apply get_bytes_plain|]. intros [x r] _. apply plain_bind; [apply get_bytes_plain|]. intros [y s] _. exact I.
Qed.
(** pwg2ppm: or it does not end, and that only on a URF file.  (The files are
    shorter than 2^56 bytes.)  Missing: URF files, see C113_refuted. *)
Theorem C113_pwg2ppm_partial : forall d args, (forall at_ file, held d at_ = Some file -> 256 * Z.of_nat (length file) < 2 ^ 64) ->
  defined (pwg2ppm_run d args) \/
  (pwg2ppm_run d args = Hang /\ exists i prefix file, args = [i; prefix] /\ held d (place d i) = Some file /\ urf_file file).
Proof.
  intros d args L. rewrite defined_plain. unfold pwg2ppm_run. destruct args as [|i [|prefix [|? ?]]]; try (left; exact I). destruct (held d (place d i)) as [file|] eqn:E.
  - destruct (pwg2ppm_ends file prefix (L _ _ E)) as [P|[-> U]].
    + left. apply plain_bind; [exact P|]. intros [? ?] _. exact I.
    + right. split; [reflexivity|]. exists i, prefix, file. auto.
  - left. exact I.
Qed.
(** ppm2pwg, if no resolution of 0 is asked for, and each page of the file has the bytes it announces and is not giant *)
Theorem C113_ppm2pwg_partial : forall d stdin args,
  (forall r st, get_args ppm2pwg_switches ppm2pwg_pos ppm2pwg_init args = Ok (r, st) -> forall i, In i [5; 6; 7]%nat -> a_set st i = true -> as_int (a_val st i) mod 2 ^ 32 <> 0) ->
  defined (ppm2pwg_run d stdin args) \/ exists name input, open_in d stdin name = Some input /\ short_or_giant input.
Proof.
  intros d stdin args R. rewrite defined_plain. unfold ppm2pwg_run. pose proof (get_args_plain ppm2pwg_switches ppm2pwg_pos ppm2pwg_init args) as P.
  destruct (get_args ppm2pwg_switches ppm2pwg_pos ppm2pwg_init args) as [[[ok msg] st]| | | |] eqn:E; try destruct P; [|left; exact I]. specialize (R _ _ eq_refl). cbn [bind].
  destruct (as_bool _); [left; exact I|]. destruct (negb ok); [left; exact I|]. destruct (ppm2pwg_params (ppm_opts_of st)) as [p|] eqn:Ep; [|left; exact I].
  destruct (open_in d stdin (as_str (a_val st 14%nat))) as [input|] eqn:Ei; [|left; exact I]. cbv zeta.
  set (d' := create_out d (as_str (a_val st 15%nat))). set (input' := match open_in d' stdin _ with Some input => input | None => [] end).
  assert (K : input' = input \/ input' = []).
  { unfold input', d', create_out, create. destruct (String.eqb _ "-"); [rewrite Ei; left; reflexivity|]. destruct (writable d _); [|rewrite Ei; left; reflexivity].
    unfold open_in in *. cbn [put place held]. destruct (String.eqb (as_str (a_val st 14%nat)) "-"); [left; congruence|]. destruct (Nat.eqb _ _); [right; reflexivity|]. rewrite Ei. left. reflexivity. }
  assert (Q : p_units p = Pixels /\ 1 <= p_hwResW p < 2 ^ 32 /\ 1 <= p_hwResH p < 2 ^ 32).
  { unfold ppm2pwg_params in Ep. destruct (match _ with URF => _ | _ => _ end) in Ep; [discriminate Ep|]. injection Ep as <-. cbn [p_units p_hwResW p_hwResH ppm_opts_of o_res o_resX o_resY]. split; [reflexivity|].
    assert (B : forall z, z mod 2 ^ 32 <> 0 -> 1 <= z mod two32 < 2 ^ 32) by (intros z Hz; change two32 with (2 ^ 32); pose proof (Z.mod_pos_bound z (2 ^ 32) ltac:(lia)); lia).
    pose proof (R 5%nat ltac:(cbn; auto)) as R5. pose proof (R 6%nat ltac:(cbn; auto)) as R6. pose proof (R 7%nat ltac:(cbn; auto)) as R7. unfold if_set.
    split; [destruct (a_set st 6%nat)|destruct (a_set st 7%nat)]; cbn [opt]; try (apply B; auto; fail); destruct (a_set st 5%nat); cbn [opt]; try (apply B; auto; fail); vm_compute; split; congruence. }
  destruct Q as (U & R1 & R2). destruct (ppm2pwg_ends p (opt (o_pages (ppm_opts_of st)) 0) input' U R1 R2) as [P'|P'].
  - left. apply plain_bind; [exact P'|]. intros [code data] _. destruct (save_out d' _ data). exact I.
  - right. exists (as_str (a_val st 14%nat)), input. split; [exact Ei|]. destruct K as [K|K]; rewrite K in P'; [exact P'|destruct (empty_fine P')].
Qed.
(** ippdecode, if the file does not hold a collection cut off in the way of C26 *)
Theorem C113_ippdecode_partial : forall file args,
  (forall name b, file name = Some b -> decodeMsg b <> UB) -> exists r, ippdecode file args = Ok r.
Proof.
  intros file args H. unfold ippdecode. destruct args as [|name [|? ?]]; [eexists; reflexivity| |eexists; reflexivity]. destruct (file name) as [b|] eqn:E; [|eexists; reflexivity].
  specialize (H _ _ E). pose proof (decodeMsg_w_snd b) as S. pose proof (C26_terminates b) as T. destruct (decodeMsg_w b) as [w r]. cbn [snd] in S. subst r.
  destruct (decodeMsg b) as [[m x]| | | |]; try destruct T; try (eexists; reflexivity). contradiction H; reflexivity.
Qed.

Definition files (d : list (string * list byte)) : disk :=
  mkDisk (fun n => match find (fun e => String.eqb (fst (snd e)) n) (combine (seq 0 (length d)) d) with Some (i, _) => i | None => length d end)
         (fun i => match nth_error d i with Some (_, b) => Some b | None => None end) (fun _ => true) (fun _ => 1000%nat).
Definition text (s : string) (l : list Z) : list byte := bytes_of_string s ++ map bZ l.
(** a grey picture of 2 x 1 pixels, whole and without its last byte *)
Definition whole : list byte := text "P5 2 1 255" [10; 7; 8].
Definition short : list byte := text "P5 2 1 255" [10; 7].
(** a picture that is as high as an unsigned long allows *)
Definition giant : list byte := text "P5 1 18446744073709551615 255" [10; 7].
(** a URF file with one page of one grey pixel: two pixels and the code that fills the line *)
Definition urf_over : list byte := text "UNIRAST" ([0; 0; 0; 0; 1] ++ [8; 0; 1; 4; 0; 0; 0; 0; 0; 0; 0; 0] ++ [0; 0; 0; 1; 0; 0; 0; 1; 0; 0; 0; 72; 0; 0; 0; 0; 0; 0; 0; 0] ++ [0; 1; 255; 128]).
(** Findings: a picture with too few bytes, one that is too high, or a resolution of 0 makes ppm2pwg undefined; a URF file
    keeps pwg2ppm busy for ever; a file that ends within a collection makes ippdecode undefined. *)
Theorem C113_refuted :
  ppm2pwg_run (files [("i"%string, short)]) [] ["i"; "o"]%string = UB /\
  ppm2pwg_run (files [("i"%string, giant)]) [] ["i"; "o"]%string = UB /\
  ppm2pwg_run (files [("i"%string, whole)]) [] ["-r"; "0"; "i"; "o"]%string = UB /\
  pwg2ppm_run (files [("i"%string, urf_over)]) ["i"; "o"]%string = Hang /\
  ippdecode (fun _ => Some cut_off) ["i"]%string = UB.
Proof.
  split; [vm_compute; reflexivity|]. split; [vm_compute; reflexivity|]. split; [vm_compute; reflexivity|]. split; [vm_compute; reflexivity|]. vm_compute. reflexivity.
Qed.
(** A file of two whole pictures is neither short nor giant, and it is converted. *)
Lemma page_at_whole l : page_at (whole ++ whole) l -> In l [whole ++ whole; whole; []].
Proof.
  induction 1 as [|l k w h data rest _ IH A B]; [left; reflexivity|]. destruct (announces_read _ _ _ _ _ A) as (xs & ys & E & X & Y).
  destruct IH as [<-|[<-|[<-|[]]]]; [| |destruct (empty_announces _ _ _ _ _ A eq_refl)]; vm_compute in E; destruct k; cbn [magic_of maxval_of] in E; try (vm_compute in E; discriminate E); injection E as <- <- Er;
    vm_compute in X, Y; injection X as <-; injection Y as <-; cbn [row_bytes] in B; destruct data as [|a [|b [|c data]]]; cbn [length] in B; try lia; injection Er as <- <- <-; cbn; auto.
Qed.
Lemma grey_header d : ~ starts (bZ 35) d -> announces (text "P5 2 1 255" [10] ++ d) PGM8 2 1 d.
Proof.
  intros N. exists [], (text " " []), (text "2" []), (text " " []), (text "1" []), (text " 255" []), [newline]. split; [reflexivity|]. split; [constructor|].
  assert (W : white_gap (text " " [])) by (split; [discriminate|]; constructor; [left; reflexivity|constructor]).
  assert (D : forall s, s <> ""%string -> Forall (fun c => is_space c = false) (text s []) -> word (text s [])) by (intros s Hs F; apply nonspace_word; [destruct s; [contradiction|discriminate]|exact F]).
  split; [left; exact W|]. split; [apply D; [discriminate|repeat constructor]|]. split; [apply stoul_text; vm_compute; reflexivity|]. split; [exact W|]. split; [apply D; [discriminate|repeat constructor]|].
  split; [apply stoul_text; vm_compute; reflexivity|]. split; [exists (text " " []); split; [exact W|reflexivity]|]. right. left. exists []. repeat split; [constructor|exact N].
Qed.
Example C113_example : ~ short_or_giant (whole ++ whole) /\
  (exists e, ppm2pwg_run (files [("i"%string, whole ++ whole)]) [] ["i"; "o"]%string = Ok e /\ e_code e = 0) /\ short_or_giant (whole ++ short) /\
  (exists e, ippdecode (fun _ => Some (firstn 20 cut_off)) ["i"]%string = Ok e /\ fst (fst e) = 0).
Proof.
  split; [|split; [|split]].
  - intros (l & k & w & h & rest & At & A & B). apply page_at_whole in At. destruct (announces_read _ _ _ _ _ A) as (xs & ys & E & X & Y).
    destruct At as [<-|[<-|[<-|[]]]]; [| |destruct (empty_announces _ _ _ _ _ A eq_refl)]; vm_compute in E; destruct k; cbn [magic_of maxval_of] in E; try (vm_compute in E; discriminate E); injection E as <- <- <-;
      vm_compute in X, Y; injection X as <-; injection Y as <-; cbn [row_bytes length] in B; lia.
  - eexists. split; [vm_compute; reflexivity|reflexivity].
  - exists short, PGM8, 2, 1, [bZ 7]. split; [|split; [|right; right; reflexivity]].
    + refine (page_next _ _ PGM8 2 1 [bZ 7; bZ 8] _ (page_first _) _ eq_refl). apply (grey_header ([bZ 7; bZ 8] ++ short)). intros [r Hr]. discriminate Hr.
    + apply (grey_header [bZ 7]). intros [r Hr]. discriminate Hr.
  - eexists. split; [vm_compute; reflexivity|reflexivity].
Qed.
Print Assumptions C113_bsplit.
Print Assumptions C113_pwg2ppm_partial.
Print Assumptions C113_ppm2pwg_partial.
Print Assumptions C113_ippdecode_partial.
Print Assumptions C113_refuted.
