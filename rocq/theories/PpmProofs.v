(** Lemmas about ppm2pwg and pwg2ppm (PpmModel.v). *)
From Verif Require Import Base BaseLemmas ListLemmas FloatModel StringModel ParamsModel RasterModel RasterSpec
  HeaderModel HeaderSpec HeaderProofs RasterEncProofs RasterDecProofs FloatLemmas GeometryProofs PageProofs PpmModel PpmSpec.
From Coq Require Import Lia ZifyBool ZifyNat.
Local Open Scope Z_scope.
Ltac Zify.zify_post_hook ::= Z.div_mod_to_equations.

(** ** White space and numbers *)
Lemma white_spec c : white c <-> is_space c = true.
Proof.
  assert (F : forall n : nat, (n < 256)%nat -> forall c, c = ascii_of_nat n -> (white c <-> is_space c = true)).
  { intros n Hn c0 ->.
    assert (K : forallb (fun n => Bool.eqb (is_space (ascii_of_nat n))
        (existsb (Ascii.eqb (ascii_of_nat n)) (map bZ [32; 9; 10; 11; 12; 13]))) (seq 0 256) = true)
      by (vm_compute; reflexivity).
    rewrite forallb_forall in K. specialize (K n). rewrite Bool.eqb_true_iff in K.
    rewrite K by (apply in_seq; lia). unfold white. rewrite existsb_exists. split.
    - intros Hin. exists (ascii_of_nat n). split; [assumption|apply Ascii.eqb_refl].
    - intros (x & Hin & Hx). apply Ascii.eqb_eq in Hx. rewrite Hx. exact Hin. }
  apply (F (nat_of_ascii c)); [apply nat_ascii_bounded|symmetry; apply ascii_nat_embedding].
Qed.

Lemma digit_byte d : 0 <= d <= 9 -> is_digit (bZ (48 + d)) = true /\ digit_val (bZ (48 + d)) = d /\
  is_space (bZ (48 + d)) = false /\ bZ (48 + d) <> bZ 35 /\ bZ (48 + d) <> bZ 10.
Proof.
  intros Hd. unfold is_digit, digit_val, is_space. rewrite !Zb_bZ_small by lia.
  repeat split; try lia; intros E; apply (f_equal Zb) in E; rewrite !Zb_bZ_small in E by lia; lia.
Qed.

Definition digits (l : list byte) : Prop := Forall (fun c => is_digit c = true) l.

Lemma number_digits l v : number l v -> digits l /\ l <> [] /\ 0 <= v.
Proof.
  induction 1 as [d Hd|l v d Hn [IH1 [IH2 IH3]] Hd].
  - destruct (digit_byte d Hd) as (E & _). split; [repeat constructor; assumption|]. split; [discriminate|lia].
  - destruct (digit_byte d Hd) as (E & _). split.
    + apply Forall_app. split; [assumption|repeat constructor; assumption].
    + split; [destruct l; discriminate|lia].
Qed.

Lemma digit_not c : is_digit c = true -> is_space c = false /\ c <> bZ 35 /\ c <> bZ 10 /\ Zb c <> 45 /\ Zb c <> 43.
Proof.
  unfold is_digit, is_space. intros H. pose proof (Zb_range c).
  repeat split; try lia; intros ->; rewrite Zb_bZ_small in H; lia.
Qed.

Lemma scan_digits_app l d acc : digits l -> is_digit d = true ->
  scan_digits (string_of_bytes (l ++ [d])) acc = scan_digits (string_of_bytes l) acc * 10 + digit_val d.
Proof.
  revert acc. induction l as [|c l IH]; intros acc Hl Hd; simpl.
  - rewrite Hd. reflexivity.
  - inversion Hl; subst. rewrite H1. apply IH; assumption.
Qed.

Lemma number_scan l v : number l v -> scan_digits (string_of_bytes l) 0 = v.
Proof.
  induction 1 as [d Hd|l v d Hn IH Hd].
  - destruct (digit_byte d Hd) as (E1 & E2 & _). cbn [string_of_bytes string_of_list_ascii scan_digits].
    rewrite E1, E2. lia.
  - destruct (digit_byte d Hd) as (E1 & E2 & _).
    rewrite scan_digits_app; [|apply (number_digits l v Hn)|assumption]. rewrite IH, E2. lia.
Qed.

Lemma number_stoul l v : number l v -> v < two64 -> stoul (string_of_bytes l) = Ok v.
Proof.
  intros Hn Hv. pose proof (number_digits l v Hn) as (Hd & Hne & Hp). pose proof (number_scan l v Hn) as Hs.
  destruct l as [|c l]; [congruence|]. assert (H1 : is_digit c = true) by (inversion Hd; assumption).
  destruct (digit_not c H1) as (E1 & _ & _ & E2 & E3).
  unfold stoul. cbn [string_of_bytes string_of_list_ascii skip_space]. rewrite E1.
  apply Z.eqb_neq in E2, E3. rewrite E2, E3. cbn [starts_digit]. rewrite H1.
  unfold string_of_bytes in Hs. cbn [string_of_list_ascii] in Hs. rewrite Hs.
  rewrite (proj2 (Z.ltb_lt _ _) Hv). reflexivity.
Qed.

(** dec_string writes a number *)
Lemma dec_digits_number fuel z acc v k : 0 <= z < 10 ^ Z.of_nat fuel -> (1 <= fuel)%nat ->
  0 <= k -> (acc = ""%string -> k = 0 /\ v = 0) ->
  (forall l u, number l u -> number (l ++ bytes_of_string acc) (u * 10 ^ k + v)) ->
  number (bytes_of_string (dec_digits fuel z acc)) (z * 10 ^ k + v).
Proof.
  revert z acc v k. induction fuel as [|f IH]; intros z acc v k Hz Hf Hk Ha Hnum; [lia|].
  cbn [dec_digits].
  assert (Hd : 0 <= z mod 10 <= 9) by lia.
  destruct (Z.ltb_spec z 10) as [Hlt|Hge].
  - rewrite (Z.mod_small z 10) by lia.
    change (bytes_of_string (String (digit_char z) acc)) with ([bZ (48 + z)] ++ bytes_of_string acc).
    apply Hnum. constructor. lia.
  - assert (E : z * 10 ^ k + v = (z / 10) * 10 ^ (k + 1) + ((z mod 10) * 10 ^ k + v)).
    { rewrite Z.pow_add_r by lia. change (10 ^ 1) with 10.
      rewrite (Z.div_mod z 10) at 1 by lia. ring. }
    rewrite E. destruct f as [|f'].
    { change (Z.of_nat 1) with 1 in Hz. lia. }
    apply IH.
    + rewrite (Nat2Z.inj_succ (S f')), Z.pow_succ_r in Hz by lia. lia.
    + lia.
    + lia.
    + discriminate.
    + intros l u Hl.
      change (bytes_of_string (String (digit_char (z mod 10)) acc))
        with ([bZ (48 + z mod 10)] ++ bytes_of_string acc).
      rewrite app_assoc. replace (u * 10 ^ (k + 1) + (z mod 10 * 10 ^ k + v))
        with ((10 * u + z mod 10) * 10 ^ k + v).
      * apply Hnum. apply number_more; assumption.
      * rewrite Z.pow_add_r by lia. change (10 ^ 1) with 10. ring.
Qed.

Lemma dec_string_number z : 0 <= z -> number (bytes_of_string (dec_string z)) z.
Proof.
  intros Hz. unfold dec_string.
  replace z with (z * 10 ^ 0 + 0) at 3 by (rewrite Z.pow_0_r; lia).
  apply dec_digits_number; try lia.
  - split; [assumption|].
    destruct (Z.eq_dec z 0) as [->|Hn]; [vm_compute; reflexivity|].
    rewrite Nat2Z.inj_succ, Z2Nat.id by apply Z.log2_nonneg.
    destruct (Z.log2_spec z) as [_ H2]; [lia|].
    eapply Z.lt_le_trans; [exact H2|]. apply Z.pow_le_mono_l. lia.
  - intros l u Hl. rewrite Z.pow_0_r, Z.mul_1_r, Z.add_0_r, app_nil_r. assumption.
Qed.

(** ** The stream *)
Definition nonwhite_head (l : list byte) : Prop := match l with c :: _ => is_space c = false | [] => False end.
Definition white_head (l : list byte) : Prop := match l with c :: _ => is_space c = true | [] => False end.

Lemma skip_ws_gap gap l : Forall white gap -> nonwhite_head l -> skip_ws (gap ++ l) = l.
Proof.
  induction 1 as [|c gap Hc _ IH]; intros Hl; simpl.
  - destruct l; [contradiction|]. simpl in *. rewrite Hl. reflexivity.
  - apply white_spec in Hc. rewrite Hc. auto.
Qed.

Lemma span_word_ok w l : Forall (fun c => is_space c = false) w -> white_head l -> span_word (w ++ l) = (w, l).
Proof.
  induction 1 as [|c w Hc _ IH]; intros Hl; simpl.
  - destruct l as [|d l]; [contradiction|]. simpl in *. rewrite Hl. reflexivity.
  - rewrite Hc, IH by assumption. reflexivity.
Qed.

Definition good (l : list byte) : istream := mkIn l false false.

Lemma read_word_ok gap w l : Forall white gap -> w <> [] -> Forall (fun c => is_space c = false) w -> white_head l ->
  read_word (good (gap ++ w ++ l)) = (string_of_bytes w, good l).
Proof.
  intros Hg Hw Hn Hl. unfold read_word, good. cbn [i_good i_eof i_fail orb negb i_rest].
  rewrite skip_ws_gap; [|assumption|destruct w; [congruence|inversion Hn; assumption]].
  destruct w as [|c w]; [congruence|].
  pose proof (span_word_ok (c :: w) l Hn Hl) as E. cbn [app] in E |- *.
  match goal with |- context [span_word ?x] => change (span_word x = (c :: w, l)) in E; rewrite E end.
  destruct l; [contradiction|]. reflexivity.
Qed.

Lemma read_word_ok0 w l : w <> [] -> Forall (fun c => is_space c = false) w -> white_head l ->
  read_word (good (w ++ l)) = (string_of_bytes w, good l).
Proof. apply (read_word_ok [] w l). constructor. Qed.

Lemma skip_line_ok body l : ~ In newline body -> skip_line (body ++ newline :: l) = (l, false).
Proof.
  induction body as [|c body IH]; intros Hn; simpl.
  - reflexivity.
  - destruct (Ascii.eqb_spec c "010") as [->|Hc].
    + exfalso. apply Hn. left. reflexivity.
    + apply IH. intros Hin. apply Hn. right. exact Hin.
Qed.

Definition hash : byte := "#"%char.
Lemma hash_eq : hash = bZ 35. Proof. reflexivity. Qed.
Definition not_hash (l : list byte) : Prop := match l with c :: _ => c <> hash | [] => False end.

Lemma ignore_comment_lines_stop f l : not_hash l -> ignore_comment_lines (S f) (good l) = Ok (good l).
Proof.
  destruct l as [|c l]; [contradiction|]. intros Hn. cbn.
  destruct c as [[] [] [] [] [] [] [] []]; try reflexivity. exfalso. apply Hn. reflexivity.
Qed.

Lemma ignore_comment_lines_step f l : ignore_comment_lines (S f) (good (hash :: l))
  = (let '(r, e) := skip_line (hash :: l) in ignore_comment_lines f (mkIn r e false)).
Proof. reflexivity. Qed.

Lemma ignore_comment_lines_ok comments l f : Forall comment_line comments -> not_hash l ->
  (length comments < f)%nat ->
  ignore_comment_lines f (good (concat comments ++ l)) = Ok (good l).
Proof.
  intros Hc Hl. revert f. induction Hc as [|c comments (body & -> & Hb) _ IH]; intros f Hf.
  - destruct f; [simpl in Hf; lia|]. apply ignore_comment_lines_stop. assumption.
  - destruct f; [simpl in Hf; lia|]. cbn [concat]. 
    replace ((bZ 35 :: body ++ [newline]) ++ concat comments ++ l)
      with (hash :: (body ++ newline :: (concat comments ++ l)))
      by (simpl; rewrite <- !app_assoc; reflexivity).
    rewrite <- app_assoc.
    replace ((bZ 35 :: body ++ [newline]) ++ concat comments ++ l)
      with (hash :: (body ++ newline :: (concat comments ++ l)))
      by (simpl; rewrite <- !app_assoc; reflexivity).
    rewrite ignore_comment_lines_step.
    change (hash :: body ++ newline :: concat comments ++ l)
      with ((hash :: body) ++ newline :: (concat comments ++ l)).
    rewrite skip_line_ok by (intros [E|E]; [discriminate|contradiction]).
    apply IH. simpl in Hf. lia.
Qed.

Lemma comment_lines_length comments : Forall comment_line comments -> (length comments <= length (concat comments))%nat.
Proof.
  induction 1 as [|c comments (body & -> & _) _ IH]; simpl; [lia|].
  rewrite !app_length. simpl. lia.
Qed.

Lemma white_not_hash c : is_space c = true -> c <> hash.
Proof. intros H ->. discriminate. Qed.
Lemma gap_digits_not_hash gap w l : Forall white gap -> digits w -> w <> [] -> not_hash (gap ++ w ++ l).
Proof.
  intros Hg Hw Hne. destruct Hg as [|c gap Hc _]; simpl.
  - destruct w as [|d w]; [congruence|]. inversion Hw; subst. simpl. apply digit_not in H1. rewrite hash_eq. tauto.
  - apply white_not_hash. apply white_spec. assumption.
Qed.

Lemma ignore_comments_newline l : ignore_comments (good (newline :: l)) = ignore_comment_lines (S (length l)) (good l).
Proof. reflexivity. Qed.

(** after the magic number: ignore_comments leaves white space and the width *)
Lemma ignore_magic_gap gap w l : magic_gap gap -> digits w -> w <> [] ->
  exists gap', Forall white gap' /\ ignore_comments (good (gap ++ w ++ l)) = Ok (good (gap' ++ w ++ l)).
Proof.
  intros Hg Hw Hne. destruct Hg as [[Hn Hg]|(comments & g & -> & Hc & Hg)].
  - destruct Hg as [|c gap Hc Hg]; [congruence|].
    destruct (Ascii.eqb_spec c "010") as [->|Hnl].
    + exists gap. split; [assumption|]. unfold ignore_comments, good. cbn.
      apply ignore_comment_lines_stop. apply gap_digits_not_hash; assumption.
    + exists (c :: gap). split; [constructor; assumption|].
      unfold ignore_comments.
      assert (E : peek (good ((c :: gap) ++ w ++ l)) = (Some c, good ((c :: gap) ++ w ++ l))) by reflexivity.
      rewrite E. 
      replace (match Some c with
           | Some "010"%char => mkIn (tl (i_rest (good ((c :: gap) ++ w ++ l)))) false false
           | _ => good ((c :: gap) ++ w ++ l) end) with (good ((c :: gap) ++ w ++ l)).
      * apply ignore_comment_lines_stop. apply gap_digits_not_hash; [constructor|..]; assumption.
      * destruct c as [[] [] [] [] [] [] [] []]; try reflexivity. exfalso. apply Hnl. reflexivity.
  - exists g. split; [assumption|]. cbn [app]. rewrite ignore_comments_newline.
    rewrite <- app_assoc. apply ignore_comment_lines_ok; [assumption| |].
    + apply gap_digits_not_hash; assumption.
    + pose proof (comment_lines_length comments Hc). rewrite !app_length. lia.
Qed.

Lemma ignore_tail data : not_hash data -> ignore_comments (good (newline :: data)) = Ok (good data).
Proof. intros H. rewrite ignore_comments_newline. apply ignore_comment_lines_stop. assumption. Qed.

Lemma read_block_ok data rest n : n = Z.of_nat (length data) -> read_block (good (data ++ rest)) n = (data, good rest).
Proof.
  intros ->. unfold read_block, good. cbn [i_good i_eof i_fail orb negb i_rest].
  rewrite (proj2 (Z.leb_le _ _)) by (rewrite app_length; lia).
  rewrite Nat2Z.id, firstn_app, skipn_app, Nat.sub_diag, firstn_all, skipn_all, app_nil_r. reflexivity.
Qed.

(** ** One page *)
Definition kind_mode (k : pnm_kind) : color_mode :=
  match k with PGM8 => Gray8 | PPM8 => sRGB24 | PGM16 => Gray16 | PPM16 => sRGB48 | PBM => Black1 end.

Lemma row_bytes_mode k w : 0 <= w -> row_bytes k w = line_bytes (kind_mode k) w.
Proof. intros Hw. unfold line_bytes. destruct k; cbn [row_bytes kind_mode mode_colors mode_bits]; lia. Qed.

Definition page_params (p : params) (q : picture) : params :=
  with_page p (kind_mode (pic_kind q)) (fofZ (pic_w q)) (fofZ (pic_h q)).

Definition small_picture (q : picture) : Prop := pic_w q <= max_size /\ pic_h q <= max_size.

Lemma digits_nonspace l : digits l -> Forall (fun c => is_space c = false) l.
Proof. apply Forall_impl. intros c Hc. apply digit_not in Hc. tauto. Qed.
Lemma white_gap_head g l : white_gap g -> white_head (g ++ l).
Proof. intros [Hn Hg]. destruct Hg as [|c g Hc _]; [congruence|]. apply white_spec. assumption. Qed.
Lemma magic_gap_head g l : magic_gap g -> white_head (g ++ l).
Proof.
  intros [Hg|(comments & gap & -> & _)]; [apply white_gap_head; assumption|]. reflexivity.
Qed.

Definition readable (p : params) (q : picture) : Prop :=
  small_picture q /\ not_hash (pic_data q) /\
  (pic_kind q = PBM -> pic_w q mod 8 = 0 /\ p_format p <> URF).

Lemma page_pixels p q : p_units p = Pixels -> picture_ok q -> small_picture q ->
  getPaperSizeWInPixels (page_params p q) = Ok (pic_w q) /\ getPaperSizeHInPixels (page_params p q) = Ok (pic_h q).
Proof.
  intros Hu (H1 & H2 & _) (H3 & H4). unfold max_size in *.
  unfold getPaperSizeWInPixels, getPaperSizeHInPixels. cbn [page_params with_page p_units p_sizeW p_sizeH p_hwResW p_hwResH].
  rewrite Hu, !sizeInPixels_pixels by lia. auto.
Qed.

Lemma page_size p q : p_units p = Pixels -> picture_ok q -> small_picture q ->
  getPaperSizeWInBytes (page_params p q) = Ok (row_bytes (pic_kind q) (pic_w q)) /\
  f_to_unsigned 64 (fmul (p_sizeH (page_params p q)) (fofZ (row_bytes (pic_kind q) (pic_w q))))
    = Ok (Z.of_nat (length (pic_data q))).
Proof.
  intros Hu Hok Hs. destruct (page_pixels p q Hu Hok Hs) as [HW HH].
  destruct Hok as (H1 & H2 & H3), Hs as (H4 & H5). unfold max_size in *. split.
  - rewrite (bytes_per_line _ (pic_w q)) by (assumption || lia).
    rewrite line_bytes_eq by lia. rewrite row_bytes_mode by lia. reflexivity.
  - cbn [page_params with_page p_sizeH]. rewrite H3.
    assert (0 <= row_bytes (pic_kind q) (pic_w q) <= 60000000).
    { clear H3. destruct (pic_kind q); cbn [row_bytes]; lia. }
    apply fmul_exact; nia.
Qed.

Lemma ppm_mode_ok f q ws : number ws (pic_w q) -> small_picture q ->
  (pic_kind q = PBM -> pic_w q mod 8 = 0 /\ f <> URF) ->
  ppm_mode f (string_of_bytes (magic_of (pic_kind q))) (string_of_bytes ws)
    (match maxval_of (pic_kind q) with Some m => string_of_bytes m | None => ""%string end)
  = Ok (Some (kind_mode (pic_kind q))).
Proof.
  intros Hn [Hs _] Hk. destruct (pic_kind q); try reflexivity.
  destruct (Hk eq_refl) as [Hm Hf].
  change (string_of_bytes (magic_of PBM)) with "P4"%string. unfold ppm_mode.
  rewrite (number_stoul ws (pic_w q)) by (assumption || (unfold max_size in Hs; unfold two64; lia)).
  cbn [String.eqb Ascii.eqb Bool.eqb bind]. rewrite Hm. cbn. destruct f; congruence.
Qed.

Lemma ppm_page_ok p page q text rest :
  p_units p = Pixels -> pnm_text newline q text -> readable p q ->
  ppm_page p page (good (text ++ rest))
  = let! out := bmp_to_pwg (pic_data q) page (page_params p q) in Ok (Some (out, page_params p q, good rest)).
Proof.
  intros Hu (Hok & hdr & (gap0 & ws & gap1 & hs & mpart & -> & Hg0 & Hws & Hg1 & Hhs & Hm & _) & ->) (Hs & Hh & Hk).
  rewrite <- !app_assoc. set (tl := [newline] ++ pic_data q ++ rest).
  destruct (number_digits _ _ Hws) as (Dw & Nw & _). destruct (number_digits _ _ Hhs) as (Dh & Nh & _).
  unfold ppm_page.
  assert (Ht : white_head (mpart ++ tl)).
  { unfold maxval_part in Hm. destruct (maxval_of (pic_kind q)).
    - destruct Hm as (g & Hg & ->). rewrite <- app_assoc. apply white_gap_head. assumption.
    - rewrite Hm. reflexivity. }
  rewrite (read_word_ok0 (magic_of (pic_kind q))); [| | |apply magic_gap_head; assumption].
  2:{ destruct (pic_kind q); discriminate. }
  2:{ destruct (pic_kind q); repeat constructor. }
  destruct (ignore_magic_gap gap0 ws (gap1 ++ hs ++ mpart ++ tl) Hg0 Dw Nw) as (g' & Hg' & ->).
  cbn [bind].
  rewrite read_word_ok; [|assumption|assumption|apply digits_nonspace; assumption|apply white_gap_head; assumption].
  rewrite read_word_ok; [|apply Hg1|assumption|apply digits_nonspace; assumption|assumption].
  assert (Hr : (if String.eqb (string_of_bytes (magic_of (pic_kind q))) "P6" || String.eqb (string_of_bytes (magic_of (pic_kind q))) "P5"
     then read_word (good (mpart ++ tl)) else (""%string, good (mpart ++ tl)))
     = (match maxval_of (pic_kind q) with Some m => string_of_bytes m | None => ""%string end, good tl)).
  { unfold maxval_part in Hm. destruct (pic_kind q); cbn [maxval_of] in Hm |- *.
    5:{ rewrite Hm. reflexivity. }
    all: destruct Hm as (g & Hg & ->); rewrite <- app_assoc; apply read_word_ok;
      [apply Hg|discriminate|repeat constructor|reflexivity]. }
  rewrite Hr. rewrite ppm_mode_ok by assumption. cbn [bind].
  unfold tl. change ([newline] ++ pic_data q ++ rest) with (newline :: (pic_data q ++ rest)).
  rewrite ignore_tail by (destruct (pic_data q); [contradiction|exact Hh]). cbn [bind].
  assert (pic_w q < two64 /\ pic_h q < two64) as [B1 B2] by (destruct Hs; unfold max_size, two64 in *; lia).
  rewrite (number_stoul ws _ Hws B1), (number_stoul hs _ Hhs B2). cbn [bind].
  fold (page_params p q). destruct (page_size p q Hu Hok Hs) as [-> Hsz]. cbn [bind]. rewrite Hsz. cbn [bind].
  rewrite read_block_ok by reflexivity. reflexivity.
Qed.

(** ** One page written and read back *)
Definition untransformed (p : params) : Prop := back_transform (p_duplexMode p) (p_backXform p) = (false, false).

Lemma page_sane p q : picture_ok q -> small_picture q ->
  1 <= p_hwResW p < 4294967296 -> 1 <= p_hwResH p < 4294967296 -> sane_geometry (page_params p q).
Proof.
  intros (H1 & H2 & _) (H3 & H4) H5 H6. repeat split; cbn [page_params with_page p_sizeW p_sizeH p_hwResW p_hwResH];
    try (apply sane_fofZ); lia.
Qed.

Definition eight_bit (q : picture) : Prop := pic_kind q = PGM8 \/ pic_kind q = PPM8.

(** what write_ppm writes for a picture *)
Definition pic_suffix (q : picture) : string := match pic_kind q with PGM8 => ".pgm"%string | _ => ".ppm"%string end.
Definition pic_colors (q : picture) : Z := match pic_kind q with PGM8 => 1 | _ => 3 end.
Definition pic_file (prefix : string) (page : Z) (q : picture) : string * list byte :=
  write_ppm (pic_data q) (pic_w q) (pic_h q) (pic_colors q) 8 false prefix page.

Lemma data_image p q W H : W = pic_w q -> H = pic_h q -> picture_ok q -> eight_bit q ->
  exists img, image_of_size (unit_bytes (p_colorMode (page_params p q)))
     (line_units (p_colorMode (page_params p q)) (Z.to_nat W)) (Z.to_nat H) img /\ flat img = pic_data q.
Proof.
  intros -> -> (H1 & H2 & H3) He.
  set (c := unit_bytes (p_colorMode (page_params p q))). set (w := line_units (p_colorMode (page_params p q)) (Z.to_nat (pic_w q))).
  assert (E : (Z.to_nat (pic_h q) * (w * c) = length (pic_data q))%nat).
  { subst w c. destruct He as [He|He]; rewrite He in H3; cbn [page_params with_page p_colorMode];
      rewrite He; cbn [kind_mode unit_bytes line_units row_bytes] in *; nia. }
  destruct (cut_lines_ok (Z.to_nat (pic_h q)) w c (pic_data q)) as [Hi Hf]; [lia|].
  exists (cut_lines (Z.to_nat (pic_h q)) w c (pic_data q)). split; [assumption|].
  rewrite Hf, E. apply firstn_all.
Qed.

Lemma no_flip p q page : untransformed p ->
  (if back_side (p_duplexMode (page_params p q)) page
   then back_transform (p_duplexMode (page_params p q)) (p_backXform (page_params p q)) else (false, false)) = (false, false).
Proof.
  intros Hu. cbn [page_params with_page p_duplexMode p_backXform]. rewrite Hu.
  destruct (back_side (p_duplexMode p) page); reflexivity.
Qed.

Ltac plia := try match goal with x := _ : params |- _ => clearbody x end;
  repeat match goal with H : ?T |- _ => match T with page_code _ _ _ _ _ => clear H | @eq (outcome _) _ _ => clear H end end; lia.
Lemma pwg_page_rt p q page :
  p_units p = Pixels -> params_in_range p -> 1 <= p_hwResW p -> 1 <= p_hwResH p ->
  fits_field (p_mediaType p) -> fits_field (p_paperSizeName p) ->
  picture_ok q -> small_picture q -> eight_bit q -> untransformed p -> p_format p <> URF ->
  exists h body, bmp_to_pwg (pic_data q) page (page_params p q) = Ok (encode_pwg_hdr h ++ body) /\
    (forall rest, decode_pwg_hdr (encode_pwg_hdr h ++ rest) = Ok (h, rest)) /\
    (forall rest, raster_to_bmp (body ++ rest) (h_BytesPerLine h) (h_Height h) (h_NumColors h) false = Ok (pic_data q, rest)) /\
    h_Width h = pic_w q /\ h_Height h = pic_h q /\ h_NumColors h = pic_colors q /\ h_BitsPerColor h = 8.
Proof.
  intros Hun HR HrW HrH F1 F2 Hok Hs He Hf Hfmt.
  set (pp := page_params p q).
  destruct (page_pixels p q Hun Hok Hs) as [HW HH]. fold pp in HW, HH.
  destruct HR as (R1 & R2 & R3).
  assert (Hsane : sane_geometry pp) by (apply page_sane; auto; plia).
  destruct (data_image p q _ _ eq_refl eq_refl Hok He) as (img & Himg & Hflat). fold pp in Himg.
  assert (Hbound : 1 <= pic_w q <= max_size /\ 1 <= pic_h q <= max_size) by (destruct Hok as (? & ? & _), Hs; plia).
  unfold max_size in Hbound.
  assert (Hmode : p_colorMode pp = kind_mode (pic_kind q)) by reflexivity.
  assert (Hlb : line_bytes (p_colorMode pp) (pic_w q) < 2147483648).
  { rewrite Hmode, <- row_bytes_mode by plia. destruct He as [He|He]; rewrite He; cbn [row_bytes]; plia. }
  destruct (sane_page None pp page _ _ img [] Hsane HW HH Himg Hlb) as (hdr & body & Hh & Hl & Hb & Hc).
  { intros E. exfalso. apply Hfmt. exact E. }
  rewrite app_nil_r, Hflat in Hb.
  pose proof (no_flip p q page Hf) as Hnf. fold pp in Hnf. rewrite Hnf in Hc. cbn [fst snd] in Hc. unfold xform in Hc.
  assert (Hh' : make_pwg_hdr pp (back_side (p_duplexMode pp) page) = Ok hdr).
  { revert Hh Hfmt. unfold page_header. change (p_format p) with (p_format pp). destruct (p_format pp); congruence. }
  unfold make_pwg_hdr in Hh'.
  destruct (pwg_hdr_of pp (back_side (p_duplexMode pp) page)) as [h| | | |] eqn:Eh; try discriminate.
  inversion Hh'; subst hdr; clear Hh'.
  exists h, body. split; [assumption|].
  assert (Hwf : wf_pwg_hdr h) .
  { apply (pwg_hdr_of_wf pp (back_side (p_duplexMode pp) page)); auto. split; [exact R1|]. split; [exact R2|exact R3]. }
  split; [intros rest; apply decode_encode_pwg; assumption|].
  destruct (pwg_hdr_of_inv _ _ _ Eh) as (psx & psy & W' & H' & bpl & _ & _ & _ & _ & EW & EH & Ebpl & _ & _ & E3 & E4 & E5).
  rewrite HW in EW. rewrite HH in EH. inversion EW; inversion EH; subst W' H'; clear EW EH.
  rewrite (bytes_per_line pp (pic_w q)) in Ebpl by (assumption || plia). inversion Ebpl; subst bpl; clear Ebpl.
  rewrite line_bytes_eq in E5 by plia. unfold two32 in *.
  pose proof (line_bytes_le (p_colorMode pp) (pic_w q) ltac:(plia)) as Hle.
  rewrite Z.mod_small in E3 by plia. rewrite Z.mod_small in E4 by plia. rewrite <- Hmode in E5.
  rewrite Z.mod_small in E5 by plia.
  assert (E6 : h_NumColors h = getNumberOfColors pp /\ h_BitsPerColor h = getBitsPerColor pp).
  { unfold pwg_hdr_of in Eh.
    destruct (round_u32 (getPaperSizeWInPoints pp)); try discriminate. cbn [bind] in Eh.
    destruct (round_u32 (getPaperSizeHInPoints pp)); try discriminate. cbn [bind] in Eh.
    rewrite HW, HH in Eh. cbn [bind] in Eh. destruct (getPaperSizeWInBytes pp); try discriminate.
    inversion Eh. split; reflexivity. }
  destruct E6 as [E6 E7].
  assert (E8 : getNumberOfColors pp = pic_colors q /\ getBitsPerColor pp = 8 /\ Z.of_nat (unit_bytes (p_colorMode pp)) = pic_colors q).
  { unfold getNumberOfColors, getBitsPerColor, pic_colors. rewrite Hmode. destruct He as [He|He]; rewrite He; auto. }
  destruct E8 as (E8 & E9 & E10).
  rewrite E3, E4, E6, E7. split; [|auto].
  intros rest. rewrite E5, E8, <- E10, <- Hflat. rewrite <- line_bytes_eq by plia.
  assert (Hlen : length img = Z.to_nat (pic_h q)) by apply Himg.
  replace (pic_h q) with (Z.of_nat (length img)) by plia.
  apply (raster_to_bmp_ok _ _ None); [apply unit_pos|exact I|exact Hc|unfold two64; plia].
Qed.

Lemma urf_color_space_small m cs : urf_color_space m = Ok cs -> 0 <= cs < 7.
Proof. destruct m; intros E; inversion E; split; reflexivity || discriminate. Qed.
Lemma urf_duplex_small d : 0 <= urf_duplex d < 4.
Proof. destruct d; split; reflexivity || discriminate. Qed.
Lemma quality_small x : 0 <= quality_Z x < 6.
Proof. destruct x; split; reflexivity || discriminate. Qed.
Lemma urf_hdr_shape pp W H h : getPaperSizeWInPixels pp = Ok W -> getPaperSizeHInPixels pp = Ok H ->
  params_in_range pp -> urf_hdr_of pp = Ok h ->
  wf_urf_hdr h /\ u_Width h = W mod two32 /\ u_Height h = H mod two32 /\
  u_BitsPerPixel h = (getNumberOfColors pp * getBitsPerColor pp) mod two8.
Proof.
  intros HW HH (R1 & R2 & R3) Eh. unfold urf_hdr_of in Eh.
  destruct (negb (p_hwResW pp =? p_hwResH pp)); [discriminate|].
  destruct (urf_color_space (p_colorMode pp)) as [cs| | | |] eqn:Ecs; try discriminate. cbn [bind] in Eh.
  destruct (if String.eqb (p_mediaType pp) "" then Ok 0
            else match assoc_str (p_mediaType pp) urf_media_types with Some v => Ok v | None => Throw OutOfRange end)
    as [mt| | | |] eqn:Em; try discriminate. cbn [bind] in Eh.
  destruct (urf_media_ok _ _ Em) as [_ Hmt]. apply urf_color_space_small in Ecs.
  rewrite HW, HH in Eh. cbn [bind] in Eh. injection Eh as <-. split; [|auto].
  pose proof (urf_duplex_small (p_duplexMode pp)). pose proof (quality_small (p_quality pp)).
  clear - Hmt Ecs H0 H1 R1 R2 R3.
  unfold wf_urf_hdr, two8, two32. cbn -[Z.modulo].
  split; repeat (apply Forall_cons; [|]); try apply Forall_nil; try (apply Z.mod_pos_bound; reflexivity); lia.
Qed.
Lemma eight_bit_facts p q : eight_bit q -> 1 <= pic_w q -> let pp := page_params p q in
  getNumberOfColors pp * getBitsPerColor pp = 8 * pic_colors q /\ Z.of_nat (unit_bytes (p_colorMode pp)) = pic_colors q
  /\ (pic_colors q = 1 \/ pic_colors q = 3) /\ line_bytes (p_colorMode pp) (pic_w q) = pic_w q * pic_colors q.
Proof.
  intros He Hw pp. unfold getNumberOfColors, getBitsPerColor, pic_colors.
  change (p_colorMode pp) with (kind_mode (pic_kind q)). rewrite <- row_bytes_mode by lia. clear pp.
  destruct He as [He|He]; rewrite He; cbn [row_bytes]; repeat split; auto; lia.
Qed.

Lemma urf_page_rt p q page :
  p_units p = Pixels -> params_in_range p -> 1 <= p_hwResW p -> p_hwResW p = p_hwResH p ->
  (exists mt, In (p_mediaType p, mt) urf_media_table) ->
  picture_ok q -> small_picture q -> eight_bit q -> untransformed p -> p_format p = URF ->
  exists h body, bmp_to_pwg (pic_data q) page (page_params p q) = Ok (encode_urf_hdr h ++ body) /\
    (forall rest, decode_urf_hdr (encode_urf_hdr h ++ rest) = Ok (h, rest)) /\
    (forall rest, raster_to_bmp (body ++ rest) ((u_Width h * (u_BitsPerPixel h / 8)) mod two32) (u_Height h) (u_BitsPerPixel h / 8) true
       = Ok (pic_data q, rest)) /\
    u_Width h = pic_w q /\ u_Height h = pic_h q /\ u_BitsPerPixel h / 8 = pic_colors q.
Proof.
  intros Hun HR HrW HrH HM Hok Hs He Hf Hfmt.
  set (pp := page_params p q).
  destruct (page_pixels p q Hun Hok Hs) as [HW HH]. fold pp in HW, HH.
  destruct HR as (R1 & R2 & R3).
  assert (Hsane : sane_geometry pp) by (apply page_sane; auto; plia).
  destruct (data_image p q _ _ eq_refl eq_refl Hok He) as (img & Himg & Hflat). fold pp in Himg.
  assert (Hbound : 1 <= pic_w q <= max_size /\ 1 <= pic_h q <= max_size) by (destruct Hok as (? & ? & _), Hs; plia).
  unfold max_size in Hbound.
  assert (Hmode : p_colorMode pp = kind_mode (pic_kind q)) by reflexivity.
  assert (Hlb : line_bytes (p_colorMode pp) (pic_w q) < 2147483648).
  { rewrite Hmode, <- row_bytes_mode by plia. destruct He as [He|He]; rewrite He; cbn [row_bytes]; plia. }
  assert (Hexp : urf_expressible pp).
  { split; [exact HrH|]. split; [|exact HM]. rewrite Hmode. destruct He as [He|He]; rewrite He; eexists; reflexivity. }
  destruct (sane_page None pp page _ _ img [] Hsane HW HH Himg Hlb) as (hdr & body & Hh & Hl & Hb & Hc); [auto|].
  rewrite app_nil_r, Hflat in Hb.
  pose proof (no_flip p q page Hf) as Hnf. fold pp in Hnf. rewrite Hnf in Hc. cbn [fst snd] in Hc. unfold xform in Hc.
  unfold page_header in Hh. change (p_format pp) with (p_format p) in Hh. rewrite Hfmt in Hh.
  unfold make_urf_hdr in Hh.
  destruct (urf_hdr_of pp) as [h| | | |] eqn:Eh; try discriminate. inversion Hh; subst hdr; clear Hh.
  exists h, body. split; [assumption|].
  destruct (eight_bit_facts p q He (proj1 (proj1 Hbound))) as (E8 & E9 & E10 & E11). fold pp in E8, E9, E11.
  destruct (urf_hdr_shape pp _ _ h HW HH) as (Hwf & EW & EH & EB); [split; [exact R1|split; [exact R2|exact R3]]|exact Eh|].
  rewrite E8 in EB. rewrite EW, EH, EB.
  assert (N : (8 * pic_colors q) mod two8 / 8 = pic_colors q /\ pic_w q mod two32 = pic_w q /\ pic_h q mod two32 = pic_h q /\
     (pic_w q * pic_colors q) mod two32 = pic_w q * pic_colors q /\ pic_h q < two64).
  { clear - E10 Hbound. unfold two8, two32, two64. destruct E10 as [-> | ->]; lia. }
  destruct N as (-> & -> & -> & -> & N).
  split; [intros rest; apply decode_encode_urf; assumption|].
  split; [|auto]. intros rest.
  rewrite <- E11, <- E9, <- Hflat. rewrite <- line_bytes_eq by (clear - Hbound; lia).
  assert (Hlen : length img = Z.to_nat (pic_h q)) by apply Himg.
  replace (pic_h q) with (Z.of_nat (length img)) by (clear - Hlen Hbound; lia).
  apply (raster_to_bmp_ok _ _ None); [apply unit_pos|exact I|exact Hc|].
  clear - N Hlen Hbound. lia.
Qed.

(** ** All pages *)
Fixpoint pages_written (p : params) (page : Z) (qs : list picture) (outs : list (list byte)) : Prop :=
  match qs, outs with
  | [], [] => True
  | q :: qs, o :: outs =>
      bmp_to_pwg (pic_data q) page (page_params p q) = Ok o /\ pages_written p (page + 1) qs outs
  | _, _ => False
  end.
Fixpoint pic_files (prefix : string) (page : Z) (qs : list picture) : list (string * list byte) :=
  match qs with
  | [] => []
  | q :: qs => pic_file prefix page q :: pic_files prefix (page + 1) qs
  end.

Lemma page_params_again p q q' : page_params (page_params p q) q' = page_params p q'.
Proof. reflexivity. Qed.
Lemma pages_written_again p q page qs outs : pages_written (page_params p q) page qs outs <-> pages_written p page qs outs.
Proof.
  revert page outs. induction qs as [|q' qs IH]; intros page [|o outs]; simpl; try tauto.
  rewrite page_params_again, IH. tauto.
Qed.

Lemma text_nonempty q text : pnm_text newline q text -> text <> [].
Proof.
  intros (_ & hdr & (gap0 & ws & gap1 & hs & mpart & -> & _) & ->). destruct (pic_kind q); discriminate.
Qed.

Lemma ppm_pages_end f p page l : ppm_pages (S f) p page (mkIn l true false) = Ok (0, []).
Proof. reflexivity. Qed.

Lemma ppm_pages_ok qs texts : Forall2 (pnm_text newline) qs texts -> forall p outs page f,
  p_units p = Pixels -> Forall (readable p) qs -> pages_written p (page + 1) qs outs ->
  qs <> [] -> (length qs < f)%nat ->
  ppm_pages f p page (good (concat texts)) = Ok (0, concat outs).
Proof.
  induction 1 as [|q text qs texts Ht Hts IH]; intros p outs page f Hu Hr Hw Hne Hf; [congruence|].
  destruct f as [|f]; [lia|]. destruct outs as [|o outs]; [contradiction|]. destruct Hw as [Ho Hw].
  inversion Hr as [|? ? Hq Hqs]; subst. cbn [concat ppm_pages i_eof good].
  change (mkIn (text ++ concat texts) false false) with (good (text ++ concat texts)).
  rewrite (ppm_page_ok p (page + 1) q) by assumption. rewrite Ho. cbn [bind].
  destruct qs as [|q' qs].
  - inversion Hts; subst. destruct outs; [|contradiction]. cbn. destruct f; [simpl in Hf; lia|].
    rewrite ppm_pages_end. cbn [bind]. reflexivity.
  - assert (Hn : concat texts <> []).
    { inversion Hts; subst. pose proof (text_nonempty _ _ H1). cbn. destruct y; [congruence|discriminate]. }
    assert (Hp : peek (good (concat texts)) = (hd_error (concat texts), good (concat texts))).
    { destruct (concat texts); [congruence|reflexivity]. }
    rewrite Hp. rewrite (IH (page_params p q) outs).
    + reflexivity.
    + exact Hu.
    + exact Hqs.
    + apply pages_written_again. exact Hw.
    + discriminate.
    + simpl in *. lia.
Qed.

Lemma ppm2pwg_ok p pages qs texts outs : Forall2 (pnm_text newline) qs texts ->
  p_units p = Pixels -> Forall (readable p) qs -> pages_written p 1 qs outs -> qs <> [] ->
  ppm2pwg p pages (concat texts) = Ok (0, ppm2pwg_file_hdr p pages ++ concat outs).
Proof.
  intros Ht Hu Hr Hw Hne. unfold ppm2pwg. change (mkIn (concat texts) false false) with (good (concat texts)).
  rewrite (ppm_pages_ok qs texts Ht p outs); auto.
  assert (length qs <= length (concat texts))%nat; [|lia].
  clear - Ht. induction Ht as [|q t qs texts Hq _ IH]; simpl; [lia|].
  pose proof (text_nonempty _ _ Hq). rewrite app_length. destruct t; [congruence|]. simpl. lia.
Qed.

Lemma pwg_pages_rt qs : forall p page,
  p_units p = Pixels -> params_in_range p -> 1 <= p_hwResW p -> 1 <= p_hwResH p ->
  fits_field (p_mediaType p) -> fits_field (p_paperSizeName p) -> untransformed p -> p_format p <> URF ->
  Forall (fun q => picture_ok q /\ small_picture q /\ eight_bit q) qs ->
  exists outs, pages_written p (page + 1) qs outs /\ (length qs <= length (concat outs))%nat /\
    forall prefix f, (length qs < f)%nat -> pwg_pages f (concat outs) page prefix = Ok (pic_files prefix (page + 1) qs).
Proof.
  induction qs as [|q qs IH]; intros p page Hu HR H1 H2 F1 F2 Hx Hf Hall.
  - exists []. split; [exact I|]. split; [simpl; lia|]. intros prefix f Hlt. destruct f; [simpl in Hlt; lia|]. reflexivity.
  - inversion Hall as [|? ? (Hok & Hs & He) Hall']; subst.
    destruct (IH p (page + 1) Hu HR H1 H2 F1 F2 Hx Hf Hall') as (outs & Hw & Hlen & Hrd).
    destruct (pwg_page_rt p q (page + 1) Hu HR H1 H2 F1 F2 Hok Hs He Hx Hf) as (h & body & Hb & Hd & Hras & E1 & E2 & E3 & E4).
    assert (Hne : encode_pwg_hdr h <> []).
    { intros E. pose proof (encode_pwg_hdr_length h) as El. rewrite E in El. discriminate. }
    exists ((encode_pwg_hdr h ++ body) :: outs). split; [split; assumption|]. split.
    { cbn [concat length]. rewrite !app_length. pose proof (encode_pwg_hdr_length h). simpl. lia. }
    intros prefix f Hlt. destruct f; [simpl in Hlt; lia|].
    cbn [concat pwg_pages]. rewrite <- app_assoc.
    destruct (encode_pwg_hdr h ++ body ++ concat outs) as [|c l] eqn:El.
    { apply app_eq_nil in El. destruct El. congruence. }
    rewrite <- El. rewrite Hd. cbn [bind]. rewrite Hras. cbn [bind].
    rewrite Hrd by (simpl in Hlt; lia). cbn [bind pic_files]. rewrite E1, E2, E3, E4. reflexivity.
Qed.

Lemma urf_pages_rt qs : forall p page,
  p_units p = Pixels -> params_in_range p -> 1 <= p_hwResW p -> p_hwResW p = p_hwResH p ->
  (exists mt, In (p_mediaType p, mt) urf_media_table) -> untransformed p -> p_format p = URF ->
  Forall (fun q => picture_ok q /\ small_picture q /\ eight_bit q) qs ->
  exists outs, pages_written p (page + 1) qs outs /\ (length qs <= length (concat outs))%nat /\
    forall prefix f, (length qs < f)%nat -> urf_pages f (concat outs) page prefix = Ok (pic_files prefix (page + 1) qs).
Proof.
  induction qs as [|q qs IH]; intros p page Hu HR H1 H2 F1 Hx Hf Hall.
  - exists []. split; [exact I|]. split; [simpl; lia|]. intros prefix f Hlt. destruct f; [simpl in Hlt; lia|]. reflexivity.
  - inversion Hall as [|? ? (Hok & Hs & He) Hall']; subst.
    destruct (IH p (page + 1) Hu HR H1 H2 F1 Hx Hf Hall') as (outs & Hw & Hlen & Hrd).
    destruct (urf_page_rt p q (page + 1) Hu HR H1 H2 F1 Hok Hs He Hx Hf) as (h & body & Hb & Hd & Hras & E1 & E2 & E3).
    exists ((encode_urf_hdr h ++ body) :: outs). split; [split; assumption|]. split.
    { cbn [concat length]. rewrite !app_length, encode_urf_hdr_length. simpl. lia. }
    intros prefix f Hlt. destruct f; [simpl in Hlt; lia|].
    cbn [concat urf_pages]. rewrite <- app_assoc.
    destruct (encode_urf_hdr h ++ body ++ concat outs) as [|c l] eqn:El; [discriminate|].
    rewrite <- El. rewrite Hd. cbn [bind]. rewrite Hras. cbn [bind].
    rewrite Hrd by (simpl in Hlt; lia). cbn [bind pic_files]. rewrite E1, E2, E3. reflexivity.
Qed.

(** what write_ppm writes is PNM text *)
Lemma pic_file_text prefix page q : picture_ok q -> eight_bit q -> pnm_text newline q (snd (pic_file prefix page q)).
Proof.
  intros Hok He. split; [assumption|]. destruct Hok as (H1 & H2 & _).
  set (ws := bytes_of_string (dec_string (pic_w q))). set (hs := bytes_of_string (dec_string (pic_h q))).
  exists (magic_of (pic_kind q) ++ [newline] ++ ws ++ [bZ 32] ++ hs ++ ([newline] ++ map bZ [50; 53; 53]) ++ [newline]). split.
  - exists [newline], ws, [bZ 32], hs, ([newline] ++ map bZ [50; 53; 53]).
    split; [reflexivity|]. split; [left; split; [discriminate|repeat constructor; right; right; left; reflexivity]|].
    split; [apply dec_string_number; lia|].
    split; [split; [discriminate|repeat constructor; left; reflexivity]|].
    split; [apply dec_string_number; lia|]. split.
    + unfold maxval_part. destruct He as [He|He]; rewrite He; cbn [maxval_of];
        exists [newline]; (split; [split; [discriminate|repeat constructor; right; right; left; reflexivity]|reflexivity]).
    + right; right; left; reflexivity.
  - unfold pic_file, write_ppm, pic_colors. fold ws hs.
    destruct He as [He|He]; rewrite He; cbn -[ws hs app]; rewrite <- !app_assoc; reflexivity.
Qed.

(** ** A PNM header can be read in one way only *)
Definition head_not (P : byte -> Prop) (l : list byte) : Prop := match l with [] => True | c :: _ => ~ P c end.
Lemma span_unique (P : byte -> Prop) a : forall b r s, Forall P a -> Forall P b -> head_not P r -> head_not P s ->
  a ++ r = b ++ s -> a = b /\ r = s.
Proof.
  induction a as [|x a IH]; intros [|y b] r s Ha Hb Hr Hs E; cbn [app] in E.
  - auto.
  - subst r. inversion Hb; subst. contradiction.
  - subst s. inversion Ha; subst. contradiction.
  - inversion E; subst. inversion Ha; inversion Hb; subst. destruct (IH b r s) as [-> ->]; auto.
Qed.

Definition is_dig (c : byte) : Prop := is_digit c = true.
Definition dig_head (l : list byte) : Prop := match l with [] => False | c :: _ => is_digit c = true end.
Lemma dig_head_white l : dig_head l -> head_not white l.
Proof. destruct l; [intros; exact I|]. intros H W. apply white_spec in W. apply digit_not in H. destruct H. congruence. Qed.
Lemma white_head_dig l : white_head l -> head_not is_dig l.
Proof. destruct l; [intros; exact I|]. unfold white_head, is_dig. intros H W. apply digit_not in W. destruct W. simpl in *. congruence. Qed.
Lemma number_unique l v v' : number l v -> number l v' -> v = v'.
Proof. intros H1 H2. rewrite <- (number_scan _ _ H1). apply number_scan. assumption. Qed.
Lemma number_dig_head l v r : number l v -> dig_head (l ++ r).
Proof. intros H. apply number_digits in H. destruct H as (Hd & Hn & _). destruct l as [|c l]; [congruence|]. inversion Hd; assumption. Qed.

Lemma comment_line_unique a b r s : comment_line a -> comment_line b -> a ++ r = b ++ s -> a = b /\ r = s.
Proof.
  intros (x & -> & Hx) (y & -> & Hy) E. cbn [app] in E. inversion E as [E']. rewrite <- !app_assoc in E'.
  destruct (span_unique (fun c => c <> newline) x y ([newline] ++ r) ([newline] ++ s)) as [-> Er]; auto.
  - apply Forall_forall. intros c Hc ->. contradiction.
  - apply Forall_forall. intros c Hc ->. contradiction.
  - cbn [app head_not]. auto.
  - cbn [app head_not]. auto.
  - inversion Er. auto.
Qed.
Lemma comments_unique cs : forall cs' g g' r r', Forall comment_line cs -> Forall comment_line cs' ->
  Forall white g -> Forall white g' -> dig_head r -> dig_head r' ->
  concat cs ++ g ++ r = concat cs' ++ g' ++ r' -> cs = cs' /\ g = g' /\ r = r'.
Proof.
  assert (Hh : forall c g r l, comment_line c -> Forall white g -> dig_head r -> c ++ l = g ++ r -> False).
  { intros c g r l (b & -> & _) Hg Hr E. cbn [app] in E. destruct Hg as [|w g Hw Hg].
    - cbn [app] in E. subst r. simpl in Hr. discriminate.
    - cbn [app] in E. inversion E. subst w. apply white_spec in Hw. discriminate. }
  induction cs as [|c cs IH]; intros [|c' cs'] g g' r r' Hc Hc' Hg Hg' Hr Hr' E; cbn [concat app] in E.
  - destruct (span_unique white g g' r r') as [-> ->]; auto using dig_head_white.
  - exfalso. inversion Hc'; subst. rewrite <- app_assoc in E. symmetry in E. eauto.
  - exfalso. inversion Hc; subst. rewrite <- app_assoc in E. eauto.
  - rewrite <- !app_assoc in E. inversion Hc; inversion Hc'; subst.
    destruct (comment_line_unique c c' _ _ H1 H5 E) as [-> E'].
    destruct (IH cs' g g' r r') as (-> & -> & ->); auto.
Qed.

Lemma magic_gap_cases g : magic_gap g ->
  (exists c g', g = c :: g' /\ c <> newline /\ Forall white g) \/
  (exists cs g', g = newline :: concat cs ++ g' /\ Forall comment_line cs /\ Forall white g').
Proof.
  intros [[Hn Hw]|H]; [|right; exact H]. destruct Hw as [|c g Hc Hw]; [congruence|].
  destruct (Ascii.ascii_dec c newline) as [->|Hne].
  - right. exists [], g. auto.
  - left. exists c, g. auto.
Qed.
Lemma magic_gap_unique g g' r r' : magic_gap g -> magic_gap g' -> dig_head r -> dig_head r' ->
  g ++ r = g' ++ r' -> g = g' /\ r = r'.
Proof.
  intros Hg Hg' Hr Hr' E.
  destruct (magic_gap_cases g Hg) as [(c & t & -> & Hc & Ht)|(cs & t & -> & Hcs & Ht)];
    destruct (magic_gap_cases g' Hg') as [(c' & t' & -> & Hc' & Ht')|(cs' & t' & -> & Hcs' & Ht')].
  - apply (span_unique white); auto using dig_head_white.
  - cbn [app] in E. congruence.
  - cbn [app] in E. congruence.
  - cbn [app] in E. inversion E as [E']. rewrite <- !app_assoc in E'.
    destruct (comments_unique cs cs' t t' r r') as (-> & -> & ->); auto.
Qed.

Lemma pnm_header_unique k w h t hdr data k' w' h' t' hdr' data' :
  pnm_header k w h t hdr -> pnm_header k' w' h' t' hdr' -> hdr ++ data = hdr' ++ data' ->
  k = k' /\ w = w' /\ h = h' /\ t = t' /\ hdr = hdr' /\ data = data'.
Proof.
  intros (g0 & ws & g1 & hs & mp & -> & H1 & H2 & H3 & H4 & H5 & H6)
         (g0' & ws' & g1' & hs' & mp' & -> & H1' & H2' & H3' & H4' & H5' & H6') E.
  rewrite <- !app_assoc in E.
  assert (Em : magic_of k = magic_of k' /\ g0 ++ ws ++ g1 ++ hs ++ mp ++ [t] ++ data = g0' ++ ws' ++ g1' ++ hs' ++ mp' ++ [t'] ++ data').
  { apply app_inj_length; [destruct k, k'; reflexivity|assumption]. }
  clear E. destruct Em as [Em E].
  assert (Wm : forall t d, white t -> white_head ([t] ++ d)) by (intros ? ? Hw; apply white_spec; exact Hw).
  assert (Hmp : forall k mp t d, maxval_part k mp -> white t -> white_head (mp ++ [t] ++ d)).
  { intros k0 mp0 t0 d Hp Hw. unfold maxval_part in Hp. destruct (maxval_of k0).
    - destruct Hp as (g & Hg & ->). rewrite <- app_assoc. apply white_gap_head. assumption.
    - subst. apply Wm. assumption. }
  apply magic_gap_unique in E; auto; try (eapply number_dig_head; eassumption). destruct E as [<- E].
  assert (D : forall l v, number l v -> Forall is_dig l) by (intros ? ? Hn; apply number_digits in Hn; apply Hn).
  apply (span_unique is_dig) in E; eauto; try (apply white_head_dig, white_gap_head; assumption). destruct E as [<- E].
  apply (span_unique white) in E; try apply H3; try apply H3';
    try (eapply dig_head_white, number_dig_head; eassumption). destruct E as [<- E].
  apply (span_unique is_dig) in E; eauto; try (apply white_head_dig; eapply Hmp; eassumption). destruct E as [<- E].
  pose proof (number_unique _ _ _ H2 H2') as <-. pose proof (number_unique _ _ _ H4 H4') as <-.
  clear H2' H4' H1' H3'.
  unfold maxval_part in H5, H5'.
  destruct (maxval_of k) as [m|] eqn:Ek, (maxval_of k') as [m'|] eqn:Ek'.
  2:{ destruct k, k'; discriminate. }
  2:{ destruct k, k'; discriminate. }
  - destruct H5 as (g & Hg & ->), H5' as (g' & Hg' & ->). rewrite <- !app_assoc in E.
    assert (Dm : forall k m, maxval_of k = Some m -> Forall is_dig m /\ m <> []).
    { intros k0 m0 Hk. destruct k0; inversion Hk; (split; [repeat constructor|discriminate]). }
    destruct (Dm _ _ Ek) as [D1 D1'], (Dm _ _ Ek') as [D2 D2'].
    apply (span_unique white) in E; try apply Hg; try apply Hg';
      try (apply dig_head_white; destruct m as [|? ?]; [congruence|]; inversion D1; assumption);
      try (apply dig_head_white; destruct m' as [|? ?]; [congruence|]; inversion D2; assumption).
    destruct E as [<- E].
    apply (span_unique is_dig) in E; auto; try (apply white_head_dig, Wm; assumption).
    destruct E as [<- E]. inversion E; subst.
    assert (k = k') as <- by (destruct k, k'; try reflexivity; try discriminate; rewrite <- Ek in Ek'; discriminate).
    repeat split; reflexivity.
  - subst mp mp'. cbn [app] in E. inversion E; subst.
    assert (k = k') as <- by (destruct k, k'; try reflexivity; discriminate). repeat split; reflexivity.
Qed.

(** ** write_ppm *)
Lemma cmyk2rgb_length l : forall n, length l = (4 * n)%nat -> length (cmyk2rgb l) = (3 * n)%nat.
Proof.
  intros n. revert l. induction n as [|n IH]; intros l Hl.
  - destruct l; [reflexivity|discriminate].
  - destruct l as [|a [|b [|c [|d l]]]]; try (simpl in Hl; lia). cbn [cmyk2rgb length].
    rewrite IH by (simpl in Hl; lia). lia.
Qed.

Definition ppm_kind (colors : Z) : pnm_kind := if colors =? 1 then PGM8 else PPM8.
Definition ppm_data (colors : Z) (bmp : list byte) : list byte := if colors =? 4 then cmyk2rgb bmp else bmp.
Lemma write_ppm_text bmp w h colors black prefix page : 1 <= w -> 1 <= h ->
  (colors = 1 \/ colors = 3 \/ colors = 4) -> Z.of_nat (length bmp) = h * (w * colors) ->
  pnm_text newline (mkPic (ppm_kind colors) w h (ppm_data colors bmp))
    (snd (write_ppm bmp w h colors 8 black prefix page)).
Proof.
  intros Hw Hh Hc Hl.
  pose (q := mkPic (ppm_kind colors) w h (ppm_data colors bmp)).
  assert (Hok : picture_ok q).
  { unfold picture_ok, q, ppm_kind, ppm_data. cbn [pic_w pic_h pic_data pic_kind].
    split; [assumption|]. split; [assumption|].
    destruct Hc as [->|[->| ->]]; cbn [Z.eqb Pos.eqb row_bytes]; try lia.
    rewrite (cmyk2rgb_length bmp (Z.to_nat (h * w))) by nia. nia. }
  assert (He : eight_bit q).
  { unfold eight_bit, q, ppm_kind. cbn. destruct (colors =? 1); auto. }
  assert (Hs : snd (write_ppm bmp w h colors 8 black prefix page) = snd (pic_file prefix page q)).
  { unfold write_ppm, pic_file, q, pic_colors, ppm_kind, ppm_data.
    destruct Hc as [->|[->| ->]]; reflexivity. }
  rewrite Hs. apply pic_file_text; assumption.
Qed.

(** ** What the header decoders return *)
Definition suffix (r s : list byte) : Prop := exists u, s = u ++ r.
Lemma suffix_refl s : suffix s s. Proof. exists []. reflexivity. Qed.
Lemma suffix_trans a b c : suffix a b -> suffix b c -> suffix a c.
Proof. intros [u ->] [v ->]. exists (v ++ u). rewrite app_assoc. reflexivity. Qed.
Lemma get_u8_inv s v r : get_u8 s = Ok (v, r) -> 0 <= v < 256 /\ suffix r s.
Proof. destruct s as [|a s]; [discriminate|]. intros E. inversion E; subst. split; [apply Zb_range|exists [a]; reflexivity]. Qed.
Lemma get_u32_inv s v r : get_u32 s = Ok (v, r) -> 0 <= v < two32 /\ suffix r s.
Proof.
  destruct s as [|a [|b [|c [|d s]]]]; try discriminate. intros E. inversion E; subst.
  split; [|exists [a; b; c; d]; reflexivity].
  unfold un32, un16, two32. pose proof (Zb_range a). pose proof (Zb_range b). pose proof (Zb_range c). pose proof (Zb_range d). lia.
Qed.
Lemma get_s32_inv s v r : get_s32 s = Ok (v, r) -> suffix r s.
Proof.
  unfold get_s32. destruct (get_u32 s) as [[x y]| | | |] eqn:E; try discriminate. cbn [bind]. intros H. inversion H; subst.
  apply get_u32_inv in E. apply E.
Qed.
Lemma get_bytes_inv n s v r : get_bytes n s = Ok (v, r) -> suffix r s.
Proof.
  unfold get_bytes. destruct (n <=? Z.of_nat (length s)); [|discriminate]. intros E. inversion E; subst.
  exists (firstn (Z.to_nat n) s). rewrite firstn_skipn. reflexivity.
Qed.
Lemma get_str_inv n s v r : get_str_field n s = Ok (v, r) -> suffix r s.
Proof.
  unfold get_str_field. destruct (get_bytes n s) as [[x y]| | | |] eqn:E; try discriminate. cbn [bind].
  intros H. inversion H; subst. eapply get_bytes_inv. eassumption.
Qed.


Lemma u8_bind {B} s (k : Z * list byte -> outcome B) x : bind (get_u8 s) k = Ok x ->
  exists v r, (0 <= v < 256 /\ suffix r s) /\ k (v, r) = Ok x.
Proof. destruct (get_u8 s) as [[v r]| | | |] eqn:E; try discriminate. apply get_u8_inv in E. eauto. Qed.
Lemma u32_bind {B} s (k : Z * list byte -> outcome B) x : bind (get_u32 s) k = Ok x ->
  exists v r, (0 <= v < two32 /\ suffix r s) /\ k (v, r) = Ok x.
Proof. destruct (get_u32 s) as [[v r]| | | |] eqn:E; try discriminate. apply get_u32_inv in E. eauto. Qed.
Lemma s32_bind {B} s (k : Z * list byte -> outcome B) x : bind (get_s32 s) k = Ok x ->
  exists v r, (True /\ suffix r s) /\ k (v, r) = Ok x.
Proof. destruct (get_s32 s) as [[v r]| | | |] eqn:E; try discriminate. apply get_s32_inv in E. eauto 6. Qed.
Lemma bytes_bind {B} n s (k : list byte * list byte -> outcome B) x : bind (get_bytes n s) k = Ok x ->
  exists v r, (True /\ suffix r s) /\ k (v, r) = Ok x.
Proof. destruct (get_bytes n s) as [[v r]| | | |] eqn:E; try discriminate. apply get_bytes_inv in E. eauto 6. Qed.
Lemma str_bind {B} n s (k : string * list byte -> outcome B) x : bind (get_str_field n s) k = Ok x ->
  exists v r, (True /\ suffix r s) /\ k (v, r) = Ok x.
Proof. destruct (get_str_field n s) as [[v r]| | | |] eqn:E; try discriminate. apply get_str_inv in E. eauto 6. Qed.
Lemma suffix_step r s t (P : Prop) : suffix s t -> P /\ suffix r s -> P /\ suffix r t.
Proof. intros H [H1 H2]. split; [assumption|]. eapply suffix_trans; eassumption. Qed.

Ltac hdr_step H S :=
  first [ apply u32_bind in H | apply u8_bind in H | apply bytes_bind in H | apply str_bind in H | apply s32_bind in H ];
  let v := fresh "v" in let r := fresh "r" in let R := fresh "R" in let E := fresh "E" in
  destruct H as (v & r & E & H); cbv beta iota in H; apply (suffix_step _ _ _ _ S) in E; clear S; destruct E as [R S].
Lemma decode_pwg_hdr_inv s h r : decode_pwg_hdr s = Ok (h, r) ->
  suffix r s /\ 0 <= h_Width h < two32 /\ 0 <= h_Height h < two32 /\ 0 <= h_BytesPerLine h < two32 /\
  0 <= h_NumColors h < two32 /\ 0 <= h_BitsPerColor h < two32.
Proof.
  unfold decode_pwg_hdr. intros H. pose proof (suffix_refl s) as S. repeat hdr_step H S.
  injection H as <- <-. repeat split; first [exact S | cbn; lia].
Qed.
Lemma decode_urf_hdr_inv s h r : decode_urf_hdr s = Ok (h, r) ->
  suffix r s /\ 0 <= u_Width h < two32 /\ 0 <= u_Height h < two32 /\ 0 <= u_BitsPerPixel h < 256.
Proof.
  unfold decode_urf_hdr. intros H. pose proof (suffix_refl s) as S. repeat hdr_step H S.
  injection H as <- <-. repeat split; first [exact S | cbn; lia].
Qed.

(** ** The pages pwg2ppm writes *)
Lemma pwg_pages_trace f : forall file page prefix files, 256 * Z.of_nat (length file) < two64 ->
  pwg_pages f file page prefix = Ok files ->
  forall i fl, nth_error files i = Some fl -> exists mid after h bmp,
    suffix mid file /\ decode_pwg_hdr mid = Ok (h, after) /\
    Z.of_nat (length bmp) = h_Height h * h_BytesPerLine h /\
    fl = write_ppm bmp (h_Width h) (h_Height h) (h_NumColors h) (h_BitsPerColor h) (h_ColorSpace h =? 3)
           prefix (page + 1 + Z.of_nat i).
Proof.
  induction f as [|f IH]; intros file page prefix files Hl E i fl Hi; [discriminate|].
  cbn [pwg_pages] in E. destruct file as [|c0 file0]; [inversion E; subst; destruct i; discriminate|].
  set (file := c0 :: file0) in *. clearbody file. clear c0 file0.
  destruct (decode_pwg_hdr file) as [[h file1]| | | |] eqn:Eh; try discriminate. cbn [bind] in E.
  destruct (decode_pwg_hdr_inv _ _ _ Eh) as (S1 & B1 & B2 & B3 & B4 & B5).
  assert (Hl1 : 256 * Z.of_nat (length file1) < two64).
  { destruct S1 as [u ->]. rewrite app_length in Hl. clear - Hl. lia. }
  pose proof (raster_to_bmp_total file1 (h_BytesPerLine h) (h_Height h) (h_NumColors h) false
    ltac:(clear - B4; lia) ltac:(clear - B2; unfold two32, two64 in *; lia) Hl1) as HT.
  destruct (raster_to_bmp file1 (h_BytesPerLine h) (h_Height h) (h_NumColors h) false) as [[bmp file2]| | | |]; try discriminate.
  cbn [bind] in E. destruct HT as (HT & S2).
  destruct (pwg_pages f file2 (page + 1) prefix) as [rest| | | |] eqn:Er; try discriminate. cbn [bind] in E.
  injection E as <-. destruct i as [|i]; cbn [nth_error] in Hi.
  - injection Hi as <-. exists file, file1, h, bmp. split; [apply suffix_refl|]. split; [assumption|]. split; [assumption|].
    change (Z.of_nat 0) with 0. rewrite Z.add_0_r. reflexivity.
  - assert (S3 : suffix file2 file) by (eapply suffix_trans; eassumption).
    destruct (IH file2 (page + 1) prefix rest) with (i := i) (fl := fl) as (mid & after & h' & bmp' & M1 & M2 & M3 & M4); auto.
    { destruct S3 as [u ->]. rewrite app_length in Hl. clear - Hl. lia. }
    exists mid, after, h', bmp'. split; [eapply suffix_trans; eassumption|]. split; [assumption|]. split; [assumption|].
    rewrite M4. f_equal. clear. lia.
Qed.

Lemma urf_pages_trace f : forall file page prefix files, 256 * Z.of_nat (length file) < two64 ->
  urf_pages f file page prefix = Ok files ->
  forall i fl, nth_error files i = Some fl -> exists mid after h bmp,
    suffix mid file /\ decode_urf_hdr mid = Ok (h, after) /\
    Z.of_nat (length bmp) = u_Height h * ((u_Width h * (u_BitsPerPixel h / 8)) mod two32) /\
    fl = write_ppm bmp (u_Width h) (u_Height h) (u_BitsPerPixel h / 8) 8 false prefix (page + 1 + Z.of_nat i).
Proof.
  induction f as [|f IH]; intros file page prefix files Hl E i fl Hi; [discriminate|].
  cbn [urf_pages] in E. destruct file as [|c0 file0]; [inversion E; subst; destruct i; discriminate|].
  set (file := c0 :: file0) in *. clearbody file. clear c0 file0.
  destruct (decode_urf_hdr file) as [[h file1]| | | |] eqn:Eh; try discriminate. cbn [bind] in E.
  destruct (decode_urf_hdr_inv _ _ _ Eh) as (S1 & B1 & B2 & B3).
  assert (Hl1 : 256 * Z.of_nat (length file1) < two64).
  { destruct S1 as [u ->]. rewrite app_length in Hl. clear - Hl. lia. }
  pose proof (raster_to_bmp_total file1 ((u_Width h * (u_BitsPerPixel h / 8)) mod two32) (u_Height h) (u_BitsPerPixel h / 8) true
    ltac:(clear - B3; lia) ltac:(clear - B2; unfold two32, two64 in *; lia) Hl1) as HT.
  destruct (raster_to_bmp file1 ((u_Width h * (u_BitsPerPixel h / 8)) mod two32) (u_Height h) (u_BitsPerPixel h / 8) true)
    as [[bmp file2]| | | |]; try discriminate.
  cbn [bind] in E. destruct HT as (HT & S2).
  destruct (urf_pages f file2 (page + 1) prefix) as [rest| | | |] eqn:Er; try discriminate. cbn [bind] in E.
  injection E as <-. destruct i as [|i]; cbn [nth_error] in Hi.
  - injection Hi as <-. exists file, file1, h, bmp. split; [apply suffix_refl|]. split; [assumption|]. split; [assumption|].
    change (Z.of_nat 0) with 0. rewrite Z.add_0_r. reflexivity.
  - assert (S3 : suffix file2 file) by (eapply suffix_trans; eassumption).
    destruct (IH file2 (page + 1) prefix rest) with (i := i) (fl := fl) as (mid & after & h' & bmp' & M1 & M2 & M3 & M4); auto.
    { destruct S3 as [u ->]. rewrite app_length in Hl. clear - Hl. lia. }
    exists mid, after, h', bmp'. split; [eapply suffix_trans; eassumption|]. split; [assumption|]. split; [assumption|].
    rewrite M4. f_equal. clear. lia.
Qed.

Lemma pic_files_nth prefix qs : forall page i, nth_error (pic_files prefix page qs) i
  = option_map (fun q => pic_file prefix (page + Z.of_nat i) q) (nth_error qs i).
Proof.
  induction qs as [|q qs IH]; intros page [|i]; cbn [pic_files nth_error option_map]; try reflexivity.
  - change (Z.of_nat 0) with 0. rewrite Z.add_0_r. reflexivity.
  - rewrite IH. replace (page + 1 + Z.of_nat i) with (page + Z.of_nat (S i)) by lia. reflexivity.
Qed.
Lemma pic_files_length prefix qs : forall page, length (pic_files prefix page qs) = length qs.
Proof. induction qs; intros; simpl; auto. Qed.
