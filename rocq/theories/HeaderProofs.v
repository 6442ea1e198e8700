From Verif Require Import Base BaseLemmas ListLemmas FloatModel StringModel ParamsModel RasterModel
  HeaderModel HeaderSpec.
From Coq Require Import Lia ZifyBool ZifyNat ZifyN.
Ltac Zify.zify_post_hook ::= Z.div_mod_to_equations.
Local Open Scope Z_scope.

(** ** Blocks *)

Lemma zeros_length n : length (zeros n) = n.
Proof. apply repeat_length. Qed.
Lemma str_field_length n s : length (str_field n s) = n.
Proof. unfold str_field. rewrite firstn_length, app_length, zeros_length. lia. Qed.

Lemma firstn_zeros k n : (k <= n)%nat -> firstn k (zeros n) = zeros k.
Proof. unfold zeros. revert n. induction k; intros [|n] H; simpl; try lia; [reflexivity..|]. f_equal. apply IHk. lia. Qed.

Lemma str_field_fits n s : (String.length s <= n)%nat ->
  str_field n s = bytes_of_string s ++ zeros (n - String.length s).
Proof.
  intros H. unfold str_field. rewrite <- bytes_of_string_length in *.
  rewrite firstn_app. rewrite firstn_all2 by lia. f_equal.
  apply firstn_zeros. lia.
Qed.

Lemma block_at (bs : list (list byte)) k off (b : list byte) :
  nth_error bs k = Some b ->
  fold_right Nat.add 0%nat (firstn k (map (@length byte) bs)) = off ->
  bytes_at (concat bs) off (length b) = b.
Proof.
  revert k off. induction bs as [|x bs IH]; intros k off Hk Hoff; destruct k; simpl in *; try discriminate.
  - inversion Hk; subst. unfold bytes_at. simpl. rewrite firstn_app, Nat.sub_diag, firstn_all.
    simpl. apply app_nil_r.
  - unfold bytes_at. subst off. rewrite skipn_app. rewrite (skipn_all2 x) by lia.
    simpl. replace (_ + _ - length x)%nat with
      (fold_right Nat.add 0%nat (firstn k (map (@length byte) bs))) by lia.
    apply (IH k _ Hk eq_refl).
Qed.

Lemma u32_at_block l off v : bytes_at l off 4 = be32 v -> u32_at l off = Some (v mod two32).
Proof.
  intros H. unfold u32_at. rewrite H. unfold be32. f_equal.
  rewrite !Zb_bZ. unfold two32. lia.
Qed.
Lemma s32_at_block l off v : bytes_at l off 4 = be32 v -> - 2147483648 <= v < 2147483648 ->
  s32_at l off = Some v.
Proof.
  intros H Hv. unfold s32_at. rewrite (u32_at_block _ _ _ H). f_equal. unfold two32.
  destruct (Z.ltb_spec (v mod 4294967296) 2147483648); lia.
Qed.
Lemma u8_at_block l off v : bytes_at l off 1 = [bZ v] -> 0 <= v < 256 -> u8_at l off = Some v.
Proof. intros H Hv. unfold u8_at. rewrite H. f_equal. apply Zb_bZ_small. lia. Qed.

Definition pwg_lens : list nat := map (@length byte) (pwg_blocks
  (mk_pwg_hdr "" "" "" "" 0 0 0 0 0 0 0 0 0 0 0 0 0 0 0 0 0 0 0 0 0 0 0 0 0 0 0 0 0 0 0 0 0 "" "")).
Lemma pwg_blocks_lens h : map (@length byte) (pwg_blocks h) = pwg_lens.
Proof.
  unfold pwg_lens, pwg_blocks. cbn [map]. rewrite !str_field_length, !zeros_length. reflexivity.
Qed.
Lemma concat_length (bs : list (list byte)) :
  length (concat bs) = fold_right Nat.add 0%nat (map (@length byte) bs).
Proof. induction bs as [|x bs IH]; simpl; [reflexivity|]. rewrite app_length, IH. reflexivity. Qed.

Lemma encode_pwg_hdr_length h : length (encode_pwg_hdr h) = 1796%nat.
Proof. unfold encode_pwg_hdr. rewrite concat_length, pwg_blocks_lens. vm_compute. reflexivity. Qed.

Lemma bytes_at_app l r off n : (off + n <= length l)%nat -> bytes_at (l ++ r) off n = bytes_at l off n.
Proof.
  intros H. unfold bytes_at. rewrite skipn_app, firstn_app, skipn_length.
  replace (n - (length l - off))%nat with 0%nat by lia. simpl. apply app_nil_r.
Qed.

Lemma pwg_block k off h b :
  nth_error (pwg_blocks h) k = Some b ->
  fold_right Nat.add 0%nat (firstn k pwg_lens) = off ->
  bytes_at (encode_pwg_hdr h) off (length b) = b.
Proof. intros H1 H2. eapply block_at; [exact H1|]. rewrite pwg_blocks_lens. exact H2. Qed.

Lemma pwg_u32 k off h v :
  nth_error (pwg_blocks h) k = Some (be32 v) ->
  fold_right Nat.add 0%nat (firstn k pwg_lens) = off ->
  u32_at (encode_pwg_hdr h) off = Some (v mod two32).
Proof. intros H1 H2. apply u32_at_block. exact (pwg_block k off h _ H1 H2). Qed.
Lemma pwg_s32 k off h v :
  nth_error (pwg_blocks h) k = Some (be32 v) ->
  fold_right Nat.add 0%nat (firstn k pwg_lens) = off ->
  - 2147483648 <= v < 2147483648 ->
  s32_at (encode_pwg_hdr h) off = Some v.
Proof. intros H1 H2 Hv. apply s32_at_block; [|assumption]. exact (pwg_block k off h _ H1 H2). Qed.
Lemma pwg_str k off h s :
  nth_error (pwg_blocks h) k = Some (str_field 64 s) ->
  fold_right Nat.add 0%nat (firstn k pwg_lens) = off ->
  fits_field s ->
  cstr_at (encode_pwg_hdr h) off s.
Proof.
  intros H1 H2 [Hs _]. unfold cstr_at. pose proof (pwg_block k off h _ H1 H2) as H.
  rewrite str_field_length in H. rewrite H. apply str_field_fits. exact Hs.
Qed.


(** ** Decoding *)

Lemma get_u32_be32 v r : get_u32 (be32 v ++ r) = Ok (v mod two32, r).
Proof. apply un32_be32_mod. Qed.
Lemma get_s32_be32 v r : - 2147483648 <= v < 2147483648 -> get_s32 (be32 v ++ r) = Ok (v, r).
Proof.
  intros Hv. unfold get_s32. rewrite get_u32_be32. simpl. f_equal. f_equal. unfold to_s32, two32.
  destruct (Z.ltb_spec (v mod 4294967296) 2147483648); lia.
Qed.
Lemma get_zeros n k r : n = Z.of_nat k -> get_bytes n (zeros k ++ r) = Ok (zeros k, r).
Proof. intros ->. apply get_bytes_app. rewrite zeros_length. reflexivity. Qed.

Lemma until_nul_app l n : ~ In (bZ 0) l -> until_nul (l ++ zeros n) = l.
Proof.
  induction l as [|x l IH]; intros Hn; simpl.
  - destruct n; reflexivity.
  - destruct (Z.eqb_spec (Zb x) 0) as [E|E].
    + exfalso. apply Hn. left. apply Zb_inj. rewrite E. reflexivity.
    + rewrite IH; [reflexivity|]. intros H. apply Hn. right. exact H.
Qed.

Lemma get_str_ok s r : fits_field s -> get_str_field 64 (str_field 64 s ++ r) = Ok (s, r).
Proof.
  intros [Hl Hn]. unfold get_str_field. rewrite get_bytes_app by (rewrite str_field_length; reflexivity).
  cbn [bind]. rewrite str_field_fits by assumption. rewrite until_nul_app by assumption.
  rewrite string_bytes_id. reflexivity.
Qed.

Definition wf_pwg_hdr (h : pwg_hdr) : Prop :=
  Forall (fun z => 0 <= z < two32)
    [ h_CutMedia h; h_Duplex h; h_HWResolutionX h; h_HWResolutionY h; h_InsertSheet h; h_Jog h; h_LeadingEdge h; h_MediaPosition h; h_MediaWeightMetric h; h_NumCopies h; h_Orientation h; h_PageSizeX h; h_PageSizeY h; h_Tumble h; h_Width h; h_Height h; h_BitsPerColor h; h_BitsPerPixel h; h_BytesPerLine h; h_ColorOrder h; h_ColorSpace h; h_NumColors h; h_TotalPageCount h; h_ImageBoxLeft h; h_ImageBoxTop h; h_ImageBoxRight h; h_ImageBoxBottom h; h_AlternatePrimary h; h_PrintQuality h; h_VendorIdentifier h; h_VendorLength h ] /\
  Forall (fun z => - 2147483648 <= z < 2147483648) [ h_CrossFeedTransform h; h_FeedTransform h ] /\
  Forall fits_field [ h_PwgRaster h; h_MediaColor h; h_MediaType h; h_PrintContentOptimize h; h_RenderingIntent h; h_PageSizeName h ].

Ltac split_forall :=
  repeat match goal with
  | H : Forall _ (_ :: _) |- _ => apply Forall_cons_iff in H; destruct H
  end.

Lemma decode_encode_pwg h rest : wf_pwg_hdr h ->
  decode_pwg_hdr (encode_pwg_hdr h ++ rest) = Ok (h, rest).
Proof.
  intros (HU & HI & HS). split_forall.
  unfold encode_pwg_hdr. cbn [pwg_blocks concat]. rewrite <- !app_assoc. rewrite app_nil_l.
  unfold decode_pwg_hdr.
  repeat first [ rewrite get_u32_be32 | rewrite get_s32_be32 by assumption
               | rewrite get_str_ok by assumption | rewrite get_zeros by reflexivity ]; cbn [bind].
  repeat (first [ rewrite get_u32_be32 | rewrite get_s32_be32 by assumption
               | rewrite get_str_ok by assumption | rewrite get_zeros by reflexivity ]; cbn [bind]).
  rewrite !Z.mod_small by assumption. destruct h. reflexivity.
Qed.

Definition wf_urf_hdr (h : urf_hdr) : Prop :=
  Forall (fun z => 0 <= z < two8) [ u_BitsPerPixel h; u_ColorSpace h; u_Duplex h; u_Quality h; u_MediaType h; u_MediaPosition h ] /\
  Forall (fun z => 0 <= z < two32) [ u_Width h; u_Height h; u_HWRes h ].

Lemma get_u8_bZ v r : 0 <= v < two8 -> get_u8 ([bZ v] ++ r) = Ok (v, r).
Proof. intros H. unfold two8 in H. simpl. rewrite Zb_bZ_small by lia. reflexivity. Qed.

Lemma decode_encode_urf h rest : wf_urf_hdr h ->
  decode_urf_hdr (encode_urf_hdr h ++ rest) = Ok (h, rest).
Proof.
  intros (HB & HU). split_forall.
  unfold encode_urf_hdr. cbn [urf_blocks concat]. rewrite <- !app_assoc. rewrite app_nil_l.
  unfold decode_urf_hdr.
  repeat (first [ rewrite get_u32_be32 | rewrite get_u8_bZ by assumption
               | rewrite get_zeros by reflexivity ]; cbn [bind]).
  rewrite !Z.mod_small by assumption. destruct h. reflexivity.
Qed.

Lemma encode_urf_hdr_length h : length (encode_urf_hdr h) = 32%nat.
Proof. reflexivity. Qed.

(** ** What make_pwg_hdr writes *)

Lemma pwg_hdr_of_inv p back h : pwg_hdr_of p back = Ok h ->
  exists psx psy W H bpl,
    froundZ (getPaperSizeWInPoints p) = Some psx /\ 0 <= psx < two32 /\
    froundZ (getPaperSizeHInPoints p) = Some psy /\ 0 <= psy < two32 /\
    getPaperSizeWInPixels p = Ok W /\ getPaperSizeHInPixels p = Ok H /\
    getPaperSizeWInBytes p = Ok bpl /\
    h_PageSizeX h = psx /\ h_PageSizeY h = psy /\ h_Width h = W mod two32 /\ h_Height h = H mod two32 /\
    h_BytesPerLine h = bpl mod two32.
Proof.
  unfold pwg_hdr_of, round_u32. intros E.
  destruct (froundZ (getPaperSizeWInPoints p)) as [psx|]; [|discriminate].
  destruct (froundZ (getPaperSizeHInPoints p)) as [psy|];
    [|destruct ((0 <=? psx) && (psx <? two32)); discriminate].
  destruct ((0 <=? psx) && (psx <? two32)) eqn:E1; [|discriminate]. cbn [bind] in E.
  destruct ((0 <=? psy) && (psy <? two32)) eqn:E2; [|discriminate]. cbn [bind] in E.
  destruct (getPaperSizeWInPixels p) as [W| | | |]; try discriminate. cbn [bind] in E.
  destruct (getPaperSizeHInPixels p) as [H| | | |]; try discriminate. cbn [bind] in E.
  destruct (getPaperSizeWInBytes p) as [bpl| | | |]; try discriminate. cbn [bind] in E.
  exists psx, psy, W, H, bpl. inversion E. cbn. repeat split; lia.
Qed.

Lemma empty_fits : fits_field "".
Proof. split; simpl; [lia|tauto]. Qed.
Lemma pwgraster_fits : fits_field "PwgRaster".
Proof. split; [simpl; lia|]. cbn. intuition discriminate. Qed.

Lemma pwg_hdr_of_wf p back h : params_in_range p -> fits_field (p_mediaType p) -> fits_field (p_paperSizeName p) ->
  pwg_hdr_of p back = Ok h -> wf_pwg_hdr h.
Proof.
  intros (R1 & R2 & R3) F1 F2 E. pose proof (pwg_hdr_of_inv _ _ _ E) as
    (psx & psy & W & H & bpl & _ & B1 & _ & B2 & _ & _ & _ & E1 & E2 & E3 & E4 & E5).
  unfold pwg_hdr_of in E.
  destruct (round_u32 (getPaperSizeWInPoints p)); try discriminate. cbn [bind] in E.
  destruct (round_u32 (getPaperSizeHInPoints p)); try discriminate. cbn [bind] in E.
  destruct (getPaperSizeWInPixels p); try discriminate. cbn [bind] in E.
  destruct (getPaperSizeHInPixels p); try discriminate. cbn [bind] in E.
  destruct (getPaperSizeWInBytes p); try discriminate. cbn [bind] in E.
  inversion E; subst h; clear E. cbn in E1, E2. subst.
  unfold wf_pwg_hdr, two32 in *. cbn -[Z.modulo].
  assert (Hc : 0 <= getNumberOfColors p < 5) by (unfold getNumberOfColors; destruct (p_colorMode p); lia).
  assert (Hb : 0 <= getBitsPerColor p < 17) by (unfold getBitsPerColor; destruct (p_colorMode p); lia).
  assert (Hcb : 0 <= getNumberOfColors p * getBitsPerColor p < 100) by nia.
  assert (Hq : 0 <= quality_Z (p_quality p) < 6) by (destruct (p_quality p); simpl; lia).
  assert (Hs : 0 <= pwg_color_space (p_colorMode p) < 20) by (destruct (p_colorMode p); simpl; lia).
  repeat split; repeat (apply Forall_cons; [|]); try apply Forall_nil;
    try assumption; try apply empty_fits; try apply pwgraster_fits; try lia.
  all: try (destruct (isTwoSided p); lia); try (destruct (p_duplexMode p); lia).
  all: try (destruct (back && getBackHFlip p); lia); try (destruct (back && getBackVFlip p); lia).
Qed.
