(** Pages: header + body (bmp_to_pwg) against the specification. *)
From Verif Require Import Base BaseLemmas ListLemmas FloatModel StringModel ParamsModel RasterModel
  RasterSpec HeaderModel HeaderSpec HeaderProofs RasterEncProofs RasterDecProofs GeometryProofs.
From Coq Require Import Lia ZifyBool ZifyNat ZifyN.
Ltac Zify.zify_post_hook ::= Z.div_mod_to_equations.
Local Open Scope Z_scope.

Definition one_bit (m : color_mode) : bool := match m with Gray1 | Black1 => true | _ => false end.

Lemma unit_pos m : (1 <= unit_bytes m)%nat.
Proof. destruct m; simpl; lia. Qed.

Lemma chunk_of_mode p :
  Z.of_nat (unit_bytes (p_colorMode p))
  = (if getBitsPerColor p =? 1 then getNumberOfColors p else getNumberOfColors p * getBitsPerColor p / 8).
Proof. unfold getBitsPerColor, getNumberOfColors. destruct (p_colorMode p); reflexivity. Qed.

Lemma one_bit_eq p : (getBitsPerColor p =? 1) = one_bit (p_colorMode p).
Proof. unfold getBitsPerColor. destruct (p_colorMode p); reflexivity. Qed.

Lemma backside_eq p page : is_backside p page = back_side (p_duplexMode p) page.
Proof.
  assert (E : (page mod 2 =? 0) = Z.even page).
  { destruct (Z.even page) eqn:E.
    - apply Z.even_spec in E. destruct E as [k ->]. lia.
    - rewrite <- Z.negb_odd in E. apply negb_false_iff in E. apply Z.odd_spec in E. destruct E as [k ->]. lia. }
  unfold is_backside, back_side, isTwoSided. rewrite E.
  destruct (p_duplexMode p); reflexivity.
Qed.

Lemma flips_eq p : (getBackHFlip p, getBackVFlip p) = back_transform (p_duplexMode p) (p_backXform p).
Proof. unfold getBackHFlip, getBackVFlip. destruct (p_duplexMode p), (p_backXform p); reflexivity. Qed.

Definition page_header (p : params) (back : bool) : outcome (list byte) :=
  match p_format p with URF => make_urf_hdr p | _ => make_pwg_hdr p back end.

Lemma bmp_to_pwg_page fill p page W H (img : image) extra :
  getPaperSizeWInPixels p = Ok W -> getPaperSizeHInPixels p = Ok H ->
  0 <= W <= 2 ^ 56 -> 0 <= H ->
  image_of_size (unit_bytes (p_colorMode p)) (line_units (p_colorMode p) (Z.to_nat W)) (Z.to_nat H) img ->
  Z.of_nat (line_units (p_colorMode p) (Z.to_nat W)) * Z.of_nat (unit_bytes (p_colorMode p)) < 2147483648 ->
  exists body,
    (forall hdr, page_header p (is_backside p page) = Ok hdr ->
                 bmp_to_pwg (flat img ++ extra) page p = Ok (hdr ++ body)) /\
    page_code (unit_bytes (p_colorMode p)) (line_units (p_colorMode p) (Z.to_nat W)) fill body
      (xform (one_bit (p_colorMode p)) (is_backside p page && getBackHFlip p)
             (is_backside p page && getBackVFlip p) img).
Proof.
  intros HW HH HWb HHb Himg Hsmall.
  destruct (encode_page_ok fill (unit_bytes (p_colorMode p)) _ _ img extra
              (getNumberOfColors p) (getBitsPerColor p)
              (is_backside p page && getBackHFlip p) (is_backside p page && getBackVFlip p)
              (unit_pos _) Himg (chunk_of_mode p)) as (body & Hbody & Hcode); [|assumption|].
  { intros Hb. pose proof (one_bit_eq p) as E. rewrite Hb in E. simpl in E.
    destruct (p_colorMode p); try discriminate; reflexivity. }
  exists body. rewrite one_bit_eq in Hcode. split; [|assumption].
  intros hdr Hhdr. unfold bmp_to_pwg. cbv zeta.
  replace (match p_format p with URF => make_urf_hdr p | _ => make_pwg_hdr p (is_backside p page) end)
    with (page_header p (is_backside p page)) by reflexivity.
  rewrite Hhdr. cbn [bind]. rewrite HH. cbn [bind].
  rewrite (bytes_per_line _ _ HW HWb). cbn [bind].
  replace H with (Z.of_nat (Z.to_nat H)) at 1 by lia. rewrite Hbody. reflexivity.
Qed.

(** ** The transformation in pixel coordinates *)

Lemma nth_rev_any {A} (l : list A) n i d : length l = n -> (i < n)%nat ->
  nth i (rev l) d = nth (n - 1 - i) l d.
Proof. intros Hl Hi. rewrite rev_nth by lia. f_equal. lia. Qed.

Lemma nth_map_any {A B} (f : A -> B) l i d d' : (i < length l)%nat -> nth i (map f l) d = f (nth i l d').
Proof. intros H. rewrite (nth_indep (map f l) d (f d')) by (rewrite map_length; lia). apply map_nth. Qed.

Lemma xform_nth b hf vf w h c (img : image) y : image_of_size c w h img -> (y < h)%nat ->
  nth y (xform b hf vf img) [] =
  (if hf then hm_line b else fun x => x) (nth (if vf then h - 1 - y else y)%nat img []).
Proof.
  intros [Hh _] Hy. unfold xform.
  set (img1 := if vf then rev img else img).
  assert (H1 : length img1 = h) by (subst img1; destruct vf; rewrite ?rev_length; assumption).
  assert (H2 : nth y img1 [] = nth (if vf then h - 1 - y else y)%nat img []).
  { subst img1. destruct vf; [|reflexivity]. apply nth_rev_any; assumption. }
  rewrite <- H2. destruct hf; [|reflexivity].
  apply nth_map_any. lia.
Qed.

Lemma xform_size b hf vf w h c (img : image) : image_of_size c w h img ->
  (b = true -> c = 1%nat) -> image_of_size c w h (xform b hf vf img).
Proof.
  intros [Hh Hall] Hb. unfold xform. set (img1 := if vf then rev img else img).
  assert (H1 : length img1 = h) by (subst img1; destruct vf; rewrite ?rev_length; assumption).
  assert (Hall1 : Forall (fun l : line => length l = w /\ Forall (fun p : pixel => length p = c) l) img1).
  { subst img1. destruct vf; [|assumption]. rewrite Forall_forall in *.
    intros x Hx. apply Hall. apply in_rev. assumption. }
  split; [destruct hf; rewrite ?map_length; assumption|].
  destruct hf; [|assumption]. rewrite Forall_map. eapply Forall_impl; [|exact Hall1].
  intros l [Hl Hp]. unfold hm_line. split.
  - rewrite rev_length. destruct b; rewrite ?map_length; assumption.
  - apply Forall_rev_pix. destruct b; [|assumption]. rewrite Forall_map.
    eapply Forall_impl; [|exact Hp]. intros p Hlp. cbn beta in *. rewrite map_length. assumption.
Qed.

Lemma xform_mirrored hf vf w h c (img : image) : image_of_size c w h img ->
  mirrored hf vf w h (xform false hf vf img) img.
Proof.
  intros Himg x y Hx Hy. unfold pixel_at.
  destruct Himg as [Hh Hall].
  assert (Hy' : ((if vf then h - 1 - y else y) < h)%nat) by (destruct vf; lia).
  rewrite (xform_nth false hf vf w h c) by (try split; assumption).
  replace (if vf then h - 1 - (if vf then h - 1 - y else y) else (if vf then h - 1 - y else y))%nat
    with y by (destruct vf; lia).
  destruct hf; [|reflexivity]. unfold hm_line.
  rewrite Forall_forall in Hall. destruct (Hall (nth y img [])) as [Hl _]; [apply nth_In; lia|].
  symmetry. rewrite (nth_rev_any _ w) by (try assumption; lia). f_equal. lia.
Qed.

(** the grammar is unambiguous: same body, same size, same image *)
Lemma flat_inj c w h (a b : image) : image_of_size c w h a -> image_of_size c w h b -> flat a = flat b -> a = b.
Proof.
  revert h b. induction a as [|l a IH]; intros h b [Ha Fa] [Hb Fb] E.
  - destruct b; [reflexivity|simpl in *; lia].
  - destruct b as [|l' b]; [simpl in *; lia|].
    apply Forall_cons_iff in Fa, Fb. destruct Fa as [[Hl Hp] Fa], Fb as [[Hl' Hp'] Fb].
    unfold flat in E. cbn [map concat] in E.
    apply app_inj_length in E;
      [|rewrite (concat_length_uniform c l) by assumption; rewrite (concat_length_uniform c l') by assumption; lia].
    destruct E as [E1 E2]. f_equal.
    + rewrite <- (group_concat c l Hp), <- (group_concat c l' Hp'), Hl, Hl', E1. reflexivity.
    + apply (IH (length a)); [split; auto| |assumption]. split; [simpl in *; lia|assumption].
Qed.

Lemma page_code_unique c w h bs (a b : image) : (1 <= c)%nat ->
  image_of_size c w h a -> image_of_size c w h b -> Z.of_nat h < two64 ->
  page_code c w None bs a -> page_code c w None bs b -> a = b.
Proof.
  intros Hc Ha Hb Hh Ca Cb.
  pose proof (raster_to_bmp_ok c w None false bs a [] Hc ltac:(reflexivity) Ca) as E1.
  pose proof (raster_to_bmp_ok c w None false bs b [] Hc ltac:(reflexivity) Cb) as E2.
  destruct Ha as [Ha Fa], Hb as [Hb Fb].
  rewrite Ha in E1. rewrite Hb in E2. rewrite E1 in E2 by assumption.
  specialize (E2 Hh). inversion E2. eapply flat_inj; [| |eassumption]; split; eassumption.
Qed.

(** ** Single bits *)

Lemma reverse_bits_spec : forall b k, (k < 8)%nat ->
  Z.testbit (Zb (reverse_bits b)) (7 - Z.of_nat k) = Z.testbit (Zb b) (Z.of_nat k).
Proof.
  assert (H : forallb (fun n => forallb (fun k =>
      Bool.eqb (Z.testbit (Zb (reverse_bits (ascii_of_nat n))) (7 - Z.of_nat k))
               (Z.testbit (Zb (ascii_of_nat n)) (Z.of_nat k))) (seq 0 8)) (seq 0 256) = true)
    by (vm_compute; reflexivity).
  intros b k Hk. rewrite forallb_forall in H.
  specialize (H (nat_of_ascii b)). rewrite forallb_forall in H.
  rewrite <- (ascii_nat_embedding b). apply Bool.eqb_prop. apply H; apply in_seq; [|lia].
  pose proof (nat_ascii_bounded b). lia.
Qed.

Lemma bit_at_reverse l x : (x < 8 * length l)%nat ->
  bit_at (map reverse_bits (rev l)) x = bit_at l (8 * length l - 1 - x).
Proof.
  intros Hx. unfold bit_at.
  assert (Hd : (x / 8 < length l)%nat) by (apply Nat.div_lt_upper_bound; lia).
  rewrite (nth_map_any _ _ _ _ (bZ 0)) by (rewrite rev_length; lia).
  rewrite (nth_rev_any l (length l)) by (try reflexivity; lia).
  set (n := length l) in *.
  assert (E1 : ((8 * n - 1 - x) / 8 = n - 1 - x / 8)%nat).
  { pose proof (Nat.div_mod x 8). pose proof (Nat.mod_upper_bound x 8).
    symmetry. apply (Nat.div_unique _ 8 _ (7 - x mod 8)); lia. }
  assert (E2 : ((8 * n - 1 - x) mod 8 = 7 - x mod 8)%nat).
  { pose proof (Nat.div_mod x 8). pose proof (Nat.mod_upper_bound x 8).
    symmetry. apply (Nat.mod_unique _ 8 (n - 1 - x / 8)); lia. }
  rewrite E1, E2. pose proof (Nat.mod_upper_bound x 8).
  rewrite reverse_bits_spec by lia. f_equal. lia.
Qed.

Lemma xform_bits hf vf w h (img : image) : image_of_size 1 w h img ->
  forall x y, (x < 8 * w)%nat -> (y < h)%nat ->
  bit_at (concat (nth y (xform true hf vf img) [])) x =
  bit_at (concat (nth (if vf then h - 1 - y else y)%nat img [])) (if hf then 8 * w - 1 - x else x).
Proof.
  intros Himg x y Hx Hy. rewrite (xform_nth true hf vf w h 1) by assumption.
  destruct hf; [|reflexivity].
  destruct Himg as [Hh Hall]. rewrite Forall_forall in Hall.
  destruct (Hall (nth (if vf then h - 1 - y else y)%nat img [])) as [Hl Hp];
    [apply nth_In; destruct vf; lia|].
  unfold hm_line. rewrite map_map_concat_rev1 by assumption.
  assert (Hc : length (concat (nth (if vf then h - 1 - y else y)%nat img [])) = w)
    by (rewrite (concat_length_uniform 1) by assumption; lia).
  rewrite bit_at_reverse by lia. rewrite Hc. reflexivity.
Qed.

(** ** Every bitmap is the flat form of an image *)

Fixpoint cut_lines (h w c : nat) (l : list byte) : image :=
  match h with
  | O => []
  | S h' => group w c (firstn (w * c) l) :: cut_lines h' w c (skipn (w * c) l)
  end.

Lemma group_chunks w c l : length l = (w * c)%nat ->
  Forall (fun p => length p = c) (group w c l) /\ concat (group w c l) = l.
Proof.
  revert l. induction w as [|w IH]; intros l Hl; simpl in *.
  - destruct l; [|simpl in Hl; lia]. split; [constructor|reflexivity].
  - destruct (IH (skipn c l)) as [H1 H2]; [rewrite skipn_length; lia|].
    split.
    + constructor; [rewrite firstn_length; lia|exact H1].
    + rewrite H2. apply firstn_skipn.
Qed.

Lemma cut_lines_ok h w c l : (h * (w * c) <= length l)%nat ->
  image_of_size c w h (cut_lines h w c l) /\ flat (cut_lines h w c l) = firstn (h * (w * c)) l.
Proof.
  revert l. induction h as [|h IH]; intros l Hl; simpl in *.
  - split; [split; constructor|reflexivity].
  - destruct (IH (skipn (w * c) l)) as [[H1 H2] H3]; [rewrite skipn_length; lia|].
    destruct (group_chunks w c (firstn (w * c) l)) as [H4 H5]; [rewrite firstn_length; lia|].
    split.
    + split; [simpl; congruence|]. constructor; [|exact H2]. split; [apply group_length|exact H4].
    + unfold flat in *. simpl. rewrite H3, H5.
      rewrite <- (firstn_skipn (w * c) (firstn (w * c + h * (w * c)) l)).
      rewrite firstn_firstn, skipn_firstn_comm. f_equal; f_equal; lia.
Qed.

(** ** Headers *)

Lemma line_bytes_eq m W : 0 <= W ->
  Z.of_nat (line_units m (Z.to_nat W)) * Z.of_nat (unit_bytes m) = line_bytes m W.
Proof.
  intros HW. unfold line_bytes. destruct m; cbn [line_units unit_bytes mode_colors mode_bits];
    rewrite ?Nat2Z.inj_div, ?Nat2Z.inj_add, ?Z2Nat.id by lia; lia.
Qed.

Lemma make_pwg_hdr_describes p back W H hdr :
  params_in_range p -> fits_field (p_mediaType p) -> fits_field (p_paperSizeName p) ->
  getPaperSizeWInPixels p = Ok W -> getPaperSizeHInPixels p = Ok H ->
  0 <= W <= 2 ^ 56 -> W < two32 -> 0 <= H < two32 -> line_bytes (p_colorMode p) W < two32 ->
  make_pwg_hdr p back = Ok hdr ->
  exists px py, froundZ (getPaperSizeWInPoints p) = Some px /\ froundZ (getPaperSizeHInPoints p) = Some py /\
    pwg_header_describes p back W H px py hdr.
Proof.
  intros HR F1 F2 HW HH HWb HW32 HH32 Hbpl E. unfold make_pwg_hdr in E.
  destruct (pwg_hdr_of p back) as [h| | | |] eqn:Eh; try discriminate. cbn [bind] in E.
  inversion E; subst hdr; clear E.
  pose proof (pwg_hdr_of_wf _ _ _ HR F1 F2 Eh) as (WU & WI & WS).
  pose proof (pwg_hdr_of_inv _ _ _ Eh) as (px & py & W' & H' & bpl & P1 & B1 & P2 & B2 & EW & EH & EB & E1 & E2 & E3 & E4 & E5).
  rewrite HW in EW. rewrite HH in EH. inversion EW; inversion EH; subst W' H'; clear EW EH.
  rewrite (bytes_per_line _ _ HW HWb) in EB. rewrite line_bytes_eq in EB by lia.
  inversion EB; subst bpl; clear EB.
  rewrite Z.mod_small in E3 by (unfold two32 in *; lia).
  rewrite Z.mod_small in E4 by (unfold two32 in *; lia).
  assert (0 <= line_bytes (p_colorMode p) W) by (rewrite <- line_bytes_eq by lia; lia).
  rewrite Z.mod_small in E5 by (unfold two32 in *; lia).
  exists px, py. split; [assumption|]. split; [assumption|].
  unfold pwg_header_describes. rewrite <- flips_eq.
  unfold pwg_hdr_of in Eh.
  destruct (round_u32 (getPaperSizeWInPoints p)); try discriminate. cbn [bind] in Eh.
  destruct (round_u32 (getPaperSizeHInPoints p)); try discriminate. cbn [bind] in Eh.
  rewrite HW in Eh. cbn [bind] in Eh. rewrite HH in Eh. cbn [bind] in Eh.
  destruct (getPaperSizeWInBytes p); try discriminate. cbn [bind] in Eh.
  match type of Eh with Ok ?x = Ok h => set (hh := x) in Eh end.
  assert (Ehh : hh = h) by congruence. clear Eh. subst h.
  split_forall.
  assert (K : forall k off v, nth_error (pwg_blocks hh) k = Some (be32 v) ->
            fold_right Nat.add 0%nat (firstn k pwg_lens) = off -> 0 <= v < two32 ->
            u32_at (encode_pwg_hdr hh) off = Some v).
  { intros k off v K1 K2 K3. rewrite (pwg_u32 k off hh v K1 K2). rewrite Z.mod_small by assumption. reflexivity. }
  assert (HF : (if back then (getBackHFlip p, getBackVFlip p) else (false, false))
               = (back && getBackHFlip p, back && getBackVFlip p)) by (destruct back; reflexivity).
  rewrite HF. clear HF.
  assert (EC : Z.of_nat (mode_colors (p_colorMode p)) = getNumberOfColors p)
    by (unfold getNumberOfColors; destruct (p_colorMode p); reflexivity).
  assert (EBt : Z.of_nat (mode_bits (p_colorMode p)) = getBitsPerColor p)
    by (unfold getBitsPerColor; destruct (p_colorMode p); reflexivity).
  rewrite Nat2Z.inj_mul, EC, EBt.
  replace (mode_pwg_space (p_colorMode p)) with (pwg_color_space (p_colorMode p)) by (destruct (p_colorMode p); reflexivity).
  replace (quality_code (p_quality p)) with (quality_Z (p_quality p)) by (destruct (p_quality p); reflexivity).
  replace (match p_duplexMode p with OneSided => 0 | _ => 1 end) with (if isTwoSided p then 1 else 0)
    by (unfold isTwoSided; destruct (p_duplexMode p); reflexivity).
  rewrite <- E5, <- E1, <- E2, <- E3, <- E4.
  split; [apply encode_pwg_hdr_length|].
  split; [apply (pwg_str 0%nat); [reflexivity|vm_compute; reflexivity|assumption]|].
  split; [apply (pwg_str 2%nat); [reflexivity|vm_compute; reflexivity|assumption]|].
  split; [apply (pwg_str 50%nat); [reflexivity|vm_compute; reflexivity|assumption]|].
  split; [apply (K 6%nat); [reflexivity|vm_compute; reflexivity|assumption]|].
  split; [apply (K 23%nat); [reflexivity|vm_compute; reflexivity|assumption]|].
  split; [apply (K 7%nat); [reflexivity|vm_compute; reflexivity|assumption]|].
  split; [apply (K 8%nat); [reflexivity|vm_compute; reflexivity|assumption]|].
  split; [apply (K 14%nat); [reflexivity|vm_compute; reflexivity|assumption]|].
  split; [apply (K 17%nat); [reflexivity|vm_compute; reflexivity|assumption]|].
  split; [apply (K 20%nat); [reflexivity|vm_compute; reflexivity|assumption]|].
  split; [apply (K 21%nat); [reflexivity|vm_compute; reflexivity|assumption]|].
  split; [apply (K 24%nat); [reflexivity|vm_compute; reflexivity|assumption]|].
  split; [apply (K 25%nat); [reflexivity|vm_compute; reflexivity|assumption]|].
  split; [apply (K 27%nat); [reflexivity|vm_compute; reflexivity|assumption]|].
  split; [apply (K 28%nat); [reflexivity|vm_compute; reflexivity|assumption]|].
  split; [apply (K 29%nat); [reflexivity|vm_compute; reflexivity|assumption]|].
  split; [apply (K 31%nat); [reflexivity|vm_compute; reflexivity|assumption]|].
  split; [apply (K 33%nat); [reflexivity|vm_compute; reflexivity|assumption]|].
  split; [apply (pwg_s32 36%nat); [reflexivity|vm_compute; reflexivity|assumption]|].
  split; [apply (pwg_s32 37%nat); [reflexivity|vm_compute; reflexivity|assumption]|].
  split; [apply (K 42%nat); [reflexivity|vm_compute; reflexivity|assumption]|].
  split; [apply (K 43%nat); [reflexivity|vm_compute; reflexivity|assumption]|].
  split; [apply (pwg_str 1%nat); [reflexivity|vm_compute; reflexivity|assumption]|].
  split; [apply (pwg_str 3%nat); [reflexivity|vm_compute; reflexivity|assumption]|].
  split; [apply (pwg_str 49%nat); [reflexivity|vm_compute; reflexivity|assumption]|].
  repeat (apply Forall_cons; [|]); try apply Forall_nil.
  - apply (K 5%nat); [reflexivity|vm_compute; reflexivity|assumption].
  - apply (K 10%nat); [reflexivity|vm_compute; reflexivity|assumption].
  - apply (K 11%nat); [reflexivity|vm_compute; reflexivity|assumption].
  - apply (K 12%nat); [reflexivity|vm_compute; reflexivity|assumption].
  - apply (K 15%nat); [reflexivity|vm_compute; reflexivity|assumption].
  - apply (K 18%nat); [reflexivity|vm_compute; reflexivity|assumption].
  - apply (K 30%nat); [reflexivity|vm_compute; reflexivity|assumption].
  - apply (K 35%nat); [reflexivity|vm_compute; reflexivity|assumption].
  - apply (K 38%nat); [reflexivity|vm_compute; reflexivity|assumption].
  - apply (K 39%nat); [reflexivity|vm_compute; reflexivity|assumption].
  - apply (K 40%nat); [reflexivity|vm_compute; reflexivity|assumption].
  - apply (K 41%nat); [reflexivity|vm_compute; reflexivity|assumption].
  - apply (K 45%nat); [reflexivity|vm_compute; reflexivity|assumption].
  - apply (K 46%nat); [reflexivity|vm_compute; reflexivity|assumption].
Qed.

Lemma assoc_In {A} k l (v : A) : assoc_str k l = Some v -> In (k, v) l.
Proof.
  induction l as [|[k' v'] l IH]; simpl; [discriminate|].
  destruct (String.eqb_spec k k') as [->|]; intros E; [inversion E; auto|auto].
Qed.
Lemma In_assoc {A} k l (v : A) : In (k, v) l -> exists v', assoc_str k l = Some v'.
Proof.
  induction l as [|[k' v'] l IH]; simpl; [tauto|]. intros [E|E].
  - inversion E; subst. rewrite String.eqb_refl. eauto.
  - destruct (String.eqb k k'); eauto.
Qed.

Lemma urf_media_ok mt v :
  (if String.eqb mt "" then Ok 0
   else match assoc_str mt urf_media_types with Some v => Ok v | None => Throw OutOfRange end) = Ok v ->
  In (mt, v) urf_media_table /\ 0 <= v < 14.
Proof.
  destruct (String.eqb_spec mt "") as [->|Hn]; intros E.
  - inversion E. split; [left; reflexivity|lia].
  - destruct (assoc_str mt urf_media_types) eqn:Ea; inversion E; subst.
    apply assoc_In in Ea. split; [right; exact Ea|].
    simpl in Ea. repeat (destruct Ea as [Ea|Ea]; [inversion Ea; lia|]). destruct Ea.
Qed.

Lemma make_urf_hdr_describes p W H hdr :
  params_in_range p ->
  getPaperSizeWInPixels p = Ok W -> getPaperSizeHInPixels p = Ok H ->
  0 <= W < two32 -> 0 <= H < two32 ->
  make_urf_hdr p = Ok hdr ->
  urf_header_describes p W H hdr.
Proof.
  intros (R1 & R2 & R3) HW HH HW32 HH32 E. unfold make_urf_hdr, urf_hdr_of in E.
  destruct (Z.eqb_spec (p_hwResW p) (p_hwResH p)) as [Er|]; [|discriminate]. cbn [negb] in E.
  destruct (urf_color_space (p_colorMode p)) as [cs| | | |] eqn:Ec; try discriminate. cbn [bind] in E.
  match type of E with context [bind (if ?x then _ else _) _] => idtac end.
  destruct (if String.eqb (p_mediaType p) "" then Ok 0
            else match assoc_str (p_mediaType p) urf_media_types with Some v => Ok v | None => Throw OutOfRange end)
    as [mt| | | |] eqn:Em; try discriminate. cbn [bind] in E.
  destruct (urf_media_ok _ _ Em) as [Hm1 Hm2].
  rewrite HW in E. cbn [bind] in E. rewrite HH in E. cbn [bind] in E. inversion E; subst hdr; clear E.
  assert (Hcs : mode_urf_space (p_colorMode p) = Some cs /\ 0 <= cs < 7).
  { destruct (p_colorMode p); inversion Ec; subst; split; try reflexivity; lia. }
  destruct Hcs as [Hcs Hcsb].
  assert (Hcol : Z.of_nat (mode_colors (p_colorMode p) * mode_bits (p_colorMode p))
                 = (getNumberOfColors p * getBitsPerColor p) mod two8)
    by (unfold getNumberOfColors, getBitsPerColor; destruct (p_colorMode p); reflexivity).
  unfold urf_header_describes, encode_urf_hdr. cbn [urf_blocks concat u_BitsPerPixel u_ColorSpace u_Duplex u_Quality
     u_MediaType u_MediaPosition u_Width u_Height u_HWRes].
  rewrite Hcol. rewrite Hcs.
  assert (U8 : forall v, 0 <= v < 256 -> Some (Zb (bZ v)) = Some v) by (intros v Hv; rewrite Zb_bZ_small by lia; reflexivity).
  assert (U32 : forall v, 0 <= v < two32 ->
            Some (Zb (bZ (v / 16777216)) * 16777216 + Zb (bZ (v / 65536)) * 65536 + Zb (bZ (v / 256)) * 256 + Zb (bZ v)) = Some v).
  { intros v Hv. rewrite !Zb_bZ. unfold two32 in Hv. f_equal. lia. }
  split; [reflexivity|].
  split; [apply U8; unfold two8; lia|].
  split; [apply U8; lia|].
  split; [apply U8; destruct (p_duplexMode p); simpl; lia|].
  split; [apply U8; destruct (p_quality p); simpl; lia|].
  split; [exists mt; split; [apply U8; lia|assumption]|].
  split; [apply U8; lia|].
  split; [reflexivity|].
  unfold two32 in *.
  split; [etransitivity; [apply (U32 (W mod 4294967296)); lia|rewrite Z.mod_small by lia; reflexivity]|].
  split; [etransitivity; [apply (U32 (H mod 4294967296)); lia|rewrite Z.mod_small by lia; reflexivity]|].
  split; [apply (U32 (p_hwResW p)); lia|].
  split; [etransitivity; [apply (U32 (p_hwResW p)); lia|rewrite Er; reflexivity]|].
  reflexivity.
Qed.

Lemma make_urf_hdr_ok p W H :
  getPaperSizeWInPixels p = Ok W -> getPaperSizeHInPixels p = Ok H ->
  urf_expressible p -> exists hdr, make_urf_hdr p = Ok hdr.
Proof.
  intros HW HH (Hr & [cs Hcs] & [mt Hmt]). unfold make_urf_hdr, urf_hdr_of.
  rewrite (proj2 (Z.eqb_eq _ _) Hr). cbn [negb].
  assert (Hc : urf_color_space (p_colorMode p) = Ok cs).
  { destruct (p_colorMode p); simpl in Hcs; inversion Hcs; reflexivity. }
  rewrite Hc. cbn [bind].
  destruct (String.eqb_spec (p_mediaType p) "") as [E|E].
  - cbn [bind]. rewrite HW, HH. cbn [bind]. eauto.
  - destruct Hmt as [Hmt|Hmt]; [inversion Hmt; congruence|].
    destruct (In_assoc (p_mediaType p) urf_media_types mt Hmt) as [v Hv]. rewrite Hv. cbn [bind].
    rewrite HW, HH. cbn [bind]. eauto.
Qed.

Lemma make_urf_hdr_refused p : ~ urf_expressible p ->
  make_urf_hdr p = Throw LogicError \/ make_urf_hdr p = Throw OutOfRange.
Proof.
  intros Hn. unfold make_urf_hdr, urf_hdr_of.
  destruct (Z.eqb_spec (p_hwResW p) (p_hwResH p)) as [Er|]; [|left; reflexivity]. cbn [negb]. right.
  destruct (urf_color_space (p_colorMode p)) as [cs| | | |] eqn:Ec;
    try (destruct (p_colorMode p); discriminate).
  - cbn [bind].
    destruct (String.eqb_spec (p_mediaType p) "") as [E|E].
    + exfalso. apply Hn. split; [assumption|]. split.
      * exists cs. destruct (p_colorMode p); inversion Ec; reflexivity.
      * exists 0. rewrite E. left. reflexivity.
    + destruct (assoc_str (p_mediaType p) urf_media_types) as [v|] eqn:Em; [|reflexivity].
      exfalso. apply Hn. split; [assumption|]. split.
      * exists cs. destruct (p_colorMode p); inversion Ec; reflexivity.
      * exists v. right. apply assoc_In. exact Em.
  - destruct (p_colorMode p); inversion Ec; subst; reflexivity.
Qed.

(** ** Pages on sane geometry *)

Lemma sane_page fill p page W H (img : image) extra :
  sane_geometry p ->
  getPaperSizeWInPixels p = Ok W -> getPaperSizeHInPixels p = Ok H ->
  image_of_size (unit_bytes (p_colorMode p)) (line_units (p_colorMode p) (Z.to_nat W)) (Z.to_nat H) img ->
  line_bytes (p_colorMode p) W < 2147483648 ->
  (p_format p = URF -> urf_expressible p) ->
  exists hdr body,
    page_header p (back_side (p_duplexMode p) page) = Ok hdr /\
    length hdr = (match p_format p with URF => 32 | _ => 1796 end)%nat /\
    bmp_to_pwg (flat img ++ extra) page p = Ok (hdr ++ body) /\
    page_code (unit_bytes (p_colorMode p)) (line_units (p_colorMode p) (Z.to_nat W)) fill body
      (xform (one_bit (p_colorMode p))
             (fst (if back_side (p_duplexMode p) page then back_transform (p_duplexMode p) (p_backXform p) else (false, false)))
             (snd (if back_side (p_duplexMode p) page then back_transform (p_duplexMode p) (p_backXform p) else (false, false))) img).
Proof.
  intros Hsane HW HH Himg Hsmall Hurf.
  destruct (sane_pixels _ Hsane) as (W' & H' & HW' & HH' & HWb & HHb).
  rewrite HW in HW'. rewrite HH in HH'. inversion HW'; inversion HH'; subst W' H'; clear HW' HH'.
  rewrite <- line_bytes_eq in Hsmall by lia.
  destruct (bmp_to_pwg_page fill p page W H img extra HW HH HWb ltac:(lia) Himg Hsmall) as (body & Hb & Hc).
  rewrite backside_eq in Hb, Hc. rewrite <- flips_eq.
  assert (Hh : exists hdr, page_header p (back_side (p_duplexMode p) page) = Ok hdr /\
             length hdr = (match p_format p with URF => 32 | _ => 1796 end)%nat).
  { unfold page_header, make_pwg_hdr.
    destruct (sane_pwg_hdr p (back_side (p_duplexMode p) page) Hsane) as [h Eh]. rewrite Eh. cbn [bind].
    destruct (p_format p) eqn:Ef; try (eexists; split; [reflexivity|apply encode_pwg_hdr_length]).
    destruct (make_urf_hdr_ok p W H HW HH (Hurf eq_refl)) as [hdr Hhdr]. exists hdr. split; [assumption|].
    unfold make_urf_hdr in Hhdr. destruct (urf_hdr_of p); try discriminate. inversion Hhdr. reflexivity. }
  destruct Hh as (hdr & Hh1 & Hh2). exists hdr, body.
  split; [assumption|]. split; [assumption|]. split; [apply Hb; assumption|].
  destruct (back_side (p_duplexMode p) page); exact Hc.
Qed.

Lemma sane_bounds p W H : sane_geometry p ->
  getPaperSizeWInPixels p = Ok W -> getPaperSizeHInPixels p = Ok H -> 0 <= W <= 2 ^ 56 /\ 0 <= H <= 2 ^ 56.
Proof.
  intros Hsane HW HH. destruct (sane_pixels _ Hsane) as (W' & H' & HW' & HH' & HWb & HHb).
  rewrite HW in HW'. rewrite HH in HH'. inversion HW'; inversion HH'; subst. auto.
Qed.

Lemma line_bytes_le m W : 0 <= W -> W <= 8 * line_bytes m W.
Proof. intros HW. unfold line_bytes. destruct m; cbn [mode_colors mode_bits]; lia. Qed.
