(** The geometry getters of PrintParameters on sane sizes. *)
From Coq Require Import Reals Lra Lia ZifyBool ZifyNat ZifyN.
From Verif Require Import Base FloatModel FloatLemmas StringModel ParamsModel RasterModel HeaderModel HeaderSpec.
From Flocq Require Import Core BinarySingleNaN.
Ltac Zify.zify_post_hook ::= Z.div_mod_to_equations.
Local Open Scope Z_scope.

Lemma sane_repr x : sane_size x -> exists r, repr x r /\ (0 <= r <= IZR max_size)%R.
Proof.
  destruct x as [s|s| |[] m e]; simpl; intros H; try contradiction.
  - exists 0%R. split; [exists (B754_zero s); auto|]. split; [lra|]. apply IZR_le. unfold max_size. lia.
  - destruct H as [Hv H]. exists (IZR (Zpos m) * bpow radix2 e)%R. split.
    + exists (SF2B (S754_finite false m e) Hv). rewrite B2SF_SF2B. split; [reflexivity|]. split; reflexivity.
    + split; [apply Rmult_le_pos; [apply IZR_le; lia|apply bpow_ge_0]|].
      destruct (Z.leb_spec 0 e).
      * rewrite scaled_pos by assumption. apply IZR_le. exact H.
      * rewrite scaled_neg by assumption.
        assert (Hk : 0 < 2 ^ (- e)) by (apply Z.pow_pos_nonneg; lia). apply IZR_lt in Hk.
        apply Rmult_le_reg_r with (1 := Hk). unfold Rdiv. rewrite Rmult_assoc, Rinv_l, Rmult_1_r by lra.
        rewrite <- mult_IZR. apply IZR_le. exact H.
Qed.

Lemma repr_f25_4 : repr f25_4 (IZR 3574732204225331 * bpow radix2 (-47)).
Proof.
  unfold f25_4. rewrite <- (rnd_exact 3574732204225331 (-47)) by lia. apply repr_mk.
  rewrite scaled_neg by lia. rewrite Rabs_pos_eq by (apply Rmult_le_pos; [apply IZR_le; lia|left; apply Rinv_0_lt_compat; apply IZR_lt; reflexivity]).
  apply Rle_trans with (IZR 26).
  - change (- -47) with 47. change (2 ^ 47) with 140737488355328. lra.
  - rewrite <- (IZR_Zpower radix2) by lia. apply IZR_le. apply Z.le_trans with (2 ^ 5); [lia|].
    apply (Z.pow_le_mono_r 2); lia.
Qed.
Lemma f25_4_val : (25 < IZR 3574732204225331 * bpow radix2 (-47) < 26)%R.
Proof. rewrite scaled_neg by lia. change (- -47) with 47. change (2 ^ 47) with 140737488355328. lra. Qed.

Lemma big r z : (0 <= r <= IZR z)%R -> z <= 2 ^ 1000 -> (Rabs r <= bpow radix2 1000)%R.
Proof.
  intros [H0 H] Hz. rewrite Rabs_pos_eq by assumption. apply Rle_trans with (1 := H).
  rewrite <- (IZR_Zpower radix2) by lia. apply IZR_le. exact Hz.
Qed.

Lemma rnd_pos_le r z : 0 <= z <= 2 ^ 53 -> (0 <= r <= IZR z)%R -> (0 <= rnd r <= IZR z)%R.
Proof. intros Hz [H0 H]. split; [apply (rnd_ge_IZR r 0); [lia|assumption]|apply rnd_le_IZR; [lia|assumption]]. Qed.

Lemma small_pow : 2 ^ 60 <= 2 ^ 1000.
Proof. apply Z.pow_le_mono_r; lia. Qed.

(** pixel counts: the truncated exact product up to the rounding of each operation *)
Lemma mul_res size w res :
  repr size w -> (0 <= w <= IZR max_size)%R -> 1 <= res < two32 ->
  repr (fmul size (fofZ res)) (rnd (w * IZR res)) /\ (0 <= rnd (w * IZR res) <= bpow radix2 56)%R.
Proof.
  intros Hs [H0 H1] Hres. unfold two32 in Hres.
  assert (Hr1 : (1 <= IZR res <= IZR (2 ^ 32))%R) by (split; apply IZR_le; lia).
  assert (Hb : (0 <= w * IZR res <= bpow radix2 56)%R).
  { split; [nra|]. change (bpow radix2 56) with (IZR (2 ^ 56)).
    apply Rle_trans with (IZR max_size * IZR (2 ^ 32))%R; [apply Rmult_le_compat; lra|].
    rewrite <- mult_IZR. apply IZR_le. unfold max_size. lia. }
  split.
  - apply repr_mul; [assumption|apply repr_ofZ; lia|].
    apply (big _ (2 ^ 56)); [exact Hb|]. pose proof small_pow. lia.
  - split; [apply (rnd_ge_IZR _ 0); [lia|apply Hb]|].
    pose proof (rnd_abs_le (w * IZR res) 56 ltac:(lia)) as E.
    rewrite Rabs_pos_eq in E by apply Hb. specialize (E (proj2 Hb)).
    pose proof (Rle_abs (rnd (w * IZR res))). lra.
Qed.

Lemma sizeInPixels_ok u size res :
  sane_size size -> 1 <= res < two32 ->
  exists W, sizeInPixels u size res = Ok W /\ 0 <= W <= 2 ^ 56.
Proof.
  intros Hs Hres. destruct (sane_repr _ Hs) as (w & Hw & Hb).
  destruct (mul_res _ _ _ Hw Hb Hres) as [Hm Hmb].
  change (bpow radix2 56) with (IZR (2 ^ 56)) in Hmb.
  destruct u; unfold sizeInPixels.
  - unfold f_to_unsigned. rewrite (repr_trunc _ _ Hw). rewrite Ztrunc_floor by apply Hb.
    assert (Hz : 0 <= Zfloor w <= max_size).
    { split; [apply Zfloor_lub; apply Hb|]. apply le_IZR. apply Rle_trans with w; [apply Zfloor_lb|apply Hb]. }
    unfold max_size in Hz. exists (Zfloor w).
    replace ((0 <=? Zfloor w) && (Zfloor w <? 2 ^ 64)) with true by lia. split; [reflexivity|]. lia.
  - set (d := (rnd (w * IZR res) / (IZR 3574732204225331 * bpow radix2 (-47)))%R).
    pose proof f25_4_val as Hf.
    assert (Hd : (0 <= d <= IZR (2 ^ 52))%R).
    { unfold d. split.
      - apply Rmult_le_pos; [apply Hmb|]. left. apply Rinv_0_lt_compat. lra.
      - apply Rmult_le_reg_r with (IZR 3574732204225331 * bpow radix2 (-47))%R; [lra|].
        unfold Rdiv. rewrite Rmult_assoc, Rinv_l, Rmult_1_r by lra.
        apply Rle_trans with (1 := proj2 Hmb).
        apply Rle_trans with (IZR (2 ^ 52) * 25)%R; [rewrite <- mult_IZR; apply IZR_le; lia|].
        apply Rmult_le_compat_l; [apply IZR_le; lia|lra]. }
    assert (Hr : repr (fdiv (fmul size (fofZ res)) f25_4) (rnd d)).
    { apply repr_div; [assumption|apply repr_f25_4|lra|].
      apply (big _ (2 ^ 52)); [exact Hd|]. pose proof small_pow. lia. }
    rewrite (repr_floor _ _ Hr).
    pose proof (rnd_pos_le d (2 ^ 52) ltac:(lia) Hd) as Hrd.
    assert (Hz : 0 <= Zfloor (rnd d) <= 2 ^ 52).
    { split; [apply Zfloor_lub; apply Hrd|]. apply le_IZR. apply Rle_trans with (rnd d); [apply Zfloor_lb|apply Hrd]. }
    exists (Zfloor (rnd d)).
    replace ((0 <=? Zfloor (rnd d)) && (Zfloor (rnd d) <? two64)) with true by (unfold two64; lia).
    split; [reflexivity|lia].
  - unfold f_to_unsigned. rewrite (repr_trunc _ _ Hm). rewrite Ztrunc_floor by apply Hmb.
    set (z := Zfloor (rnd (w * IZR res))).
    assert (Hz : 0 <= z <= 2 ^ 56).
    { split; [apply Zfloor_lub; apply Hmb|]. apply le_IZR. apply Rle_trans with (rnd (w * IZR res)); [apply Zfloor_lb|apply Hmb]. }
    exists z. replace ((0 <=? z) && (z <? 2 ^ 64)) with true by lia. split; [reflexivity|lia].
Qed.

Lemma sizeInPixels_pixels W res : 0 <= W <= 2 ^ 53 -> sizeInPixels Pixels (fofZ W) res = Ok W.
Proof.
  intros HW. unfold sizeInPixels, f_to_unsigned.
  rewrite (repr_trunc _ (IZR W)) by (apply repr_ofZ; lia). rewrite Ztrunc_IZR.
  replace ((0 <=? W) && (W <? 2 ^ 64)) with true by lia. reflexivity.
Qed.

(** ** Points *)

Lemma round2_repr x r : repr x r -> (0 <= r <= IZR (2 ^ 30))%R ->
  exists r', repr (round2 x) r' /\ (0 <= r' <= IZR (2 ^ 31))%R.
Proof.
  intros Hx Hr. unfold round2.
  assert (H1 : repr (fmul x f100) (rnd (r * 100))).
  { apply repr_mul; [assumption|apply (repr_ofZ 100); lia|].
    apply (big _ (2 ^ 40)); [|pose proof small_pow; lia].
    change (2 ^ 40) with 1099511627776. change (2 ^ 30) with 1073741824 in Hr. lra. }
  assert (H1b : (0 <= rnd (r * 100) <= IZR (2 ^ 37))%R).
  { apply rnd_pos_le; [lia|]. change (2 ^ 37) with 137438953472. change (2 ^ 30) with 1073741824 in Hr. lra. }
  assert (H2 : repr (fround (fmul x f100)) (IZR (Zfloor (rnd (r * 100) + / 2)))).
  { apply repr_round; [assumption|apply H1b|]. apply Rle_trans with (1 := proj2 H1b). apply IZR_le. lia. }
  set (z := Zfloor (rnd (r * 100) + / 2)) in *.
  assert (Hz : 0 <= z <= 2 ^ 37).
  { split; [apply Zfloor_half_ge; apply H1b|apply Zfloor_half_le; apply H1b]. }
  assert (Hzr : (0 <= IZR z <= IZR (2 ^ 37))%R) by (split; apply IZR_le; lia).
  change (2 ^ 37) with 137438953472 in Hzr.
  exists (rnd (IZR z / 100)). split.
  - apply repr_div; [assumption|apply (repr_ofZ 100); lia|lra|].
    apply (big _ (2 ^ 37)); [|pose proof small_pow; lia]. change (2 ^ 37) with 137438953472. lra.
  - apply rnd_pos_le; [lia|]. change (2 ^ 31) with 2147483648. lra.
Qed.

Lemma sizeInPoints_ok u size res :
  sane_size size -> 1 <= res < two32 ->
  exists r, repr (sizeInPoints u size res) r /\ (0 <= r <= IZR (2 ^ 31))%R.
Proof.
  intros Hs Hres. destruct (sane_repr _ Hs) as (w & Hw & Hb).
  change (IZR max_size) with 10000000%R in Hb. unfold two32 in Hres.
  assert (Hr1 : (1 <= IZR res <= IZR (2 ^ 32))%R) by (split; apply IZR_le; lia).
  assert (H72 : repr f72 72) by (apply (repr_ofZ 72); lia).
  assert (Hmul : forall d x, repr d x -> (0 <= x <= 10000000)%R ->
            repr (fmul d f72) (rnd (x * 72)) /\ (0 <= rnd (x * 72) <= IZR (2 ^ 30))%R).
  { intros d x Hd Hx. split.
    - apply repr_mul; [assumption..|]. apply (big _ (2 ^ 30)); [|pose proof small_pow; lia].
      change (2 ^ 30) with 1073741824. lra.
    - apply rnd_pos_le; [lia|]. change (2 ^ 30) with 1073741824. lra. }
  destruct u; unfold sizeInPoints.
  - assert (Hd : (0 <= w / IZR res <= 10000000)%R).
    { split; [apply Rmult_le_pos; [lra|left; apply Rinv_0_lt_compat; lra]|].
      apply Rmult_le_reg_r with (IZR res); [lra|]. unfold Rdiv. rewrite Rmult_assoc, Rinv_l, Rmult_1_r by lra. nra. }
    assert (Hq : repr (fdiv size (fofZ res)) (rnd (w / IZR res))).
    { apply repr_div; [assumption|apply repr_ofZ; lia|lra|]. apply (big _ 10000000); [exact Hd|pose proof small_pow; lia]. }
    destruct (Hmul _ _ Hq) as [Hm Hmb]; [apply (rnd_pos_le _ 10000000); [lia|exact Hd]|].
    apply (round2_repr _ _ Hm Hmb).
  - pose proof f25_4_val as Hf.
    assert (Hd : (0 <= w / (IZR 3574732204225331 * bpow radix2 (-47)) <= 10000000)%R).
    { split; [apply Rmult_le_pos; [lra|left; apply Rinv_0_lt_compat; lra]|].
      apply Rmult_le_reg_r with (IZR 3574732204225331 * bpow radix2 (-47))%R; [lra|].
      unfold Rdiv. rewrite Rmult_assoc, Rinv_l, Rmult_1_r by lra. nra. }
    assert (Hq : repr (fdiv size f25_4) (rnd (w / (IZR 3574732204225331 * bpow radix2 (-47))))).
    { apply repr_div; [assumption|apply repr_f25_4|lra|]. apply (big _ 10000000); [exact Hd|pose proof small_pow; lia]. }
    destruct (Hmul _ _ Hq) as [Hm Hmb]; [apply (rnd_pos_le _ 10000000); [lia|exact Hd]|].
    apply (round2_repr _ _ Hm Hmb).
  - destruct (Hmul _ _ Hw Hb) as [Hm Hmb]. exists (rnd (w * 72)). split; [assumption|].
    split; [apply Hmb|]. apply Rle_trans with (1 := proj2 Hmb). apply IZR_le. lia.
Qed.

Lemma round_u32_ok x r : repr x r -> (0 <= r <= IZR (2 ^ 31))%R ->
  exists z, round_u32 x = Ok z /\ froundZ x = Some z /\ 0 <= z < two32.
Proof.
  intros Hx Hr. unfold round_u32. rewrite (repr_roundZ _ _ Hx) by apply Hr.
  set (z := Zfloor (r + / 2)).
  assert (Hz : 0 <= z <= 2 ^ 31).
  { split; [apply Zfloor_half_ge; apply Hr|apply Zfloor_half_le; apply Hr]. }
  exists z. replace ((0 <=? z) && (z <? two32)) with true by (unfold two32; lia).
  repeat split; unfold two32; lia.
Qed.

Lemma sane_pixels p : sane_geometry p ->
  exists W H, getPaperSizeWInPixels p = Ok W /\ getPaperSizeHInPixels p = Ok H /\
              0 <= W <= 2 ^ 56 /\ 0 <= H <= 2 ^ 56.
Proof.
  intros (H1 & H2 & H3 & H4).
  destruct (sizeInPixels_ok (p_units p) _ _ H1 H3) as (W & HW & HWb).
  destruct (sizeInPixels_ok (p_units p) _ _ H2 H4) as (H & HH & HHb).
  exists W, H. auto.
Qed.

Lemma bytes_per_line p W : getPaperSizeWInPixels p = Ok W -> 0 <= W <= 2 ^ 56 ->
  getPaperSizeWInBytes p = Ok (Z.of_nat (line_units (p_colorMode p) (Z.to_nat W)) * Z.of_nat (unit_bytes (p_colorMode p))).
Proof.
  intros HW Hb. unfold getPaperSizeWInBytes, getBitsPerColor, getNumberOfColors.
  assert (E : ((W + 7) mod two64) / 8 = Z.of_nat ((Z.to_nat W + 7) / 8) * 1).
  { rewrite Nat2Z.inj_div, Nat2Z.inj_add, Z2Nat.id by lia.
    rewrite Z.mod_small by (unfold two64; lia). change (Z.of_nat 8) with 8. lia. }
  assert (E2 : forall c b, 0 < c <= 4 -> 0 < b <= 2 -> (W * c * b) mod two64 = Z.of_nat (Z.to_nat W) * (c * b)).
  { intros c b Hc Hb2. rewrite Z2Nat.id by lia.
    assert (1 <= c * b <= 8) by nia. rewrite <- Z.mul_assoc.
    rewrite Z.mod_small; [reflexivity|]. unfold two64.
    assert (W * (c * b) <= 2 ^ 56 * 8) by (apply Z.mul_le_mono_nonneg; lia).
    assert (0 <= W * (c * b)) by (apply Z.mul_nonneg_nonneg; lia). lia. }
  destruct (p_colorMode p); cbv beta iota zeta delta [Z.eqb andb Pos.eqb line_units unit_bytes];
    repeat match goal with |- context [if ?b then _ else _] => let v := eval vm_compute in b in change b with v end;
    cbv iota; rewrite HW; cbn [bind]; f_equal; try exact E.
  - exact (E2 3 1 ltac:(lia) ltac:(lia)).
  - exact (E2 4 1 ltac:(lia) ltac:(lia)).
  - exact (E2 1 1 ltac:(lia) ltac:(lia)).
  - exact (E2 1 1 ltac:(lia) ltac:(lia)).
  - exact (E2 3 2 ltac:(lia) ltac:(lia)).
  - exact (E2 1 2 ltac:(lia) ltac:(lia)).
Qed.

Lemma sane_pwg_hdr p back : sane_geometry p -> exists h, pwg_hdr_of p back = Ok h.
Proof.
  intros Hp. destruct (sane_pixels _ Hp) as (W & H & HW & HH & HWb & HHb).
  destruct Hp as (H1 & H2 & H3 & H4).
  destruct (sizeInPoints_ok (p_units p) _ _ H1 H3) as (r1 & Hr1 & Hb1).
  destruct (sizeInPoints_ok (p_units p) _ _ H2 H4) as (r2 & Hr2 & Hb2).
  destruct (round_u32_ok _ _ Hr1 Hb1) as (z1 & Hz1 & _).
  destruct (round_u32_ok _ _ Hr2 Hb2) as (z2 & Hz2 & _).
  unfold pwg_hdr_of, getPaperSizeWInPoints, getPaperSizeHInPoints.
  rewrite Hz1. cbn [bind]. rewrite Hz2. cbn [bind]. rewrite HW. cbn [bind]. rewrite HH. cbn [bind].
  rewrite (bytes_per_line _ _ HW HWb). cbn [bind]. eexists. reflexivity.
Qed.

(** ** Integral sizes *)
Lemma sane_fofZ z : 0 <= z <= max_size -> sane_size (fofZ z).
Proof.
  intros Hz. assert (Hr : repr (fofZ z) (IZR z)) by (apply repr_ofZ; unfold max_size in Hz; lia).
  destruct Hr as (b & Hb & Fb & Vb). rewrite <- Hb.
  pose proof (valid_binary_B2SF 53 1024 b) as Hv.
  destruct b as [s|s| |s m e Hm]; try discriminate; [exact I|].
  unfold B2R, F2R in Vb. cbn [Fnum Fexp cond_Zopp] in Vb. destruct s; cbn [cond_Zopp Z.opp] in Vb.
  - exfalso. assert (IZR (Zneg m) * bpow radix2 e < 0)%R.
    { apply Ropp_lt_cancel. rewrite Ropp_0, Ropp_mult_distr_l.
      apply Rmult_lt_0_compat; [|apply bpow_gt_0]. rewrite <- opp_IZR. apply IZR_lt. lia. }
    assert (0 <= IZR z)%R by (apply IZR_le; lia). rewrite Vb in H. lra.
  - change (valid_binary 53 1024 (S754_finite false m e) = true /\ (if 0 <=? e then Zpos m * 2 ^ e <= max_size else Zpos m <= max_size * 2 ^ (- e))).
    split; [exact Hv|]. destruct (Z.leb_spec 0 e) as [He|He].
    + rewrite scaled_pos in Vb by assumption. apply eq_IZR in Vb. lia.
    + rewrite scaled_neg in Vb by assumption.
      assert (Hk : 0 < 2 ^ (- e)) by (apply Z.pow_pos_nonneg; lia).
      assert (E : Zpos m = z * 2 ^ (- e)).
      { apply eq_IZR. rewrite mult_IZR, <- Vb. unfold Rdiv. rewrite Rmult_assoc, Rinv_l, Rmult_1_r; [reflexivity|].
        apply not_0_IZR. lia. }
      rewrite E. nia.
Qed.

Lemma fmul_exact a b : 0 <= a <= 2 ^ 53 -> 0 <= b <= 2 ^ 53 -> a * b <= 2 ^ 53 ->
  f_to_unsigned 64 (fmul (fofZ a) (fofZ b)) = Ok (a * b).
Proof.
  intros Ha Hb Hab.
  assert (Hr : repr (fmul (fofZ a) (fofZ b)) (IZR (a * b))).
  { rewrite <- (rnd_IZR (a * b)) by nia. rewrite mult_IZR. apply repr_mul.
    - apply repr_ofZ. lia.
    - apply repr_ofZ. lia.
    - rewrite <- mult_IZR. apply bpow1000. apply Z.le_trans with (2 ^ 53); [nia|]. apply Z.pow_le_mono_r; lia. }
  unfold f_to_unsigned. rewrite (repr_trunc _ _ Hr), Ztrunc_IZR.
  replace ((0 <=? a * b) && (a * b <? 2 ^ 64)) with true by nia. reflexivity.
Qed.
