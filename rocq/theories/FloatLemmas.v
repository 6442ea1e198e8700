(** Real-number reading of the binary64 operations of FloatModel, by Flocq.
    (Flocq works over Coq's real numbers, so theorems using this file depend on the
    axioms of the standard library's Reals.) *)
From Coq Require Import Reals Lra Lia Psatz.
From Verif Require Import Base FloatModel.
From Flocq Require Import Core BinarySingleNaN.
Local Open Scope Z_scope.

Local Instance Hprec : FLX.Prec_gt_0 53 := eq_refl _.
Local Instance Hmax : Prec_lt_emax 53 1024 := eq_refl _.

Definition bf := binary_float 53 1024.
Definition rnd (r : R) : R := round radix2 (FLT_exp (-1074) 53) ZnearestE r.

Lemma rnd_eq r : round radix2 (SpecFloat.fexp 53 1024) (round_mode mode_NE) r = rnd r.
Proof. reflexivity. Qed.

(** [x] is a finite double with value [r] *)
Definition repr (x : f64) (r : R) : Prop :=
  exists b : bf, B2SF b = x /\ is_finite b = true /\ B2R b = r.

Lemma round_nearest_even_equiv s m l :
  round_nearest_even m l = choice_mode mode_NE s m l.
Proof.
  destruct l as [|[]]; try reflexivity. simpl. unfold Round.cond_incr. destruct (Z.even m); reflexivity.
Qed.

Lemma binary_round_aux_equiv sx mx ex lx :
  SpecFloat.binary_round_aux 53 1024 sx mx ex lx
  = binary_round_aux 53 1024 mode_NE sx mx ex lx.
Proof.
  unfold SpecFloat.binary_round_aux, binary_round_aux.
  set (mrse' := shr_fexp _ _ _ _ _). destruct mrse' as [mrs' e']. simpl.
  rewrite (round_nearest_even_equiv sx). reflexivity.
Qed.

Lemma binary_round_equiv s m e :
  SpecFloat.binary_round 53 1024 s m e = binary_round 53 1024 mode_NE s m e.
Proof.
  unfold SpecFloat.binary_round, binary_round, shl_align_fexp.
  destruct (shl_align _ _ _). apply binary_round_aux_equiv.
Qed.

Lemma binary_normalize_equiv m e szero :
  SpecFloat.binary_normalize 53 1024 m e szero
  = B2SF (binary_normalize 53 1024 Hprec Hmax mode_NE m e szero).
Proof.
  destruct m as [|p|p]; [reflexivity| |];
    simpl; rewrite B2SF_SF2B; apply binary_round_equiv.
Qed.

Lemma fmul_equiv (x y : bf) : fmul (B2SF x) (B2SF y) = B2SF (Bmult mode_NE x y).
Proof.
  destruct x as [sx|sx| |sx mx ex Bx], y as [sy|sy| |sy my ey By]; try reflexivity.
  simpl. rewrite B2SF_SF2B. apply binary_round_aux_equiv.
Qed.

Lemma fadd_equiv (x y : bf) : fadd (B2SF x) (B2SF y) = B2SF (Bplus mode_NE x y).
Proof.
  destruct x as [sx|sx| |sx mx ex Bx], y as [sy|sy| |sy my ey By];
    try reflexivity; try (simpl; destruct (Bool.eqb _ _); reflexivity).
  apply binary_normalize_equiv.
Qed.

Lemma fsub_equiv (x y : bf) : fsub (B2SF x) (B2SF y) = B2SF (Bminus mode_NE x y).
Proof.
  destruct x as [sx|sx| |sx mx ex Bx], y as [sy|sy| |sy my ey By];
    try reflexivity; try (simpl; destruct (Bool.eqb _ _); reflexivity).
  simpl. unfold Zminus. rewrite <- cond_Zopp_negb. apply binary_normalize_equiv.
Qed.

Lemma fdiv_equiv (x y : bf) : fdiv (B2SF x) (B2SF y) = B2SF (Bdiv mode_NE x y).
Proof.
  destruct x as [sx|sx| |sx mx ex Bx], y as [sy|sy| |sy my ey By]; try reflexivity.
  simpl. rewrite B2SF_SF2B.
  set (melz := SFdiv_core_binary _ _ _ _ _ _). destruct melz as [[mz ez] lz].
  apply binary_round_aux_equiv.
Qed.

(** ** Operations on represented values *)

Lemma rnd_abs_le r k : (-1074 < k)%Z -> (Rabs r <= bpow radix2 k)%R -> (Rabs (rnd r) <= bpow radix2 k)%R.
Proof.
  intros Hk Hr. unfold rnd. apply abs_round_le_generic; auto with typeclass_instances.
  apply generic_format_bpow. unfold FLT_exp. lia.
Qed.

Lemma rnd_no_overflow r : (Rabs r <= bpow radix2 1000)%R ->
  Rlt_bool (Rabs (rnd r)) (bpow radix2 1024) = true.
Proof.
  intros Hr. apply Rlt_bool_true. eapply Rle_lt_trans.
  - apply rnd_abs_le; [|exact Hr]. lia.
  - apply bpow_lt. lia.
Qed.

Lemma repr_mul x y a b :
  repr x a -> repr y b -> (Rabs (a * b) <= bpow radix2 1000)%R -> repr (fmul x y) (rnd (a * b)).
Proof.
  intros (bx & <- & Fx & <-) (by_ & <- & Fy & <-) Hle.
  exists (Bmult mode_NE bx by_). split; [symmetry; apply fmul_equiv|].
  pose proof (Bmult_correct 53 1024 _ _ mode_NE bx by_) as H. rewrite rnd_eq in H.
  rewrite rnd_no_overflow in H by assumption. destruct H as (H1 & H2 & _).
  rewrite Fx, Fy in H2. auto.
Qed.

Lemma repr_div x y a b :
  repr x a -> repr y b -> (b <> 0)%R -> (Rabs (a / b) <= bpow radix2 1000)%R ->
  repr (fdiv x y) (rnd (a / b)).
Proof.
  intros (bx & <- & Fx & <-) (by_ & <- & Fy & <-) Hb Hle.
  exists (Bdiv mode_NE bx by_). split; [symmetry; apply fdiv_equiv|].
  pose proof (Bdiv_correct 53 1024 _ _ mode_NE bx by_ Hb) as H. rewrite rnd_eq in H.
  rewrite rnd_no_overflow in H by assumption. destruct H as (H1 & H2 & _).
  rewrite Fx in H2. auto.
Qed.

Lemma repr_add x y a b :
  repr x a -> repr y b -> (Rabs (a + b) <= bpow radix2 1000)%R -> repr (fadd x y) (rnd (a + b)).
Proof.
  intros (bx & <- & Fx & <-) (by_ & <- & Fy & <-) Hle.
  exists (Bplus mode_NE bx by_). split; [symmetry; apply fadd_equiv|].
  pose proof (Bplus_correct 53 1024 _ _ mode_NE bx by_ Fx Fy) as H. rewrite rnd_eq in H.
  rewrite rnd_no_overflow in H by assumption. destruct H as (H1 & H2 & _). auto.
Qed.

Lemma repr_sub x y a b :
  repr x a -> repr y b -> (Rabs (a - b) <= bpow radix2 1000)%R -> repr (fsub x y) (rnd (a - b)).
Proof.
  intros (bx & <- & Fx & <-) (by_ & <- & Fy & <-) Hle.
  exists (Bminus mode_NE bx by_). split; [symmetry; apply fsub_equiv|].
  pose proof (Bminus_correct 53 1024 _ _ mode_NE bx by_ Fx Fy) as H. rewrite rnd_eq in H.
  rewrite rnd_no_overflow in H by assumption. destruct H as (H1 & H2 & _). auto.
Qed.

Lemma repr_mk m e : (Rabs (IZR m * bpow radix2 e) <= bpow radix2 1000)%R ->
  repr (fmk m e) (rnd (IZR m * bpow radix2 e)).
Proof.
  intros Hle. exists (binary_normalize 53 1024 Hprec Hmax mode_NE m e false).
  split; [symmetry; apply binary_normalize_equiv|].
  pose proof (binary_normalize_correct 53 1024 _ _ mode_NE m e false) as H. cbv zeta in H.
  rewrite rnd_eq in H. change (F2R (Float radix2 m e)) with (IZR m * bpow radix2 e)%R in H.
  rewrite rnd_no_overflow in H by assumption. destruct H as (H1 & H2 & _). auto.
Qed.

(** values with a 53-bit mantissa are not rounded *)
Lemma rnd_exact m e : (Z.abs m <= 2 ^ 53) -> (-1074 <= e) ->
  rnd (IZR m * bpow radix2 e) = (IZR m * bpow radix2 e)%R.
Proof.
  intros Hm He. unfold rnd. apply round_generic; auto with typeclass_instances.
  destruct (Z.eq_dec (Z.abs m) (2 ^ 53)) as [E|E].
  - assert (Hp : generic_format radix2 (FLT_exp (-1074) 53) (bpow radix2 (53 + e))).
    { apply generic_format_bpow. unfold FLT_exp. lia. }
    rewrite bpow_plus in Hp. change (bpow radix2 53) with (IZR (2 ^ 53)) in Hp.
    destruct (Z_le_gt_dec 0 m).
    + replace m with (2 ^ 53) by lia. exact Hp.
    + replace m with (- 2 ^ 53) by lia. rewrite opp_IZR, Ropp_mult_distr_l_reverse.
      apply generic_format_opp. exact Hp.
  - apply generic_format_FLT. exists (Float radix2 m e); simpl; auto.
    change (Z.pow_pos 2 53) with (2 ^ 53). lia.
Qed.

Lemma rnd_IZR z : Z.abs z <= 2 ^ 53 -> rnd (IZR z) = IZR z.
Proof.
  intros H. pose proof (rnd_exact z 0 H ltac:(lia)) as E. simpl in E.
  rewrite Rmult_1_r in E. exact E.
Qed.

Lemma bpow1000 z : Z.abs z <= 2 ^ 1000 -> (Rabs (IZR z) <= bpow radix2 1000)%R.
Proof.
  intros H. rewrite <- abs_IZR. rewrite <- (IZR_Zpower radix2) by lia. apply IZR_le. exact H.
Qed.

Lemma repr_ofZ z : Z.abs z <= 2 ^ 53 -> repr (fofZ z) (IZR z).
Proof.
  intros H. unfold fofZ. pose proof (repr_mk z 0) as E. simpl in E. rewrite Rmult_1_r in E.
  rewrite rnd_IZR in E by assumption. apply E. apply bpow1000.
  apply Z.le_trans with (2 ^ 53); [assumption|]. apply Z.pow_le_mono_r; lia.
Qed.

Lemma repr_ofZ_any z : Z.abs z <= 2 ^ 1000 -> repr (fofZ z) (rnd (IZR z)).
Proof.
  intros H. unfold fofZ. pose proof (repr_mk z 0) as E. simpl in E. rewrite Rmult_1_r in E.
  apply E. apply bpow1000. assumption.
Qed.

Lemma rnd_le a b : (a <= b)%R -> (rnd a <= rnd b)%R.
Proof. intros H. unfold rnd. apply round_le; auto with typeclass_instances. Qed.

Lemma rnd_le_IZR r z : Z.abs z <= 2 ^ 53 -> (r <= IZR z)%R -> (rnd r <= IZR z)%R.
Proof. intros Hz H. rewrite <- (rnd_IZR z Hz). apply rnd_le, H. Qed.
Lemma rnd_ge_IZR r z : Z.abs z <= 2 ^ 53 -> (IZR z <= r)%R -> (IZR z <= rnd r)%R.
Proof. intros Hz H. rewrite <- (rnd_IZR z Hz). apply rnd_le, H. Qed.

(** ** Conversions to integers *)

Lemma repr_value x r : repr x r ->
  (r = 0%R /\ exists s, x = S754_zero s) \/
  (exists s m e, x = S754_finite s m e /\ r = (IZR (if s then Zneg m else Zpos m) * bpow radix2 e)%R).
Proof.
  intros (b & <- & Fb & <-). destruct b as [s|s| |s m e Hb]; try discriminate.
  - left. split; [reflexivity|]. exists s. reflexivity.
  - right. exists s, m, e. split; [reflexivity|]. simpl. unfold F2R. simpl.
    destruct s; reflexivity.
Qed.

Lemma scaled_pos v e : 0 <= e -> (IZR v * bpow radix2 e = IZR (v * 2 ^ e))%R.
Proof. intros He. rewrite mult_IZR. f_equal. rewrite <- (IZR_Zpower radix2) by assumption. reflexivity. Qed.
Lemma scaled_neg v e : e < 0 -> (IZR v * bpow radix2 e = IZR v / IZR (2 ^ (- e)))%R.
Proof.
  intros He. unfold Rdiv. f_equal. replace e with (- (- e)) at 1 by lia. rewrite bpow_opp.
  f_equal. rewrite <- (IZR_Zpower radix2) by lia. reflexivity.
Qed.

Lemma repr_floor x r : repr x r -> ffloorZ x = Some (Zfloor r).
Proof.
  intros H. destruct (repr_value x r H) as [(-> & s & ->)|(s & m & e & -> & ->)].
  - cbn [ffloorZ]. now rewrite (Zfloor_IZR 0).
  - cbn [ffloorZ]. set (v := if s then Zneg m else Zpos m). f_equal.
    destruct (Z.leb_spec 0 e) as [He|He].
    + rewrite scaled_pos by assumption. now rewrite Zfloor_IZR.
    + rewrite scaled_neg by assumption. rewrite Zfloor_div; [reflexivity|].
      pose proof (Z.pow_pos_nonneg 2 (- e)). lia.
Qed.

Lemma repr_trunc x r : repr x r -> ftrunc x = Some (Ztrunc r).
Proof.
  intros H. destruct (repr_value x r H) as [(-> & s & ->)|(s & m & e & -> & ->)].
  - cbn [ftrunc]. now rewrite (Ztrunc_IZR 0).
  - cbn [ftrunc]. f_equal.
    assert (Hpos : (0 <= IZR (Zpos m) * bpow radix2 e)%R).
    { apply Rmult_le_pos; [apply IZR_le; lia|apply bpow_ge_0]. }
    assert (E : Ztrunc (IZR (Zpos m) * bpow radix2 e)
                = if 0 <=? e then Zpos m * 2 ^ e else Zpos m / 2 ^ (- e)).
    { rewrite Ztrunc_floor by assumption. destruct (Z.leb_spec 0 e) as [He|He].
      - rewrite scaled_pos by assumption. now rewrite Zfloor_IZR.
      - rewrite scaled_neg by assumption. rewrite Zfloor_div; [reflexivity|].
        pose proof (Z.pow_pos_nonneg 2 (- e)). lia. }
    rewrite <- E. destruct s; [|reflexivity].
    change (Zneg m) with (- Zpos m). rewrite opp_IZR, Ropp_mult_distr_l_reverse.
    now rewrite Ztrunc_opp.
Qed.

Lemma repr_roundZ x r : repr x r -> (0 <= r)%R -> froundZ x = Some (Zfloor (r + / 2)).
Proof.
  intros H Hr. destruct (repr_value x r H) as [(-> & s & ->)|(s & m & e & -> & ->)].
  - cbn [froundZ]. f_equal. symmetry. apply Zfloor_imp. simpl. lra.
  - destruct s.
    { exfalso. assert (IZR (Zneg m) * bpow radix2 e < 0)%R; [|lra].
      apply Ropp_lt_cancel. rewrite Ropp_0, Ropp_mult_distr_l.
      apply Rmult_lt_0_compat; [|apply bpow_gt_0]. rewrite <- opp_IZR. apply IZR_lt. lia. }
    cbn [froundZ]. f_equal. destruct (Z.leb_spec 0 e) as [He|He].
    + rewrite scaled_pos by assumption. symmetry. apply Zfloor_imp. rewrite plus_IZR. lra.
    + rewrite scaled_neg by assumption.
      assert (Hk : 0 < 2 ^ (- e)) by (apply Z.pow_pos_nonneg; lia).
      rewrite <- Zfloor_div by lia. f_equal.
      rewrite plus_IZR, !mult_IZR. field. apply not_0_IZR. lia.
Qed.

Lemma repr_ltb x y a b : repr x a -> repr y b -> fltb x y = Rlt_bool a b.
Proof.
  intros (bx & <- & Fx & <-) (by_ & <- & Fy & <-). unfold fltb.
  change (Bltb bx by_ = Rlt_bool (B2R bx) (B2R by_)). apply Bltb_correct; assumption.
Qed.

Lemma repr_eqb x y a b : repr x a -> repr y b -> feqb x y = Req_bool a b.
Proof.
  intros (bx & <- & Fx & <-) (by_ & <- & Fy & <-). unfold feqb.
  change (Beqb bx by_ = Req_bool (B2R bx) (B2R by_)). apply Beqb_correct; assumption.
Qed.

Lemma Zfloor_half_le r z : (r <= IZR z)%R -> Zfloor (r + / 2) <= z.
Proof.
  intros H. apply Z.lt_succ_r. apply lt_IZR. rewrite succ_IZR.
  pose proof (Zfloor_lb (r + / 2)). lra.
Qed.
Lemma Zfloor_half_ge r z : (IZR z <= r)%R -> z <= Zfloor (r + / 2).
Proof. intros H. apply Zfloor_lub. lra. Qed.

(** std::round as a double *)
Lemma repr_round x r : repr x r -> (0 <= r)%R -> (r <= IZR (2 ^ 52))%R ->
  repr (fround x) (IZR (Zfloor (r + / 2))).
Proof.
  intros H Hr Hm. pose proof (repr_roundZ x r H Hr) as E.
  assert (Hz : 0 <= Zfloor (r + / 2) <= 2 ^ 53).
  { split.
    - apply Zfloor_half_ge. exact Hr.
    - apply Z.le_trans with (2 ^ 52); [|lia]. apply Zfloor_half_le. exact Hm. }
  destruct (repr_value x r H) as [(Hr0 & s & ->)|(s & m & e & -> & Hv)].
  - cbn in E. injection E as E. rewrite <- E. simpl.
    exists (B754_zero s). auto.
  - unfold fround. rewrite E.
    destruct (Zfloor (r + / 2) =? 0) eqn:E0.
    + apply Z.eqb_eq in E0. rewrite E0. exists (B754_zero s). auto.
    + apply repr_ofZ. lia.
Qed.
