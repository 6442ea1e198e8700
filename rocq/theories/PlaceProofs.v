(** What fixup_scale (pdf2printable.cpp:313-356) computes, offsets included, as real numbers. *)
From Coq Require Import Reals Lra Lia ZifyBool ZifyNat.
From Verif Require Import Base BaseLemmas FloatModel FloatLemmas ParamsModel RasterModel RenderModel HeaderSpec GeometryProofs ScaleProperties.
From Flocq Require Import Core.Core Relative IEEE754.BinarySingleNaN.
Local Open Scope Z_scope.

Definition eps53 : R := (/ 9007199254740992)%R.
Definition tiny : R := (/ 1267650600228229401496703205376)%R.
Lemma tiny_bpow : tiny = bpow radix2 (-100).
Proof. reflexivity. Qed.
Lemma rnd_err x : (Rabs (rnd x - x) <= Rabs x * eps53 + tiny)%R.
Proof.
  destruct (error_N_FLT radix2 (-1074) 53 eq_refl (fun x => negb (Z.even x)) x) as (e & eta & He & Ht & _ & E). unfold rnd. change (round radix2 (FLT_exp (-1074) 53) ZnearestE x) with (round radix2 (FLT_exp (-1074) 53) (Znearest (fun x => negb (Z.even x))) x). rewrite E.
  replace (x * (1 + e) + eta - x)%R with (x * e + eta)%R by ring. eapply Rle_trans; [apply Rabs_triang|]. rewrite Rabs_mult. apply Rplus_le_compat.
  - apply Rmult_le_compat_l; [apply Rabs_pos|]. eapply Rle_trans; [exact He|]. replace (bpow radix2 (- (53) + 1)) with (/ 4503599627370496)%R by reflexivity. unfold eps53. lra.
  - eapply Rle_trans; [exact Ht|]. rewrite tiny_bpow. apply Rle_trans with (bpow radix2 (-1074)); [pose proof (bpow_gt_0 radix2 (-1074)); lra|]. apply bpow_le. lia.
Qed.
(** an error bound for numbers of known size *)
Lemma rnd_abs x b : (Rabs x <= b)%R -> (rnd x - x <= b * eps53 + tiny /\ x - rnd x <= b * eps53 + tiny)%R.
Proof.
  intros H. pose proof (rnd_err x) as E. assert (Rabs x * eps53 <= b * eps53)%R by (apply Rmult_le_compat_r; [unfold eps53; lra|exact H]). apply Rabs_le_inv in E. lra.
Qed.

(** ** roundf *)
Local Instance Hprec24 : FLX.Prec_gt_0 24 := eq_refl _.
Local Instance Hmax24 : Prec_lt_emax 24 128 := eq_refl _.
Lemma normalize24 m e s : SpecFloat.binary_normalize 24 128 m e s = B2SF (binary_normalize 24 128 Hprec24 Hmax24 mode_NE m e s).
Proof.
  assert (AUX : forall sx mx ex lx, SpecFloat.binary_round_aux 24 128 sx mx ex lx = binary_round_aux 24 128 mode_NE sx mx ex lx).
  { intros sx mx ex lx. unfold SpecFloat.binary_round_aux, binary_round_aux. set (mrse' := shr_fexp _ _ _ _ _). destruct mrse' as [mrs' e']. simpl. rewrite (round_nearest_even_equiv sx). reflexivity. }
  destruct m as [|p|p]; [reflexivity| |]; simpl; rewrite B2SF_SF2B; unfold SpecFloat.binary_round, binary_round, shl_align_fexp; destruct (shl_align _ _ _); apply AUX.
Qed.
(** the real value of any finite pattern *)
Lemma froundZ_near x : (match x with S754_zero _ | S754_finite _ _ _ => True | _ => False end) -> exists z, froundZ x = Some z /\ (Rabs (IZR z - SF2R radix2 x) <= / 2)%R.
Proof.
  destruct x as [s|s| |s m e]; intros H; try contradiction.
  - exists 0. split; [reflexivity|]. cbn. rewrite Rminus_0_r, Rabs_R0. lra.
  - assert (A : exists a, (if 0 <=? e then Zpos m * 2 ^ e else (2 * Zpos m + 2 ^ (- e)) / (2 * 2 ^ (- e))) = a /\ (Rabs (IZR a - IZR (Zpos m) * bpow radix2 e) <= / 2)%R).
    { eexists. split; [reflexivity|]. destruct (Z.leb_spec 0 e) as [L|L].
      - rewrite scaled_pos by exact L. replace (_ - _)%R with 0%R by ring. rewrite Rabs_R0. lra.
      - rewrite scaled_neg by exact L. assert (P : 0 < 2 ^ (- e)) by (apply Z.pow_pos_nonneg; lia). set (d := 2 ^ (- e)) in *.
        assert (E : (2 * Zpos m + d) / (2 * d) = Zfloor (IZR (Zpos m) / IZR d + / 2)). { rewrite <- Zfloor_div by lia. f_equal. rewrite plus_IZR, !mult_IZR. field. apply not_0_IZR. lia. }
        rewrite E. apply half. }
    destruct A as (a & E & A). exists (if s then - a else a). cbn [froundZ]. cbv zeta. rewrite E. split; [reflexivity|]. cbn [SF2R]. unfold F2R. cbn [Fnum Fexp]. destruct s; cbn [cond_Zopp].
    + change (Z.opp (Zpos m)) with (- Zpos m). rewrite !opp_IZR. replace (- IZR a - - IZR (Zpos m) * bpow radix2 e)%R with (- (IZR a - IZR (Zpos m) * bpow radix2 e))%R by ring. rewrite Rabs_Ropp. exact A.
    + exact A.
Qed.
Lemma SF2R_repr x r : repr x r -> SF2R radix2 x = r.
Proof. intros (b & <- & _ & <-). apply SF2R_B2SF. Qed.
Lemma f32_near x r : repr x r -> (Rabs r <= 1048576)%R -> (match f32_of x with S754_zero _ | S754_finite _ _ _ => True | _ => False end) /\ (Rabs (SF2R radix2 (f32_of x) - r) <= Rabs r * / 16777216 + tiny)%R.
Proof.
  intros H B. pose proof (SF2R_repr _ _ H) as V. destruct (repr_value _ _ H) as [(E & s & ->)|(s & m & e & -> & Er)].
  - cbn [f32_of]. split; [exact I|]. rewrite V. replace (r - r)%R with 0%R by ring. rewrite Rabs_R0. pose proof (Rabs_pos r). unfold tiny. lra.
  - cbn [f32_of]. rewrite normalize24. set (mx := if s then Zneg m else Zpos m) in *. set (b := binary_normalize 24 128 Hprec24 Hmax24 mode_NE mx e s).
    pose proof (binary_normalize_correct 24 128 Hprec24 Hmax24 mode_NE mx e s) as C. cbv zeta in C. change (F2R {| Fnum := mx; Fexp := e |}) with (IZR mx * bpow radix2 e)%R in C. rewrite <- Er in C.
    change (SpecFloat.fexp 24 128) with (FLT_exp (-149) 24) in C. cbn [round_mode] in C.
    destruct (error_N_FLT radix2 (-149) 24 eq_refl (fun x => negb (Z.even x)) r) as (ep & eta & He & Ht & _ & E). change (Znearest (fun x => negb (Z.even x))) with ZnearestE in E.
    assert (D : (Rabs (round radix2 (FLT_exp (-149) 24) ZnearestE r - r) <= Rabs r * / 16777216 + tiny)%R).
    { rewrite E. replace (r * (1 + ep) + eta - r)%R with (r * ep + eta)%R by ring. eapply Rle_trans; [apply Rabs_triang|]. rewrite Rabs_mult. apply Rplus_le_compat.
      - apply Rmult_le_compat_l; [apply Rabs_pos|]. eapply Rle_trans; [exact He|]. replace (bpow radix2 (- (24) + 1)) with (/ 8388608)%R by reflexivity. lra.
      - eapply Rle_trans; [exact Ht|]. rewrite tiny_bpow. apply Rle_trans with (bpow radix2 (-149)); [pose proof (bpow_gt_0 radix2 (-149)); lra|]. apply bpow_le. lia. }
    rewrite Rlt_bool_true in C.
    + destruct C as (C1 & C2 & _). split.
      * fold b in C2. destruct b; try discriminate; exact I.
      * fold b in C1. rewrite SF2R_B2SF, C1. exact D.
    + apply Rle_lt_trans with 2097152%R; [|change 2097152%R with (bpow radix2 21); apply bpow_lt; lia]. apply Rabs_le_inv in D. apply Rabs_le. unfold tiny in D.
      assert (Rabs r * / 16777216 <= 1)%R by (apply Rmult_le_reg_r with 16777216%R; [lra|]; rewrite Rmult_assoc, Rinv_l by lra; lra). apply Rabs_le_inv in B. lra.
Qed.
Lemma repr_zero s : repr (S754_zero s) 0.
Proof. exists (B754_zero s). auto. Qed.
Lemma roundf_near x r : repr x r -> (Rabs r <= 524289)%R -> exists z, repr (roundf x) (IZR z) /\ (Rabs (IZR z - r) <= 5313 / 10000)%R.
Proof.
  intros H B. destruct (f32_near x r H ltac:(lra)) as [F D]. destruct (froundZ_near _ F) as (z & Z1 & Z2). exists z.
  assert (N : (Rabs (IZR z - r) <= 5313 / 10000)%R).
  { apply Rabs_le_inv in Z2, D. assert (Rabs r * / 16777216 <= 312501 / 10000000)%R by (apply Rmult_le_reg_r with 16777216%R; [lra|]; rewrite Rmult_assoc, Rinv_l by lra; lra). unfold tiny in D. apply Rabs_le. lra. }
  split; [|exact N]. assert (Bz : Z.abs z <= 2 ^ 53). { apply Rabs_le_inv in N, B. assert (- 524291 <= z <= 524291) by (split; apply le_IZR; lra). lia. }
  unfold roundf. destruct (f32_of x) as [s|s| |s m e]; try contradiction.
  - cbn in Z1. injection Z1 as <-. apply repr_zero.
  - unfold fround. rewrite Z1. destruct (Z.eqb_spec z 0) as [->|_]; [apply repr_zero|]. apply repr_ofZ. exact Bz.
Qed.
(** ** The offsets *)
Lemma offset_near w x scale a s : 0 <= w <= 1048576 -> page_side x a -> repr scale s -> (0 <= s)%R -> (s * a <= IZR w + 52 / 10000 * a)%R ->
  exists z, repr (roundf (fdiv (fsub (fofZ w) (fmul x scale)) (fofZ 2))) (IZR z) /\ (Rabs (IZR z - (IZR w - s * a) / 2) <= 532 / 1000)%R /\ - 524291 <= z <= 524291.
Proof.
  intros Bw [Ha Ba] Hs Ps Fi. assert (Bw' : (0 <= IZR w <= 1048576)%R) by (split; apply IZR_le; lia). assert (P0 : (0 <= a * s <= 1055000)%R) by (split; nra).
  assert (BIG : forall r, (Rabs r <= 2097152)%R -> (Rabs r <= bpow radix2 1000)%R). { intros r Hr. eapply Rle_trans; [exact Hr|]. change 2097152%R with (bpow radix2 21). apply bpow_le. lia. }
  assert (R1 : repr (fmul x scale) (rnd (a * s))) by (apply repr_mul; [exact Ha|exact Hs|apply BIG; apply Rabs_le; lra]).
  destruct (rnd_abs (a * s) 1055000 ltac:(apply Rabs_le; lra)) as [E1 E1']. set (m := rnd (a * s)) in *. unfold eps53, tiny in E1, E1'.
  assert (Pm : (0 <= m)%R) by (unfold m; apply (rnd_ge_IZR _ 0); [lia|lra]). assert (Bm : (m <= 1055001)%R) by lra.
  assert (R2 : repr (fsub (fofZ w) (fmul x scale)) (rnd (IZR w - m))) by (apply repr_sub; [apply repr_ofZ; lia|exact R1|apply BIG; apply Rabs_le; lra]).
  destruct (rnd_abs (IZR w - m) 1055001 ltac:(apply Rabs_le; lra)) as [E2 E2']. set (d := rnd (IZR w - m)) in *. unfold eps53, tiny in E2, E2'.
  assert (Bd : (- 6500 <= d <= 1048577)%R). { split; [|lra]. assert (- 5454 <= IZR w - a * s)%R by nra. lra. }
  assert (R3 : repr (fdiv (fsub (fofZ w) (fmul x scale)) (fofZ 2)) (rnd (d / 2))) by (apply repr_div; [exact R2|apply (repr_ofZ 2); lia|lra|apply BIG; apply Rabs_le; lra]).
  destruct (rnd_abs (d / 2) 524289 ltac:(apply Rabs_le; lra)) as [E3 E3']. set (q := rnd (d / 2)) in *. unfold eps53, tiny in E3, E3'.
  assert (Bq : (q <= 524289)%R). { unfold q. apply (rnd_le_IZR _ 524289); [lia|lra]. }
  destruct (roundf_near _ _ R3 ltac:(apply Rabs_le; lra)) as (z & Z1 & Z2). exists z. split; [exact Z1|]. apply Rabs_le_inv in Z2.
  split; [apply Rabs_le; lra|]. split; apply le_IZR; lra.
Qed.
Lemma repr_mul_Z x y m n : repr x (IZR m) -> repr y (IZR n) -> Z.abs (m * n) <= 2 ^ 53 -> repr (fmul x y) (IZR (m * n)).
Proof.
  intros Hx Hy B. rewrite <- (rnd_IZR (m * n) B), mult_IZR. apply repr_mul; [exact Hx|exact Hy|]. rewrite <- mult_IZR. apply bpow1000. apply Z.le_trans with (2 ^ 53); [exact B|]. apply Z.pow_le_mono_r; lia.
Qed.

(** the factors by which both directions are stretched *)
Definition stretch (p : params) (mine other : Z) : Z := if is_raster p && (other <? mine) then mine / other else 1.
Lemma placed p wIn hIn a b w h t : page_side wIn a -> page_side hIn b -> area p (Z.min (p_hwResW p) (p_hwResH p)) w h -> w <= 1048576 -> h <= 1048576 -> 0 < p_hwResW p < 2 ^ 32 -> 0 < p_hwResH p < 2 ^ 32 ->
  fixup_scale wIn hIn p = Ok t ->
  let kx := stretch p (p_hwResW p) (p_hwResH p) in let ky := stretch p (p_hwResH p) (p_hwResW p) in
  exists s sx sy zx zy, (0 <= s)%R /\ fills (Rmin a b) (Rmax a b) s (IZR w) (IZR h) (52 / 10000) /\
  repr (t_xScale t) sx /\ repr (t_yScale t) sy /\ (Rabs (sx - s * IZR kx) <= eps53 * (s * IZR kx))%R /\ (Rabs (sy - s * IZR ky) <= eps53 * (s * IZR ky))%R /\
  repr (t_xOffset t) (IZR (zx * kx)) /\ repr (t_yOffset t) (IZR (zy * ky)) /\
  (Rabs (IZR zx - (IZR w - s * Rmin a b) / 2) <= 532 / 1000)%R /\ (Rabs (IZR zy - (IZR h - s * Rmax a b) / 2) <= 532 / 1000)%R /\
  (t_rotate t = true <-> (b < a)%R) /\ page_side (t_w t) (Rmin a b) /\ page_side (t_h t) (Rmax a b).
Proof.
  intros Ha Hb Har Bw0 Bh0 RW RH H kx ky. unfold fixup_scale in H. destruct (area_out _ _ _ _ Har) as [O1 O2]. destruct Har as [Bw [Bh _]].
  assert (LT : fltb hIn wIn = Rlt_bool b a) by (apply repr_ltb; [apply Hb|apply Ha]).
  assert (SW : exists w1 h1, (if fltb hIn wIn then (hIn, wIn) else (wIn, hIn)) = (w1, h1) /\ page_side w1 (Rmin a b) /\ page_side h1 (Rmax a b)).
  { rewrite LT. destruct (Rlt_bool_spec b a) as [L|L].
    - exists hIn, wIn. split; [reflexivity|]. rewrite Rmin_right, Rmax_left by lra. auto.
    - exists wIn, hIn. split; [reflexivity|]. rewrite Rmin_left, Rmax_right by lra. auto. }
  destruct SW as [w1 [h1 [ESW [P1 P2]]]]. rewrite ESW in H. rewrite O2 in H. cbn [bind] in H. rewrite O1 in H. cbn [bind] in H.
  destruct (ratio_near w w1 _ Bw P1) as [q1 [Q1 [E1 [B1 Z1]]]]. destruct (ratio_near h h1 _ Bh P2) as [q2 [Q2 [E2 [B2 Z2]]]].
  assert (QM := fmin_repr _ _ _ _ Q1 Q2). assert (BM : (0 <= Rmin q1 q2 <= 1073741824)%R) by (unfold Rmin; destruct (Rle_dec q1 q2); lra).
  assert (ZM : (Rmin q1 q2 = 0 \/ bpow radix2 (-900) <= Rmin q1 q2)%R) by (unfold Rmin; destruct (Rle_dec q1 q2); assumption).
  destruct (round2_near _ _ QM BM ZM) as [s [S1 [S2 [S3 S4]]]]. set (scale := round2 (fmin (fdiv (fofZ w) w1) (fdiv (fofZ h) h1))) in *.
  assert (FI : fills (Rmin a b) (Rmax a b) s (IZR w) (IZR h) (52 / 10000)) by (apply (fills_of _ _ _ _ q1 q2); [apply P1|apply P2|exact E1|exact E2|exact S2]).
  clearbody scale. destruct (offset_near w w1 scale _ s ltac:(lia) P1 S1 (proj1 S3) (proj1 FI)) as (zx & X1 & X2 & X3). destruct (offset_near h h1 scale _ s ltac:(lia) P2 S1 (proj1 S3) (proj1 (proj2 FI))) as (zy & Y1 & Y2 & Y3).
  set (xo := roundf (fdiv (fsub (fofZ w) (fmul w1 scale)) (fofZ 2))) in *. set (yo := roundf (fdiv (fsub (fofZ h) (fmul h1 scale)) (fofZ 2))) in *. clearbody xo yo.
  assert (RT : fltb hIn wIn = true <-> (b < a)%R) by (rewrite LT; destruct (Rlt_bool_spec b a); split; intros K; try reflexivity; try discriminate; lra).
  assert (ONE : forall x, (0 <= x)%R -> (Rabs (x - x * IZR 1) <= eps53 * (x * IZR 1))%R) by (intros x Px; rewrite Rmult_1_r; replace (x - x)%R with 0%R by ring; rewrite Rabs_R0; unfold eps53; lra).
  assert (UN : forall z x, repr x (IZR z) -> repr x (IZR (z * 1))) by (intros z x K; rewrite Z.mul_1_r; exact K).
  assert (SC : forall k z x, 1 <= k < 2 ^ 32 -> - 524291 <= z <= 524291 -> repr x (IZR z) -> (exists y, repr (fmul scale (fofZ k)) y /\ (Rabs (y - s * IZR k) <= eps53 * (s * IZR k))%R) /\ repr (fmul x (fofZ k)) (IZR (z * k))).
  { intros k z x Hk Hz Hx. split; [exact (scaled_by scale s k S1 S3 S4 Hk)|]. apply repr_mul_Z; [exact Hx|apply repr_ofZ; lia|]. change (2 ^ 53) with 9007199254740992. change (2 ^ 32) with 4294967296 in Hk. nia. }
  assert (DIV : forall r q, 0 < r < 2 ^ 32 -> 0 < q -> q < r -> 1 <= r / q < 2 ^ 32). { intros r q Hr Hq L. split; [apply Z.div_le_lower_bound; lia|]. apply Z.le_lt_trans with r; [|lia]. apply Z.div_le_upper_bound; nia. }
  unfold kx, ky, stretch. destruct (is_raster p) eqn:Hr; cbn [andb] in H |- *; [destruct (Z.ltb_spec (p_hwResH p) (p_hwResW p)) as [L1|L1]; [|destruct (Z.ltb_spec (p_hwResW p) (p_hwResH p)) as [L2|L2]]|].
  - replace (p_hwResH p =? 0) with false in H by lia. injection H as <-. replace (p_hwResW p <? p_hwResH p) with false by lia. destruct (SC _ zx xo (DIV _ _ RW (proj1 RH) L1) X3 X1) as [(y & Yr & Yn) Xr].
    exists s, y, s, zx, zy. cbn [t_xScale t_yScale t_xOffset t_yOffset t_rotate t_w t_h]. split; [apply S3|]. split; [exact FI|]. split; [exact Yr|]. split; [exact S1|]. split; [exact Yn|]. split; [apply ONE, S3|]. split; [exact Xr|]. split; [apply UN; exact Y1|]. auto.
  - replace (p_hwResW p =? 0) with false in H by lia. injection H as <-. destruct (SC _ zy yo (DIV _ _ RH (proj1 RW) L2) Y3 Y1) as [(y & Yr & Yn) Xr].
    exists s, s, y, zx, zy. cbn [t_xScale t_yScale t_xOffset t_yOffset t_rotate t_w t_h]. split; [apply S3|]. split; [exact FI|]. split; [exact S1|]. split; [exact Yr|]. split; [apply ONE, S3|]. split; [exact Yn|]. split; [apply UN; exact X1|]. split; [exact Xr|]. auto.
  - injection H as <-. exists s, s, s, zx, zy. cbn [t_xScale t_yScale t_xOffset t_yOffset t_rotate t_w t_h]. split; [apply S3|]. split; [exact FI|]. split; [exact S1|]. split; [exact S1|]. split; [apply ONE, S3|]. split; [apply ONE, S3|]. split; [apply UN; exact X1|]. split; [apply UN; exact Y1|]. auto.
  - injection H as <-. exists s, s, s, zx, zy. cbn [t_xScale t_yScale t_xOffset t_yOffset t_rotate t_w t_h]. split; [apply S3|]. split; [exact FI|]. split; [exact S1|]. split; [exact S1|]. split; [apply ONE, S3|]. split; [apply ONE, S3|]. split; [apply UN; exact X1|]. split; [apply UN; exact Y1|]. auto.
Qed.
