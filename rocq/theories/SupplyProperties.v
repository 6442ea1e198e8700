(** C62: the percentage of a supply. *)
From Coq Require Import Reals Lra Lia.
From Verif Require Import Base FloatModel IppModel ConverterModel PrinterModel.
From Verif Require Import FloatLemmas.
From Flocq Require Import Core Relative.
Local Open Scope Z_scope.

(** Rounding the quotient of integers below 2^53 does not change its integer part. *)
Lemma trunc_quotient_pos n d : 0 <= n < 2 ^ 53 -> 0 < d -> d < 2 ^ 53 -> Ztrunc (rnd (IZR n / IZR d)) = n / d.
Proof.
  intros Hn Hd Hd2. assert (Dp : (0 < IZR d)%R) by (apply IZR_lt; lia).
  assert (E : n = d * (n / d) + n mod d) by (apply Z.div_mod; lia). pose proof (Z.mod_pos_bound n d Hd) as Hm.
  set (k := n / d) in *. assert (Hk : 0 <= k <= n) by (split; [apply Z.div_pos; lia|apply Z.div_le_upper_bound; nia]).
  set (q := (IZR n / IZR d)%R). assert (Q1 : (IZR k <= q)%R).
  { apply Rmult_le_reg_r with (IZR d); [exact Dp|]. unfold q. replace (IZR n / IZR d * IZR d)%R with (IZR n) by (field; lra). rewrite <- mult_IZR. apply IZR_le. lia. }
  assert (Q2 : (q <= IZR (k + 1) - / IZR d)%R).
  { apply Rmult_le_reg_r with (IZR d); [exact Dp|]. unfold q. replace (IZR n / IZR d * IZR d)%R with (IZR n) by (field; lra).
    replace ((IZR (k + 1) - / IZR d) * IZR d)%R with (IZR (k + 1) * IZR d - 1)%R by (field; lra). rewrite <- mult_IZR, <- minus_IZR. apply IZR_le. lia. }
  assert (Q0 : (0 <= q)%R) by (eapply Rle_trans; [|exact Q1]; apply IZR_le; lia).
  assert (L : (IZR k <= rnd q)%R) by (apply rnd_ge_IZR; [lia|exact Q1]).
  assert (U : (rnd q < IZR (k + 1))%R).
  { destruct (Z.eq_dec n 0) as [->|Hn0].
    - replace q with (IZR 0) by (unfold q; field; lra). rewrite rnd_IZR by (vm_compute; discriminate). apply IZR_lt. lia.
    - assert (Hq : (bpow radix2 (-1022) <= Rabs q)%R).
      { rewrite Rabs_pos_eq by exact Q0. apply Rle_trans with (bpow radix2 (-53)); [apply bpow_le; lia|].
        apply Rmult_le_reg_r with (IZR d); [exact Dp|]. unfold q. replace (IZR n / IZR d * IZR d)%R with (IZR n) by (field; lra).
        apply Rle_trans with (bpow radix2 (-53) * bpow radix2 53)%R.
        - apply Rmult_le_compat_l; [apply bpow_ge_0|]. rewrite <- (IZR_Zpower radix2) by lia. apply IZR_le. change (radix_val radix2) with 2. lia.
        - rewrite <- bpow_plus. simpl. apply IZR_le. lia. }
      assert (R : (Rabs (rnd q - q) <= / 2 * bpow radix2 (-52) * Rabs q)%R) by exact (relative_error_N_FLT radix2 (-1074) 53 (eq_refl _) (fun x => negb (Z.even x)) q Hq).
      assert (R' : (rnd q <= q + / 2 * bpow radix2 (-52) * q)%R).
      { rewrite (Rabs_pos_eq q Q0) in R. apply Rabs_le_inv in R. lra. }
      eapply Rle_lt_trans; [exact R'|].
      assert (S : (/ 2 * bpow radix2 (-52) * q < / IZR d)%R).
      { apply Rmult_lt_reg_r with (IZR d); [exact Dp|]. replace (/ IZR d * IZR d)%R with 1%R by (field; lra). unfold q.
        replace (/ 2 * bpow radix2 (-52) * (IZR n / IZR d) * IZR d)%R with (/ 2 * bpow radix2 (-52) * IZR n)%R by (field; lra).
        replace (/ 2)%R with (bpow radix2 (-1)) by (simpl; lra). rewrite <- bpow_plus. change (-1 + -52) with (-53).
        apply Rlt_le_trans with (bpow radix2 (-53) * bpow radix2 53)%R; [|rewrite <- bpow_plus; simpl; lra].
        apply Rmult_lt_compat_l; [apply bpow_gt_0|]. rewrite <- (IZR_Zpower radix2) by lia. apply IZR_lt. change (radix_val radix2) with 2. lia. }
      lra. }
  rewrite Ztrunc_floor; [apply Zfloor_imp; split; [exact L|exact U]|]. eapply Rle_trans; [|exact L]. apply IZR_le. lia.
Qed.
Lemma rnd_opp r : rnd (- r) = (- rnd r)%R.
Proof. unfold rnd. apply round_NE_opp. Qed.
Lemma trunc_quotient n d : Z.abs n < 2 ^ 53 -> d <> 0 -> Z.abs d < 2 ^ 53 -> Ztrunc (rnd (IZR n / IZR d)) = Z.quot n d.
Proof.
  intros Hn Hd Hd2.
  assert (P : forall n d, 0 <= n < 2 ^ 53 -> d <> 0 -> Z.abs d < 2 ^ 53 -> Ztrunc (rnd (IZR n / IZR d)) = Z.quot n d).
  { clear. intros n d Hn Hd Hd2. destruct (Z.lt_ge_cases 0 d) as [H|H].
    - rewrite trunc_quotient_pos by lia. symmetry. apply Z.quot_div_nonneg; lia.
    - replace d with (- (- d)) by lia. rewrite Z.quot_opp_r by lia. rewrite opp_IZR.
      replace (IZR n / - IZR (- d))%R with (- (IZR n / IZR (- d)))%R by (field; apply not_0_IZR; lia).
      rewrite rnd_opp, Ztrunc_opp, trunc_quotient_pos by lia. f_equal. symmetry. apply Z.quot_div_nonneg; lia. }
  destruct (Z.lt_ge_cases n 0) as [H|H]; [|apply P; lia].
  replace n with (- (- n)) by lia. rewrite Z.quot_opp_l by lia. rewrite opp_IZR.
  replace (- IZR (- n) / IZR d)%R with (- (IZR (- n) / IZR d))%R by (field; apply not_0_IZR; lia). rewrite rnd_opp, Ztrunc_opp. f_equal. apply P; lia.
Qed.

Definition int32 (z : Z) : Prop := - 2 ^ 31 <= z < 2 ^ 31.
(** The exact value of getPercent: the percentage, rounded towards zero, of the highest
    level (of 100 if that is zero); undefined if it does not fit an int. *)
Theorem C62_exact : forall s, int32 (sp_level s) -> int32 (sp_high s) ->
  let h := if sp_high s =? 0 then 100 else sp_high s in
  let q := Z.quot (100 * sp_level s) h in
  getPercent s = if (- 2 ^ 31 <=? q) && (q <? 2 ^ 31) then Ok q else UB.
Proof.
  intros s Hl Hh h q. unfold getPercent. fold h.
  assert (H0 : h <> 0) by (unfold h; destruct (Z.eqb_spec (sp_high s) 0); lia).
  assert (H1 : Z.abs h <= 2 ^ 31) by (unfold h, int32 in *; destruct (Z.eqb_spec (sp_high s) 0); lia).
  assert (R1 : repr (fofZ (sp_level s)) (IZR (sp_level s))) by (apply repr_ofZ; unfold int32 in *; lia).
  assert (R2 : repr f100 (IZR 100)) by (apply repr_ofZ; lia).
  assert (R3 : repr (fofZ h) (IZR h)) by (apply repr_ofZ; lia).
  assert (Hn : Z.abs (100 * sp_level s) < 2 ^ 53) by (unfold int32 in *; lia).
  pose proof (repr_mul _ _ _ _ R1 R2) as M. rewrite <- mult_IZR in M. rewrite (Z.mul_comm (sp_level s) 100) in M. rewrite rnd_IZR in M by lia.
  specialize (M ltac:(apply bpow1000; lia)).
  assert (Hb : (Rabs (IZR (100 * sp_level s) / IZR h) <= bpow radix2 1000)%R).
  { unfold Rdiv. rewrite Rabs_mult. apply Rle_trans with (Rabs (IZR (100 * sp_level s)) * 1)%R.
    - apply Rmult_le_compat_l; [apply Rabs_pos|]. rewrite Rabs_inv. rewrite <- Rinv_1. apply Rinv_le_contravar; [lra|]. rewrite <- abs_IZR. apply IZR_le. lia.
    - rewrite Rmult_1_r. apply bpow1000. lia. }
  pose proof (repr_div _ _ _ _ M R3 (not_0_IZR _ H0) Hb) as D. apply repr_trunc in D. rewrite trunc_quotient in D by lia.
  unfold f_to_signed. rewrite D. reflexivity.
Qed.
(** For the levels a printer should give, it is the percentage rounded down, from 0 to 100. *)
Theorem C62_percentage : forall s, 0 <= sp_level s <= sp_high s -> int32 (sp_high s) -> 0 < sp_high s ->
  exists p, getPercent s = Ok p /\ 0 <= p <= 100 /\ p * sp_high s <= 100 * sp_level s < (p + 1) * sp_high s.
Proof.
  intros s Hl Hh Hp. rewrite C62_exact by (unfold int32 in *; lia). destruct (Z.eqb_spec (sp_high s) 0) as [E|_]; [lia|]. cbv zeta.
  rewrite Z.quot_div_nonneg by lia. set (p := 100 * sp_level s / sp_high s).
  pose proof (Z.div_mod (100 * sp_level s) (sp_high s) ltac:(lia)) as E. pose proof (Z.mod_pos_bound (100 * sp_level s) (sp_high s) Hp) as B. fold p in E.
  assert (0 <= p) by (apply Z.div_pos; lia). assert (p <= 100) by nia.
  exists p. destruct (Z.leb_spec (- 2 ^ 31) p); [|lia]. destruct (Z.ltb_spec p (2 ^ 31)); [|lia]. cbn [andb]. split; [reflexivity|]. split; [lia|]. nia.
Qed.
Example C62_example : getPercent (mkSupply "K" "toner" ["#000000"%string] 29 10 300) = Ok 9 /\ getPercent (mkSupply "K" "toner" [] (-3) 0 0) = Ok (-3).
Proof. vm_compute. split; reflexivity. Qed.
(** Levels that do not fit their maximum make it undefined. *)
Theorem C62_undefined_refuted : exists s, int32 (sp_level s) /\ int32 (sp_high s) /\ 0 < sp_high s /\ getPercent s = UB.
Proof.
  exists (mkSupply "K" "toner" [] 2147483647 0 1). split; [unfold int32; cbn; lia|]. split; [unfold int32; cbn; lia|]. split; [cbn; lia|]. vm_compute. reflexivity.
Qed.

Print Assumptions C62_exact.
Print Assumptions C62_percentage.
Print Assumptions C62_undefined_refuted.
