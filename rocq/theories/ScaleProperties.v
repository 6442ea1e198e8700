(** C54: placing a page on the paper (fixup_scale of lib/pdf2printable.cpp). *)
From Verif Require Import Base BaseLemmas FloatModel ParamsModel ParamsProofs FloatLemmas ParamsProperties RasterModel HeaderModel RenderModel IppEncProofs.
From Coq Require Import Lia Reals Lra.
From Coq Require Import ZifyBool ZifyNat.
From Flocq Require Import Core.Core Relative IEEE754.BinarySingleNaN.
Local Open Scope Z_scope.
Ltac Zify.zify_post_hook ::= Z.div_mod_to_equations.

(** ** Specification *)
(** a page side in points: at least 1 and at most 2^20 (about 370 m) *)
Definition page_side (x : f64) (a : R) : Prop := repr x a /\ (1 <= a <= 1048576)%R.
(** The size of the area to fill, in pixels or points, at the same resolution [res] in both
    directions *)
Definition area (p : params) (res w h : Z) : Prop :=
  0 <= w <= 2 ^ 30 /\ 0 <= h <= 2 ^ 30 /\
  match p_format p with
  | PWG | URF => sizeInPixels (p_units p) (p_sizeW p) res = Ok w /\ sizeInPixels (p_units p) (p_sizeH p) res = Ok h
  | _ => f_to_unsigned 64 (sizeInPoints (p_units p) (p_sizeW p) res) = Ok w /\ f_to_unsigned 64 (sizeInPoints (p_units p) (p_sizeH p) res) = Ok h
  end.
(** A page with sides a <= b, scaled by s, fills w x h: it exceeds neither side by more than
    [slack] times its own side, and comes as close in one direction *)
Definition fills (a b s w h slack : R) : Prop :=
  (s * a <= w + slack * a /\ s * b <= h + slack * b /\ (w - slack * a <= s * a \/ h - slack * b <= s * b))%R.

(** ** Proofs *)
Lemma rnd_rel0 x : (0 <= x)%R -> (x = 0 \/ bpow radix2 (-1000) <= x)%R -> exists e, (Rabs e <= / 9007199254740992 /\ rnd x = x + x * e)%R.
Proof.
  intros P H. pose proof (rnd_rel x H) as E. destruct H as [->|H].
  - exists 0%R. split; [rewrite Rabs_R0; lra|]. unfold rnd. rewrite round_0 by auto with typeclass_instances. lra.
  - assert (0 < x)%R by (eapply Rlt_le_trans; [apply bpow_gt_0|exact H]). exists ((rnd x - x) / x)%R. split; [|field; lra].
    unfold Rdiv. rewrite Rabs_mult, (Rabs_pos_eq (/ x)) by (left; apply Rinv_0_lt_compat; lra). apply Rmult_le_reg_r with x; [lra|]. rewrite Rmult_assoc, Rinv_l, Rmult_1_r by lra. exact E.
Qed.
Lemma big_bound r z : (0 <= r <= IZR z)%R -> 0 <= z <= 2 ^ 1000 -> (Rabs r <= bpow radix2 1000)%R.
Proof. intros [P Q] H. rewrite Rabs_pos_eq by exact P. eapply Rle_trans; [exact Q|]. rewrite <- (Rabs_pos_eq (IZR z)) by (apply IZR_le; lia). apply bpow1000. lia. Qed.
Lemma half r : (Rabs (IZR (Zfloor (r + / 2)) - r) <= / 2)%R.
Proof. pose proof (Zfloor_lb (r + / 2)). pose proof (Zfloor_ub (r + / 2)). apply Rabs_le. lra. Qed.
Lemma round2_near x r : repr x r -> (0 <= r <= 1073741824)%R -> (r = 0 \/ bpow radix2 (-900) <= r)%R -> exists s, repr (round2 x) s /\ (Rabs (s - r) <= 51 / 10000)%R /\ (0 <= s <= 1073741826)%R /\ (s = 0 \/ bpow radix2 (-900) <= s)%R.
Proof.
  intros Hx Hr Zr. unfold round2. assert (R1 : repr (fmul x f100) (rnd (r * 100))).
  { apply repr_mul; [exact Hx|apply (repr_ofZ 100); lia|]. apply (big_bound _ (2 ^ 40)); [|split; [lia|apply Z.pow_le_mono_r; lia]]. change (2 ^ 40) with 1099511627776. lra. }
  assert (Z1 : (r * 100 = 0 \/ bpow radix2 (-1000) <= r * 100)%R).
  { destruct Zr as [->|Zr]; [left; lra|right]. apply Rle_trans with (bpow radix2 (-900)); [apply bpow_le; lia|]. pose proof (bpow_gt_0 radix2 (-900)). lra. }
  destruct (rnd_rel0 (r * 100) ltac:(lra) Z1) as [e [He Ee]]. apply Rabs_le_inv in He. set (y := rnd (r * 100)) in *.
  assert (By : (0 <= y <= 107374182500)%R) by (split; nra).
  assert (R2 := repr_round _ _ R1 ltac:(lra) ltac:(change (2 ^ 52) with 4503599627370496; lra)). set (z := Zfloor (y + / 2)) in *.
  pose proof (half y) as Hf. fold z in Hf. apply Rabs_le_inv in Hf.
  assert (Bz : 0 <= z <= 107374182500). { split; [apply Zfloor_lub; lra|]. unfold z. apply Zfloor_half_le. lra. }
  assert (Bz' : (0 <= IZR z <= 107374182500)%R) by (split; apply IZR_le; lia).
  assert (R3 : repr (fdiv (fround (fmul x f100)) f100) (rnd (IZR z / 100))).
  { apply repr_div; [exact R2|apply (repr_ofZ 100); lia|lra|]. apply (big_bound _ (2 ^ 40)); [|split; [lia|apply Z.pow_le_mono_r; lia]]. change (2 ^ 40) with 1099511627776. lra. }
  assert (Z3 : (IZR z / 100 = 0 \/ bpow radix2 (-1000) <= IZR z / 100)%R).
  { destruct (Z.eq_dec z 0) as [->|Nz]; [left; lra|right]. assert (1 <= IZR z)%R by (apply IZR_le; lia). apply Rle_trans with (bpow radix2 (-7)); [apply bpow_le; lia|]. change (bpow radix2 (-7)) with (/ 128)%R. lra. }
  destruct (rnd_rel0 (IZR z / 100) ltac:(lra) Z3) as [e2 [He2 Ee2]]. apply Rabs_le_inv in He2. exists (rnd (IZR z / 100)). split; [exact R3|]. rewrite Ee2.
  assert (T1 : (- / 65536 <= r * 100 * e <= / 65536)%R) by (clear - Hr He; split; nra). assert (T2 : (- / 4194304 <= IZR z / 100 * e2 <= / 4194304)%R) by (clear - Bz' He2; split; nra).
  split; [apply Rabs_le; lra|]. split; [split; [replace (IZR z / 100 + IZR z / 100 * e2)%R with (IZR z / 100 * (1 + e2))%R by ring; apply Rmult_le_pos; lra|lra]|]. destruct (Z.eq_dec z 0) as [->|Nz]; [left; lra|right]. assert (1 <= IZR z)%R by (apply IZR_le; lia).
  apply Rle_trans with (bpow radix2 (-7)); [apply bpow_le; lia|]. change (bpow radix2 (-7)) with (/ 128)%R. replace (IZR z / 100 + IZR z / 100 * e2)%R with (IZR z / 100 * (1 + e2))%R by ring. nra.
Qed.
Lemma ratio_near w wIn a : 0 <= w <= 2 ^ 30 -> page_side wIn a -> exists q, repr (fdiv (fofZ w) wIn) q /\ (Rabs (q - IZR w / a) <= / 8388608)%R /\ (0 <= q <= 1073741824)%R /\ (q = 0 \/ bpow radix2 (-900) <= q)%R.
Proof.
  intros Hw [Ha Ba]. exists (rnd (IZR w / a)). assert (Bw : (0 <= IZR w <= 1073741824)%R) by (split; apply IZR_le; lia). assert (I : (0 < / a <= 1)%R) by (split; [apply Rinv_0_lt_compat; lra|rewrite <- Rinv_1; apply Rinv_le; lra]).
  assert (J : (/ 1048576 <= / a)%R) by (apply Rinv_le; lra). unfold Rdiv. assert (B : (0 <= IZR w * / a <= 1073741824)%R) by nra.
  assert (Z0 : (IZR w * / a = 0 \/ / 1048576 <= IZR w * / a)%R) by (destruct (Z.eq_dec w 0) as [->|N]; [left; lra|right; assert (1 <= IZR w)%R by (apply IZR_le; lia); nra]).
  assert (Z1 : (IZR w * / a = 0 \/ bpow radix2 (-1000) <= IZR w * / a)%R).
  { destruct Z0 as [Z0|Z0]; [left; exact Z0|right]. eapply Rle_trans; [|exact Z0]. change (/ 1048576)%R with (bpow radix2 (-20)). apply bpow_le. lia. }
  destruct (rnd_rel0 (IZR w * / a) ltac:(lra) Z1) as [e [He Ee]]. apply Rabs_le_inv in He. split; [|split; [|split]].
  - apply repr_div; [apply repr_ofZ; lia|exact Ha|lra|]. apply (big_bound _ (2 ^ 30)); [exact B|split; [lia|apply Z.pow_le_mono_r; lia]].
  - rewrite Ee. apply Rabs_le. nra.
  - split; [apply (rnd_ge_IZR _ 0); [lia|lra]|apply (rnd_le_IZR _ 1073741824); [lia|lra]].
  - rewrite Ee. destruct Z0 as [Z0|Z0]; [left; rewrite Z0; lra|right]. apply Rle_trans with (bpow radix2 (-21)); [apply bpow_le; lia|]. change (bpow radix2 (-21)) with (/ 2097152)%R. nra.
Qed.
Lemma fmin_repr x y a b : repr x a -> repr y b -> repr (fmin x y) (Rmin a b).
Proof.
  intros Hx Hy. unfold fmin. rewrite (repr_ltb _ _ _ _ Hy Hx). destruct (Rlt_bool_spec b a).
  - rewrite Rmin_right by lra. exact Hy.
  - rewrite Rmin_left by lra. exact Hx.
Qed.
Lemma fills_of a b w h q1 q2 s : (1 <= a)%R -> (1 <= b)%R -> (Rabs (q1 - w / a) <= / 8388608)%R -> (Rabs (q2 - h / b) <= / 8388608)%R -> (Rabs (s - Rmin q1 q2) <= 51 / 10000)%R -> fills a b s w h (52 / 10000).
Proof.
  intros Ha Hb H1 H2 Hs. apply Rabs_le_inv in H1, H2, Hs. assert (E1 : (w = w / a * a)%R) by (field; lra). assert (E2 : (h = h / b * b)%R) by (field; lra). set (u := (w / a)%R) in *. set (v := (h / b)%R) in *. clearbody u v. subst w h.
  pose proof (Rmin_l q1 q2). pose proof (Rmin_r q1 q2). unfold fills. split; [nra|]. split; [nra|]. unfold Rmin in *. destruct (Rle_dec q1 q2); [left|right]; nra.
Qed.
Lemma area_out p res w h : area p res w h -> out_size (is_raster p) (p_units p) (p_sizeW p) res = Ok w /\ out_size (is_raster p) (p_units p) (p_sizeH p) res = Ok h.
Proof.
  intros [Bw [Bh H]]. unfold out_size, is_raster. assert (F : forall z, 0 <= z <= 2 ^ 30 -> f_to_unsigned 64 (fofZ z) = Ok z).
  { intros z Hz. unfold f_to_unsigned. rewrite (repr_trunc _ _ (repr_ofZ z ltac:(lia))). rewrite Ztrunc_IZR. change (2 ^ 64) with 18446744073709551616. replace (_ && _)%bool with true by lia. reflexivity. }
  destruct (p_format p); destruct H as [H1 H2]; try (split; assumption); rewrite H1, H2; cbn [bind]; rewrite !F by assumption; split; reflexivity.
Qed.
(** what is computed before the resolutions are compensated for *)
Lemma base_scale p wIn hIn a b w h t : page_side wIn a -> page_side hIn b -> area p (Z.min (p_hwResW p) (p_hwResH p)) w h -> fixup_scale wIn hIn p = Ok t ->
  exists scale s xo yo, repr scale s /\ (0 <= s <= 1073741826)%R /\ (s = 0 \/ bpow radix2 (-900) <= s)%R /\ fills (Rmin a b) (Rmax a b) s (IZR w) (IZR h) (52 / 10000) /\ (t_rotate t = true <-> (b < a)%R) /\
  t = mkPlacement (if is_raster p && (p_hwResH p <? p_hwResW p) then fmul scale (fofZ (p_hwResW p / p_hwResH p)) else scale)
        (if is_raster p && negb (p_hwResH p <? p_hwResW p) && (p_hwResW p <? p_hwResH p) then fmul scale (fofZ (p_hwResH p / p_hwResW p)) else scale) xo yo (t_rotate t) (t_w t) (t_h t).
Proof.
  intros Ha Hb Har H. unfold fixup_scale in H. destruct (area_out _ _ _ _ Har) as [O1 O2]. destruct Har as [Bw [Bh _]].
  assert (LT : fltb hIn wIn = Rlt_bool b a) by (apply repr_ltb; [apply Hb|apply Ha]).
  assert (SW : exists w1 h1, (if fltb hIn wIn then (hIn, wIn) else (wIn, hIn)) = (w1, h1) /\ page_side w1 (Rmin a b) /\ page_side h1 (Rmax a b)).
  { rewrite LT. destruct (Rlt_bool_spec b a) as [L|L].
    - exists hIn, wIn. split; [reflexivity|]. rewrite Rmin_right, Rmax_left by lra. auto.
    - exists wIn, hIn. split; [reflexivity|]. rewrite Rmin_left, Rmax_right by lra. auto. }
  destruct SW as [w1 [h1 [ESW [P1 P2]]]]. rewrite ESW in H. rewrite O2 in H. cbn [bind] in H. rewrite O1 in H. cbn [bind] in H.
  destruct (ratio_near w w1 _ Bw P1) as [q1 [Q1 [E1 [B1 Z1]]]]. destruct (ratio_near h h1 _ Bh P2) as [q2 [Q2 [E2 [B2 Z2]]]].
  assert (QM := fmin_repr _ _ _ _ Q1 Q2). assert (BM : (0 <= Rmin q1 q2 <= 1073741824)%R) by (unfold Rmin; destruct (Rle_dec q1 q2); lra).
  assert (ZM : (Rmin q1 q2 = 0 \/ bpow radix2 (-900) <= Rmin q1 q2)%R) by (unfold Rmin; destruct (Rle_dec q1 q2); assumption).
  destruct (round2_near _ _ QM BM ZM) as [s [S1 [S2 [S3 S4]]]]. set (scale := round2 (fmin (fdiv (fofZ w) w1) (fdiv (fofZ h) h1))) in *.
  assert (FI : fills (Rmin a b) (Rmax a b) s (IZR w) (IZR h) (52 / 10000)) by (apply (fills_of _ _ _ _ q1 q2); [apply P1|apply P2|exact E1|exact E2|exact S2]).
  assert (RT : forall t0, t_rotate t0 = fltb hIn wIn -> (t_rotate t0 = true <-> (b < a)%R)).
  { intros t0 E0. rewrite E0, LT. destruct (Rlt_bool_spec b a); split; intros K; try reflexivity; try discriminate; lra. }
  clearbody scale. destruct (is_raster p) eqn:Hr; cbn [andb] in H |- *.
  - destruct (p_hwResH p <? p_hwResW p) eqn:L1; cbn [negb andb] in H |- *.
    + destruct (p_hwResH p =? 0); [discriminate|]. injection H as <-. exists scale, s. do 2 eexists. split; [exact S1|]. split; [exact S3|]. split; [exact S4|]. split; [exact FI|]. split; [apply RT; reflexivity|reflexivity].
    + destruct (p_hwResW p <? p_hwResH p) eqn:L2.
      * destruct (p_hwResW p =? 0); [discriminate|]. injection H as <-. exists scale, s. do 2 eexists. split; [exact S1|]. split; [exact S3|]. split; [exact S4|]. split; [exact FI|]. split; [apply RT; reflexivity|reflexivity].
      * injection H as <-. exists scale, s. do 2 eexists. split; [exact S1|]. split; [exact S3|]. split; [exact S4|]. split; [exact FI|]. split; [apply RT; reflexivity|reflexivity].
  - injection H as <-. exists scale, s. do 2 eexists. split; [exact S1|]. split; [exact S3|]. split; [exact S4|]. split; [exact FI|]. split; [apply RT; reflexivity|reflexivity].
Qed.
(** With equal resolutions (or in points) both directions get exactly the same scale, and
    the page, turned to portrait, fills the area to within 0.52 % of its own size.
    Missing: not exceeding the area at all, see C54_fit_refuted. *)
Theorem C54_fill_partial : forall p wIn hIn a b w h t, page_side wIn a -> page_side hIn b -> area p (p_hwResW p) w h -> p_hwResW p = p_hwResH p -> fixup_scale wIn hIn p = Ok t ->
  (exists s, repr (t_xScale t) s /\ repr (t_yScale t) s /\ fills (Rmin a b) (Rmax a b) s (IZR w) (IZR h) (52 / 10000)) /\ (t_rotate t = true <-> (b < a)%R).
Proof.
  intros p wIn hIn a b w h t Ha Hb Har Hres H. assert (Har' : area p (Z.min (p_hwResW p) (p_hwResH p)) w h) by (rewrite <- Hres, Z.min_id; exact Har).
  destruct (base_scale p wIn hIn a b w h t Ha Hb Har' H) as [scale [s [xo [yo [S1 [S2 [S3 [FI [RT E]]]]]]]]]. split; [|exact RT]. exists s. rewrite E. cbn [t_xScale t_yScale].
  rewrite Hres, Z.ltb_irrefl, andb_false_r. rewrite !andb_false_r. auto.
Qed.
(** If one resolution is a multiple of the other, the scales per inch agree to within
    one part in 2^53.  Missing: other resolutions, see C54_aspect_refuted. *)
Definition same_physical_scale (sx : R) (resW : Z) (sy : R) (resH : Z) : Prop :=
  (Rabs (sx / IZR resW - sy / IZR resH) <= / 9007199254740992 * (sx / IZR resW + sy / IZR resH))%R.
Lemma scaled_by scale s k : repr scale s -> (0 <= s <= 1073741826)%R -> (s = 0 \/ bpow radix2 (-900) <= s)%R -> 1 <= k < 2 ^ 32 -> exists x, repr (fmul scale (fofZ k)) x /\ (Rabs (x - s * IZR k) <= / 9007199254740992 * (s * IZR k))%R.
Proof.
  intros Hs Bs Zs Hk. assert (Bk : (1 <= IZR k <= 4294967296)%R) by (split; apply IZR_le; lia). exists (rnd (s * IZR k)). split.
  - apply repr_mul; [exact Hs|apply repr_ofZ; lia|]. apply (big_bound _ (2 ^ 63)); [|split; [lia|apply Z.pow_le_mono_r; lia]]. change (2 ^ 63) with 9223372036854775808. nra.
  - apply rnd_rel. destruct Zs as [->|Zs]; [left; lra|right]. apply Rle_trans with (bpow radix2 (-900)); [apply bpow_le; lia|]. nra.
Qed.
Lemma physical s x k r : (0 <= s)%R -> 0 < r -> 1 <= k -> (Rabs (x - s * IZR k) <= / 9007199254740992 * (s * IZR k))%R -> same_physical_scale x (k * r) s r.
Proof.
  intros Ps Hr Hk H. unfold same_physical_scale. rewrite mult_IZR. assert (Br : (0 < IZR r)%R) by (apply IZR_lt; lia). assert (Bk : (1 <= IZR k)%R) by (apply IZR_le; lia). set (K := IZR k) in *. set (R0 := IZR r) in *.
  apply Rabs_le_inv in H. assert (Px : (0 <= x)%R) by nra.
  assert (E : (x / (K * R0) - s / R0 = (x - s * K) * / (K * R0))%R) by (field; lra). rewrite E. rewrite Rabs_mult. rewrite (Rabs_pos_eq (/ (K * R0))) by (left; apply Rinv_0_lt_compat; nra).
  apply Rle_trans with (/ 9007199254740992 * (s * K) * / (K * R0))%R; [apply Rmult_le_compat_r; [left; apply Rinv_0_lt_compat; nra|apply Rabs_le; exact H]|].
  replace (/ 9007199254740992 * (s * K) * / (K * R0))%R with (/ 9007199254740992 * (s / R0))%R by (field; lra). apply Rmult_le_compat_l; [lra|]. assert (0 <= x / (K * R0))%R by (apply Rmult_le_pos; [exact Px|left; apply Rinv_0_lt_compat; nra]). lra.
Qed.
Lemma multiple r q k : 0 < q < r -> r = k * q \/ q = k * r -> r = k * q /\ 1 <= k.
Proof. intros H [K|K]; [split; [exact K|nia]|exfalso]. assert (k <= 0 \/ 1 <= k) as [L|L] by lia; nia. Qed.
Theorem C54_aspect_partial : forall p wIn hIn a b w h t k, page_side wIn a -> page_side hIn b -> (p_format p = PWG \/ p_format p = URF) -> area p (Z.min (p_hwResW p) (p_hwResH p)) w h ->
  0 < p_hwResW p < 2 ^ 32 -> 0 < p_hwResH p < 2 ^ 32 -> p_hwResW p = k * p_hwResH p \/ p_hwResH p = k * p_hwResW p -> fixup_scale wIn hIn p = Ok t ->
  exists sx sy, repr (t_xScale t) sx /\ repr (t_yScale t) sy /\ same_physical_scale sx (p_hwResW p) sy (p_hwResH p).
Proof.
  intros p wIn hIn a b w h t k Ha Hb Hf Har Bw Bh Hk H. destruct (base_scale p wIn hIn a b w h t Ha Hb Har H) as [scale [s [xo [yo [S1 [S2 [S3 [FI [RT E]]]]]]]]]. rewrite E. cbn [t_xScale t_yScale].
  assert (Hr : is_raster p = true) by (unfold is_raster; destruct Hf as [-> | ->]; reflexivity). rewrite Hr. cbn [andb].
  assert (SYM : forall x r y q, same_physical_scale x r y q -> same_physical_scale y q x r) by (intros x r y q K; unfold same_physical_scale in *; rewrite Rabs_minus_sym, Rplus_comm; exact K).
  destruct (Z.ltb_spec (p_hwResH p) (p_hwResW p)) as [L1|L1]; cbn [negb andb].
  - destruct (multiple _ _ k (conj (proj1 Bh) L1) Hk) as [Hk' K1]. assert (D : p_hwResW p / p_hwResH p = k) by (rewrite Hk'; apply Z.div_mul; lia). rewrite D.
    destruct (scaled_by scale s k S1 S2 S3 ltac:(nia)) as [x [X1 X2]]. exists x, s. split; [exact X1|]. split; [exact S1|]. rewrite Hk'. apply physical; [apply S2|lia|lia|exact X2].
  - destruct (Z.ltb_spec (p_hwResW p) (p_hwResH p)) as [L2|L2].
    + destruct (multiple _ _ k (conj (proj1 Bw) L2) ltac:(tauto)) as [Hk' K1]. assert (D : p_hwResH p / p_hwResW p = k) by (rewrite Hk'; apply Z.div_mul; lia). rewrite D.
      destruct (scaled_by scale s k S1 S2 S3 ltac:(nia)) as [x [X1 X2]]. exists s, x. split; [exact S1|]. split; [exact X1|]. apply SYM. rewrite Hk'. apply physical; [apply S2|lia|lia|exact X2].
    + exists s, s. split; [exact S1|]. split; [exact S1|]. assert (Eq : p_hwResW p = p_hwResH p) by lia. rewrite Eq. replace (p_hwResH p) with (1 * p_hwResH p) at 1 by lia. apply physical; [apply S2|lia|lia|].
      rewrite Rmult_1_r. replace (s - s)%R with 0%R by ring. rewrite Rabs_R0. nra.
Qed.
(** A page may exceed the output: an A4 page of 595 x 842 points printed on A4 (595 x 841
    whole points) keeps scale 1, is one point too high and is shifted up by one point. *)
Theorem C54_fit_refuted : area default_params 300 595 841 /\ page_side (fofZ 595) 595 /\ page_side (fofZ 842) 842 /\
  exists t, fixup_scale (fofZ 595) (fofZ 842) default_params = Ok t /\ t_xScale t = fofZ 1 /\ t_yScale t = fofZ 1 /\ t_yOffset t = fofZ (-1).
Proof.
  split; [split; [lia|]; split; [lia|]; split; vm_compute; reflexivity|]. split; [split; [apply (repr_ofZ 595); lia|lra]|]. split; [split; [apply (repr_ofZ 842); lia|lra]|].
  eexists. split; [vm_compute; reflexivity|]. split; [reflexivity|]. split; reflexivity.
Qed.
(** The aspect is not kept for resolutions that are not multiples: at 300 x 200 dpi both
    directions get the same number of pixels per point. *)
Definition uneven : params := {| p_format := PWG; p_colorMode := sRGB24; p_quality := DefaultQuality; p_antiAlias := false; p_paperSizeName := "na_letter_8.5x11in"; p_hwResW := 300; p_hwResH := 200; p_units := Inches;
  p_sizeW := fmk 17 (-1); p_sizeH := fofZ 11; p_duplexMode := OneSided; p_backXform := Normal; p_copies := 1; p_collated := true; p_pageRanges := []; p_mediaPosition := 0; p_mediaType := "" |}.
Theorem C54_aspect_refuted : exists p t s, fixup_scale (fofZ 612) (fofZ 792) p = Ok t /\ p_format p = PWG /\ p_hwResW p = 300 /\ p_hwResH p = 200 /\ area p 200 1700 2200 /\
  repr (t_xScale t) s /\ repr (t_yScale t) s /\ (2 < s)%R /\ ~ same_physical_scale s 300 s 200.
Proof.
  exists uneven. eexists. exists (IZR 6260003482044989 * bpow radix2 (-51))%R.
  assert (LIT : repr (fmk 6260003482044989 (-51)) (IZR 6260003482044989 * bpow radix2 (-51))).
  { rewrite <- (rnd_exact 6260003482044989 (-51)) by lia. apply repr_mk. change (bpow radix2 (-51)) with (/ 2251799813685248)%R. apply (big_bound _ 3); [lra|]. split; [lia|]. apply Z.le_trans with (2 ^ 2); [lia|apply Z.pow_le_mono_r; lia]. }
  split; [vm_compute; reflexivity|]. split; [reflexivity|]. split; [reflexivity|]. split; [reflexivity|]. split; [split; [lia|]; split; [lia|]; split; vm_compute; reflexivity|]. cbn [t_xScale t_yScale].
  split; [exact LIT|]. split; [exact LIT|]. change (bpow radix2 (-51)) with (/ 2251799813685248)%R. split; [lra|]. unfold same_physical_scale. intros K. apply Rabs_le_inv in K. lra.
Qed.
(** ** Examples *)
(** a landscape letter page on letter paper at 600 x 300 dpi *)
Definition double_width : params := {| p_format := PWG; p_colorMode := sRGB24; p_quality := DefaultQuality; p_antiAlias := false; p_paperSizeName := "na_letter_8.5x11in"; p_hwResW := 600; p_hwResH := 300; p_units := Inches;
  p_sizeW := fmk 17 (-1); p_sizeH := fofZ 11; p_duplexMode := OneSided; p_backXform := Normal; p_copies := 1; p_collated := true; p_pageRanges := []; p_mediaPosition := 0; p_mediaType := "" |}.
Example C54_example_double : page_side (fofZ 792) 792 /\ page_side (fofZ 612) 612 /\ area double_width 300 2550 3300 /\ p_hwResW double_width = 2 * p_hwResH double_width /\
  match fixup_scale (fofZ 792) (fofZ 612) double_width with
  | Ok t => t_rotate t = true /\ t_yScale t = fdiv (fofZ 417) (fofZ 100) /\ t_xScale t = fdiv (fofZ 834) (fofZ 100) /\ t_yOffset t = fofZ (-1) /\ t_xOffset t = fofZ (-2)
  | _ => False
  end.
Proof.
  split; [split; [apply (repr_ofZ 792); lia|lra]|]. split; [split; [apply (repr_ofZ 612); lia|lra]|]. split; [split; [lia|]; split; [lia|]; split; vm_compute; reflexivity|]. split; [reflexivity|].
  vm_compute. repeat (split; [reflexivity|]). reflexivity.
Qed.
Example C54_example_fill : page_side (fofZ 612) 612 /\ page_side (fofZ 792) 792 /\ area default_params 300 595 841 /\ p_hwResW default_params = p_hwResH default_params /\
  match fixup_scale (fofZ 612) (fofZ 792) default_params with
  | Ok t => t_rotate t = false /\ t_xScale t = fdiv (fofZ 97) (fofZ 100) /\ t_yScale t = fdiv (fofZ 97) (fofZ 100) /\ t_yOffset t = fofZ 36
  | _ => False
  end.
Proof.
  split; [split; [apply (repr_ofZ 612); lia|lra]|]. split; [split; [apply (repr_ofZ 792); lia|lra]|]. split; [split; [lia|]; split; [lia|]; split; vm_compute; reflexivity|]. split; [reflexivity|].
  vm_compute. repeat (split; [reflexivity|]). reflexivity.
Qed.
Print Assumptions C54_fill_partial.
Print Assumptions C54_aspect_partial.
Print Assumptions C54_fit_refuted.
Print Assumptions C54_aspect_refuted.
