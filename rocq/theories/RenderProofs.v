(** Lemmas about pdf2printable: arrays, grey values, dithering, pixel copying. *)
From Verif Require Import Base BaseLemmas ListLemmas FloatModel StringModel ParamsModel ParamsProofs FloatLemmas ParamsProperties RasterModel HeaderModel RenderModel IppEncProofs.
From Coq Require Import Lia Reals Lra.
From Coq Require Import ZifyBool ZifyNat.
From Flocq Require Import Core.Core Relative IEEE754.BinarySingleNaN.
Local Open Scope Z_scope.
Ltac Zify.zify_post_hook ::= Z.div_mod_to_equations.

(** ** Arrays *)
Lemma nth_error_update {A} (l : list A) i a j : (i < length l)%nat ->
  nth_error (firstn i l ++ a :: skipn (S i) l) j = if (j =? i)%nat then Some a else nth_error l j.
Proof.
  revert i j. induction l as [|x l IH]; intros i j Hi; [cbn in Hi; lia|]. destruct i as [|i].
  - destruct j; reflexivity.
  - destruct j as [|j]; [reflexivity|]. cbn [length] in Hi. cbn. apply IH. lia.
Qed.
Lemma update_length {A} (l : list A) i a : (i < length l)%nat -> length (firstn i l ++ a :: skipn (S i) l) = length l.
Proof. intros H. rewrite app_length. cbn [length]. rewrite firstn_length, skipn_length. lia. Qed.
Lemma get_at_ok {A} (l : list A) i : 0 <= i < Z.of_nat (length l) -> exists a, get_at l i = Ok a /\ nth_error l (Z.to_nat i) = Some a.
Proof.
  intros H. unfold get_at. destruct (Z.ltb_spec i 0); [lia|]. destruct (nth_error l (Z.to_nat i)) as [a|] eqn:E; [exists a; auto|].
  apply nth_error_None in E. lia.
Qed.
Lemma get_at_nth {A} (l : list A) i a : 0 <= i -> nth_error l (Z.to_nat i) = Some a -> get_at l i = Ok a.
Proof. intros H E. unfold get_at. destruct (Z.ltb_spec i 0); [lia|]. rewrite E. reflexivity. Qed.
Lemma set_at_ok {A} (l : list A) i a : 0 <= i < Z.of_nat (length l) -> exists l', set_at l i a = Ok l' /\ length l' = length l /\
  forall j, nth_error l' j = if (j =? Z.to_nat i)%nat then Some a else nth_error l j.
Proof.
  intros H. unfold set_at. replace ((0 <=? i) && (i <? Z.of_nat (length l))) with true by lia. eexists. split; [reflexivity|].
  split; [apply update_length; lia|]. intros j. apply nth_error_update. lia.
Qed.
Lemma int_ok_id z : - 2147483648 <= z < 2147483648 -> int_ok z = Ok z.
Proof. intros H. unfold int_ok. replace ((- 2147483648 <=? z) && (z <? 2147483648)) with true by lia. reflexivity. Qed.

(** ** Grey values *)
Lemma component_range v : 0 <= RGB32_R v < 256 /\ 0 <= RGB32_G v < 256 /\ 0 <= RGB32_B v < 256.
Proof.
  unfold RGB32_R, RGB32_G, RGB32_B. change 255 with (Z.ones 8). rewrite !Z.land_ones by lia. change (2 ^ 8) with 256. lia.
Qed.
Lemma signed_trunc x r : repr x r -> - 2147483648 <= Ztrunc r < 2147483648 -> f_to_signed 32 x = Ok (Ztrunc r).
Proof.
  intros H Hr. unfold f_to_signed. rewrite (repr_trunc x r H). change (2 ^ (32 - 1)) with 2147483648.
  replace (_ && _)%bool with true by lia. reflexivity.
Qed.
Lemma literal m e : 0 <= m <= 2 ^ 53 -> -1000 <= e <= 0 -> repr (fmk m e) (IZR m * bpow radix2 e).
Proof.
  intros Hm He. rewrite <- rnd_exact by lia. apply repr_mk. apply Rle_trans with (bpow radix2 53); [|apply bpow_le; lia].
  rewrite Rabs_pos_eq by (apply Rmult_le_pos; [apply IZR_le; lia|apply bpow_ge_0]).
  rewrite <- (Rmult_1_r (bpow radix2 53)). apply Rmult_le_compat; [apply IZR_le; lia|apply bpow_ge_0| |].
  - rewrite <- (IZR_Zpower radix2) by lia. apply IZR_le. exact (proj2 Hm).
  - change 1%R with (bpow radix2 0). apply bpow_le. lia.
Qed.
Lemma product c k x : 0 <= c < 256 -> repr x k -> (/ 16 <= k <= 1)%R -> exists r, repr (fmul (fofZ c) x) r /\ (Rabs (r - IZR c * k) <= / 9007199254740992 * (IZR c * k))%R /\ (0 <= r <= 256)%R.
Proof.
  intros Hc Hx Hk. assert (B : (0 <= IZR c <= 255)%R) by (split; apply IZR_le; lia). exists (rnd (IZR c * k)).
  assert (P : (0 <= IZR c * k <= 255)%R) by nra. split; [|split].
  - apply repr_mul; [apply repr_ofZ; lia|exact Hx|]. apply Rle_trans with (IZR 255); [rewrite Rabs_pos_eq; lra|]. rewrite <- (Rabs_pos_eq (IZR 255)) by lra. apply bpow1000. lia.
  - apply rnd_rel. destruct (Z.eq_dec c 0) as [->|N]; [left; lra|]. right. assert (1 <= IZR c)%R by (apply IZR_le; lia).
    apply Rle_trans with (/ 16)%R; [|nra]. change (/ 16)%R with (bpow radix2 (-4)). apply bpow_le. lia.
  - split; [apply (rnd_ge_IZR _ 0); [lia|apply P]|apply (rnd_le_IZR _ 256); [lia|lra]].
Qed.
Lemma sum_rel x y a b : (0 <= a <= 1024)%R -> (0 <= b <= 1024)%R -> (a = 0 \/ bpow radix2 (-900) <= a)%R -> (b = 0 \/ bpow radix2 (-900) <= b)%R ->
  repr x a -> repr y b -> exists r, repr (fadd x y) r /\ (Rabs (r - (a + b)) <= / 9007199254740992 * (a + b))%R.
Proof.
  intros Ha Hb Za Zb Hx Hy. exists (rnd (a + b)). split.
  - apply repr_add; [exact Hx|exact Hy|]. apply Rle_trans with (IZR 2048); [rewrite Rabs_pos_eq; lra|]. rewrite <- (Rabs_pos_eq (IZR 2048)) by lra. apply bpow1000. lia.
  - apply rnd_rel. assert (P : (bpow radix2 (-1000) <= bpow radix2 (-900))%R) by (apply bpow_le; lia). assert (0 < bpow radix2 (-1000))%R by apply bpow_gt_0.
    destruct Za as [Za|Za], Zb as [Zb|Zb]; [left; lra|right; lra|right; lra|right; lra].
Qed.
(** the grey value is the luminance to within 2^-40 *)
Lemma gray_value v : exists g, repr (RGB32_GRAY v) g /\
  (Rabs (g - IZR (299 * RGB32_R v + 587 * RGB32_G v + 114 * RGB32_B v) / 1000) <= / 1099511627776)%R /\ (0 <= g)%R.
Proof.
  unfold RGB32_GRAY. destruct (component_range v) as [Hr [Hg Hb]]. set (r := RGB32_R v) in *. set (g := RGB32_G v) in *. set (b := RGB32_B v) in *. clearbody r g b. clear v.
  pose proof (literal 5386305154335113 (-54) ltac:(lia) ltac:(lia)) as Lr. fold R_RELATIVE_LUMINOSITY in Lr. change (bpow radix2 (-54)) with (/ 18014398509481984)%R in Lr.
  pose proof (literal 2643612981266481 (-52) ltac:(lia) ltac:(lia)) as Lg. fold G_RELATIVE_LUMINOSITY in Lg. change (bpow radix2 (-52)) with (/ 4503599627370496)%R in Lg.
  pose proof (literal 8214565720323785 (-56) ltac:(lia) ltac:(lia)) as Lb. fold B_RELATIVE_LUMINOSITY in Lb. change (bpow radix2 (-56)) with (/ 72057594037927936)%R in Lb.
  destruct (product r _ _ Hr Lr ltac:(lra)) as [x [Hx [Ex Bx]]]. destruct (product g _ _ Hg Lg ltac:(lra)) as [y [Hy [Ey By]]]. destruct (product b _ _ Hb Lb ltac:(lra)) as [z [Hz [Ez Bz]]].
  apply Rabs_le_inv in Ex, Ey, Ez.
  assert (Z1 : forall c k w, 0 <= c < 256 -> (/ 16 <= k)%R -> (- (/ 9007199254740992 * (IZR c * k)) <= w - IZR c * k <= / 9007199254740992 * (IZR c * k))%R -> (w = 0 \/ bpow radix2 (-5) <= w)%R).
  { intros c k w Hc Hk Hw. destruct (Z.eq_dec c 0) as [->|N]; [left; lra|]. right. assert (1 <= IZR c)%R by (apply IZR_le; lia). change (bpow radix2 (-5)) with (/ 32)%R. assert (/ 16 <= IZR c * k)%R by nra. lra. }
  assert (T : forall w, (w = 0 \/ bpow radix2 (-5) <= w)%R -> (w = 0 \/ bpow radix2 (-900) <= w)%R).
  { intros w [E|E]; [left; exact E|right]. eapply Rle_trans; [|exact E]. apply bpow_le. lia. }
  assert (Zx := Z1 _ _ _ Hr (ltac:(lra) : (/ 16 <= 5386305154335113 * / 18014398509481984)%R) Ex).
  assert (Zy := Z1 _ _ _ Hg (ltac:(lra) : (/ 16 <= 2643612981266481 * / 4503599627370496)%R) Ey).
  assert (Zz := Z1 _ _ _ Hb (ltac:(lra) : (/ 16 <= 8214565720323785 * / 72057594037927936)%R) Ez).
  destruct (sum_rel _ _ x y ltac:(lra) ltac:(lra) (T _ Zx) (T _ Zy) Hx Hy) as [s [Hs Es]]. apply Rabs_le_inv in Es.
  assert (Zs : (s = 0 \/ bpow radix2 (-900) <= s)%R).
  { assert (P : (bpow radix2 (-900) <= / 64)%R) by (change (/ 64)%R with (bpow radix2 (-6)); apply bpow_le; lia). change (bpow radix2 (-5)) with (/ 32)%R in Zx, Zy.
    destruct Zx as [Zx|Zx], Zy as [Zy|Zy]; [left; rewrite Zx, Zy in Es; lra|right; lra|right; lra|right; lra]. }
  destruct (sum_rel _ _ s z ltac:(lra) ltac:(lra) Zs (T _ Zz) Hs Hz) as [t [Ht Et]]. apply Rabs_le_inv in Et.
  exists t. split; [exact Ht|]. assert (B : (0 <= IZR r <= 255)%R /\ (0 <= IZR g <= 255)%R /\ (0 <= IZR b <= 255)%R) by (repeat split; apply IZR_le; lia).
  rewrite !plus_IZR, !mult_IZR. split; [|lra]. apply Rabs_le. clear - Ex Ey Ez Es Et B. lra.
Qed.
Definition luminance v := 299 * RGB32_R v + 587 * RGB32_G v + 114 * RGB32_B v.
Lemma luminance_range v : 0 <= luminance v <= 255000.
Proof. unfold luminance. destruct (component_range v) as [? [? ?]]. lia. Qed.
Lemma white_gray v : luminance v = 255000 -> RGB32_GRAY v = fofZ 255.
Proof.
  unfold luminance, RGB32_GRAY. intros H. destruct (component_range v) as [? [? ?]].
  replace (RGB32_R v) with 255 by lia. replace (RGB32_G v) with 255 by lia. replace (RGB32_B v) with 255 by lia. vm_compute. reflexivity.
Qed.
Lemma black_gray v : luminance v = 0 -> RGB32_GRAY v = fofZ 0.
Proof.
  unfold luminance, RGB32_GRAY. intros H. destruct (component_range v) as [? [? ?]].
  replace (RGB32_R v) with 0 by lia. replace (RGB32_G v) with 0 by lia. replace (RGB32_B v) with 0 by lia. vm_compute. reflexivity.
Qed.
(** the grey value plus a carried debt *)
Lemma pixel_value v d : Z.abs d <= 112 -> exists px, f_to_signed 32 (fadd (RGB32_GRAY v) (fofZ d)) = Ok px /\ - 112 <= px <= 367.
Proof.
  intros Hd. destruct (gray_value v) as [g [Hg [Eg Pg]]]. apply Rabs_le_inv in Eg. pose proof (luminance_range v) as L. unfold luminance in L.
  set (l := 299 * RGB32_R v + 587 * RGB32_G v + 114 * RGB32_B v) in *. assert (BL : (0 <= IZR l <= 255000)%R) by (split; apply IZR_le; lia).
  assert (BD : (-112 <= IZR d <= 112)%R) by (split; apply IZR_le; lia).
  assert (R1 : repr (fadd (RGB32_GRAY v) (fofZ d)) (rnd (g + IZR d))).
  { apply repr_add; [exact Hg|apply repr_ofZ; lia|]. apply Rle_trans with (IZR 1000); [apply Rabs_le; lra|]. rewrite <- (Rabs_pos_eq (IZR 1000)) by lra. apply bpow1000. lia. }
  assert (LO : (-112 <= rnd (g + IZR d))%R) by (apply (rnd_ge_IZR _ (-112)); [lia|lra]).
  assert (HI : (rnd (g + IZR d) < 368)%R).
  { apply Rle_lt_trans with (IZR 735 * bpow radix2 (-1))%R.
    - rewrite <- rnd_exact by lia. apply rnd_le. change (bpow radix2 (-1)) with (/ 2)%R. lra.
    - change (bpow radix2 (-1)) with (/ 2)%R. lra. }
  exists (Ztrunc (rnd (g + IZR d))).
  assert (T : - 112 <= Ztrunc (rnd (g + IZR d)) <= 367).
  { destruct (Rle_or_lt 0 (rnd (g + IZR d))) as [P|P].
    - rewrite Ztrunc_floor by exact P. split.
      + apply Zfloor_lub. lra.
      + apply Z.lt_succ_r. apply lt_IZR. change (IZR (Z.succ 367)) with 368%R. eapply Rle_lt_trans; [apply Zfloor_lb|exact HI].
    - rewrite Ztrunc_ceil by lra. split.
      + rewrite <- (Zceil_IZR (-112)). apply Zceil_le. exact LO.
      + apply Z.le_trans with 0; [|lia]. rewrite <- (Zceil_IZR 0). apply Zceil_le. lra. }
  split; [apply signed_trunc; [exact R1|lia]|exact T].
Qed.

(** ** Bits of a bitmap *)
Definition bit (l : list byte) (q : Z) : bool := Z.testbit (Zb (nth (Z.to_nat (q / 8)) l (bZ 0))) (7 - q mod 8).
Lemma testbit_byte z i : 0 <= i < 8 -> Z.testbit (Zb (bZ z)) i = Z.testbit z i.
Proof. intros H. rewrite Zb_bZ. change 256 with (2 ^ 8). apply Z.mod_pow2_bits_low. lia. Qed.
Lemma mask_bit m i : 0 <= m < 8 -> 0 <= i < 8 -> Z.testbit (Z.shiftr 128 m) (7 - i) = (i =? m).
Proof. intros Hm Hi. rewrite Z.shiftr_spec by lia. change 128 with (2 ^ 7). rewrite Z.pow2_bits_eqb by lia. lia. Qed.
Lemma ink_bit (black : bool) b m i : 0 <= m < 8 -> 0 <= i < 8 ->
  Z.testbit (Zb (if black then bZ (Z.lor (Zb b) (Z.shiftr 128 m)) else bZ (Z.land (Zb b) (Z.lnot (Z.shiftr 128 m))))) (7 - i) =
  if i =? m then black else Z.testbit (Zb b) (7 - i).
Proof.
  intros Hm Hi. destruct black; rewrite testbit_byte by lia.
  - rewrite Z.lor_spec, mask_bit by lia. destruct (i =? m); [apply orb_true_r|apply orb_false_r].
  - rewrite Z.land_spec, Z.lnot_spec, mask_bit by lia. destruct (i =? m); [apply andb_false_r|apply andb_true_r].
Qed.
Definition ink (black : bool) (b : byte) (c : Z) : byte :=
  if black then bZ (Z.lor (Zb b) (Z.shiftr 128 (c mod 8))) else bZ (Z.land (Zb b) (Z.lnot (Z.shiftr 128 (c mod 8)))).
Lemma ink_at (black : bool) tmp lsb col : 0 <= lsb -> 0 <= col -> 8 * lsb + col < 8 * Z.of_nat (length tmp) -> exists b tmp',
  get_at tmp (lsb + col / 8) = Ok b /\ set_at tmp (lsb + col / 8) (ink black b col) = Ok tmp' /\ length tmp' = length tmp /\
  (forall q, 0 <= q -> bit tmp' q = if q =? 8 * lsb + col then black else bit tmp q).
Proof.
  intros Hl Hc Hb. destruct (get_at_ok tmp (lsb + col / 8) ltac:(lia)) as [b [Hg Hn]]. destruct (set_at_ok tmp (lsb + col / 8) (ink black b col) ltac:(lia)) as [t [Hs [Hlen Ht]]].
  exists b, t. split; [exact Hg|]. split; [exact Hs|]. split; [exact Hlen|]. intros q Hq. unfold bit.
  assert (N : nth (Z.to_nat (q / 8)) t (bZ 0) = if q / 8 =? lsb + col / 8 then ink black b col else nth (Z.to_nat (q / 8)) tmp (bZ 0)).
  { destruct (Z.eqb_spec (q / 8) (lsb + col / 8)) as [E|E].
    - apply nth_error_nth. rewrite Ht, E, Nat.eqb_refl. reflexivity.
    - specialize (Ht (Z.to_nat (q / 8))). destruct (Nat.eqb_spec (Z.to_nat (q / 8)) (Z.to_nat (lsb + col / 8))) as [F|F]; [lia|].
      destruct (nth_error tmp (Z.to_nat (q / 8))) as [x|] eqn:X.
      + rewrite (nth_error_nth _ _ _ Ht), (nth_error_nth _ _ _ X). reflexivity.
      + rewrite !nth_overflow; [reflexivity|apply nth_error_None; exact X|apply nth_error_None; exact Ht]. }
  rewrite N. destruct (Z.eqb_spec (q / 8) (lsb + col / 8)) as [E|E].
  - unfold ink. rewrite ink_bit by lia. destruct (Z.eqb_spec (q mod 8) (col mod 8)) as [F|F].
    + replace (q =? 8 * lsb + col) with true by lia. reflexivity.
    + replace (q =? 8 * lsb + col) with false by lia. rewrite E. rewrite (nth_error_nth _ _ _ Hn). reflexivity.
  - replace (q =? 8 * lsb + col) with false by lia. reflexivity.
Qed.

(** ** The error diffusion *)
(** how far the debts can be from zero before column [col] of line [line] *)
Definition debt_bound (line col : Z) (k : nat) : Z :=
  if (k =? 0)%nat then 56 * line + (if col =? 0 then 0 else 21)
  else if (k =? 1)%nat then 56 * line + (if col =? 0 then 0 else if col =? 1 then 35 else 56)
  else if Z.of_nat k =? col then 42 else if Z.of_nat k =? col + 1 then 7 else 63.
Definition bounded (line col : Z) (debts : list Z) : Prop := forall k a, nth_error debts k = Some a -> Z.abs a <= debt_bound line col k.
Lemma sixteenths n d : 0 <= n -> Z.abs d <= 127 -> Z.abs (SIXTEENTHS n d) <= 7 * n.
Proof.
  intros Hn Hd. unfold SIXTEENTHS. assert (- 7 <= Z.quot d 16 <= 7).
  { destruct (Z.le_gt_cases 0 d); [rewrite Z.quot_div_nonneg by lia; lia|]. replace d with (- (- d)) by lia. rewrite Z.quot_opp_l by lia. rewrite Z.quot_div_nonneg by lia. lia. }
  nia.
Qed.

Ltac ifs := repeat match goal with
  | H : context [if ?b then _ else _] |- _ => destruct b eqn:?
  | |- context [if ?b then _ else _] => destruct b eqn:?
  end.
(** one step of the loop *)
Lemma dither_step n data black lsb lsp w line col nextDebt debts tmp : 0 <= col < w -> 0 <= lsb -> 0 <= lsp -> lsp + w <= Z.of_nat (length data) ->
  8 * lsb + w <= 8 * Z.of_nat (length tmp) -> 0 <= line -> 56 * line + 56 < 2147483648 -> Z.abs nextDebt <= 112 -> length debts = Z.to_nat (w + 2) -> bounded line col debts ->
  exists v px debts' nextDebt' tmp', let inked := px <? 128 in let debt := px - (if inked then 0 else 255) in
    dither_line (S n) data black lsb lsp col nextDebt debts tmp = dither_line n data black lsb lsp (col + 1) nextDebt' debts' tmp' /\
    nth_error data (Z.to_nat (lsp + col)) = Some v /\ f_to_signed 32 (fadd (RGB32_GRAY v) (fofZ nextDebt)) = Ok px /\
    nth_error debts (Z.to_nat (col + 2)) = Some (nextDebt' - SIXTEENTHS 7 debt) /\ Z.abs nextDebt' <= 112 /\ length debts' = length debts /\ bounded line (col + 1) debts' /\
    (forall k, nth_error debts' k = if (k =? Z.to_nat (col + 2))%nat then Some (SIXTEENTHS 1 debt)
       else match nth_error debts k with
            | Some a => Some (a + (if (k =? Z.to_nat col)%nat then SIXTEENTHS 3 debt else if (k =? Z.to_nat (col + 1))%nat then SIXTEENTHS 5 debt else 0))
            | None => None end) /\
    length tmp' = length tmp /\ (forall q, 0 <= q -> bit tmp' q = if inked && (q =? 8 * lsb + col) then black else bit tmp q).
Proof.
  intros Hc Hlb Hlp Hd Ht Hl0 Hl Hn Hlen Hb. destruct (get_at_ok data (lsp + col) ltac:(lia)) as [v [Gv Nv]]. destruct (pixel_value v nextDebt Hn) as [px [Hpx Bpx]].
  set (np := if px <? 128 then 0 else 255). set (debt := px - np). assert (Bd : Z.abs debt <= 127) by (unfold debt, np; destruct (Z.ltb_spec px 128); lia).
  pose proof (sixteenths 1 debt ltac:(lia) Bd) as S1. pose proof (sixteenths 3 debt ltac:(lia) Bd) as S3. pose proof (sixteenths 5 debt ltac:(lia) Bd) as S5. pose proof (sixteenths 7 debt ltac:(lia) Bd) as S7.
  destruct (get_at_ok debts (col + 2) ltac:(lia)) as [d2 [G2 N2]]. destruct (get_at_ok debts col ltac:(lia)) as [d0 [G0 N0]].
  pose proof (Hb _ _ N2) as B2. pose proof (Hb _ _ N0) as B0. unfold debt_bound in B2, B0.
  assert (B2' : Z.abs d2 <= 63) by (clear - B2 Hc; ifs; lia). clear B2. assert (B0' : Z.abs d0 <= 56 * line + 42) by (clear - B0 Hc Hl0; ifs; lia). clear B0.
  destruct (set_at_ok debts col (d0 + SIXTEENTHS 3 debt) ltac:(lia)) as [a1 [Sa1 [La1 Na1]]].
  destruct (get_at_ok a1 (col + 1) ltac:(lia)) as [d1 [G1 N1]]. rewrite Na1 in N1. destruct (Nat.eqb_spec (Z.to_nat (col + 1)) (Z.to_nat col)) as [F|_]; [lia|].
  pose proof (Hb _ _ N1) as B1. unfold debt_bound in B1. assert (B1' : Z.abs d1 <= 56 * line + 21) by (clear - B1 Hc Hl0; ifs; lia). clear B1.
  destruct (set_at_ok a1 (col + 1) (d1 + SIXTEENTHS 5 debt) ltac:(lia)) as [a2 [Sa2 [La2 Na2]]].
  destruct (set_at_ok a2 (col + 2) (SIXTEENTHS 1 debt) ltac:(lia)) as [a3 [Sa3 [La3 Na3]]].
  destruct (ink_at black tmp lsb col Hlb (proj1 Hc) ltac:(lia)) as [b [tmp1 [Gb [Sb [Lb Qb]]]]].
  exists v, px, a3, (d2 + SIXTEENTHS 7 debt), (if px <? 128 then tmp1 else tmp). cbv zeta. fold np. fold debt.
  assert (STEP : dither_line (S n) data black lsb lsp col nextDebt debts tmp = dither_line n data black lsb lsp (col + 1) (d2 + SIXTEENTHS 7 debt) a3 (if px <? 128 then tmp1 else tmp)).
  { cbn [dither_line]. rewrite Gv. cbn [bind]. rewrite Hpx. cbn [bind]. fold np. fold debt. rewrite (int_ok_id debt) by lia. cbn [bind]. rewrite G2. cbn [bind]. rewrite int_ok_id by lia. cbn [bind].
    rewrite G0. cbn [bind]. rewrite int_ok_id by lia. cbn [bind]. rewrite Sa1. cbn [bind]. rewrite G1. cbn [bind]. rewrite int_ok_id by lia. cbn [bind]. rewrite Sa2. cbn [bind]. rewrite Sa3. cbn [bind].
    unfold np. destruct (px <? 128); cbn [Z.eqb].
    - rewrite Gb. cbn [bind]. unfold ink in Sb. destruct black; rewrite Sb; reflexivity.
    - reflexivity. }
  assert (NTH : forall k, nth_error a3 k = if (k =? Z.to_nat (col + 2))%nat then Some (SIXTEENTHS 1 debt)
       else match nth_error debts k with
            | Some a => Some (a + (if (k =? Z.to_nat col)%nat then SIXTEENTHS 3 debt else if (k =? Z.to_nat (col + 1))%nat then SIXTEENTHS 5 debt else 0))
            | None => None end).
  { intros k. rewrite Na3, Na2, Na1. destruct (Nat.eqb_spec k (Z.to_nat (col + 2))) as [E|E]; [reflexivity|].
    destruct (Nat.eqb_spec k (Z.to_nat (col + 1))) as [E1|E1].
    - rewrite E1, N1. destruct (Nat.eqb_spec (Z.to_nat (col + 1)) (Z.to_nat col)); [lia|]. reflexivity.
    - destruct (Nat.eqb_spec k (Z.to_nat col)) as [E2|E2]; [rewrite E2, N0; reflexivity|]. destruct (nth_error debts k); [rewrite Z.add_0_r|]; reflexivity. }
  split; [exact STEP|]. split; [exact Nv|]. split; [exact Hpx|]. split; [rewrite N2; f_equal; lia|]. split; [lia|]. split; [congruence|]. split.
  - intros k a Hk. rewrite NTH in Hk. destruct (Nat.eqb_spec k (Z.to_nat (col + 2))) as [E|E].
    + assert (a = SIXTEENTHS 1 debt) by congruence. subst a. unfold debt_bound. clear - S1 E Hc Hl0. ifs; lia.
    + destruct (nth_error debts k) as [a0|] eqn:Ea; [|discriminate]. pose proof (Hb _ _ Ea) as Ba. match type of Hk with Some ?x = _ => assert (Ha : a = x) by congruence end. subst a. clear Hk. unfold debt_bound in Ba |- *. clear - Ba S3 S5 E Hc.
      ifs; lia.
  - split; [exact NTH|]. split; [destruct (px <? 128); [exact Lb|reflexivity]|]. intros q Hq. destruct (px <? 128); cbn [andb]; [apply Qb; exact Hq|reflexivity].
Qed.
(** pages of pure black and white *)
Definition bilevel (data : list Z) : Prop := forall v, In v data -> luminance v = 0 \/ luminance v = 255000.
Definition all_zero (debts : list Z) : Prop := forall k a, nth_error debts k = Some a -> a = 0.
Lemma bilevel_pixel v : luminance v = 0 \/ luminance v = 255000 -> f_to_signed 32 (fadd (RGB32_GRAY v) (fofZ 0)) = Ok (if luminance v =? 0 then 0 else 255).
Proof.
  intros [H|H]; rewrite H.
  - rewrite (black_gray v H). vm_compute. reflexivity.
  - rewrite (white_gray v H). vm_compute. reflexivity.
Qed.
Lemma dither_line_ok data black lsb lsp w line : 0 <= lsb -> 0 <= lsp -> lsp + w <= Z.of_nat (length data) ->
  0 <= line -> 56 * line + 56 < 2147483648 ->
  forall n col nextDebt debts tmp, col + Z.of_nat n = w -> 0 <= col -> 8 * lsb + w <= 8 * Z.of_nat (length tmp) -> Z.abs nextDebt <= 112 -> length debts = Z.to_nat (w + 2) -> bounded line col debts ->
  exists debts' tmp', dither_line n data black lsb lsp col nextDebt debts tmp = Ok (debts', tmp') /\ length debts' = length debts /\ bounded line w debts' /\ length tmp' = length tmp /\
    (forall q, 0 <= q -> q < 8 * lsb + col \/ 8 * lsb + w <= q -> bit tmp' q = bit tmp q) /\
    (bilevel data -> nextDebt = 0 -> all_zero debts -> all_zero debts' /\
      forall c, col <= c < w -> bit tmp' (8 * lsb + c) = if luminance (nth (Z.to_nat (lsp + c)) data 0) =? 0 then black else bit tmp (8 * lsb + c)).
Proof.
  intros Hlb Hlp Hd Hl0 Hl. induction n as [|n IH]; intros col nextDebt debts tmp Hn Hc Ht Hnd Hlen Hb.
  - exists debts, tmp. split; [reflexivity|]. split; [reflexivity|]. replace w with col by lia. split; [exact Hb|]. split; [reflexivity|]. split; [reflexivity|].
    intros _ _ Z0. split; [exact Z0|]. intros c Hcc. lia.
  - destruct (dither_step n data black lsb lsp w line col nextDebt debts tmp ltac:(lia) Hlb Hlp Hd Ht Hl0 Hl Hnd Hlen Hb) as [v [px [debts1 [nd1 [tmp1 H]]]]]. cbv zeta in H.
    destruct H as [STEP [Nv [Hpx [N2 [Bnd [L1 [B1 [NTH [Lt Q]]]]]]]]].
    destruct (IH (col + 1) nd1 debts1 tmp1 ltac:(lia) ltac:(lia) ltac:(lia) Bnd ltac:(lia) B1) as [debts' [tmp' [E [E1 [E2 [E3 [E4 E5]]]]]]].
    exists debts', tmp'. rewrite STEP. split; [exact E|]. split; [lia|]. split; [exact E2|]. split; [lia|]. split.
    + intros q Hq Ho. rewrite E4 by lia. rewrite Q by lia. replace (q =? 8 * lsb + col) with false by lia. rewrite andb_false_r. reflexivity.
    + intros BL N0 Z0. subst nextDebt. assert (Bv : luminance v = 0 \/ luminance v = 255000) by (apply BL; apply nth_error_In with (Z.to_nat (lsp + col)); exact Nv).
      rewrite (bilevel_pixel v Bv) in Hpx. assert (P : px = if luminance v =? 0 then 0 else 255) by congruence.
      assert (D0 : px - (if px <? 128 then 0 else 255) = 0) by (rewrite P; destruct (luminance v =? 0); reflexivity). rewrite D0 in *.
      apply Z0 in N2. change (SIXTEENTHS 7 0) with 0 in N2. assert (nd1 = 0) by lia.
      assert (Z1 : all_zero debts1).
      { intros k a Hk. rewrite NTH in Hk. change (SIXTEENTHS 1 0) with 0 in Hk. change (SIXTEENTHS 3 0) with 0 in Hk. change (SIXTEENTHS 5 0) with 0 in Hk.
        destruct (k =? Z.to_nat (col + 2))%nat; [congruence|]. destruct (nth_error debts k) as [a0|] eqn:Ea; [|discriminate]. apply Z0 in Ea. subst a0.
        cbn [Z.add] in Hk. destruct (k =? Z.to_nat col)%nat; [congruence|]. destruct (k =? Z.to_nat (col + 1))%nat; congruence. }
      destruct (E5 BL H Z1) as [Z2 C2]. split; [exact Z2|]. intros c Hcc. destruct (Z.eq_dec c col) as [->|Nc].
      * rewrite E4 by lia. rewrite Q by lia. rewrite Z.eqb_refl, andb_true_r. rewrite (nth_error_nth _ _ 0 Nv), P. destruct (luminance v =? 0); reflexivity.
      * rewrite C2 by lia. rewrite Q by lia. replace (8 * lsb + c =? 8 * lsb + col) with false by lia. rewrite andb_false_r. reflexivity.
Qed.
Lemma bounded_next line w debts : 0 <= line -> 0 <= w -> bounded line w debts -> bounded (line + 1) 0 debts.
Proof.
  intros Hl Hw H k a Hk. specialize (H k a Hk). unfold debt_bound in *. clear - H Hl Hw. ifs; lia.
Qed.
Lemma dither_lines_ok data black w bytesW h : 0 <= w <= 8 * bytesW -> Z.of_nat (length data) = w * h -> 56 * h < 2147483648 ->
  forall n line debts tmp, line + Z.of_nat n = h -> 0 <= line -> Z.of_nat (length tmp) = bytesW * h -> length debts = Z.to_nat (w + 2) -> bounded line 0 debts ->
  exists tmp', dither_lines n data black w bytesW line debts tmp = Ok tmp' /\ length tmp' = length tmp /\
    (forall l c, 0 <= l -> 0 <= c < 8 * bytesW -> l < line \/ w <= c -> bit tmp' (8 * (l * bytesW) + c) = bit tmp (8 * (l * bytesW) + c)) /\
    (bilevel data -> all_zero debts -> forall l c, line <= l < h -> 0 <= c < w ->
      bit tmp' (8 * (l * bytesW) + c) = if luminance (nth (Z.to_nat (l * w + c)) data 0) =? 0 then black else bit tmp (8 * (l * bytesW) + c)).
Proof.
  intros Hw Hd Hh. induction n as [|n IH]; intros line debts tmp Hn Hl Ht Hlen Hb.
  - exists tmp. split; [reflexivity|]. split; [reflexivity|]. split; [reflexivity|]. intros. lia.
  - destruct (dither_line_ok data black (line * bytesW) (line * w) w line ltac:(nia) ltac:(nia) ltac:(nia) Hl ltac:(nia) (Z.to_nat w) 0 0 debts tmp ltac:(lia) ltac:(lia) ltac:(nia) ltac:(lia) Hlen Hb)
      as [debts1 [tmp1 [E [E1 [E2 [E3 [E4 E5]]]]]]].
    destruct (IH (line + 1) debts1 tmp1 ltac:(lia) ltac:(lia) ltac:(lia) ltac:(lia) (bounded_next line w debts1 Hl ltac:(lia) E2)) as [tmp' [F [F1 [F2 F3]]]].
    exists tmp'. cbn [dither_lines]. rewrite E. cbn [bind]. split; [exact F|]. split; [lia|]. split.
    + intros l c Hl0 Hc Ho. rewrite F2 by lia. apply E4; [nia|]. assert (l < line \/ l = line \/ line + 1 <= l) as [G|[G|G]] by lia; [left; nia|right; subst l; lia|right; nia].
    + intros BL Z0 l c Hlr Hc. destruct (E5 BL eq_refl Z0) as [Z1 C1]. destruct (Z.eq_dec l line) as [->|Nl].
      * rewrite F2 by lia. rewrite C1 by lia. reflexivity.
      * rewrite (F3 BL Z1) by lia. rewrite E4; [reflexivity|nia|right; nia].
Qed.

(** black bitmaps are the complement of grey ones *)
Definition compl (b : byte) : byte := bZ (255 - Zb b).
Definition omap {A B} (f : A -> B) (x : outcome A) : outcome B := let! a := x in Ok (f a).
Lemma get_at_map {A B} (f : A -> B) l i : get_at (map f l) i = omap f (get_at l i).
Proof. unfold get_at, omap. destruct (i <? 0); [reflexivity|]. rewrite nth_error_map. destruct (nth_error l (Z.to_nat i)); reflexivity. Qed.
Lemma set_at_map {A B} (f : A -> B) l i a : set_at (map f l) i (f a) = omap (map f) (set_at l i a).
Proof. unfold set_at, omap. rewrite map_length. destruct ((0 <=? i) && (i <? Z.of_nat (length l))); [|reflexivity]. cbn [bind]. rewrite map_app. cbn [map]. rewrite firstn_map, skipn_map. reflexivity. Qed.
Lemma testbit_compl b i : 0 <= i < 8 -> Z.testbit (Zb (compl b)) i = negb (Z.testbit (Zb b) i).
Proof.
  intros Hi. unfold compl. rewrite testbit_byte by lia. replace (255 - Zb b) with (Z.lnot (Zb b) + 256) by (unfold Z.lnot; lia).
  rewrite <- (Z.mod_pow2_bits_low (Z.lnot (Zb b) + 256) 8) by lia. change (2 ^ 8) with 256. replace ((Z.lnot (Zb b) + 256) mod 256) with (Z.lnot (Zb b) mod 256) by lia.
  change 256 with (2 ^ 8). rewrite Z.mod_pow2_bits_low by lia. apply Z.lnot_spec. lia.
Qed.
Lemma byte_bits a b : (forall i, 0 <= i < 8 -> Z.testbit (Zb a) i = Z.testbit (Zb b) i) -> a = b.
Proof.
  intros H. apply Zb_inj. apply Z.bits_inj'. intros i Hi. destruct (Z.lt_ge_cases i 8) as [L|L]; [apply H; lia|].
  rewrite <- (Z.mod_small (Zb a) (2 ^ 8)) by (pose proof (Zb_range a); lia). rewrite <- (Z.mod_small (Zb b) (2 ^ 8)) by (pose proof (Zb_range b); lia).
  rewrite !Z.mod_pow2_bits_high by lia. reflexivity.
Qed.
Lemma ink_compl b c : ink true (compl b) c = compl (ink false b c).
Proof.
  apply byte_bits. intros i Hi. replace i with (7 - (7 - i)) by lia. rewrite testbit_compl by lia. unfold ink.
  pose proof (ink_bit true (compl b) (c mod 8) (7 - i) ltac:(lia) ltac:(lia)) as A. cbv iota in A. rewrite A.
  pose proof (ink_bit false b (c mod 8) (7 - i) ltac:(lia) ltac:(lia)) as C. cbv iota in C. rewrite C. destruct (7 - i =? c mod 8); [reflexivity|]. apply testbit_compl. lia.
Qed.
Definition compl_result (r : list Z * list byte) := (fst r, map compl (snd r)).
Ltac bstep := match goal with |- bind ?x _ = omap _ (bind ?x _) => destruct x; cbn [bind omap]; try reflexivity end.
Lemma dither_line_compl data lsb lsp : forall n col nextDebt debts tmp,
  dither_line n data true lsb lsp col nextDebt debts (map compl tmp) = omap compl_result (dither_line n data false lsb lsp col nextDebt debts tmp).
Proof.
  induction n as [|n IH]; intros col nextDebt debts tmp; [reflexivity|]. cbn [dither_line].
  do 12 bstep. unfold omap. destruct ((if a0 <? 128 then 0 else 255) =? 0).
  - rewrite get_at_map. unfold omap. destruct (get_at tmp (lsb + col / 8)) as [b| | | |]; cbn [bind]; try reflexivity.
    pose proof (ink_compl b col) as K. unfold ink in K. rewrite K. rewrite set_at_map. unfold omap. destruct (set_at tmp (lsb + col / 8) _) as [t| | | |]; cbn [bind]; try reflexivity. apply IH.
  - cbn [bind]. apply IH.
Qed.
Lemma dither_lines_compl data w bytesW : forall n line debts tmp,
  dither_lines n data true w bytesW line debts (map compl tmp) = omap (map compl) (dither_lines n data false w bytesW line debts tmp).
Proof.
  induction n as [|n IH]; intros line debts tmp; [reflexivity|]. cbn [dither_lines]. rewrite dither_line_compl. unfold omap.
  destruct (dither_line (Z.to_nat w) data false _ _ 0 0 debts tmp) as [[d t]| | | |]; cbn [bind compl_result fst snd]; try reflexivity. apply IH.
Qed.

(** ** The other colour modes *)
Lemma set_bytes_ok l : forall tmp i, 0 <= i -> i + Z.of_nat (length l) <= Z.of_nat (length tmp) ->
  set_bytes tmp i l = Ok (firstn (Z.to_nat i) tmp ++ l ++ skipn (Z.to_nat i + length l) tmp).
Proof.
  induction l as [|b l IH]; intros tmp i Hi Hl; cbn [set_bytes].
  - cbn [app length]. rewrite Nat.add_0_r, firstn_skipn. reflexivity.
  - cbn [length] in Hl. unfold set_at. replace ((0 <=? i) && (i <? Z.of_nat (length tmp))) with true by lia. cbn [bind]. rewrite IH by (rewrite ?update_length; lia). f_equal.
    assert (L : length (firstn (Z.to_nat i) tmp) = Z.to_nat i) by (rewrite firstn_length; lia).
    replace (Z.to_nat (i + 1)) with (Z.to_nat i + 1)%nat by lia. rewrite firstn_app, skipn_app, L.
    replace (Z.to_nat i + 1 - Z.to_nat i)%nat with 1%nat by lia. replace (Z.to_nat i + 1 + length l - Z.to_nat i)%nat with (S (length l)) by lia.
    rewrite (firstn_all2 (firstn _ _)) by lia. rewrite (skipn_all2 (firstn _ _)) by lia. rewrite firstn_cons, firstn_O, skipn_cons, skipn_skipn. rewrite <- app_assoc. cbn [app length]. do 4 f_equal. lia.
Qed.
Lemma copy_pixels_ok f step data : 0 <= step -> (forall v, In v data -> exists l, f v = Ok l /\ Z.of_nat (length l) = step) ->
  forall n i tmp, (Z.to_nat i + n = length data)%nat -> 0 <= i -> Z.of_nat (length tmp) = step * Z.of_nat (length data) ->
  exists ls, copy_pixels n f step data i tmp = Ok (firstn (Z.to_nat (i * step)) tmp ++ concat ls) /\ map Ok ls = map f (skipn (Z.to_nat i) data).
Proof.
  intros Hs Hf. induction n as [|n IH]; intros i tmp Hn Hi Ht; cbn [copy_pixels].
  - exists []. rewrite (skipn_all2 data) by lia. split; [|reflexivity]. cbn [concat]. rewrite app_nil_r, firstn_all2 by nia. reflexivity.
  - destruct (get_at_ok data i ltac:(lia)) as [v [Gv Nv]]. rewrite Gv. cbn [bind]. destruct (Hf v (nth_error_In _ _ Nv)) as [l [Fl Ll]]. rewrite Fl. cbn [bind].
    rewrite set_bytes_ok by nia. cbn [bind]. assert (L : length (firstn (Z.to_nat (i * step)) tmp) = Z.to_nat (i * step)) by (rewrite firstn_length; nia).
    destruct (IH (i + 1) (firstn (Z.to_nat (i * step)) tmp ++ l ++ skipn (Z.to_nat (i * step) + length l) tmp) ltac:(lia) ltac:(lia)) as [ls [E M]].
    { rewrite !app_length, skipn_length, L. nia. }
    exists (l :: ls). split.
    + rewrite E. f_equal. cbn [concat]. rewrite !app_assoc. f_equal. rewrite firstn_app. rewrite (firstn_all2 (firstn _ _ ++ l)) by (rewrite app_length, L; nia).
      replace (Z.to_nat ((i + 1) * step) - _)%nat with 0%nat by (rewrite app_length, L; nia). cbn [firstn]. rewrite app_nil_r. reflexivity.
    + cbn [map]. rewrite M. rewrite <- Fl. replace (Z.to_nat (i + 1)) with (S (Z.to_nat i)) by lia.
      assert (SK : skipn (Z.to_nat i) data = v :: skipn (S (Z.to_nat i)) data).
      { clear - Nv. revert Nv. generalize (Z.to_nat i). induction data as [|x data IH]; intros [|k] H; cbn in H; try discriminate; [injection H as ->; reflexivity|]. cbn [skipn]. rewrite (IH k H). reflexivity. }
      rewrite SK. reflexivity.
Qed.
Lemma copy_all f step data tmp : 0 <= step -> (forall v, In v data -> exists l, f v = Ok l /\ Z.of_nat (length l) = step) ->
  Z.of_nat (length tmp) = step * Z.of_nat (length data) -> exists ls, copy_pixels (length data) f step data 0 tmp = Ok (concat ls) /\ map Ok ls = map f data.
Proof. intros Hs Hf Ht. destruct (copy_pixels_ok f step data Hs Hf (length data) 0 tmp ltac:(lia) ltac:(lia) Ht) as [ls [E M]]. exists ls. split; [exact E|exact M]. Qed.
Lemma gray_pixel_ok black v : exists g, gray_pixel black v = Ok [bZ g] /\ 0 <= g < 256 /\ (forall gr, f_to_unsigned 8 (RGB32_GRAY v) = Ok gr -> black = false -> g = gr) /\
  (if black then 255 - g = (luminance v + 999) / 1000 \/ (luminance v mod 1000 = 0 /\ 255 - g = luminance v / 1000 + 1)
   else g = luminance v / 1000 \/ (luminance v mod 1000 = 0 /\ g = luminance v / 1000 - 1)).
Proof.
  destruct (gray_value v) as [r [Hr [Er Pr]]]. fold (luminance v) in Er. pose proof (luminance_range v) as L. set (l := luminance v) in *. apply Rabs_le_inv in Er.
  assert (U : forall x y, repr x y -> 0 <= Ztrunc y < 256 -> f_to_unsigned 8 x = Ok (Ztrunc y)).
  { intros x y Hx Hy. unfold f_to_unsigned. rewrite (repr_trunc x y Hx). change (2 ^ 8) with 256. replace (_ && _)%bool with true by lia. reflexivity. }
  assert (B : (0 <= IZR l <= 255000)%R) by (split; apply IZR_le; lia). unfold gray_pixel. destruct black.
  - assert (Hr255 : (r <= 255)%R).
    { destruct (Z.eq_dec l 255000) as [E|E].
      - pose proof (white_gray v E) as G. rewrite G in Hr. pose proof (repr_ofZ 255 ltac:(lia)) as R2. destruct Hr as [b1 [A1 [A2 A3]]], R2 as [b2 [C1 [C2 C3]]].
        rewrite <- C1 in A1. apply B2SF_inj in A1. subst b1. rewrite <- A3, C3. lra.
      - assert (IZR l <= 254999)%R by (apply IZR_le; lia). lra. }
    set (y := rnd (255 - r)). assert (Ry : repr (fsub (fofZ 255) (RGB32_GRAY v)) y).
    { apply repr_sub; [apply (repr_ofZ 255); lia|exact Hr|]. apply Rle_trans with (IZR 1000); [apply Rabs_le; lra|]. rewrite <- (Rabs_pos_eq (IZR 1000)) by lra. apply bpow1000. lia. }
    assert (Ey : (y = 255 - r \/ (Rabs (y - (255 - r)) <= / 1099511627776))%R).
    { right. unfold y. destruct (Rle_or_lt (bpow radix2 (-1000)) (255 - r)) as [P|P].
      - eapply Rle_trans; [apply rnd_rel; right; exact P|]. lra.
      - assert (T : (bpow radix2 (-1000) <= / 4398046511104)%R) by (change (/ 4398046511104)%R with (bpow radix2 (-42)); apply bpow_le; lia).
        assert (Rabs (rnd (255 - r)) <= bpow radix2 (-1000))%R by (apply rnd_abs_le; [lia|apply Rabs_le; lra]). apply Rabs_le_inv in H. apply Rabs_le. lra. }
    assert (Ey' : (- / 1099511627776 <= y - (255 - r) <= / 1099511627776)%R) by (destruct Ey as [Ey|Ey]; [rewrite Ey; lra|apply Rabs_le_inv in Ey; exact Ey]). clear Ey.
    assert (Py : (0 <= y <= 255)%R) by (split; [apply (rnd_ge_IZR _ 0); [lia|lra]|apply (rnd_le_IZR _ 255); [lia|lra]]).
    exists (Ztrunc y). assert (F : Ztrunc y = Zfloor y) by (apply Ztrunc_floor; lra).
    assert (G : 0 <= Ztrunc y < 256). { rewrite F. split; [apply Zfloor_lub; lra|]. apply lt_IZR. eapply Rle_lt_trans; [apply Zfloor_lb|lra]. }
    rewrite (U _ _ Ry G). split; [reflexivity|]. split; [exact G|]. split; [discriminate|].
    pose proof (Zfloor_lb y) as Z1. pose proof (Zfloor_ub y) as Z2. rewrite <- F in Z1, Z2. set (z := Ztrunc y) in *. clearbody z.
    assert (K1 : (IZR (1000 * (255 - z)) >= IZR l - / 1000)%R) by (rewrite mult_IZR, minus_IZR; lra).
    assert (K2 : (IZR (1000 * (255 - z)) < IZR l + 1000 + / 1000)%R) by (rewrite mult_IZR, minus_IZR; lra).
    assert (J1 : l <= 1000 * (255 - z)). { apply Z.lt_succ_r. apply lt_IZR. rewrite succ_IZR. lra. }
    assert (J2 : 1000 * (255 - z) <= l + 1000). { apply Z.lt_succ_r. apply lt_IZR. rewrite succ_IZR, plus_IZR. lra. }
    clear - J1 J2. lia.
  - assert (Hlt : (r < 256)%R) by lra. exists (Ztrunc r). assert (F : Ztrunc r = Zfloor r) by (apply Ztrunc_floor; lra).
    assert (G : 0 <= Ztrunc r < 256). { rewrite F. split; [apply Zfloor_lub; lra|]. apply lt_IZR. eapply Rle_lt_trans; [apply Zfloor_lb|lra]. }
    rewrite (U _ _ Hr G). split; [reflexivity|]. split; [exact G|]. split; [intros; congruence|].
    pose proof (Zfloor_lb r) as Z1. pose proof (Zfloor_ub r) as Z2. rewrite <- F in Z1, Z2. set (z := Ztrunc r) in *. clearbody z.
    assert (J1 : 1000 * z <= l). { apply Z.lt_succ_r. apply lt_IZR. rewrite succ_IZR, mult_IZR. lra. }
    assert (J2 : l <= 1000 * z + 1000). { apply Z.lt_succ_r. apply lt_IZR. rewrite succ_IZR, plus_IZR, mult_IZR. lra. }
    clear - J1 J2. lia.
Qed.
