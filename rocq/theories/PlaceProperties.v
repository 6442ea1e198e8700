(** C97: where a page lies on the paper. *)
From Coq Require Import Reals Lra Lia ZifyBool ZifyNat.
From Verif Require Import Base BaseLemmas FloatModel FloatLemmas ParamsModel RasterModel RenderModel HeaderSpec GeometryProofs ScaleProperties PlaceModel PlaceProofs.
From Flocq Require Import Core.Core Relative IEEE754.BinarySingleNaN.
Local Open Scope Z_scope.

(** ** Specification *)
(** The page a x b lies exactly on the rectangle from (x, y), of the width u and height v:
    upright, or turned counter-clockwise by a right angle *)
Definition lies (f : R * R -> R * R) (turned : bool) (a b x y u v : R) : Prop :=
  (f (0, 0) = if turned then (x, y + v) else (x, y))%R /\ (f (a, 0) = if turned then (x, y) else (x + u, y))%R /\
  (f (0, b) = if turned then (x + u, y + v) else (x, y + v))%R /\ (f (a, b) = if turned then (x + u, y) else (x + u, y + v))%R /\
  (forall c d, 0 <= c <= a -> 0 <= d <= b -> x <= fst (f (c, d)) <= x + u /\ y <= snd (f (c, d)) <= y + v)%R.
(** the margins before and behind [u] on a side of length [total] differ by no more than [slack] *)
Definition centred (total x u slack : R) : Prop := (Rabs (x - (total - (x + u))) <= slack)%R.

(** ** The drawing *)
Lemma lies_device (turned : bool) sx sy xo yo a b : (0 <= a)%R -> (0 <= b)%R -> (0 <= sx)%R -> (0 <= sy)%R -> (turned = true <-> (b < a)%R) ->
  lies (to_device sx sy xo yo turned (Rmax a b)) turned a b xo yo (sx * Rmin a b) (sy * Rmax a b).
Proof.
  intros Pa Pb Px Py T. unfold lies, to_device, apply_matrix, turn_matrix. destruct turned; cbn [m_xx m_xy m_yx m_yy m_x0 m_y0 fst snd].
  - assert (L : (b < a)%R) by (apply T; reflexivity). rewrite Rmin_right, Rmax_left by lra. repeat (split; [f_equal; ring|]). intros c d Hc Hd. split; split; nra.
  - assert (L : (a <= b)%R). { destruct (Rle_or_lt a b) as [K|K]; [exact K|]. apply T in K. discriminate. } rewrite Rmin_left, Rmax_right by lra. repeat (split; [f_equal; ring|]). intros c d Hc Hd. split; split; nra.
Qed.
(** ** Sizes at two resolutions *)
Definition fine (r g : R) (v : R) : Prop := (Rabs (v - r * g) <= r * g * (4 * eps53) + 3 * tiny)%R.
Lemma fine_inches x r res : repr x r -> (0 <= r <= IZR max_size)%R -> 1 <= res < two32 -> fine (r * IZR res) 1 (rnd (r * IZR res)).
Proof.
  intros Hx Br Hr. assert (P : (0 <= r * IZR res)%R) by (apply Rmult_le_pos; [lra|apply IZR_le; lia]). unfold fine. rewrite Rmult_1_r. eapply Rle_trans; [apply rnd_err|]. rewrite Rabs_pos_eq by exact P. unfold eps53, tiny. lra.
Qed.
Lemma fine_mm x r res c : repr x r -> (0 <= r <= IZR max_size)%R -> 1 <= res < two32 -> (25 < c < 26)%R -> fine (r * IZR res) (/ c) (rnd (rnd (r * IZR res) / c)).
Proof.
  intros Hx Br Hr Hc. assert (P : (0 <= r * IZR res)%R) by (apply Rmult_le_pos; [lra|apply IZR_le; lia]). set (y := (r * IZR res)%R) in *. pose proof (rnd_err y) as E1. rewrite (Rabs_pos_eq y) in E1 by exact P. assert (P1 : (0 <= rnd y)%R) by (apply (rnd_ge_IZR _ 0); [lia|exact P]).
  pose proof (rnd_err (rnd y / c)) as E2. assert (I : (0 < / c < 1)%R) by (split; [apply Rinv_0_lt_compat; lra|rewrite <- Rinv_1; apply Rinv_lt_contravar; lra]). unfold Rdiv in *. rewrite (Rabs_pos_eq (rnd y * / c)) in E2 by (apply Rmult_le_pos; lra).
  unfold fine. set (i := (/ c)%R) in *. clearbody i. set (q := rnd (rnd y * i)) in *. set (m := rnd y) in *. clearbody q m. apply Rabs_le_inv in E1, E2. apply Rabs_le. unfold eps53, tiny in *.
  assert (M : (y * i - y * i * / 9007199254740992 - / 1267650600228229401496703205376 <= m * i <= y * i + y * i * / 9007199254740992 + / 1267650600228229401496703205376)%R) by (split; nra).
  assert (0 <= y * i)%R by nra. set (v := (y * i)%R) in *. set (n := (m * i)%R) in *. clearbody v n. lra.
Qed.
Lemma pixels_fine u x r res W : u <> Pixels -> repr x r -> (0 <= r <= IZR max_size)%R -> 1 <= res < two32 -> sizeInPixels u x res = Ok W ->
  exists v, W = Zfloor v /\ fine (r * IZR res) (match u with Millimeters => / (IZR 3574732204225331 * bpow radix2 (-47)) | _ => 1 end) v.
Proof.
  intros U Hx Br Hr H. destruct (mul_res _ _ _ Hx Br Hr) as [Hm Hmb]. pose proof f25_4_val as Hf. destruct u; [congruence| |]; unfold sizeInPixels in H.
  - assert (R1 : repr (fdiv (fmul x (fofZ res)) f25_4) (rnd (rnd (r * IZR res) / (IZR 3574732204225331 * bpow radix2 (-47))))).
    { apply repr_div; [exact Hm|apply repr_f25_4|lra|]. apply (big _ (2 ^ 56)); [|pose proof small_pow; lia]. change (bpow radix2 56) with (IZR (2 ^ 56)) in Hmb. split; [apply Rmult_le_pos; [lra|left; apply Rinv_0_lt_compat; lra]|].
      apply Rmult_le_reg_r with (IZR 3574732204225331 * bpow radix2 (-47))%R; [lra|]. unfold Rdiv. rewrite Rmult_assoc, Rinv_l, Rmult_1_r by lra. nra. }
    rewrite (repr_floor _ _ R1) in H. destruct (_ && _); [|discriminate]. injection H as <-. eexists. split; [reflexivity|]. eapply fine_mm; eassumption.
  - unfold f_to_unsigned in H. rewrite (repr_trunc _ _ Hm), Ztrunc_floor in H by apply Hmb. destruct (_ && _); [|discriminate]. injection H as <-. eexists. split; [reflexivity|]. eapply fine_inches; eassumption.
Qed.
Lemma two_sizes u x k res W w : u <> Pixels -> sane_size x -> 1 <= k -> 1 <= res -> k * res < two32 -> sizeInPixels u x (k * res) = Ok W -> sizeInPixels u x res = Ok w -> W <= 1048576 -> - 1 <= W - k * w <= k.
Proof.
  intros U Sx Hk Hr Hkr HW Hw BW. destruct (sane_repr _ Sx) as (r & Rr & Br). destruct (pixels_fine u x r (k * res) W U Rr Br ltac:(nia) HW) as (V & -> & FV). destruct (pixels_fine u x r res w U Rr Br ltac:(nia) Hw) as (v & -> & Fv).
  set (g := match u with Millimeters => _ | _ => _ end) in *. assert (Pg : (0 <= g)%R) by (unfold g; pose proof f25_4_val; destruct u; try lra; left; apply Rinv_0_lt_compat; lra). clearbody g.
  assert (Bk : (1 <= IZR k <= 4294967296)%R) by (split; apply IZR_le; unfold two32 in *; nia). assert (Bres : (1 <= IZR res)%R) by (apply IZR_le; lia). unfold fine in *. rewrite mult_IZR in FV. set (X := (r * IZR res * g)%R) in *. replace (r * (IZR k * IZR res) * g)%R with (IZR k * X)%R in FV by (unfold X; ring).
  assert (PX : (0 <= X)%R) by (unfold X; repeat apply Rmult_le_pos; lra). clearbody X. pose proof (Zfloor_lb V) as V1. pose proof (Zfloor_ub V) as V2. pose proof (Zfloor_lb v) as v1. pose proof (Zfloor_ub v) as v2. apply IZR_le in BW.
  set (ZV := Zfloor V) in *. set (Zv := Zfloor v) in *. clearbody ZV Zv. apply Rabs_le_inv in FV, Fv. set (K := IZR k) in *. assert (PK : (0 <= K * X)%R) by (apply Rmult_le_pos; lra).
  assert (K1 : (K * v <= K * X + K * X * (4 * eps53) + K * (3 * tiny))%R) by (unfold eps53, tiny in *; nra). assert (K2 : (K * X - K * X * (4 * eps53) - K * (3 * tiny) <= K * v)%R) by (unfold eps53, tiny in *; nra).
  assert (Kt : (K * (3 * tiny) <= / 1000)%R) by (unfold tiny; nra). assert (KX : (K * X <= 2097152)%R) by (unfold eps53, tiny in *; set (Y := (K * X)%R) in *; clearbody Y; lra).
  assert (K3 : (K * IZR Zv <= K * v)%R) by (apply Rmult_le_compat_l; lra). assert (K4 : (K * v <= K * IZR Zv + K)%R) by nra. set (Y := (K * X)%R) in *. clearbody Y. unfold eps53, tiny in *.
  assert (D1 : (- 2 < IZR (ZV - k * Zv))%R) by (rewrite minus_IZR, mult_IZR; fold K; lra). assert (D2 : (IZR (ZV - k * Zv) < IZR (k + 1))%R) by (rewrite minus_IZR, mult_IZR, plus_IZR; fold K; lra).
  apply lt_IZR in D1, D2. lia.
Qed.

(** ** C97 *)
(** the bound for one direction *)
Lemma centre_bound W k w z s sk a : 1 <= k -> - 1 <= W - k * w <= k -> (0 <= s)%R -> (1 <= a <= 1048576)%R -> (s * a <= IZR w + 52 / 10000 * a)%R -> w <= 1048576 -> (Rabs (sk - s * IZR k) <= eps53 * (s * IZR k))%R -> (Rabs (IZR z - (IZR w - s * a) / 2) <= 532 / 1000)%R ->
  centred (IZR W) (IZR (z * k)) (sk * a) (IZR k * (1065 / 1000) + Rabs (IZR (W - k * w))).
Proof.
  intros Hk HW Ps Ba Fi Bw E1 E2. unfold centred. assert (Bk : (1 <= IZR k)%R) by (apply IZR_le; lia). assert (Bw' : (IZR w <= 1048576)%R) by (apply IZR_le; lia). rewrite mult_IZR. set (K := IZR k) in *.
  replace (IZR z * K - (IZR W - (IZR z * K + sk * a)))%R with (K * (2 * (IZR z - (IZR w - s * a) / 2)) + (sk - s * K) * a - IZR (W - k * w))%R by (rewrite minus_IZR, mult_IZR; fold K; field).
  unfold Rminus at 1. eapply Rle_trans; [apply Rabs_triang|]. rewrite Rabs_Ropp. apply Rplus_le_compat_r. eapply Rle_trans; [apply Rabs_triang|]. rewrite !Rabs_mult. rewrite (Rabs_pos_eq K), (Rabs_pos_eq 2), (Rabs_pos_eq a) by lra.
  assert (T1 : (K * (2 * Rabs (IZR z - (IZR w - s * a) / 2)) <= K * (1064 / 1000))%R) by (apply Rmult_le_compat_l; lra).
  assert (T2 : (Rabs (sk - s * K) * a <= K * / 1000)%R).
  { eapply Rle_trans; [apply Rmult_le_compat_r; [lra|exact E1]|]. replace (eps53 * (s * K) * a)%R with (K * (eps53 * (s * a)))%R by ring. apply Rmult_le_compat_l; [lra|]. unfold eps53. lra. }
  lra.
Qed.
Lemma scaled_pos_k s k x : (0 <= s)%R -> 1 <= k -> (Rabs (x - s * IZR k) <= eps53 * (s * IZR k))%R -> (0 <= x)%R.
Proof. intros P K H. apply Rabs_le_inv in H. assert (1 <= IZR k)%R by (apply IZR_le; lia). assert (0 <= s * IZR k)%R by nra. unfold eps53 in H. lra. Qed.
(** Raster formats, of which one resolution is a multiple of the other (sizes in pixels: if
    they are equal): the page, turned if it is wider than high, lies in the middle of the
    bitmap: opposite margins differ by no more than 2.07 pixels of the lower resolution,
    1.07 if the resolutions agree.  Missing: other resolutions, see C97_uneven_refuted. *)
Theorem C97_raster_partial p wIn hIn a b W H k t : page_side wIn a -> page_side hIn b -> p_format p = PWG \/ p_format p = URF -> p_units p <> Pixels \/ p_hwResW p = p_hwResH p -> sane_size (p_sizeW p) -> sane_size (p_sizeH p) ->
  0 < p_hwResW p < 2 ^ 32 -> 0 < p_hwResH p < 2 ^ 32 -> p_hwResW p = k * p_hwResH p \/ p_hwResH p = k * p_hwResW p -> getPaperSizeWInPixels p = Ok W -> getPaperSizeHInPixels p = Ok H -> W < 1048576 -> H < 1048576 ->
  fixup_scale wIn hIn p = Ok t ->
  exists sx sy xo yo ph, repr (t_xScale t) sx /\ repr (t_yScale t) sy /\ repr (t_xOffset t) xo /\ repr (t_yOffset t) yo /\ repr (t_h t) ph /\ (t_rotate t = true <-> (b < a)%R) /\
  let u := (sx * Rmin a b)%R in let v := (sy * Rmax a b)%R in
  lies (to_device sx sy xo yo (t_rotate t) ph) (t_rotate t) a b xo yo u v /\
  (let low := IZR (Z.min (p_hwResW p) (p_hwResH p)) in let slack := if p_hwResW p =? p_hwResH p then (107 / 100)%R else (207 / 100)%R in
   centred (IZR W) xo u (slack * (IZR (p_hwResW p) / low)) /\ centred (IZR H) yo v (slack * (IZR (p_hwResH p) / low))).
Proof.
  intros Ha Hb Hf Hu SW SH RW RH Hk HW HH BW BH E. unfold getPaperSizeWInPixels, getPaperSizeHInPixels in *. assert (Hr : is_raster p = true) by (unfold is_raster; destruct Hf as [-> | ->]; reflexivity).
  set (m := Z.min (p_hwResW p) (p_hwResH p)) in *. set (kx := stretch p (p_hwResW p) (p_hwResH p)). set (ky := stretch p (p_hwResH p) (p_hwResW p)).
  assert (KM : p_hwResW p = kx * m /\ p_hwResH p = ky * m /\ 1 <= kx /\ 1 <= ky /\ 0 < m).
  { unfold kx, ky, stretch. rewrite Hr. cbn [andb]. destruct (Z.ltb_spec (p_hwResH p) (p_hwResW p)) as [L1|L1].
    - destruct (multiple _ _ k (conj (proj1 RH) L1) Hk) as [Hk' K1]. assert (D : p_hwResW p / p_hwResH p = k) by (rewrite Hk'; apply Z.div_mul; lia). rewrite D. replace (p_hwResW p <? p_hwResH p) with false by lia. unfold m. rewrite Z.min_r by lia. lia.
    - destruct (Z.ltb_spec (p_hwResW p) (p_hwResH p)) as [L2|L2].
      + destruct (multiple _ _ k (conj (proj1 RW) L2) ltac:(tauto)) as [Hk' K1]. assert (D : p_hwResH p / p_hwResW p = k) by (rewrite Hk'; apply Z.div_mul; lia). rewrite D. unfold m. rewrite Z.min_l by lia. lia.
      + unfold m. lia. }
  destruct KM as (KW & KH & K1 & K2 & Pm).
  assert (OKS : forall x, sane_size x -> exists w, sizeInPixels (p_units p) x m = Ok w /\ 0 <= w <= 2 ^ 56) by (intros x Sx; apply sizeInPixels_ok; [exact Sx|unfold two32; lia]).
  destruct (OKS _ SW) as (w & Hw & Bw). destruct (OKS _ SH) as (h & Hh & Bh).
  assert (TWO : forall x kk Wd wd, sane_size x -> 1 <= kk -> kk * m < 2 ^ 32 -> (p_hwResW p = p_hwResH p -> kk = 1) -> sizeInPixels (p_units p) x (kk * m) = Ok Wd -> sizeInPixels (p_units p) x m = Ok wd -> Wd <= 1048576 -> - 1 <= Wd - kk * wd <= kk /\ (kk = 1 -> Wd = kk * wd)).
  { intros x kk Wd wd Sx Hkk Hkm HE H1 H2 B. destruct (Z.eq_dec kk 1) as [->|N]; [rewrite Z.mul_1_l in *; rewrite H1 in H2; injection H2 as ->; lia|]. split; [|lia]. destruct Hu as [Hu|Hu]; [|specialize (HE Hu); lia].
    apply (two_sizes (p_units p) x kk m Wd wd); unfold two32; try assumption; lia. }
  assert (EQ1 : p_hwResW p = p_hwResH p -> kx = 1) by (intros Q; unfold kx, stretch; rewrite Q, Z.ltb_irrefl, andb_false_r; reflexivity). assert (EQ2 : p_hwResW p = p_hwResH p -> ky = 1) by (intros Q; unfold ky, stretch; rewrite Q, Z.ltb_irrefl, andb_false_r; reflexivity).
  rewrite KW in HW. rewrite KH in HH. destruct (TWO _ kx W w SW K1 ltac:(lia) EQ1 HW Hw ltac:(lia)) as [D1 D1']. destruct (TWO _ ky H h SH K2 ltac:(lia) EQ2 HH Hh ltac:(lia)) as [D2 D2'].
  assert (Sw : w <= 1048576) by nia. assert (Sh : h <= 1048576) by nia.
  assert (Ar : area p m w h). { split; [lia|]. split; [lia|]. destruct Hf as [-> | ->]; auto. }
  destruct (placed p wIn hIn a b w h t Ha Hb Ar Sw Sh RW RH E) as (s & sx & sy & zx & zy & Ps & FI & Rx & Ry & Ex & Ey & Ox & Oy & Nx & Ny & RT & Tw & Th). fold kx in Ex, Ox. fold ky in Ey, Oy.
  exists sx, sy, (IZR (zx * kx)), (IZR (zy * ky)), (Rmax a b). split; [exact Rx|]. split; [exact Ry|]. split; [exact Ox|]. split; [exact Oy|]. split; [apply Th|]. split; [exact RT|]. cbv zeta. destruct Ha as [_ Ba], Hb as [_ Bb].
  split; [apply lies_device; try lra; [eapply scaled_pos_k; [exact Ps|exact K1|exact Ex]|eapply scaled_pos_k; [exact Ps|exact K2|exact Ey]|exact RT]|].
  assert (Pm' : (0 < IZR m)%R) by (apply IZR_lt; exact Pm). assert (QW : (IZR (p_hwResW p) / IZR m = IZR kx)%R) by (rewrite KW, mult_IZR; field; lra). assert (QH : (IZR (p_hwResH p) / IZR m = IZR ky)%R) by (rewrite KH, mult_IZR; field; lra). rewrite QW, QH.
  assert (FIN : forall kk Wd wd x u, 1 <= kk -> - 1 <= Wd - kk * wd <= kk -> (p_hwResW p = p_hwResH p -> Wd = kk * wd) -> centred (IZR Wd) x u (IZR kk * (1065 / 1000) + Rabs (IZR (Wd - kk * wd))) -> centred (IZR Wd) x u ((if p_hwResW p =? p_hwResH p then 107 / 100 else 207 / 100) * IZR kk)).
  { intros kk Wd wd x u Hkk HD HE C. unfold centred in *. eapply Rle_trans; [exact C|]. assert (Bk : (1 <= IZR kk)%R) by (apply IZR_le; lia). destruct (Z.eqb_spec (p_hwResW p) (p_hwResH p)) as [Q|Q].
    - rewrite (HE Q), Z.sub_diag, Rabs_R0. lra.
    - assert (Rabs (IZR (Wd - kk * wd)) <= IZR kk)%R. { rewrite <- abs_IZR. apply IZR_le. lia. } lra. }
  split; [apply (FIN kx W w); [exact K1|exact D1|intros Q; apply D1', EQ1, Q|]|apply (FIN ky H h); [exact K2|exact D2|intros Q; apply D2', EQ2, Q|]].
  - apply (centre_bound W kx w zx s sx); try assumption; [unfold Rmin; destruct (Rle_dec a b); lra|apply FI].
  - apply (centre_bound H ky h zy s sy); try assumption; [unfold Rmax; destruct (Rle_dec a b); lra|apply FI].
Qed.
(** PDF and Postscript: the same in points, on paper of the size that the document says
    (sizeInPoints); the margins differ by no more than 2.07 points. *)
Theorem C97_points p wIn hIn a b wp hp t : page_side wIn a -> page_side hIn b -> p_format p <> PWG -> p_format p <> URF -> p_units p <> Pixels \/ p_hwResW p = p_hwResH p -> 0 < p_hwResW p < 2 ^ 32 -> 0 < p_hwResH p < 2 ^ 32 ->
  repr (getPaperSizeWInPoints p) wp -> repr (getPaperSizeHInPoints p) hp -> (0 <= wp < 1048576)%R -> (0 <= hp < 1048576)%R -> fixup_scale wIn hIn p = Ok t ->
  exists s xo yo ph, repr (t_xScale t) s /\ repr (t_yScale t) s /\ repr (t_xOffset t) xo /\ repr (t_yOffset t) yo /\ repr (t_h t) ph /\ (t_rotate t = true <-> (b < a)%R) /\
  lies (to_device s s xo yo (t_rotate t) ph) (t_rotate t) a b xo yo (s * Rmin a b) (s * Rmax a b) /\ centred wp xo (s * Rmin a b) (207 / 100) /\ centred hp yo (s * Rmax a b) (207 / 100).
Proof.
  intros Ha Hb F1 F2 Hu RW RH Rw Rh Bw Bh E. set (res := Z.min (p_hwResW p) (p_hwResH p)). unfold getPaperSizeWInPoints, getPaperSizeHInPoints in Rw, Rh.
  assert (PT : forall x r, (r = p_hwResW p \/ r = p_hwResH p) -> sizeInPoints (p_units p) x r = sizeInPoints (p_units p) x res).
  { intros x r Hrr. unfold sizeInPoints. destruct (p_units p) eqn:U; try reflexivity. destruct Hu as [Hu|Hu]; [congruence|]. replace r with res by (unfold res; lia). reflexivity. }
  rewrite PT in Rw, Rh by auto. assert (Hr : is_raster p = false) by (unfold is_raster; destruct (p_format p); congruence).
  assert (TR : forall x r, repr x r -> (0 <= r < 1048576)%R -> f_to_unsigned 64 x = Ok (Zfloor r) /\ 0 <= Zfloor r <= 1048576).
  { intros x r Hx Br. assert (B : 0 <= Zfloor r <= 1048576). { split; [apply Zfloor_lub; lra|]. apply le_IZR. eapply Rle_trans; [apply Zfloor_lb|lra]. } split; [|exact B]. unfold f_to_unsigned. rewrite (repr_trunc _ _ Hx), Ztrunc_floor by lra. replace (_ && _) with true by lia. reflexivity. }
  destruct (TR _ _ Rw Bw) as [T1 B1]. destruct (TR _ _ Rh Bh) as [T2 B2]. set (w := Zfloor wp) in *. set (h := Zfloor hp) in *.
  assert (Ar : area p res w h). { split; [lia|]. split; [lia|]. unfold res. destruct (p_format p); try congruence; auto. }
  destruct (placed p wIn hIn a b w h t Ha Hb Ar ltac:(lia) ltac:(lia) RW RH E) as (s & sx & sy & zx & zy & Ps & FI & Rx & Ry & Ex & Ey & Ox & Oy & Nx & Ny & RT & Tw & Th).
  unfold stretch in Ex, Ey, Ox, Oy. rewrite Hr in Ex, Ey, Ox, Oy. cbn [andb] in Ex, Ey, Ox, Oy.
  assert (SAME : t_xScale t = t_yScale t). { unfold fixup_scale in E. rewrite Hr in E. cbn [andb] in E. destruct (fltb hIn wIn); destruct (out_size _ _ (p_sizeH p) _); try discriminate; cbn [bind] in E; destruct (out_size _ _ (p_sizeW p) _); try discriminate; cbn [bind] in E; injection E as <-; reflexivity. }
  assert (sy = sx) by (pose proof (SF2R_repr _ _ Rx); pose proof (SF2R_repr _ _ Ry); congruence). subst sy.
  exists sx, (IZR (zx * 1)), (IZR (zy * 1)), (Rmax a b). split; [exact Rx|]. split; [exact Ry|]. split; [exact Ox|]. split; [exact Oy|]. split; [apply Th|]. split; [exact RT|]. destruct Ha as [_ Ba], Hb as [_ Bb].
  assert (Px : (0 <= sx)%R) by (eapply scaled_pos_k; [exact Ps| |exact Ex]; lia). split; [apply lies_device; try lra; exact RT|].
  assert (FIN : forall r z u, centred (IZR (Zfloor r)) z u (IZR 1 * (1065 / 1000) + Rabs (IZR (Zfloor r - 1 * Zfloor r))) -> centred r z u (207 / 100)).
  { intros r z u C. unfold centred in *. replace (Zfloor r - 1 * Zfloor r) with 0 in C by lia. rewrite Rabs_R0 in C. apply Rabs_le_inv in C. pose proof (Zfloor_lb r). pose proof (Zfloor_ub r). apply Rabs_le. lra. }
  split; apply FIN; [apply (centre_bound w 1 w zx s sx)|apply (centre_bound h 1 h zy s sx)]; try assumption; try lia; [unfold Rmin; destruct (Rle_dec a b); lra|apply FI|unfold Rmax; destruct (Rle_dec a b); lra|apply FI].
Qed.
(** At 300 x 200 dpi a letter page lies at the left edge of the paper: the right margin is more
    than 800 pixels wide. *)
Theorem C97_uneven_refuted : exists p t sx xo, fixup_scale (fofZ 612) (fofZ 792) p = Ok t /\ p_format p = PWG /\ p_hwResW p = 300 /\ p_hwResH p = 200 /\ getPaperSizeWInPixels p = Ok 2550 /\ getPaperSizeHInPixels p = Ok 2200 /\
  repr (t_xScale t) sx /\ repr (t_xOffset t) xo /\ (xo < 0)%R /\ ~ centred 2550 xo (sx * 612) 800.
Proof.
  exists uneven. eexists. exists (IZR 6260003482044989 * bpow radix2 (-51))%R, (IZR (-1)).
  assert (LIT : repr (fmk 6260003482044989 (-51)) (IZR 6260003482044989 * bpow radix2 (-51))).
  { rewrite <- (rnd_exact 6260003482044989 (-51)) by lia. apply repr_mk. change (bpow radix2 (-51)) with (/ 2251799813685248)%R. apply (big_bound _ 3); [lra|]. split; [lia|]. apply Z.le_trans with (2 ^ 2); [lia|apply Z.pow_le_mono_r; lia]. }
  split; [vm_compute; reflexivity|]. split; [reflexivity|]. split; [reflexivity|]. split; [reflexivity|]. split; [vm_compute; reflexivity|]. split; [vm_compute; reflexivity|]. cbn [t_xScale t_xOffset].
  split; [exact LIT|]. split; [apply (repr_ofZ (-1)); lia|]. split; [lra|]. unfold centred. change (bpow radix2 (-51)) with (/ 2251799813685248)%R. intros K. apply Rabs_le_inv in K. lra.
Qed.
Definition letter_pdf : params := {| p_format := PDF; p_colorMode := sRGB24; p_quality := DefaultQuality; p_antiAlias := false; p_paperSizeName := "na_letter_8.5x11in"; p_hwResW := 600; p_hwResH := 300; p_units := Inches;
  p_sizeW := fmk 17 (-1); p_sizeH := fofZ 11; p_duplexMode := OneSided; p_backXform := Normal; p_copies := 1; p_collated := true; p_pageRanges := []; p_mediaPosition := 0; p_mediaType := "" |}.
(** a landscape A4 page on letter paper *)
Example C97_example : page_side (fofZ 842) 842 /\ page_side (fofZ 595) 595 /\ sane_size (p_sizeW double_width) /\ sane_size (p_sizeH double_width) /\ getPaperSizeWInPixels double_width = Ok 5100 /\ getPaperSizeHInPixels double_width = Ok 3300 /\
  p_hwResW double_width = 2 * p_hwResH double_width /\ repr (getPaperSizeWInPoints letter_pdf) 612 /\ repr (getPaperSizeHInPoints letter_pdf) 792 /\
  (exists t, fixup_scale (fofZ 842) (fofZ 595) double_width = Ok t /\ t_rotate t = true /\ t_xOffset t = fofZ 218 /\ t_yOffset t = S754_zero true) /\
  (exists t, fixup_scale (fofZ 842) (fofZ 595) letter_pdf = Ok t /\ t_rotate t = true /\ t_xOffset t = fofZ 26).
Proof.
  split; [split; [apply (repr_ofZ 842); lia|lra]|]. split; [split; [apply (repr_ofZ 595); lia|lra]|]. split; [split; [reflexivity|vm_compute; discriminate]|]. split; [split; [reflexivity|vm_compute; discriminate]|].
  split; [vm_compute; reflexivity|]. split; [vm_compute; reflexivity|]. split; [reflexivity|].
  split; [replace (getPaperSizeWInPoints letter_pdf) with (fofZ 612) by (vm_compute; reflexivity); apply (repr_ofZ 612); lia|]. split; [replace (getPaperSizeHInPoints letter_pdf) with (fofZ 792) by (vm_compute; reflexivity); apply (repr_ofZ 792); lia|].
  split; eexists; (split; [vm_compute; reflexivity|]); repeat split; reflexivity.
Qed.
Print Assumptions C97_raster_partial.
Print Assumptions C97_points.
Print Assumptions C97_uneven_refuted.
