(** C61: sizes in inches. *)
From Verif Require Import Base BaseLemmas MapModel MapProofs FloatModel StringModel StringSpec ParamsModel PpmSpec PpmProofs ParamsSpec ParamsProofs FloatLemmas GeometryProofs
  ParamsProperties IppModel IppEncProofs SettingModel SettingProperties ConverterModel JobModel JobProofs JobSummary JobProperties ScaleProperties MediaSizeProperties.
From Coq Require Import Lia Reals Lra.
From Coq Require Import ZifyBool ZifyNat.
From Flocq Require Import Core.Core Relative IEEE754.BinarySingleNaN.
Local Open Scope Z_scope.

(** ** Specification *)
(** the length is [v]/10^k inches, below 10000 inches and with at most 15 decimals *)
Definition inches_text (t : string) (v : Z) (k : nat) : Prop := exists n d, decimal_text t n d k /\ (k <= 15)%nat /\ n < 10000 /\ v = n * 10 ^ Z.of_nat k + d.
(** [x] hundredths of a millimetre are v/10^k inches (an inch is 25.4 mm), up to 1.51
    hundredths below and 0.51 above *)
Definition near_inches (x v : Z) (k : nat) : Prop := 254000 * v - 151 * 10 ^ Z.of_nat k <= 100 * x * 10 ^ Z.of_nat k <= 254000 * v + 51 * 10 ^ Z.of_nat k.

(** ** Proofs *)
Lemma decimal_bounds t n d k : decimal_text t n d k -> 0 <= n /\ 0 <= d < 10 ^ Z.of_nat k.
Proof.
  intros [s n' H|a b n' d' Ha Hb].
  - pose proof (number_digits _ _ H) as (_ & _ & ?). cbn. lia.
  - pose proof (number_digits _ _ Ha) as (_ & _ & ?). pose proof (number_digits _ _ Hb) as (_ & _ & ?). pose proof (number_bound _ _ Hb) as B.
    rewrite bytes_of_string_length in B. lia.
Qed.
Lemma hundredths_of z x : 0 <= z <= 100000000 -> repr x (rnd (IZR z / 100)) -> hundredths x = Ok z \/ hundredths x = Ok (z - 1).
Proof.
  intros Hz Hr. assert (Bz : (0 <= IZR z <= 100000000)%R) by (split; apply IZR_le; lia).
  assert (Z3 : (IZR z / 100 = 0 \/ bpow radix2 (-1000) <= IZR z / 100)%R).
  { destruct (Z.eq_dec z 0) as [->|Nz]; [left; lra|right]. assert (1 <= IZR z)%R by (apply IZR_le; lia). apply Rle_trans with (bpow radix2 (-7)); [apply bpow_le; lia|]. change (bpow radix2 (-7)) with (/ 128)%R. lra. }
  destruct (rnd_rel0 (IZR z / 100) ltac:(lra) Z3) as [e [He Ee]]. apply Rabs_le_inv in He. set (r := rnd (IZR z / 100)) in *.
  assert (T : (- / 1048576 <= IZR z / 100 * e <= / 1048576)%R) by (clear - Bz He; split; nra).
  assert (Rm : repr (fmul x f100) (rnd (r * 100))).
  { apply repr_mul; [exact Hr|apply (repr_ofZ 100); lia|]. apply Rle_trans with (IZR (2 ^ 40)); [|rewrite <- (Rabs_pos_eq (IZR (2 ^ 40))) by (apply IZR_le; lia); apply bpow1000; apply Z.lt_le_incl; reflexivity].
    change (2 ^ 40) with 1099511627776. apply Rabs_le. lra. }
  destruct (Z.eq_dec z 0) as [E0|E0].
  - left. unfold hundredths. assert (r = 0)%R by (rewrite E0 in Ee; rewrite Ee; lra). rewrite H, Rmult_0_l in Rm. unfold rnd in Rm. rewrite round_0 in Rm by auto with typeclass_instances.
    rewrite (signed_trunc _ 0 Rm); rewrite (Ztrunc_IZR 0); [congruence|lia].
  - assert (Hv1 : (1 <= IZR z)%R) by (apply IZR_le; lia).
    assert (Hs : (bpow radix2 (-1000) <= r * 100)%R).
    { apply Rle_trans with (bpow radix2 (-1)); [apply bpow_le; lia|]. change (bpow radix2 (-1)) with (/ 2)%R. lra. }
    pose proof (rnd_rel (r * 100) (or_intror Hs)) as E. apply Rabs_le_inv in E. set (q := rnd (r * 100)) in *.
    assert (Q : (IZR z - 1 < q < IZR z + 1)%R) by lra.
    assert (TT : Ztrunc q = z \/ Ztrunc q = z - 1).
    { rewrite Ztrunc_floor by lra. destruct (Rle_or_lt (IZR z) q) as [G|G].
      - left. apply Zfloor_imp. rewrite plus_IZR. lra.
      - right. apply Zfloor_imp. rewrite plus_IZR, minus_IZR. lra. }
    unfold hundredths. rewrite (signed_trunc _ _ Rm) by lia. destruct TT as [-> | ->]; [left|right]; reflexivity.
Qed.
Lemma round2_hundredths x r : repr x r -> (0 <= r <= 300000)%R -> (r = 0 \/ bpow radix2 (-900) <= r)%R ->
  exists z, (Rabs (IZR z - 100 * r) <= / 2 + / 65536)%R /\ (hundredths (round2 x) = Ok z \/ hundredths (round2 x) = Ok (z - 1)).
Proof.
  intros Hx Hr Zr. assert (R1 : repr (fmul x f100) (rnd (r * 100))).
  { apply repr_mul; [exact Hx|apply (repr_ofZ 100); lia|]. apply (big_bound _ (2 ^ 40)); [|split; [lia|apply Z.pow_le_mono_r; lia]]. change (2 ^ 40) with 1099511627776. lra. }
  assert (Z1 : (r * 100 = 0 \/ bpow radix2 (-1000) <= r * 100)%R).
  { destruct Zr as [->|Zr]; [left; lra|right]. apply Rle_trans with (bpow radix2 (-900)); [apply bpow_le; lia|]. pose proof (bpow_gt_0 radix2 (-900)). lra. }
  destruct (rnd_rel0 (r * 100) ltac:(lra) Z1) as [e [He Ee]]. apply Rabs_le_inv in He. set (y := rnd (r * 100)) in *.
  assert (T1 : (- / 1048576 <= r * 100 * e <= / 1048576)%R) by (clear - Hr He; split; nra).
  assert (By : (0 <= y <= 30000001)%R) by (split; [|lra]; replace y with (r * 100 * (1 + e))%R by (rewrite Ee; ring); apply Rmult_le_pos; lra).
  assert (R2 := repr_round _ _ R1 ltac:(lra) ltac:(change (2 ^ 52) with 4503599627370496; lra)). set (z := Zfloor (y + / 2)) in *.
  pose proof (half y) as Hf. fold z in Hf. apply Rabs_le_inv in Hf.
  assert (Bz : 0 <= z <= 30000001). { split; [apply Zfloor_lub; lra|]. unfold z. apply Zfloor_half_le. lra. }
  exists z. split; [apply Rabs_le; lra|]. apply hundredths_of; [lia|]. unfold round2.
  assert (Bz' : (0 <= IZR z <= 30000001)%R) by (split; apply IZR_le; lia).
  apply repr_div; [exact R2|apply (repr_ofZ 100); lia|lra|]. apply (big_bound _ (2 ^ 40)); [|split; [lia|apply Z.pow_le_mono_r; lia]]. change (2 ^ 40) with 1099511627776. lra.
Qed.
Definition r25_4 : R := (IZR 3574732204225331 * bpow radix2 (-47))%R.
Lemma r25_4_near : (Rabs (r25_4 - 254 / 10) <= / 140737488355328)%R.
Proof. unfold r25_4. change (bpow radix2 (-47)) with (/ 140737488355328)%R. apply Rabs_le. lra. Qed.
Lemma inches_near t v k x : inches_text t v k -> from_string t = Ok x ->
  exists z, near_inches z v k /\ hundredths (round2 (fmul x f25_4)) = Ok z /\ (forall E, 2540 * v = E * 10 ^ Z.of_nat k -> z = E \/ z = E - 1).
Proof.
  intros [n [d [H [Hk [Hn Hv]]]]] Hx. destruct (decimal_bounds _ _ _ _ H) as [Pn Pd].
  assert (T : 1 <= 10 ^ Z.of_nat k <= 10 ^ 15) by (split; [apply (Z.pow_le_mono_r 10 0)|apply Z.pow_le_mono_r]; lia). set (p := 10 ^ Z.of_nat k) in *. change (10 ^ 15) with 1000000000000000 in T.
  destruct (from_string_repr t n d k H ltac:(lia) ltac:(lia) ltac:(lia)) as [x' [r [Hx' [Hr [He [Hi _]]]]]]. assert (x' = x) by congruence. subst x'. clear Hx Hx'. fold p in He. cbv zeta in He.
  assert (Hex : (IZR n + IZR d / IZR p = IZR v / IZR p)%R). { rewrite Hv, plus_IZR, mult_IZR. field. apply not_0_IZR. lia. }
  rewrite Hex in He. set (ex := (IZR v / IZR p)%R) in *. change (2 ^ 51) with 2251799813685248 in He. apply Rabs_le_inv in He.
  assert (Pp : (1 <= IZR p <= 1000000000000000)%R) by (split; apply IZR_le; lia).
  assert (Ip : (/ 1000000000000000 <= / IZR p <= 1)%R) by (split; [apply Rinv_le; lra|rewrite <- Rinv_1; apply Rinv_le; lra]).
  assert (Bv : 0 <= v < 10000 * p) by nia. assert (Bv' : (0 <= IZR v <= 10000 * IZR p)%R) by (rewrite <- mult_IZR; split; apply IZR_le; lia).
  assert (Bex : (0 <= ex <= 10000)%R).
  { unfold ex. split; [apply Rmult_le_pos; lra|]. apply Rmult_le_reg_r with (IZR p); [lra|]. unfold Rdiv. rewrite Rmult_assoc, Rinv_l, Rmult_1_r by lra. lra. }
  assert (Zex : (ex = 0 \/ / 1000000000000000 <= ex)%R).
  { destruct (Z.eq_dec v 0) as [E|E]; [left; unfold ex; rewrite E; unfold Rdiv; lra|right]. assert (1 <= IZR v)%R by (apply IZR_le; lia). unfold ex, Rdiv. nra. }
  pose proof r25_4_near as H25. apply Rabs_le_inv in H25.
  assert (Br : (0 <= r <= 10001)%R) by lra.
  assert (Zr : (r = 0 \/ / 2000000000000000 <= r)%R) by lra.
  assert (Rm : repr (fmul x f25_4) (rnd (r * r25_4))).
  { apply repr_mul; [exact Hr|apply repr_f25_4|]. fold r25_4. apply (big_bound _ (2 ^ 40)); [|split; [lia|apply Z.pow_le_mono_r; lia]]. change (2 ^ 40) with 1099511627776. clear - Br H25. split; nra. }
  assert (B2 : (0 <= r * r25_4 <= 260000)%R) by (clear - Br H25; split; nra).
  assert (Small : (bpow radix2 (-900) <= / 4000000000000000)%R).
  { apply Rle_trans with (bpow radix2 (-60)); [apply bpow_le; lia|]. change (bpow radix2 (-60)) with (/ 1152921504606846976)%R. lra. }
  assert (Zm : (r * r25_4 = 0 \/ / 2000000000000000 <= r * r25_4)%R). { destruct Zr as [Z0|Z0]; [left; rewrite Z0; lra|right]. clear - Z0 H25. nra. }
  assert (Zm' : (r * r25_4 = 0 \/ bpow radix2 (-1000) <= r * r25_4)%R).
  { destruct Zm as [Z0|Z0]; [left; exact Z0|right]. assert (bpow radix2 (-1000) <= bpow radix2 (-900))%R by (apply bpow_le; lia). lra. }
  destruct (rnd_rel0 (r * r25_4) ltac:(lra) Zm') as [e [Hee Ee]]. apply Rabs_le_inv in Hee. set (q := rnd (r * r25_4)) in *.
  assert (T1 : (- / 16777216 <= r * r25_4 * e <= / 16777216)%R) by (clear - B2 Hee; split; nra).
  assert (Bq : (0 <= q <= 300000)%R) by (split; [|lra]; replace q with (r * r25_4 * (1 + e))%R by (rewrite Ee; ring); apply Rmult_le_pos; lra).
  assert (Zq : (q = 0 \/ bpow radix2 (-900) <= q)%R).
  { destruct Zm as [Z0|Z0]; [left; rewrite Ee, Z0; lra|right]. replace q with (r * r25_4 * (1 + e))%R by (rewrite Ee; ring). clear - Z0 Hee Small. assert (/ 2 <= 1 + e)%R by lra. assert (/ 2000000000000000 * / 2 <= r * r25_4 * (1 + e))%R by (apply Rmult_le_compat; lra). lra. }
  destruct (round2_hundredths _ _ Rm Bq Zq) as [z [Hz Hh]]. apply Rabs_le_inv in Hz.
  assert (Near : (Rabs (q - 254 / 10 * ex) <= / 65536)%R).
  { apply Rabs_le. assert (A : (- / 1048576 <= r * r25_4 - 254 / 10 * ex <= / 1048576)%R).
    { replace (r * r25_4 - 254 / 10 * ex)%R with (r * (r25_4 - 254 / 10) + 254 / 10 * (r - ex))%R by ring. clear - Br H25 He Bex.
      assert (- / 4194304 <= r * (r25_4 - 254 / 10) <= / 4194304)%R by (split; nra). lra. }
    lra. }
  apply Rabs_le_inv in Near.
  assert (HZ : (- 51 / 100 <= IZR z - 2540 * ex <= 51 / 100)%R) by lra.
  assert (Ep : (ex * IZR p = IZR v)%R) by (unfold ex; field; lra).
  assert (N : - (51 * p) <= 100 * z * p - 254000 * v <= 51 * p).
  { split; apply le_IZR; rewrite ?opp_IZR, ?minus_IZR, ?mult_IZR, <- Ep; clear - HZ Pp; nra. }
  assert (X : forall E, 2540 * v = E * p -> z = E). { intros E HE. nia. }
  destruct Hh as [Hh|Hh]; eexists; (split; [|split; [exact Hh|]]).
  - unfold near_inches. fold p. lia.
  - intros E HE. left. apply X. exact HE.
  - unfold near_inches. fold p. lia.
  - intros E HE. right. rewrite (X E HE). reflexivity.
Qed.
Lemma sent_inches j inp pages j' : wf_job (j_jobAttrs j) -> finalize j inp pages = Ok (None, j') ->
  forall tag s w h, map_get "media" (j_jobAttrs j) = Some (tag, VStr s) -> map_get "media" (j_jobAttrs j') = None -> size_name s w h true ->
  exists x y fw fh, from_string w = Ok fw /\ from_string h = Ok fh /\ hundredths (round2 (fmul fw f25_4)) = Ok x /\ hundredths (round2 (fmul fh f25_4)) = Ok y /\ size_sent j' x y.
Proof.
  intros Hm H tag s w h Hmed Hgone Hs. apply finalize_summary in H; [|exact Hm].
  destruct (sm_paper _ _ _ _ H) as [p0 [P1 [P2 [P3 [P4 P5]]]]]. rewrite value_effective in P1. rewrite (lookup_top s_media _ eq_refl) in P1. change (s_name s_media) with "media"%string in P1. rewrite Hmed in P1. cbn [effective snd v_str] in P1.
  pose proof (paper_of _ _ _ _ _ _ Hs P1) as [F1 [F2 F3]].
  pose proof (sm_media _ _ _ _ H) as M. rewrite !(lookup_top s_media _ eq_refl) in M. change (s_name s_media) with "media"%string in M. rewrite Hmed, Hgone in M.
  destruct M as [M|[_ [x [y [Hx [Hy M]]]]]]; [discriminate|]. rewrite (lookup_member s_mediaSize _ eq_refl) in M. exists x, y, (p_sizeW p0), (p_sizeH p0).
  split; [exact F1|]. split; [exact F2|]. unfold getPaperSizeWInMillimeters, getPaperSizeHInMillimeters in *. rewrite P4, F3 in Hx, Hy. cbn [sizeInMillimeters] in Hx, Hy. rewrite P2 in Hx. rewrite P3 in Hy.
  split; [exact Hx|]. split; [exact Hy|]. exact M.
Qed.
(** Sizes in inches are sent within 1.51 hundredths of a millimetre below and 0.51 above;
    those that are a whole number of hundredths, such as those of the standard sizes, are
    sent exactly or one too small.  (Missing: always to the nearest hundredth; see
    C61_letter_refuted.) *)
Theorem C61_inches_partial : forall j inp pages j', wf_job (j_jobAttrs j) -> finalize j inp pages = Ok (None, j') ->
  forall tag s w h v k u l, map_get "media" (j_jobAttrs j) = Some (tag, VStr s) -> map_get "media" (j_jobAttrs j') = None ->
  size_name_text s w h true -> inches_text w v k -> inches_text h u l ->
  exists x y, size_sent j' x y /\ near_inches x v k /\ near_inches y u l /\
    (forall E, 2540 * v = E * 10 ^ Z.of_nat k -> E - 1 <= x <= E) /\ (forall E, 2540 * u = E * 10 ^ Z.of_nat l -> E - 1 <= y <= E).
Proof.
  intros j inp pages j' Hm H tag s w h v k u l Hmed Hgone Hs Hw Hh.
  assert (Hsn : size_name s w h true).
  { split; [exact Hs|]. destruct Hw as [n [d [Hw _]]], Hh as [n' [d' [Hh _]]]. split; [exists n, d, k; exact Hw|exists n', d', l; exact Hh]. }
  destruct (sent_inches j inp pages j' Hm H tag s w h Hmed Hgone Hsn) as [x [y [fw [fh [F1 [F2 [X [Y S]]]]]]]]. exists x, y. split; [exact S|].
  destruct (inches_near w v k fw Hw F1) as [x' [A1 [A2 A3]]]. destruct (inches_near h u l fh Hh F2) as [y' [B1 [B2 B3]]]. assert (x' = x) by congruence. assert (y' = y) by congruence. subst x' y'.
  split; [exact A1|]. split; [exact B1|]. split; intros E HE; [destruct (A3 E HE)|destruct (B3 E HE)]; lia.
Qed.
Example C61_inches_example : (exists j', finalize example_job "application/pdf" 10 = Ok (None, j') /\ map_get "media" (j_jobAttrs j') = None /\ size_sent j' 21590 27939) /\
  map_get "media" (j_jobAttrs example_job) = Some (kw "na_letter_8.5x11in") /\ size_name_text "na_letter_8.5x11in" "8.5" "11" true /\ inches_text "8.5" 85 1 /\ inches_text "11" 11 0 /\ 2540 * 85 = 21590 * 10 ^ Z.of_nat 1 /\
  2540 * 11 = 27940 * 10 ^ Z.of_nat 0.
Proof.
  split; [exists (result (finalize example_job mPDF 10)); split; [vm_compute; reflexivity|]; split; vm_compute; reflexivity|]. split; [vm_compute; reflexivity|].
  split. { exists "na_letter"%string, "in"%string. split; [discriminate|]. split; [|split; [constructor|reflexivity]]. cbn. unfold name_byte. intros c H.
    repeat (destruct H as [<-|H]; [vm_compute; first [right; left; split; discriminate|right; right; left; reflexivity]|]). destruct H. }
  split. { exists 8, 5. split; [apply (decimal_frac "8" "5"); [apply (number_one 8)|apply (number_one 5)]|]; cbn; lia. }
  split. { exists 11, 0. split; [apply decimal_int; apply (number_more [bZ 49] 1 1); [apply (number_one 1)|]|]; cbn; lia. }
  split; reflexivity.
Qed.
Print Assumptions C61_inches_partial.
