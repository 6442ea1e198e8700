(** C61: the media size put into media-col. *)
From Verif Require Import Base BaseLemmas MapModel MapProofs FloatModel StringModel StringSpec ParamsModel PpmSpec PpmProofs ParamsSpec ParamsProofs FloatLemmas
  ParamsProperties IppModel IppEncProofs SettingModel SettingProperties ConverterModel JobModel JobProofs JobSummary JobProperties.
From Coq Require Import Lia Reals Lra.
From Coq Require Import ZifyBool ZifyNat.
From Flocq Require Import Core.Core Relative IEEE754.BinarySingleNaN.
Local Open Scope Z_scope.
Ltac Zify.zify_post_hook ::= Z.div_mod_to_equations.

(** ** Specification *)
(** media-col's media-size has these dimensions *)
Definition size_sent (j : job) (x y : Z) : Prop :=
  member "media-size" (j_jobAttrs j) = Some (tBeginCollection, VColl [("x-dimension", (tInteger, VInt x)); ("y-dimension", (tInteger, VInt y))]%string).
(** the length is v hundredths of a millimetre *)
Definition in_hundredths (t : string) (v : Z) : Prop := exists n d k, decimal_text t n d k /\ (k <= 2)%nat /\ v = 100 * n + d * 10 ^ Z.of_nat (2 - k).

(** ** Proofs *)
Lemma signed_trunc x r : repr x r -> - 2147483648 <= Ztrunc r < 2147483648 -> f_to_signed 32 x = Ok (Ztrunc r).
Proof.
  intros H Hr. unfold f_to_signed. rewrite (repr_trunc x r H). change (2 ^ (32 - 1)) with 2147483648.
  replace (_ && _)%bool with true by lia. reflexivity.
Qed.
Lemma from_string_repr t n d k : decimal_text t n d k -> n < 2 ^ 53 -> d < 2 ^ 53 -> (k <= 22)%nat -> exists x v, from_string t = Ok x /\ repr x v /\
  (let exact := IZR n + IZR d / IZR (10 ^ Z.of_nat k) in Rabs (v - exact) <= exact * / IZR (2 ^ 51))%R /\ (k = 0%nat -> v = IZR n) /\ 0 <= n /\ 0 <= d.
Proof.
  intros H Hn Hd Hk. rewrite (from_string_spec _ _ _ _ H). unfold two64. destruct (Z.ltb_spec n 18446744073709551616); [|lia]. destruct (Z.ltb_spec d 18446744073709551616); [|lia]. cbn [andb].
  assert (P : 0 <= n /\ 0 <= d).
  { destruct H as [s n H|a b n d Ha Hb].
    - pose proof (number_digits _ _ H) as (_ & _ & ?). lia.
    - pose proof (number_digits _ _ Ha) as (_ & _ & ?). pose proof (number_digits _ _ Hb) as (_ & _ & ?). lia. }
  destruct (Nat.eqb_spec k 0) as [->|Hk0].
  - exists (fofZ n), (IZR n). split; [reflexivity|]. split; [apply repr_ofZ; lia|].
    assert (Ed : d = 0). { inversion H; subst; [reflexivity|]. match goal with Hb : digits_of ?b d |- _ => destruct b; [destruct (digits_all _ _ Hb); congruence|discriminate] end. }
    subst d. split; [|split; [reflexivity|exact P]]. cbv zeta. change (10 ^ Z.of_nat 0) with 1. unfold Rdiv. rewrite Rmult_0_l, Rplus_0_r. unfold Rminus. rewrite Rplus_opp_r, Rabs_R0.
    apply Rmult_le_pos; [apply IZR_le; lia|]. left. apply Rinv_0_lt_compat. apply IZR_lt. lia.
  - destruct (decimal_value n d k) as (v & Hv & He); [unfold two64; lia|unfold two64; lia|lia|]. exists (fadd (fofZ n) (fdiv (fofZ d) (fpow10 k))), v.
    split; [reflexivity|]. split; [exact Hv|]. split; [exact He|]. split; [intros; lia|exact P].
Qed.
Lemma hundredths_near t v x : in_hundredths t v -> v < 2 ^ 31 -> from_string t = Ok x -> hundredths x = Ok v \/ hundredths x = Ok (v - 1).
Proof.
  intros [n [d [k [H [Hk Hv]]]]] Hlt Hx.
  assert (P : 0 <= n /\ 0 <= d).
  { destruct H as [s n H|a b n d Ha Hb].
    - pose proof (number_digits _ _ H) as (_ & _ & ?). lia.
    - pose proof (number_digits _ _ Ha) as (_ & _ & ?). pose proof (number_digits _ _ Hb) as (_ & _ & ?). lia. }
  assert (Hp : 1 <= 10 ^ Z.of_nat (2 - k)) by (apply (Z.pow_le_mono_r 10 0); lia).
  assert (Hd : d <= v) by nia. assert (Hn : 100 * n <= v) by nia.
  destruct (from_string_repr t n d k H ltac:(lia) ltac:(lia) ltac:(lia)) as [x' [r [Hx' [Hr [He [Hi _]]]]]]. assert (x' = x) by congruence. subst x'. clear Hx Hx'. cbv zeta in He.
  assert (Hex : (IZR n + IZR d / IZR (10 ^ Z.of_nat k) = IZR v / 100)%R).
  { rewrite Hv, plus_IZR, !mult_IZR. assert (k = 0 \/ k = 1 \/ k = 2)%nat as [->|[->| ->]] by lia.
    - change (10 ^ Z.of_nat 0) with 1. change (10 ^ Z.of_nat (2 - 0)) with 100. field.
    - change (10 ^ Z.of_nat 1) with 10. change (10 ^ Z.of_nat (2 - 1)) with 10. field.
    - change (10 ^ Z.of_nat 2) with 100. change (10 ^ Z.of_nat (2 - 2)) with 1. field. }
  rewrite Hex in He. assert (Hv0 : 0 <= v) by lia.
  assert (Bv : (0 <= IZR v <= 2147483647)%R) by (split; apply IZR_le; lia).
  change (2 ^ 51) with 2251799813685248 in He. apply Rabs_le_inv in He.
  assert (Rm : repr (fmul x f100) (rnd (r * 100))).
  { apply repr_mul; [exact Hr|apply (repr_ofZ 100); lia|]. apply Rle_trans with (IZR (2 ^ 40)); [|rewrite <- (Rabs_pos_eq (IZR (2 ^ 40))) by (apply IZR_le; lia); apply bpow1000; apply Z.lt_le_incl; reflexivity].
    change (2 ^ 40) with 1099511627776. apply Rabs_le. lra. }
  destruct (Z.eq_dec v 0) as [E0|E0].
  - left. unfold hundredths. assert (r = 0)%R by (rewrite E0 in He; lra). subst r. rewrite Rmult_0_l in Rm. unfold rnd in Rm. rewrite round_0 in Rm by auto with typeclass_instances.
    rewrite (signed_trunc _ 0 Rm); rewrite (Ztrunc_IZR 0); [congruence|lia].
  - assert (Hv1 : (1 <= IZR v)%R) by (apply IZR_le; lia).
    assert (Hs : (bpow radix2 (-1000) <= r * 100)%R).
    { apply Rle_trans with (bpow radix2 (-1)); [apply bpow_le; lia|]. change (bpow radix2 (-1)) with (/ 2)%R. lra. }
    pose proof (rnd_rel (r * 100) (or_intror Hs)) as E. apply Rabs_le_inv in E. set (q := rnd (r * 100)) in *.
    assert (Q : (IZR v - 1 < q < IZR v + 1)%R) by lra.
    assert (T : Ztrunc q = v \/ Ztrunc q = v - 1).
    { rewrite Ztrunc_floor by lra. destruct (Rle_or_lt (IZR v) q) as [G|G].
      - left. apply Zfloor_imp. rewrite plus_IZR. lra.
      - right. apply Zfloor_imp. rewrite plus_IZR, minus_IZR. lra. }
    unfold hundredths. rewrite (signed_trunc _ _ Rm) by lia. destruct T as [-> | ->]; [left|right]; reflexivity.
Qed.
Lemma hundredths_whole t n x : digits_of t n -> 100 * n < 2 ^ 31 -> from_string t = Ok x -> hundredths x = Ok (100 * n).
Proof.
  intros H Hlt Hx. destruct (from_string_repr t n 0 0 (decimal_int t n H) ltac:(lia) ltac:(lia) ltac:(lia)) as [x' [r [Hx' [Hr [_ [Hi [P _]]]]]]]. assert (x' = x) by congruence. subst x'.
  rewrite (Hi eq_refl) in Hr. assert (Rm : repr (fmul x f100) (rnd (IZR n * 100))).
  { apply repr_mul; [exact Hr|apply (repr_ofZ 100); lia|]. rewrite <- mult_IZR. apply bpow1000. apply Z.le_trans with (2 ^ 31); [lia|apply Z.pow_le_mono_r; lia]. }
  rewrite <- mult_IZR in Rm. rewrite rnd_IZR in Rm by lia. unfold hundredths. rewrite (signed_trunc _ _ Rm); rewrite Ztrunc_IZR; [f_equal; lia|lia].
Qed.

Lemma paper_of p s w h inches p' : size_name s w h inches -> setPaperSize p s = Ok (true, p') ->
  from_string w = Ok (p_sizeW p') /\ from_string h = Ok (p_sizeH p') /\ p_units p' = if inches then Inches else Millimeters.
Proof.
  intros [Hs [Hw Hh]] H. assert (E : match_paper_size s = Some (w, h, unit_string inches)) by (apply match_paper_size_spec; exists inches; split; [reflexivity|]; split; [exact Hs|]; split; assumption).
  unfold setPaperSize in H. rewrite E in H. bind_inv H as fw Fw K. bind_inv K as fh Fh K.
  assert (p' = with_paper p s fw fh (if String.eqb (unit_string inches) "in" then Inches else Millimeters)) by congruence. subst p'. cbn [with_paper p_sizeW p_sizeH p_units].
  split; [exact Fw|]. split; [exact Fh|]. destruct inches; reflexivity.
Qed.
Lemma sent_size j inp pages j' : wf_job (j_jobAttrs j) -> finalize j inp pages = Ok (None, j') ->
  forall tag s w h, map_get "media" (j_jobAttrs j) = Some (tag, VStr s) -> map_get "media" (j_jobAttrs j') = None -> size_name s w h false ->
  exists x y fw fh, from_string w = Ok fw /\ from_string h = Ok fh /\ hundredths fw = Ok x /\ hundredths fh = Ok y /\ size_sent j' x y.
Proof.
  intros Hm H tag s w h Hmed Hgone Hs. apply finalize_summary in H; [|exact Hm].
  destruct (sm_paper _ _ _ _ H) as [p0 [P1 [P2 [P3 [P4 P5]]]]]. rewrite value_effective in P1. rewrite (lookup_top s_media _ eq_refl) in P1. change (s_name s_media) with "media"%string in P1. rewrite Hmed in P1. cbn [effective snd v_str] in P1.
  pose proof (paper_of _ _ _ _ _ _ Hs P1) as [F1 [F2 F3]].
  pose proof (sm_media _ _ _ _ H) as M. rewrite !(lookup_top s_media _ eq_refl) in M. change (s_name s_media) with "media"%string in M. rewrite Hmed, Hgone in M.
  destruct M as [M|[_ [x [y [Hx [Hy M]]]]]]; [discriminate|]. rewrite (lookup_member s_mediaSize _ eq_refl) in M. exists x, y, (p_sizeW p0), (p_sizeH p0).
  split; [exact F1|]. split; [exact F2|]. unfold getPaperSizeWInMillimeters, getPaperSizeHInMillimeters in *. rewrite P4, F3 in Hx, Hy. cbn [sizeInMillimeters] in Hx, Hy. rewrite P2 in Hx. rewrite P3 in Hy.
  split; [exact Hx|]. split; [exact Hy|]. exact M.
Qed.
(** When the paper size moves into media-col, whole millimetres are sent exactly... *)
Theorem C61_whole_millimetres : forall j inp pages j', wf_job (j_jobAttrs j) -> finalize j inp pages = Ok (None, j') ->
  forall tag s w h n m, map_get "media" (j_jobAttrs j) = Some (tag, VStr s) -> map_get "media" (j_jobAttrs j') = None ->
  size_name_text s w h false -> digits_of w n -> digits_of h m -> 100 * n < 2 ^ 31 -> 100 * m < 2 ^ 31 -> size_sent j' (100 * n) (100 * m).
Proof.
  intros j inp pages j' Hm H tag s w h n m Hmed Hgone Hs Hw Hh Bn Bm.
  assert (Hsn : size_name s w h false) by (split; [exact Hs|split; [exists n, 0, 0%nat; constructor; exact Hw|exists m, 0, 0%nat; constructor; exact Hh]]).
  destruct (sent_size j inp pages j' Hm H tag s w h Hmed Hgone Hsn) as [x [y [fw [fh [F1 [F2 [X [Y S]]]]]]]].
  rewrite (hundredths_whole w n fw Hw Bn F1) in X. rewrite (hundredths_whole h m fh Hh Bm F2) in Y. injection X as <-. injection Y as <-. exact S.
Qed.
(** ... and hundredths of millimetres exactly or one too small.  Missing: always exactly,
    and sizes in inches. *)
Theorem C61_within_one_partial : forall j inp pages j', wf_job (j_jobAttrs j) -> finalize j inp pages = Ok (None, j') ->
  forall tag s w h v u, map_get "media" (j_jobAttrs j) = Some (tag, VStr s) -> map_get "media" (j_jobAttrs j') = None ->
  size_name_text s w h false -> in_hundredths w v -> in_hundredths h u -> v < 2 ^ 31 -> u < 2 ^ 31 ->
  exists x y, size_sent j' x y /\ v - 1 <= x <= v /\ u - 1 <= y <= u.
Proof.
  intros j inp pages j' Hm H tag s w h v u Hmed Hgone Hs Hw Hh Bn Bm.
  assert (Hsn : size_name s w h false).
  { split; [exact Hs|]. destruct Hw as [n [d [k [Hw _]]]], Hh as [n' [d' [k' [Hh _]]]]. split; [exists n, d, k; exact Hw|exists n', d', k'; exact Hh]. }
  destruct (sent_size j inp pages j' Hm H tag s w h Hmed Hgone Hsn) as [x [y [fw [fh [F1 [F2 [X [Y S]]]]]]]]. exists x, y. split; [exact S|]. split.
  - destruct (hundredths_near w v fw Hw Bn F1) as [K|K]; rewrite K in X; injection X as <-; lia.
  - destruct (hundredths_near h u fh Hh Bm F2) as [K|K]; rewrite K in Y; injection Y as <-; lia.
Qed.
(** Not always exactly: US letter's height is sent as 279.39 mm, whether the name is in
    inches or in millimetres. *)
Definition letter_job := with_job (new_job example_printer []) (map_set "media" (kw "custom_letter_215.9x279.4mm") example_attrs).
Theorem C61_letter_refuted : (exists j', finalize example_job "application/pdf" 10 = Ok (None, j') /\ map_get "media" (j_jobAttrs example_job) = Some (kw "na_letter_8.5x11in") /\ size_sent j' 21590 27939) /\
  exists j', finalize letter_job "application/pdf" 10 = Ok (None, j') /\ map_get "media" (j_jobAttrs letter_job) = Some (kw "custom_letter_215.9x279.4mm") /\ size_sent j' 21590 27939.
Proof.
  split.
  - exists (result (finalize example_job mPDF 10)). split; [vm_compute; reflexivity|]. split; vm_compute; reflexivity.
  - exists (result (finalize letter_job mPDF 10)). split; [vm_compute; reflexivity|]. split; vm_compute; reflexivity.
Qed.
Definition a4_job := with_job (new_job example_printer []) (map_set "media" (kw "iso_a4_210x297mm") example_attrs).
Example C61_example : let j' := result (finalize a4_job mPDF 10) in succeeds (finalize a4_job mPDF 10) = true /\ map_get "media" (j_jobAttrs j') = None /\ size_sent j' 21000 29700.
Proof. cbv zeta. split; [vm_compute; reflexivity|]. split; vm_compute; reflexivity. Qed.
Print Assumptions C61_whole_millimetres.
Print Assumptions C61_within_one_partial.
Print Assumptions C61_letter_refuted.
