(** Dates can be told from their texts as long as the offsets have two digits. *)
From Verif Require Import Base BaseLemmas MapModel StringModel IppModel JsonModel IppSpec IppEncProofs PpmSpec PpmProofs JsonSpec SettingsModel SettingsProofs DumpProofs WarnModel DecodeModel DecodeProofs.
From Coq Require Import Lia ZifyBool ZifyNat.
Local Open Scope Z_scope.

(** offsets from UTC as clocks have them (RFC 2579: at most 13 hours and 59 minutes) have
    at most two digits *)
Fixpoint short_offsets (v : ipp_value) : bool :=
  match v with
  | VDate d => (d_utcHOffset d <? 100) && (d_utcMOffset d <? 100)
  | VSet l => forallb short_offsets l
  | VColl m => forallb (fun e => short_offsets (snd (snd e))) m
  | _ => true
  end.

Lemma read_zeros n r : read_digits 0 (bytes_of_string (zeros n) ++ r) = read_digits 0 r.
Proof. induction n as [|n IH]; [reflexivity|]. exact IH. Qed.
Lemma read_padded w z r : 0 <= z -> no_digit r -> read_digits 0 (bytes_of_string (padded w z) ++ r) = (z, r).
Proof. intros H N. unfold padded. rewrite bytes_append, <- app_assoc, read_zeros. apply read_dec; assumption. Qed.
Lemma field w z z' r r' : 0 <= z -> 0 <= z' -> no_digit r -> no_digit r' ->
  bytes_of_string (padded w z) ++ r = bytes_of_string (padded w z') ++ r' -> z = z' /\ r = r'.
Proof. intros H H' N N' E. apply (f_equal (read_digits 0)) in E. rewrite !read_padded in E by assumption. apply pair_equal_spec in E. exact E. Qed.
Lemma two_digits z : 0 <= z < 100 -> length (bytes_of_string (padded 2 z)) = 2%nat.
Proof.
  intros H. assert (A : forallb (fun n => Nat.eqb (length (bytes_of_string (padded 2 (Z.of_nat n)))) 2) (seq 0 100) = true) by (vm_compute; reflexivity).
  rewrite forallb_forall in A. specialize (A (Z.to_nat z)). rewrite Z2Nat.id in A by lia. apply Nat.eqb_eq. apply A. apply in_seq. lia.
Qed.
Lemma app_len_inj (a b c d : list byte) : length a = length b -> a ++ c = b ++ d -> a = b /\ c = d.
Proof. revert b. induction a as [|x a IH]; intros [|y b] L E; try discriminate L; [split; [reflexivity|exact E]|]. injection E as -> E. injection L as L. destruct (IH _ L E). split; congruence. Qed.
Ltac sep E := apply field in E; [|lia|lia|cbn; lia|cbn; lia]; let Q := fresh "Q" in destruct E as [Q E]; cbn [bytes_of_string app] in E.
Lemma date_str_inj d d' : date_ok d = true -> date_ok d' = true -> short_offsets (VDate d) = true -> short_offsets (VDate d') = true -> date_str d = date_str d' -> d = d'.
Proof.
  intros R R' O O' E. apply (f_equal bytes_of_string) in E. unfold date_str in E. cbn [fold_right] in E. rewrite !bytes_append in E.
  destruct d as [y mo da h mi s ds pm uh um], d' as [y' mo' da' h' mi' s' ds' pm' uh' um'].
  unfold date_ok, u16_ok, u8_ok in R, R'. cbn in R, R', O, O'. cbn [d_year d_month d_day d_hour d_minutes d_seconds d_deciSeconds d_plusMinus d_utcHOffset d_utcMOffset] in E.
  sep E. apply (f_equal (@tl byte)) in E. cbn [tl] in E. sep E. apply (f_equal (@tl byte)) in E. cbn [tl] in E. sep E. apply (f_equal (@tl byte)) in E. cbn [tl] in E.
  sep E. apply (f_equal (@tl byte)) in E. cbn [tl] in E. sep E. apply (f_equal (@tl byte)) in E. cbn [tl] in E. sep E. apply (f_equal (@tl byte)) in E. cbn [tl] in E.
  sep E. do 4 apply (f_equal (@tl byte)) in E. cbn [tl] in E.
  assert (P : bZ pm = bZ pm'). { apply (f_equal (hd (bZ 0))) in E. exact E. } apply (f_equal Zb) in P. rewrite !Zb_bZ_small in P by lia. apply (f_equal (@tl byte)) in E. cbn [tl] in E.
  apply app_len_inj in E; [|rewrite !two_digits by lia; reflexivity]. destruct E as [E1 E2]. rewrite !app_nil_r in E2.
  assert (U : uh = uh'). { apply (field 2 uh uh' [] []); [lia|lia|exact I|exact I|]. rewrite !app_nil_r. exact E1. }
  assert (V : um = um'). { apply (field 2 um um' [] []); [lia|lia|exact I|exact I|]. rewrite !app_nil_r. exact E2. }
  f_equal; try assumption. lia.
Qed.
(** Values that fit their tags *)
Lemma typed_json_inj v : forall t a b w, wf_val a t v = true -> wf_val b t w = true -> short_offsets v = true -> short_offsets w = true -> valueToJSON v = valueToJSON w -> v = w.
Proof.
  induction v as [v Hs Hc|l IH|m IH] using value_ind2; intros t a b w R R' D D' E.
  - destruct v as [x|z|f|lo hi|x y u|d|l|m]; try (exfalso; eapply Hs; reflexivity); try (exfalso; eapply Hc; reflexivity);
      destruct w as [x'|z'|f'|lo' hi'|x' y' u'|d'|l'|m']; try discriminate E; try (injection E; intros; congruence).
    + exfalso. cbn in R, R'. lia.
    + exfalso. cbn [valueToJSON] in E. destruct m' as [|[k [t' v]] m']; [discriminate|]. cbn in E. discriminate.
    + cbn [valueToJSON] in E. injection E as Eu Ex Ey. cbn [wf_val scalar_ok] in R, R'. unfold u32_ok in R, R'. apply to_s32_inj in Ex; [|lia|lia]. apply to_s32_inj in Ey; [|lia|lia]. congruence.
    + exfalso. cbn [valueToJSON] in E. destruct m' as [|[k [t' v]] m']; [discriminate|]. cbn in E. discriminate.
    + exfalso. cbn in R, R'. lia.
    + cbn [wf_val scalar_ok] in R, R'. apply andb_prop in R as [_ R], R' as [_ R']. f_equal. apply date_str_inj; try assumption. cbn [valueToJSON] in E. congruence.
  - destruct w as [x'|z'|f'|lo' hi'|x' y' u'|d'|l'|m']; try discriminate E. assert (E0 : map valueToJSON l = map valueToJSON l') by (cbn [valueToJSON] in E; congruence). clear E. f_equal.
    cbn [wf_val short_offsets] in *. apply andb_prop in R as [_ R], R' as [_ R']. revert l' R' D' E0. induction IH as [|v l Hv Hl IHl]; intros [|v' l'] R' D' E; try discriminate E; [reflexivity|].
    cbn [forallb map] in *. apply andb_prop in R as [R1 R2], R' as [R1' R2'], D as [D1 D2], D' as [D1' D2']. assert (E1 : valueToJSON v = valueToJSON v') by congruence. assert (E2 : map valueToJSON l = map valueToJSON l') by congruence.
    f_equal; [eapply Hv; eassumption|apply IHl; assumption].
  - destruct w as [x'|z'|f'|lo' hi'|x' y' u'|d'|l'|m']; try discriminate E.
    + exfalso. cbn [valueToJSON] in E. destruct m as [|[k [t' v]] m]; [discriminate|]. cbn in E. discriminate.
    + exfalso. cbn [valueToJSON] in E. destruct m as [|[k [t' v]] m]; [discriminate|]. cbn in E. discriminate.
    + cbn [valueToJSON] in E. injection E as E. f_equal. cbn [wf_val short_offsets] in *. apply andb_prop in R as [_ R], R' as [_ R'].
      revert m' R' D' E. induction IH as [|v l Hv Hl IHl]; intros [|v' l'] R' D' E; try discriminate E; [reflexivity|].
      cbn [forallb map] in *. apply andb_prop in R as [R1 R2], R' as [R1' R2'], D as [D1 D2], D' as [D1' D2'].
      apply andb_prop in R1 as [_ R1], R1' as [_ R1']. destruct v as [k [t1 v]], v' as [k' [t1' v']]. cbn [fst snd] in *.
      assert (E0 : k = k') by congruence. assert (E1 : t1 = t1') by congruence. assert (E2 : valueToJSON v = valueToJSON v') by congruence. subst k' t1'.
      f_equal; [|apply IHl; try assumption; congruence]. f_equal. f_equal. eapply Hv; eassumption.
Qed.
Lemma typed_attrs_inj m m' : wf_attrs m = true -> wf_attrs m' = true -> group_ok short_offsets m = true -> group_ok short_offsets m' = true -> attrsToJSON m = attrsToJSON m' -> m = m'.
Proof.
  intros R R' D D' E. assert (K : forall x, wf_attrs x = true -> wf_val true 0x34 (VColl x) = true).
  { intros x W. unfold wf_attrs in W. cbn [wf_val]. apply andb_prop in W as [W1 W2]. apply andb_true_intro; split; [apply andb_true_intro; split; [reflexivity|exact W1]|]. apply forallb_forall. intros e He. rewrite forallb_forall in W2. specialize (W2 e He). unfold wf_attr in W2.
    apply andb_prop in W2 as [W2 W3]. apply andb_prop in W2 as [_ W2]. apply andb_true_intro. split; [exact W2|exact W3]. }
  assert (VColl m = VColl m') as X; [|injection X; trivial]. apply (typed_json_inj _ 0x34 true true); [apply K; exact R|apply K; exact R'|exact D|exact D'|exact E].
Qed.
