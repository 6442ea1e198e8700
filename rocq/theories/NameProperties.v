(** C103: the name of a job.  C100: values as text. *)
From Verif Require Import Base BaseLemmas MapModel StringModel StringSpec StringProofs IppModel IppSpec IppEncProofs JsonModel PpmSpec PpmProofs JsonSpec SettingsProofs DumpProofs DecodeProofs DateProofs PrinterModel WireProofs ClientModel OutputModel OutputProperties SayModel SayProperties.
From Coq Require Import Lia ZifyBool ZifyNat.
Local Open Scope Z_scope.

(** ** The name of a job *)
(** the last component of a path *)
Definition last_component (path name : string) : Prop := ~ occurs "/" name /\ (name = path \/ exists directory, path = (directory ++ "/" ++ name)%string).
Lemma base_or acc s : base_name_from acc s = acc \/ exists b, base_name_from acc s = b /\ last_component s b /\ occurs "/" s.
Proof.
  revert acc. induction s as [|c s IH]; intros acc; [left; reflexivity|]. cbn [base_name_from]. destruct (Ascii.eqb_spec c "/"%char) as [->|N].
  - right. exists (base_name_from s s). split; [reflexivity|]. split; [|exists ""%string, s; reflexivity].
    assert (K : last_component s (base_name_from s s)); [|destruct K as [K1 [K2|[d K2]]]; (split; [exact K1|]); right; [exists ""%string; cbn; rewrite K2; reflexivity|exists (String "/" d); cbn; f_equal; exact K2]].
    destruct (IH s) as [E|(b & E & L & _)]; [|rewrite E; exact L]. rewrite E. split; [|left; reflexivity].
    clear IH. intros (x & y & ->). apply (f_equal String.length) in E. rewrite (base_after_slash x y : base_name_from (x ++ "/" ++ y) (x ++ "/" ++ y) = base_name y) in E.
    pose proof (base_len y). rewrite !length_app_s in E. cbn [String.length] in E. lia.
  - destruct (IH acc) as [E|(b & E & (L1 & L2) & O)]; [left; exact E|right]. exists b. split; [exact E|]. split; [split; [exact L1|]|destruct O as (x & y & ->); exists (String c x), y; reflexivity].
    right. destruct L2 as [->|[d ->]]; [contradiction|]. exists (String c d). reflexivity.
Qed.
(** C103 says that jobs are named by [base_name] of the path: that is its last component. *)
Theorem C103_job_name path : last_component path (base_name path).
Proof.
  destruct (base_or path path) as [E|(b & E & L & _)]; unfold base_name in *; rewrite E; [|exact L]. split; [|left; reflexivity].
  intros (x & y & ->). apply (f_equal String.length) in E. rewrite (base_after_slash x y : base_name_from (x ++ "/" ++ y) (x ++ "/" ++ y) = base_name y) in E.
  pose proof (base_len y). rewrite !length_app_s in E. cbn [String.length] in E. lia.
Qed.
(** and there is only one *)
Theorem C103_job_name_unique path name : last_component path name -> name = base_name path.
Proof.
  assert (A : forall s acc, ~ occurs "/" s -> base_name_from acc s = acc).
  { induction s as [|c s IH]; intros acc N; [reflexivity|]. cbn [base_name_from]. destruct (Ascii.eqb_spec c "/"%char) as [->|_]; [exfalso; apply N; exists ""%string, s; reflexivity|].
    apply IH. intros (x & y & ->). apply N. exists (String c x), y. reflexivity. }
  intros [N [->|[d ->]]]; [symmetry; apply A; exact N|]. rewrite base_after_slash. symmetry. apply A. exact N.
Qed.
Example C103_job_name_example : last_component "/home/me/a.pdf" "a.pdf" /\ base_name "/home/me/a.pdf" = "a.pdf"%string /\ base_name "a.pdf" = "a.pdf"%string.
Proof. split; [exact (C103_job_name "/home/me/a.pdf")|]. split; reflexivity. Qed.

(** ** Values as text *)
(** numbers of exactly [w] digits *)
Definition digits (w : nat) (z : Z) (t : string) : Prop := number (bytes_of_string t) z /\ String.length t = w.
Definition unit_name (u : Z) (t : string) : Prop := u = 3 /\ t = "dpi"%string \/ u = 4 /\ t = "dots/cm"%string \/ u <> 3 /\ u <> 4 /\ t = "unknown"%string.
(** RFC 2579 DateAndTime: the ranges of the fields *)
Definition date_fields (d : ipp_date) : Prop :=
  0 <= d_year d <= 9999 /\ 1 <= d_month d <= 12 /\ 1 <= d_day d <= 31 /\ 0 <= d_hour d <= 23 /\ 0 <= d_minutes d <= 59 /\ 0 <= d_seconds d <= 60 /\ 0 <= d_deciSeconds d <= 9 /\
  (d_plusMinus d = 43 \/ d_plusMinus d = 45) /\ 0 <= d_utcHOffset d <= 13 /\ 0 <= d_utcMOffset d <= 59.
Inductive as_shown : ipp_value -> string -> Prop :=
| as_text s : as_shown (VStr s) s
| as_number z t : decimal z t -> as_shown (VInt z) t
| as_true : as_shown (VBool true) "true"
| as_false : as_shown (VBool false) "false"
| as_range lo hi t u : decimal lo t -> decimal hi u -> as_shown (VRange lo hi) (t ++ "-" ++ u)
| as_resolution x y u t1 t2 t3 : decimal x t1 -> decimal y t2 -> unit_name u t3 -> as_shown (VRes x y u) (t1 ++ "x" ++ t2 ++ t3)
| as_date d y mo da h mi s ms sign oh om : digits 4 (d_year d) y -> digits 2 (d_month d) mo -> digits 2 (d_day d) da -> digits 2 (d_hour d) h -> digits 2 (d_minutes d) mi -> digits 2 (d_seconds d) s ->
    digits 3 (100 * d_deciSeconds d) ms -> (d_plusMinus d = 43 /\ sign = "+"%string \/ d_plusMinus d = 45 /\ sign = "-"%string) -> digits 2 (d_utcHOffset d) oh -> digits 2 (d_utcMOffset d) om ->
    as_shown (VDate d) (y ++ "-" ++ mo ++ "-" ++ da ++ "T" ++ h ++ ":" ++ mi ++ ":" ++ s ++ "." ++ ms ++ " GMT" ++ sign ++ oh ++ om)
| as_set l ts : Forall2 as_shown l ts -> as_shown (VSet l) (glue ", " ts)
| as_collection m : as_shown (VColl m) "<collection>".
(** dates and resolutions have the values their formats allow; nothing is said about what is in collections *)
Fixpoint showable (v : ipp_value) : Prop :=
  match v with
  | VDate d => date_fields d
  | VRes x y _ => 0 <= x /\ 0 <= y
  | VSet l => (fix all l := match l with [] => True | v :: l' => showable v /\ all l' end) l
  | _ => True
  end.
Lemma zeros_number n : forall l v, number l v -> number (bytes_of_string (zeros n) ++ l) v.
Proof.
  assert (Z0 : forall q v, number q v -> number ("0"%char :: q) v).
  { intros q v H. induction H as [d Hd|q v d H IH Hd].
    - replace d with (10 * 0 + d) at 2 by lia. apply (number_more [bZ 48] 0 d); [apply (number_one 0); lia|exact Hd].
    - exact (number_more ("0"%char :: q) v d IH Hd). }
  induction n as [|n IH]; intros l v H; [exact H|]. exact (Z0 _ _ (IH l v H)).
Qed.
Lemma padded_number w z : 0 <= z -> number (bytes_of_string (padded w z)) z.
Proof. intros H. unfold padded. rewrite bytes_append. apply zeros_number, dec_string_number, H. Qed.
Lemma zeros_length n : String.length (zeros n) = n.
Proof. induction n as [|n IH]; [reflexivity|]. cbn. rewrite IH. reflexivity. Qed.
Lemma dec_digits_len fuel : forall z s w, 0 <= z < 10 ^ Z.of_nat w -> (1 <= w)%nat -> (String.length (dec_digits fuel z s) <= w + String.length s)%nat.
Proof.
  induction fuel as [|f IH]; intros z s w H W; cbn [dec_digits]; [lia|]. cbv zeta. destruct (Z.ltb_spec z 10) as [L|L]; [cbn [String.length]; lia|].
  assert (W2 : (2 <= w)%nat) by (destruct w as [|[|w]]; [lia| |lia]; change (10 ^ Z.of_nat 1) with 10 in H; lia).
  specialize (IH (z / 10) (String (digit_char (z mod 10)) s) (w - 1)%nat). cbn [String.length] in IH.
  assert (K : 0 <= z / 10 < 10 ^ Z.of_nat (w - 1)).
  { split; [apply Z.div_pos; lia|]. apply Z.div_lt_upper_bound; [lia|]. replace (10 * 10 ^ Z.of_nat (w - 1)) with (10 ^ Z.of_nat w); [lia|]. rewrite <- Z.pow_succ_r by lia. f_equal. lia. }
  specialize (IH K ltac:(lia)). lia.
Qed.
Lemma padded_digits w z : (1 <= w)%nat -> 0 <= z < 10 ^ Z.of_nat w -> digits w z (padded w z).
Proof.
  intros W H. split; [apply padded_number; lia|]. unfold padded. cbv zeta. rewrite length_app_s, zeros_length.
  pose proof (dec_digits_len (S (Z.to_nat (Z.log2 z))) z "" w H W) as L. fold (dec_string z) in L. cbn [String.length] in L. lia.
Qed.
Lemma decimal_dec z : 0 <= z -> decimal z (dec_string z).
Proof. intros H. pose proof (decimal_int z) as D. unfold int_text in D. destruct (Z.ltb_spec z 0); [lia|exact D]. Qed.
Lemma shown_each l : Forall (fun v => showable v -> as_shown v (value_text v)) l -> showable (VSet l) -> Forall2 as_shown l (map value_text l).
Proof. induction l as [|v l IH]; intros F S1; [constructor|]. inversion F as [|? ? F1 F2]; subst. destruct S1 as [S1 S2]. constructor; [exact (F1 S1)|exact (IH F2 S2)]. Qed.
Lemma shown_date d : date_fields d -> as_shown (VDate d) (date_str d).
Proof.
  intros (Y & Mo & Da & Ho & Mi & Se & De & Pm & Oh & Om). unfold date_str. cbn [fold_right]. rewrite app_s_nil, (Z.mul_comm (d_deciSeconds d) 100).
  replace (String (bZ (d_plusMinus d)) "") with (if (d_plusMinus d =? 43)%Z then "+" else "-")%string by (destruct Pm as [-> | ->]; reflexivity).
  apply as_date; try (apply padded_digits; [lia|first [change (10 ^ Z.of_nat 4) with 10000|change (10 ^ Z.of_nat 3) with 1000|change (10 ^ Z.of_nat 2) with 100]; lia]).
  destruct Pm as [-> | ->]; auto.
Qed.
(** The text of a value, as in the lists of values supported, is what it should be. *)
Theorem C100_values v : showable v -> as_shown v (value_text v).
Proof.
  induction v as [v Ns Nc|l IH|m IH] using value_ind2; intros Hs.
  - destruct v; cbn [value_text]; try (exfalso; first [exact (Ns _ eq_refl)|exact (Nc _ eq_refl)]).
    + apply as_text.
    + apply as_number, decimal_int.
    + destruct b; [apply as_true|apply as_false].
    + apply as_range; apply decimal_int.
    + destruct Hs as [X Y]. unfold resolution_text. apply as_resolution; [exact (decimal_dec _ X)|exact (decimal_dec _ Y)|]. unfold unit_name. match goal with |- context [?u =? 3] => destruct (Z.eqb_spec u 3); [auto|]; destruct (Z.eqb_spec u 4); auto end.
    + apply shown_date. exact Hs.
  - change (as_shown (VSet l) (texts l)). rewrite texts_glue. apply as_set, shown_each; assumption.
  - apply as_collection.
Qed.
Example C100_values_example : let v := VSet [VRes 300 600 4; VDate (mkDate 2026 11 5 7 8 9 3 43 1 0); VBool true; VRange (-1) 5]%string in
  showable v /\ value_text v = "300x600dots/cm, 2026-11-05T07:08:09.300 GMT+0100, true, -1-5"%string.
Proof. cbv zeta. split; [|vm_compute; reflexivity]. cbn. unfold date_fields. cbn. lia. Qed.

Print Assumptions C103_job_name.
Print Assumptions C103_job_name_unique.
Print Assumptions C100_values.
