(** C22, C23: splitting, joining and the text fix-up. *)
From Verif Require Import Base BaseLemmas StringModel StringProofs StringSpec.
From Coq Require Import Lia.
Local Open Scope string_scope.

Lemma join_glue l sep : join_string l sep = glue sep l.
Proof.
  induction l as [|p l IH]; [reflexivity|]. destruct l as [|q l]; [reflexivity|].
  rewrite join_cons, IH. reflexivity.
Qed.
Lemma has_char_occurs c s : occurs (String c "") s -> has_char c s.
Proof. intros (a & b & ->). apply has_char_app. right. left. reflexivity. Qed.

(** ** C22 *)
(** One-character delimiters.  Missing: longer delimiters, for which it is false. *)
Theorem C22_split_join_partial : forall s c,
  glue (String c "") (split_string s (String c "")) = s /\
  join_string (split_string s (String c "")) (String c "") = s /\
  Forall (fun p => ~ occurs (String c "") p) (split_string s (String c "")).
Proof.
  intros s c. rewrite split_string_pieces. rewrite <- join_glue, pieces_join.
  split; [reflexivity|]. split; [reflexivity|].
  eapply Forall_impl; [|apply pieces_free]. intros p Hp Ho. apply Hp, has_char_occurs, Ho.
Qed.
(** and splitting is the only way to undo joining *)
Theorem C22_join_split_partial : forall l c, l <> [] ->
  Forall (fun p => ~ occurs (String c "") p) l -> split_string (join_string l (String c "")) (String c "") = l.
Proof.
  intros l c Hne Hl. rewrite split_string_pieces. apply pieces_unique; [assumption|].
  eapply Forall_impl; [|exact Hl]. intros p Hp Hc. apply Hp.
  unfold has_char in Hc. apply in_split in Hc. destruct Hc as (a & b & E).
  exists (string_of_list_ascii a), (string_of_list_ascii b).
  rewrite <- (string_of_list_ascii_of_string p), E. clear.
  induction a as [|x a IH]; simpl; [reflexivity|]. rewrite IH. reflexivity.
Qed.
Example C22_example : split_string "a,,bc," "," = ["a"; ""; "bc"; ""].
Proof. reflexivity. Qed.
Print Assumptions C22_split_join_partial.
Print Assumptions C22_join_split_partial.

(** the function that joins is the specified one for all separators *)
Theorem C22_join_is_glue : forall l sep, join_string l sep = glue sep l.
Proof. exact join_glue. Qed.
Print Assumptions C22_join_is_glue.

(** Finding: the position advances by one character, not by the delimiter's length. *)
Theorem C22_long_delimiter_refuted :
  split_string "a--b" "--" = ["a"; "-b"] /\
  exists s tok, tok <> "" /\ join_string (split_string s tok) tok <> s.
Proof.
  split; [reflexivity|]. exists "a--b", "--". split; discriminate.
Qed.
Print Assumptions C22_long_delimiter_refuted.

(** ** C23 *)
Definition starts_lf (s : string) : bool := match s with String c _ => Ascii.eqb c LF | _ => false end.
(** what the fix-up does *)
Fixpoint expanded (s : string) : string :=
  match s with
  | EmptyString => ""
  | String d s' =>
      if Ascii.eqb d LF then CRLF ++ expanded s'
      else if Ascii.eqb d CR && starts_lf s' then CRLF ++ expanded s'
      else String d (expanded s')
  end.

Fixpoint crlf_pieces (s : string) : string * list string :=
  match s with
  | EmptyString => ("", [])
  | String d s' =>
      let '(h, t) := crlf_pieces s' in
      if Ascii.eqb d CR && starts_lf s' then ("", h :: t) else (String d h, t)
  end.
Definition crlf_list (s : string) : list string := let '(h, t) := crlf_pieces s in h :: t.

Lemma find_crlf s : find_str crlf s =
  match s with
  | EmptyString => None
  | String d s' => if Ascii.eqb d CR && starts_lf s' then Some O else option_map S (find_str crlf s')
  end.
Proof.
  destruct s as [|d s]; [reflexivity|]. unfold find_str; fold find_str. unfold crlf at 1. cbn [prefix].
  destruct (Ascii.ascii_dec "013" d) as [<-|Hne].
  - change (Ascii.eqb "013" CR) with true. cbn [andb]. destruct s as [|e s]; [reflexivity|]. cbn [prefix starts_lf].
    destruct (Ascii.ascii_dec "010" e) as [<-|Hne].
    + destruct s; reflexivity.
    + change (Ascii.eqb e LF) with (Ascii.eqb e "010"). destruct (Ascii.eqb_spec e "010"); [congruence|reflexivity].
  - change (Ascii.eqb d CR) with (Ascii.eqb d "013"). destruct (Ascii.eqb_spec d "013"); [congruence|reflexivity].
Qed.
Lemma find_crlf_le s n : find_str crlf s = Some n -> (n < String.length s)%nat.
Proof.
  revert n. induction s as [|d s IH]; intros n; rewrite find_crlf; [discriminate|]. cbn [String.length].
  destruct (Ascii.eqb d CR && starts_lf s); [intros E; injection E as <-; lia|].
  destruct (find_str crlf s) as [m|]; [|discriminate]. intros E. injection E as <-.
  specialize (IH m eq_refl). lia.
Qed.
Lemma split_crlf s : split_string s crlf = crlf_list s.
Proof.
  assert (Hstep : forall s, crlf_list s =
    match find_str crlf s with
    | Some n => take n s :: crlf_list (drop (n + 1) s)
    | None => [s]
    end).
  { induction s0 as [|d s0 IH]; [reflexivity|]. rewrite find_crlf. unfold crlf_list in *. cbn [crlf_pieces].
    destruct (Ascii.eqb d CR && starts_lf s0) eqn:Ed.
    - change (drop (0 + 1) (String d s0)) with s0. change (take 0 (String d s0)) with "".
      destruct (crlf_pieces s0) as [h t]. reflexivity.
    - destruct (crlf_pieces s0) as [h t]. destruct (find_str crlf s0) as [n|]; cbn [option_map].
      + injection IH as -> ->. reflexivity.
      + injection IH as -> ->. reflexivity. }
  unfold split_string. assert (Hf : (String.length s < S (String.length s))%nat) by lia.
  revert Hf. generalize (S (String.length s)) as fuel.
  induction s as [s IHs] using (induction_ltof1 _ String.length). unfold ltof in IHs.
  intros [|fuel] Hf; [lia|]. cbn [split_loop]. rewrite Hstep.
  pose proof (find_crlf_le s) as Hle.
  destruct (find_str crlf s) as [n|].
  - specialize (Hle n eq_refl). rewrite Nat.min_r by lia.
    destruct (Nat.ltb_spec n (String.length s)) as [Hn|Hn]; [|lia].
    rewrite IHs; [reflexivity| |]; rewrite length_drop; lia.
  - rewrite take_all, Nat.ltb_irrefl. reflexivity.
Qed.

Lemma join_app l m sep : l <> [] -> m <> [] -> join_string (l ++ m) sep = join_string l sep ++ sep ++ join_string m sep.
Proof.
  intros Hl Hm. induction l as [|p l IH]; [congruence|]. destruct l as [|q l].
  - destruct m as [|q m]; [congruence|]. cbn [List.app]. rewrite join_cons. reflexivity.
  - cbn [List.app] in *. rewrite !join_cons. rewrite IH by discriminate. rewrite !app_s_assoc. reflexivity.
Qed.
Lemma join_head d h l sep : join_string (String d h :: l) sep = String d (join_string (h :: l) sep).
Proof. destruct l; [reflexivity|]. rewrite !join_cons. reflexivity. Qed.

(** The exact effect on every text: each LF that is not part of a CRLF becomes CRLF; each
    CRLF becomes CRLF CRLF (finding). *)
Theorem C23_exact_effect : forall s, fixup_text s = expanded s.
Proof.
  intros s. unfold fixup_text. rewrite split_crlf.
  change lf with (String LF ""). change crlf with CRLF.
  rewrite (flat_map_ext _ (pieces_list LF)) by (intros; apply split_string_pieces).
  unfold crlf_list. induction s as [|d s IH]; [reflexivity|]. cbn [crlf_pieces expanded].
  destruct (crlf_pieces s) as [h t].
  assert (Hne : flat_map (pieces_list LF) (h :: t) <> []).
  { cbn [flat_map]. unfold pieces_list at 1. destruct (pieces LF h). discriminate. }
  destruct (Ascii.eqb d LF) eqn:E1.
  - apply Ascii.eqb_eq in E1. subst d. change (Ascii.eqb LF CR) with false. cbn [andb].
    assert (Hp : flat_map (pieces_list LF) (String LF h :: t) = ([""] ++ flat_map (pieces_list LF) (h :: t))%list).
    { cbn [flat_map]. unfold pieces_list at 1 3. cbn [pieces]. destruct (pieces LF h). reflexivity. }
    rewrite Hp, join_app by (discriminate || assumption). rewrite IH. reflexivity.
  - destruct (Ascii.eqb d CR && starts_lf s) eqn:E2.
    + change (flat_map (pieces_list LF) ("" :: h :: t)) with ([""] ++ flat_map (pieces_list LF) (h :: t))%list.
      rewrite join_app by (discriminate || assumption). rewrite IH. reflexivity.
    + rewrite <- IH. cbn [flat_map]. unfold pieces_list at 1 3. cbn [pieces].
      destruct (pieces LF h) as [h' t']. rewrite E1. cbn [List.app]. apply join_head.
Qed.
Example C23_exact_example :
  fixup_text (String "a" (String CR (String LF (String "b" (String LF (String CR "c")))))) =
  "a" ++ CRLF ++ CRLF ++ "b" ++ CRLF ++ String CR "c".
Proof. reflexivity. Qed.
Print Assumptions C23_exact_effect.

(** Texts without CRLF line ends are normalised.  Missing: texts with CRLF line ends, for
    which it is false. *)
Theorem C23_normalises_partial : forall s, ~ occurs CRLF s -> normalised s (fixup_text s).
Proof.
  intros s. rewrite C23_exact_effect. induction s as [|d s IH]; intros Hn; [constructor|].
  assert (Hs : ~ occurs CRLF s).
  { intros (a & b & ->). apply Hn. exists (String d a), b. reflexivity. }
  specialize (IH Hs). cbn [expanded]. destruct (Ascii.eqb_spec d LF) as [->|H1]; [apply norm_lf; assumption|].
  destruct (Ascii.eqb d CR && starts_lf s) eqn:E.
  - exfalso. apply andb_prop in E. destruct E as [E1 E2]. apply Ascii.eqb_eq in E1. subst d.
    destruct s as [|e s]; [discriminate|]. apply Ascii.eqb_eq in E2. subst e. apply Hn. exists "", s. reflexivity.
  - apply norm_other; [assumption| |assumption]. intros -> r ->. discriminate.
Qed.
Example C23_partial_example : ~ occurs CRLF (String "a" (String LF (String CR "b"))) /\
  fixup_text (String "a" (String LF (String CR "b"))) = "a" ++ CRLF ++ String CR "b".
Proof.
  split; [|reflexivity]. intros H. apply contains_spec in H. vm_compute in H. discriminate.
Qed.
Print Assumptions C23_normalises_partial.

(** The specification is a function, so "normalised" names one text. *)
Theorem C23_spec_functional : forall s t t', normalised s t -> normalised s t' -> t = t'.
Proof.
  intros s t t' H. revert t'. induction H as [|s t H IH|s t H IH|c s t H1 H2 H IH]; intros t' H'.
  - inversion H'. reflexivity.
  - inversion H'; subst; try discriminate.
    + f_equal. apply IH. assumption.
    + match goal with Hx : CR = CR -> _ |- _ => exfalso; exact (Hx eq_refl _ eq_refl) end.
  - inversion H'; subst; try congruence. f_equal. apply IH. assumption.
  - inversion H'; subst; try congruence.
    + exfalso. eapply (H2 eq_refl). reflexivity.
    + f_equal. apply IH. assumption.
Qed.
Print Assumptions C23_spec_functional.

(** Finding: CRLF line ends are doubled, so the fix-up neither normalises nor is stable. *)
Theorem C23_crlf_refuted : exists s,
  ~ normalised s (fixup_text s) /\ fixup_text (fixup_text s) <> fixup_text s.
Proof.
  exists ("a" ++ CRLF ++ "b"). split; [|discriminate].
  intros H. assert (N : normalised ("a" ++ CRLF ++ "b") ("a" ++ CRLF ++ "b")).
  { apply norm_other; [discriminate|discriminate|]. apply norm_crlf. apply norm_other; [discriminate|discriminate|constructor]. }
  pose proof (C23_spec_functional _ _ _ H N) as E. discriminate.
Qed.
Print Assumptions C23_crlf_refuted.
