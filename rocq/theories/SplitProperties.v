(** C22: what splitting does with a delimiter of any length. *)
From Verif Require Import Base BaseLemmas StringModel StringProofs StringSpec StringProperties.
From Coq Require Import Lia.
Local Open Scope string_scope.

(** ** Specification *)
Definition begins (tok s : string) : Prop := exists r, s = tok ++ r.
(** the text cut at each place where the delimiter begins, also where it overlaps with
    itself; only the one character at the cut is left out *)
Inductive cut (tok : string) : string -> list string -> Prop :=
| cut_end : cut tok "" [""]
| cut_here d s l : begins tok (String d s) -> cut tok s l -> cut tok (String d s) ("" :: l)
| cut_on d s h l : ~ begins tok (String d s) -> cut tok s (h :: l) -> cut tok (String d s) (String d h :: l).

(** ** Proof *)
Fixpoint cuts (tok s : string) : string * list string :=
  match s with
  | EmptyString => ("", [])
  | String d s' => let '(h, t) := cuts tok s' in if prefix tok s then ("", h :: t) else (String d h, t)
  end.
Definition cuts_list tok s := let '(h, t) := cuts tok s in h :: t.
Lemma find_step tok s : tok <> "" -> find_str tok s =
  match s with EmptyString => None | String d s' => if prefix tok s then Some O else option_map S (find_str tok s') end.
Proof. intros Ht. destruct s as [|d s]; [destruct tok; [congruence|reflexivity]|]. reflexivity. Qed.
Lemma find_le tok s n : tok <> "" -> find_str tok s = Some n -> (n < String.length s)%nat.
Proof.
  intros Ht. revert n. induction s as [|d s IH]; intros n; rewrite find_step by exact Ht; [discriminate|]. cbn [String.length].
  destruct (prefix tok (String d s)); [intros E; injection E as <-; lia|]. destruct (find_str tok s) as [m|]; [|discriminate]. intros E. injection E as <-. specialize (IH m eq_refl). lia.
Qed.
Lemma split_cuts tok s : tok <> "" -> split_string s tok = cuts_list tok s.
Proof.
  intros Ht.
  assert (Hstep : forall s, cuts_list tok s = match find_str tok s with Some n => take n s :: cuts_list tok (drop (n + 1) s) | None => [s] end).
  { induction s0 as [|d s0 IH]; [rewrite find_step by exact Ht; reflexivity|]. rewrite find_step by exact Ht. unfold cuts_list in *. cbn [cuts].
    destruct (prefix tok (String d s0)).
    - change (drop (0 + 1) (String d s0)) with s0. change (take 0 (String d s0)) with "". destruct (cuts tok s0) as [h t]. reflexivity.
    - destruct (cuts tok s0) as [h t]. destruct (find_str tok s0) as [n|]; cbn [option_map]; injection IH as -> ->; reflexivity. }
  unfold split_string. assert (Hf : (String.length s < S (String.length s))%nat) by lia. revert Hf. generalize (S (String.length s)) as fuel.
  induction s as [s IHs] using (induction_ltof1 _ String.length). unfold ltof in IHs. intros [|fuel] Hf; [lia|]. cbn [split_loop]. rewrite Hstep.
  pose proof (find_le tok s) as Hle. destruct (find_str tok s) as [n|].
  - specialize (Hle n Ht eq_refl). rewrite Nat.min_r by lia. destruct (Nat.ltb_spec n (String.length s)) as [Hn|Hn]; [|lia]. rewrite IHs; [reflexivity| |]; rewrite length_drop; lia.
  - rewrite take_all, Nat.ltb_irrefl. reflexivity.
Qed.
Lemma cuts_cut tok s : cut tok s (cuts_list tok s).
Proof.
  induction s as [|d s IH]; [constructor|]. unfold cuts_list in *. cbn [cuts]. destruct (cuts tok s) as [h t].
  pose proof (prefix_spec tok (String d s)) as P. destruct (prefix tok (String d s)).
  - apply cut_here; [apply P; reflexivity|exact IH].
  - apply cut_on; [|exact IH]. intros B. apply P in B. discriminate.
Qed.
Lemma cut_function tok s l : cut tok s l -> forall l', cut tok s l' -> l = l'.
Proof.
  induction 1 as [|d s l B C IH|d s h l B C IH]; intros l' C'; inversion C' as [|? ? ? B' C1|? ? ? ? B' C1]; subst; try contradiction; [reflexivity|f_equal; auto|].
  specialize (IH _ C1). injection IH as -> ->. reflexivity.
Qed.
Lemma cut_some tok s l : cut tok s l -> l <> []. Proof. intros []; discriminate. Qed.
Lemma glue_head d h l sep : glue sep (String d h :: l) = String d (glue sep (h :: l)). Proof. destruct l; reflexivity. Qed.
Lemma cut_glue c t s l : cut (String c t) s l -> glue (String c "") l = s.
Proof.
  induction 1 as [|d s l B C IH|d s h l B C IH]; [reflexivity| |rewrite glue_head, IH; reflexivity].
  pose proof (cut_some _ _ _ C) as N. destruct l as [|q l]; [congruence|]. destruct B as [r E]. cbn [append] in E. injection E as -> E.
  change (glue (String c "") ("" :: q :: l)) with (String c (glue (String c "") (q :: l))). rewrite IH. reflexivity.
Qed.
(** the first piece is a beginning of the text *)
Lemma cut_first tok s l h : cut tok s (h :: l) -> exists r, s = h ++ r.
Proof.
  intros C. remember (h :: l) as hl eqn:E. revert h l E. induction C as [|d s l B C IH|d s h l B C IH]; intros h0 l0 E; injection E as <- <-; [exists ""; reflexivity|exists (String d s); reflexivity|].
  destruct (IH _ _ eq_refl) as [r ->]. exists r. reflexivity.
Qed.
Lemma cut_free tok s l : tok <> "" -> cut tok s l -> Forall (fun p => ~ occurs tok p) l.
Proof.
  intros Ht. assert (N : ~ occurs tok "") by (intros (a & b & E); destruct a; [destruct tok; [congruence|discriminate]|discriminate]).
  induction 1 as [|d s l B C IH|d s h l B C IH]; [repeat constructor; exact N|constructor; assumption|].
  inversion IH as [|? ? Hh Hl]; subst. constructor; [|exact Hl]. intros (a & b & E). destruct a as [|x a].
  - apply B. destruct (cut_first _ _ _ _ C) as [r ->]. exists (b ++ r). cbn [append] in E.
    change (String d (h ++ r)) with (String d h ++ r). rewrite E, app_s_assoc. reflexivity.
  - apply Hh. cbn [append] in E. injection E as _ ->. exists a, b. reflexivity.
Qed.

(** ** Theorems *)
(** For a delimiter of any length the pieces are those of the cut, and there is only one
    such list. *)
Theorem C22_any_delimiter : forall s tok l, tok <> "" -> split_string s tok = l <-> cut tok s l.
Proof.
  intros s tok l Ht. rewrite split_cuts by exact Ht. split; [intros <-; apply cuts_cut|]. intros C. exact (cut_function _ _ _ (cuts_cut tok s) _ C).
Qed.
Print Assumptions C22_any_delimiter.
(** No piece has the delimiter in it, and the pieces joined with the first character of the
    delimiter, instead of all of it, are the text. *)
Theorem C22_first_character : forall s c t,
  join_string (split_string s (String c t)) (String c "") = s /\ Forall (fun p => ~ occurs (String c t) p) (split_string s (String c t)).
Proof.
  intros s c t. assert (Ht : String c t <> "") by discriminate. pose proof (proj1 (C22_any_delimiter s (String c t) _ Ht) eq_refl) as C.
  rewrite C22_join_is_glue. split; [exact (cut_glue _ _ _ _ C)|exact (cut_free _ _ _ Ht C)].
Qed.
Print Assumptions C22_first_character.
Example C22_any_example : cut "--" "a---b" ["a"; ""; "-b"] /\ split_string "a---b" "--" = ["a"; ""; "-b"] /\ join_string ["a"; ""; "-b"] "-" = "a---b".
Proof. split; [apply C22_any_delimiter; [discriminate|reflexivity]|]. split; reflexivity. Qed.
