(** Lemmas about StringModel.v. *)
From Verif Require Import Base BaseLemmas StringModel.
From Coq Require Import Lia ZifyBool ZifyNat.
Local Open Scope string_scope.

Lemma app_s_assoc a b c : ((a ++ b) ++ c = a ++ (b ++ c))%string.
Proof. induction a; simpl; congruence. Qed.
Lemma app_s_nil a : (a ++ "" = a)%string.
Proof. induction a; simpl; congruence. Qed.
Lemma length_app_s a b : String.length (a ++ b) = (String.length a + String.length b)%nat.
Proof. induction a; simpl; congruence. Qed.
Lemma app_s_inj a : forall b c d, String.length a = String.length c -> a ++ b = c ++ d -> a = c /\ b = d.
Proof.
  induction a as [|x a IH]; intros b [|y c] d Hl E; simpl in *; try lia; [auto|].
  injection E as -> E. destruct (IH b c d) as [-> ->]; auto.
Qed.
Lemma take_app a b : take (String.length a) (a ++ b) = a.
Proof. unfold take. induction a; simpl; [destruct b; reflexivity|congruence]. Qed.
Lemma drop_app a b : drop (String.length a) (a ++ b) = b.
Proof. induction a; simpl; auto. Qed.
Lemma take_all s : take (String.length s) s = s.
Proof. rewrite <- (app_s_nil s) at 2. apply take_app. Qed.
Lemma take_drop n : forall s, (take n s ++ drop n s = s)%string.
Proof.
  induction n as [|n IH]; intros s.
  - unfold take. destruct s; reflexivity.
  - destruct s as [|c s]; [reflexivity|]. unfold take in *. simpl. rewrite IH. reflexivity.
Qed.
Lemma length_take n : forall s, (n <= String.length s)%nat -> String.length (take n s) = n.
Proof.
  unfold take. induction n as [|n IH]; intros [|c s] H; simpl in *; try lia; auto. rewrite IH; lia.
Qed.
Lemma length_drop n : forall s, String.length (drop n s) = (String.length s - n)%nat.
Proof. induction n as [|n IH]; intros [|c s]; simpl; auto. Qed.

Lemma ends_with_spec s e : string_ends_with s e = true <-> exists t, s = (t ++ e)%string.
Proof.
  unfold string_ends_with. destruct (Nat.leb_spec (String.length e) (String.length s)) as [Hl|Hl].
  - split.
    + intros E. apply String.eqb_eq in E. set (d := drop (String.length s - String.length e) s) in *.
      assert (Hd : String.length d = String.length e) by (unfold d; rewrite length_drop; lia).
      rewrite <- Hd, take_all in E. exists (take (String.length s - String.length e) s). rewrite <- E at 2.
      symmetry. apply take_drop.
    + intros [t ->]. rewrite length_app_s. replace (String.length t + String.length e - String.length e)%nat with (String.length t) by lia.
      rewrite drop_app, take_all. apply String.eqb_refl.
  - split; [discriminate|]. intros [t ->]. rewrite length_app_s in Hl. lia.
Qed.
Lemma starts_with_spec s p : string_starts_with s p = true <-> exists t, s = (p ++ t)%string.
Proof.
  unfold string_starts_with. destruct (Nat.leb_spec (String.length p) (String.length s)) as [Hl|Hl].
  - split.
    + intros E. apply String.eqb_eq in E. exists (drop (String.length p) s). rewrite <- E at 1. symmetry. apply take_drop.
    + intros [t ->]. rewrite take_app. apply String.eqb_refl.
  - split; [discriminate|]. intros [t ->]. rewrite length_app_s in Hl. lia.
Qed.

Lemma prefix_spec p : forall s, prefix p s = true <-> exists t, s = (p ++ t)%string.
Proof.
  induction p as [|c p IH]; intros s; simpl.
  - split; [intros _; exists s; reflexivity|destruct s; reflexivity].
  - destruct s as [|d s]; [split; [discriminate|intros [t E]; discriminate]|].
    cbn [prefix]. destruct (Ascii.ascii_dec c d) as [->|Hne].
    + rewrite IH. split; intros [t E]; exists t; congruence.
    + split; [discriminate|]. intros [t E]. congruence.
Qed.

(** the string contains the token at position n *)
Definition occurs_at (tok s : string) (n : nat) : Prop := exists a b, s = (a ++ tok ++ b)%string /\ String.length a = n.
Lemma occurs_at_0 tok s : occurs_at tok s 0 <-> prefix tok s = true.
Proof.
  rewrite prefix_spec. split.
  - intros (a & b & -> & Ha). destruct a; [exists b; reflexivity|discriminate].
  - intros [t ->]. exists "", t. auto.
Qed.
Lemma occurs_at_S tok c s n : occurs_at tok (String c s) (S n) <-> occurs_at tok s n.
Proof.
  split.
  - intros (a & b & E & Ha). destruct a as [|x a]; [discriminate|]. injection E as -> E. exists a, b. auto.
  - intros (a & b & -> & Ha). exists (String c a), b. simpl. auto.
Qed.
Lemma find_str_spec tok : forall s,
  match find_str tok s with
  | Some n => occurs_at tok s n /\ forall m, (m < n)%nat -> ~ occurs_at tok s m
  | None => forall m, ~ occurs_at tok s m
  end.
Proof.
  induction s as [|c s IH]; unfold find_str; fold find_str.
  - destruct (prefix tok "") eqn:E.
    + split; [apply occurs_at_0; assumption|lia].
    + intros m Hm. assert (m = 0)%nat as ->.
      { destruct Hm as (a & b & Ea & <-). destruct a; [reflexivity|discriminate]. }
      apply occurs_at_0 in Hm. congruence.
  - destruct (prefix tok (String c s)) eqn:E.
    + split; [apply occurs_at_0; assumption|lia].
    + destruct (find_str tok s) as [n|]; cbn [option_map].
      * destruct IH as [H1 H2]. split; [apply occurs_at_S; assumption|]. intros [|m] Hm Ho.
        -- apply occurs_at_0 in Ho. congruence.
        -- apply (proj1 (occurs_at_S _ _ _ _)) in Ho. apply (H2 m); [lia|assumption].
      * intros [|m] Ho.
        -- apply occurs_at_0 in Ho. congruence.
        -- apply (proj1 (occurs_at_S _ _ _ _)) in Ho. apply (IH m Ho).
Qed.
Lemma contains_spec s what : string_contains s what = true <-> exists a b, s = (a ++ what ++ b)%string.
Proof.
  unfold string_contains. pose proof (find_str_spec what s) as H. destruct (find_str what s) as [n|].
  - split; [|reflexivity]. intros _. destruct H as [(a & b & E & _) _]. eauto.
  - split; [discriminate|]. intros (a & b & E). exfalso. apply (H (String.length a)). exists a, b. auto.
Qed.

(** ** split and join *)
Lemma join_fold sep r : forall a b, fold_left (fun res e => res ++ (sep ++ e)) r (a ++ b) = a ++ fold_left (fun res e => res ++ (sep ++ e)) r b.
Proof.
  induction r as [|x r IH]; intros a b; cbn [fold_left]; [reflexivity|]. rewrite app_s_assoc. apply IH.
Qed.
Lemma join_cons p q r sep : join_string (p :: q :: r) sep = p ++ sep ++ join_string (q :: r) sep.
Proof. unfold join_string. cbn [fold_left]. rewrite !join_fold. reflexivity. Qed.

(** ** split_string with a one-character token *)
Definition has_char (c : ascii) (s : string) : Prop := In c (list_ascii_of_string s).
Lemma has_char_app c a b : has_char c (a ++ b) <-> has_char c a \/ has_char c b.
Proof.
  unfold has_char. induction a as [|x a IH]; simpl; [tauto|]. rewrite IH. tauto.
Qed.

(** the pieces of a string between occurrences of a character *)
Fixpoint pieces (c : ascii) (s : string) : string * list string :=
  match s with
  | EmptyString => ("", [])
  | String d s' =>
      let '(h, t) := pieces c s' in
      if Ascii.eqb d c then ("", h :: t) else (String d h, t)
  end.
Definition pieces_list (c : ascii) (s : string) : list string := let '(h, t) := pieces c s in h :: t.

Lemma find_char c s : find_str (String c "") s =
  match s with
  | EmptyString => None
  | String d s' => if Ascii.eqb d c then Some O else option_map S (find_str (String c "") s')
  end.
Proof.
  destruct s as [|d s]; [reflexivity|]. cbn [find_str prefix].
  destruct (Ascii.ascii_dec c d) as [->|Hne].
  - rewrite Ascii.eqb_refl. destruct s; reflexivity.
  - destruct (Ascii.eqb_spec d c); [congruence|reflexivity].
Qed.
Lemma find_char_le c s n : find_str (String c "") s = Some n -> (n < String.length s)%nat.
Proof.
  revert n. induction s as [|d s IH]; intros n; rewrite find_char; [discriminate|]. cbn [String.length].
  destruct (Ascii.eqb d c); [intros E; injection E as <-; lia|].
  destruct (find_str (String c "") s) as [m|]; [|discriminate]. intros E. injection E as <-.
  specialize (IH m eq_refl). lia.
Qed.

Lemma split_pieces c : forall s fuel, (String.length s < fuel)%nat ->
  split_loop fuel (String c "") s = pieces_list c s.
Proof.
  (* the first piece is found by find, the rest recursively *)
  assert (Hstep : forall s, pieces_list c s =
    match find_str (String c "") s with
    | Some n => take n s :: pieces_list c (drop (n + 1) s)
    | None => [s]
    end).
  { induction s as [|d s IH]; [reflexivity|]. rewrite find_char. unfold pieces_list in *. cbn [pieces].
    destruct (Ascii.eqb d c) eqn:Ed.
    - change (drop (0 + 1) (String d s)) with s. change (take 0 (String d s)) with "". destruct (pieces c s) as [h t]. reflexivity.
    - destruct (pieces c s) as [h t]. destruct (find_str (String c "") s) as [n|]; cbn [option_map].
      + injection IH as -> ->. reflexivity.
      + injection IH as -> ->. reflexivity. }
  induction s as [s IHs] using (induction_ltof1 _ String.length). unfold ltof in IHs.
  intros [|fuel] Hf; [lia|]. cbn [split_loop]. rewrite Hstep.
  pose proof (find_char_le c s) as Hle.
  destruct (find_str (String c "") s) as [n|].
  - specialize (Hle n eq_refl). rewrite Nat.min_r by lia.
    destruct (Nat.ltb_spec n (String.length s)) as [Hn|Hn]; [|lia].
    rewrite IHs; [reflexivity| |]; rewrite length_drop; lia.
  - rewrite take_all, Nat.ltb_irrefl. reflexivity.
Qed.
Lemma split_string_pieces c s : split_string s (String c "") = pieces_list c s.
Proof. apply split_pieces. lia. Qed.

Lemma pieces_join c s : join_string (pieces_list c s) (String c "") = s.
Proof.
  unfold pieces_list. induction s as [|d s IH]; [reflexivity|]. cbn [pieces].
  destruct (pieces c s) as [h t]. destruct (Ascii.eqb_spec d c) as [->|Hne].
  - rewrite join_cons, IH. reflexivity.
  - destruct t as [|x t].
    + change (join_string [String d h] (String c "")) with (String d h). rewrite <- IH. reflexivity.
    + rewrite join_cons in *. cbn [append] in *. rewrite IH. reflexivity.
Qed.
Lemma pieces_free c s : Forall (fun p => ~ has_char c p) (pieces_list c s).
Proof.
  unfold pieces_list. induction s as [|d s IH]; [repeat constructor; auto|]. cbn [pieces].
  destruct (pieces c s) as [h t]. inversion IH as [|? ? H1 H2]; subst.
  destruct (Ascii.eqb_spec d c) as [->|Hne].
  - constructor; [intros []|]. constructor; assumption.
  - constructor; [|assumption]. intros [E|E]; [congruence|contradiction].
Qed.
Lemma pieces_unique c l : l <> [] -> Forall (fun p => ~ has_char c p) l -> pieces_list c (join_string l (String c "")) = l.
Proof.
  assert (K : forall p s, ~ has_char c p -> pieces_list c (p ++ String c s) = p :: pieces_list c s).
  { intros p s. unfold pieces_list. induction p as [|d p IH]; intros Hp; cbn [append pieces].
    - rewrite Ascii.eqb_refl. destruct (pieces c s). reflexivity.
    - assert (Hd : d <> c) by (intros ->; apply Hp; left; reflexivity).
      assert (Hp' : ~ has_char c p) by (intros H; apply Hp; right; assumption).
      specialize (IH Hp'). destruct (pieces c (p ++ String c s)) as [h t]. destruct (pieces c s) as [h' t'].
      injection IH as -> ->. destruct (Ascii.eqb_spec d c); [congruence|reflexivity]. }
  assert (K0 : forall p, ~ has_char c p -> pieces_list c p = [p]).
  { unfold pieces_list. induction p as [|d p IH]; intros Hp; [reflexivity|]. cbn [pieces].
    assert (Hd : d <> c) by (intros ->; apply Hp; left; reflexivity).
    assert (Hp' : ~ has_char c p) by (intros H; apply Hp; right; assumption).
    specialize (IH Hp'). destruct (pieces c p) as [h t]. injection IH as -> ->.
    destruct (Ascii.eqb_spec d c); [congruence|reflexivity]. }
  induction l as [|p l IH]; [congruence|]. intros _ Hl. inversion Hl as [|? ? H1 H2]; subst.
  destruct l as [|q l]; [apply K0; assumption|]. rewrite join_cons. cbn [append]. rewrite K by assumption.
  rewrite IH by (discriminate || assumption). reflexivity.
Qed.
