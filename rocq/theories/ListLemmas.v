(** General lemmas about lists (no model content). *)
From Coq Require Import Lia ZifyBool ZifyNat ZifyN.
From Verif Require Import Base.

Lemma concat_length_uniform {A} (c : nat) (l : list (list A)) :
  Forall (fun p => length p = c) l -> length (concat l) = length l * c.
Proof.
  induction 1 as [|p l Hp _ IH]; simpl; [reflexivity|].
  rewrite app_length, IH, Hp. lia.
Qed.

Lemma Forall_firstn {A} (P : A -> Prop) n l : Forall P l -> Forall P (firstn n l).
Proof.
  intros H. revert n; induction H; intros [|n]; simpl; auto.
Qed.

Lemma Forall_skipn {A} (P : A -> Prop) n l : Forall P l -> Forall P (skipn n l).
Proof.
  intros H. revert n; induction H; intros [|n]; simpl; auto.
Qed.

Lemma skipn_nth_cons {A} (d : A) i l :
  i < length l -> skipn i l = nth i l d :: skipn (S i) l.
Proof.
  revert i; induction l as [|x l IH]; intros [|i] H; simpl in *; try lia; [reflexivity|].
  apply IH. lia.
Qed.

Lemma firstn_all_eq_repeat {A} (x : A) k (l : list A) :
  k <= length l -> (forall i, i < k -> nth i l x = x) -> firstn k l = repeat x k.
Proof.
  revert l; induction k as [|k IH]; intros [|y l] Hk H; simpl in *; try lia; try reflexivity.
  f_equal.
  - apply (H 0). lia.
  - apply IH; [lia|]. intros i Hi. apply (H (S i)). lia.
Qed.

Lemma skipn_skipn {A} i j (l : list A) : skipn i (skipn j l) = skipn (j + i) l.
Proof.
  revert l; induction j as [|j IH]; intros l; simpl; [reflexivity|].
  destruct l; [now rewrite skipn_nil|]. apply IH.
Qed.

Lemma nth_skipn {A} (d : A) i j l : nth i (skipn j l) d = nth (j + i) l d.
Proof.
  revert l; induction j as [|j IH]; intros l; simpl; [reflexivity|].
  destruct l; [destruct i; reflexivity|]. apply IH.
Qed.

Lemma nth_firstn {A} (d : A) i k l : i < k -> nth i (firstn k l) d = nth i l d.
Proof.
  revert l i; induction k as [|k IH]; intros l i H; [lia|].
  destruct l as [|x l]; simpl; [reflexivity|].
  destruct i as [|i]; [reflexivity|]. apply IH. lia.
Qed.

Lemma concat_app_rev_snoc {A} (l : list (list A)) x : concat (l ++ [x]) = concat l ++ x.
Proof. rewrite concat_app. simpl. rewrite app_nil_r. reflexivity. Qed.

Lemma rev_map_rev {A B} (f : A -> B) l : map f (rev l) = rev (map f l).
Proof. apply map_rev. Qed.

Lemma concat_map_singleton {A B} (f : A -> B) (l : list A) :
  concat (map (fun x => [f x]) l) = map f l.
Proof. induction l; simpl; congruence. Qed.

Lemma repeat_app {A} (x : A) a b : repeat x (a + b) = repeat x a ++ repeat x b.
Proof. induction a; simpl; congruence. Qed.

Lemma concat_repeat_length {A} (x : list A) k : length (concat (repeat x k)) = k * length x.
Proof. induction k; simpl; [reflexivity|]. rewrite app_length. lia. Qed.

Lemma nth_overflow_any {A} (d : A) l i : length l <= i -> nth i l d = d.
Proof. apply nth_overflow. Qed.

Lemma list_eq_nth {A} (d : A) l l' :
  length l = length l' -> (forall i, i < length l -> nth i l d = nth i l' d) -> l = l'.
Proof.
  revert l'; induction l as [|x l IH]; intros [|y l'] Hl H; simpl in *; try lia; [reflexivity|].
  f_equal; [apply (H 0); lia|]. apply IH; [lia|]. intros i Hi. apply (H (S i)). lia.
Qed.

Lemma app_inj_length {A} (a b c d : list A) :
  length a = length b -> a ++ c = b ++ d -> a = b /\ c = d.
Proof.
  revert b; induction a as [|x a IH]; intros [|y b] Hl H; simpl in *; try lia; [auto|].
  inversion H; subst. destruct (IH b) as [-> ->]; auto.
Qed.

Lemma flat_map_concat_map' {A B} (f : A -> list B) l : flat_map f l = concat (map f l).
Proof. apply flat_map_concat_map. Qed.

Lemma firstn_S_snoc {A} (d : A) j l :
  j < length l -> firstn (S j) l = firstn j l ++ [nth j l d].
Proof.
  revert j; induction l as [|x l IH]; intros [|j] H; simpl in *; try lia; [reflexivity|].
  f_equal. apply IH. lia.
Qed.
