(** Lemmas about [Base]. *)
From Coq Require Import Lia ZifyBool ZifyNat ZifyN.
From Verif Require Import Base.
Local Open Scope Z_scope.
Ltac Zify.zify_post_hook ::= Z.div_mod_to_equations.

Lemma Zb_range b : 0 <= Zb b < 256.
Proof.
  unfold Zb. pose proof (N_ascii_bounded b). lia.
Qed.

Lemma Zb_bZ z : Zb (bZ z) = z mod 256.
Proof.
  unfold Zb, bZ. rewrite N_ascii_embedding; lia.
Qed.

Lemma Zb_bZ_small z : 0 <= z < 256 -> Zb (bZ z) = z.
Proof. intros. rewrite Zb_bZ. lia. Qed.

Lemma bZ_Zb b : bZ (Zb b) = b.
Proof.
  unfold bZ. pose proof (Zb_range b). rewrite Z.mod_small by lia.
  unfold Zb. rewrite N2Z.id. apply ascii_N_embedding.
Qed.

Lemma Zb_inj a b : Zb a = Zb b -> a = b.
Proof. intros H. rewrite <- (bZ_Zb a), <- (bZ_Zb b), H. reflexivity. Qed.

Lemma bZ_mod z : bZ (z mod 256) = bZ z.
Proof. unfold bZ. rewrite Z.mod_mod by lia. reflexivity. Qed.

Lemma bytes_eqb_spec a b : bytes_eqb a b = true <-> a = b.
Proof.
  revert b; induction a as [|x a IH]; intros [|y b]; simpl; try (split; congruence).
  rewrite andb_true_iff, Ascii.eqb_eq, IH. split.
  - intros [-> ->]; reflexivity.
  - intros H; inversion H; auto.
Qed.

Lemma bytes_eqb_refl a : bytes_eqb a a = true.
Proof. apply bytes_eqb_spec; reflexivity. Qed.

Lemma bytes_eqb_neq a b : bytes_eqb a b = false <-> a <> b.
Proof.
  destruct (bytes_eqb a b) eqn:E.
  - apply bytes_eqb_spec in E. split; congruence.
  - split; [|reflexivity]. intros _ ->. rewrite bytes_eqb_refl in E. discriminate.
Qed.

Lemma un16_be16 z r : 0 <= z < 65536 -> get_u16 (be16 z ++ r) = Ok (z, r).
Proof.
  intros. unfold be16, get_u16, un16; simpl. rewrite !Zb_bZ. do 2 f_equal. lia.
Qed.

Lemma un32_be32 z r : 0 <= z < 4294967296 -> get_u32 (be32 z ++ r) = Ok (z, r).
Proof.
  intros. unfold be32, get_u32, un32; simpl. rewrite !Zb_bZ. do 2 f_equal. lia.
Qed.

Lemma un16_be16_mod z r : get_u16 (be16 z ++ r) = Ok (z mod 65536, r).
Proof.
  intros. unfold be16, get_u16, un16; simpl. rewrite !Zb_bZ. do 2 f_equal. lia.
Qed.

Lemma un32_be32_mod z r : get_u32 (be32 z ++ r) = Ok (z mod 4294967296, r).
Proof.
  intros. unfold be32, get_u32, un32; simpl. rewrite !Zb_bZ. do 2 f_equal. lia.
Qed.

Lemma be16_length z : length (be16 z) = 2%nat. Proof. reflexivity. Qed.
Lemma be32_length z : length (be32 z) = 4%nat. Proof. reflexivity. Qed.

Lemma un16_range a b : 0 <= un16 a b < 65536.
Proof. unfold un16. pose proof (Zb_range a); pose proof (Zb_range b); lia. Qed.

Lemma un32_range a b c d : 0 <= un32 a b c d < 4294967296.
Proof.
  unfold un32. pose proof (Zb_range a); pose proof (Zb_range b).
  pose proof (Zb_range c); pose proof (Zb_range d); lia.
Qed.

Lemma bZ_eq z b : z mod 256 = Zb b -> bZ z = b.
Proof. intros H. apply Zb_inj. rewrite Zb_bZ. exact H. Qed.

Lemma be16_un16 a b : be16 (un16 a b) = [a; b].
Proof.
  unfold be16, un16. pose proof (Zb_range a); pose proof (Zb_range b).
  repeat f_equal; apply bZ_eq; lia.
Qed.

Lemma be32_un32 a b c d : be32 (un32 a b c d) = [a; b; c; d].
Proof.
  unfold be32, un32. pose proof (Zb_range a); pose proof (Zb_range b).
  pose proof (Zb_range c); pose proof (Zb_range d).
  repeat f_equal; apply bZ_eq; lia.
Qed.

Lemma to_s32_id z : - 2147483648 <= z < 2147483648 -> to_s32 (z mod 4294967296) = z.
Proof. intros. unfold to_s32. destruct (z mod 4294967296 <? 2147483648) eqn:E; lia. Qed.

Lemma get_bytes_app n a r :
  n = Z.of_nat (length a) -> get_bytes n (a ++ r) = Ok (a, r).
Proof.
  intros ->. unfold get_bytes. rewrite app_length.
  destruct (_ <=? _) eqn:E; [|lia].
  rewrite Nat2Z.id. rewrite firstn_app, Nat.sub_diag, firstn_all, skipn_app, Nat.sub_diag, skipn_all.
  simpl. rewrite app_nil_r. reflexivity.
Qed.

Lemma get_bytes_ok n s a r : 0 <= n ->
  get_bytes n s = Ok (a, r) -> s = a ++ r /\ Z.of_nat (length a) = n.
Proof.
  unfold get_bytes. intros Hn. destruct (_ <=? _) eqn:E; [|discriminate].
  intros H; inversion H; subst. rewrite firstn_skipn, firstn_length. split; [reflexivity|lia].
Qed.

Lemma load_mid pre x post n p :
  p = Z.of_nat (length pre) -> n = Z.of_nat (length x) ->
  load (pre ++ x ++ post) p n = Ok x.
Proof.
  intros -> ->. unfold load. rewrite !app_length.
  replace ((0 <=? Z.of_nat (length pre)) && (0 <=? Z.of_nat (length x)) &&
    (Z.of_nat (length pre) + Z.of_nat (length x) <=?
     Z.of_nat (length pre + (length x + length post)))) with true by lia.
  rewrite !Nat2Z.id.
  rewrite skipn_app, skipn_all, Nat.sub_diag. simpl.
  rewrite firstn_app, firstn_all, Nat.sub_diag. simpl. rewrite app_nil_r. reflexivity.
Qed.

Lemma load_inv m p n x : load m p n = Ok x ->
  0 <= p /\ 0 <= n /\ p + n <= Z.of_nat (length m) /\
  exists pre post, m = pre ++ x ++ post /\ Z.of_nat (length pre) = p /\ Z.of_nat (length x) = n.
Proof.
  unfold load. destruct (_ && _) eqn:E; [|discriminate]. intros H; inversion H; subst; clear H.
  split; [lia|]. split; [lia|]. split; [lia|].
  exists (firstn (Z.to_nat p) m), (skipn (Z.to_nat n) (skipn (Z.to_nat p) m)).
  split.
  - rewrite firstn_skipn. rewrite firstn_skipn. reflexivity.
  - rewrite !firstn_length, skipn_length. lia.
Qed.

Lemma string_bytes_id s : string_of_bytes (bytes_of_string s) = s.
Proof. apply string_of_list_ascii_of_string. Qed.
Lemma bytes_string_id l : bytes_of_string (string_of_bytes l) = l.
Proof. apply list_ascii_of_string_of_list_ascii. Qed.

Lemma bytes_of_string_length s : length (bytes_of_string s) = String.length s.
Proof. induction s; simpl; congruence. Qed.

Lemma load_all l n : n = Z.of_nat (length l) -> load l 0 n = Ok l.
Proof.
  intros ->. rewrite <- (app_nil_r l) at 1. apply (load_mid [] l []); reflexivity.
Qed.
