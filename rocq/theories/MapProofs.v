(** Lemmas about sorted association lists. *)
From Verif Require Import Base MapModel.
From Coq Require Import Lia Permutation.

Lemma compare_refl s : String.compare s s = Eq.
Proof. induction s as [|a s IH]; [reflexivity|]. cbn [String.compare]. unfold Ascii.compare. rewrite N.compare_refl. exact IH. Qed.
Lemma ascii_compare_lt_trans a b c : Ascii.compare a b = Lt -> Ascii.compare b c = Lt -> Ascii.compare a c = Lt.
Proof. unfold Ascii.compare. rewrite !N.compare_lt_iff. apply N.lt_trans. Qed.
Lemma ascii_compare_refl a : Ascii.compare a a = Eq.
Proof. unfold Ascii.compare. apply N.compare_refl. Qed.
Lemma ascii_compare_eq a b : Ascii.compare a b = Eq -> a = b.
Proof.
  unfold Ascii.compare. intros H. apply N.compare_eq_iff in H.
  rewrite <- (ascii_N_embedding a), <- (ascii_N_embedding b), H. reflexivity.
Qed.
Lemma compare_lt_trans : forall a b c, String.compare a b = Lt -> String.compare b c = Lt -> String.compare a c = Lt.
Proof.
  induction a as [|x a IH]; intros [|y b] [|z c]; cbn [String.compare]; try discriminate; auto.
  intros H1 H2. destruct (Ascii.compare x y) eqn:E1; try discriminate.
  - apply ascii_compare_eq in E1. subst y. destruct (Ascii.compare x z) eqn:E2; try discriminate; eauto.
  - destruct (Ascii.compare y z) eqn:E2; try discriminate.
    + apply ascii_compare_eq in E2. subst z. rewrite E1. reflexivity.
    + rewrite (ascii_compare_lt_trans _ _ _ E1 E2). reflexivity.
Qed.
Lemma compare_gt a b : String.compare a b = Gt -> String.compare b a = Lt.
Proof. intros H. rewrite String.compare_antisym, H. reflexivity. Qed.
Lemma compare_lt_neq a b : String.compare a b = Lt -> a <> b.
Proof. intros H ->. rewrite compare_refl in H. discriminate. Qed.

Section Map.
Context {A : Type}.
Implicit Types m : smap A.

Lemma map_get_lt k m : Forall (fun e => String.compare k (fst e) = Lt) m -> map_get k m = None.
Proof.
  induction m as [|[k' v] m IH]; intros H; [reflexivity|]. inversion H; subst. cbn [map_get].
  destruct (String.eqb_spec k k') as [->|]; [|auto]. simpl in *. rewrite compare_refl in *. discriminate.
Qed.
Lemma map_get_insert k v m k' : sorted_keys m ->
  map_get k' (map_insert k v m) = if String.eqb k' k then (match map_get k m with Some w => Some w | None => Some v end) else map_get k' m.
Proof.
  induction m as [|[k1 v1] m IH]; intros Hs; cbn [map_insert map_get].
  - reflexivity.
  - destruct Hs as [Hf Hs]. destruct (String.compare k k1) eqn:E; cbn [map_get].
    + apply String.compare_eq_iff in E. subst k1. rewrite String.eqb_refl.
      destruct (String.eqb_spec k' k); reflexivity.
    + rewrite (map_get_lt k m).
      * destruct (String.eqb_spec k k1) as [->|]; [rewrite compare_refl in E; discriminate|].
        destruct (String.eqb_spec k' k); reflexivity.
      * eapply Forall_impl; [|exact Hf]. intros e. apply compare_lt_trans. exact E.
    + rewrite IH by assumption. destruct (String.eqb_spec k k1) as [->|]; [rewrite compare_refl in E; discriminate|].
      destruct (String.eqb_spec k' k1) as [->|]; [|reflexivity].
      destruct (String.eqb_spec k1 k); [congruence|reflexivity].
Qed.
Lemma insert_keys k v m e : In e (map_insert k v m) -> e = (k, v) \/ In e m.
Proof.
  induction m as [|[k1 v1] m IH]; cbn [map_insert]; [intros [<-|[]]; auto|].
  destruct (String.compare k k1); simpl; [intuition|intuition|]. intros [<-|H]; [auto|]. apply IH in H. intuition.
Qed.
Lemma insert_sorted k v m : sorted_keys m -> sorted_keys (map_insert k v m).
Proof.
  induction m as [|[k1 v1] m IH]; intros Hs; cbn [map_insert]; [repeat constructor|].
  destruct Hs as [Hf Hs]. destruct (String.compare k k1) eqn:E.
  - split; assumption.
  - split; [|split; assumption]. constructor; [exact E|]. eapply Forall_impl; [|exact Hf]. intros e. apply compare_lt_trans. exact E.
  - split; [|auto]. apply Forall_forall. intros e He. apply insert_keys in He. destruct He as [->|He].
    + apply compare_gt. exact E.
    + rewrite Forall_forall in Hf. auto.
Qed.
Lemma map_get_set k v m k' : sorted_keys m -> map_get k' (map_set k v m) = if String.eqb k' k then Some v else map_get k' m.
Proof.
  induction m as [|[k1 v1] m IH]; intros Hs; cbn [map_set map_get].
  - reflexivity.
  - destruct Hs as [Hf Hs]. destruct (String.compare k k1) eqn:E; cbn [map_get].
    + apply String.compare_eq_iff in E. subst k1. destruct (String.eqb_spec k' k); reflexivity.
    + reflexivity.
    + rewrite IH by assumption. destruct (String.eqb_spec k' k1) as [->|]; [|reflexivity].
      destruct (String.eqb_spec k1 k) as [->|]; [rewrite compare_refl in E; discriminate|reflexivity].
Qed.
Lemma set_keys k v m e : In e (map_set k v m) -> e = (k, v) \/ In e m.
Proof.
  induction m as [|[k1 v1] m IH]; cbn [map_set]; [intros [<-|[]]; auto|].
  destruct (String.compare k k1); simpl; [intuition|intuition|]. intros [<-|H]; [auto|]. apply IH in H. intuition.
Qed.
Lemma set_sorted k v m : sorted_keys m -> sorted_keys (map_set k v m).
Proof.
  induction m as [|[k1 v1] m IH]; intros Hs; cbn [map_set]; [repeat constructor|].
  destruct Hs as [Hf Hs]. destruct (String.compare k k1) eqn:E.
  - apply String.compare_eq_iff in E. subst k1. split; assumption.
  - split; [|split; assumption]. constructor; [exact E|]. eapply Forall_impl; [|exact Hf]. intros e. apply compare_lt_trans. exact E.
  - split; [|auto]. apply Forall_forall. intros e He. apply set_keys in He. destruct He as [->|He].
    + apply compare_gt. exact E.
    + rewrite Forall_forall in Hf. auto.
Qed.
Lemma map_get_erase k m k' : sorted_keys m -> map_get k' (map_erase k m) = if String.eqb k' k then None else map_get k' m.
Proof.
  induction m as [|[k1 v1] m IH]; intros Hs; cbn [map_erase map_get].
  - destruct (String.eqb k' k); reflexivity.
  - destruct Hs as [Hf Hs]. destruct (String.eqb_spec k k1) as [->|].
    + destruct (String.eqb_spec k' k1) as [E|E]; [|reflexivity]. rewrite E. apply map_get_lt. exact Hf.
    + cbn [map_get]. rewrite IH by assumption. destruct (String.eqb_spec k' k1) as [->|]; [|reflexivity].
      destruct (String.eqb_spec k1 k); [congruence|reflexivity].
Qed.
Lemma erase_keys k m e : In e (map_erase k m) -> In e m.
Proof.
  induction m as [|[k1 v1] m IH]; cbn [map_erase]; [auto|]. destruct (String.eqb k k1); simpl; intuition.
Qed.
Lemma erase_sorted k m : sorted_keys m -> sorted_keys (map_erase k m).
Proof.
  induction m as [|[k1 v1] m IH]; intros Hs; cbn [map_erase]; [exact I|]. destruct Hs as [Hf Hs].
  destruct (String.eqb k k1); [assumption|]. split; [|auto]. apply Forall_forall. intros e He. apply erase_keys in He.
  rewrite Forall_forall in Hf. auto.
Qed.

(** a sorted map is determined by its lookups *)
Lemma map_ext m1 m2 : sorted_keys m1 -> sorted_keys m2 -> (forall k, map_get k m1 = map_get k m2) -> m1 = m2.
Proof.
  revert m2. induction m1 as [|[k1 v1] m1 IH]; intros [|[k2 v2] m2] H1 H2 H.
  - reflexivity.
  - specialize (H k2). cbn [map_get] in H. rewrite String.eqb_refl in H. discriminate.
  - specialize (H k1). cbn [map_get] in H. rewrite String.eqb_refl in H. discriminate.
  - destruct H1 as [F1 S1], H2 as [F2 S2].
    assert (E : k1 = k2).
    { destruct (String.compare k1 k2) eqn:E.
      - apply String.compare_eq_iff. exact E.
      - exfalso. specialize (H k1). cbn [map_get] in H. rewrite String.eqb_refl in H.
        destruct (String.eqb_spec k1 k2) as [->|]; [rewrite compare_refl in E; discriminate|].
        rewrite map_get_lt in H; [discriminate|]. eapply Forall_impl; [|exact F2]. intros e. apply compare_lt_trans. exact E.
      - exfalso. apply compare_gt in E. specialize (H k2). cbn [map_get] in H. rewrite String.eqb_refl in H.
        destruct (String.eqb_spec k2 k1) as [->|]; [rewrite compare_refl in E; discriminate|].
        rewrite map_get_lt in H; [discriminate|]. eapply Forall_impl; [|exact F1]. intros e. apply compare_lt_trans. exact E. }
    subst k2. pose proof (H k1) as Hv. cbn [map_get] in Hv. rewrite String.eqb_refl in Hv. injection Hv as ->. f_equal.
    apply IH; [assumption|assumption|]. intros k. specialize (H k). cbn [map_get] in H.
    destruct (String.eqb_spec k k1) as [E|E]; [|exact H]. rewrite E in *. rewrite !map_get_lt by assumption. reflexivity.
Qed.
Lemma map_get_In k v m : map_get k m = Some v -> In (k, v) m.
Proof.
  induction m as [|[k1 v1] m IH]; cbn [map_get]; [discriminate|]. destruct (String.eqb_spec k k1) as [->|].
  - intros E. injection E as ->. left. reflexivity.
  - right. auto.
Qed.
Lemma In_map_get k v m : sorted_keys m -> In (k, v) m -> map_get k m = Some v.
Proof.
  induction m as [|[k1 v1] m IH]; intros Hs H; [contradiction|]. destruct Hs as [Hf Hs]. cbn [map_get].
  destruct H as [E|H].
  - injection E as -> ->. rewrite String.eqb_refl. reflexivity.
  - destruct (String.eqb_spec k k1) as [->|]; [|auto]. rewrite Forall_forall in Hf. specialize (Hf _ H).
    simpl in Hf. rewrite compare_refl in Hf. discriminate.
Qed.
Lemma map_get_none k m : map_get k m = None <-> ~ In k (map fst m).
Proof.
  induction m as [|[k1 v1] m IH]; cbn [map_get map In fst]; [tauto|]. destruct (String.eqb_spec k k1) as [->|].
  - split; [discriminate|]. intros H. contradiction H. left. reflexivity.
  - rewrite IH. split; [|tauto]. intros H [|]; congruence.
Qed.
Lemma sorted_nodup m : sorted_keys m -> NoDup (map fst m).
Proof.
  induction m as [|[k v] m IH]; intros H; [constructor|]. destruct H as [Hf Hs]. cbn [map fst]. constructor; [|auto].
  apply map_get_none. apply map_get_lt. exact Hf.
Qed.

(** inserting entries with distinct keys one after another, in any order, gives the
    sorted map of these entries *)
Definition insert_all (l : list (string * A)) (m : smap A) : smap A := fold_left (fun m e => map_insert (fst e) (snd e) m) l m.
Lemma insert_all_sorted l : forall m, sorted_keys m -> sorted_keys (insert_all l m).
Proof. induction l as [|e l IH]; intros m H; [exact H|]. apply IH. apply insert_sorted. exact H. Qed.
Lemma insert_all_get l : forall m k, sorted_keys m -> NoDup (map fst l) -> (forall k, In k (map fst l) -> map_get k m = None) ->
  map_get k (insert_all l m) = match map_get k l with Some v => Some v | None => map_get k m end.
Proof.
  induction l as [|[k1 v1] l IH]; intros m k Hs Hn Hm; [reflexivity|]. cbn [insert_all fold_left fst snd map_get].
  inversion Hn as [|? ? Hn1 Hn2]; subst. change (fold_left _ l ?x) with (insert_all l x).
  rewrite IH; [|apply insert_sorted; assumption|assumption|].
  - rewrite map_get_insert by assumption. rewrite (Hm k1) by (left; reflexivity).
    destruct (String.eqb_spec k k1) as [->|]; [|reflexivity].
    rewrite (proj2 (map_get_none k1 l)) by assumption. reflexivity.
  - intros k' Hk'. rewrite map_get_insert by assumption. destruct (String.eqb_spec k' k1) as [->|]; [contradiction|].
    apply Hm. right. exact Hk'.
Qed.
Lemma insert_all_permutation l m : sorted_keys m -> Permutation l m -> insert_all l [] = m.
Proof.
  intros Hs Hp. assert (Hn : NoDup (map fst l)).
  { eapply Permutation_NoDup; [|apply sorted_nodup; exact Hs]. apply Permutation_map. apply Permutation_sym. exact Hp. }
  apply map_ext; [apply insert_all_sorted; exact I|assumption|]. intros k. rewrite insert_all_get; [|exact I|assumption|reflexivity].
  destruct (map_get k l) as [v|] eqn:E.
  - symmetry. apply In_map_get; [assumption|]. eapply Permutation_in; [exact Hp|]. apply map_get_In. exact E.
  - symmetry. apply map_get_none. apply map_get_none in E. intros H. apply E.
    eapply Permutation_in; [|exact H]. apply Permutation_map. apply Permutation_sym. exact Hp.
Qed.
Lemma erase_permutation k v m : sorted_keys m -> map_get k m = Some v -> Permutation m ((k, v) :: map_erase k m).
Proof.
  induction m as [|[k1 v1] m IH]; cbn [map_get map_erase]; [discriminate|]. intros [Hf Hs].
  destruct (String.eqb_spec k k1) as [->|].
  - intros E. injection E as ->. apply Permutation_refl.
  - intros E. eapply perm_trans; [apply perm_skip; apply IH; assumption|]. apply perm_swap.
Qed.
End Map.
