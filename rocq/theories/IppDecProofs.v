(** Decoding: the model of IppMsg's decoder inverts the items of RFC 8010, and what it
    does with other data. *)
From Verif Require Import Base BaseLemmas MapModel MapProofs IppModel IppSpec IppEncProofs.
From Coq Require Import Lia ZifyBool ZifyNat Permutation.
Local Open Scope Z_scope.
Ltac Zify.zify_post_hook ::= Z.div_mod_to_equations.

(** ** Single values *)
Lemma next_zero_be16 z r : 0 < z < 65536 -> next_zero (be16 z ++ r) = None.
Proof.
  intros H. assert (E : get_u16 (be16 z ++ r) = Ok (z, r)) by (apply un16_be16; lia).
  unfold be16, next_zero, get_u16 in *. cbn [app] in *. injection E as E1. rewrite E1. destruct (z =? 0) eqn:?; [lia|reflexivity].
Qed.
Lemma expect_be16 z r : 0 <= z < 65536 -> expect_u16 z (be16 z ++ r) = Ok r.
Proof. intros H. unfold expect_u16. rewrite un16_be16 by exact H. cbn [bind fst snd]. rewrite Z.eqb_refl. reflexivity. Qed.
Lemma get_u8_bZ z r : 0 <= z < 256 -> get_u8 (bZ z :: r) = Ok (z, r).
Proof. intros H. unfold get_u8. rewrite Zb_bZ_small by exact H. reflexivity. Qed.
Lemma un32_s z r : s32_ok z = true -> exists u, get_u32 (be32 z ++ r) = Ok (u, r) /\ to_s32 u = z.
Proof.
  intros H. exists (z mod 4294967296). rewrite un32_be32_mod. split; [reflexivity|]. apply to_s32_id. unfold s32_ok in H. lia.
Qed.
Lemma get_str_bytes s r : str_ok s = true -> get_str (be16 (blen (bytes_of_string s)) ++ bytes_of_string s ++ r) = Ok (s, r).
Proof.
  intros H. pose proof (str_ok_blen _ H). unfold get_str. rewrite un16_be16 by (unfold blen in *; lia). cbn [bind].
  rewrite get_bytes_app by reflexivity. cbn [bind]. rewrite string_bytes_id. reflexivity.
Qed.
Lemma get_date_bytes d r : date_ok d = true ->
  get_date (scalar_bytes (VDate d) ++ r) = Ok (d, r).
Proof.
  unfold date_ok, u16_ok, u8_ok. cbn [forallb]. intros H.
  repeat match goal with H : (_ && _)%bool = true |- _ => apply andb_prop in H as [? ?] end.
  unfold get_date. cbn [scalar_bytes]. rewrite <- app_assoc. rewrite un16_be16 by lia. cbn [bind map app].
  repeat (rewrite get_u8_bZ by lia; cbn [bind]). destruct d. reflexivity.
Qed.
Lemma decodeValue_scalar t v r : scalar_ok t v = true ->
  decodeValue t (be16 (blen (scalar_bytes v)) ++ scalar_bytes v ++ r) = Ok (v, r).
Proof.
  destruct v as [s|z|c|lo hi|x y u|d|l|m]; cbn [scalar_ok]; intros H; try discriminate.
  - apply andb_prop in H as [H Hl]. apply in_str_tags in H. cbn [scalar_bytes].
    assert (E : decodeValue t (be16 (blen (bytes_of_string s)) ++ bytes_of_string s ++ r) =
                bind (get_str (be16 (blen (bytes_of_string s)) ++ bytes_of_string s ++ r)) (fun x => let (b, s) := x in Ok (VStr b, s))).
    { unfold str_tags in H. cbn [In] in H. repeat (destruct H as [<-|H]; [reflexivity|]). destruct H. }
    rewrite E. rewrite get_str_bytes by exact Hl. reflexivity.
  - apply andb_prop in H as [H Hz]. destruct (un32_s z r Hz) as [w [E1 E2]].
    apply orb_prop in H as [H|H]; apply Z.eqb_eq in H; subst t; unfold decodeValue; cbn [Z.eqb orb Pos.eqb tOpAttrs tJobAttrs tEndAttrs tPrinterAttrs tUnsupportedAttrs tInteger tEnum];
    cbn [scalar_bytes]; change (blen (be32 z)) with 4; rewrite next_zero_be16 by lia; rewrite expect_be16 by lia; cbn [bind];
    rewrite E1; cbn [bind]; rewrite E2; reflexivity.
  - apply Z.eqb_eq in H; subst t. destruct c; reflexivity.
  - apply andb_prop in H as [H H2]. apply andb_prop in H as [H H1]. apply Z.eqb_eq in H; subst t.
    destruct (un32_s lo (be32 hi ++ r) H1) as [w [E1 E2]]. destruct (un32_s hi r H2) as [w2 [E3 E4]].
    unfold decodeValue. cbn -[be32 be16 next_zero expect_u16 get_u32 bind]. change (blen (be32 lo ++ be32 hi)) with 8. rewrite next_zero_be16 by lia; rewrite expect_be16 by lia; cbn [bind].
    rewrite <- app_assoc. rewrite E1. cbn [bind]. rewrite E3. cbn [bind]. rewrite E2, E4. reflexivity.
  - apply andb_prop in H as [H H3]. apply andb_prop in H as [H H2]. apply andb_prop in H as [H H1]. apply Z.eqb_eq in H; subst t.
    unfold u32_ok, u8_ok in *.
    unfold decodeValue. cbn -[be32 be16 next_zero expect_u16 get_u32 get_u8 bind bZ]. change (blen (be32 x ++ be32 y ++ [bZ u])) with 9. rewrite next_zero_be16 by lia; rewrite expect_be16 by lia; cbn [bind].
    rewrite <- app_assoc. rewrite un32_be32 by lia. cbn [bind]. rewrite <- app_assoc. rewrite un32_be32 by lia. cbn [bind app].
    rewrite get_u8_bZ by lia. reflexivity.
  - apply andb_prop in H as [H H1]. apply Z.eqb_eq in H; subst t. unfold decodeValue. cbn -[be32 be16 next_zero expect_u16 get_date bind bZ scalar_bytes].
    change (blen (scalar_bytes (VDate d))) with 11. rewrite next_zero_be16 by lia; rewrite expect_be16 by lia; cbn [bind].
    rewrite get_date_bytes by exact H1. reflexivity.
Qed.
Lemma decodeValue_str t s r : In t [0x34; 0x37; 0x4A] -> str_ok s = true ->
  decodeValue t (be16 (blen (bytes_of_string s)) ++ bytes_of_string s ++ r) = Ok (VStr s, r).
Proof.
  intros Ht Hs. assert (E : decodeValue t (be16 (blen (bytes_of_string s)) ++ bytes_of_string s ++ r) =
                bind (get_str (be16 (blen (bytes_of_string s)) ++ bytes_of_string s ++ r)) (fun x => let (b, s) := x in Ok (VStr b, s))).
  { cbn [In] in Ht. repeat (destruct Ht as [<-|Ht]; [reflexivity|]). destruct Ht. }
  rewrite E. rewrite get_str_bytes by exact Hs. reflexivity.
Qed.

(** the attributes that decoding the items of a value one by one gives *)
Fixpoint flat (t : Z) (v : ipp_value) {struct v} : list ipp_attr :=
  match v with
  | VSet l => flat_map (flat t) l
  | VColl m => (0x34, VStr "") :: flat_map (fun e => (0x4A, VStr (fst e)) :: flat (fst (snd e)) (snd (snd e))) m ++ [(0x37, VStr "")]
  | _ => [(t, v)]
  end.
(** item and decoded attribute *)
Definition item_dec (i : item) (a : ipp_attr) : Prop :=
  i_tag i = fst a /\ 0 <= i_tag i < 256 /\
  forall r, decodeValue (fst a) (be16 (blen (i_value i)) ++ i_value i ++ r) = Ok (snd a, r).
Lemma scalar_tag t v : scalar_ok t v = true -> 0x21 <= t <= 0x49 /\ t <> 0x34 /\ t <> 0x37.
Proof.
  destruct v; cbn [scalar_ok]; intros H; try discriminate; try lia. apply andb_prop in H as [H _]. apply in_str_tags in H.
  apply str_tags_range in H. lia.
Qed.
Lemma flat_dec v : forall s t name, wf_val s t v = true -> Forall2 item_dec (attr_items name t v) (flat t v).
Proof.
  induction v as [v Hs Hc|l IH|m IH] using value_ind2; intros s t name H.
  - assert (Hk : scalar_ok t v = true) by (destruct v; try exact H; exfalso; [eapply Hs|eapply Hc]; reflexivity).
    pose proof (scalar_tag _ _ Hk).
    assert (G : Forall2 item_dec [mkItem t (bytes_of_string name) (scalar_bytes v)] [(t, v)]).
    { constructor; [|constructor]. split; [reflexivity|]. split; [cbn; lia|]. intros r. apply decodeValue_scalar. exact Hk. }
    destruct v; try exact G; exfalso; [eapply Hs|eapply Hc]; reflexivity.
  - cbn [wf_val] in H. apply andb_prop in H as [_ H]. destruct l as [|w l]; [constructor|]. cbn [attr_items flat flat_map].
    cbn [forallb] in H. apply andb_prop in H as [Hw Hl]. inversion IH as [|? ? Iw Il]; subst.
    apply Forall2_app; [eapply Iw; exact Hw|]. clear Iw IH Hw. induction l as [|w' l IHl]; [constructor|]. cbn [flat_map].
    inversion Il; subst. cbn [forallb] in Hl. apply andb_prop in Hl as [Hw Hl]. apply Forall2_app; [eapply H1; exact Hw|]. apply IHl; assumption.
  - cbn [wf_val] in H. apply andb_prop in H as [H H2]. apply andb_prop in H as [H0 _]. apply Z.eqb_eq in H0. subst t. cbn [attr_items flat].
    constructor; [split; [reflexivity|]; split; [cbn; lia|]; intros r; apply (decodeValue_str 0x34 "" r); [cbn; auto|reflexivity]|].
    apply Forall2_app.
    + induction m as [|[k [t w]] m IHm]; [constructor|]. cbn [flat_map fst snd app]. inversion IH as [|? ? Iw Im]; subst.
      cbn [forallb fst snd] in H2. apply andb_prop in H2 as [Hw Hl]. apply andb_prop in Hw as [Hk Hw]. constructor.
      * split; [reflexivity|]. split; [cbn; lia|]. intros r. apply (decodeValue_str 0x4A k r); [cbn; auto|exact Hk].
      * apply Forall2_app; [eapply Iw; exact Hw|]. apply IHm; assumption.
    + constructor; [|constructor]. split; [reflexivity|]. split; [cbn; lia|]. intros r. apply (decodeValue_str 0x37 "" r); [cbn; auto|reflexivity].
Qed.
Lemma attr_items_first : forall v s t name, wf_val s t v = true ->
  exists i its, attr_items name t v = i :: its /\ i_tag i = t /\ i_name i = bytes_of_string name /\ Forall (fun i => i_name i = []) its.
Proof.
  assert (Hun : forall v t, Forall (fun i => i_name i = []) (attr_items "" t v)).
  { intros v. induction v as [v Hs Hc|l IH|m IH] using value_ind2; intros t.
    - destruct v; try (constructor; [reflexivity|constructor]); exfalso; [eapply Hs|eapply Hc]; reflexivity.
    - cbn [attr_items]. destruct l as [|w l]; [constructor|]. inversion IH; subst. apply Forall_app. split; [apply H1|].
      apply Forall_flat_map. eapply Forall_impl; [|exact H2]. cbn. auto.
    - cbn [attr_items]. constructor; [reflexivity|]. apply Forall_app. split; [|constructor; [reflexivity|constructor]].
      apply Forall_flat_map. eapply Forall_impl; [|exact IH]. cbn. intros. constructor; [reflexivity|auto]. }
  intros v. induction v as [v Hs Hc|l IH|m IH] using value_ind2; intros s t name H.
  - exists (mkItem t (bytes_of_string name) (scalar_bytes v)), [].
    destruct v; try (split; [reflexivity|]; split; [reflexivity|]; split; [reflexivity|constructor]); exfalso; [eapply Hs|eapply Hc]; reflexivity.
  - cbn [wf_val] in H. apply andb_prop in H as [H0 H]. destruct l as [|w l]; [cbn in H0; lia|]. cbn [forallb] in H.
    apply andb_prop in H as [Hw Hl]. inversion IH; subst. destruct (H2 _ _ name Hw) as [i [its [E [E1 [E2 E3]]]]].
    exists i, (its ++ flat_map (attr_items "" t) l). cbn [attr_items]. rewrite E. split; [reflexivity|]. split; [exact E1|]. split; [exact E2|].
    apply Forall_app. split; [exact E3|]. apply Forall_flat_map. apply Forall_forall. intros. apply Hun.
  - cbn [wf_val] in H. apply andb_prop in H as [H H2]. apply andb_prop in H as [H0 _]. apply Z.eqb_eq in H0. subst t. cbn [attr_items].
    eexists. eexists. split; [reflexivity|]. split; [reflexivity|]. split; [reflexivity|].
    apply Forall_app. split; [|constructor; [reflexivity|constructor]].
    apply Forall_flat_map. apply Forall_forall. cbn. intros. constructor; [reflexivity|]. apply Hun.
Qed.

(** ** getUnnamedAttributes *)
(** the data does not continue with an unnamed value *)
Definition stops (s : list byte) : Prop := match s with [] => True | _ :: r => next_zero r = None end.
Lemma getUnnamed_items its : forall l fuel r, Forall2 item_dec its l -> Forall (fun i => i_name i = []) its -> stops r ->
  (length (flat_map item_bytes its ++ r) <= fuel)%nat -> getUnnamed fuel (flat_map item_bytes its ++ r) = Ok (l, r).
Proof.
  induction its as [|i its IH]; intros l fuel r Hd Hn Hr Hf.
  - inversion Hd; subst. cbn [flat_map app]. destruct r as [|t r]; [destruct fuel; reflexivity|]. cbn in Hr.
    destruct fuel; cbn [getUnnamed]; rewrite Hr; reflexivity.
  - inversion Hd as [|? a ? l' Hi Hd']; subst. inversion Hn as [|? ? Hn1 Hn2]; subst. destruct Hi as [Ht [Hr2 Hv]].
    cbn [flat_map]. unfold item_bytes at 1. rewrite Hn1. cbn [app]. rewrite <- !app_assoc.
    destruct fuel as [|fuel]; [cbn in Hf; lia|]. cbn [getUnnamed].
    change (be16 (blen []) ++ ?x) with (bZ 0 :: bZ 0 :: x). unfold next_zero. change (un16 (bZ 0) (bZ 0) =? 0) with true. cbv iota.
    rewrite Zb_bZ_small by exact Hr2. rewrite Ht. rewrite Hv. cbn [bind]. rewrite (IH l'); [|assumption|assumption|assumption|].
    + cbn [bind]. destruct a. reflexivity.
    + cbn [flat_map] in Hf. unfold item_bytes at 1 in Hf. rewrite !app_length in *. cbn [length] in Hf. rewrite !app_length in Hf. lia.
Qed.

(** ** collectAttributes *)
Lemma takeSame_rest t l : forall vs r, takeSame t l = Ok (vs, r) -> (length r <= length l)%nat.
Proof.
  induction l as [|[t' v] l IH]; intros vs r H; cbn [takeSame] in H; [discriminate|]. destruct (t' =? t).
  - bind_inv H as x Hx K. destruct x as [vs' r']. injection K as <- <-. apply IH in Hx. cbn [length]. lia.
  - injection H as <- <-. lia.
Qed.
Lemma collect_rest fuel : forall l arr acc v r, collect fuel l arr acc = Ok (v, r) -> (length r <= length l)%nat.
Proof.
  induction fuel as [|fuel IH]; intros l arr acc v r H; [discriminate|]. cbn [collect] in H.
  destruct l as [|[tag w] rest]; [injection H as <- <-; lia|].
  destruct (tag =? tMemberName).
  - destruct w as [key| | | | | | |]; try discriminate. destruct rest as [|[t1 v1] rest1]; [discriminate|].
    destruct (t1 =? tBeginCollection).
    + bind_inv H as x Hx K. destruct x as [cv rest2]. apply IH in Hx. apply IH in K. cbn [length]. lia.
    + bind_inv H as x Hx K. destruct x as [cv rest2]. apply takeSame_rest in Hx. apply IH in K. cbn [length]. lia.
  - destruct (tag =? tEndCollection); [|discriminate]. destruct rest as [|[t1 v1] rest1]; [injection H as <- <-; cbn; lia|].
    destruct (t1 =? tBeginCollection); [apply IH in H; cbn [length]; lia|]. injection H as <- <-. cbn [length]. lia.
Qed.
Lemma collect_fuel f1 : forall f2 l arr acc, (length l < f1)%nat -> (length l < f2)%nat -> collect f1 l arr acc = collect f2 l arr acc.
Proof.
  induction f1 as [|f1 IH]; intros f2 l arr acc H1 H2; [lia|]. destruct f2 as [|f2]; [lia|]. cbn [collect].
  destruct l as [|[tag w] rest]; [reflexivity|]. cbn [length] in *.
  destruct (tag =? tMemberName).
  - destruct w as [key| | | | | | |]; try reflexivity. destruct rest as [|[t1 v1] rest1]; [reflexivity|]. cbn [length] in *.
    destruct (t1 =? tBeginCollection).
    + rewrite (IH f2) by lia. destruct (collect f2 rest1 [] []) as [[cv rest2]| | | |] eqn:E; try reflexivity. cbn [bind].
      apply collect_rest in E. apply IH; lia.
    + destruct (takeSame t1 rest1) as [[cv rest2]| | | |] eqn:E; try reflexivity. cbn [bind].
      apply takeSame_rest in E. apply IH; lia.
  - destruct (tag =? tEndCollection); [|reflexivity]. destruct rest as [|[t1 v1] rest1]; [reflexivity|]. cbn [length] in *.
    destruct (t1 =? tBeginCollection); [apply IH; lia|reflexivity].
Qed.
(** without fuel *)
Definition collect' (l : list ipp_attr) (arr : list ipp_value) (acc : ipp_attrs) := collect (S (length l)) l arr acc.
Lemma collect_collect' f l arr acc : (length l < f)%nat -> collect f l arr acc = collect' l arr acc.
Proof. intros H. apply collect_fuel; lia. Qed.
(** the end of a collection; [rest] follows *)
Definition finish (arr : list ipp_value) (rest : list ipp_attr) : outcome (ipp_value * list ipp_attr) :=
  match rest with
  | [] => Ok (collapse arr, [])
  | (t, _) :: rest1 => if t =? tBeginCollection then collect' rest1 arr [] else Ok (collapse arr, rest)
  end.
Lemma collect'_end v rest arr acc : collect' ((0x37, v) :: rest) arr acc = finish (arr ++ [VColl acc]) rest.
Proof.
  unfold collect'. cbn [collect]. change (0x37 =? tMemberName) with false. change (0x37 =? tEndCollection) with true. cbv iota.
  destruct rest as [|[t w] rest1]; [reflexivity|]. cbn [finish]. destruct (t =? tBeginCollection); [|reflexivity].
  apply collect_collect'. cbn [length]. lia.
Qed.
Lemma collect'_coll k v rest arr acc : collect' ((0x4A, VStr k) :: (0x34, v) :: rest) arr acc =
  let! (cv, rest2) := collect' rest [] [] in collect' rest2 arr (map_insert k (0x34, cv) acc).
Proof.
  unfold collect' at 1. cbn [collect]. change (0x4A =? tMemberName) with true. change (0x34 =? tBeginCollection) with true. cbv iota.
  rewrite collect_collect' by (cbn [length]; lia). destruct (collect' rest [] []) as [[cv rest2]| | | |] eqn:E; try reflexivity. cbn [bind].
  unfold collect' in E. apply collect_rest in E. apply collect_collect'. cbn [length]. lia.
Qed.
Lemma collect'_value k t v rest arr acc : t <> 0x34 -> collect' ((0x4A, VStr k) :: (t, v) :: rest) arr acc =
  let! (more, rest2) := takeSame t rest in
  collect' rest2 arr (map_insert k (t, match more with [] => v | _ => VSet (v :: more) end) acc).
Proof.
  intros Ht. unfold collect' at 1. cbn [collect]. change (0x4A =? tMemberName) with true.
  replace (t =? tBeginCollection) with false by (unfold tBeginCollection; lia). cbv iota.
  destruct (takeSame t rest) as [[cv rest2]| | | |] eqn:E; try reflexivity. cbn [bind].
  apply takeSame_rest in E. apply collect_collect'. cbn [length]. lia.
Qed.

(** the attributes of a collection after its beginning *)
Definition members (m : list (string * ipp_attr)) : list ipp_attr :=
  flat_map (fun e => (0x4A, VStr (fst e)) :: flat (fst (snd e)) (snd (snd e))) m.
Definition body (m : list (string * ipp_attr)) : list ipp_attr := members m ++ [(0x37, VStr "")].
Lemma flat_coll t m : flat t (VColl m) = (0x34, VStr "") :: body m.
Proof. reflexivity. Qed.

(** what follows a member: another member or the end *)
Definition member_next (l : list ipp_attr) : Prop := match l with (t, _) :: _ => t = 0x4A \/ t = 0x37 | [] => False end.
Definition coll_P (v : ipp_value) : Prop := forall m t, v = VColl m -> wf_val false t v = true ->
  forall rest arr, collect' (body m ++ rest) arr [] = finish (arr ++ [v]) rest.
Lemma wf_val_coll s t m : wf_val s t (VColl m) = true -> t = 0x34.
Proof. cbn [wf_val]. intros H. apply andb_prop in H as [H _]. apply andb_prop in H as [H _]. lia. Qed.
Lemma wf_val_0x34 v : wf_val false 0x34 v = true -> exists m, v = VColl m.
Proof. destruct v; cbn; intros H; try discriminate. eauto. Qed.
(** a set of collections *)
Lemma collect_set l : Forall coll_P l -> forallb (wf_val false 0x34) l = true -> forall m arr rest,
  coll_P (VColl m) -> wf_val false 0x34 (VColl m) = true -> member_next rest \/ rest = [] ->
  collect' (body m ++ flat_map (flat 0x34) l ++ rest) arr [] = Ok (collapse (arr ++ VColl m :: l), rest).
Proof.
  induction 1 as [|w l Hw Hl IH]; intros Hf m arr rest Hm Hwf Hr.
  - rewrite (Hm m 0x34 eq_refl Hwf). cbn [flat_map app]. destruct rest as [|[t x] rest]; [reflexivity|]. cbn [finish].
    destruct Hr as [Hr|Hr]; [|discriminate]. cbn in Hr. replace (t =? tBeginCollection) with false by (unfold tBeginCollection; lia). reflexivity.
  - cbn [forallb] in Hf. apply andb_prop in Hf as [Hfw Hfl]. rewrite (Hm m 0x34 eq_refl Hwf). cbn [flat_map].
    destruct (wf_val_0x34 _ Hfw) as [m' E]. subst w. rewrite flat_coll. cbn [app finish]. change (0x34 =? tBeginCollection) with true. cbv iota.
    rewrite <- app_assoc. rewrite IH by assumption. rewrite <- app_assoc. reflexivity.
Qed.
Lemma flat_scalar t v : scalar_ok t v = true -> flat t v = [(t, v)].
Proof. destruct v; cbn; intros; try reflexivity; discriminate. Qed.
Lemma wf_val_scalar t v : wf_val false t v = true -> t <> 0x34 -> scalar_ok t v = true.
Proof. destruct v; intros H Ht; try exact H; apply wf_val_coll in H. congruence. Qed.
Lemma takeSame_set t l rest : forallb (wf_val false t) l = true -> t <> 0x34 -> t <> 0x4A -> t <> 0x37 -> member_next rest ->
  takeSame t (flat_map (flat t) l ++ rest) = Ok (l, rest).
Proof.
  intros Hl Ht H1 H2 Hr. induction l as [|w l IH].
  - cbn [flat_map app]. destruct rest as [|[t' x] rest]; [destruct Hr|]. cbn in Hr. cbn [takeSame].
    replace (t' =? t) with false by lia. reflexivity.
  - cbn [forallb] in Hl. apply andb_prop in Hl as [Hw Hl]. cbn [flat_map]. rewrite flat_scalar by (apply wf_val_scalar; assumption).
    cbn [app takeSame]. rewrite Z.eqb_refl. rewrite IH by exact Hl. reflexivity.
Qed.
(** one member: its value *)
Lemma collect_member k t v rest arr acc : wf_val true t v = true ->
  (forall l, v = VSet l -> Forall coll_P l) -> coll_P v -> member_next rest ->
  collect' ((0x4A, VStr k) :: flat t v ++ rest) arr acc = collect' rest arr (map_insert k (t, v) acc).
Proof.
  intros Hwf Hset Hcoll Hr. destruct (Z.eq_dec t 0x34) as [->|Ht].
  - assert (Hc : exists m l, flat 0x34 v = (0x34, VStr "") :: body m ++ flat_map (flat 0x34) l /\ collapse (VColl m :: l) = v /\
             coll_P (VColl m) /\ Forall coll_P l /\ wf_val false 0x34 (VColl m) = true /\ forallb (wf_val false 0x34) l = true).
    { destruct v as [s|z|b|lo hi|x y u|d|l|m]; try discriminate.
      - cbn [wf_val] in Hwf. apply andb_prop in Hwf as [H2 Hf]. pose proof (Hset l eq_refl) as HP. destruct l as [|w [|w2 l]]; try (cbn in H2; lia).
        cbn [forallb] in Hf. apply andb_prop in Hf as [Hw Hf]. destruct (wf_val_0x34 _ Hw) as [m E]. subst w. exists m, (w2 :: l).
        split; [reflexivity|]. split; [reflexivity|]. inversion HP; subst. tauto.
      - exists m, []. cbn [flat_map]. rewrite app_nil_r. split; [reflexivity|]. split; [reflexivity|]. split; [exact Hcoll|].
        split; [constructor|]. split; [exact Hwf|reflexivity]. }
    destruct Hc as [m [l [E [Ec [Hm [Hl [Hwm Hwl]]]]]]]. rewrite E. cbn [app]. rewrite collect'_coll. rewrite <- app_assoc.
    rewrite collect_set by auto. cbn [bind app]. rewrite Ec. reflexivity.
  - assert (Hc : exists w l, flat t v = (t, w) :: flat_map (flat t) l /\ match l with [] => w | _ => VSet (w :: l) end = v /\
             forallb (wf_val false t) l = true /\ t <> 0x4A /\ t <> 0x37).
    { destruct v as [s|z|b|lo hi|x y u|d|l|m].
      1-6: pose proof (scalar_tag _ _ Hwf); eexists; exists []; split; [reflexivity|]; split; [reflexivity|]; split; [reflexivity|lia].
      - cbn [wf_val] in Hwf. apply andb_prop in Hwf as [H2 Hf]. destruct l as [|w [|w2 l]]; try (cbn in H2; lia).
        pose proof Hf as Hf'. cbn [forallb] in Hf. apply andb_prop in Hf as [Hw Hf]. exists w, (w2 :: l).
        assert (Hs : scalar_ok t w = true) by (apply wf_val_scalar; assumption). pose proof (scalar_tag _ _ Hs).
        split; [cbn [flat flat_map]; rewrite (flat_scalar t w) by exact Hs; reflexivity|]. split; [reflexivity|]. split; [exact Hf|lia].
      - apply wf_val_coll in Hwf. congruence. }
    destruct Hc as [w [l [E [Ec [Hl [H1 H2]]]]]]. rewrite E. cbn [app]. rewrite collect'_value by exact Ht.
    rewrite takeSame_set by assumption. cbn [bind]. rewrite Ec. reflexivity.
Qed.
Lemma keys_sorted_prop {A} (m : list (string * A)) : keys_sorted m = true -> sorted_keys m.
Proof.
  induction m as [|[k v] m IH]; intros H; [exact I|]. cbn [keys_sorted] in H. apply andb_prop in H as [H1 H2]. split; [|auto].
  apply Forall_forall. intros e He. apply (forallb_In _ _ _ H1) in He. destruct (String.compare k (fst e)); congruence.
Qed.
Lemma member_next_members m rest : member_next (members m ++ (0x37, VStr "") :: rest).
Proof. destruct m; [right; reflexivity|left; reflexivity]. Qed.
Lemma collect_members m : Forall (fun e => coll_P (snd (snd e)) /\ (forall l, snd (snd e) = VSet l -> Forall coll_P l)) m ->
  forallb (fun e => str_ok (fst e) && wf_val true (fst (snd e)) (snd (snd e))) m = true ->
  forall rest arr acc, collect' (members m ++ (0x37, VStr "") :: rest) arr acc = finish (arr ++ [VColl (insert_all m acc)]) rest.
Proof.
  induction 1 as [|[k [t v]] m Hv Hm IH]; intros Hf rest arr acc.
  - cbn [members flat_map app]. apply collect'_end.
  - cbn [forallb fst snd] in Hf. apply andb_prop in Hf as [Hw Hf]. apply andb_prop in Hw as [_ Hw]. cbn [fst snd] in Hv.
    unfold members. cbn [flat_map fst snd app]. fold (members m). rewrite <- app_assoc.
    rewrite collect_member; [|exact Hw|apply Hv|apply Hv|apply member_next_members]. rewrite IH by exact Hf. reflexivity.
Qed.
Lemma coll_all v : coll_P v /\ (forall l, v = VSet l -> Forall coll_P l).
Proof.
  induction v as [v Hs Hc|l IH|m IH] using value_ind2.
  - split; [intros m t E; exfalso; eapply Hc; exact E|intros l E; exfalso; eapply Hs; exact E].
  - split; [intros m t E; discriminate|]. intros l' E. injection E as <-. eapply Forall_impl; [|exact IH]. cbn. tauto.
  - split; [|intros l E; discriminate]. intros m' t E Hwf rest arr. injection E as <-. unfold body. rewrite <- app_assoc. cbn [app].
    cbn [wf_val] in Hwf. apply andb_prop in Hwf as [H Hf]. apply andb_prop in H as [_ Hk].
    rewrite collect_members by assumption. do 4 f_equal. apply (insert_all_permutation m m); [apply keys_sorted_prop; exact Hk|apply Permutation_refl].
Qed.

(** ** One attribute *)
Lemma get_str_item i r : blen (i_name i) < 65536 -> get_str (be16 (blen (i_name i)) ++ i_name i ++ r) = Ok (string_of_bytes (i_name i), r).
Proof.
  intros H. rewrite <- (bytes_string_id (i_name i)) at 1 2. rewrite get_str_bytes; [reflexivity|].
  unfold str_ok. unfold blen in H. rewrite <- (bytes_string_id (i_name i)) in H. rewrite bytes_of_string_length in H. lia.
Qed.
Lemma map_snd_flat t l : forallb (wf_val false t) l = true -> t <> 0x34 -> map snd (flat_map (flat t) l) = l.
Proof.
  intros H Ht. induction l as [|w l IH]; [reflexivity|]. cbn [forallb] in H. apply andb_prop in H as [Hw Hl]. cbn [flat_map].
  rewrite flat_scalar by (apply wf_val_scalar; assumption). cbn [app map snd]. rewrite IH by exact Hl. reflexivity.
Qed.
Lemma consume_items name t v attrs r : wf_val true t v = true -> str_ok name = true -> stops r ->
  consumeAttribute attrs (flat_map item_bytes (attr_items name t v) ++ r) = Ok (map_insert name (t, v) attrs, r).
Proof.
  intros Hwf Hn Hr. pose proof (flat_dec v _ _ name Hwf) as Hd. destruct (attr_items_first v _ _ name Hwf) as [i [its [E [Et [En Eu]]]]].
  rewrite E in Hd |- *. inversion Hd as [|? a ? l Hi Hd' E1 E2]; subst. destruct Hi as [Ht [Hr2 Hv]].
  cbn [flat_map]. unfold item_bytes at 1. cbn [app]. unfold consumeAttribute. rewrite get_u8_bZ by exact Hr2. cbn [bind].
  rewrite En. rewrite <- !app_assoc. rewrite get_str_bytes by exact Hn. cbn [bind]. rewrite Ht. rewrite Hv. cbn [bind].
  rewrite (getUnnamed_items its l) by (try assumption; lia). cbn [bind].
  set (t := i_tag i) in *. clearbody t. destruct (Z.eq_dec t 0x34) as [->|Hnc].
  - rewrite <- Ht. change (0x34 =? tBeginCollection) with true. cbv iota.
    assert (Hc : exists m l', flat 0x34 v = (0x34, VStr "") :: body m ++ flat_map (flat 0x34) l' /\ collapse (VColl m :: l') = v /\
             coll_P (VColl m) /\ Forall coll_P l' /\ wf_val false 0x34 (VColl m) = true /\ forallb (wf_val false 0x34) l' = true).
    { destruct v as [s|z|b|lo hi|x y u|d|ls|m]; try discriminate.
      - cbn [wf_val] in Hwf. apply andb_prop in Hwf as [H2 Hf]. destruct ls as [|w [|w2 ls]]; try (cbn in H2; lia).
        cbn [forallb] in Hf. apply andb_prop in Hf as [Hw Hf]. destruct (wf_val_0x34 _ Hw) as [m Em]. subst w. exists m, (w2 :: ls).
        split; [reflexivity|]. split; [reflexivity|]. split; [apply coll_all|]. split; [|tauto].
        apply Forall_forall. intros; apply coll_all.
      - exists m, []. cbn [flat_map]. rewrite app_nil_r. split; [reflexivity|]. split; [reflexivity|]. split; [apply coll_all|].
        split; [constructor|]. split; [exact Hwf|reflexivity]. }
    destruct Hc as [m [l' [Ef [Ec [Hm [Hl [Hwm Hwl]]]]]]]. rewrite <- E2 in Ef. injection Ef as _ El. subst l.
    change (collect (S ?n) ?x [] []) with (collect' x [] []). rewrite <- (app_nil_r (flat_map _ _)).
    rewrite collect_set by auto. cbn [bind app]. rewrite Ec. reflexivity.
  - rewrite <- Ht. replace (t =? tBeginCollection) with false by (unfold tBeginCollection; lia). cbn [bind].
    assert (Ev : match l with [] => snd a | _ => VSet (snd a :: map snd l) end = v).
    { destruct v as [s|z|b|lo hi|x y u|d|ls|m].
      1-6: cbn [flat] in E2; injection E2 as -> ->; reflexivity.
      - cbn [wf_val] in Hwf. apply andb_prop in Hwf as [H2 Hf]. destruct ls as [|w [|w2 ls]]; try (cbn in H2; lia).
        cbn [forallb] in Hf. apply andb_prop in Hf as [Hw Hf]. cbn [flat] in E2.
        change (flat_map (flat t) (w :: w2 :: ls)) with (flat t w ++ flat_map (flat t) (w2 :: ls)) in E2.
        rewrite (flat_scalar t w) in E2 by (apply wf_val_scalar; assumption). cbn [app] in E2. injection E2 as Ea El. subst a l.
        cbn [flat_map]. cbn [forallb] in Hf. apply andb_prop in Hf as [Hw2 Hf].
        rewrite (flat_scalar t w2) by (apply wf_val_scalar; assumption). cbn [app map snd]. do 3 f_equal. apply map_snd_flat; assumption.
      - apply wf_val_coll in Hwf. congruence. }
    rewrite Ev. reflexivity.
Qed.
