(** Whole messages: the decoder's loop, termination, undefined behaviour, and the data
    that follows a message. *)
From Verif Require Import Base BaseLemmas MapModel MapProofs IppModel IppSpec IppEncProofs IppDecProofs.
From Coq Require Import Lia ZifyBool ZifyNat Permutation.
Local Open Scope Z_scope.
Ltac Zify.zify_post_hook ::= Z.div_mod_to_equations.

(** ** Reading: what is left is the end of what was there, and only what is read counts *)
Definition reads {A} (f : list byte -> outcome (A * list byte)) : Prop :=
  forall s a r, f s = Ok (a, r) -> exists x, s = x ++ r /\ forall r', f (x ++ r') = Ok (a, r').
Lemma reads_bind {A B} (f : list byte -> outcome (A * list byte)) (g : A -> list byte -> outcome (B * list byte)) :
  reads f -> (forall a, reads (g a)) -> reads (fun s => bind (f s) (fun x => let (a, s) := x in g a s)).
Proof.
  intros Hf Hg s b r H. apply bind_ok in H. destruct H as [[a s1] [H1 H2]]. destruct (Hf _ _ _ H1) as [x [Ex Hx]].
  destruct (Hg a _ _ _ H2) as [y [Ey Hy]]. subst. exists (x ++ y). split; [apply app_assoc|]. intros r'.
  rewrite <- app_assoc, Hx. cbn [bind]. apply Hy.
Qed.
Lemma reads_ret {A} (a : A) : reads (fun s => Ok (a, s)).
Proof. intros s b r H. injection H as <- <-. exists []. split; reflexivity. Qed.
Lemma reads_throw {A} e : reads (fun s => @Throw (A * list byte) e).
Proof. intros s b r H. discriminate. Qed.
Lemma reads_u8 : reads get_u8.
Proof. intros s a r H. destruct s as [|b s]; [discriminate|]. cbn in H. injection H as <- <-. exists [b]. split; reflexivity. Qed.
Lemma reads_u16 : reads get_u16.
Proof. intros s a r H. destruct s as [|b [|c s]]; try discriminate. cbn in H. injection H as <- <-. exists [b; c]. split; reflexivity. Qed.
Lemma reads_u32 : reads get_u32.
Proof. intros s x r H. destruct s as [|a [|b [|c [|d s]]]]; try discriminate. cbn in H. injection H as <- <-. exists [a; b; c; d]. split; reflexivity. Qed.
Lemma reads_bytes n : 0 <= n -> reads (get_bytes n).
Proof. intros Hn s a r H. apply get_bytes_ok in H; [|exact Hn]. destruct H as [-> H]. exists a. split; [reflexivity|]. intros. apply get_bytes_app. lia. Qed.
Lemma get_u16_range s n r : get_u16 s = Ok (n, r) -> 0 <= n < 65536.
Proof. destruct s as [|b [|c s]]; try discriminate. cbn. intros H. injection H as <- <-. apply un16_range. Qed.
Lemma reads_str : reads get_str.
Proof.
  intros s a r H. unfold get_str in H. bind_inv H as x Hx K. destruct x as [n s1]. bind_inv K as y Hy K. destruct y as [b s2]. injection K as <- <-.
  pose proof (get_u16_range _ _ _ Hx). destruct (reads_u16 _ _ _ Hx) as [p [-> Hp]]. destruct (reads_bytes n ltac:(lia) _ _ _ Hy) as [q [-> Hq]].
  exists (p ++ q). split; [apply app_assoc|]. intros r'. unfold get_str. rewrite <- app_assoc, Hp. cbn [bind]. rewrite Hq. reflexivity.
Qed.
Lemma reads_expect n A (g : list byte -> outcome (A * list byte)) : reads g -> reads (fun s => let! s := expect_u16 n s in g s).
Proof.
  intros Hg s a r H. bind_inv H as s1 Hs K. unfold expect_u16 in Hs. bind_inv Hs as y Hy K2. destruct y as [z s2]. cbn [fst snd] in K2.
  destruct (z =? n) eqn:E; [|discriminate]. injection K2 as ->. destruct (reads_u16 _ _ _ Hy) as [p [-> Hp]]. destruct (Hg _ _ _ K) as [q [-> Hq]].
  exists (p ++ q). split; [apply app_assoc|]. intros r'. unfold expect_u16. rewrite <- app_assoc, Hp. cbn [bind fst snd]. rewrite E. cbn [bind]. apply Hq.
Qed.
(** values that may be absent: the code of each case of decodeValue *)
Lemma reads_optional A n (v : A) (g : list byte -> outcome (A * list byte)) : reads g ->
  reads (fun s => match next_zero s with Some r => Ok (v, r) | None => let! s := expect_u16 n s in g s end).
Proof.
  intros Hg s a r H. destruct (next_zero s) as [s1|] eqn:E.
  - destruct s as [|b [|c s]]; try discriminate. cbn [next_zero] in E. destruct (un16 b c =? 0) eqn:E0; [|discriminate].
    injection E as ->. injection H as <- <-. exists [b; c]. split; [reflexivity|]. intros r'. cbn [app next_zero]. rewrite E0. reflexivity.
  - destruct (reads_expect n A g Hg s a r H) as [x [-> Hx]].
    assert (Hn : forall r', next_zero (x ++ r') = None).
    { intros r'. pose proof (Hx []) as H0. rewrite app_nil_r in H0. destruct x as [|b [|c x]]; try discriminate.
      cbn [app next_zero] in *. destruct (un16 b c =? 0); [discriminate|reflexivity]. }
    exists x. split; [reflexivity|]. intros r'. rewrite Hn. apply Hx.
Qed.
Lemma reads_date : reads get_date.
Proof.
  unfold get_date. apply reads_bind; [apply reads_u16|intros]. do 9 (apply reads_bind; [apply reads_u8|intros]). apply reads_ret.
Qed.
Lemma reads_decodeValue t : reads (decodeValue t).
Proof.
  unfold decodeValue. destruct (_ || _ || _ || _ || _)%bool; [apply reads_throw|]. destruct (_ || _)%bool.
  { apply (reads_optional ipp_value). apply reads_bind; [apply reads_u32|intros; apply reads_ret]. }
  destruct (_ =? _).
  { apply (reads_optional ipp_value). apply reads_bind; [apply reads_u8|intros; apply reads_ret]. }
  destruct (_ =? _).
  { apply (reads_optional ipp_value). apply reads_bind; [apply reads_date|intros; apply reads_ret]. }
  destruct (_ =? _).
  { apply (reads_optional ipp_value). apply reads_bind; [apply reads_u32|intros]. apply reads_bind; [apply reads_u32|intros].
    apply reads_bind; [apply reads_u8|intros; apply reads_ret]. }
  destruct (_ =? _).
  { apply (reads_optional ipp_value). apply reads_bind; [apply reads_u32|intros]. apply reads_bind; [apply reads_u32|intros; apply reads_ret]. }
  apply reads_bind; [apply reads_str|intros; apply reads_ret].
Qed.
Lemma reads_length {A} (f : list byte -> outcome (A * list byte)) s a r : reads f -> f s = Ok (a, r) -> (length r <= length s)%nat.
Proof. intros Hf H. destruct (Hf _ _ _ H) as [x [-> _]]. rewrite app_length. lia. Qed.

(** getUnnamedAttributes: what is left, and what else could have followed *)
Lemma getUnnamed_reads fuel : forall s l r, getUnnamed fuel s = Ok (l, r) ->
  exists x, s = x ++ r /\ stops r /\
  forall r' fuel', stops r' -> (length (x ++ r') <= fuel')%nat -> getUnnamed fuel' (x ++ r') = Ok (l, r').
Proof.
  assert (Hend : forall r' fuel', stops r' -> getUnnamed fuel' r' = Ok ([], r')).
  { intros r' fuel' H. destruct r' as [|t r']; [destruct fuel'; reflexivity|]. cbn in H. destruct fuel'; cbn [getUnnamed]; rewrite H; reflexivity. }
  induction fuel as [|fuel IH]; intros s l r H.
  - destruct s as [|t s]; cbn [getUnnamed] in H.
    + injection H as <- <-. exists []. split; [reflexivity|]. split; [exact I|]. intros. apply Hend. assumption.
    + destruct (next_zero s) eqn:E; [discriminate|]. injection H as <- <-. exists []. split; [reflexivity|]. split; [exact E|].
      intros. apply Hend. assumption.
  - destruct s as [|t s]; cbn [getUnnamed] in H.
    + injection H as <- <-. exists []. split; [reflexivity|]. split; [exact I|]. intros. apply Hend. assumption.
    + destruct (next_zero s) as [s1|] eqn:E.
      * bind_inv H as x Hx K. destruct x as [v s2]. bind_inv K as y Hy K. destruct y as [l2 s3]. injection K as <- <-.
        destruct s as [|b [|c s]]; try discriminate. cbn [next_zero] in E. destruct (un16 b c =? 0) eqn:E0; [|discriminate]. injection E as ->.
        destruct (reads_decodeValue _ _ _ _ Hx) as [p [-> Hp]]. destruct (IH _ _ _ Hy) as [q [-> [Hst Hq]]].
        exists (t :: b :: c :: p ++ q). split; [cbn [app]; rewrite app_assoc; reflexivity|]. split; [exact Hst|].
        intros r' fuel' Hr' Hf. destruct fuel' as [|fuel']; [cbn in Hf; lia|]. cbn [app getUnnamed next_zero]. rewrite E0. rewrite <- app_assoc, Hp.
        cbn [bind]. rewrite Hq; [reflexivity|exact Hr'|]. cbn [app length] in Hf. rewrite !app_length in *. lia.
      * injection H as <- <-. exists []. split; [reflexivity|]. split; [exact E|]. intros. apply Hend. assumption.
Qed.
Lemma consume_reads attrs s a r : consumeAttribute attrs s = Ok (a, r) ->
  exists t x, s = (t :: x) ++ r /\ stops r /\ forall r', stops r' -> consumeAttribute attrs ((t :: x) ++ r') = Ok (a, r').
Proof.
  unfold consumeAttribute. intros H. bind_inv H as x Hx K. destruct x as [tag s1]. bind_inv K as x Hname K. destruct x as [name s2].
  bind_inv K as x Hval K. destruct x as [value s3]. bind_inv K as x Hun K. destruct x as [un s4]. bind_inv K as x Hcol K. destruct x as [value2 un2].
  injection K as <- <-. destruct s as [|t s]; [discriminate|]. cbn [get_u8] in Hx. injection Hx as <- <-.
  destruct (reads_str _ _ _ Hname) as [p [-> Hp]]. destruct (reads_decodeValue _ _ _ _ Hval) as [q [-> Hq]].
  destruct (getUnnamed_reads _ _ _ _ Hun) as [o [-> [Hst Ho]]].
  exists t, (p ++ q ++ o). split; [cbn [app]; rewrite <- !app_assoc; reflexivity|]. split; [exact Hst|]. intros r' Hr'.
  cbn [app get_u8 bind]. rewrite <- app_assoc. rewrite Hp. cbn [bind]. rewrite <- app_assoc, Hq. cbn [bind]. rewrite Ho by (assumption || lia).
  cbn [bind]. rewrite Hcol. reflexivity.
Qed.

(** ** Fuel *)
Lemma decodeValue_plain t s : plain (decodeValue t s).
Proof.
  assert (Hb : forall (A B : Type) (x : outcome A) (f : A -> outcome B), plain x -> (forall a, plain (f a)) -> plain (bind x f)).
  { intros A B x f H H1. destruct x; cbn in *; auto. }
  assert (P8 : forall s, plain (get_u8 s)) by (intros [|]; exact I).
  assert (P16 : forall s, plain (get_u16 s)) by (intros [|? [|]]; exact I).
  assert (P32 : forall s, plain (get_u32 s)) by (intros [|? [|? [|? [|]]]]; exact I).
  assert (Pex : forall n s, plain (expect_u16 n s)).
  { intros n s'. unfold expect_u16. apply Hb; [apply P16|]. intros a. destruct (_ =? _); exact I. }
  unfold decodeValue. destruct (_ || _ || _ || _ || _)%bool; [exact I|].
  assert (Pby : forall n s, plain (get_bytes n s)) by (intros n s'; unfold get_bytes; destruct (_ <=? _); exact I).
  repeat match goal with |- plain (if ?c then _ else _) => destruct c end;
  try (destruct (next_zero s) as [r|]; [exact I|]);
  unfold get_str, get_date; repeat first [exact I | apply P8 | apply P16 | apply P32 | apply Pex | apply Pby
    | apply Hb; [|let a := fresh in intros a; try destruct a] | match goal with |- plain (let (_, _) := ?p in _) => destruct p end ].
Qed.
Lemma getUnnamed_plain fuel : forall s, (length s <= fuel)%nat -> plain (getUnnamed fuel s).
Proof.
  induction fuel as [|fuel IH]; intros s H.
  - destruct s; [exact I|cbn in H; lia].
  - destruct s as [|t s]; [exact I|]. cbn [getUnnamed]. destruct (next_zero s) as [s1|] eqn:E; [|exact I].
    apply plain_bind; [apply decodeValue_plain|]. intros [v s2] Hv. apply plain_bind; [|intros [l s3] _; exact I]. apply IH.
    apply (reads_length _ _ _ _ (reads_decodeValue _)) in Hv. destruct s as [|b [|c s]]; try discriminate. cbn [next_zero] in E.
    destruct (_ =? _); [|discriminate]. injection E as ->. cbn [length] in H. lia.
Qed.
(** neither out of fuel nor endless *)
Definition ends {A} (x : outcome A) : Prop := match x with Ok _ | Throw _ | UB => True | _ => False end.
Lemma plain_ends {A} (x : outcome A) : plain x -> ends x.
Proof. destruct x; cbn; auto. Qed.
Lemma ends_bind {A B} (x : outcome A) (f : A -> outcome B) : ends x -> (forall a, x = Ok a -> ends (f a)) -> ends (bind x f).
Proof. destruct x; cbn; auto. Qed.
Lemma takeSame_ends t l : ends (takeSame t l).
Proof. induction l as [|[t' v] l IH]; [exact I|]. cbn [takeSame]. destruct (_ =? _); [|exact I]. apply ends_bind; [exact IH|]. intros [a b] _. exact I. Qed.
Lemma collect_ends f : forall l arr acc, (length l < f)%nat -> ends (collect f l arr acc).
Proof.
  induction f as [|f IH]; intros l arr acc H; [lia|]. cbn [collect]. destruct l as [|[tag w] rest]; [exact I|]. cbn [length] in H.
  destruct (tag =? tMemberName).
  - destruct w as [key| | | | | | |]; try exact I. destruct rest as [|[t1 v1] rest1]; [exact I|]. cbn [length] in H.
    destruct (t1 =? tBeginCollection).
    + apply ends_bind; [apply IH; lia|]. intros [cv rest2] E. apply collect_rest in E. apply IH. lia.
    + apply ends_bind; [apply takeSame_ends|]. intros [cv rest2] E. apply takeSame_rest in E. apply IH. lia.
  - destruct (tag =? tEndCollection); [|exact I]. destruct rest as [|[t1 v1] rest1]; [exact I|]. cbn [length] in H.
    destruct (t1 =? tBeginCollection); [apply IH; lia|exact I].
Qed.
Lemma get_str_plain s : plain (get_str s).
Proof.
  unfold get_str. apply plain_bind; [destruct s as [|? [|]]; exact I|]. intros [n s1] _. apply plain_bind; [|intros [b s2] _; exact I].
  unfold get_bytes. destruct (_ <=? _); exact I.
Qed.
Lemma consume_ends attrs s : ends (consumeAttribute attrs s).
Proof.
  unfold consumeAttribute. apply ends_bind; [destruct s; exact I|]. intros [tag s1] _. apply ends_bind; [apply plain_ends, get_str_plain|].
  intros [name s2] _. apply ends_bind; [apply plain_ends, decodeValue_plain|]. intros [v s3] _. apply ends_bind.
  { apply plain_ends, getUnnamed_plain. lia. }
  intros [un s4] _. apply ends_bind; [|intros [v2 un2] _; exact I]. destruct (tag =? tBeginCollection); [|exact I]. apply collect_ends. lia.
Qed.
Lemma consume_shorter attrs s a r : consumeAttribute attrs s = Ok (a, r) -> (length r < length s)%nat.
Proof. intros H. destruct (consume_reads _ _ _ _ H) as [t [x [-> _]]]. cbn [app length]. rewrite app_length. lia. Qed.
Lemma decode_loop_ends fuel : forall m g attrs s, (length s <= fuel)%nat -> ends (decode_loop fuel m g attrs s).
Proof.
  induction fuel as [|fuel IH]; intros m g attrs s H.
  - destruct s; [exact I|cbn in H; lia].
  - destruct s as [|t s]; [exact I|]. cbn [decode_loop]. cbn [length] in H. destruct (Zb t <=? tUnsupportedAttrs).
    + cbv zeta. destruct (Zb t =? tEndAttrs); [exact I|]. apply IH. lia.
    + apply ends_bind; [apply consume_ends|]. intros [a r] E. apply consume_shorter in E. cbn [length] in E. apply IH. lia.
Qed.
Lemma decode_loop_fuel f1 : forall f2 m g attrs s, (length s <= f1)%nat -> (length s <= f2)%nat ->
  decode_loop f1 m g attrs s = decode_loop f2 m g attrs s.
Proof.
  induction f1 as [|f1 IH]; intros f2 m g attrs s H1 H2.
  - destruct s; [destruct f2; reflexivity|cbn in H1; lia].
  - destruct s as [|t s]; [destruct f2; reflexivity|]. destruct f2 as [|f2]; [cbn in H2; lia|]. cbn [decode_loop]. cbn [length] in *.
    destruct (Zb t <=? tUnsupportedAttrs).
    + cbv zeta. destruct (Zb t =? tEndAttrs); [reflexivity|]. apply IH; lia.
    + destruct (consumeAttribute attrs (t :: s)) as [[a r]| | | |] eqn:E; try reflexivity. cbn [bind].
      apply consume_shorter in E. cbn [length] in E. apply IH; lia.
Qed.
(** without fuel *)
Definition loop (m : ipp_msg) (g : Z) (attrs : ipp_attrs) (s : list byte) := decode_loop (length s) m g attrs s.
Lemma loop_nil m g attrs : loop m g attrs [] = Ok (m, []).
Proof. reflexivity. Qed.
Lemma loop_end m g attrs t s : Zb t = 3 -> loop m g attrs (t :: s) = Ok (store_group m g attrs, s).
Proof. intros H. unfold loop. cbn [length decode_loop]. rewrite H. reflexivity. Qed.
Lemma loop_group m g attrs t s : Zb t <= 5 -> Zb t <> 3 -> loop m g attrs (t :: s) = loop (store_group m g attrs) (Zb t) [] s.
Proof.
  intros H H3. unfold loop. cbn [length decode_loop]. replace (Zb t <=? tUnsupportedAttrs) with true by (unfold tUnsupportedAttrs; lia).
  cbv zeta. replace (Zb t =? tEndAttrs) with false by (unfold tEndAttrs; lia). reflexivity.
Qed.
Lemma loop_attr m g attrs t s : 5 < Zb t ->
  loop m g attrs (t :: s) = let! (attrs, s') := consumeAttribute attrs (t :: s) in loop m g attrs s'.
Proof.
  intros H. unfold loop. cbn [length decode_loop]. replace (Zb t <=? tUnsupportedAttrs) with false by (unfold tUnsupportedAttrs; lia).
  destruct (consumeAttribute attrs (t :: s)) as [[a r]| | | |] eqn:E; try reflexivity. cbn [bind].
  apply consume_shorter in E. cbn [length] in E. apply decode_loop_fuel; lia.
Qed.

(** ** Groups *)
Definition wf_entry (e : string * ipp_attr) : bool := negb (String.eqb (fst e) "") && str_ok (fst e) && wf_attr (snd e).
Lemma wf_val_tag s t v : wf_val s t v = true -> 0x21 <= t <= 0x49.
Proof.
  destruct v as [x|x|x|lo hi|x y u|d|l|m]; cbn [wf_val]; intros H; try (apply scalar_tag in H; lia).
  - apply andb_prop in H as [H0 H]. destruct l as [|w l]; [cbn in H0; lia|]. cbn [forallb] in H. apply andb_prop in H as [H _].
    destruct w; try (cbn [wf_val] in H; apply scalar_tag in H; lia); try discriminate H; apply wf_val_coll in H; lia.
  - apply andb_prop in H as [H _]. apply andb_prop in H as [H _]. lia.
Qed.
Lemma group_bytes_cons e l : group_bytes (e :: l) = flat_map item_bytes (attr_items (fst e) (fst (snd e)) (snd (snd e))) ++ group_bytes l.
Proof. unfold group_bytes, group_items. cbn [flat_map]. apply flat_map_app. Qed.
Lemma entry_bytes e : wf_entry e = true -> exists b1 x, flat_map item_bytes (attr_items (fst e) (fst (snd e)) (snd (snd e))) =
  bZ (fst (snd e)) :: be16 (Z.of_nat (String.length (fst e))) ++ b1 :: x /\ 0x21 <= fst (snd e) <= 0x49.
Proof.
  destruct e as [name [t v]]. cbn [fst snd]. unfold wf_entry. cbn [fst snd]. intros H. apply andb_prop in H as [H Hwf]. apply andb_prop in H as [Hn Hl].
  unfold wf_attr in Hwf. cbn [fst snd] in Hwf. destruct (attr_items_first v _ _ name Hwf) as [i [its [E [Et [En _]]]]]. rewrite E. cbn [flat_map].
  unfold item_bytes at 1. rewrite En, Et, blen_string. destruct name as [|c name]; [discriminate|].
  eexists. eexists. split; [reflexivity|]. apply wf_val_tag in Hwf. exact Hwf.
Qed.
Lemma group_stops l r : Forall (fun e => wf_entry e = true) l -> stops r -> stops (group_bytes l ++ r).
Proof.
  intros H Hr. destruct H as [|e l He Hl]; [exact Hr|]. rewrite group_bytes_cons. destruct (entry_bytes e He) as [b1 [x [E Ht]]]. rewrite E.
  cbn [app]. cbn [stops]. unfold wf_entry in He. apply andb_prop in He as [He _]. apply andb_prop in He as [Hn Hs].
  rewrite <- !app_assoc. apply next_zero_be16. unfold str_ok in Hs. destruct (fst e); [discriminate|]. cbn [String.length] in *. lia.
Qed.
Lemma loop_entries m g l : Forall (fun e => wf_entry e = true) l -> forall attrs r, stops r ->
  loop m g attrs (group_bytes l ++ r) = loop m g (insert_all l attrs) r.
Proof.
  induction 1 as [|e l He Hl IH]; intros attrs r Hr; [reflexivity|].
  assert (Hst : stops (group_bytes l ++ r)) by (apply group_stops; assumption).
  rewrite group_bytes_cons, <- app_assoc. destruct (entry_bytes e He) as [b1 [x [E Ht]]]. rewrite E. cbn [app].
  rewrite loop_attr by (rewrite Zb_bZ_small; lia). rewrite app_comm_cons, <- E. destruct e as [name [t v]]. cbn [fst snd] in *.
  unfold wf_entry in He. cbn [fst snd] in He. apply andb_prop in He as [He Hwf]. apply andb_prop in He as [_ Hs].
  rewrite consume_items by assumption. cbn [bind]. rewrite IH by exact Hr. reflexivity.
Qed.
Lemma wf_attrs_entries m : wf_attrs m = true -> Forall (fun e => wf_entry e = true) m.
Proof. unfold wf_attrs. intros H. apply andb_prop in H as [_ H]. apply Forall_forall. intros e He. apply (forallb_In _ _ _ H He). Qed.
Lemma wf_attrs_sorted m : wf_attrs m = true -> sorted_keys m.
Proof. unfold wf_attrs. intros H. apply andb_prop in H as [H _]. apply keys_sorted_prop. exact H. Qed.

(** what may follow a group *)
Definition tail_ok (r : list byte) : Prop := exists t x, r = t :: x /\ Zb t <= 5 /\ stops r.
Lemma group_tail l g r : 0 <= g <= 5 -> g <> 0 -> Forall (fun e => wf_entry e = true) l -> l <> [] -> stops (bZ g :: group_bytes l ++ r).
Proof.
  intros Hg H0 H Hn. destruct H as [|e l He Hl]; [congruence|]. rewrite group_bytes_cons. destruct (entry_bytes e He) as [b1 [x [E Ht]]].
  rewrite E. cbn [app stops]. unfold be16. cbn [app next_zero]. unfold un16. rewrite Zb_bZ_small by lia.
  pose proof (Zb_range (bZ (Z.of_nat (String.length (fst e)) / 256))). match goal with |- context [if ?c then _ else _] => destruct c eqn:E0 end; [lia|reflexivity].
Qed.
(** one group after another *)
Lemma loop_groups g : 0 < g <= 5 -> g <> 3 -> forall l m g0 attrs r, Forall (fun x => wf_attrs x = true) l -> Forall (fun x => x <> []) l -> stops r ->
  exists m' g' attrs', loop m g0 attrs (flat_map (fun x => bZ g :: group_bytes x) l ++ r) = loop m' g' attrs' r /\
  store_group m' g' attrs' = fold_left (fun m x => store_group m g x) l (store_group m g0 attrs) /\
  stops (flat_map (fun x => bZ g :: group_bytes x) l ++ r).
Proof.
  intros Hg H3. induction l as [|x l IH]; intros m g0 attrs r Hwf Hne Hr.
  - exists m, g0, attrs. split; [reflexivity|]. split; [reflexivity|exact Hr].
  - inversion Hwf as [|? ? Hwx Hwl]; subst. inversion Hne as [|? ? Hnx Hnl]; subst. cbn [flat_map app]. rewrite <- app_assoc.
    rewrite loop_group by (rewrite Zb_bZ_small; lia). rewrite Zb_bZ_small by lia.
    destruct (IH (store_group m g0 attrs) g x r Hwl Hnl Hr) as [m' [g' [attrs' [E1 [E2 E3]]]]].
    rewrite loop_entries; [|apply wf_attrs_entries; exact Hwx|exact E3].
    replace (insert_all x []) with x by (symmetry; apply insert_all_permutation; [apply wf_attrs_sorted; exact Hwx|apply Permutation_refl]).
    exists m', g', attrs'. split; [exact E1|]. split; [exact E2|]. apply group_tail; [lia|lia|apply wf_attrs_entries; exact Hwx|exact Hnx].
Qed.

(** ** The whole message *)
(** does not begin with two zero bytes *)
Definition no00 (d : list byte) : Prop := ~ exists x, d = bZ 0 :: bZ 0 :: x.
Lemma no00_next d : no00 d -> next_zero d = None.
Proof.
  intros H. destruct d as [|a [|b d]]; try reflexivity. cbn [next_zero]. destruct (un16 a b =? 0) eqn:E; [|reflexivity]. exfalso. apply H.
  unfold un16 in E. pose proof (Zb_range a). pose proof (Zb_range b). exists d.
  assert (a = bZ 0) by (apply Zb_inj; change (Zb (bZ 0)) with 0; lia). assert (b = bZ 0) by (apply Zb_inj; change (Zb (bZ 0)) with 0; lia).
  subst. reflexivity.
Qed.
Lemma decode_header id m s :
  u16_ok (m_opOrStatus m) = true -> u8_ok (m_majVsn m) = true -> u8_ok (m_minVsn m) = true -> 0 <= id < 4294967296 ->
  decodeMsg ([bZ (m_majVsn m); bZ (m_minVsn m)] ++ be16 (m_opOrStatus m) ++ be32 id ++ s) =
  loop (mkMsg (m_opOrStatus m) (m_majVsn m) (m_minVsn m) [] [] []) 3 [] s.
Proof.
  unfold u16_ok, u8_ok. intros H1 H2 H3 Hid. unfold decodeMsg. cbn [app]. rewrite get_u8_bZ by lia. cbn [bind]. rewrite get_u8_bZ by lia. cbn [bind].
  rewrite un16_be16 by lia. cbn [bind]. rewrite un32_be32 by lia. reflexivity.
Qed.
Lemma fold_jobs op maj min o p l : forall js,
  fold_left (fun m x => store_group m 2 x) l (mkMsg op maj min o js p) = mkMsg op maj min o (js ++ l) p.
Proof.
  induction l as [|x l IH]; intros js; cbn [fold_left]; [rewrite app_nil_r; reflexivity|].
  change (store_group (mkMsg op maj min o js p) 2 x) with (mkMsg op maj min o (js ++ [x]) p). rewrite IH, <- app_assoc. reflexivity.
Qed.
Lemma filter_nonempty {A} (P : list A -> Prop) l : Forall P l -> Forall P (filter nonempty l) /\ Forall (fun x => x <> []) (filter nonempty l).
Proof.
  intros H. split; apply Forall_forall; intros x Hx; apply filter_In in Hx; destruct Hx as [Hx Hn].
  - rewrite Forall_forall in H. apply H. exact Hx.
  - intros E. subst x. discriminate.
Qed.
(** decoding with the jobs that have attributes *)
Definition with_jobs (m : ipp_msg) : ipp_msg :=
  mkMsg (m_opOrStatus m) (m_majVsn m) (m_minVsn m) (m_opAttrs m) (filter nonempty (m_jobAttrs m)) (m_printerAttrs m).
Lemma wf_msg_parts m : wf_msg m = true -> u16_ok (m_opOrStatus m) = true /\ u8_ok (m_majVsn m) = true /\ u8_ok (m_minVsn m) = true /\
  wf_attrs (m_opAttrs m) = true /\ Forall (fun x => wf_attrs x = true) (m_jobAttrs m) /\ wf_attrs (m_printerAttrs m) = true.
Proof.
  unfold wf_msg. intros H. repeat match goal with H : (_ && _)%bool = true |- _ => apply andb_prop in H as [? ?] end.
  repeat split; try assumption. apply Forall_forall. intros x Hx. eapply forallb_In; eassumption.
Qed.
(** up to the end-of-attributes tag: also shows what happens with other data after it *)
Lemma decode_msg_bytes id m ops d : wf_msg m = true -> 0 <= id < 4294967296 -> Permutation ops (m_opAttrs m) ->
  (stops (bZ 3 :: d) -> decodeMsg (msg_bytes id m ops ++ d) = Ok (with_jobs m, d)).
Proof.
  intros Hwf Hid Hp Hst. apply wf_msg_parts in Hwf. destruct Hwf as [H1 [H2 [H3 [Ho [Hj Hpr]]]]].
  unfold msg_bytes. rewrite <- !app_assoc. rewrite decode_header by assumption.
  cbn [app]. rewrite loop_group by (change (Zb (bZ 1)) with 1; lia). change (Zb (bZ 1)) with 1.
  change (store_group (mkMsg (m_opOrStatus m) (m_majVsn m) (m_minVsn m) [] [] []) 3 []) with (mkMsg (m_opOrStatus m) (m_majVsn m) (m_minVsn m) [] [] []).
  set (m0 := mkMsg (m_opOrStatus m) (m_majVsn m) (m_minVsn m) [] [] []).
  assert (Hpr' : Forall (fun x => wf_attrs x = true) [m_printerAttrs m]) by (constructor; [exact Hpr|constructor]).
  destruct (filter_nonempty _ _ Hpr') as [Hp1 Hp2]. destruct (filter_nonempty _ _ Hj) as [Hj1 Hj2].
  destruct (loop_groups 4 ltac:(lia) ltac:(lia) _ m0 0 [] (bZ 3 :: d) Hp1 Hp2 Hst) as [_ [_ [_ [_ [_ Hst2]]]]].
  destruct (loop_groups 2 ltac:(lia) ltac:(lia) _ m0 1 (m_opAttrs m) _ Hj1 Hj2 Hst2) as [m1 [g1 [a1 [E1 [E2 Hst3]]]]].
  rewrite loop_entries; [| |exact Hst3].
  2: { apply wf_attrs_entries in Ho. rewrite Forall_forall in *. intros e He. apply Ho. eapply Permutation_in; eassumption. }
  assert (Eo : insert_all ops [] = m_opAttrs m) by (apply insert_all_permutation; [apply wf_attrs_sorted; exact Ho|exact Hp]).
  rewrite Eo, E1.
  destruct (loop_groups 4 ltac:(lia) ltac:(lia) _ m1 g1 a1 (bZ 3 :: d) Hp1 Hp2 Hst) as [m2 [g2 [a2 [F1 [F2 _]]]]].
  rewrite F1. rewrite loop_end by reflexivity. rewrite F2, E2.
  change (store_group m0 1 (m_opAttrs m)) with (mkMsg (m_opOrStatus m) (m_majVsn m) (m_minVsn m) (m_opAttrs m) [] []).
  rewrite fold_jobs. cbn [app]. unfold with_jobs. destruct (m_printerAttrs m) as [|e p]; reflexivity.
Qed.
Lemma decode_encode id m b d : wf_msg m = true -> 0 <= id < 4294967296 -> fst (encodeMsg id m) = Ok b -> no00 d ->
  decodeMsg (b ++ d) = Ok (with_jobs m, d).
Proof.
  intros Hwf Hid Hb Hd. apply encodeMsg_bytes in Hb. subst b. apply decode_msg_bytes; [exact Hwf|exact Hid| |cbn; apply no00_next; exact Hd].
  apply op_order_perm. apply wf_attrs_sorted. apply wf_msg_parts in Hwf. tauto.
Qed.

(** ** Data after any message *)
Lemma loop_suffix n : forall m g attrs s m' d, (length s <= n)%nat -> loop m g attrs s = Ok (m', d) -> d <> [] ->
  exists x, s = x ++ bZ 3 :: d.
Proof.
  induction n as [|n IH]; intros m g attrs s m' d Hn H Hd; (destruct s as [|t s]; [injection H as <- <-; congruence|cbn [length] in Hn]); [lia|].
  destruct (Z_le_gt_dec (Zb t) 5) as [Hle|Hgt].
  - destruct (Z.eq_dec (Zb t) 3) as [E|E].
    + rewrite loop_end in H by exact E. injection H as <- <-. exists []. cbn [app]. f_equal. apply Zb_inj. exact E.
    + rewrite loop_group in H by assumption. apply IH in H; [|lia|exact Hd]. destruct H as [x ->]. exists (t :: x). reflexivity.
  - rewrite loop_attr in H by lia. bind_inv H as p Hp K. destruct p as [a r]. pose proof (consume_shorter _ _ _ _ Hp) as Hs. cbn [length] in Hs.
    apply IH in K; [|lia|exact Hd]. destruct K as [x ->]. destruct (consume_reads _ _ _ _ Hp) as [t' [y [E _]]].
    exists ((t' :: y) ++ x). rewrite E. rewrite <- app_assoc. reflexivity.
Qed.
Lemma app_tail_length {A} (x y : list A) d : x ++ d = y ++ d -> x = y.
Proof. apply app_inv_tail. Qed.
Lemma loop_any n : forall m g attrs s m' d d', (length s <= n)%nat -> d <> [] -> loop m g attrs (s ++ d) = Ok (m', d) -> no00 d' ->
  loop m g attrs (s ++ d') = Ok (m', d').
Proof.
  induction n as [|n IH]; intros m g attrs s m' d d' Hn Hd H Hd'.
  - destruct s; [|cbn in Hn; lia]. cbn [app] in H. apply loop_suffix with (n := length d) in H; [|lia|exact Hd].
    destruct H as [x E]. apply (f_equal (@length _)) in E. rewrite app_length in E. cbn [length] in E. lia.
  - destruct s as [|t s].
    { cbn [app] in H. apply loop_suffix with (n := length d) in H; [|lia|exact Hd].
      destruct H as [x E]. apply (f_equal (@length _)) in E. rewrite app_length in E. cbn [length] in E. lia. }
    cbn [app length] in *. destruct (Z_le_gt_dec (Zb t) 5) as [Hle|Hgt].
    + destruct (Z.eq_dec (Zb t) 3) as [E|E].
      * rewrite loop_end in * by exact E. injection H as <- E2.
        assert (Es : s = []) by (apply (app_inv_tail d); exact E2). subst s. reflexivity.
      * rewrite loop_group in * by assumption. eapply IH; [lia|exact Hd|exact H|exact Hd'].
    + rewrite loop_attr in * by lia. bind_inv H as p Hp K. destruct p as [a r]. pose proof (loop_suffix _ _ _ _ _ _ _ (le_n _) K Hd) as [y Ey].
      destruct (consume_reads _ _ _ _ Hp) as [t' [x [E [Hst Hx]]]]. cbn [app] in E. injection E as <- E. subst r.
      replace (y ++ bZ 3 :: d) with ((y ++ [bZ 3]) ++ d) in * by (rewrite <- app_assoc; reflexivity).
      assert (Es : s = x ++ y ++ [bZ 3]) by (apply (app_inv_tail d); rewrite E, <- !app_assoc; reflexivity).
      assert (Hst' : stops ((y ++ [bZ 3]) ++ d')).
      { rewrite <- app_assoc. cbn [app]. destruct y as [|b y]; [cbn; apply no00_next; exact Hd'|]. cbn [app stops].
        destruct y as [|b2 [|b3 y]].
        - cbn [app]. destruct d' as [|c d']; [reflexivity|]. cbn [next_zero]. unfold un16. change (Zb (bZ 3)) with 3. pose proof (Zb_range c).
          destruct (_ =? 0) eqn:E0; [lia|reflexivity].
        - cbn [app stops next_zero] in Hst |- *. exact Hst || (destruct (un16 b2 (bZ 3) =? 0); [discriminate|reflexivity]).
        - cbn [app stops next_zero] in Hst |- *. destruct (un16 b2 b3 =? 0); [discriminate|reflexivity]. }
      pose proof (Hx _ Hst') as Hx'. cbn [app] in Hx'. subst s. rewrite <- app_assoc. rewrite Hx'. cbn [bind].
      eapply IH; [|exact Hd|exact K|exact Hd']. rewrite !app_length in *. cbn [length] in *. lia.
Qed.
Lemma decodeMsg_any s d d' m : d <> [] -> decodeMsg (s ++ d) = Ok (m, d) -> no00 d' -> decodeMsg (s ++ d') = Ok (m, d').
Proof.
  intros Hd H Hd'. unfold decodeMsg in H. bind_inv H as p1 H1 K. destruct p1 as [maj s1]. bind_inv K as p2 H2 K. destruct p2 as [min s2].
  bind_inv K as p3 H3 K. destruct p3 as [op s3]. bind_inv K as p4 H4 K. destruct p4 as [id s4]. change (loop (mkMsg op maj min [] [] []) 3 [] s4 = Ok (m, d)) in K.
  destruct (reads_u8 _ _ _ H1) as [x1 [E1 R1]]. destruct (reads_u8 _ _ _ H2) as [x2 [E2 R2]]. destruct (reads_u16 _ _ _ H3) as [x3 [E3 R3]].
  destruct (reads_u32 _ _ _ H4) as [x4 [E4 R4]]. pose proof (loop_suffix _ _ _ _ _ _ _ (le_n _) K Hd) as [y Ey].
  replace (y ++ bZ 3 :: d) with ((y ++ [bZ 3]) ++ d) in * by (rewrite <- app_assoc; reflexivity). subst s1 s2 s3 s4.
  assert (Es : s = x1 ++ x2 ++ x3 ++ x4 ++ y ++ [bZ 3]) by (apply (app_inv_tail d); rewrite E1, <- !app_assoc; reflexivity).
  subst s. unfold decodeMsg. repeat rewrite <- app_assoc. rewrite R1. cbn [bind]. rewrite R2. cbn [bind]. rewrite R3. cbn [bind]. rewrite R4. cbn [bind].
  change (loop (mkMsg op maj min [] [] []) 3 [] (y ++ [bZ 3] ++ d') = Ok (m, d')).
  replace (y ++ [bZ 3] ++ d') with ((y ++ [bZ 3]) ++ d') by (rewrite <- app_assoc; reflexivity).
  eapply loop_any; [apply le_n|exact Hd|exact K|exact Hd'].
Qed.

(** ** Undefined behaviour *)
(** a member name followed only by attributes of one tag that is not a collection *)
Definition dangling (l : list ipp_attr) : Prop :=
  exists pre k t v more, l = pre ++ (0x4A, k) :: (t, v) :: more /\ t <> 0x34 /\ Forall (fun a => fst a = t) more.
Lemma dangling_app p l : dangling l -> dangling (p ++ l).
Proof. intros (pre & k & t & v & more & -> & H). exists (p ++ pre), k, t, v, more. rewrite <- app_assoc. split; [reflexivity|exact H]. Qed.
Lemma takeSame_ub t l : takeSame t l = UB -> Forall (fun a => fst a = t) l.
Proof.
  induction l as [|[t' v] l IH]; intros H; [constructor|]. cbn [takeSame] in H. destruct (t' =? t) eqn:E; [|discriminate].
  constructor; [cbn; lia|]. apply IH. destruct (takeSame t l) as [[a b]| | | |]; try discriminate. reflexivity.
Qed.
Lemma takeSame_suffix t l : forall vs r, takeSame t l = Ok (vs, r) -> exists p, l = p ++ r.
Proof.
  induction l as [|[t' v] l IH]; intros vs r H; cbn [takeSame] in H; [discriminate|]. destruct (t' =? t).
  - bind_inv H as x Hx K. destruct x as [vs' r']. injection K as <- <-. destruct (IH _ _ Hx) as [p ->]. exists ((t', v) :: p). reflexivity.
  - injection H as <- <-. exists []. reflexivity.
Qed.
Lemma collect_suffix fuel : forall l arr acc v r, collect fuel l arr acc = Ok (v, r) -> exists p, l = p ++ r.
Proof.
  induction fuel as [|fuel IH]; intros l arr acc v r H; [discriminate|]. cbn [collect] in H.
  destruct l as [|[tag w] rest]; [injection H as <- <-; exists []; reflexivity|].
  destruct (tag =? tMemberName).
  - destruct w as [key| | | | | | |]; try discriminate. destruct rest as [|[t1 v1] rest1]; [discriminate|].
    destruct (t1 =? tBeginCollection).
    + bind_inv H as x Hx K. destruct x as [cv rest2]. apply IH in Hx. apply IH in K. destruct Hx as [p ->]. destruct K as [q ->].
      exists ((tag, VStr key) :: (t1, v1) :: p ++ q). cbn [app]. rewrite <- app_assoc. reflexivity.
    + bind_inv H as x Hx K. destruct x as [cv rest2]. apply takeSame_suffix in Hx. apply IH in K. destruct Hx as [p ->]. destruct K as [q ->].
      exists ((tag, VStr key) :: (t1, v1) :: p ++ q). cbn [app]. rewrite <- app_assoc. reflexivity.
  - destruct (tag =? tEndCollection); [|discriminate]. destruct rest as [|[t1 v1] rest1]; [injection H as <- <-; exists [(tag, w)]; reflexivity|].
    destruct (t1 =? tBeginCollection).
    + apply IH in H. destruct H as [p ->]. exists ((tag, w) :: (t1, v1) :: p). reflexivity.
    + injection H as <- <-. exists [(tag, w)]. reflexivity.
Qed.
Lemma collect_ub fuel : forall l arr acc, collect fuel l arr acc = UB -> dangling l.
Proof.
  induction fuel as [|fuel IH]; intros l arr acc H; [discriminate|]. cbn [collect] in H.
  destruct l as [|[tag w] rest]; [discriminate|]. destruct (tag =? tMemberName) eqn:Et.
  - apply Z.eqb_eq in Et. destruct w as [key| | | | | | |]; try discriminate. destruct rest as [|[t1 v1] rest1]; [discriminate|].
    destruct (t1 =? tBeginCollection) eqn:E1.
    + destruct (collect fuel rest1 [] []) as [[cv rest2]| | | |] eqn:E; try discriminate; cbn [bind] in H.
      * apply IH in H. apply collect_suffix in E. destruct E as [p ->]. apply (dangling_app ((tag, VStr key) :: (t1, v1) :: p)). exact H.
      * apply IH in E. apply (dangling_app [(tag, VStr key); (t1, v1)]). exact E.
    + destruct (takeSame t1 rest1) as [[cv rest2]| | | |] eqn:E; try discriminate; cbn [bind] in H.
      * apply IH in H. apply takeSame_suffix in E. destruct E as [p ->]. apply (dangling_app ((tag, VStr key) :: (t1, v1) :: p)). exact H.
      * apply takeSame_ub in E. exists [], (VStr key), t1, v1, rest1. subst tag. split; [reflexivity|]. split; [|exact E].
        unfold tBeginCollection in E1. lia.
  - destruct (tag =? tEndCollection); [|discriminate]. destruct rest as [|[t1 v1] rest1]; [discriminate|].
    destruct (t1 =? tBeginCollection); [|discriminate]. apply IH in H. apply (dangling_app [(tag, w); (t1, v1)]). exact H.
Qed.
Lemma plain_ub {A} (x : outcome A) : plain x -> x <> UB.
Proof. destruct x; cbn; congruence. Qed.
(** every value is read as a length and that many bytes *)
Lemma get_u16_inv s n r : get_u16 s = Ok (n, r) -> s = be16 n ++ r /\ 0 <= n < 65536.
Proof.
  intros H. pose proof (get_u16_range _ _ _ H). destruct s as [|b [|c s]]; try discriminate. cbn [get_u16] in H. injection H as <- <-.
  rewrite be16_un16. split; [reflexivity|assumption].
Qed.
Definition item_value (s : list byte) (r : list byte) : Prop := exists x, s = be16 (blen x) ++ x ++ r /\ blen x < 65536.
Definition reads_n {A} (f : list byte -> outcome (A * list byte)) (n : nat) : Prop :=
  forall s a r, f s = Ok (a, r) -> exists x, s = x ++ r /\ length x = n.
Lemma reads_n_bind {A B} (f : list byte -> outcome (A * list byte)) (g : A -> list byte -> outcome (B * list byte)) n k :
  reads_n f n -> (forall a, reads_n (g a) k) -> reads_n (fun s => bind (f s) (fun x => let (a, s) := x in g a s)) (n + k).
Proof.
  intros Hf Hg s b r H. apply bind_ok in H. destruct H as [[a s1] [H1 H2]]. destruct (Hf _ _ _ H1) as [x [Ex Hx]].
  destruct (Hg a _ _ _ H2) as [y [Ey Hy]]. subst. exists (x ++ y). split; [apply app_assoc|]. rewrite app_length. reflexivity.
Qed.
Lemma reads_n_u8 : reads_n get_u8 1.
Proof. intros s a r H. destruct s as [|b s]; [discriminate|]. injection H as <- <-. exists [b]. split; reflexivity. Qed.
Lemma reads_n_u16 : reads_n get_u16 2.
Proof. intros s a r H. destruct s as [|b [|c s]]; try discriminate. injection H as <- <-. exists [b; c]. split; reflexivity. Qed.
Lemma reads_n_u32 : reads_n get_u32 4.
Proof. intros s x r H. destruct s as [|a [|b [|c [|d s]]]]; try discriminate. injection H as <- <-. exists [a; b; c; d]. split; reflexivity. Qed.
Lemma reads_n_ret {A} (a : A) : reads_n (fun s => Ok (a, s)) 0.
Proof. intros s b r H. injection H as <- <-. exists []. split; reflexivity. Qed.
Lemma optional_item A n (v : A) (g : list byte -> outcome (A * list byte)) s a r : reads_n g n -> (n < 100)%nat ->
  match next_zero s with Some r => Ok (v, r) | None => let! s := expect_u16 (Z.of_nat n) s in g s end = Ok (a, r) -> item_value s r.
Proof.
  intros Hg Hn H. destruct (next_zero s) as [s1|] eqn:E.
  - injection H as <- <-. destruct s as [|b [|c s]]; try discriminate. cbn [next_zero] in E. destruct (un16 b c =? 0) eqn:E0; [|discriminate].
    injection E as ->. apply Z.eqb_eq in E0. exists []. split; [|reflexivity]. rewrite <- (be16_un16 b c), E0 || idtac.
    pose proof (be16_un16 b c) as B. rewrite E0 in B. cbn [app]. change (blen []) with 0. rewrite B. reflexivity.
  - bind_inv H as s1 Hs K. unfold expect_u16 in Hs. bind_inv Hs as y Hy K2. destruct y as [z s2]. cbn [fst snd] in K2.
    destruct (z =? Z.of_nat n) eqn:E0; [|discriminate]. injection K2 as ->. apply Z.eqb_eq in E0. subst z. apply get_u16_inv in Hy. destruct Hy as [-> Hr].
    destruct (Hg _ _ _ K) as [x [-> Hx]]. exists x. unfold blen. rewrite Hx. split; [reflexivity|lia].
Qed.
Lemma decodeValue_item t s v r : decodeValue t s = Ok (v, r) -> item_value s r.
Proof.
  unfold decodeValue. destruct (_ || _ || _ || _ || _)%bool; [discriminate|]. destruct (_ || _)%bool.
  { intros H. apply (optional_item ipp_value 4) in H; [exact H| |lia]. apply (reads_n_bind _ _ 4 0); [apply reads_n_u32|intros; apply reads_n_ret]. }
  destruct (_ =? _).
  { intros H. apply (optional_item ipp_value 1) in H; [exact H| |lia]. apply (reads_n_bind _ _ 1 0); [apply reads_n_u8|intros; apply reads_n_ret]. }
  destruct (_ =? _).
  { intros H. apply (optional_item ipp_value 11) in H; [exact H| |lia]. apply (reads_n_bind _ _ 11 0); [|intros; apply reads_n_ret].
    unfold get_date. apply (reads_n_bind _ _ 2 9); [apply reads_n_u16|intros].
    apply (reads_n_bind _ _ 1 8); [apply reads_n_u8|intros]. apply (reads_n_bind _ _ 1 7); [apply reads_n_u8|intros].
    apply (reads_n_bind _ _ 1 6); [apply reads_n_u8|intros]. apply (reads_n_bind _ _ 1 5); [apply reads_n_u8|intros].
    apply (reads_n_bind _ _ 1 4); [apply reads_n_u8|intros]. apply (reads_n_bind _ _ 1 3); [apply reads_n_u8|intros].
    apply (reads_n_bind _ _ 1 2); [apply reads_n_u8|intros]. apply (reads_n_bind _ _ 1 1); [apply reads_n_u8|intros].
    apply (reads_n_bind _ _ 1 0); [apply reads_n_u8|intros]. apply reads_n_ret. }
  destruct (_ =? _).
  { intros H. apply (optional_item ipp_value 9) in H; [exact H| |lia]. apply (reads_n_bind _ _ 4 5); [apply reads_n_u32|intros].
    apply (reads_n_bind _ _ 4 1); [apply reads_n_u32|intros]. apply (reads_n_bind _ _ 1 0); [apply reads_n_u8|intros; apply reads_n_ret]. }
  destruct (_ =? _).
  { intros H. apply (optional_item ipp_value 8) in H; [exact H| |lia]. apply (reads_n_bind _ _ 4 4); [apply reads_n_u32|intros].
    apply (reads_n_bind _ _ 4 0); [apply reads_n_u32|intros; apply reads_n_ret]. }
  intros H. bind_inv H as p Hp K. destruct p as [b s1]. injection K as <- <-. unfold get_str in Hp. bind_inv Hp as q Hq K. destruct q as [n s2].
  bind_inv K as q Hq2 K. destruct q as [b2 s3]. injection K as <- <-. apply get_u16_inv in Hq. destruct Hq as [-> Hr].
  apply get_bytes_ok in Hq2; [|lia]. destruct Hq2 as [-> Hl]. exists b2. unfold blen. rewrite Hl. split; [reflexivity|lia].
Qed.
Lemma getUnnamed_as_items fuel : forall s l r, getUnnamed fuel s = Ok (l, r) ->
  exists its, s = flat_map item_bytes its ++ r /\ map i_tag its = map fst l /\ Forall (fun i => i_name i = []) its.
Proof.
  induction fuel as [|fuel IH]; intros s l r H; (destruct s as [|t s]; cbn [getUnnamed] in H;
    [injection H as <- <-; exists []; split; [reflexivity|split; [reflexivity|constructor]]|]);
  (destruct (next_zero s) as [s1|] eqn:E; [|injection H as <- <-; exists []; split; [reflexivity|split; [reflexivity|constructor]]]); [discriminate|].
  bind_inv H as x Hx K. destruct x as [v s2]. bind_inv K as y Hy K. destruct y as [l2 s3]. injection K as <- <-.
  destruct s as [|b [|c s]]; try discriminate. cbn [next_zero] in E. destruct (un16 b c =? 0) eqn:E0; [|discriminate]. injection E as ->.
  apply decodeValue_item in Hx. destruct Hx as [x [-> Hl]]. destruct (IH _ _ _ Hy) as [its [-> [Ht Hn]]].
  exists (mkItem (Zb t) [] x :: its). split; [|split; [cbn [map i_tag fst]; rewrite Ht; reflexivity|constructor; [reflexivity|exact Hn]]].
  cbn [flat_map]. set (rest := flat_map item_bytes its). unfold item_bytes. cbn [i_tag i_name i_value]. rewrite bZ_Zb. cbn [app]. f_equal. rewrite <- !app_assoc.
  apply Z.eqb_eq in E0. pose proof (be16_un16 b c) as B. rewrite E0 in B. change (blen []) with 0. rewrite B. reflexivity.
Qed.
Lemma consume_ub attrs s : consumeAttribute attrs s = UB ->
  exists t pre l r post, s = bZ 0x34 :: pre ++ t /\ (forall f, (length t <= f)%nat -> getUnnamed f t = Ok (l, r)) /\ t = post ++ r /\ dangling l.
Proof.
  unfold consumeAttribute. intros H.
  destruct (get_u8 s) as [[tag s1]| | | |] eqn:E1; try discriminate; cbn [bind] in H; [|destruct s; discriminate].
  pose proof (get_str_plain s1) as P. destruct (get_str s1) as [[name s2]| | | |] eqn:E2; try discriminate; cbn [bind] in H; [|destruct P]. clear P.
  pose proof (decodeValue_plain tag s2) as P. destruct (decodeValue tag s2) as [[v s3]| | | |] eqn:E3; try discriminate; cbn [bind] in H; [|destruct P]. clear P.
  pose proof (getUnnamed_plain (length s3) s3 (le_n _)) as P.
  destruct (getUnnamed (length s3) s3) as [[un s4]| | | |] eqn:E4; try discriminate; cbn [bind] in H; [|destruct P]. clear P.
  destruct (tag =? tBeginCollection) eqn:Et; [|discriminate]. apply Z.eqb_eq in Et.
  destruct (collect (S (length un)) un [] []) as [[v2 un2]| | | |] eqn:E5; try discriminate. apply collect_ub in E5.
  destruct s as [|b s]; [discriminate|]. cbn [get_u8] in E1. injection E1 as Eb ->.
  destruct (reads_str _ _ _ E2) as [p [-> _]]. destruct (reads_decodeValue _ _ _ _ E3) as [q [-> _]].
  destruct (getUnnamed_reads _ _ _ _ E4) as [o [Eo [Hst Ho]]].
  exists s3, (p ++ q), un, s4, o. split; [rewrite <- app_assoc; f_equal; apply Zb_inj; rewrite Eb, Et; reflexivity|].
  split; [|split; [exact Eo|exact E5]]. intros f Hf. subst s3. apply Ho; assumption.
Qed.
Lemma loop_ub n : forall m g attrs s, (length s <= n)%nat -> loop m g attrs s = UB ->
  exists pre mid t l r, s = pre ++ bZ 0x34 :: mid ++ t /\ getUnnamed (length t) t = Ok (l, r) /\ dangling l.
Proof.
  induction n as [|n IH]; intros m g attrs s Hn H; (destruct s as [|t s]; [discriminate|cbn [length] in Hn]); [lia|].
  destruct (Z_le_gt_dec (Zb t) 5) as [Hle|Hgt].
  - destruct (Z.eq_dec (Zb t) 3) as [E|E]; [rewrite loop_end in H by exact E; discriminate|]. rewrite loop_group in H by assumption.
    apply IH in H; [|lia]. destruct H as [pre [mid [u [l [r [-> H]]]]]]. exists (t :: pre), mid, u, l, r. split; [reflexivity|exact H].
  - rewrite loop_attr in H by lia. destruct (consumeAttribute attrs (t :: s)) as [[a r]| | | |] eqn:E; try discriminate; cbn [bind] in H.
    + pose proof (consume_shorter _ _ _ _ E) as Hs. cbn [length] in Hs. destruct (consume_reads _ _ _ _ E) as [t' [x [Ex _]]].
      apply IH in H; [|lia]. destruct H as [pre [mid [u [l [r' [-> H]]]]]]. exists ((t' :: x) ++ pre), mid, u, l, r'. split; [rewrite Ex, <- app_assoc; reflexivity|exact H].
    + apply consume_ub in E. destruct E as [u [pre [l [r [post [Es [Hg [_ Hdl]]]]]]]]. exists [], pre, u, l, r.
      split; [exact Es|]. split; [apply Hg; lia|exact Hdl].
Qed.
(** the same about the bytes *)
Lemma dangling_items its l : map i_tag its = map fst l -> dangling l ->
  exists pre i1 i2 more, its = pre ++ i1 :: i2 :: more /\ i_tag i1 = 0x4A /\ i_tag i2 <> 0x34 /\ Forall (fun i => i_tag i = i_tag i2) more.
Proof.
  intros E (pre & k & t & v & more & -> & Ht & Hm). rewrite map_app in E. cbn [map fst] in E.
  apply map_eq_app in E. destruct E as [p [q [-> [E1 E2]]]]. destruct q as [|i1 [|i2 q]]; try discriminate. cbn [map] in E2. injection E2 as F1 F2 F3.
  exists p, i1, i2, q. split; [reflexivity|]. split; [exact F1|]. split; [congruence|]. rewrite F2.
  clear - F3 Hm. revert q F3. induction Hm as [|a more Ha Hm IH]; intros q F; destruct q as [|i q]; try discriminate; [constructor|].
  cbn [map] in F. injection F as F1 F2. constructor; [congruence|]. apply IH. exact F2.
Qed.
Lemma decodeMsg_ub s : decodeMsg s = UB ->
  exists pre i1 i2 more r, s = pre ++ flat_map item_bytes (i1 :: i2 :: more) ++ r /\ In (bZ 0x34) pre /\
    Forall (fun i => i_name i = []) (i1 :: i2 :: more) /\
    i_tag i1 = 0x4A /\ i_tag i2 <> 0x34 /\ Forall (fun i => i_tag i = i_tag i2) more /\ (forall t x, r <> t :: bZ 0 :: bZ 0 :: x).
Proof.
  unfold decodeMsg. intros H.
  destruct (get_u8 s) as [[maj s1]| | | |] eqn:E1; cbn [bind] in H; try discriminate; [|destruct s; discriminate].
  destruct (get_u8 s1) as [[min s2]| | | |] eqn:E2; cbn [bind] in H; try discriminate; [|destruct s1; discriminate].
  destruct (get_u16 s2) as [[op s3]| | | |] eqn:E3; cbn [bind] in H; try discriminate; [|destruct s2 as [|? [|]]; discriminate].
  destruct (get_u32 s3) as [[id s4]| | | |] eqn:E4; cbn [bind] in H; try discriminate; [|destruct s3 as [|? [|? [|? [|]]]]; discriminate].
  apply (loop_ub (length s4)) in H; [|lia]. destruct H as [pre [mid [t [l [r [E5 [Hg Hd]]]]]]].
  destruct (reads_u8 _ _ _ E1) as [x1 [-> _]]. destruct (reads_u8 _ _ _ E2) as [x2 [-> _]]. destruct (reads_u16 _ _ _ E3) as [x3 [-> _]].
  destruct (reads_u32 _ _ _ E4) as [x4 [-> _]]. pose proof (getUnnamed_reads _ _ _ _ Hg) as [_ [_ [Hst _]]].
  destruct (getUnnamed_as_items _ _ _ _ Hg) as [its [-> [Ht Hn]]]. destruct (dangling_items _ _ Ht Hd) as [p [i1 [i2 [more [-> [F1 [F2 F3]]]]]]].
  exists (x1 ++ x2 ++ x3 ++ x4 ++ pre ++ bZ 0x34 :: mid ++ flat_map item_bytes p), i1, i2, more, r.
  split.
  { subst s4. rewrite flat_map_app. repeat (rewrite <- app_assoc || rewrite <- app_comm_cons). reflexivity. }
  split; [rewrite !in_app_iff; right; right; right; right; right; left; reflexivity|].
  apply Forall_app in Hn. destruct Hn as [_ Hn]. split; [exact Hn|]. split; [exact F1|]. split; [exact F2|]. split; [exact F3|].
  intros u x E. rewrite E in Hst. cbn [stops next_zero] in Hst. change (un16 (bZ 0) (bZ 0) =? 0) with true in Hst. discriminate.
Qed.
