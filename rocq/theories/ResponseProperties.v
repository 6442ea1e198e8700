(** C110, C111: any response; unsupported attributes; attributes without a value. *)
From Verif Require Import Base BaseLemmas MapModel MapProofs StringModel FloatModel ParamsModel IppModel IppSpec IppEncProofs IppDecProofs IppMsgProofs JsonModel SettingsModel DecodeModel WarnProofs
  SettingModel ConverterModel JobModel JobProperties WarnModel ResponseSpec.
From Coq Require Import Lia ZifyBool ZifyNat Permutation.
Local Open Scope Z_scope.
Ltac Zify.zify_post_hook ::= Z.div_mod_to_equations.

(** ** The loop with warnings *)
Lemma decode_loop_w_fuel f1 : forall f2 m g attrs s, (length s <= f1)%nat -> (length s <= f2)%nat -> decode_loop_w f1 m g attrs s = decode_loop_w f2 m g attrs s.
Proof.
  induction f1 as [|f1 IH]; intros f2 m g attrs s H1 H2.
  - destruct s; [destruct f2; reflexivity|cbn in H1; lia].
  - destruct s as [|t s]; [destruct f2; reflexivity|]. destruct f2 as [|f2]; [cbn in H2; lia|]. cbn [decode_loop_w]. cbn [length] in *.
    destruct (Zb t <=? tUnsupportedAttrs).
    + cbv zeta. destruct (Zb t =? tEndAttrs); [reflexivity|]. rewrite (IH f2) by lia. reflexivity.
    + destruct (consumeAttribute attrs (t :: s)) as [[a r]| | | |] eqn:E; try reflexivity.
      apply consume_shorter in E. cbn [length] in E. apply IH; lia.
Qed.
Definition wloop m g attrs s := decode_loop_w (length s) m g attrs s.
Lemma wloop_end m g attrs s : wloop m g attrs (bZ 3 :: s) = (warned g attrs, Ok (store_group m g attrs, s)).
Proof. reflexivity. Qed.
Lemma wloop_group m g attrs t s : In t group_tags ->
  wloop m g attrs (bZ t :: s) = (warned g attrs ++ fst (wloop (store_group m g attrs) t [] s), snd (wloop (store_group m g attrs) t [] s)).
Proof.
  intros Ht. unfold wloop. cbn [length decode_loop_w]. assert (E : Zb (bZ t) = t) by (apply Zb_bZ_small; cbn in Ht; lia). rewrite E.
  replace (t <=? tUnsupportedAttrs) with true by (unfold tUnsupportedAttrs; cbn in Ht; lia). cbv zeta.
  replace (t =? tEndAttrs) with false by (unfold tEndAttrs; cbn in Ht; lia). destruct (decode_loop_w _ _ _ _ _). reflexivity.
Qed.
Lemma wloop_attr m g attrs t s a r : 5 < Zb t -> consumeAttribute attrs (t :: s) = Ok (a, r) -> wloop m g attrs (t :: s) = wloop m g a r.
Proof.
  intros H E. unfold wloop. cbn [length decode_loop_w]. replace (Zb t <=? tUnsupportedAttrs) with false by (unfold tUnsupportedAttrs; lia).
  rewrite E. apply consume_shorter in E. cbn [length] in E. apply decode_loop_w_fuel; lia.
Qed.

(** ** Attributes without a value *)
Lemma decodeValue_none t r : 0x10 <= t <= 0x1F -> decodeValue t (be16 0 ++ r) = Ok (VStr "", r).
Proof.
  intros H. unfold decodeValue, tOpAttrs, tJobAttrs, tEndAttrs, tPrinterAttrs, tUnsupportedAttrs, tInteger, tBoolean, tEnum, tDateTime, tResolution, tIntegerRange.
  repeat match goal with |- context [t =? ?k] => replace (t =? k) with false by lia end. cbn [orb]. change (be16 0 ++ r) with (be16 (blen (bytes_of_string "")) ++ bytes_of_string "" ++ r). rewrite get_str_bytes by reflexivity. reflexivity.
Qed.
Lemma consume_none name t attrs r : 0x10 <= t <= 0x1F -> str_ok name = true -> stops r ->
  consumeAttribute attrs (flat_map item_bytes (attr_items name t (VStr "")) ++ r) = Ok (map_insert name (t, VStr "") attrs, r).
Proof.
  intros Ht Hn Hr. cbn [attr_items flat_map scalar_bytes]. rewrite app_nil_r. unfold item_bytes. cbn [i_tag i_name i_value app]. unfold consumeAttribute.
  rewrite get_u8_bZ by lia. cbn [bind]. rewrite <- !app_assoc. rewrite get_str_bytes by exact Hn. cbn [bind]. change (bytes_of_string "") with (@nil byte). change (blen (@nil byte)) with 0. cbn [app].
  rewrite decodeValue_none by exact Ht. cbn [bind]. rewrite (getUnnamed_items [] [] _ r) by (try constructor; try assumption; cbn; lia). cbn [bind].
  replace (t =? tBeginCollection) with false by (unfold tBeginCollection; lia). reflexivity.
Qed.

(** ** Attributes and groups *)
Lemma sent_first e : sent_entry e -> exists b1 x, flat_map item_bytes (attr_items (fst e) (fst (snd e)) (snd (snd e))) =
  bZ (fst (snd e)) :: be16 (Z.of_nat (String.length (fst e))) ++ b1 :: x /\ 0x10 <= fst (snd e) <= 0x49.
Proof.
  intros (Hn & Hs & [Hw|[Ht Hv]]).
  - destruct (entry_bytes e) as (b1 & x & E & H).
    { unfold wf_entry. rewrite Hs, Hw. destruct (String.eqb_spec (fst e) ""); [contradiction|reflexivity]. }
    exists b1, x. split; [exact E|lia].
  - destruct e as [name [t v]]. cbn [fst snd] in *. subst v. cbn [attr_items flat_map scalar_bytes]. rewrite app_nil_r. unfold item_bytes. cbn [i_tag i_name i_value].
    rewrite blen_string. destruct name as [|c name]; [contradiction|]. eexists. eexists. split; [reflexivity|lia].
Qed.
Lemma sent_stops l r : Forall sent_entry l -> stops r -> stops (group_bytes l ++ r).
Proof.
  intros H Hr. destruct H as [|e l He Hl]; [exact Hr|]. rewrite group_bytes_cons. destruct (sent_first e He) as (b1 & x & E & Ht). rewrite E. cbn [app stops].
  destruct He as (Hn & Hs & _). rewrite <- !app_assoc. apply next_zero_be16. unfold str_ok in Hs. destruct (fst e); [contradiction|]. cbn [String.length] in *. lia.
Qed.
Lemma wloop_entries m g l : Forall sent_entry l -> forall attrs r, stops r -> wloop m g attrs (group_bytes l ++ r) = wloop m g (insert_all l attrs) r.
Proof.
  induction 1 as [|e l He Hl IH]; intros attrs r Hr; [reflexivity|]. pose proof (sent_stops l r Hl Hr) as Hst.
  assert (C : consumeAttribute attrs (group_bytes (e :: l) ++ r) = Ok (map_insert (fst e) (snd e) attrs, group_bytes l ++ r)).
  { rewrite group_bytes_cons, <- app_assoc. destruct e as [name [t v]]. destruct He as (Hn & Hs & [Hw|[Ht Hv]]); cbn [fst snd] in *.
    - apply consume_items; assumption.
    - subst v. apply consume_none; assumption. }
  destruct (sent_first e He) as (b1 & x & E & Ht). rewrite group_bytes_cons, E in C |- *. cbn [app] in C |- *.
  assert (H5 : 5 < Zb (bZ (fst (snd e)))) by (rewrite Zb_bZ_small by lia; lia). rewrite (wloop_attr _ _ _ _ _ _ _ H5 C). apply IH. exact Hr.
Qed.
Lemma insert_new_perm {A} k (v : A) m : ~ In k (map fst m) -> Permutation ((k, v) :: m) (map_insert k v m).
Proof.
  induction m as [|[k' v'] m IH]; intros H; [apply Permutation_refl|]. cbn [map_insert]. cbn [map In fst] in H.
  destruct (String.compare k k') eqn:E; [exfalso; apply String.compare_eq_iff in E; subst; auto|apply Permutation_refl|].
  eapply perm_trans; [apply perm_swap|]. apply perm_skip. apply IH. tauto.
Qed.
Lemma insert_all_perm {A} (l : list (string * A)) : forall m, NoDup (map fst l ++ map fst m) -> Permutation (l ++ m) (insert_all l m).
Proof.
  induction l as [|[k v] l IH]; intros m H; [apply Permutation_refl|]. cbn [map app fst] in H. inversion H as [|? ? Hk Hn]; subst. cbn [insert_all fold_left fst snd app].
  change (fold_left _ l ?x) with (insert_all l x).
  assert (P : Permutation ((k, v) :: m) (map_insert k v m)) by (apply insert_new_perm; intros Hi; apply Hk; apply in_or_app; auto).
  eapply perm_trans; [|apply IH].
  - eapply perm_trans; [apply (Permutation_middle l m (k, v))|]. apply Permutation_app_head. exact P.
  - eapply Permutation_NoDup; [|apply H]. change (k :: map fst l ++ map fst m) with (k :: (map fst l ++ map fst m)).
    eapply perm_trans; [apply Permutation_middle|]. apply Permutation_app_head. apply (Permutation_map fst) in P. exact P.
Qed.
Lemma sorted_bool {A} (m : list (string * A)) : sorted_keys m -> keys_sorted m = true.
Proof.
  induction m as [|[k v] m IH]; intros H; [reflexivity|]. destruct H as [H1 H2]. cbn [keys_sorted]. rewrite (IH H2), andb_true_r. apply forallb_forall. intros e He.
  rewrite Forall_forall in H1. specialize (H1 _ He). destruct (String.compare k (fst e)); congruence.
Qed.
Lemma read_as_map l : NoDup (map fst l) -> as_map l (insert_all l []).
Proof.
  intros H. split; [apply sorted_bool; apply insert_all_sorted; exact I|]. pose proof (insert_all_perm l [] ltac:(cbn [map]; rewrite app_nil_r; exact H)) as P.
  rewrite app_nil_r in P. exact P.
Qed.

(** what is stored and written for a list of groups *)
Definition store_all (gs : list (Z * list (string * ipp_attr))) (m : ipp_msg) : ipp_msg := fold_left (fun m g => store_group m (fst g) (insert_all (snd g) [])) gs m.
Definition warn_all (gs : list (Z * list (string * ipp_attr))) : list byte := flat_map (fun g => warned (fst g) (insert_all (snd g) [])) gs.
Lemma tags_stop gs k d : Forall sent_group gs -> 0 < k < 256 -> next_zero d = None -> stops (flat_map (fun g => bZ (fst g) :: group_bytes (snd g)) gs ++ bZ k :: d).
Proof.
  intros H Hk Hd. destruct H as [|[t l] gs [Ht [He _]] Hg]; [cbn; exact Hd|]. cbn [flat_map app fst snd] in *. cbn [stops]. rewrite <- app_assoc. destruct He as [|e l He Hl].
  - change (group_bytes []) with (@nil byte). cbn [app]. destruct gs as [|[t2 l2] gs].
    + cbn [flat_map app]. destruct d as [|c d]; [reflexivity|]. cbn [next_zero]. unfold un16. rewrite Zb_bZ_small by lia. pose proof (Zb_range c). destruct (_ =? 0) eqn:E0; [lia|reflexivity].
    + inversion Hg as [|? ? [H2 _] _]; subst. cbn [fst] in H2. cbn [flat_map app fst snd].
      match goal with |- next_zero (_ :: ?z) = _ => destruct z as [|c y]; [reflexivity|] end. cbn [next_zero]. unfold un16.
      rewrite Zb_bZ_small by (cbn in H2; lia). pose proof (Zb_range c). destruct (_ =? 0) eqn:E0; [cbn in H2; lia|reflexivity].
  - rewrite group_bytes_cons. destruct (sent_first e He) as (b1 & x & E & Hr). rewrite E. unfold be16. cbn [app next_zero]. unfold un16. rewrite Zb_bZ_small by lia.
    pose proof (Zb_range (bZ (Z.of_nat (String.length (fst e)) / 256))). match goal with |- context [if ?c then _ else _] => destruct c eqn:E0 end; [lia|reflexivity].
Qed.
Lemma wloop_all gs d : Forall sent_group gs -> no00 d -> forall m g attrs,
  wloop m g attrs (flat_map (fun g => bZ (fst g) :: group_bytes (snd g)) gs ++ bZ 3 :: d) =
  (warned g attrs ++ warn_all gs, Ok (store_all gs (store_group m g attrs), d)).
Proof.
  intros H Hd. induction H as [|[t l] gs Hg Hgs IH]; intros m g attrs.
  - cbn [flat_map app]. rewrite wloop_end. unfold warn_all. cbn [flat_map]. rewrite app_nil_r. reflexivity.
  - destruct Hg as (Ht & He & Hn). cbn [fst snd] in *. cbn [flat_map app fst snd]. rewrite <- app_assoc. rewrite wloop_group by exact Ht.
    rewrite wloop_entries by (exact He || (apply tags_stop; [exact Hgs|lia|apply no00_next; exact Hd])). rewrite IH. cbn [fst snd]. reflexivity.
Qed.
Lemma store_all_op gs : forall m, m_opOrStatus (store_all gs m) = m_opOrStatus m /\ m_majVsn (store_all gs m) = m_majVsn m /\ m_minVsn (store_all gs m) = m_minVsn m.
Proof.
  induction gs as [|[t l] gs IH]; intros m; [auto|]. cbn [store_all fold_left fst snd]. change (fold_left _ gs ?x) with (store_all gs x).
  destruct (IH (store_group m t (insert_all l []))) as (-> & -> & ->). unfold store_group. repeat (destruct (_ =? _); [cbn; auto|]). auto.
Qed.
Lemma last_map {A B} (f : A -> B) l d : last (map f l) (f d) = f (last l d).
Proof. induction l as [|x [|y l] IH]; [reflexivity|reflexivity|]. exact IH. Qed.
Lemma last_cons {A} (x : A) l d : last (x :: l) d = last l x.
Proof. revert x d. induction l as [|y l IH]; intros x d; [reflexivity|]. change (last (y :: l) d = last (y :: l) x). rewrite !IH. reflexivity. Qed.
Lemma store_all_groups gs : forall m,
  m_opAttrs (store_all gs m) = last (map (fun l => insert_all l []) (groups_of 1 gs)) (m_opAttrs m) /\
  m_printerAttrs (store_all gs m) = last (map (fun l => insert_all l []) (groups_of 4 gs)) (m_printerAttrs m) /\
  m_jobAttrs (store_all gs m) = m_jobAttrs m ++ map (fun l => insert_all l []) (groups_of 2 gs).
Proof.
  induction gs as [|[t l] gs IH]; intros m; [cbn; rewrite app_nil_r; auto|]. cbn [store_all fold_left fst snd]. change (fold_left _ gs ?x) with (store_all gs x).
  destruct (IH (store_group m t (insert_all l []))) as (-> & -> & ->). unfold groups_of. cbn [filter fst]. unfold store_group, tOpAttrs, tJobAttrs, tPrinterAttrs.
  destruct (Z.eqb_spec t 1) as [->|N1]; [cbn [map Z.eqb Pos.eqb snd m_opAttrs m_printerAttrs m_jobAttrs]; rewrite last_cons; auto|].
  destruct (Z.eqb_spec t 2) as [->|N2]; [cbn [map Z.eqb Pos.eqb snd m_opAttrs m_printerAttrs m_jobAttrs]; rewrite <- app_assoc; auto|].
  destruct (Z.eqb_spec t 4) as [->|N4]; [cbn [map Z.eqb Pos.eqb snd m_opAttrs m_printerAttrs m_jobAttrs]; rewrite last_cons; auto|]. auto.
Qed.
Lemma warn_all_groups gs : warn_all gs = flat_map unsupported_warning (map (fun l => insert_all l []) (groups_of 5 gs)).
Proof.
  induction gs as [|[t l] gs IH]; [reflexivity|]. unfold warn_all, groups_of in *. cbn [flat_map filter fst snd]. rewrite IH. unfold warned, tUnsupportedAttrs. destruct (t =? 5); reflexivity.
Qed.

(** ** C110: any message a printer may send *)
(** Whatever the groups, their number and order and the order of the attributes, with
    attributes of all kinds of values or without a value: the operation and printer attributes
    are those of the last group of their kind, there is an element of the job attributes for
    each job group, the document that follows is left alone, and all that is done with
    unsupported attributes is to write each group of them to standard error. *)
Theorem C110_read : forall maj min op id gs d, 0 <= maj < 256 -> 0 <= min < 256 -> 0 <= op < 65536 -> 0 <= id < 4294967296 ->
  Forall sent_group gs -> no00 d ->
  exists m unsupported,
    decodeMsg_w (sent_bytes maj min op id gs ++ d) = (flat_map (fun a => bytes_of_string "WARNING: unsupported attrs reported: " ++ [bZ 10] ++ dump (attrsToJSON a)) unsupported, Ok (m, d)) /\
    m_majVsn m = maj /\ m_minVsn m = min /\ m_opOrStatus m = op /\
    as_map (last (groups_of 1 gs) []) (m_opAttrs m) /\ as_map (last (groups_of 4 gs) []) (m_printerAttrs m) /\
    Forall2 as_map (groups_of 2 gs) (m_jobAttrs m) /\ Forall2 as_map (groups_of 5 gs) unsupported.
Proof.
  intros maj min op id gs d H1 H2 H3 H4 Hg Hd. unfold sent_bytes, decodeMsg_w.
  assert (N : forall t l, In l (groups_of t gs) -> NoDup (map fst l)).
  { intros t l Hl. unfold groups_of in Hl. apply in_map_iff in Hl. destruct Hl as ([t' l'] & <- & Hl). apply filter_In in Hl. destruct Hl as [Hl _]. rewrite Forall_forall in Hg. apply (Hg _ Hl). }
  assert (F : forall ls, (forall l, In l ls -> NoDup (map fst l)) -> Forall2 as_map ls (map (fun l : list (string * ipp_attr) => insert_all l []) ls)).
  { induction ls as [|l ls IH]; intros Hl; [constructor|]. cbn [map]. constructor; [apply read_as_map; apply Hl; left; reflexivity|apply IH; intros; apply Hl; right; assumption]. }
  assert (L : forall t, as_map (last (groups_of t gs) []) (last (map (fun l => insert_all l []) (groups_of t gs)) [])).
  { intros t. refine (eq_ind_r (as_map _) _ (last_map (fun l : list (string * ipp_attr) => insert_all l []) (groups_of t gs) [])). apply read_as_map.
    specialize (N t). destruct (groups_of t gs) as [|l ls]; [constructor|]. apply N. rewrite (app_removelast_last (l := l :: ls) []) at 2 by discriminate. apply in_or_app. right. left. reflexivity. }
  rewrite <- !app_assoc. cbn [app]. rewrite get_u8_bZ by lia. cbn [bind]. rewrite get_u8_bZ by lia. cbn [bind]. rewrite un16_be16 by lia. cbn [bind]. rewrite un32_be32 by lia. cbn [bind].
  set (m0 := mkMsg op maj min [] [] []). change (decode_loop_w (length ?s) m0 tEndAttrs [] ?s) with (wloop m0 3 [] s). rewrite wloop_all by assumption.
  change (store_group m0 3 []) with m0. change (warned 3 []) with (@nil byte). cbn [app]. rewrite warn_all_groups. destruct (store_all_op gs m0) as (A & B & C). destruct (store_all_groups gs m0) as (D & E & G).
  eexists. eexists. split; [f_equal; apply flat_map_ext; intros a; unfold unsupported_warning, line; rewrite <- app_assoc; reflexivity|].
  rewrite A, B, C, D, E, G. cbn [m0 m_opOrStatus m_majVsn m_minVsn m_opAttrs m_jobAttrs m_printerAttrs app].
  repeat split; try reflexivity; try apply L; apply F; apply N.
Qed.
(** What is read is the message of the other theorems. *)
Theorem C110_same : forall s, snd (decodeMsg_w s) = decodeMsg s.
Proof. exact decodeMsg_w_snd. Qed.

(** ippdecode: the unsupported attributes of such a message are on standard error only. *)
Theorem C110_shown : forall maj min op id gs d file name, 0 <= maj < 256 -> 0 <= min < 256 -> 0 <= op < 65536 -> 0 <= id < 4294967296 ->
  Forall sent_group gs -> no00 d -> file name = Some (sent_bytes maj min op id gs ++ d) ->
  exists m unsupported, decodeMsg (sent_bytes maj min op id gs ++ d) = Ok (m, d) /\ Forall2 as_map (groups_of 5 gs) unsupported /\
  ippdecode file [name] = Ok (0, msg_text m, flat_map (fun a => bytes_of_string "WARNING: unsupported attrs reported: " ++ [bZ 10] ++ dump (attrsToJSON a)) unsupported).
Proof.
  intros maj min op id gs d file name H1 H2 H3 H4 Hg Hd F. destruct (C110_read maj min op id gs d H1 H2 H3 H4 Hg Hd) as (m & u & E & _ & _ & _ & _ & _ & _ & U).
  exists m, u. split; [rewrite <- decodeMsg_w_snd, E; reflexivity|]. split; [exact U|]. cbn [ippdecode]. rewrite F, E. reflexivity.
Qed.

(** ** C110: groups of other kinds *)
Lemma wloop_before gs k d : Forall sent_group gs -> 0 < k < 256 -> next_zero d = None -> forall m g attrs,
  exists m' g' attrs', snd (wloop m g attrs (flat_map (fun g => bZ (fst g) :: group_bytes (snd g)) gs ++ bZ k :: d)) = snd (wloop m' g' attrs' (bZ k :: d)).
Proof.
  intros H Hk Hd. induction H as [|[t l] gs Hg Hgs IH]; intros m g attrs.
  - exists m, g, attrs. reflexivity.
  - destruct Hg as (Ht & He & Hn). cbn [fst snd] in *. cbn [flat_map app fst snd]. rewrite <- app_assoc. rewrite wloop_group by exact Ht.
    rewrite wloop_entries by (exact He || (apply tags_stop; assumption)). cbn [fst snd]. apply IH.
Qed.
(** RFC 8010 3.5.1 has more kinds of groups: subscription (6), event notification (7),
    resource (8) and document attributes (9), and reserves 0x0A to 0x0F.  Finding: these tags
    are taken for those of attributes; the message is lost unless thousands of bytes follow. *)
Theorem C110_delimiters_refuted : forall maj min op id gs t e l d, 0 <= maj < 256 -> 0 <= min < 256 -> 0 <= op < 65536 -> 0 <= id < 4294967296 ->
  Forall sent_group gs -> 6 <= t <= 15 -> Forall sent_entry (e :: l) -> blen (group_bytes (e :: l) ++ d) < 4096 ->
  decodeMsg ([bZ maj; bZ min] ++ be16 op ++ be32 id ++ flat_map (fun g => bZ (fst g) :: group_bytes (snd g)) gs ++ bZ t :: group_bytes (e :: l) ++ d) = Throw OutOfRange.
Proof.
  intros maj min op id gs t e l d H1 H2 H3 H4 Hg Ht He Hb. rewrite <- decodeMsg_w_snd. unfold decodeMsg_w.
  cbn [app]. rewrite get_u8_bZ by lia. cbn [bind]. rewrite get_u8_bZ by lia. cbn [bind]. rewrite un16_be16 by lia. cbn [bind]. rewrite un32_be32 by lia. cbn [bind].
  set (m0 := mkMsg op maj min [] [] []). change (decode_loop_w (length ?s) m0 tEndAttrs [] ?s) with (wloop m0 3 [] s).
  inversion He as [|? ? He1 He2]; subst. destruct (sent_first e He1) as (b1 & x & E & Hr). rewrite group_bytes_cons, E in Hb |- *. cbn [app] in Hb |- *.
  remember (be16 (Z.of_nat (String.length (fst e)))) as n eqn:En. unfold be16 in En. subst n. cbn [app] in Hb |- *.
  set (n1 := bZ (Z.of_nat (String.length (fst e)) / 256)) in *. set (n2 := bZ (Z.of_nat (String.length (fst e)))) in *.
  match type of Hb with blen (_ :: _ :: ?z) < _ => set (r := z) in * end.
  assert (N : next_zero (bZ (fst (snd e)) :: n1 :: r) = None).
  { cbn [next_zero]. unfold un16. rewrite Zb_bZ_small by lia. pose proof (Zb_range n1). destruct (_ =? 0) eqn:E0; [lia|reflexivity]. }
  destruct (wloop_before gs t (bZ (fst (snd e)) :: n1 :: r) Hg ltac:(lia) N m0 3 []) as (m' & g' & attrs' & W). rewrite W. unfold wloop. cbn [length decode_loop_w].
  rewrite Zb_bZ_small by lia. replace (t <=? tUnsupportedAttrs) with false by (unfold tUnsupportedAttrs; lia).
  unfold consumeAttribute. rewrite get_u8_bZ by lia. cbn [bind]. unfold get_str. cbn [get_u16 bind]. unfold get_bytes, un16. rewrite Zb_bZ_small by lia.
  pose proof (Zb_range n1). unfold blen in Hb. cbn [length] in Hb. match goal with |- context [if ?c then _ else _] => replace c with false by lia end. reflexivity.
Qed.

(** ** C111: attributes without a value *)
Lemma in_read l m e : as_map l m -> In e l -> map_get (fst e) m = Some (snd e).
Proof. intros [S P] H. destruct e as [k v]. apply In_map_get; [apply keys_sorted_prop; exact S|]. eapply Permutation_in; [exact P|exact H]. Qed.
Lemma not_read l m k : as_map l m -> ~ In k (map fst l) -> map_get k m = None.
Proof. intros [S P] H. apply map_get_none. intros Hi. apply H. eapply Permutation_in; [apply Permutation_map, Permutation_sym; exact P|exact Hi]. Qed.
(** For every response and every printer attribute: one that is not sent gives the default
    asked for, and one that is sent with one value of the type asked for gives its value. *)
Theorem C111_get_partial : forall maj min op id gs d, 0 <= maj < 256 -> 0 <= min < 256 -> 0 <= op < 65536 -> 0 <= id < 4294967296 -> Forall sent_group gs -> no00 d ->
  exists m, decodeMsg (sent_bytes maj min op id gs ++ d) = Ok (m, d) /\ forall name ty dflt,
  (~ In name (map fst (last (groups_of 4 gs) [])) -> attrs_get ty name dflt (m_printerAttrs m) = Ok dflt) /\
  (forall t v, In (name, (t, v)) (last (groups_of 4 gs) []) -> has_type ty v = true -> attrs_get ty name dflt (m_printerAttrs m) = Ok v).
Proof.
  intros maj min op id gs d H1 H2 H3 H4 Hg Hd. destruct (C110_read maj min op id gs d H1 H2 H3 H4 Hg Hd) as (m & u & E & _ & _ & _ & _ & P & _).
  exists m. split; [rewrite <- decodeMsg_w_snd, E; reflexivity|]. intros name ty dflt. unfold attrs_get, attrs_at. split.
  - intros N. rewrite (not_read _ _ _ P N). reflexivity.
  - intros t v Hi Ht. pose proof (in_read _ _ _ P Hi) as G. cbn [fst snd] in G. rewrite G. cbn [bind snd]. unfold get_as. rewrite Ht. reflexivity.
Qed.
(** Finding: an attribute that is sent without a value does not give the default: as a text it
    is empty, as anything else it is an exception. *)
Theorem C111_default_refuted : forall maj min op id gs d name t, 0 <= maj < 256 -> 0 <= min < 256 -> 0 <= op < 65536 -> 0 <= id < 4294967296 -> Forall sent_group gs -> no00 d ->
  In (name, (t, VStr "")) (last (groups_of 4 gs) []) -> 0x10 <= t <= 0x1F ->
  exists m, decodeMsg (sent_bytes maj min op id gs ++ d) = Ok (m, d) /\ forall ty dflt, dflt <> VStr "" -> attrs_get ty name dflt (m_printerAttrs m) <> Ok dflt /\
  (ty <> TStr -> attrs_get ty name dflt (m_printerAttrs m) = Throw BadVariant).
Proof.
  intros maj min op id gs d name t H1 H2 H3 H4 Hg Hd Hi _. destruct (C110_read maj min op id gs d H1 H2 H3 H4 Hg Hd) as (m & u & E & _ & _ & _ & _ & P & _).
  exists m. split; [rewrite <- decodeMsg_w_snd, E; reflexivity|]. intros ty dflt Hv. unfold attrs_get, attrs_at. pose proof (in_read _ _ _ P Hi) as G. cbn [fst snd] in G. rewrite G. cbn [bind snd]. unfold get_as.
  destruct ty; cbn [has_type]; split; intros; try congruence; try reflexivity; try discriminate.
Qed.
(** Finding: RFC 8011 5.2.11 allows a media-default without a value.  No document can be
    printed on such a printer without choosing the paper: finalize gives an error, or throws. *)
Theorem C111_media_refuted : forall maj min op id gs d t, 0 <= maj < 256 -> 0 <= min < 256 -> 0 <= op < 65536 -> 0 <= id < 4294967296 -> Forall sent_group gs -> no00 d ->
  In ("media-default"%string, (t, VStr "")) (last (groups_of 4 gs) []) -> 0x10 <= t <= 0x1F ->
  exists m, decodeMsg (sent_bytes maj min op id gs ++ d) = Ok (m, d) /\
  forall j inp pages j', j_printerAttrs j = m_printerAttrs m -> map_get "media" (j_jobAttrs j) = None -> finalize j inp pages <> Ok (None, j').
Proof.
  intros maj min op id gs d t H1 H2 H3 H4 Hg Hd Hi _. destruct (C110_read maj min op id gs d H1 H2 H3 H4 Hg Hd) as (m & u & E & _ & _ & _ & _ & P & _).
  exists m. split; [rewrite <- decodeMsg_w_snd, E; reflexivity|]. intros j inp pages j' Hp Hm H. pose proof (in_read _ _ _ P Hi) as G. cbn [fst snd] in G. rewrite <- Hp in G. clear E P Hi Hp.
  unfold finalize in H. bind_inv H as j1 C1 H.
  assert (K1 : j_printerAttrs j1 = j_printerAttrs j /\ j_jobAttrs j1 = j_jobAttrs j).
  { unfold choose_format in C1. bind_inv C1 as f F1 C1. bind_inv C1 as s F2 C1. unfold set_op in C1. bind_inv C1 as o F3 C1. injection C1 as <-. split; reflexivity. }
  destruct (_ || _)%bool; [discriminate|]. bind_inv H as j2 C2 H.
  assert (K2 : j_printerAttrs j2 = j_printerAttrs j1 /\ j_jobAttrs j2 = j_jobAttrs j1).
  { unfold choose_compression, set_op in C2. destruct (isPrinterRaster _); [|injection C2 as <-; auto]. bind_inv C2 as s F C2. destruct (contains s "gzip"); [bind_inv C2 as o F3 C2; injection C2 as <-; auto|].
    destruct (contains s "deflate"); [bind_inv C2 as o F3 C2; injection C2 as <-; auto|injection C2 as <-; auto]. }
  destruct K1 as [P1 J1], K2 as [P2 J2]. rewrite <- P1, <- P2 in G. rewrite <- J1, <- J2 in Hm. bind_inv H as r C3 H. destruct r as [ok j3].
  unfold choose_paper, get_job, setting_get, setting_isSet in C3. cbn [s_media s_sub s_name String.eqb] in C3. unfold map_has in C3. rewrite Hm in C3. cbn [bind] in C3.
  unfold getDefault, attrs_get, attrs_at in C3. cbn [s_media s_type s_name] in C3. change ("media" ++ "-default")%string with "media-default"%string in C3. rewrite G in C3.
  cbn [bind snd get_as has_type v_str] in C3. change (setPaperSize (j_params j2) "") with (Ok (false, j_params j2)) in C3. cbn [bind] in C3. injection C3 as <- <-. discriminate.
Qed.

(** ** Examples *)
(** the answer of a printer to Get-Printer-Attributes: unsupported attributes twice, one of them
    without a value, and printer attributes that are not in the order of their names *)
Definition example_answer : list (Z * list (string * ipp_attr)) :=
  [(1, [("attributes-charset", (0x47, VStr "utf-8")); ("attributes-natural-language", (0x48, VStr "en"))]);
   (5, [("media-ready", (0x10, VStr ""))]);
   (5, [("copies", (0x21, VInt 99))]);
   (4, [("printer-name", (0x42, VStr "lp")); ("media-default", (0x13, VStr ""));
        ("document-format-supported", (0x49, VSet [VStr "application/octet-stream"; VStr "image/pwg-raster"]));
        ("pwg-raster-document-resolution-supported", (0x32, VRes 300 300 3))])]%string.
Ltac sent_one :=
  split; [vm_compute; tauto|split; cbn [map fst snd];
    [repeat (first [apply Forall_nil | apply Forall_cons; [split; [discriminate|split; [reflexivity|first [left; reflexivity | right; split; [cbn; lia|reflexivity]]]]|]])
    |repeat (first [apply NoDup_nil | apply NoDup_cons; [cbn; intuition discriminate|]])]].
Lemma example_sent : Forall sent_group example_answer.
Proof.
  unfold example_answer. do 4 (apply Forall_cons; [sent_one|]). apply Forall_nil.
Qed.
Example C110_example : fst (decodeMsg_w (sent_bytes 1 1 0 7 example_answer)) = bytes_of_string "WARNING: unsupported attrs reported: " ++ [bZ 10] ++
  bytes_of_string "{""media-ready"": {""tag"": 16, ""value"": """"}}WARNING: unsupported attrs reported: " ++ [bZ 10] ++ bytes_of_string "{""copies"": {""tag"": 33, ""value"": 99}}" /\
  match decodeMsg (sent_bytes 1 1 0 7 example_answer) with Ok (m, []) => map fst (m_printerAttrs m) = ["document-format-supported"; "media-default"; "printer-name"; "pwg-raster-document-resolution-supported"]%string | _ => False end.
Proof. vm_compute. split; reflexivity. Qed.
Example C110_delimiters_example : decodeMsg (sent_bytes 1 1 0 7 (example_answer ++ [(9, [("document-state", (0x23, VInt 9))]%string)])) = Throw OutOfRange.
Proof. vm_compute. reflexivity. Qed.
(** with media-default without a value and without media-default *)
Example C111_example : match decodeMsg (sent_bytes 1 1 0 7 example_answer) with
  | Ok (m, _) => match finalize (new_job (m_printerAttrs m) []) "application/pdf" 1 with Ok (Some e, _) => e = "Invalid paper size name"%string | _ => False end /\
      match finalize (new_job (map_erase "media-default" (m_printerAttrs m)) []) "application/pdf" 1 with Ok (None, j) => p_paperSizeName (j_params j) = "iso_a4_210x297mm"%string | _ => False end
  | _ => False end.
Proof. vm_compute. split; reflexivity. Qed.

Print Assumptions C110_read.
Print Assumptions C110_same.
Print Assumptions C110_shown.
Print Assumptions C110_delimiters_refuted.
Print Assumptions C111_get_partial.
Print Assumptions C111_default_refuted.
Print Assumptions C111_media_refuted.
