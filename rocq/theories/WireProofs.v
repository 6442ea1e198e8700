(** Lemmas for C102: the attributes of all_requests and jobs fit on the wire. *)
From Verif Require Import Base BaseLemmas MapModel MapProofs FloatModel StringModel StringSpec StringProofs ParamsModel
  IppModel IppSpec IppEncProofs IppDecProofs IppMsgProofs IppProperties JsonModel ArgModel SettingModel SettingProperties ConverterModel ConverterProperties
  JobModel JobProofs JobProperties PrinterModel PrinterSpec PrinterProperties SettingsModel ClientModel WireSpec.
From Verif Require ArgProperties.
From Coq Require Import Lia ZifyBool ZifyNat Permutation.
Local Open Scope Z_scope.

(** ** Well-formed attributes *)
Definition name_fits (k : string) : bool := negb (String.eqb k "") && str_ok k.
Definition fitting (m : ipp_attrs) : Prop := sorted_keys m /\ forall k a, In (k, a) m -> name_fits k = true /\ wf_attr a = true.
Lemma sorted_prop {A} (m : list (string * A)) : keys_sorted m = true <-> sorted_keys m.
Proof.
  split; [apply keys_sorted_prop|]. induction m as [|[k v] m IH]; [reflexivity|]. intros [H1 H2]. cbn [keys_sorted]. rewrite IH by exact H2. rewrite Bool.andb_true_r.
  apply forallb_forall. intros e He. rewrite Forall_forall in H1. rewrite (H1 e He). reflexivity.
Qed.
Lemma wf_fitting m : wf_attrs m = true <-> fitting m.
Proof.
  unfold wf_attrs, fitting. rewrite Bool.andb_true_iff, sorted_prop, forallb_forall. split; intros [H1 H2]; (split; [exact H1|]).
  - intros k a Hin. specialize (H2 _ Hin). cbn [fst snd] in H2. unfold name_fits. apply andb_prop in H2. exact H2.
  - intros [k a] Hin. destruct (H2 k a Hin) as [H3 H4]. cbn [fst snd]. unfold name_fits in H3. rewrite H3, H4. reflexivity.
Qed.
Lemma fitting_nil : fitting [].
Proof. split; [exact I|]. intros k a []. Qed.
Lemma fitting_set m k a : fitting m -> name_fits k = true -> wf_attr a = true -> fitting (map_set k a m).
Proof.
  intros [H1 H2] Hk Ha. split; [apply set_sorted; exact H1|]. intros k' a' Hin. apply set_keys in Hin. destruct Hin as [E|Hin]; [injection E as -> ->; auto|apply H2; exact Hin].
Qed.
Lemma fitting_insert m k a : fitting m -> name_fits k = true -> wf_attr a = true -> fitting (map_insert k a m).
Proof.
  intros [H1 H2] Hk Ha. split; [apply insert_sorted; exact H1|]. intros k' a' Hin. apply insert_keys in Hin. destruct Hin as [E|Hin]; [injection E as -> ->; auto|apply H2; exact Hin].
Qed.
Lemma fitting_erase m k : fitting m -> fitting (map_erase k m).
Proof. intros [H1 H2]. split; [apply erase_sorted; exact H1|]. intros k' a' Hin. apply erase_keys in Hin. apply H2. exact Hin. Qed.
Lemma fitting_get m k a : fitting m -> map_get k m = Some a -> wf_attr a = true.
Proof. intros [_ H] E. apply map_get_In in E. apply (H k a E). Qed.

(** ** Sets of one value *)
Definition att (a : ipp_attr) : ipp_attr := (fst a, one (snd a)).
Lemma ones_set k a m : ones (map_set k a m) = map_set k (att a) (ones m).
Proof.
  unfold ones. induction m as [|[k' v] m IH]; [reflexivity|]. cbn [map_set map fst snd]. destruct (String.compare k k'); cbn [map fst snd]; [reflexivity|reflexivity|]. rewrite IH. reflexivity.
Qed.
Lemma ones_erase k m : ones (map_erase k m) = map_erase k (ones m).
Proof. unfold ones. induction m as [|[k' v] m IH]; [reflexivity|]. cbn [map_erase map fst snd]. destruct (String.eqb k k'); [reflexivity|]. cbn [map fst snd]. rewrite IH. reflexivity. Qed.
Lemma ones_get k m : map_get k (ones m) = option_map att (map_get k m).
Proof. unfold ones. induction m as [|[k' v] m IH]; [reflexivity|]. cbn [map_get map fst snd]. destruct (String.eqb k k'); [reflexivity|exact IH]. Qed.
Lemma sendable_fitting m : sendable m <-> fitting (ones m).
Proof. apply wf_fitting. Qed.
Lemma sendable_nil : sendable [].
Proof. reflexivity. Qed.
Lemma sendable_set m k a : sendable m -> name_fits k = true -> wf_attr (att a) = true -> sendable (map_set k a m).
Proof. rewrite !sendable_fitting, ones_set. apply fitting_set. Qed.
Lemma sendable_erase m k : sendable m -> sendable (map_erase k m).
Proof. rewrite !sendable_fitting, ones_erase. apply fitting_erase. Qed.
Lemma sendable_coll m k t c : sendable m -> map_get k m = Some (t, VColl c) -> wf_attr (t, VColl c) = true.
Proof. intros H E. apply sendable_fitting in H. apply (fitting_get _ k _ H). rewrite ones_get, E. reflexivity. Qed.
(** collections *)
Definition member_fits (c : ipp_attrs) : Prop := sorted_keys c /\ forall k a, In (k, a) c -> str_ok k = true /\ wf_attr a = true.
Lemma coll_fits c : wf_attr (tBeginCollection, VColl c) = true <-> member_fits c.
Proof.
  unfold wf_attr, member_fits. cbn [fst snd wf_val]. change (tBeginCollection =? 52) with true. cbn [andb]. rewrite Bool.andb_true_iff, sorted_prop, forallb_forall. split; intros [H1 H2]; (split; [exact H1|]).
  - intros k a Hin. specialize (H2 _ Hin). cbn [fst snd] in H2. apply andb_prop in H2. exact H2.
  - intros [k a] Hin. destruct (H2 k a Hin) as [H3 H4]. cbn [fst snd]. rewrite H3. exact H4.
Qed.
Lemma coll_tag t c : wf_attr (t, VColl c) = true -> t = tBeginCollection.
Proof. unfold wf_attr. cbn [fst snd wf_val]. intros H. destruct (Z.eqb_spec t 52) as [->|]; [reflexivity|discriminate]. Qed.
Lemma member_set c k a : member_fits c -> str_ok k = true -> wf_attr a = true -> member_fits (map_set k a c).
Proof.
  intros [H1 H2] Hk Ha. split; [apply set_sorted; exact H1|]. intros k' a' Hin. apply set_keys in Hin. destruct Hin as [E|Hin]; [injection E as -> ->; auto|apply H2; exact Hin].
Qed.
Lemma member_erase c k : member_fits c -> member_fits (map_erase k c).
Proof. intros [H1 H2]. split; [apply erase_sorted; exact H1|]. intros k' a' Hin. apply erase_keys in Hin. apply H2. exact Hin. Qed.
Lemma member_nil : member_fits [].
Proof. split; [exact I|]. intros k a []. Qed.

(** ** Settings *)
Definition setting_fits (s : setting) : Prop := name_fits (s_name s) = true /\ (s_sub s = ""%string \/ name_fits (s_sub s) = true).
Lemma sub_coll_fits s m c : sendable m -> sub_coll s m = Ok c -> member_fits c.
Proof.
  unfold sub_coll. intros H E. destruct (map_get (s_sub s) m) as [[t v]|] eqn:G; [|injection E as <-; apply member_nil].
  cbn [snd get_coll] in E. destruct v; try discriminate. injection E as ->. pose proof (sendable_coll _ _ _ _ H G) as W. pose proof (coll_tag _ _ W) as ->. apply coll_fits. exact W.
Qed.
Lemma setting_set_fits s v m m' : sendable m -> setting_fits s -> (if String.eqb (s_sub s) "" then wf_attr (s_tag s, one v) else wf_attr (s_tag s, v)) = true ->
  setting_set s v m = Ok m' -> sendable m'.
Proof.
  intros H [N1 N2] W E. unfold setting_set in E. destruct (String.eqb (s_sub s) "") eqn:Es.
  - injection E as <-. apply sendable_set; assumption.
  - bind_inv E as c Hc E. injection E as <-. destruct N2 as [N2|N2]; [rewrite N2 in Es; discriminate|]. apply sendable_set; [exact H|exact N2|].
    change (att (tBeginCollection, VColl (map_set (s_name s) (s_tag s, v) c))) with (tBeginCollection, VColl (map_set (s_name s) (s_tag s, v) c)).
    apply coll_fits. apply member_set; [exact (sub_coll_fits _ _ _ H Hc)| |exact W]. unfold name_fits in N1. apply andb_prop in N1. apply N1.
Qed.
Lemma setting_unset_fits s m m' : sendable m -> setting_fits s -> setting_unset s m = Ok m' -> sendable m'.
Proof.
  intros H [N1 N2] E. unfold setting_unset in E. destruct (String.eqb (s_sub s) "") eqn:Es; [injection E as <-; apply sendable_erase; exact H|].
  bind_inv E as c Hc E. destruct N2 as [N2|N2]; [rewrite N2 in Es; discriminate|]. pose proof (member_erase _ (s_name s) (sub_coll_fits _ _ _ H Hc)) as M.
  destruct (map_erase (s_name s) c) as [|e c']; injection E as <-; [apply sendable_erase; exact H|]. apply sendable_set; [exact H|exact N2|]. apply coll_fits. exact M.
Qed.

(** ** Finalizing a job *)
Definition job_fits (j : job) : Prop := sendable (j_jobAttrs j) /\ fitting (j_opAttrs j) /\ no_base (j_opAttrs j).
Lemma no_base_set k a m : sorted_keys m -> ~ In k ["attributes-charset"; "attributes-natural-language"; "printer-uri"; "requesting-user-name"]%string -> no_base m -> no_base (map_set k a m).
Proof.
  unfold no_base. rewrite !Forall_forall. intros S N H k' Hk. rewrite map_get_set by exact S. destruct (String.eqb_spec k' k) as [->|]; [contradiction|apply H; exact Hk].
Qed.
Ltac not_base := cbn; intros Q; repeat (destruct Q as [Q|Q]; [discriminate|]); exact Q.
Lemma short_ok s : short s -> str_ok s = true.
Proof. unfold short, str_ok. lia. Qed.
Lemma get_op_format j v : fitting (j_opAttrs j) -> get_op j s_documentFormat (VStr OctetStream) = Ok v -> setting_isSet s_documentFormat (j_opAttrs j) = Ok true -> str_ok (v_str v) = true.
Proof.
  unfold get_op, setting_get, setting_isSet. cbn [s_sub s_documentFormat String.eqb s_name s_type bind]. unfold map_has, attrs_at. intros F E S.
  destruct (map_get "document-format" (j_opAttrs j)) as [[t w]|] eqn:G; [|discriminate S]. cbn [bind snd get_as] in E. unfold get_as in E. destruct w; cbn [has_type] in E; try discriminate E. injection E as <-. cbn [v_str].
  pose proof (fitting_get _ _ _ F G) as W. unfold wf_attr in W. cbn [fst snd wf_val scalar_ok] in W. apply andb_prop in W. apply W.
Qed.
Lemma pipeline_short i t c : find_pipeline Pipelines i t = Some c -> str_ok t = true.
Proof.
  unfold Pipelines. cbn [find_pipeline]. intros H. repeat match type of H with context [String.eqb ?a i && String.eqb ?b t] => destruct (String.eqb_spec b t) as [<-|_]; [reflexivity|rewrite Bool.andb_false_r in H] end. discriminate H.
Qed.
Lemma convert_short i t : str_ok i = true -> canConvert i t = true -> str_ok t = true.
Proof.
  unfold canConvert, getConvertFun. intros H. destruct (find_pipeline Pipelines i t) eqn:E; [intros _; eapply pipeline_short; exact E|].
  destruct (String.eqb_spec i t) as [->|]; [auto|discriminate].
Qed.
Lemma target_short i l t : str_ok i = true -> getTargetFormat i l = Some t -> str_ok t = true.
Proof.
  unfold getTargetFormat. intros H. destruct (find_target Pipelines i l) as [t'|] eqn:E.
  - intros K. injection K as ->. unfold Pipelines in E. cbn [find_target] in E. repeat match type of E with context [?a && ?b] => destruct (a && b); [injection E as <-; reflexivity|] end. discriminate.
  - destruct (contains l i); [|discriminate]. intros K. injection K as <-. exact H.
Qed.
Lemma determined_short j inp t : fitting (j_opAttrs j) -> str_ok inp = true -> determineTargetFormat j inp = Ok t -> str_ok t = true.
Proof.
  unfold determineTargetFormat. intros F Hi H. bind_inv H as v Hv H. bind_inv H as set Hset H.
  set (target := if negb set && negb (canConvert inp (v_str v)) then OctetStream else v_str v) in *.
  assert (T : str_ok target = true).
  { unfold target. destruct set; cbn [negb andb]; [exact (get_op_format j v F Hv Hset)|]. destruct (canConvert inp (v_str v)) eqn:C; [exact (convert_short _ _ Hi C)|reflexivity]. }
  destruct (String.eqb target OctetStream); [|injection H as <-; exact T]. bind_inv H as sup Hs H. injection H as <-.
  destruct (getTargetFormat inp (sup ++ j_additional j)) eqn:G; [exact (target_short _ _ _ Hi G)|exact T].
Qed.
Lemma str_attr t s : existsb (Z.eqb t) str_tags = true -> str_ok s = true -> wf_attr (t, VStr s) = true.
Proof. intros H1 H2. unfold wf_attr. cbn [fst snd wf_val scalar_ok]. rewrite H1, H2. reflexivity. Qed.
Lemma choose_format_fits j inp j' : job_fits j -> str_ok inp = true -> choose_format j inp = Ok j' -> job_fits j'.
Proof.
  intros (H1 & H2 & H3) Hi H. apply choose_format_inv in H. destruct H as (t & sup & Ht & _ & ->). split; [exact H1|]. cbn [with_op with_target j_opAttrs]. split.
  - apply fitting_set; [exact H2|reflexivity|]. apply str_attr; [reflexivity|]. destruct (contains sup t); [exact (determined_short _ _ _ H2 Hi Ht)|reflexivity].
  - apply no_base_set; [apply H2|not_base|exact H3].
Qed.
Lemma choose_compression_fits j j' : job_fits j -> choose_compression j = Ok j' -> job_fits j'.
Proof.
  intros F H. unfold choose_compression in H. destruct (isPrinterRaster (j_target j)); [|injection H as <-; exact F]. bind_inv H as sup Hs H. destruct F as (H1 & H2 & H3).
  assert (G : forall s, str_ok s = true -> set_op j s_compression (VStr s) = Ok j' -> job_fits j').
  { intros s Ss E. unfold set_op, setting_set in E. cbn [s_sub s_compression String.eqb bind s_name s_tag] in E. injection E as <-. split; [exact H1|]. cbn [with_op j_opAttrs]. split.
    - apply fitting_set; [exact H2|reflexivity|]. apply str_attr; [reflexivity|exact Ss].
    - apply no_base_set; [apply H2|not_base|exact H3]. }
  destruct (contains sup "gzip"); [exact (G "gzip"%string eq_refl H)|]. destruct (contains sup "deflate"); [exact (G "deflate"%string eq_refl H)|]. injection H as <-. exact (conj H1 (conj H2 H3)).
Qed.
Lemma unset_fits j s j' : job_fits j -> setting_fits s -> unset_job j s = Ok j' -> job_fits j'.
Proof. intros (H1 & H2 & H3) S H. unfold unset_job in H. bind_inv H as m Hm H. injection H as <-. split; [exact (setting_unset_fits _ _ _ H1 S Hm)|]. split; assumption. Qed.
Lemma set_fits j s v j' : job_fits j -> setting_fits s -> (if String.eqb (s_sub s) "" then wf_attr (s_tag s, one v) else wf_attr (s_tag s, v)) = true -> set_job j s v = Ok j' -> job_fits j'.
Proof. intros (H1 & H2 & H3) S W H. unfold set_job in H. bind_inv H as m Hm H. injection H as <-. split; [exact (setting_set_fits _ _ _ _ H1 S W Hm)|]. split; assumption. Qed.
Lemma fits_params j p : job_fits j -> job_fits (with_params j p).
Proof. exact (fun H => H). Qed.
Ltac fits := split; [reflexivity|first [left; reflexivity|right; reflexivity]].
Lemma take_margins_fits j j' : job_fits j -> take_margins j = Ok j' -> job_fits j'.
Proof.
  unfold take_margins. intros F H. destruct (negb _); [|injection H as <-; exact F]. bind_inv H as t Ht H. bind_inv H as b Hb H. bind_inv H as l Hl H. bind_inv H as r Hr H.
  bind_inv H as j1 H1 H. bind_inv H as j2 H2 H. bind_inv H as j3 H3 H. apply unset_fits in H1; [|exact F|fits]. apply unset_fits in H2; [|exact H1|fits]. apply unset_fits in H3; [|exact H2|fits].
  apply unset_fits in H; [exact H|exact H3|fits].
Qed.
Lemma hundredths_fits f z : hundredths f = Ok z -> s32_ok z = true.
Proof.
  unfold hundredths, f_to_signed. intros H. destruct (ftrunc (fmul f f100)) as [x|]; [|discriminate]. change (- 2 ^ (32 - 1)) with (-2147483648) in H. change (2 ^ (32 - 1)) with 2147483648 in H.
  unfold s32_ok. destruct (_ && _) eqn:E; [injection H as <-; exact E|discriminate].
Qed.
Lemma int_attr t z : (t = tInteger \/ t = tEnum) -> s32_ok z = true -> wf_attr (t, VInt z) = true.
Proof. intros H Hz. unfold wf_attr. cbn [fst snd wf_val scalar_ok]. rewrite Hz. destruct H as [-> | ->]; reflexivity. Qed.
Lemma move_media_size_fits j j' : job_fits j -> move_media_size j = Ok j' -> job_fits j'.
Proof.
  unfold move_media_size. intros (H1 & H2 & H3) H. bind_inv H as set Hset H. destruct (_ && set); [|injection H as <-; exact (conj H1 (conj H2 H3))].
  bind_inv H as x Hx H. bind_inv H as y Hy H. bind_inv H as v Hv H. bind_inv H as col Hcol H. apply hundredths_fits in Hx, Hy.
  assert (M : member_fits col).
  { unfold attrs_get, attrs_at in Hv. destruct (map_get "media-col" (j_jobAttrs j)) as [[t w]|] eqn:G; cbn [bind snd] in Hv.
    - unfold get_as in Hv. destruct w; cbn [has_type] in Hv; try discriminate Hv. injection Hv as <-. injection Hcol as <-. pose proof (sendable_coll _ _ _ _ H1 G) as W. pose proof (coll_tag _ _ W) as ->. apply coll_fits. exact W.
    - injection Hv as <-. injection Hcol as <-. apply member_nil. }
  refine (unset_fits _ _ _ _ _ H); [|fits]. split; [|split; assumption]. cbn [with_job j_jobAttrs]. apply sendable_set; [exact H1|reflexivity|].
  unfold att. cbn [fst snd one]. apply coll_fits. apply member_set; [exact M|reflexivity|]. apply coll_fits. split; [cbn; repeat constructor|].
  intros k a [E|[E|[]]]; injection E as <- <-; (split; [reflexivity|]); apply int_attr; auto.
Qed.
Lemma take_ranges_fits j inp j' : job_fits j -> take_ranges j inp = Ok j' -> job_fits j'.
Proof. unfold take_ranges. intros F H. destruct (String.eqb inp mPDF); [|injection H as <-; exact F]. bind_inv H as l Hl H. apply unset_fits in H; [exact H|exact F|fits]. Qed.
Lemma take_copies_fits j pages j' : job_fits j -> take_copies j pages = Ok j' -> job_fits j'.
Proof.
  unfold take_copies. intros F H. bind_inv H as v Hv H. bind_inv H as sup Hs H. destruct (_ && _); [|injection H as <-; exact F].
  bind_inv H as mode Hm H. bind_inv H as j1 H1 H. apply unset_fits in H1; [|exact F|fits]. bind_inv H as sides Hsd H.
  destruct (String.eqb sides "one-sided"); [injection H as <-; exact H1|]. bind_inv H as seq Hq H. destruct (_ || _); [|injection H as <-; exact H1].
  apply set_fits in H; [exact H|exact H1|fits|reflexivity].
Qed.
Lemma finalize_fits j inp pages j' : job_fits j -> str_ok inp = true -> finalize j inp pages = Ok (None, j') -> job_fits j'.
Proof.
  intros F Hi H. apply finalize_stages in H. destruct H as [j1 [j2 [j3 [j4 [j5 [j6 [j7 [j8 [j9 [j10 [j11 (H1 & _ & H2 & H3 & H4 & H5 & H6 & H7 & H8 & H9 & H10 & H11 & H12)]]]]]]]]]]].
  apply choose_format_fits in H1; [|exact F|exact Hi]. apply choose_compression_fits in H2; [|exact H1].
  apply choose_paper_inv in H3. destruct H3 as [nm [p [_ [_ ->]]]]. apply take_margins_fits in H4; [|exact H2]. apply move_media_size_fits in H5; [|exact H4].
  apply choose_resolution_inv in H6. destruct H6 as (x & y & -> & _). apply take_ranges_fits in H7; [|exact H5].
  assert (F8 : job_fits j8).
  { unfold adjustRasterSettings in H8. destruct (p_format (j_params j7)); try (injection H8 as <-; exact H7).
    all: bind_inv H8 as k1 K1 H8; bind_inv H8 as k2 K2 H8; bind_inv H8 as k3 K3 H8; apply unset_fits in K1; [|exact H7|fits];
      apply adjust_resolution_inv in K2; destruct K2 as (x2 & y2 & ->); apply back_side_inv in K3; destruct K3 as (b & ->); apply take_copies_fits in H8; [exact H8|exact K1]. }
  apply choose_sides_inv in H9. destruct H9 as [d ->]. apply choose_quality_inv in H10. destruct H10 as [q ->]. apply choose_color_inv in H11. destruct H11 as [c ->].
  apply choose_media_inv in H12. destruct H12 as (u & v & ->). exact F8.
Qed.

(** ** Requests *)
Lemma encode_one n a : encodeAttribute n (att a) = encodeAttribute n a.
Proof.
  destruct a as [t v]. unfold encodeAttribute, att. cbn [fst snd]. f_equal. unfold encodeValues. cbn [fst snd]. destruct v as [| | | | | |l|]; try reflexivity.
  destruct l as [|x [|y l]]; try reflexivity. destruct x; cbn [one]; try reflexivity;
  (destruct (encodeValue t _) as [bs| | | |]; cbn [bind encodeMoreWith]; try reflexivity; rewrite app_nil_r; reflexivity).
Qed.
Lemma encode_ones m : encodeAttributes (ones m) = encodeAttributes m.
Proof. unfold ones. induction m as [|[n a] m IH]; [reflexivity|]. cbn [map encodeAttributes fst snd]. change (fst a, one (snd a)) with (att a). rewrite encode_one, IH. reflexivity. Qed.
Definition ones_msg (m : ipp_msg) : ipp_msg := mkMsg (m_opOrStatus m) (m_majVsn m) (m_minVsn m) (m_opAttrs m) (map ones (m_jobAttrs m)) (m_printerAttrs m).
Lemma encode_ones_msg id m : encodeMsg id (ones_msg m) = encodeMsg id m.
Proof.
  unfold encodeMsg, ones_msg. cbn [m_opOrStatus m_majVsn m_minVsn m_opAttrs m_jobAttrs m_printerAttrs].
  assert (E : encodeJobGroups (map ones (m_jobAttrs m)) = encodeJobGroups (m_jobAttrs m)).
  { induction (m_jobAttrs m) as [|g l IH]; [reflexivity|]. cbn [map encodeJobGroups]. rewrite IH, encode_ones. destruct g; reflexivity. }
  rewrite E. reflexivity.
Qed.
Lemma base_wf k user addr a : match user with Some u => str_ok u = true | None => True end -> str_ok addr = true -> In (k, a) (baseOpAttrs user addr) -> name_fits k = true /\ wf_attr a = true.
Proof.
  intros Hu Ha H. unfold baseOpAttrs in H. cbn [In] in H. destruct H as [H|[H|[H|[H|[]]]]]; injection H as <- <-; (split; [reflexivity|]); apply str_attr; try reflexivity; [exact Ha|].
  destruct user; [exact Hu|reflexivity].
Qed.
Lemma insert_all_fits l : forall m : ipp_attrs, (forall k a, In (k, a) l -> name_fits k = true /\ wf_attr a = true) -> fitting m -> fitting (insert_all l m).
Proof.
  induction l as [|[k a] l IH]; intros m H F; [exact F|]. cbn [insert_all fold_left fst snd]. apply IH; [intros k' a' Hin; apply H; right; exact Hin|].
  destruct (H k a (or_introl eq_refl)) as [H1 H2]. apply fitting_insert; assumption.
Qed.
Lemma msg_bytes_with_jobs id m ops : msg_bytes id (with_jobs m) ops = msg_bytes id m ops.
Proof.
  assert (E : forall l : list ipp_attrs, filter nonempty (filter nonempty l) = filter nonempty l) by (induction l as [|[|e g] l IH]; cbn [filter nonempty]; [reflexivity|exact IH|rewrite IH; reflexivity]).
  unfold msg_bytes, with_jobs. cbn [m_opOrStatus m_majVsn m_minVsn m_jobAttrs m_printerAttrs]. rewrite E. reflexivity.
Qed.
(** what is sent for a message made for the printer *)
Definition wire_msg (m : ipp_msg) : ipp_msg := with_jobs (ones_msg m).
Lemma made_request w p op given jobA prn m id b : match w_user w with Some u => str_ok u = true | None => True end -> str_ok (pr_addr p) = true ->
  fitting given -> no_base given -> sendable jobA -> fitting prn -> u16_ok op = true -> 0 <= id < 4294967296 ->
  mk_msg w p op given jobA prn = Ok m -> fst (encodeMsg id m) = Ok b -> ipp_request (w_user w) (pr_addr p) op id b (wire_msg m).
Proof.
  intros Hu Ha Fg Ng Sj Fp Ho Hid H Hb. pose proof (C58_request _ _ _ _ _ _ _ (proj1 Fg) H) as (R1 & R2 & R3 & R4 & R5).
  assert (Fo : fitting (m_opAttrs m)).
  { unfold mk_msg in H. bind_inv H as vs Hv H. injection H as <-. unfold makeRequest.
    assert (I : fitting (insert_all (baseOpAttrs (w_user w) (pr_addr p)) given)) by (apply insert_all_fits; [intros k a Hin; eapply base_wf; eassumption|exact Fg]).
    unfold insert_all in I. destruct (contains vs "2.0"); exact I. }
  assert (W : wf_msg (ones_msg m) = true).
  { unfold wf_msg, ones_msg. cbn [m_opOrStatus m_majVsn m_minVsn m_opAttrs m_jobAttrs m_printerAttrs]. rewrite R1, Ho, R3, R4. cbn [map forallb].
    rewrite (proj2 (wf_fitting (m_opAttrs m)) Fo). unfold sendable in Sj. rewrite Sj, (proj2 (wf_fitting prn) Fp).
    destruct R5 as [[R5 _]|[R5 _]]; injection R5 as -> ->; reflexivity. }
  assert (Hb' : fst (encodeMsg id (ones_msg m)) = Ok b) by (rewrite encode_ones_msg; exact Hb).
  assert (B : forall k a, base_attr (w_user w) (pr_addr p) k = Some a -> map_get k (m_opAttrs m) = Some a).
  { intros k a E. rewrite R2. replace (map_get k given) with (@None ipp_attr); [exact E|]. symmetry. unfold no_base in Ng. rewrite Forall_forall in Ng. apply Ng. unfold base_attr in E. cbn [In].
    destruct (String.eqb_spec k "attributes-charset") as [->|]; [auto|]. destruct (String.eqb_spec k "attributes-natural-language") as [->|]; [auto|].
    destruct (String.eqb_spec k "printer-uri") as [->|]; [auto|]. destruct (String.eqb_spec k "requesting-user-name") as [->|]; [auto|discriminate]. }
  constructor.
  - exists (op_order (m_opAttrs m)). unfold wire_msg. rewrite msg_bytes_with_jobs. split; [exact (encodeMsg_bytes _ _ _ Hb')|].
    split; [apply op_order_perm; apply Fo|apply op_order_rank; apply Fo].
  - unfold wf_msg, wire_msg, with_jobs in *. cbn [m_opOrStatus m_majVsn m_minVsn m_opAttrs m_jobAttrs m_printerAttrs] in *. repeat rewrite Bool.andb_true_iff in *.
    destruct W as [[[[[W1 W2] W3] W4] W5] W6]. repeat split; try assumption. rewrite forallb_forall in *. intros g Hg. apply filter_In in Hg. apply W5. apply Hg.
  - intros doc Hd. exact (decode_encode id (ones_msg m) b doc W Hid Hb' Hd).
  - exact R1.
  - change (m_majVsn (wire_msg m)) with (m_majVsn m). change (m_minVsn (wire_msg m)) with (m_minVsn m). destruct R5 as [[R5 _]|[R5 _]]; auto.
  - exact B.
Qed.

(** ** Numbers in decoded messages *)
Definition ints_ok (m : ipp_attrs) : Prop := forall k t z, In (k, (t, VInt z)) m -> s32_ok z = true.
Lemma to_s32_ok z : 0 <= z < two32 -> s32_ok (to_s32 z) = true.
Proof. unfold to_s32, s32_ok, two32. intros H. destruct (z <? 2147483648) eqn:E; lia. Qed.
Lemma decoded_int t s z r : decodeValue t s = Ok (VInt z, r) -> s32_ok z = true.
Proof.
  unfold decodeValue. intros H. destruct (_ || _); [discriminate|]. destruct ((t =? tInteger) || (t =? tEnum)).
  - destruct (next_zero s); [injection H as <- _; reflexivity|]. bind_inv H as y1 H1 H. bind_inv H as y2 H2 H. destruct y2 as [n q]. injection H as <- _.
    apply to_s32_ok. destruct y1 as [|a [|b [|c [|d y1]]]]; try discriminate. cbn [get_u32] in H2. injection H2 as <- _. exact (un32_range a b c d).
  - exfalso. repeat match type of H with (if ?c then _ else _) = _ => destruct c; [destruct (next_zero s); [discriminate H|]|] end;
      repeat (match type of H with bind _ _ = _ => let y := fresh "y" in let Hy := fresh "Hy" in bind_inv H as y Hy H; try destruct y end); discriminate H.
Qed.
Lemma collect_int fuel : forall attrs arr val v rest, Forall (fun x => exists m, x = VColl m) arr -> collect fuel attrs arr val = Ok (v, rest) -> forall z, v <> VInt z.
Proof.
  assert (C : forall arr, Forall (fun x => exists m, x = VColl m) arr -> forall z, collapse arr <> VInt z).
  { intros arr A z. destruct arr as [|x [|y l]]; cbn [collapse]; try discriminate. inversion A as [|? ? [m ->] ?]. discriminate. }
  induction fuel as [|f IH]; intros attrs arr val v rest A H; [discriminate|]. cbn [collect] in H. destruct attrs as [|[tag w] tl]; [injection H as <- _; apply C; exact A|].
  destruct (tag =? tMemberName).
  - destruct w; try discriminate. destruct tl as [|[t1 v1] r1]; [discriminate|]. destruct (t1 =? tBeginCollection).
    + bind_inv H as y Hy H. destruct y as [cv r2]. eapply IH; [|exact H]. exact A.
    + bind_inv H as y Hy H. destruct y as [more r2]. eapply IH; [|exact H]. exact A.
  - destruct (tag =? tEndCollection); [|discriminate]. assert (A' : Forall (fun x => exists m, x = VColl m) (arr ++ [VColl val])) by (apply Forall_app; split; [exact A|constructor; [exists val; reflexivity|constructor]]).
    destruct tl as [|[t1 v1] r1]; [injection H as <- _; apply C; exact A'|]. destruct (t1 =? tBeginCollection); [|injection H as <- _; apply C; exact A'].
    eapply IH; [|exact H]. exact A'.
Qed.
Lemma ints_insert k t v m : ints_ok m -> (forall z, v = VInt z -> s32_ok z = true) -> ints_ok (map_insert k (t, v) m).
Proof. intros M V k' t' z H. apply insert_keys in H. destruct H as [H|H]; [|eapply M; exact H]. injection H as _ _ H. apply V. symmetry. exact H. Qed.
Lemma consume_ints m s m' s' : ints_ok m -> consumeAttribute m s = Ok (m', s') -> ints_ok m'.
Proof.
  intros M H. unfold consumeAttribute in H. bind_inv H as y1 H1 H. destruct y1 as [tag s1]. bind_inv H as y2 H2 H. destruct y2 as [name s2]. bind_inv H as y3 H3 H. destruct y3 as [value s3].
  bind_inv H as y4 H4 H. destruct y4 as [un s4]. bind_inv H as y5 H5 H. destruct y5 as [v5 un5]. injection H as <- <-. apply ints_insert; [exact M|].
  intros z E. destruct un5; [|discriminate]. subst v5. destruct (tag =? tBeginCollection).
  - exfalso. exact (collect_int _ _ _ _ _ _ (Forall_nil _) H5 z eq_refl).
  - injection H5 as -> _. exact (decoded_int _ _ _ _ H3).
Qed.
Lemma decoded_ints s m rest : decodeMsg s = Ok (m, rest) -> ints_ok (m_opAttrs m) /\ Forall ints_ok (m_jobAttrs m) /\ ints_ok (m_printerAttrs m).
Proof.
  assert (L : forall fuel m0 group attrs s m1 r1, ints_ok (m_opAttrs m0) /\ Forall ints_ok (m_jobAttrs m0) /\ ints_ok (m_printerAttrs m0) -> ints_ok attrs ->
      decode_loop fuel m0 group attrs s = Ok (m1, r1) -> ints_ok (m_opAttrs m1) /\ Forall ints_ok (m_jobAttrs m1) /\ ints_ok (m_printerAttrs m1)).
  { induction fuel as [|f IH]; intros m0 group attrs s0 m1 r1 M A H; destruct s0 as [|t r]; cbn [decode_loop] in H; try (injection H as <- _; exact M); [discriminate|].
    assert (M' : ints_ok (m_opAttrs (store_group m0 group attrs)) /\ Forall ints_ok (m_jobAttrs (store_group m0 group attrs)) /\ ints_ok (m_printerAttrs (store_group m0 group attrs))).
    { destruct M as (M1 & M2 & M3). unfold store_group. destruct (group =? tOpAttrs); [repeat split; assumption|]. destruct (group =? tJobAttrs).
      - cbn [m_opAttrs m_jobAttrs m_printerAttrs]. split; [exact M1|]. split; [|exact M3]. apply Forall_app. auto.
      - destruct (group =? tPrinterAttrs); [exact (conj M1 (conj M2 A))|exact (conj M1 (conj M2 M3))]. }
    destruct (Zb t <=? tUnsupportedAttrs).
    - destruct (Zb t =? tEndAttrs); [injection H as <- _; exact M'|]. eapply IH; [exact M'| |exact H]. intros ? ? ? [].
    - bind_inv H as y Hy H. destruct y as [a' s']. eapply IH; [exact M| |exact H]. exact (consume_ints _ _ _ _ A Hy). }
  intros H. unfold decodeMsg in H. bind_inv H as y1 H1 H; destruct y1. bind_inv H as y2 H2 H; destruct y2. bind_inv H as y3 H3 H; destruct y3. bind_inv H as y4 H4 H; destruct y4. eapply L; [| |exact H]; [|intros ? ? ? []].
  split; [intros ? ? ? []|]. split; [constructor|intros ? ? ? []].
Qed.

(** ** The words of the command line *)
Definition num_ok (i : nat) (z : Z) : bool := if (8 <=? i)%nat && (i <=? 10)%nat then u32_ok z else s32_ok z.
Definition arg_ok (i : nat) (v : aval) : Prop := match v with AStr s => str_ok s = true | AInt z => num_ok i z = true | ABool _ => True end.
Definition state_ok (st : astate) : Prop := forall i, a_set st i = true \/ In i [30; 31; 32]%nat -> arg_ok i (a_val st i).
Definition switch_ok (d : switch) : Prop :=
  match sw_kind d with
  | KBool | KString => True
  | KInt => (8 <=? sw_id d)%nat && (sw_id d <=? 10)%nat = false
  | KUInt => (8 <=? sw_id d)%nat && (sw_id d <=? 10)%nat = true
  | KEnum m => forallb (fun e => num_ok (sw_id d) (snd e)) m = true
  | _ => False
  end.
Lemma assign_ok st i v : state_ok st -> arg_ok i v -> state_ok (assign st i v).
Proof. intros H V k Hk. cbn [assign a_val a_set] in Hk |- *. destruct (Nat.eqb k i) eqn:E; [apply Nat.eqb_eq in E; rewrite E; exact V|apply H; exact Hk]. Qed.
Lemma stoi_ok s z : stoi s = Ok z -> s32_ok z = true.
Proof. intros H. apply ArgProperties.stoi_text in H. destruct H as (neg & n & _ & R & ->). unfold s32_ok. lia. Qed.
Lemma stoul_ok s z : stoul s = Ok z -> 0 <= z < two64.
Proof. intros H. apply ArgProperties.stoul_text in H. destruct H as (neg & n & _ & R & ->). unfold two64. apply Z.mod_pos_bound. lia. Qed.
Lemma enum_ok m s z : enum_get m s = Some z -> exists k, In (k, z) m.
Proof. induction m as [|[k v] m IH]; cbn [enum_get]; [discriminate|]. destruct (String.eqb s k); [intros E; injection E as <-; exists k; left; reflexivity|]. intros E. destruct (IH E) as [k' Hk]. exists k'. right. exact Hk. Qed.
Lemma convert_ok d s v : switch_ok d -> str_ok s = true -> convert (sw_kind d) s = Ok v -> arg_ok (sw_id d) v.
Proof.
  unfold switch_ok. intros D Ss H. destruct (sw_kind d); cbn [convert] in H; try contradiction.
  - injection H as <-. exact I.
  - injection H as <-. exact Ss.
  - bind_inv H as z Hz H. injection H as <-. cbn [arg_ok]. unfold num_ok. rewrite D. exact (stoi_ok _ _ Hz).
  - bind_inv H as z Hz H. injection H as <-. cbn [arg_ok]. unfold num_ok. rewrite D. unfold u32_ok. pose proof (Z.mod_pos_bound z two32 eq_refl). unfold two32 in *. lia.
  - destruct (enum_get m s) as [z|] eqn:E; [|discriminate]. injection H as <-. destruct (enum_ok _ _ _ E) as [k Hk]. rewrite forallb_forall in D. exact (D _ Hk).
Qed.
Lemma parse_switch_ok d st args st' args' : switch_ok d -> state_ok st -> Forall (fun s => str_ok s = true) args -> parse_switch d st args = Parsed st' args' -> state_ok st' /\ Forall (fun s => str_ok s = true) args'.
Proof.
  intros D H A E. unfold parse_switch in E. destruct args as [|a rest]; [discriminate|]. destruct (existsb _ _); [|discriminate]. inversion A as [|? ? A1 A2]; subst.
  assert (G : forall k, k = sw_kind d -> match rest with [] => ArgModel.Failed [] | v :: rest' => match convert k v with Ok x => Parsed (assign st (sw_id d) x) rest' | _ => ArgModel.Failed rest end end = Parsed st' args' ->
     state_ok st' /\ Forall (fun s => str_ok s = true) args').
  { intros k -> F. destruct rest as [|v rest']; [discriminate|]. inversion A2; subst. destruct (convert (sw_kind d) v) as [x| | | |] eqn:C; try discriminate. injection F as <- <-.
    split; [|assumption]. apply assign_ok; [exact H|]. eapply convert_ok; eassumption. }
  destruct (sw_kind d) eqn:K; try (exact (G _ eq_refl E)). injection E as <- <-. split; [|exact A2]. apply assign_ok; [exact H|exact I].
Qed.
Lemma try_ok defs st args st' args' : Forall switch_ok defs -> state_ok st -> Forall (fun s => str_ok s = true) args -> try_switches defs st args = Went st' args' -> state_ok st' /\ Forall (fun s => str_ok s = true) args'.
Proof.
  intros D H A. induction D as [|d defs Hd D IH]; cbn [try_switches]; [discriminate|]. destruct (parse_switch d st args) eqn:P; intros E; [exact (IH E)| |discriminate].
  injection E as <- <-. exact (parse_switch_ok _ _ _ _ _ Hd H A P).
Qed.
Lemma loop_ok fuel defs : Forall switch_ok defs -> forall st args r, state_ok st -> Forall (fun s => str_ok s = true) args -> switch_loop fuel defs st args = Ok r ->
  match r with inl (st', args') => state_ok st' /\ Forall (fun s => str_ok s = true) args' | inr (_, st') => state_ok st' end.
Proof.
  intros D. induction fuel as [|f IH]; intros st args r H A E; destruct args as [|a args]; cbn [switch_loop] in E; try (injection E as <-; split; assumption); [discriminate|].
  destruct (try_switches defs st (a :: args)) as [|st' args'|msg] eqn:T; [injection E as <-; split; assumption| |injection E as <-; exact H].
  destruct (try_ok _ _ _ _ _ D H A T) as [H' A']. exact (IH _ _ _ H' A' E).
Qed.
Lemma pos_ok defs : forall st args, state_ok st -> Forall (fun s => str_ok s = true) args ->
  match parse_pos defs st args with inl (st', _) => state_ok st' | inr (_, st') => state_ok st' end.
Proof.
  induction defs as [|p defs IH]; intros st args H A; cbn [parse_pos]; [exact H|]. inversion A as [|a args' A1 A2]; subst.
  - destruct (pa_optional p); [apply IH; assumption|exact H].
  - apply IH; [|assumption]. apply assign_ok; assumption.
Qed.
Lemma args_ok junk args ok sub msg st : Forall (fun s => str_ok s = true) args -> sub_get_args client_subs (client_init junk) args = Ok (ok, sub, msg, st) -> state_ok st.
Proof.
  intros A E. assert (I : state_ok (client_init junk)) by (intros i [Hi|[<-|[<-|[<-|[]]]]]; [discriminate Hi|reflexivity|reflexivity|reflexivity]).
  unfold sub_get_args in E. destruct args as [|name rest]; [injection E as <- <- <- <-; exact I|]. inversion A as [|? ? A1 A2]; subst. destruct (find_sub client_subs name) as [[defs pos]|] eqn:F; [|injection E as <- <- <- <-; exact I].
  assert (D : Forall switch_ok defs).
  { assert (D : Forall (fun e => Forall switch_ok (fst (snd e))) client_subs) by (unfold client_subs, print_switches, oHelp, oVerbose, oId; repeat (apply Forall_cons; [cbn [fst snd]; repeat (apply Forall_cons; [first [exact Logic.I|reflexivity]|]); apply Forall_nil|]); apply Forall_nil).
    revert F D. clear. induction client_subs as [|[n d] l IH]; cbn [find_sub]; [discriminate|]. intros F D. inversion D as [|? ? D1 D2]; subst. destruct (find_sub l name) eqn:G; [apply IH; [exact F|exact D2]|].
    destruct (String.eqb n name); [|discriminate]. injection F as ->. exact D1. }
  bind_inv E as r Hr E. destruct r as [[ok' msg'] st']. injection E as <- <- <- <-. unfold get_args in Hr. bind_inv Hr as q Hq Hr. apply (loop_ok _ _ D) in Hq; [|exact I|exact A2].
  destruct q as [[st1 rest1]|[m1 st1]]; [|injection Hr as _ _ <-; exact Hq]. destruct Hq as [S1 A3]. destruct (_ <? _)%nat; [injection Hr as _ _ <-; exact S1|].
  pose proof (pos_ok pos st1 rest1 S1 A3) as P. destruct (parse_pos pos st1 rest1) as [[st2 [|a l]]|[m2 st2]]; injection Hr as _ _ <-; exact P.
Qed.
Lemma str_arg st i : state_ok st -> a_set st i = true \/ In i [30; 31; 32]%nat -> str_ok (as_str (a_val st i)) = true.
Proof. intros H Hi. specialize (H i Hi). destruct (a_val st i); [exact H|reflexivity|reflexivity]. Qed.
Lemma num_arg st i : state_ok st -> a_set st i = true -> num_ok i (as_int (a_val st i)) = true.
Proof. intros H Hi. specialize (H i (or_introl Hi)). destruct (a_val st i); cbn [as_int]; [|exact H|]; unfold num_ok; destruct (_ && _); reflexivity. Qed.

(** ** The options *)
(** no dates, which settings files do not keep (C31); asked for if [D] *)
Fixpoint dateless (v : ipp_value) : bool :=
  match v with
  | VDate _ => false
  | VSet l => forallb dateless l
  | VColl m => forallb (fun e => dateless (snd (snd e))) m
  | _ => true
  end.
Definition undated (m : ipp_attrs) : Prop := forall k a, In (k, a) m -> dateless (snd a) = true.
Definition okj (D : bool) (j : job) : Prop := job_fits j /\ (D = true -> undated (j_jobAttrs j) /\ undated (j_opAttrs j)).
Lemma undated_set k a m : undated m -> dateless (snd a) = true -> undated (map_set k a m).
Proof. intros M A k' a' H. apply set_keys in H. destruct H as [H|H]; [injection H as -> ->; exact A|exact (M _ _ H)]. Qed.
Lemma undated_setting s v m m' : undated m -> dateless v = true -> setting_set s v m = Ok m' -> undated m'.
Proof.
  intros M V E. unfold setting_set in E. destruct (String.eqb (s_sub s) ""); [injection E as <-; apply undated_set; assumption|]. bind_inv E as c Hc E. injection E as <-.
  apply undated_set; [exact M|]. cbn [snd dateless]. rewrite forallb_forall. intros [k a] H. cbn [snd]. apply set_keys in H. destruct H as [H|H]; [injection H as -> ->; exact V|].
  unfold sub_coll in Hc. destruct (map_get (s_sub s) m) as [[t w]|] eqn:G; [|injection Hc as <-; destruct H]. apply map_get_In in G. specialize (M _ _ G). cbn [snd] in *.
  destruct w; try discriminate. injection Hc as ->. cbn [dateless] in M. rewrite forallb_forall in M. exact (M _ H).
Qed.
Section Options.
Variable D : bool.
Lemma okj_set j s v j' : okj D j -> setting_fits s -> (if String.eqb (s_sub s) "" then wf_attr (s_tag s, one v) else wf_attr (s_tag s, v)) = true -> set_job j s v = Ok j' -> dateless v = true -> okj D j'.
Proof.
  intros [F N] Fs W E V. split; [exact (set_fits _ _ _ _ F Fs W E)|]. intros HD. destruct (N HD) as [N1 N2]. unfold set_job in E. bind_inv E as m Hm E. injection E as <-.
  split; [exact (undated_setting _ _ _ _ N1 V Hm)|exact N2].
Qed.
Lemma set_or_fail_fits (given : bool) sup force set j r : okj D j -> (given = true -> forall j1 j2, okj D j1 -> set j1 = Ok j2 -> okj D j2) -> set_or_fail given sup force set j = Ok r -> match r with Some j' => okj D j' | None => True end.
Proof.
  intros F G E. unfold set_or_fail in E. destruct given; [|injection E as <-; exact F]. bind_inv E as ok Hok E. destruct (ok || force); [|injection E as <-; exact I].
  bind_inv E as j2 Hj E. injection E as <-. exact (G eq_refl _ _ F Hj).
Qed.
Definition somej (r : option job) : Prop := match r with Some j => okj D j | None => True end.
Lemma obind_fits x k r : obind x k = Ok r -> (forall q, x = Ok q -> somej q) -> (forall j q, okj D j -> k j = Ok q -> somej q) -> somej r.
Proof. intros E X K. unfold obind in E. bind_inv E as q Hq E. specialize (X _ Hq). destruct q as [j|]; [exact (K _ _ X E)|injection E as <-; exact I]. Qed.
Lemma str_option_fits st i s force j r : state_ok st -> okj D j -> setting_fits s -> existsb (Z.eqb (s_tag s)) str_tags = true -> str_option st i s force j = Ok r -> somej r.
Proof.
  intros S F Fs T E. refine (set_or_fail_fits _ _ _ _ _ _ F _ E). intros Hg j1 j2 F1 E1. refine (okj_set _ _ _ _ F1 Fs _ E1 eq_refl).
  pose proof (str_attr _ _ T (str_arg _ _ S (or_introl Hg))) as W. cbn [one]. destruct (String.eqb _ _); exact W.
Qed.
Lemma int_option_fits st i s force j r : state_ok st -> okj D j -> setting_fits s -> s_tag s = tInteger \/ s_tag s = tEnum -> (8 <=? i)%nat && (i <=? 10)%nat = false -> int_option st i s force j = Ok r -> somej r.
Proof.
  intros S F Fs T N E. refine (set_or_fail_fits _ _ _ _ _ _ F _ E). intros Hg j1 j2 F1 E1. refine (okj_set _ _ _ _ F1 Fs _ E1 eq_refl).
  pose proof (num_arg _ _ S Hg) as Z. unfold num_ok in Z. rewrite N in Z. pose proof (int_attr _ _ T Z) as W. cbn [one]. destruct (String.eqb _ _); exact W.
Qed.
Lemma res_option_fits given x y force j r : okj D j -> (given = true -> u32_ok x = true /\ u32_ok y = true) -> res_option given x y force j = Ok r -> somej r.
Proof.
  intros F G E. refine (set_or_fail_fits _ _ _ _ _ _ F _ E). intros Hg j1 j2 F1 E1. refine (okj_set _ _ _ _ F1 _ _ E1 eq_refl); [fits|]. destruct (G Hg) as [X Y].
  unfold wf_attr. cbn [s_sub s_tag s_resolution String.eqb one fst snd wf_val scalar_ok]. rewrite X, Y. reflexivity.
Qed.
Lemma pages_fits st j r : okj D j -> pages_option st j = Ok r -> somej r.
Proof.
  intros F E. unfold pages_option in E. destruct (a_set st 4); [|injection E as <-; exact F]. bind_inv E as l Hl E.
  assert (P : Forall (fun r => 0 <= fst r /\ 0 <= snd r) l).
  { unfold parsePageRange in Hl. assert (G : forall ps prev acc q, Forall (fun r => 0 <= fst r /\ 0 <= snd r) acc -> parse_pieces ps prev acc = Ok q -> Forall (fun r => 0 <= fst r /\ 0 <= snd r) q).
    { induction ps as [|p ps IH]; intros prev acc q A Q; cbn [parse_pieces] in Q; [injection Q as <-; exact A|]. destruct (match_single p).
      - bind_inv Q as v Hv Q. apply stoul_ok in Hv. destruct (v <=? prev); [injection Q as <-; constructor|]. eapply IH; [|exact Q]. apply Forall_app. split; [exact A|]. repeat constructor; cbn; lia.
      - destruct (match_range p) as [[a b]|]; [|injection Q as <-; constructor]. bind_inv Q as x Hx Q. bind_inv Q as y Hy Q. apply stoul_ok in Hx.
        assert (Y : 0 <= y) by (destruct (String.eqb b ""); [injection Hy as <-; unfold size_max, two64; lia|apply stoul_ok in Hy; lia]).
        destruct (_ || _); [injection Q as <-; constructor|]. eapply IH; [|exact Q]. apply Forall_app. split; [exact A|]. repeat constructor; cbn; lia. }
    exact (G _ _ _ _ (Forall_nil _) Hl). }
  destruct l as [|x l]; [injection E as <-; exact I|]. bind_inv E as j2 Hj E. injection E as <-. refine (okj_set _ _ _ _ F _ _ Hj _); [fits| |cbn [dateless]; rewrite forallb_forall; intros v Hv; apply in_map_iff in Hv; destruct Hv as (r & <- & _); reflexivity].
  assert (W : Forall (fun r => wf_val false tIntegerRange (VRange (pos_clamp (fst r)) (pos_clamp (snd r))) = true) (x :: l)).
  { eapply Forall_impl; [|exact P]. intros [a b] [A B]. cbn [fst snd wf_val scalar_ok] in *. unfold pos_clamp, s32_ok, tIntegerRange. lia. }
  cbn [s_sub s_tag s_pageRanges String.eqb]. unfold wf_attr. cbn [fst snd]. destruct l as [|y l].
  - inversion W; subst. assumption.
  - cbn [map one]. cbn [wf_val]. cbn [andb]. apply andb_true_intro. split; [cbn [length]; lia|].
    change (forallb (wf_val false tIntegerRange) (map (fun r => VRange (pos_clamp (fst r)) (pos_clamp (snd r))) (x :: y :: l)) = true).
    rewrite forallb_forall. intros v Hv. apply in_map_iff in Hv. destruct Hv as (r & <- & Hr). rewrite Forall_forall in W. exact (W _ Hr).
Qed.
Lemma margin_fits st force j r : state_ok st -> okj D j -> margin_option st force j = Ok r -> somej r.
Proof.
  intros S F E. unfold margin_option in E. destruct (a_set st 21); [|injection E as <-; exact F]. destruct (_ && _); [injection E as <-; exact I|].
  refine (obind_fits _ _ _ E _ _); [intros q Q; refine (int_option_fits _ _ _ _ _ _ S F _ _ _ Q); [fits|auto|reflexivity]|clear E F; intros j1 q1 F E]. 
  refine (obind_fits _ _ _ E _ _); [intros q Q; refine (int_option_fits _ _ _ _ _ _ S F _ _ _ Q); [fits|auto|reflexivity]|clear E F; intros j2 q2 F E].
  refine (obind_fits _ _ _ E _ _); [intros q Q; refine (int_option_fits _ _ _ _ _ _ S F _ _ _ Q); [fits|auto|reflexivity]|clear E F; intros j3 q3 F E].
  refine (int_option_fits _ _ _ _ _ _ S F _ _ _ E); [fits|auto|reflexivity].
Qed.
Lemma format_fits st force j r : state_ok st -> okj D j -> format_option st force j = Ok r -> somej r.
Proof.
  intros S F E. refine (set_or_fail_fits _ _ _ _ _ _ F _ E). intros Hg j1 j2 [(H1 & H2 & H3) N] E1. unfold set_op, setting_set in E1. cbn [s_sub s_documentFormat String.eqb bind s_name s_tag] in E1. injection E1 as <-.
  split; [|intros HD; destruct (N HD) as [N1 N2]; split; [exact N1|apply undated_set; [exact N2|reflexivity]]].
  split; [exact H1|]. cbn [with_op j_opAttrs]. split; [apply fitting_set; [exact H2|reflexivity|apply str_attr; [reflexivity|exact (str_arg _ _ S (or_introl Hg))]]|apply no_base_set; [apply H2|not_base|exact H3]].
Qed.
Lemma later_fits st force j r : state_ok st -> okj D j -> later_options st force j = Ok r -> somej r.
Proof.
  intros S F E. unfold later_options in E. bind_inv E as l Hl E. cbv zeta in E.
  assert (N8 : a_set st 8 = true -> u32_ok (as_int (a_val st 8)) = true /\ u32_ok (as_int (a_val st 8)) = true) by (intros H; pose proof (num_arg _ _ S H); auto).
  assert (N9 : a_set st 9 && a_set st 10 = true -> u32_ok (as_int (a_val st 9)) = true /\ u32_ok (as_int (a_val st 10)) = true).
  { intros H. apply andb_prop in H. destruct H as [A B]. exact (conj (num_arg _ _ S A) (num_arg _ _ S B)). }
  refine (obind_fits _ _ _ E _ _); [intros q Q; exact (res_option_fits _ _ _ _ _ _ F N8 Q)|clear E F; intros j1 q1 F E].
  refine (obind_fits _ _ _ E _ _); [intros q Q; exact (res_option_fits _ _ _ _ _ _ F N9 Q)|clear E F; intros j2 q2 F E].
  refine (obind_fits _ _ _ E _ _); [intros q Q; refine (str_option_fits _ _ _ _ _ _ S F _ _ Q); [fits|reflexivity]|clear E F; intros j3 q3 F E].
  refine (obind_fits _ _ _ E _ _); [intros q Q; refine (str_option_fits _ _ _ _ _ _ S F _ _ Q); [fits|reflexivity]|clear E F; intros j4 q4 F E].
  bind_inv E as al Hal E.
  refine (obind_fits _ _ _ E _ _); [intros q Q; refine (int_option_fits _ _ _ _ _ _ S F _ _ _ Q); [fits|auto|reflexivity]|clear E F; intros j5 q5 F E].
  refine (obind_fits _ _ _ E _ _); [intros q Q; refine (str_option_fits _ _ _ _ _ _ S F _ _ Q); [fits|reflexivity]|clear E F; intros j6 q6 F E].
  refine (obind_fits _ _ _ E _ _); [intros q Q; exact (format_fits _ _ _ _ S F Q)|clear E F; intros j7 q7 F E].
  refine (obind_fits _ _ _ E _ _); [intros q Q; refine (str_option_fits _ _ _ _ _ _ S F _ _ Q); [fits|reflexivity]|clear E F; intros j8 q8 F E].
  refine (obind_fits _ _ _ E _ _); [intros q Q; refine (str_option_fits _ _ _ _ _ _ S F _ _ Q); [fits|reflexivity]|clear E F; intros j9 q9 F E].
  refine (obind_fits _ _ _ E _ _); [intros q Q; refine (str_option_fits _ _ _ _ _ _ S F _ _ Q); [fits|reflexivity]|clear E F; intros ja qa F E].
  refine (obind_fits _ _ _ E _ _); [intros q Q; refine (int_option_fits _ _ _ _ _ _ S F _ _ _ Q); [fits|auto|reflexivity]|clear E F; intros jb qb F E].
  refine (obind_fits _ _ _ E _ _); [intros q Q; exact (margin_fits _ _ _ _ S F Q)|clear E F; intros jc qc F E].
  refine (obind_fits _ _ _ E _ _); [intros q Q; refine (int_option_fits _ _ _ _ _ _ S F _ _ _ Q); [fits|auto|reflexivity]|clear E F; intros jd qd F E].
  refine (obind_fits _ _ _ E _ _); [intros q Q; refine (int_option_fits _ _ _ _ _ _ S F _ _ _ Q); [fits|auto|reflexivity]|clear E F; intros je qe F E].
  refine (obind_fits _ _ _ E _ _); [intros q Q; refine (int_option_fits _ _ _ _ _ _ S F _ _ _ Q); [fits|auto|reflexivity]|clear E F; intros jf qf F E].
  refine (int_option_fits _ _ _ _ _ _ S F _ _ _ E); [fits|auto|reflexivity].
Qed.
Lemma options_fits st pa force j r : state_ok st -> okj D j -> apply_options st pa force j = Ok r -> somej r.
Proof.
  intros S F E. unfold apply_options in E. refine (obind_fits _ _ _ E _ _); [intros q Q; exact (pages_fits _ _ _ F Q)|clear E F; intros j1 q1 F E]. unfold other_options in E.
  refine (obind_fits _ _ _ E _ _); [|clear E F; intros j2 q2 F E].
  { intros q Q. unfold copies_option in Q. bind_inv Q as f Hf Q. cbv zeta in Q. refine (set_or_fail_fits _ _ _ _ _ _ F _ Q). intros Hg ja jb Fa Ea. refine (okj_set _ _ _ _ Fa _ _ Ea eq_refl); [fits|].
    exact (int_attr _ _ (or_introl eq_refl) (num_arg _ _ S Hg)). }
  refine (obind_fits _ _ _ E _ _); [|clear E F; intros j3 q3 F E].
  { intros q Q. unfold collated_option in Q. cbv zeta in Q. refine (set_or_fail_fits _ _ _ _ _ _ F _ Q). intros Hg ja jb Fa Ea. refine (okj_set _ _ _ _ Fa _ _ Ea eq_refl); [fits|].
    apply str_attr; [reflexivity|]. destruct (_ =? 1); reflexivity. }
  refine (obind_fits _ _ _ E _ _); [intros q Q; refine (str_option_fits _ _ _ _ _ _ S F _ _ Q); [fits|reflexivity]|clear E F; intros j4 q4 F E].
  destruct (negb _); [injection E as <-; exact I|]. exact (later_fits _ _ _ _ S F E).
Qed.
End Options.

(** ** Names of documents, formats and attributes *)
Lemma base_from_len s : forall acc, (String.length (base_name_from acc s) <= Nat.max (String.length acc) (String.length s))%nat.
Proof. induction s as [|c s IH]; intros acc; cbn [base_name_from String.length]; [lia|]. destruct (Ascii.eqb c "/"); [specialize (IH s)|specialize (IH acc)]; lia. Qed.
Lemma base_len s : (String.length (base_name s) <= String.length s)%nat.
Proof. unfold base_name. pose proof (base_from_len s s). lia. Qed.
Lemma base_after_slash a b : base_name (a ++ "/" ++ b) = base_name b.
Proof.
  unfold base_name. assert (G : forall acc, base_name_from acc (a ++ "/" ++ b) = base_name_from b b); [|apply G]. induction a as [|c a IH]; intros acc; [reflexivity|].
  cbn [String.append base_name_from]. destruct (Ascii.eqb c "/"); apply IH.
Qed.
Lemma shorter a b : (String.length a <= String.length b)%nat -> str_ok b = true -> str_ok a = true.
Proof. unfold str_ok. lia. Qed.
Lemma base_ok s : str_ok s = true -> str_ok (base_name s) = true.
Proof. apply shorter, base_len. Qed.
Lemma base_append_ok a b : str_ok b = true -> str_ok (base_name (path_append a b)) = true.
Proof. unfold path_append. intros H. destruct (string_starts_with b "/"); [apply base_ok; exact H|]. rewrite base_after_slash. apply base_ok. exact H. Qed.
Lemma pages_file e fmt f inFile n : count_pages e fmt f = Some (inFile, n) -> str_ok f = true -> str_ok (base_name inFile) = true.
Proof.
  unfold count_pages. intros H F. destruct (String.eqb fmt mPDF); [|injection H as <- _; apply base_ok; exact F]. destruct (e_pages e _); [|discriminate]. injection H as <- _. apply base_append_ok. exact F.
Qed.
Lemma pieces_len c s : (String.length (fst (pieces c s)) <= String.length s)%nat /\ Forall (fun p => (String.length p <= String.length s)%nat) (snd (pieces c s)).
Proof.
  induction s as [|d s [IH1 IH2]]; cbn [pieces]; [split; [cbn; lia|constructor]|]. destruct (pieces c s) as [h t]. cbn [fst snd] in *.
  assert (T : Forall (fun p => (String.length p <= String.length (String d s))%nat) t) by (eapply Forall_impl; [|exact IH2]; cbn [String.length]; lia).
  destruct (Ascii.eqb d c); cbn [fst snd String.length]; (split; [lia|]); [constructor; [cbn [String.length]; lia|exact T]|exact T].
Qed.
Lemma split_ok s c : str_ok s = true -> Forall (fun p => str_ok p = true) (split_string s (String c "")).
Proof.
  intros H. rewrite split_string_pieces. unfold pieces_list. pose proof (pieces_len c s) as [L1 L2]. destruct (pieces c s) as [h t]. cbn [fst snd] in *. constructor; [exact (shorter _ _ L1 H)|].
  eapply Forall_impl; [|exact L2]. intros p L. exact (shorter _ _ L H).
Qed.
Lemma take_len n s : (String.length (take n s) <= String.length s)%nat.
Proof. unfold take. revert n. induction s as [|c s IH]; intros [|n]; cbn [substring String.length]; try lia. specialize (IH n). lia. Qed.
Lemma key_value_ok kv n v : key_value kv = Some (n, v) -> str_ok kv = true -> str_ok n = true /\ str_ok v = true.
Proof.
  unfold key_value. intros H Sk. destruct (find_str "=" kv) as [i|] eqn:F; [|discriminate]. pose proof (length_drop (S i) kv) as L. destruct (string_contains (drop (S i) kv) "="); [discriminate|]. remember (drop (S i) kv) as d eqn:D. clear D. injection H as <- <-. split.
  - apply (shorter _ kv); [apply take_len|exact Sk].
  - apply (shorter _ kv); [|exact Sk]. rewrite L. lia.
Qed.
Lemma key_values_ok l : forall r, key_values l = Some r -> Forall (fun s => str_ok s = true) l -> Forall (fun e => str_ok (fst e) = true /\ str_ok (snd e) = true) r.
Proof.
  induction l as [|kv l IH]; intros r H Sl; cbn [key_values] in H; [injection H as <-; constructor|]. destruct (key_value kv) as [[n v]|] eqn:K; [|discriminate]. destruct (key_values l) as [q|] eqn:Q; [|discriminate]. injection H as <-.
  inversion Sl; subst. constructor; [eapply key_value_ok; eassumption|apply IH; auto].
Qed.
Lemma fromString_wf s t a : str_ok s = true -> attrFromString s t = Ok a -> wf_attr a = true.
Proof.
  intros S H. unfold attrFromString in H. destruct ((t =? tInteger) || (t =? tEnum)) eqn:T1.
  - bind_inv H as z Hz H. injection H as <-. apply int_attr; [lia|exact (stoi_ok _ _ Hz)].
  - destruct (t =? tBoolean) eqn:T2.
    + destruct (String.eqb s "true"); [injection H as <-; exact T2|]. destruct (String.eqb s "false"); [injection H as <-; exact T2|discriminate].
    + destruct (existsb (Z.eqb t) _) eqn:T3; [|discriminate]. injection H as <-. apply str_attr; [|exact S]. apply existsb_exists in T3. destruct T3 as (x & Hx & Et). apply existsb_exists. exists x. split; [|exact Et].
      cbn [In] in Hx |- *. unfold tTextWithLanguage, tNameWithLanguage, tTextWithoutLanguage, tNameWithoutLanguage, tKeyword, tUri, tUriScheme, tCharset, tNaturalLanguage, tMimeMediaType in Hx. unfold str_tags. cbn [In]. lia.
Qed.
Lemma settable_fits pa l : forall acc r, Forall (fun e => name_fits (fst e) = true /\ str_ok (snd e) = true) l -> fitting acc -> collect_settable pa l acc = Ok r -> fitting r.
Proof.
  induction l as [|[n v] l IH]; intros acc r L A H; cbn [collect_settable] in H; [injection H as <-; exact A|]. inversion L as [|? ? [L1 L2] L3]; subst. cbn [fst snd] in *.
  destruct (map_get n pa) as [a|]; [|exact (IH _ _ L3 A H)]. bind_inv H as x Hx H. refine (IH _ _ L3 _ H). apply fitting_set; [exact A|exact L1|exact (fromString_wf _ _ _ L2 Hx)].
Qed.
Lemma format_ok e st fmt : state_ok st -> input_format e st = Some fmt -> str_ok fmt = true.
Proof.
  intros S H. unfold input_format in H. destruct (a_set st 16) eqn:A; [injection H as <-; exact (str_arg _ _ S (or_introl A))|].
  set (f := as_str (a_val st 32)) in *. cbv zeta in H. assert (M : forall b, str_ok (getMimeType b) = true).
  { intros b. unfold getMimeType. cbv zeta. destruct (firstn 7 b); [reflexivity|]. repeat match goal with |- str_ok (if ?c then _ else _) = true => destruct c; [reflexivity|] end. reflexivity. }
  destruct (_ || _); [discriminate|]. injection H as <-. destruct (String.eqb f "-"); [reflexivity|apply M].
Qed.

(** ** What is sent *)
Definition nsent (evs : list event) : Z := Z.of_nat (length (filter (fun v => match v with Wrote _ => false | _ => true end) evs)).
Lemma requests_app u a evs2 : forall evs1 id, all_requests u a id evs1 -> all_requests u a (id + nsent evs1) evs2 -> all_requests u a id (evs1 ++ evs2).
Proof.
  induction evs1 as [|ev evs1 IH]; intros id H1 H2; cbn [app]; [unfold nsent in H2; cbn in H2; rewrite Z.add_0_r in H2; exact H2|].
  destruct ev as [x b|x b|x]; cbn [all_requests] in *; unfold nsent in H2; cbn [filter length] in H2; fold (nsent evs1) in H2.
  - destruct H1 as (-> & H1 & H3). split; [reflexivity|]. split; [exact H1|]. apply IH; [exact H3|]. replace (id + 1 + nsent evs1) with (id + Z.of_nat (S (length (filter (fun v => match v with Wrote _ => false | _ => true end) evs1)))) by (unfold nsent; lia). exact H2.
  - destruct H1 as (-> & H1 & H3). split; [reflexivity|]. split; [exact H1|]. apply IH; [exact H3|]. replace (id + 1 + nsent evs1) with (id + Z.of_nat (S (length (filter (fun v => match v with Wrote _ => false | _ => true end) evs1)))) by (unfold nsent; lia). exact H2.
  - apply IH; assumption.
Qed.
Lemma requests_bind {A B} u a id (x : list event * outcome A) (k : A -> list event * outcome B) : all_requests u a id (fst x) -> (forall v, snd x = Ok v -> all_requests u a (id + nsent (fst x)) (fst (k v))) -> all_requests u a id (fst (ebind x k)).
Proof. intros H K. unfold ebind. destruct (snd x) as [v|e| | |]; cbn [fst]; try exact H. apply requests_app; [exact H|exact (K v eq_refl)]. Qed.
Lemma requests_pure {A B} u a id (x : outcome A) (k : A -> list event * outcome B) : (forall v, x = Ok v -> all_requests u a id (fst (k v))) -> all_requests u a id (fst (ebind (pure x) k)).
Proof. intros K. rewrite ebind_pure. destruct x as [v|e| | |]; cbn [fst]; try exact I. exact (K v eq_refl). Qed.
Definition user_ok (w : world) : Prop := match w_user w with Some u => str_ok u = true | None => True end.
Lemma request_sent w p op given jobA prn m id : user_ok w -> str_ok (pr_addr p) = true -> fitting given -> no_base given -> sendable jobA -> fitting prn -> In op plain_ops -> 0 <= id < 4294967296 ->
  mk_msg w p op given jobA prn = Ok m -> all_requests (w_user w) (pr_addr p) id (fst (do_request w p id m)) /\ (forall v, snd (do_request w p id m) = Ok v -> nsent (fst (do_request w p id m)) = 1).
Proof.
  intros Hu Ha Fg Ng Sj Fp Ho Hid H. unfold do_request. destruct (fst (encodeMsg id m)) as [b|e| | |] eqn:E; cbn [fst snd]; try (split; [exact I|discriminate]). split; [|reflexivity].
  cbn [all_requests]. split; [reflexivity|]. split; [|exact I]. exists op, (wire_msg m). split; [exact Ho|]. refine (made_request w p op given jobA prn m id b Hu Ha Fg Ng Sj Fp _ Hid H E).
  unfold plain_ops in Ho. cbn [In] in Ho. unfold u16_ok. lia.
Qed.
Lemma no_base_nil : no_base [].
Proof. unfold no_base. repeat constructor. Qed.
Lemma streamed w p op given jobA m id j inFile conv hdr : user_ok w -> str_ok (pr_addr p) = true -> fitting given -> no_base given -> sendable jobA -> In op document_ops -> 0 <= id < 4294967296 ->
  mk_msg w p op given jobA [] = Ok m -> fst (encodeMsg id m) = Ok hdr -> all_requests (w_user w) (pr_addr p) id (fst (do_print w p j inFile conv hdr)).
Proof.
  intros Hu Ha Fg Ng Sj Ho Hid H E. cbn [do_print fst all_requests]. split; [reflexivity|]. split; [|exact I]. exists op, (wire_msg m). split; [exact Ho|].
  refine (made_request w p op given jobA [] m id hdr Hu Ha Fg Ng Sj fitting_nil _ Hid H E). unfold document_ops in Ho. cbn [In] in Ho. unfold u16_ok. lia.
Qed.
Lemma job_id_ok w p id m y g z : snd (do_request w p id m) = Ok (None, y) -> m_jobAttrs y = g -> get_int_attr "job-id" (match g with g :: _ => g | [] => [] end) = Ok z -> s32_ok z = true.
Proof.
  intros H <- G. unfold do_request in H. destruct (fst (encodeMsg id m)); cbn [snd] in H; try discriminate. destruct (w_post w (pr_addr p) a) as [t|body]; [discriminate|].
  destruct (decodeMsg body) as [[r q]| | | |] eqn:D; try discriminate. injection H as <-. destruct (decoded_ints _ _ _ D) as (_ & J & _).
  assert (K : ints_ok (match m_jobAttrs r with g :: _ => g | [] => [] end)) by (destruct J; [intros ? ? ? []|assumption]). clear J D.
  unfold get_int_attr, attrs_get, attrs_at in G. destruct (map_get "job-id" _) as [[t v]|] eqn:M; cbn [bind snd] in G; [|injection G as <-; reflexivity].
  unfold get_as in G. destruct v; cbn [has_type bind v_int] in G; try discriminate. injection G as <-. apply map_get_In in M. exact (K _ _ _ M).
Qed.
Lemma copy_fits j : job_fits j -> job_fits (copy_job j).
Proof. intros F. exact F. Qed.
Lemma one_attr_fits k a : name_fits k = true -> wf_attr a = true -> fitting [(k, a)].
Proof. intros K A. exact (fitting_set [] k a fitting_nil K A). Qed.
Lemma run_body_sent w p id j inFile fmt pages : user_ok w -> str_ok (pr_addr p) = true -> 0 <= id < 4294967295 -> job_fits j -> str_ok fmt = true -> str_ok (base_name inFile) = true ->
  all_requests (w_user w) (pr_addr p) id (fst (run_job_body w p id j inFile fmt pages)).
Proof.
  intros Hu Ha Hid F Hf Hn. unfold run_job_body. apply requests_pure. intros ops Hops. cbv zeta. apply requests_pure. intros [err j'] Hj. destruct err as [t|]; [exact I|].
  pose proof (finalize_fits _ _ _ _ F Hf Hj) as (F1 & F2 & F3). destruct (getConvertFun fmt (j_target j')) as [conv|]; [|exact I].
  assert (Nm : wf_attr (tNameWithoutLanguage, VStr (base_name inFile)) = true) by (apply str_attr; [reflexivity|exact Hn]).
  destruct (string_starts_with (pr_addr p) "file://").
  - apply requests_bind; [|intros v _; exact I]. unfold do_print_to_file. apply requests_pure. intros ext _. exact I.
  - destruct (_ && _).
    + apply requests_pure. intros m Hm. destruct (request_sent w p opCreateJob [("job-name"%string, (tNameWithoutLanguage, VStr (base_name inFile)))] (j_jobAttrs j') [] m id Hu Ha) as [R N];
        [apply one_attr_fits; [reflexivity|exact Nm]|unfold no_base; repeat constructor|exact F1|exact fitting_nil|cbn; auto|lia|exact Hm|].
      apply requests_bind; [exact R|]. intros [e y] Hy. rewrite (N _ Hy). destruct e; [exact I|]. cbv zeta. destruct (_ && map_has _ _); [|apply requests_pure; intros s _; exact I].
      apply requests_pure. intros z Hz. pose proof (job_id_ok _ _ _ _ _ _ _ Hy eq_refl Hz) as Z. apply requests_pure. intros m2 Hm2. apply requests_pure. intros hdr Hh.
      rewrite Z.mod_small in Hh by (unfold two32; lia).
      refine (streamed w p opSendDocument _ [] m2 (id + 1) j' inFile conv hdr Hu Ha _ _ sendable_nil _ _ Hm2 Hh); [| |cbn; auto|lia].
      * apply fitting_set; [apply fitting_set; [exact F2|reflexivity|apply int_attr; [left; reflexivity|exact Z]]|reflexivity|reflexivity].
      * assert (S1 : sorted_keys (map_set "job-id" (tInteger, VInt z) (j_opAttrs j'))) by (apply set_sorted; apply F2).
        apply no_base_set; [exact S1|not_base|]. apply no_base_set; [apply F2|not_base|exact F3].
    + apply requests_pure. intros m Hm. apply requests_pure. intros hdr Hh.
      refine (streamed w p opPrintJob _ (j_jobAttrs j') m id j' inFile conv hdr Hu Ha _ _ F1 _ _ Hm Hh); [| |cbn; auto|lia].
      * apply fitting_set; [exact F2|reflexivity|exact Nm].
      * apply no_base_set; [apply F2|not_base|exact F3].
Qed.
Definition saved_fit (e : client_env) (pa : ipp_attrs) : Prop := forall add j, restoreSettings (w_user (e_world e)) (parse_opt e) (e_files e) (new_job pa add) = Ok j -> job_fits j.
Lemma prepare_fits e st pa j fmt : state_ok st -> saved_fit e pa -> prepare e st pa = Ok (Some (j, fmt)) -> okj (as_bool (a_val st 28)) j /\ str_ok fmt = true.
Proof.
  intros S Sv H. unfold prepare in H. bind_inv H as j0 H0 H. unfold createJob in H0. bind_inv H0 as add Hadd H0. injection H0 as <-. bind_inv H as j1 H1 H.
  assert (F1 : okj (as_bool (a_val st 28)) j1).
  { destruct (as_bool (a_val st 28)); [injection H1 as <-; split; [split; [exact sendable_nil|]; split; [exact fitting_nil|exact no_base_nil]|intros _; split; intros ? ? []]|]. split; [exact (Sv _ _ H1)|discriminate]. }
  cbv zeta in H. destruct (input_format e st) as [f|] eqn:If; [|discriminate]. bind_inv H as r Hr H. destruct r as [j2|]; [|discriminate]. injection H as <- <-. split; [|exact (format_ok _ _ _ S If)].
  apply (options_fits (as_bool (a_val st 28)) _ _ _ _ _ S) in Hr; [exact Hr|]. destruct (a_set st 3), (a_set st 26); exact F1.
Qed.
Lemma print_sent e st p id : user_ok (e_world e) -> str_ok (pr_addr p) = true -> 0 <= id < 4294967295 -> state_ok st -> saved_fit e (pr_attrs p) ->
  all_requests (w_user (e_world e)) (pr_addr p) id (fst (print_command e st p id)).
Proof.
  intros Hu Ha Hid S Sv. unfold print_command. apply requests_pure. intros x Hx. destruct x as [[j fmt]|]; [|exact I]. destruct (prepare_fits _ _ _ _ _ S Sv Hx) as [[F _] Ff].
  destruct (count_pages e fmt _) as [[inFile pages]|] eqn:C; [|exact I]. pose proof (pages_file _ _ _ _ _ C (str_arg st 32 S (or_intror (or_intror (or_intror (or_introl eq_refl)))))) as B.
  apply requests_bind.
  - destruct (as_bool (a_val st 28)); [|exact I]. apply requests_pure. intros s _. destruct s as [[path t]|]; exact I.
  - intros saved Hs.
    replace (id + nsent _) with id.
    + destruct (negb saved); [exact I|]. apply requests_bind; [|intros v _; exact I]. unfold run_job. cbn [fst].
      exact (run_body_sent (e_world e) (mkPrinter (pr_addr p) (as_bool (a_val st 27)) (pr_attrs p)) id (copy_job j) inFile fmt pages Hu Ha Hid F Ff B).
    + destruct (as_bool (a_val st 28)); [|unfold nsent; cbn; lia]. rewrite ebind_pure. destruct (saveSettings _ j) as [[[path t]|]|e0| | |]; unfold nsent; cbn; lia.
Qed.
Lemma client_sent e junk args : user_ok (e_world e) -> Forall (fun s => str_ok s = true) args ->
  (forall st ok sub msg ev pa id, sub_get_args client_subs (client_init junk) args = Ok (ok, sub, msg, st) -> open_printer e (as_str (a_val st 30)) = (ev, Ok (None, pa, id)) -> saved_fit e pa) ->
  (forall st l ok sub msg, sub_get_args client_subs (client_init junk) args = Ok (ok, sub, msg, st) -> sub = "set-attrs"%string -> key_values (split_string (as_str (a_val st 31)) ",") = Some l -> Forall (fun e => name_fits (fst e) = true /\ str_ok (snd e) = true) l) ->
  match sub_get_args client_subs (client_init junk) args with
  | Ok (_, _, _, st) => all_requests (w_user (e_world e)) (as_str (a_val st 30)) 1 (fst (client e junk args))
  | _ => fst (client e junk args) = []
  end.
Proof.
  intros Hu A Sv K. unfold client. rewrite ebind_pure. destruct (sub_get_args client_subs (client_init junk) args) as [[[[ok sub] msg] st]|e0| | |] eqn:E; try reflexivity.
  specialize (K st). specialize (fun l => K l _ _ _ eq_refl). pose proof (args_ok _ _ _ _ _ _ A E) as S. destruct (as_bool (a_val st 0)); [exact I|]. destruct (negb ok); [exact I|].
  set (addr := as_str (a_val st 30)) in *. assert (Ha : str_ok addr = true) by (apply (str_arg st 30 S); right; left; reflexivity).
  assert (O : all_requests (w_user (e_world e)) addr 1 (fst (open_printer e addr)) /\ forall err pa id, snd (open_printer e addr) = Ok (err, pa, id) -> 1 + nsent (fst (open_printer e addr)) = id /\ 0 <= id < 10).
  { unfold open_printer. destruct (string_starts_with addr "file://").
    - rewrite ebind_pure. destruct (refresh_file _ _ _ _ _) as [x| | | |]; cbn [pure fst snd]; (split; [exact I|]); try discriminate. intros err pa id H. injection H as _ _ <-. split; [reflexivity|lia].
    - assert (R : all_requests (w_user (e_world e)) addr 1 (fst (refresh (e_world e) (mkPrinter addr false []) 1 (e_overrides e))) /\ forall v, snd (refresh (e_world e) (mkPrinter addr false []) 1 (e_overrides e)) = Ok v -> nsent (fst (refresh (e_world e) (mkPrinter addr false []) 1 (e_overrides e))) = 1).
      { unfold refresh. rewrite ebind_pure. destruct (mk_msg _ _ _ _ _ _) as [m| | | |] eqn:M; cbn [fst snd]; try (split; [exact I|discriminate]).
        destruct (request_sent (e_world e) (mkPrinter addr false []) opGetPrinterAttrs [] [] [] m 1 Hu Ha fitting_nil no_base_nil sendable_nil fitting_nil) as [R N]; [cbn; auto|lia|exact M|].
        cbn [pr_addr] in R. split.
        - apply requests_bind; [exact R|]. intros v _. apply requests_pure. intros ? _. exact I.
        - intros v Hv. apply ebind_ok in Hv. destruct Hv as (y & Hy & Hv & ->). rewrite ebind_pure in *. destruct (config_dir _); try discriminate. cbn [pure fst snd] in *. rewrite app_nil_r. exact (N _ Hy). }
      destruct R as [R N]. split; [apply requests_bind; [exact R|intros v _; exact I]|]. intros err pa id H. apply ebind_ok in H. destruct H as (v & Hv & H & ->). cbn [pure fst snd] in *. injection H as _ _ <-.
      rewrite app_nil_r, (N _ Hv). split; [reflexivity|lia]. }
  destruct O as [O1 O2]. apply requests_bind; [exact O1|]. intros [[err pa] id] Hy. destruct (O2 _ _ _ Hy) as [-> Hid]. destruct err; [exact I|]. cbv zeta.
  assert (Plain : forall op given m, In op plain_ops -> fitting given -> no_base given -> mk_msg (e_world e) (mkPrinter addr false pa) op given [] [] = Ok m -> all_requests (w_user (e_world e)) addr id (fst (do_request (e_world e) (mkPrinter addr false pa) id m))).
  { intros op given m Ho Fg Ng Hm. apply (request_sent (e_world e) (mkPrinter addr false pa) op given [] [] m id Hu Ha Fg Ng sendable_nil fitting_nil Ho); [lia|exact Hm]. }
  destruct (String.eqb sub "info"); [exact I|]. destruct (String.eqb sub "identify").
  { apply requests_bind; [|intros v _; exact I]. unfold identify. destruct (negb _); [exact I|]. apply requests_pure. intros m Hm. apply requests_bind; [|intros v _; exact I].
    apply (Plain opIdentifyPrinter [] m); [cbn; auto 10|exact fitting_nil|exact no_base_nil|exact Hm]. }
  destruct (String.eqb sub "get-attrs"); [exact I|]. destruct (String.eqb_spec sub "set-attrs") as [Es|_].
  { unfold set_attrs_command. destruct (key_values _) as [l|] eqn:Kv; [|exact I]. specialize (K l Es eq_refl). apply requests_bind; [|intros v _; exact I]. unfold set_attributes. cbn [pr_attrs].
    destruct (collect_settable pa l []) as [attrs| | | |] eqn:Cs; try exact I. pose proof (settable_fits _ _ _ _ K fitting_nil Cs) as Fa. apply requests_pure. intros m Hm. apply requests_bind; [|intros v _; exact I].
    apply (request_sent (e_world e) (mkPrinter addr false pa) opSetPrinterAttrs [] [] attrs m id Hu Ha fitting_nil no_base_nil sendable_nil Fa); [cbn; auto 10|lia|exact Hm]. }
  destruct (String.eqb sub "get-jobs").
  { apply requests_bind; [|intros v _; exact I]. unfold get_jobs. apply requests_pure. intros m Hm. apply requests_bind.
    - apply (Plain opGetJobs [("requested-attributes"%string, (tKeyword, VStr "all"))] m); [cbn; auto 10|apply one_attr_fits; reflexivity|unfold no_base; repeat constructor|exact Hm].
    - intros v _. destruct (fst v); [exact I|]. apply requests_pure. intros l _. exact I. }
  destruct (String.eqb sub "cancel-job").
  { unfold cancel_command. destruct (a_set st 29) eqn:A29; [|exact I]. apply requests_bind; [|intros v _; exact I]. unfold cancel_job. apply requests_pure. intros m Hm. apply requests_bind.
    - apply (Plain opCancelJob [("job-id"%string, (tInteger, VInt (as_int (a_val st 29))))] m); [cbn; auto 10|apply one_attr_fits; [reflexivity|apply int_attr; [left; reflexivity|exact (num_arg _ _ S A29)]]|unfold no_base; repeat constructor|exact Hm].
    - intros v _. destruct (fst v); [exact I|]. destruct (_ <? _); [apply requests_pure; intros s _; exact I|exact I]. }
  destruct (String.eqb sub "print"); [|exact I]. apply (print_sent e st (mkPrinter addr false pa) id Hu Ha); [lia|exact S|]. apply (Sv st ok sub msg (fst (open_printer e addr)) pa id eq_refl). fold addr. rewrite <- Hy. apply surjective_pairing.
Qed.
