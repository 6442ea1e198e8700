(** C32 and C33: the settings of a print job. *)
From Verif Require Import Base BaseLemmas MapModel MapProofs StringModel IppModel SettingModel.
Local Open Scope Z_scope.

(** ** Specification *)
(** A setting is a plain job attribute or a member of media-col. *)
Definition job_setting (s : setting) : Prop :=
  (s_sub s = "" /\ s_name s <> "media-col")%string \/ s_sub s = "media-col"%string.
(** Job attributes: a map in which media-col, if present, is a non-empty collection. *)
Definition wf_job (m : ipp_attrs) : Prop :=
  sorted_keys m /\ forall a, map_get "media-col" m = Some a -> exists c, a = (tBeginCollection, VColl c) /\ sorted_keys c /\ c <> [].
(** The printer's default for a setting, or the fallback: the value of its -default
    attribute, which must have the setting's type. *)
Definition default_of (pa : ipp_attrs) (s : setting) (fallback : ipp_value) : outcome ipp_value :=
  match map_get (s_name s ++ "-default") pa with
  | Some a => if has_type (s_type s) (snd a) then Ok (snd a) else Throw BadVariant
  | None => Ok fallback
  end.
(** Independent variables: the value of each setting, None if not set. *)
Definition store := string -> string -> option ipp_value.
Definition same (s s' : setting) : bool := String.eqb (s_sub s) (s_sub s') && String.eqb (s_name s) (s_name s').
Inductive op := Set_ (s : setting) (v : ipp_value) | Unset (s : setting).
Definition op_setting (o : op) : setting := match o with Set_ s _ => s | Unset s => s end.
(** the value of a setting after operations, starting from [x] *)
Fixpoint value_after (l : list op) (s : setting) (x : option ipp_value) : option ipp_value :=
  match l with
  | [] => x
  | Set_ s' v :: l' => value_after l' s (if same s s' then Some v else x)
  | Unset s' :: l' => value_after l' s (if same s s' then None else x)
  end.
Fixpoint run_ops (l : list op) (m : ipp_attrs) : outcome ipp_attrs :=
  match l with
  | [] => Ok m
  | Set_ s v :: l' => let! m' := setting_set s v m in run_ops l' m'
  | Unset s :: l' => let! m' := setting_unset s m in run_ops l' m'
  end.

(** ** Proofs *)
Definition lookup (s : setting) (m : ipp_attrs) : option ipp_attr :=
  if String.eqb (s_sub s) "" then map_get (s_name s) m
  else match map_get (s_sub s) m with Some (_, VColl c) => map_get (s_name s) c | _ => None end.
Lemma getDefault_of pa s f : getDefault pa s f = default_of pa s f.
Proof.
  unfold getDefault, attrs_get, attrs_at, default_of. destruct (map_get _ pa) as [a|]; [|reflexivity]. cbn [bind]. unfold get_as.
  destruct (has_type (s_type s) (snd a)); reflexivity.
Qed.
Lemma isSet_lookup s m : job_setting s -> wf_job m -> setting_isSet s m = Ok (match lookup s m with Some _ => true | None => false end).
Proof.
  intros Hs [Hm Hc]. unfold setting_isSet, lookup. destruct Hs as [[H _]|H].
  - rewrite H. reflexivity.
  - rewrite H. cbn [String.eqb Ascii.eqb Bool.eqb]. destruct (map_get "media-col" m) as [a|] eqn:E; [|reflexivity].
    destruct (Hc a eq_refl) as [c [-> [H1 H2]]]. reflexivity.
Qed.
Lemma get_lookup pa s m f : job_setting s -> wf_job m -> setting_get pa s m f = match lookup s m with Some a => get_as (s_type s) (snd a) | None => default_of pa s f end.
Proof.
  intros Hs Hm. unfold setting_get. rewrite (isSet_lookup s m Hs Hm). cbn [bind]. rewrite <- getDefault_of. destruct Hm as [Hm Hc].
  unfold lookup, attrs_at. destruct Hs as [[H _]|H].
  - rewrite H. cbn [String.eqb]. destruct (map_get (s_name s) m); reflexivity.
  - rewrite H. cbn [String.eqb Ascii.eqb Bool.eqb]. destruct (map_get "media-col" m) as [a|] eqn:E; [|reflexivity].
    destruct (Hc a eq_refl) as [c [-> [H1 H2]]]. cbn [bind snd get_coll]. change ipp_attr with (Z * ipp_value)%type. destruct (map_get (s_name s) c); reflexivity.
Qed.
Lemma wf_col m : wf_job m -> exists c, sorted_keys c /\ (forall s, s_sub s = "media-col"%string -> sub_coll s m = Ok c /\ lookup s m = map_get (s_name s) c)
  /\ (map_get "media-col" m = Some (tBeginCollection, VColl c) /\ c <> [] \/ map_get "media-col" m = None /\ c = []).
Proof.
  intros [Hm Hc]. destruct (map_get "media-col" m) as [a|] eqn:E.
  - destruct (Hc a eq_refl) as [c [-> [H1 H2]]]. exists c. split; [exact H1|]. split; [|left; split; [reflexivity|exact H2]].
    intros s Hs. unfold sub_coll, lookup. rewrite Hs, E. split; reflexivity.
  - exists []. split; [exact I|]. split; [|right; split; reflexivity]. intros s Hs. unfold sub_coll, lookup. rewrite Hs, E. split; reflexivity.
Qed.
Lemma set_nonempty {A} k (v : A) m : map_set k v m <> [].
Proof. destruct m as [|[k' v'] m]; cbn [map_set]; [discriminate|]. destruct (String.compare k k'); discriminate. Qed.
Lemma eqb_ne a b : a <> b -> String.eqb a b = false.
Proof. apply String.eqb_neq. Qed.

Lemma set_lookup s v m : job_setting s -> wf_job m -> exists m', setting_set s v m = Ok m' /\ wf_job m' /\
  (forall s', job_setting s' -> lookup s' m' = if same s' s then Some (s_tag s, v) else lookup s' m)
  /\ (forall k, k <> s_name s -> k <> "media-col"%string -> map_get k m' = map_get k m).
Proof.
  intros Hs Hm. pose proof Hm as [Hk Hc]. destruct Hs as [[H1 H2]|H1].
  - exists (map_set (s_name s) (s_tag s, v) m). unfold setting_set. rewrite H1. split; [reflexivity|]. split; [|split].
    + split; [apply set_sorted; exact Hk|]. intros a. rewrite map_get_set by exact Hk. rewrite eqb_ne by congruence. apply Hc.
    + intros s' Hs'. unfold lookup, same. rewrite H1. destruct Hs' as [[H3 H4]|H3]; rewrite H3.
      * cbn [String.eqb andb]. rewrite map_get_set by exact Hk. reflexivity.
      * cbn [String.eqb Ascii.eqb Bool.eqb andb]. rewrite map_get_set by exact Hk. rewrite eqb_ne by congruence. reflexivity.
    + intros k K1 K2. rewrite map_get_set by exact Hk. rewrite eqb_ne by exact K1. reflexivity.
  - destruct (wf_col m Hm) as [c [C1 [C2 C3]]]. destruct (C2 s H1) as [E _].
    exists (map_set "media-col" (tBeginCollection, VColl (map_set (s_name s) (s_tag s, v) c)) m). unfold setting_set. rewrite E, H1. cbn [String.eqb Ascii.eqb Bool.eqb bind].
    split; [reflexivity|]. split; [|split].
    + split; [apply set_sorted; exact Hk|]. intros a. rewrite map_get_set by exact Hk. rewrite String.eqb_refl. intros Ha. injection Ha as <-.
      eexists. split; [reflexivity|]. split; [apply set_sorted; exact C1|apply set_nonempty].
    + intros s' Hs'. unfold same. rewrite H1. destruct Hs' as [[H3 H4]|H3].
      * unfold lookup. rewrite H3. cbn [String.eqb Ascii.eqb Bool.eqb andb]. rewrite map_get_set by exact Hk. rewrite eqb_ne by congruence. reflexivity.
      * destruct (C2 s' H3) as [_ ->]. unfold lookup. rewrite H3. cbn [String.eqb Ascii.eqb Bool.eqb andb]. rewrite map_get_set by exact Hk. rewrite String.eqb_refl.
        apply map_get_set. exact C1.
    + intros k K1 K2. rewrite map_get_set by exact Hk. rewrite eqb_ne by congruence. reflexivity.
Qed.
Lemma unset_lookup s m : job_setting s -> wf_job m -> exists m', setting_unset s m = Ok m' /\ wf_job m' /\
  (forall s', job_setting s' -> lookup s' m' = if same s' s then None else lookup s' m)
  /\ (forall k, k <> s_name s -> k <> "media-col"%string -> map_get k m' = map_get k m).
Proof.
  intros Hs Hm. pose proof Hm as [Hk Hc]. destruct Hs as [[H1 H2]|H1].
  - exists (map_erase (s_name s) m). unfold setting_unset. rewrite H1. split; [reflexivity|]. split; [|split].
    + split; [apply erase_sorted; exact Hk|]. intros a. rewrite map_get_erase by exact Hk. rewrite eqb_ne by congruence. apply Hc.
    + intros s' Hs'. unfold lookup, same. rewrite H1. destruct Hs' as [[H3 H4]|H3]; rewrite H3.
      * cbn [String.eqb andb]. rewrite map_get_erase by exact Hk. reflexivity.
      * cbn [String.eqb Ascii.eqb Bool.eqb andb]. rewrite map_get_erase by exact Hk. rewrite eqb_ne by congruence. reflexivity.
    + intros k K1 K2. rewrite map_get_erase by exact Hk. rewrite eqb_ne by exact K1. reflexivity.
  - destruct (wf_col m Hm) as [c [C1 [C2 C3]]]. destruct (C2 s H1) as [E _]. unfold setting_unset. rewrite E, H1. cbn [String.eqb Ascii.eqb Bool.eqb bind].
    pose proof (map_get_erase (s_name s) c) as G. pose proof (erase_sorted (s_name s) c C1) as S1.
    destruct (map_erase (s_name s) c) as [|e c'] eqn:Ec.
    + exists (map_erase "media-col" m). split; [reflexivity|]. split; [|split].
      * split; [apply erase_sorted; exact Hk|]. intros a. rewrite map_get_erase by exact Hk. rewrite String.eqb_refl. discriminate.
      * intros s' Hs'. unfold same. rewrite H1. destruct Hs' as [[H3 H4]|H3].
        -- unfold lookup. rewrite H3. cbn [String.eqb Ascii.eqb Bool.eqb andb]. rewrite map_get_erase by exact Hk. rewrite eqb_ne by congruence. reflexivity.
        -- destruct (C2 s' H3) as [_ ->]. unfold lookup. rewrite H3. cbn [String.eqb Ascii.eqb Bool.eqb andb]. rewrite map_get_erase by exact Hk. rewrite String.eqb_refl.
           specialize (G (s_name s') C1). cbn [map_get] in G. exact G.
      * intros k K1 K2. rewrite map_get_erase by exact Hk. rewrite eqb_ne by congruence. reflexivity.
    + exists (map_set "media-col" (tBeginCollection, VColl (e :: c')) m). split; [reflexivity|]. split; [|split].
      * split; [apply set_sorted; exact Hk|]. intros a. rewrite map_get_set by exact Hk. rewrite String.eqb_refl. intros Ha. injection Ha as <-.
        eexists. split; [reflexivity|]. split; [exact S1|discriminate].
      * intros s' Hs'. unfold same. rewrite H1. destruct Hs' as [[H3 H4]|H3].
        -- unfold lookup. rewrite H3. cbn [String.eqb Ascii.eqb Bool.eqb andb]. rewrite map_get_set by exact Hk. rewrite eqb_ne by congruence. reflexivity.
        -- destruct (C2 s' H3) as [_ ->]. unfold lookup. rewrite H3. cbn [String.eqb Ascii.eqb Bool.eqb andb]. rewrite map_get_set by exact Hk. rewrite String.eqb_refl.
           apply G. exact C1.
      * intros k K1 K2. rewrite map_get_set by exact Hk. rewrite eqb_ne by congruence. reflexivity.
Qed.
Lemma same_refl s : same s s = true.
Proof. unfold same. rewrite !String.eqb_refl. reflexivity. Qed.

(** ** C32 *)
(** set(v): the setting is set and returns v; every other setting, and every attribute
    that is neither, is as before. *)
Theorem C32_set pa s v m fallback : job_setting s -> wf_job m -> has_type (s_type s) v = true ->
  exists m', setting_set s v m = Ok m' /\ wf_job m' /\ setting_isSet s m' = Ok true /\ setting_get pa s m' fallback = Ok v
    /\ (forall s', job_setting s' -> same s' s = false ->
          setting_isSet s' m' = setting_isSet s' m /\ setting_get pa s' m' fallback = setting_get pa s' m fallback)
    /\ (forall k, k <> s_name s -> k <> "media-col"%string -> map_get k m' = map_get k m).
Proof.
  intros Hs Hm Ht. destruct (set_lookup s v m Hs Hm) as [m' [E [Hm' [L O]]]]. exists m'. split; [exact E|]. split; [exact Hm'|].
  rewrite (isSet_lookup s m' Hs Hm'), (get_lookup pa s m' fallback Hs Hm'), (L s Hs), same_refl. unfold get_as. cbn [snd]. rewrite Ht.
  split; [reflexivity|]. split; [reflexivity|]. split; [|exact O]. intros s' Hs' Hd.
  rewrite !(isSet_lookup s'), !(get_lookup pa s'), (L s' Hs'), Hd by assumption. split; reflexivity.
Qed.
(** unset(): the setting is not set and returns the printer's default; nothing else
    changes. *)
Theorem C32_unset pa s m fallback : job_setting s -> wf_job m ->
  exists m', setting_unset s m = Ok m' /\ wf_job m' /\ setting_isSet s m' = Ok false /\ setting_get pa s m' fallback = default_of pa s fallback
    /\ (forall s', job_setting s' -> same s' s = false ->
          setting_isSet s' m' = setting_isSet s' m /\ setting_get pa s' m' fallback = setting_get pa s' m fallback)
    /\ (forall k, k <> s_name s -> k <> "media-col"%string -> map_get k m' = map_get k m).
Proof.
  intros Hs Hm. destruct (unset_lookup s m Hs Hm) as [m' [E [Hm' [L O]]]]. exists m'. split; [exact E|]. split; [exact Hm'|].
  rewrite (isSet_lookup s m' Hs Hm'), (get_lookup pa s m' fallback Hs Hm'), (L s Hs), same_refl.
  split; [reflexivity|]. split; [reflexivity|]. split; [|exact O]. intros s' Hs' Hd.
  rewrite !(isSet_lookup s'), !(get_lookup pa s'), (L s' Hs'), Hd by assumption. split; reflexivity.
Qed.
(** Any sequence of operations on any settings behaves like one variable per setting. *)
Lemma run_ops_lookup l : forall m, wf_job m -> Forall (fun o => job_setting (op_setting o)) l -> exists m', run_ops l m = Ok m' /\ wf_job m' /\
  forall s, job_setting s -> option_map snd (lookup s m') = value_after l s (option_map snd (lookup s m)).
Proof.
  induction l as [|o l IH]; intros m Hm Hl.
  - exists m. split; [reflexivity|]. split; [exact Hm|]. reflexivity.
  - inversion_clear Hl as [|? ? Ho Hl']. destruct o as [s v|s]; cbn [op_setting] in Ho.
    + destruct (set_lookup s v m Ho Hm) as [m1 [E [Hm1 [L _]]]]. destruct (IH m1 Hm1 Hl') as [m' [E' [Hm' L']]]. exists m'. cbn [run_ops]. rewrite E.
      split; [exact E'|]. split; [exact Hm'|]. intros s' Hs'. rewrite (L' s' Hs'), (L s' Hs'). cbn [value_after]. destruct (same s' s); reflexivity.
    + destruct (unset_lookup s m Ho Hm) as [m1 [E [Hm1 [L _]]]]. destruct (IH m1 Hm1 Hl') as [m' [E' [Hm' L']]]. exists m'. cbn [run_ops]. rewrite E.
      split; [exact E'|]. split; [exact Hm'|]. intros s' Hs'. rewrite (L' s' Hs'), (L s' Hs'). cbn [value_after]. destruct (same s' s); reflexivity.
Qed.
Theorem C32_sequences pa l fallback : Forall (fun o => job_setting (op_setting o)) l ->
  Forall (fun o => match o with Set_ s v => has_type (s_type s) v = true | Unset _ => True end) l ->
  exists m', run_ops l [] = Ok m' /\ wf_job m' /\
  forall s, job_setting s -> (forall o, In o l -> same s (op_setting o) = true -> s_type (op_setting o) = s_type s) ->
    setting_isSet s m' = Ok (match value_after l s None with Some _ => true | None => false end)
    /\ setting_get pa s m' fallback = match value_after l s None with Some v => Ok v | None => default_of pa s fallback end.
Proof.
  intros Hl Ht. assert (Hm : wf_job []) by (split; [exact I|discriminate]). destruct (run_ops_lookup l [] Hm Hl) as [m' [E [Hm' L]]]. exists m'. split; [exact E|].
  split; [exact Hm'|]. intros s Hs Hty. specialize (L s Hs). rewrite (isSet_lookup s m' Hs Hm'), (get_lookup pa s m' fallback Hs Hm').
  replace (option_map snd (lookup s [])) with (@None ipp_value) in L by (unfold lookup; destruct (String.eqb (s_sub s) ""); reflexivity).
  assert (T : forall x, (forall v, x = Some v -> has_type (s_type s) v = true) -> forall v, value_after l s x = Some v -> has_type (s_type s) v = true).
  { clear -Ht Hty. induction l as [|o l IH]; intros x Hx v; [apply Hx|]. inversion_clear Ht as [|? ? Ho Ht'].
    destruct o as [s' v'|s']; cbn [value_after]; apply IH; try exact Ht'; try (intros o Hin; apply Hty; right; exact Hin).
    - intros w. destruct (same s s') eqn:E; [|apply Hx]. intros Hw. injection Hw as <-. rewrite <- (Hty (Set_ s' v') (or_introl eq_refl) E). exact Ho.
    - intros w. destruct (same s s'); [discriminate|apply Hx]. }
  specialize (T None ltac:(discriminate)).
  destruct (lookup s m') as [[t v]|]; cbn [option_map snd] in L; destruct (value_after l s None) as [w|] eqn:W; try discriminate.
  - injection L as ->. split; [reflexivity|]. unfold get_as. cbn [snd]. rewrite (T w eq_refl). reflexivity.
  - split; reflexivity.
Qed.
(** The settings of a job are such settings, and are distinct. *)
Theorem C32_job_settings s s' : In s job_settings -> In s' job_settings -> job_setting s /\ (same s s' = true -> s = s').
Proof.
  assert (H1 : Forall job_setting job_settings).
  { unfold job_settings. repeat (apply Forall_cons; [first [right; reflexivity|left; split; [reflexivity|discriminate]]|]). apply Forall_nil. }
  assert (H2 : forallb (fun s => forallb (fun s' => implb (same s s') (Z.eqb (s_tag s) (s_tag s') &&
                 match s_type s, s_type s' with TStr, TStr | TInt, TInt | TRes, TRes | TSet, TSet => true | _, _ => false end)) job_settings) job_settings = true) by (vm_compute; reflexivity).
  rewrite Forall_forall in H1. intros Hs Hs'. split; [apply H1; exact Hs|]. intros E. rewrite forallb_forall in H2. specialize (H2 s Hs). rewrite forallb_forall in H2.
  specialize (H2 s' Hs'). rewrite E in H2. cbn [implb] in H2. unfold same in E. apply andb_prop in E as [E1 E2]. apply String.eqb_eq in E1. apply String.eqb_eq in E2.
  apply andb_prop in H2 as [H2 H3]. apply Z.eqb_eq in H2. destruct s as [a b c d], s' as [a' b' c' d']. cbn in *. subst.
  destruct a, a'; try discriminate H3; reflexivity.
Qed.
(** Every setting of a job has a place of its own. *)
Theorem C32_distinct : NoDup (map (fun s => (s_sub s, s_name s)) (job_settings ++ op_settings)) /\ length (job_settings ++ op_settings) = 20%nat.
Proof.
  split; [|reflexivity]. apply NoDup_nth with (d := (""%string, ""%string)). intros i j Hi Hj E.
  assert (K : forallb (fun i => forallb (fun j => implb (let a := nth i (map (fun s => (s_sub s, s_name s)) (job_settings ++ op_settings)) (""%string, ""%string) in
      let b := nth j (map (fun s => (s_sub s, s_name s)) (job_settings ++ op_settings)) (""%string, ""%string) in String.eqb (fst a) (fst b) && String.eqb (snd a) (snd b)) (Nat.eqb i j)) (seq 0 20)) (seq 0 20) = true) by (vm_compute; reflexivity).
  change (length (map (fun s => (s_sub s, s_name s)) (job_settings ++ op_settings))) with 20%nat in Hi, Hj.
  rewrite forallb_forall in K. specialize (K i). rewrite in_seq in K. specialize (K (conj (Nat.le_0_l i) Hi)). cbv beta in K. rewrite forallb_forall in K. specialize (K j). rewrite in_seq in K. specialize (K (conj (Nat.le_0_l j) Hj)).
  cbv beta zeta in K. rewrite E, !String.eqb_refl in K. cbn [andb implb] in K. apply Nat.eqb_eq. exact K.
Qed.

(** ** C33 *)
(** Unsetting the last member removes media-col. *)
Theorem C33_last_member s m a : s_sub s = "media-col"%string -> wf_job m -> map_get "media-col" m = Some (tBeginCollection, VColl [(s_name s, a)]) ->
  exists m', setting_unset s m = Ok m' /\ map_get "media-col" m' = None /\ forall k, k <> "media-col"%string -> map_get k m' = map_get k m.
Proof.
  intros Hs [Hk Hc] E. exists (map_erase "media-col" m). unfold setting_unset, sub_coll. rewrite Hs, E. cbn [String.eqb Ascii.eqb Bool.eqb snd get_coll bind map_erase].
  rewrite String.eqb_refl. split; [reflexivity|]. rewrite map_get_erase, String.eqb_refl by exact Hk. split; [reflexivity|].
  intros k K. rewrite map_get_erase by exact Hk. rewrite eqb_ne by exact K. reflexivity.
Qed.
(** set followed by unset of a setting that was not set restores the attributes. *)
Lemma erase_set {A} k (v : A) m : sorted_keys m -> map_get k m = None -> map_erase k (map_set k v m) = m.
Proof.
  intros Hs Hn. apply map_ext; [apply erase_sorted, set_sorted; exact Hs|exact Hs|]. intros k'. rewrite map_get_erase, map_get_set by (try apply set_sorted; exact Hs).
  destruct (String.eqb_spec k' k) as [->|]; [symmetry; exact Hn|reflexivity].
Qed.
Theorem C33_set_unset s v m : job_setting s -> wf_job m -> setting_isSet s m = Ok false ->
  exists m1, setting_set s v m = Ok m1 /\ setting_unset s m1 = Ok m.
Proof.
  intros Hs Hm Hn. rewrite (isSet_lookup s m Hs Hm) in Hn. pose proof Hm as [Hk Hc]. destruct Hs as [[H1 H2]|H1].
  - exists (map_set (s_name s) (s_tag s, v) m). unfold setting_set, setting_unset. rewrite H1. cbn [String.eqb]. split; [reflexivity|]. f_equal. apply erase_set; [exact Hk|].
    unfold lookup in Hn. rewrite H1 in Hn. cbn [String.eqb] in Hn. destruct (map_get (s_name s) m); [discriminate|reflexivity].
  - destruct (wf_col m Hm) as [c [C1 [C2 C3]]]. destruct (C2 s H1) as [E L]. rewrite L in Hn.
    assert (N : map_get (s_name s) c = None) by (destruct (map_get (s_name s) c); [discriminate|reflexivity]).
    set (m1 := map_set "media-col" (tBeginCollection, VColl (map_set (s_name s) (s_tag s, v) c)) m). exists m1. unfold setting_set. rewrite E, H1.
    cbn [String.eqb Ascii.eqb Bool.eqb bind]. split; [reflexivity|]. unfold setting_unset, sub_coll. rewrite H1. cbn [String.eqb Ascii.eqb Bool.eqb].
    assert (G : map_get "media-col" m1 = Some (tBeginCollection, VColl (map_set (s_name s) (s_tag s, v) c))) by (unfold m1; rewrite map_get_set by exact Hk; reflexivity).
    replace (@map_get ipp_attr "media-col" m1) with (Some (tBeginCollection, VColl (map_set (s_name s) (s_tag s, v) c)) : option ipp_attr) by (symmetry; exact G). cbn [snd get_coll bind]. unfold ipp_attr in *. rewrite (erase_set (s_name s) (s_tag s, v) c C1 N). destruct C3 as [[C3 C4]|[C3 ->]].
    + destruct c as [|e c]; [congruence|]. f_equal. apply map_ext; [apply set_sorted, set_sorted; exact Hk|exact Hk|].
      intros k. unfold m1. rewrite !map_get_set by (try apply set_sorted; exact Hk). destruct (String.eqb_spec k "media-col") as [->|]; [symmetry; exact C3|reflexivity].
    + f_equal. unfold m1. apply erase_set; [exact Hk|exact C3].
Qed.
(** Along any sequence of operations media-col is absent or has members. *)
Theorem C33_no_empty_collection l m : wf_job m -> Forall (fun o => job_setting (op_setting o)) l ->
  exists m', run_ops l m = Ok m' /\ map_get "media-col" m' <> Some (tBeginCollection, VColl []).
Proof.
  intros Hm Hl. destruct (run_ops_lookup l m Hm Hl) as [m' [E [[_ Hc] _]]]. exists m'. split; [exact E|]. intros F. destruct (Hc _ F) as [c [Ec [_ Hn]]].
  injection Ec as <-. congruence.
Qed.

Example C32_example : exists m, run_ops [Set_ s_mediaType (VStr "stationery"); Set_ s_copies (VInt 3); Set_ s_topMargin (VInt 200); Unset s_mediaType; Set_ s_copies (VInt 5)] [] = Ok m
  /\ m = [("copies", (tInteger, VInt 5)); ("media-col", (tBeginCollection, VColl [("media-top-margin", (tInteger, VInt 200))]))]%string
  /\ wf_job m /\ setting_isSet s_mediaType m = Ok false.
Proof.
  eexists. split; [reflexivity|]. split; [reflexivity|]. split; [|reflexivity]. split; [repeat constructor|]. intros a H. injection H as <-.
  eexists. split; [reflexivity|]. split; [repeat constructor|discriminate].
Qed.
Example C33_example : let m := [("copies", (tInteger, VInt 5)); ("media-col", (tBeginCollection, VColl [("media-top-margin", (tInteger, VInt 200))]))]%string in
  setting_unset s_topMargin m = Ok [("copies", (tInteger, VInt 5))]%string.
Proof. reflexivity. Qed.

Print Assumptions C32_set.
Print Assumptions C32_unset.
Print Assumptions C32_sequences.
Print Assumptions C32_job_settings.
Print Assumptions C32_distinct.
Print Assumptions C33_last_member.
Print Assumptions C33_set_unset.
Print Assumptions C33_no_empty_collection.
