(** Encoding: the model of IppMsg::encode writes the items of RFC 8010. *)
From Verif Require Import Base BaseLemmas MapModel MapProofs IppModel IppSpec.
From Coq Require Import Lia ZifyBool ZifyNat Permutation.
Local Open Scope Z_scope.

Lemma bind_ok {A B} (x : outcome A) (f : A -> outcome B) b : bind x f = Ok b -> exists a, x = Ok a /\ f a = Ok b.
Proof. destruct x; cbn; try discriminate. eauto. Qed.
Ltac bok H := let a := fresh "x" in let H1 := fresh H in let H2 := fresh H in apply bind_ok in H; destruct H as [a [H1 H2]].

Tactic Notation "bind_inv" hyp(H) "as" ident(x) ident(H1) ident(H2) := apply bind_ok in H; destruct H as [x [H1 H2]].

(** induction on values, through the elements of sets and the members of collections *)
Section Ind.
Variable P : ipp_value -> Prop.
Hypothesis Hsc : forall v, (forall l, v <> VSet l) -> (forall m, v <> VColl m) -> P v.
Hypothesis Hset : forall l, Forall P l -> P (VSet l).
Hypothesis Hcoll : forall m, Forall (fun e => P (snd (snd e))) m -> P (VColl m).
Fixpoint value_ind2 (v : ipp_value) : P v.
Proof.
  destruct v as [s|z|b|lo hi|x y u|d|l|m].
  1-6: apply Hsc; intros; discriminate.
  - apply Hset. induction l as [|v l IH]; constructor; [apply value_ind2|exact IH].
  - apply Hcoll. induction m as [|e m IH]; constructor; [apply value_ind2|exact IH].
Defined.
End Ind.

(** the members of a collection: encodeAttribute with subCollection *)
Fixpoint encodeMembers (m : list (string * ipp_attr)) : outcome (list byte) :=
  match m with
  | [] => Ok []
  | (name, a) :: m' =>
      let! val := encodeValues a in
      let! rest := encodeMembers m' in
      Ok (enc_u8 tMemberName ++ be16 0 ++ enc_str name ++ enc_u8 (fst a) ++ be16 0 ++ val ++ rest)
  end.
Lemma encodeValue_coll m :
  encodeValue 0x34 (VColl m) =
  let! body := encodeMembers m in Ok (be16 0 ++ body ++ enc_u8 tEndCollection ++ be16 0 ++ be16 0).
Proof.
  unfold encodeValue. cbn -[be16 enc_u8 app]. fold encodeValue. f_equal.
  induction m as [|[name [t w]] m IH]; [reflexivity|]. cbn [encodeMembers fst].
  rewrite <- IH. unfold encodeValues; cbn [fst snd].
  destruct w as [s|z|b|lo hi|x y u|d|l|m']; try reflexivity.
Qed.

(** which tags encodeValue accepts, and with which alternative *)
Lemma encodeValue_tag t v b : encodeValue t v = Ok b ->
  match v with
  | VStr s => In t str_tags /\ b = enc_str s
  | VInt z => (t = 0x21 \/ t = 0x23) /\ b = be16 4 ++ be32 z
  | VBool c => t = 0x22 /\ b = be16 1 ++ enc_u8 (if c then 1 else 0)
  | VRange lo hi => t = 0x33 /\ b = be16 8 ++ be32 lo ++ be32 hi
  | VRes x y u => t = 0x32 /\ b = be16 9 ++ be32 x ++ be32 y ++ enc_u8 u
  | VDate d => t = 0x31 /\ b = enc_date d
  | VSet _ => False
  | VColl m => t = 0x34
  end.
Proof.
  destruct v; cbn [encodeValue];
  repeat (match goal with |- context [if ?c then _ else _] => lazymatch c with string_tag _ => fail | _ => destruct c eqn:? end end);
  try discriminate; intros H; try (injection H as <-).
  all: repeat match goal with H : (_ || _)%bool = true |- _ => apply orb_prop in H end.
  all: try match goal with H : (_ =? _) = true |- _ => apply Z.eqb_eq in H end.
  all: try (destruct (string_tag t) eqn:Hst; try discriminate; try (injection H as <-)).
  all: try (split; [|reflexivity]).
  all: try match goal with H : _ \/ _ |- _ => destruct H as [E|E]; apply Z.eqb_eq in E; auto end.
  all: try assumption.
  unfold string_tag in Hst. apply existsb_exists in Hst. destruct Hst as [x [Hx E]].
  apply Z.eqb_eq in E. subst. exact Hx.
Qed.

Lemma str_tags_range t : In t str_tags -> 0x30 <= t <= 0x49 /\ t <> 0x31 /\ t <> 0x32 /\ t <> 0x33 /\ t <> 0x34 /\ t <> 0x37.
Proof. unfold str_tags. cbn. lia. Qed.

Lemma blen_string s : blen (bytes_of_string s) = Z.of_nat (String.length s).
Proof. unfold blen. rewrite bytes_of_string_length. reflexivity. Qed.

Definition hdr (t : Z) (name : string) : list byte := enc_u8 t ++ enc_str name.
Lemma item_bytes_eq t name v : item_bytes (mkItem t (bytes_of_string name) v) = hdr t name ++ be16 (blen v) ++ v.
Proof.
  unfold item_bytes, hdr, enc_str, enc_u8. cbn [i_tag i_name i_value]. rewrite blen_string.
  rewrite <- !app_assoc. reflexivity.
Qed.

Lemma flat_map_app {A B} (f : A -> list B) l l' : flat_map f (l ++ l') = flat_map f l ++ flat_map f l'.
Proof. apply flat_map_app. Qed.

(** every value that encodeValue accepts is written as its items *)
Definition enc_P (v : ipp_value) : Prop :=
  (forall t b name, encodeValue t v = Ok b -> hdr t name ++ b = flat_map item_bytes (attr_items name t v)) /\
  (forall t b name, encodeValues (t, v) = Ok b -> hdr t name ++ b = flat_map item_bytes (attr_items name t v)).
Lemma encodeMore_items t l : Forall enc_P l -> forall b, encodeMoreWith (encodeValue t) t l = Ok b ->
  b = flat_map item_bytes (flat_map (attr_items "" t) l).
Proof.
  induction 1 as [|w l Hw Hl IH]; intros b H; cbn [encodeMoreWith] in H.
  - injection H as <-. reflexivity.
  - bok H. bok H1. injection H3 as <-. cbn [flat_map]. rewrite flat_map_app.
    rewrite <- (IH _ H2). rewrite <- (proj1 Hw t x ""%string H0). unfold hdr, enc_str. cbn [String.length bytes_of_string list_ascii_of_string].
    rewrite <- !app_assoc. reflexivity.
Qed.
Lemma encodeMembers_items m : Forall (fun e => enc_P (snd (snd e))) m -> forall b, encodeMembers m = Ok b ->
  b = flat_map item_bytes (flat_map (fun e => mkItem 0x4A [] (bytes_of_string (fst e))
                            :: attr_items "" (fst (snd e)) (snd (snd e))) m).
Proof.
  induction 1 as [|[name [t w]] m Hw Hl IH]; intros b H; cbn [encodeMembers] in H.
  - injection H as <-. reflexivity.
  - bok H. bok H1. injection H3 as <-. cbn [flat_map fst snd app]. rewrite flat_map_app.
    rewrite <- (IH _ H2). cbn [fst snd] in Hw. rewrite <- (proj2 Hw t x ""%string H0).
    change (@nil byte) with (bytes_of_string ""). rewrite item_bytes_eq. rewrite blen_string.
    unfold hdr, enc_str. cbn [String.length bytes_of_string list_ascii_of_string]. fold (bytes_of_string name). rewrite <- !app_assoc. reflexivity.
Qed.
Lemma enc_all v : enc_P v.
Proof.
  induction v as [v Hs Hc|l IH|m IH] using value_ind2.
  - assert (H : forall t b name, encodeValue t v = Ok b -> hdr t name ++ b = flat_map item_bytes (attr_items name t v)).
    { intros t b name H. apply encodeValue_tag in H.
      destruct v as [s|z|c|lo hi|x y u|d|l|m]; try (exfalso; eapply Hs; reflexivity); try (exfalso; eapply Hc; reflexivity);
      destruct H as [_ ->]; cbn [attr_items flat_map]; rewrite app_nil_r, item_bytes_eq; try reflexivity.
      cbn [scalar_bytes]. rewrite blen_string. reflexivity. }
    split; [exact H|]. intros t b name E. apply H. destruct v; try exact E. exfalso; eapply Hs; reflexivity.
  - split.
    + intros t b name H. apply encodeValue_tag in H. destruct H.
    + intros t b name H. unfold encodeValues in H. cbn [fst snd] in H. destruct l as [|w l]; [discriminate|].
      bok H. bok H1. injection H3 as <-. cbn [attr_items]. rewrite flat_map_app.
      inversion IH as [|? ? Hw Hl]; subst. rewrite <- (proj1 Hw _ _ name H0). rewrite <- (encodeMore_items t l Hl _ H2).
      apply app_assoc.
  - assert (H : forall t b name, encodeValue t (VColl m) = Ok b -> hdr t name ++ b = flat_map item_bytes (attr_items name t (VColl m))).
    { intros t b name H. pose proof (encodeValue_tag _ _ _ H) as E. cbn in E. subst t. rewrite encodeValue_coll in H.
      bok H. injection H1 as <-. cbn [attr_items flat_map]. rewrite flat_map_app. rewrite <- (encodeMembers_items m IH _ H0).
      rewrite item_bytes_eq. rewrite <- !app_assoc. reflexivity. }
    split; [exact H|]. intros t b name E. apply H. exact E.
Qed.
Lemma encodeAttribute_items name a b : encodeAttribute name a = Ok b ->
  b = flat_map item_bytes (attr_items name (fst a) (snd a)).
Proof.
  unfold encodeAttribute. intros H. bok H. injection H1 as <-. destruct a as [t v]. cbn [fst snd].
  change (hdr t name ++ x = flat_map item_bytes (attr_items name t v)). apply (proj2 (enc_all v) t x name H0).
Qed.
Lemma encodeAttributes_items m : forall b, encodeAttributes m = Ok b -> b = group_bytes m.
Proof.
  induction m as [|[name a] m IH]; intros b H; cbn [encodeAttributes] in H; [injection H as <-; reflexivity|].
  bok H. bok H1. injection H3 as <-. unfold group_bytes, group_items. cbn [flat_map fst snd]. rewrite flat_map_app.
  rewrite (encodeAttribute_items _ _ _ H0). rewrite (IH _ H2). reflexivity.
Qed.

(** ** the order of the operation attributes *)
Fixpoint initial_order (keys : list string) (m : ipp_attrs) : list (string * ipp_attr) :=
  match keys with
  | [] => m
  | k :: keys' => match map_get k m with Some v => (k, v) :: initial_order keys' (map_erase k m) | None => initial_order keys' m end
  end.
Definition op_order (m : ipp_attrs) : list (string * ipp_attr) := initial_order InitialAttrs m.
Lemma encodeInitial_items keys : forall m x b, encodeInitial keys m = Ok x -> encodeAttributes (snd x) = Ok b ->
  fst x ++ b = group_bytes (initial_order keys m).
Proof.
  induction keys as [|k keys IH]; intros m x b H Hb; cbn [encodeInitial initial_order] in *.
  - injection H as <-. cbn [fst snd app] in *. apply encodeAttributes_items. exact Hb.
  - destruct (map_get k m) as [v|]; [|apply IH; assumption].
    bok H. bok H1. injection H3 as <-. cbn [fst snd] in *. rewrite <- app_assoc. rewrite (IH _ _ _ H2 Hb).
    unfold group_bytes, group_items. cbn [flat_map fst snd]. rewrite flat_map_app.
    rewrite (encodeAttribute_items _ _ _ H0). reflexivity.
Qed.
Lemma initial_order_perm keys : forall m, sorted_keys m -> Permutation (initial_order keys m) m.
Proof.
  induction keys as [|k keys IH]; intros m Hs; cbn [initial_order]; [apply Permutation_refl|].
  destruct (map_get k m) as [v|] eqn:E; [|apply IH; exact Hs].
  apply Permutation_sym. eapply perm_trans; [apply erase_permutation; eassumption|]. apply perm_skip.
  apply Permutation_sym. apply IH. apply erase_sorted. exact Hs.
Qed.
Lemma op_order_perm m : sorted_keys m -> Permutation (op_order m) m.
Proof. apply initial_order_perm. Qed.

Lemma encodeJobGroups_items l : forall b, encodeJobGroups l = Ok b ->
  b = flat_map (fun g => bZ 2 :: group_bytes g) (filter nonempty l).
Proof.
  induction l as [|g l IH]; intros b H; cbn [encodeJobGroups] in H; [injection H as <-; reflexivity|].
  bind_inv H as x Hx K. bind_inv K as y Hy K2. injection K2 as <-. cbn [filter]. rewrite (IH _ Hy). destruct g as [|e g].
  - injection Hx as <-. reflexivity.
  - cbn [nonempty flat_map]. bind_inv Hx as z Hz K. injection K as <-. rewrite (encodeAttributes_items _ _ Hz). reflexivity.
Qed.
Lemma encodeMsg_bytes id m b : fst (encodeMsg id m) = Ok b -> b = msg_bytes id m (op_order (m_opAttrs m)).
Proof.
  unfold encodeMsg. cbn [fst]. intros H. bind_inv H as x Hx K. bind_inv K as y Hy K. bind_inv K as z Hz K. bind_inv K as w Hw K. injection K as <-.
  unfold msg_bytes. rewrite (encodeJobGroups_items _ _ Hz). unfold op_order. rewrite <- (encodeInitial_items _ _ _ _ Hx Hy).
  assert (E : w = flat_map (fun g => bZ 4 :: group_bytes g) (filter nonempty [m_printerAttrs m])).
  { destruct (m_printerAttrs m) as [|e g]; [injection Hw as <-; reflexivity|]. bind_inv Hw as v Hv K. injection K as <-.
    cbn [nonempty filter flat_map]. rewrite app_nil_r. rewrite (encodeAttributes_items _ _ Hv). reflexivity. }
  rewrite E. unfold enc_u8. rewrite <- !app_assoc. reflexivity.
Qed.

(** ** Lengths *)
Definition fit_P (v : ipp_value) : Prop :=
  lengths_ok v = true ->
  (forall t b name, str_ok name = true -> encodeValue t v = Ok b -> Forall item_fits (attr_items name t v)) /\
  (forall t b name, str_ok name = true -> encodeValues (t, v) = Ok b -> Forall item_fits (attr_items name t v)).
Lemma str_ok_blen s : str_ok s = true -> blen (bytes_of_string s) < 65536.
Proof. rewrite blen_string. unfold str_ok. lia. Qed.
Lemma encodeMore_fits t l : Forall fit_P l -> forallb lengths_ok l = true ->
  forall b, encodeMoreWith (encodeValue t) t l = Ok b -> Forall item_fits (flat_map (attr_items "" t) l).
Proof.
  induction 1 as [|w l Hw Hl IH]; intros Hf b H; cbn [encodeMoreWith] in H; [constructor|].
  cbn [forallb] in Hf. apply andb_prop in Hf as [Hf1 Hf2]. bind_inv H as x Hx K. bind_inv K as y Hy K. cbn [flat_map].
  apply Forall_app. split; [|eapply IH; eassumption]. eapply (proj1 (Hw Hf1)); [reflexivity|eassumption].
Qed.
Lemma encodeMembers_fits m : Forall (fun e => fit_P (snd (snd e))) m ->
  forallb (fun e => str_ok (fst e) && lengths_ok (snd (snd e))) m = true -> forall b, encodeMembers m = Ok b ->
  Forall item_fits (flat_map (fun e => mkItem 0x4A [] (bytes_of_string (fst e))
                            :: attr_items "" (fst (snd e)) (snd (snd e))) m).
Proof.
  induction 1 as [|[name [t w]] m Hw Hl IH]; intros Hf b H; cbn [encodeMembers] in H; [constructor|].
  cbn [forallb fst snd] in Hf. apply andb_prop in Hf as [Hf1 Hf2]. apply andb_prop in Hf1 as [Hf0 Hf1].
  bind_inv H as x Hx K. bind_inv K as y Hy K. cbn [flat_map fst snd app]. constructor.
  - unfold item_fits. cbn [i_tag i_name i_value]. pose proof (str_ok_blen _ Hf0). cbn. lia.
  - apply Forall_app. split; [|eapply IH; eassumption]. eapply (proj2 (Hw Hf1)); [reflexivity|eassumption].
Qed.
Lemma fit_all v : fit_P v.
Proof.
  induction v as [v Hs Hc|l IH|m IH] using value_ind2; intros Hl.
  - assert (H : forall t b name, str_ok name = true -> encodeValue t v = Ok b -> Forall item_fits (attr_items name t v)).
    { intros t b name Hn H. apply encodeValue_tag in H. pose proof (str_ok_blen _ Hn).
      assert (Ht : 0 <= t < 256 /\ blen (scalar_bytes v) < 65536).
      { destruct v; try (exfalso; eapply Hs; reflexivity); try (exfalso; eapply Hc; reflexivity); destruct H as [H _];
        try (cbn; lia). apply str_tags_range in H. cbn [lengths_ok] in Hl. pose proof (str_ok_blen _ Hl). cbn [scalar_bytes]. lia. }
      destruct v; try (exfalso; eapply Hs; reflexivity); try (exfalso; eapply Hc; reflexivity);
      (constructor; [|constructor]); unfold item_fits; cbn [i_tag i_name i_value]; tauto. }
    split; [exact H|]. intros t b name Hn E. apply H with b; [exact Hn|]. destruct v; try exact E. exfalso; eapply Hs; reflexivity.
  - split.
    + intros t b name _ H. apply encodeValue_tag in H. destruct H.
    + intros t b name Hn H. unfold encodeValues in H. cbn [fst snd] in H. destruct l as [|w l]; [discriminate|].
      bind_inv H as x Hx K. bind_inv K as y Hy K. cbn [lengths_ok forallb] in Hl. apply andb_prop in Hl as [Hl1 Hl2].
      inversion IH as [|? ? Hw Hr]; subst. cbn [attr_items]. apply Forall_app. split.
      * eapply (proj1 (Hw Hl1)); eassumption.
      * eapply encodeMore_fits; eassumption.
  - assert (H : forall t b name, str_ok name = true -> encodeValue t (VColl m) = Ok b -> Forall item_fits (attr_items name t (VColl m))).
    { intros t b name Hn H. pose proof (encodeValue_tag _ _ _ H) as E. cbn in E. subst t. rewrite encodeValue_coll in H.
      bind_inv H as x Hx K. cbn [attr_items]. pose proof (str_ok_blen _ Hn). constructor.
      - unfold item_fits. cbn [i_tag i_name i_value]. cbn. lia.
      - apply Forall_app. split; [eapply encodeMembers_fits; eassumption|]. constructor; [|constructor]. cbv. intuition congruence. }
    split; [exact H|]. intros t b name Hn E. eapply H; eassumption.
Qed.
Lemma encodeAttribute_fits name a b : str_ok name = true -> lengths_ok (snd a) = true -> encodeAttribute name a = Ok b ->
  Forall item_fits (attr_items name (fst a) (snd a)).
Proof.
  unfold encodeAttribute. intros Hn Hl H. bind_inv H as x Hx K. destruct a as [t v]. eapply (proj2 (fit_all v Hl)); eassumption.
Qed.
Lemma encodeAttributes_fits m : attrs_lengths_ok m = true -> forall b, encodeAttributes m = Ok b -> Forall item_fits (group_items m).
Proof.
  induction m as [|[name a] m IH]; intros Hl b H; cbn [encodeAttributes] in H; [constructor|].
  cbn [attrs_lengths_ok forallb fst snd] in Hl. apply andb_prop in Hl as [Hl1 Hl2]. apply andb_prop in Hl1 as [Hl0 Hl1].
  bind_inv H as x Hx K. bind_inv K as y Hy K. unfold group_items. cbn [flat_map fst snd]. apply Forall_app. split.
  - eapply encodeAttribute_fits; eassumption.
  - eapply IH; eassumption.
Qed.
Lemma forallb_In {A} (f : A -> bool) l x : forallb f l = true -> In x l -> f x = true.
Proof. intros H. apply forallb_forall. exact H. Qed.
Lemma erase_lengths k m : attrs_lengths_ok m = true -> attrs_lengths_ok (map_erase k m) = true.
Proof.
  unfold attrs_lengths_ok. intros H. apply forallb_forall. intros e He. apply erase_keys in He.
  apply (forallb_In _ _ _ H He).
Qed.
Lemma encodeInitial_fits keys : (forall k, In k keys -> str_ok k = true) -> forall m x b, attrs_lengths_ok m = true ->
  encodeInitial keys m = Ok x -> encodeAttributes (snd x) = Ok b -> Forall item_fits (group_items (initial_order keys m)).
Proof.
  induction keys as [|k keys IH]; intros Hk m x b Hl H Hb; cbn [encodeInitial initial_order] in *.
  - injection H as <-. cbn [fst snd] in *. eapply encodeAttributes_fits; eassumption.
  - destruct (map_get k m) as [v|] eqn:E; [|apply (IH (fun k' Hk' => Hk k' (or_intror Hk')) m x b Hl H Hb)].
    bind_inv H as y Hy K. bind_inv K as z Hz K. injection K as <-. cbn [snd] in Hb.
    unfold group_items. cbn [flat_map fst snd]. apply Forall_app. split.
    + eapply encodeAttribute_fits; [apply Hk; left; reflexivity| |eassumption].
      apply map_get_In in E. apply (forallb_In _ _ _ Hl) in E. cbn [fst snd] in E. apply andb_prop in E. tauto.
    + eapply IH; [intros; apply Hk; right; assumption|apply erase_lengths; exact Hl|eassumption|eassumption].
Qed.

(** every item of the message: the operation, job and printer attributes *)
Definition msg_items (m : ipp_msg) (ops : list (string * ipp_attr)) : list item :=
  group_items ops ++ flat_map group_items (m_jobAttrs m) ++ group_items (m_printerAttrs m).
Lemma encodeMsg_fits id m b : msg_lengths_ok m = true -> fst (encodeMsg id m) = Ok b ->
  Forall item_fits (msg_items m (op_order (m_opAttrs m))).
Proof.
  unfold encodeMsg, msg_lengths_ok. cbn [fst]. intros Hl H. apply andb_prop in Hl as [Hl Hl3]. apply andb_prop in Hl as [Hl1 Hl2].
  bind_inv H as x Hx K. bind_inv K as y Hy K. bind_inv K as z Hz K. bind_inv K as w Hw K. injection K as <-.
  unfold msg_items. apply Forall_app. split; [|apply Forall_app; split].
  - eapply encodeInitial_fits; [|exact Hl1|exact Hx|exact Hy]. intros k Hk. cbn in Hk.
    repeat (destruct Hk as [<-|Hk]; [reflexivity|]). destruct Hk.
  - clear - Hl2 Hz. revert z Hz. induction (m_jobAttrs m) as [|g l IH]; intros z Hz; [constructor|].
    cbn [forallb] in Hl2. apply andb_prop in Hl2 as [Hg Hl]. cbn [encodeJobGroups] in Hz. bind_inv Hz as p Hp K. bind_inv K as q Hq K.
    cbn [flat_map]. apply Forall_app. split; [|eapply IH; eassumption]. destruct g as [|e g]; [constructor|].
    bind_inv Hp as o Ho K2. eapply encodeAttributes_fits; eassumption.
  - destruct (m_printerAttrs m) as [|e g]; [constructor|]. bind_inv Hw as o Ho K. eapply encodeAttributes_fits; eassumption.
Qed.

(** encoding ends with a result or an exception *)
Definition plain {A} (x : outcome A) : Prop := match x with Ok _ | Throw _ => True | _ => False end.
Lemma plain_bind {A B} (x : outcome A) (f : A -> outcome B) : plain x -> (forall a, x = Ok a -> plain (f a)) -> plain (bind x f).
Proof. destruct x; cbn; auto. Qed.
Definition plain_P (v : ipp_value) : Prop := (forall t, plain (encodeValue t v)) /\ (forall t, plain (encodeValues (t, v))).
Lemma encodeMore_plain t l : Forall plain_P l -> plain (encodeMoreWith (encodeValue t) t l).
Proof.
  induction 1 as [|w l Hw Hl IH]; [exact I|]. cbn [encodeMoreWith]. apply plain_bind; [apply Hw|]. intros.
  apply plain_bind; [exact IH|]. intros. exact I.
Qed.
Lemma encodeMembers_plain m : Forall (fun e => plain_P (snd (snd e))) m -> plain (encodeMembers m).
Proof.
  induction 1 as [|[n [t w]] l Hw Hl IH]; [exact I|]. cbn [encodeMembers]. apply plain_bind; [apply Hw|]. intros.
  apply plain_bind; [exact IH|]. intros. exact I.
Qed.
Lemma encodeValue_scalar_plain t v : (forall m, v <> VColl m) -> plain (encodeValue t v).
Proof.
  intros Hc. destruct v; try (exfalso; eapply Hc; reflexivity); cbn [encodeValue];
  repeat (match goal with |- context [if ?c then _ else _] => destruct c end); exact I.
Qed.
Lemma encodeValue_coll_other t m : t <> 0x34 -> plain (encodeValue t (VColl m)).
Proof.
  intros H. cbn [encodeValue]. replace (t =? tBeginCollection) with false by (unfold tBeginCollection; lia).
  repeat (match goal with |- context [if ?c then _ else _] => destruct c end); exact I.
Qed.
Lemma plain_all v : plain_P v.
Proof.
  induction v as [v Hs Hc|l IH|m IH] using value_ind2; split; intros t.
  - apply encodeValue_scalar_plain. exact Hc.
  - assert (E : encodeValues (t, v) = encodeValue t v) by (destruct v; try reflexivity; exfalso; eapply Hs; reflexivity).
    rewrite E. apply encodeValue_scalar_plain. exact Hc.
  - apply encodeValue_scalar_plain. intros; discriminate.
  - unfold encodeValues. cbn [fst snd]. destruct l as [|w l]; [exact I|]. inversion IH; subst.
    apply plain_bind; [apply H1|]. intros. apply plain_bind; [apply encodeMore_plain; assumption|]. intros; exact I.
  - destruct (Z.eq_dec t 0x34) as [->|Ht]; [|apply encodeValue_coll_other; exact Ht]. rewrite encodeValue_coll.
    apply plain_bind; [apply encodeMembers_plain; exact IH|]. intros; exact I.
  - change (encodeValues (t, VColl m)) with (encodeValue t (VColl m)).
    destruct (Z.eq_dec t 0x34) as [->|Ht]; [|apply encodeValue_coll_other; exact Ht]. rewrite encodeValue_coll.
    apply plain_bind; [apply encodeMembers_plain; exact IH|]. intros; exact I.
Qed.
Lemma encodeAttribute_plain n a : plain (encodeAttribute n a).
Proof. unfold encodeAttribute. destruct a as [t v]. apply plain_bind; [apply plain_all|]. intros; exact I. Qed.
Lemma encodeAttributes_plain m : plain (encodeAttributes m).
Proof.
  induction m as [|[n a] m IH]; [exact I|]. cbn [encodeAttributes]. apply plain_bind; [apply encodeAttribute_plain|]. intros.
  apply plain_bind; [exact IH|]. intros; exact I.
Qed.
Lemma encodeInitial_plain keys : forall m, plain (encodeInitial keys m).
Proof.
  induction keys as [|k keys IH]; intros m; [exact I|]. cbn [encodeInitial]. destruct (map_get k m); [|apply IH].
  apply plain_bind; [apply encodeAttribute_plain|]. intros. apply plain_bind; [apply IH|]. intros; exact I.
Qed.
Lemma encodeJobGroups_plain l : plain (encodeJobGroups l).
Proof.
  induction l as [|g l IH]; [exact I|]. cbn [encodeJobGroups]. apply plain_bind.
  - destruct g; [exact I|]. apply plain_bind; [apply encodeAttributes_plain|]. intros; exact I.
  - intros. apply plain_bind; [exact IH|]. intros; exact I.
Qed.
Lemma encodeMsg_plain id m : plain (fst (encodeMsg id m)).
Proof.
  unfold encodeMsg. cbn [fst]. apply plain_bind; [apply encodeInitial_plain|]. intros. apply plain_bind; [apply encodeAttributes_plain|].
  intros. apply plain_bind; [apply encodeJobGroups_plain|]. intros. apply plain_bind; [|intros; exact I].
  destruct (m_printerAttrs m); [exact I|]. apply plain_bind; [apply encodeAttributes_plain|]. intros; exact I.
Qed.

(** ** well-formed messages are encoded *)
Definition wfe_P (v : ipp_value) : Prop :=
  (forall t, wf_val false t v = true -> exists b, encodeValue t v = Ok b) /\
  (forall t, wf_val true t v = true -> exists b, encodeValues (t, v) = Ok b).
Lemma in_str_tags t : existsb (Z.eqb t) str_tags = true -> In t str_tags.
Proof. intros H. apply existsb_exists in H. destruct H as [x [Hx E]]. apply Z.eqb_eq in E. subst. exact Hx. Qed.
Lemma encodeValue_scalar t v : scalar_ok t v = true -> exists b, encodeValue t v = Ok b.
Proof.
  destruct v as [s|z|c|lo hi|x y u|d|l|m]; cbn [scalar_ok]; intros H; try discriminate.
  - apply andb_prop in H as [H _]. apply in_str_tags in H. unfold str_tags in H. cbn [In] in H.
    repeat (destruct H as [<-|H]; [eexists; reflexivity|]). destruct H.
  - apply andb_prop in H as [H _]. apply orb_prop in H as [H|H]; apply Z.eqb_eq in H; subst; eexists; reflexivity.
  - apply Z.eqb_eq in H. subst. eexists; reflexivity.
  - apply andb_prop in H as [H _]. apply andb_prop in H as [H _]. apply Z.eqb_eq in H. subst. eexists; reflexivity.
  - apply andb_prop in H as [H _]. apply andb_prop in H as [H _]. apply andb_prop in H as [H _]. apply Z.eqb_eq in H. subst. eexists; reflexivity.
  - apply andb_prop in H as [H _]. apply Z.eqb_eq in H. subst. eexists; reflexivity.
Qed.
Lemma wfe_more t l : Forall wfe_P l -> forallb (wf_val false t) l = true -> exists b, encodeMoreWith (encodeValue t) t l = Ok b.
Proof.
  induction 1 as [|w l Hw Hl IH]; intros H; [eexists; reflexivity|]. cbn [forallb] in H. apply andb_prop in H as [H1 H2].
  destruct (proj1 Hw t H1) as [b Eb]. destruct (IH H2) as [r Er]. cbn [encodeMoreWith]. rewrite Eb. cbn [bind]. rewrite Er.
  eexists; reflexivity.
Qed.
Lemma wfe_members m : Forall (fun e => wfe_P (snd (snd e))) m ->
  forallb (fun e => str_ok (fst e) && wf_val true (fst (snd e)) (snd (snd e))) m = true -> exists b, encodeMembers m = Ok b.
Proof.
  induction 1 as [|[n [t w]] l Hw Hl IH]; intros H; [eexists; reflexivity|]. cbn [forallb fst snd] in H. apply andb_prop in H as [H1 H2].
  apply andb_prop in H1 as [_ H1]. cbn [fst snd] in Hw.
  destruct (proj2 Hw t H1) as [b Eb]. destruct (IH H2) as [r Er]. cbn [encodeMembers]. rewrite Eb. cbn [bind]. rewrite Er.
  eexists; reflexivity.
Qed.
Lemma wfe_all v : wfe_P v.
Proof.
  induction v as [v Hs Hc|l IH|m IH] using value_ind2.
  - assert (H : forall s t, wf_val s t v = true -> exists b, encodeValue t v = Ok b).
    { intros s t H. apply encodeValue_scalar. destruct v; try exact H; exfalso; [eapply Hs|eapply Hc]; reflexivity. }
    split; intros t Ht; [eapply H; exact Ht|]. destruct (H _ _ Ht) as [b Eb]. exists b. destruct v; try exact Eb.
    exfalso; eapply Hs; reflexivity.
  - split; intros t Ht; cbn [wf_val] in Ht; [discriminate|]. apply andb_prop in Ht as [Ht1 Ht2]. unfold encodeValues. cbn [fst snd].
    destruct l as [|w l]; [discriminate|]. cbn [forallb] in Ht2. apply andb_prop in Ht2 as [Hw Hl]. inversion IH; subst.
    destruct (proj1 H1 t Hw) as [b Eb]. destruct (wfe_more t l H2 Hl) as [r Er]. rewrite Eb. cbn [bind]. rewrite Er. eexists; reflexivity.
  - assert (H : forall s t, wf_val s t (VColl m) = true -> exists b, encodeValue t (VColl m) = Ok b).
    { intros s t H. cbn [wf_val] in H. apply andb_prop in H as [H1 H2]. apply andb_prop in H1 as [H0 _]. apply Z.eqb_eq in H0. subst t.
      destruct (wfe_members m IH H2) as [b Eb]. rewrite encodeValue_coll, Eb. eexists; reflexivity. }
    split; intros t Ht; [eapply H; exact Ht|]. destruct (H _ _ Ht) as [b Eb]. exists b. exact Eb.
Qed.
Lemma wfe_attribute n a : wf_attr a = true -> exists b, encodeAttribute n a = Ok b.
Proof.
  intros H. destruct a as [t v]. destruct (proj2 (wfe_all v) t H) as [b Eb]. unfold encodeAttribute. rewrite Eb. eexists; reflexivity.
Qed.
Lemma wfe_attributes (m : ipp_attrs) : Forall (fun e => wf_attr (snd e) = true) m -> exists b, encodeAttributes m = Ok b.
Proof.
  induction 1 as [|[n a] m H Hm IH]; [eexists; reflexivity|]. cbn [encodeAttributes]. destruct (wfe_attribute n a H) as [b Eb].
  destruct IH as [r Er]. rewrite Eb. cbn [bind]. rewrite Er. eexists; reflexivity.
Qed.
Lemma wf_attrs_each m : wf_attrs m = true -> Forall (fun e => wf_attr (snd e) = true) m.
Proof.
  unfold wf_attrs. intros H. apply andb_prop in H as [_ H]. apply Forall_forall. intros e He. apply (forallb_In _ _ _ H) in He.
  apply andb_prop in He. tauto.
Qed.
Lemma wfe_initial keys : forall m : ipp_attrs, Forall (fun e => wf_attr (snd e) = true) m ->
  exists x b, encodeInitial keys m = Ok x /\ encodeAttributes (snd x) = Ok b.
Proof.
  induction keys as [|k keys IH]; intros m H; cbn [encodeInitial].
  - destruct (wfe_attributes m H) as [b Eb]. exists ([], m), b. split; [reflexivity|exact Eb].
  - destruct (map_get k m) as [v|] eqn:E; [|apply IH; exact H].
    assert (Hv : wf_attr v = true). { apply map_get_In in E. rewrite Forall_forall in H. apply (H _ E). }
    destruct (wfe_attribute k v Hv) as [b Eb]. destruct (IH (map_erase k m)) as [x [b' [Ex Eb']]].
    { rewrite Forall_forall in *. intros e He. apply H. eapply erase_keys. exact He. }
    rewrite Eb. cbn [bind]. rewrite Ex. cbn [bind]. eexists. exists b'. split; [reflexivity|]. exact Eb'.
Qed.
Lemma wfe_jobs l : forallb wf_attrs l = true -> exists b, encodeJobGroups l = Ok b.
Proof.
  induction l as [|g l IH]; intros H; [eexists; reflexivity|]. cbn [forallb] in H. apply andb_prop in H as [Hg Hl].
  cbn [encodeJobGroups]. destruct (IH Hl) as [r Er]. destruct (wfe_attributes g (wf_attrs_each g Hg)) as [b Eb]. destruct g as [|e g].
  - cbn [bind]. rewrite Er. eexists; reflexivity.
  - rewrite Eb. cbn [bind]. rewrite Er. eexists; reflexivity.
Qed.
Lemma wfe_msg id m : wf_msg m = true -> exists b, fst (encodeMsg id m) = Ok b.
Proof.
  unfold wf_msg. intros H. apply andb_prop in H as [H Hp]. apply andb_prop in H as [H Hj]. apply andb_prop in H as [_ Ho].
  destruct (wfe_initial InitialAttrs _ (wf_attrs_each _ Ho)) as [x [b [Ex Eb]]]. destruct (wfe_jobs _ Hj) as [j Ej].
  destruct (wfe_attributes _ (wf_attrs_each _ Hp)) as [p Ep].
  unfold encodeMsg. cbn [fst]. rewrite Ex. cbn [bind]. rewrite Eb. cbn [bind]. rewrite Ej. cbn [bind].
  destruct (m_printerAttrs m); [eexists; reflexivity|]. rewrite Ep. eexists; reflexivity.
Qed.

(** ** the rank order *)
Lemma op_rank_le n : (op_rank n <= 5)%nat.
Proof. unfold op_rank. repeat (match goal with |- context [if ?c then _ else _] => destruct c end); lia. Qed.
Lemma op_rank_inj a b : op_rank a = op_rank b -> (op_rank a < 5)%nat -> a = b.
Proof.
  unfold op_rank.
  repeat (match goal with |- context [String.eqb a ?s] => destruct (String.eqb_spec a s) end);
  repeat (match goal with |- context [String.eqb b ?s] => destruct (String.eqb_spec b s) end); intros; subst; try lia; reflexivity.
Qed.
Lemma rank_sorted_all (m : list (string * ipp_attr)) : (forall e, In e m -> (5 <= op_rank (fst e))%nat) -> rank_sorted m.
Proof.
  induction m as [|e m IH]; intros H; [exact I|]. split; [|apply IH; intros; apply H; right; assumption].
  apply Forall_forall. intros e' He. pose proof (H e' (or_intror He)). pose proof (op_rank_le (fst e)). lia.
Qed.
Lemma initial_order_in keys : forall m e, In e (initial_order keys m) -> In e m.
Proof.
  induction keys as [|k keys IH]; intros m e H; [exact H|]. cbn [initial_order] in H. destruct (map_get k m) eqn:E; [|apply IH; exact H].
  destruct H as [<-|H]; [apply map_get_In; exact E|]. apply IH in H. eapply erase_keys. exact H.
Qed.
Lemma initial_order_rank keys : forall r m, map op_rank keys = seq r (length keys) -> (r + length keys = 5)%nat -> sorted_keys m ->
  (forall e, In e m -> (r <= op_rank (fst e))%nat) -> rank_sorted (initial_order keys m).
Proof.
  induction keys as [|k keys IH]; intros r m Hk Hr Hs Hm; cbn [initial_order].
  - apply rank_sorted_all. cbn in Hr. replace r with 5%nat in Hm by lia. exact Hm.
  - cbn [map seq length] in Hk, Hr. injection Hk as Hk1 Hk2.
    assert (Hn : forall m' : ipp_attrs, sorted_keys m' -> map_get k m' = None -> (forall e, In e m' -> (r <= op_rank (fst e))%nat) ->
                 forall e, In e m' -> (S r <= op_rank (fst e))%nat).
    { intros m' Hs' Hg Hm' e He. pose proof (Hm' e He). destruct (Nat.eq_dec (op_rank (fst e)) r) as [E|]; [|lia].
      assert (fst e = k) by (apply op_rank_inj; lia). apply map_get_none in Hg. exfalso. apply Hg. rewrite <- H0. apply in_map. exact He. }
    destruct (map_get k m) as [v|] eqn:E.
    + assert (He : forall e, In e (map_erase k m) -> (S r <= op_rank (fst e))%nat).
      { apply Hn; [apply erase_sorted; exact Hs|rewrite map_get_erase, String.eqb_refl by exact Hs; reflexivity|].
        intros e He. apply Hm. eapply erase_keys. exact He. }
      split; [|apply (IH (S r)); [exact Hk2|lia|apply erase_sorted; exact Hs|exact He]].
      apply Forall_forall. intros e Hin. apply initial_order_in in Hin. apply He in Hin. cbn [fst]. lia.
    + apply (IH (S r)); [exact Hk2|lia|exact Hs|apply Hn; assumption].
Qed.
Lemma op_order_rank m : sorted_keys m -> rank_sorted (op_order m).
Proof. intros Hs. apply (initial_order_rank InitialAttrs 0 m); [reflexivity|reflexivity|exact Hs|intros; lia]. Qed.
