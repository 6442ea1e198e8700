(** C108: set-attrs sends what was typed, as the printer types it.  C109: texts with a
    language. *)
From Verif Require Import Base BaseLemmas MapModel MapProofs FloatModel StringModel StringSpec StringProofs ParamsModel ParamsSpec ParamsProperties
  IppModel IppSpec IppEncProofs IppDecProofs IppMsgProofs IppProperties JsonModel JsonSpec ArgModel ArgSpec ArgProperties PpmCmdSpec PpmCmdProperties OptionProofs SettingModel SettingProperties ConverterModel ConverterProperties
  JobModel JobProofs JobProperties JobSummary PrinterModel PrinterSpec PrinterProperties SettingsModel SettingsProperties ClientModel ClientSpec ClientProperties ClientCmdSpec ClientCmdProperties
  WireSpec WireProofs WireProperties SetSpec.
From Coq Require Import Lia ZifyBool ZifyNat Permutation.
Local Open Scope Z_scope.

(** ** Values *)
Lemma fromString_meant s tag : match attrFromString s tag with
  | Ok (t, v) => t = tag /\ meant s tag v
  | Throw _ => forall v, ~ meant s tag v
  | _ => False end.
Proof.
  unfold attrFromString. destruct ((tag =? tInteger) || (tag =? tEnum)) eqn:T1.
  - assert (I : In tag [0x21; 0x23]) by (unfold tInteger, tEnum in T1; cbn [In]; lia).
    destruct (stoi s) as [z|e| | |] eqn:E; cbn [bind].
    + split; [reflexivity|]. apply meant_number; [exact I|]. apply stoi_text in E. exact (match E with ex_intro _ neg (ex_intro _ n (conj A (conj B C))) => ex_intro _ neg (ex_intro _ n (conj A (conj B (f_equal AInt C)))) end).
    + intros v H. inversion H as [t z It Iz| | |t It]; subst; try (cbn [In] in I; lia); [|cbn [In] in I, It; lia].
      destruct Iz as (neg & n & A & B & C). injection C as ->. assert (K : stoi s = Ok (signed neg n)) by (apply stoi_text; eauto). congruence.
    + rewrite stoi_read in E. cbv zeta in E. unfold in_range in E. destruct (starts_digit _); [destruct (_ && _)|]; discriminate.
    + rewrite stoi_read in E. cbv zeta in E. unfold in_range in E. destruct (starts_digit _); [destruct (_ && _)|]; discriminate.
    + rewrite stoi_read in E. cbv zeta in E. unfold in_range in E. destruct (starts_digit _); [destruct (_ && _)|]; discriminate.
  - unfold tInteger, tEnum in T1. destruct (Z.eqb_spec tag tBoolean) as [->|T2].
    + unfold tBoolean in *. destruct (String.eqb_spec s "true") as [->|N1]; [split; [reflexivity|apply meant_true; reflexivity]|].
      destruct (String.eqb_spec s "false") as [->|N2]; [split; [reflexivity|apply meant_false; reflexivity]|].
      intros v H. inversion H as [t z It Iz|Es|Es|t It]; subst; try contradiction; cbn [In] in *; lia.
    + destruct (existsb (Z.eqb tag) _) eqn:T3.
      * split; [reflexivity|]. apply meant_text. apply existsb_exists in T3. destruct T3 as (x & Hx & Ex). apply Z.eqb_eq in Ex. subst x. exact Hx.
      * intros v H. unfold tBoolean in T2. inversion H as [t z It Iz|Es|Es|t It]; subst; try (cbn [In] in *; lia).
        assert (K : existsb (Z.eqb tag) [0x35; 0x36; 0x41; 0x42; 0x44; 0x45; 0x46; 0x47; 0x48; 0x49] = true) by (apply existsb_exists; exists tag; split; [exact It|apply Z.eqb_refl]).
        unfold tTextWithLanguage, tNameWithLanguage, tTextWithoutLanguage, tNameWithoutLanguage, tKeyword, tUri, tUriScheme, tCharset, tNaturalLanguage, tMimeMediaType in T3. congruence.
Qed.
Lemma digits_unique s neg n neg' n' : int_text s neg n -> int_text s neg' n' -> neg = neg' /\ n = n'.
Proof. intros H H'. apply int_text_read in H, H'. destruct H as (_ & -> & ->), H' as (_ & -> & ->). auto. Qed.
Lemma meant_unique s tag v v' : meant s tag v -> meant s tag v' -> v = v'.
Proof.
  intros H H'. inversion H as [t z It Iz|Es|Es|t It]; subst; inversion H' as [t' z' It' Iz'|Es'|Es'|t' It']; subst; try discriminate; try reflexivity; try (cbn [In] in *; lia).
  destruct Iz as (neg & n & A & _ & C), Iz' as (neg' & n' & A' & _ & C'). destruct (digits_unique _ _ _ _ _ A A') as [-> ->]. congruence.
Qed.

(** ** The attributes collected *)
Lemma last_in name l s : last_given name l s -> In (name, s) l.
Proof. induction 1; [left; reflexivity|right; assumption]. Qed.
Lemma last_cons name n s l t : last_given name ((n, s) :: l) t <-> last_given name l t \/ ~ In name (map fst l) /\ n = name /\ s = t.
Proof.
  split.
  - inversion 1; subst; auto.
  - intros [H|(N & -> & ->)]; [apply last_later; exact H|apply last_here; exact N].
Qed.
Lemma last_exists name l : In name (map fst l) -> exists s, last_given name l s.
Proof.
  induction l as [|[n s] l IH]; intros H; [destruct H|]. destruct (in_dec string_dec name (map fst l)) as [I|I].
  - destruct (IH I) as [t T]. exists t. apply last_later. exact T.
  - destruct H as [E|H]; [|contradiction]. cbn in E. subst n. exists s. apply last_here. exact I.
Qed.
(** from [acc] *)
Definition settled_from (acc pa : ipp_attrs) (l : list (string * string)) (attrs : ipp_attrs) : Prop :=
  forall name a, map_get name attrs = Some a <->
    (exists s old, last_given name l s /\ map_get name pa = Some (fst a, old) /\ meant s (fst a) (snd a))
    \/ ((~ In name (map fst l) \/ map_get name pa = None) /\ map_get name acc = Some a).
Lemma collect_settled pa l : forall acc, sorted_keys acc ->
  match collect_settable pa l acc with
  | Ok attrs => ~ meaningless pa l /\ sorted_keys attrs /\ settled_from acc pa l attrs
  | Throw _ => meaningless pa l
  | _ => False end.
Proof.
  induction l as [|[n s] l IH]; intros acc Sa; cbn [collect_settable].
  - split; [intros (k & t & tag & old & [] & _)|]. split; [exact Sa|]. intros name a. split; [intros H; right; split; [left; intros []|exact H]|].
    intros [(t & old & H & _)|[_ H]]; [inversion H|exact H].
  - destruct (map_get n pa) as [[tag old]|] eqn:G; cbn [fst].
    + pose proof (fromString_meant s tag) as F. destruct (attrFromString s tag) as [[t v]|e| | |] eqn:E; cbn [bind]; try contradiction.
      2:{ exists n, s, tag, old. split; [left; reflexivity|]. split; [exact G|exact F]. }
      destruct F as [-> F]. specialize (IH (map_set n (tag, v) acc) (set_sorted _ _ _ Sa)). destruct (collect_settable pa l _) as [attrs|e| | |]; try contradiction.
      2:{ destruct IH as (k & t & tg & o & I & K). exists k, t, tg, o. split; [right; exact I|exact K]. }
      destruct IH as (M & St & Q). split.
      { intros (k & t & tg & o & [I|I] & K & U); [|apply M; exists k, t, tg, o; auto]. injection I as <- <-. rewrite G in K. injection K as <- <-. exact (U _ F). }
      split; [exact St|]. intros name a. rewrite (Q name a), map_get_set by exact Sa. cbn [map fst In]. destruct (String.eqb_spec name n) as [->|N].
      * split.
        { intros [(t & o & L & K)|([I|I] & A)]; [left; exists t, o; split; [apply last_later; exact L|exact K]| |congruence]. injection A as <-. left. exists s, old. split; [apply last_here; exact I|]. split; [exact G|exact F]. }
        intros [(t & o & L & K & U)|([I|I] & A)]; [|exfalso; apply I; left; reflexivity|congruence]. apply last_cons in L. destruct L as [L|(I & _ & <-)]; [left; exists t, o; auto|].
        right. split; [left; exact I|]. rewrite G in K. injection K as K ->. destruct a as [ta va]. cbn [fst snd] in *. subst ta. f_equal. f_equal. exact (meant_unique _ _ _ _ F U).
      * split.
        { intros [(t & o & L & K)|([I|I] & A)]; [left; exists t, o; split; [apply last_later; exact L|exact K]| |]; right; (split; [|exact A]); [left; intros [J|J]; [congruence|contradiction]|right; exact I]. }
        intros [(t & o & L & K)|([I|I] & A)]; [apply last_cons in L; destruct L as [L|(_ & L & _)]; [left; exists t, o; auto|congruence]| |]; right; (split; [|exact A]); [left; intros J; apply I; right; exact J|right; exact I].
    + specialize (IH acc Sa). destruct (collect_settable pa l acc) as [attrs|e| | |]; try contradiction.
      2:{ destruct IH as (k & t & tg & o & I & K). exists k, t, tg, o. split; [right; exact I|exact K]. }
      destruct IH as (M & St & Q). split.
      { intros (k & t & tg & o & [I|I] & K); [|apply M; exists k, t, tg, o; auto]. injection I as <- <-. destruct K as [K _]. congruence. }
      split; [exact St|]. intros name a. rewrite (Q name a). cbn [map fst In]. destruct (String.eqb_spec name n) as [->|N].
      * split; [intros [(t & o & _ & K & _)|(_ & A)]; [congruence|right; split; [right; exact G|exact A]]|]. intros [(t & o & _ & K & _)|(_ & A)]; [congruence|right; split; [right; exact G|exact A]].
      * split.
        { intros [(t & o & L & K)|([I|I] & A)]; [left; exists t, o; split; [apply last_later; exact L|exact K]| |]; right; (split; [|exact A]); [left; intros [J|J]; [congruence|contradiction]|right; exact I]. }
        intros [(t & o & L & K)|([I|I] & A)]; [apply last_cons in L; destruct L as [L|(_ & L & _)]; [left; exists t, o; auto|congruence]| |]; right; (split; [|exact A]); [left; intros J; apply I; right; exact J|right; exact I].
Qed.
Lemma collect_nil pa l : match collect_settable pa l [] with
  | Ok attrs => ~ meaningless pa l /\ sorted_keys attrs /\ settled pa l attrs
  | Throw _ => meaningless pa l
  | _ => False end.
Proof.
  pose proof (collect_settled pa l [] ltac:(constructor)) as H.
  destruct (collect_settable pa l []) as [attrs|e| | |]; try exact H. destruct H as (M & St & Q). split; [exact M|]. split; [exact St|]. intros name tag v. rewrite (Q name (tag, v)). cbn [fst snd map_get]. split.
  - intros [H|[_ H]]; [exact H|discriminate].
  - auto.
Qed.

(** ** The request *)
Lemma versions_made w p op given jobA prn : Forall (fun v => has_type TStr v = true) (values "ipp-versions-supported" (pr_attrs p)) -> exists m, mk_msg w p op given jobA prn = Ok m.
Proof.
  intros H. unfold mk_msg, str_list. destruct (attrs_getList TStr "ipp-versions-supported" (pr_attrs p)) as [l|e| | |] eqn:E; cbn [bind]; [eexists; reflexivity| | | |]; exfalso;
    rewrite (getList_total _ _ _ H) in E; discriminate.
Qed.
Lemma made_encoded w p op prn m id : user_ok w -> str_ok (pr_addr p) = true -> fitting prn -> u16_ok op = true -> mk_msg w p op [] [] prn = Ok m -> exists b, fst (encodeMsg id m) = Ok b.
Proof.
  intros Hu Ha Fp Ho H. pose proof (C58_request _ _ _ _ _ _ _ (proj1 fitting_nil) H) as (R1 & R2 & R3 & R4 & R5).
  assert (Fo : fitting (m_opAttrs m)).
  { unfold mk_msg in H. bind_inv H as vs Hv H. injection H as <-. unfold makeRequest.
    assert (I : fitting (insert_all (baseOpAttrs (w_user w) (pr_addr p)) [])) by (apply insert_all_fits; [intros k a Hin; eapply base_wf; eassumption|exact fitting_nil]).
    unfold insert_all in I. destruct (contains vs "2.0"); exact I. }
  apply wfe_msg. unfold wf_msg. rewrite R1, Ho, R3, R4. cbn [map forallb].
  rewrite (proj2 (wf_fitting (m_opAttrs m)) Fo), (proj2 (wf_fitting prn) Fp). destruct R5 as [[R5 _]|[R5 _]]; injection R5 as -> ->; reflexivity.
Qed.
Lemma set_sent w p id l : user_ok w -> str_ok (pr_addr p) = true -> 0 <= id < 4294967296 -> Forall (fun q => name_fits (fst q) = true /\ str_ok (snd q) = true) l ->
  Forall (fun v => has_type TStr v = true) (values "ipp-versions-supported" (pr_attrs p)) ->
  (meaningless (pr_attrs p) l /\ fst (set_attributes w p id l) = [] /\ exists t, snd (set_attributes w p id l) = Ok (Some t)) \/
  (~ meaningless (pr_attrs p) l /\ exists b m, fst (set_attributes w p id l) = [Posted (pr_addr p) b] /\ ipp_request (w_user w) (pr_addr p) 0x0013 id b m /\
     m_jobAttrs m = [] /\ settled (pr_attrs p) l (m_printerAttrs m)).
Proof.
  intros Hu Ha Hid F T. pose proof (collect_nil (pr_attrs p) l) as C. unfold set_attributes. destruct (collect_settable (pr_attrs p) l []) as [attrs|ex| | |] eqn:Ec; try contradiction.
  2:{ left. split; [exact C|]. split; [reflexivity|]. eexists. reflexivity. }
  right. destruct C as (M & St & Q). split; [exact M|]. pose proof (settable_fits _ _ _ _ F fitting_nil Ec) as Fa.
  destruct (versions_made w p opSetPrinterAttrs [] [] attrs T) as [m Hm]. destruct (made_encoded w p opSetPrinterAttrs attrs m id Hu Ha Fa eq_refl Hm) as [b Hb].
  exists b, (wire_msg m). rewrite Hm, ebind_pure. split; [|split; [|split]].
  - unfold ebind, do_request. rewrite Hb. cbn [fst snd]. destruct (w_post w (pr_addr p) b) as [t|body]; [reflexivity|]. destruct (decodeMsg body) as [[r rest]|x| | |]; reflexivity.
  - exact (made_request w p opSetPrinterAttrs [] [] attrs m id b Hu Ha fitting_nil no_base_nil sendable_nil Fa eq_refl Hid Hm Hb).
  - pose proof (C58_request _ _ _ _ _ _ _ (proj1 fitting_nil) Hm) as (_ & _ & R3 & _). unfold wire_msg, with_jobs, ones_msg. cbn [m_jobAttrs]. rewrite R3. reflexivity.
  - pose proof (C58_request _ _ _ _ _ _ _ (proj1 fitting_nil) Hm) as (_ & _ & _ & R4 & _). unfold wire_msg, with_jobs, ones_msg. cbn [m_printerAttrs]. rewrite R4. exact Q.
Qed.

(** ** C108 *)
(** If a text has no meaning for the attribute it is given for, nothing is sent and the exit
    code is 1.  Otherwise one Set-Printer-Attributes request is sent, with exactly what the
    texts mean as values of the attributes of the printer.
    PARTIAL: pairs with names the printer does not have are left out silently
    (C108_unknown_refuted); a word starting with digits is taken for a number (the definition
    of [integer], C24); texts with a language are not what they should be
    (C108_language_refuted). *)
Theorem C108_sent_partial e junk args rs addr text p ev pa id l : line args "set-attrs" rs (addr :: text :: p) -> present rs "--help" = false -> open_printer e addr = (ev, Ok (None, pa, id)) ->
  l <> [] -> text = pairs_text l -> Forall (fun q => plain (fst q) /\ plain (snd q)) l ->
  match w_user (e_world e) with Some u => short u | None => True end -> short addr -> Forall (fun q => fst q <> ""%string /\ short (fst q) /\ short (snd q)) l ->
  typed TStr "ipp-versions-supported" pa ->
  (meaningless pa l /\ client e junk args = (ev, Ok 1)) \/
  (~ meaningless pa l /\ exists b m, fst (client e junk args) = ev ++ [Posted addr b] /\ ipp_request (w_user (e_world e)) addr 0x0013 id b m /\
     m_jobAttrs m = [] /\ settled pa l (m_printerAttrs m)).
Proof.
  intros H Hh Ho L1 L2 L3 Hu Ha F T. assert (Hid : 0 <= id < 4294967296).
  { destruct (C92_open e addr None pa id) as [(path & _ & _ & -> & _)|(_ & -> & _)]; [rewrite Ho; reflexivity|lia|lia]. }
  destruct (C92_set_attrs e junk args rs addr text p ev pa id H Hh Ho) as [(l' & K1 & K2 & K3 & X)|(N & _)]; [|exfalso; exact (N l (conj L1 (conj L2 L3)))].
  assert (l' = l) as ->.
  { pose proof (proj2 (C72_pairs text l) (conj L1 (conj L2 L3))) as A. pose proof (proj2 (C72_pairs text l') (conj K1 (conj K2 K3))) as B. congruence. }
  destruct (set_sent (e_world e) (mkPrinter addr false pa) id l) as [(M & E1 & t & E2)|(M & b & m & E1 & E2)].
  - unfold user_ok. destruct (w_user (e_world e)); [unfold short in Hu; unfold str_ok; lia|exact I].
  - unfold short in Ha. unfold str_ok. cbn [pr_addr]. lia.
  - exact Hid.
  - rewrite Forall_forall in *. intros q Hq. destruct (F q Hq) as (A & B & C). unfold short in B, C. unfold name_fits, str_ok. apply String.eqb_neq in A. rewrite A. cbn [negb]. lia.
  - exact T.
  - left. split; [exact M|]. destruct X as [X1 X2]. rewrite E1, app_nil_r in X1. rewrite E2 in X2. rewrite (surjective_pairing (client e junk args)), X1, X2. reflexivity.
  - right. split; [exact M|]. exists b, m. split; [|exact E2]. destruct X as [X1 _]. rewrite X1, E1. reflexivity.
Qed.
(** A pair with a name the printer does not have makes no difference, to what is sent and to
    the exit code. *)
Lemma unknown_left_out pa l1 l2 n s : map_get n pa = None -> forall acc, collect_settable pa (l1 ++ (n, s) :: l2) acc = collect_settable pa (l1 ++ l2) acc.
Proof.
  intros G. induction l1 as [|[k v] l1 IH]; intros acc; cbn [app collect_settable]; [rewrite G; reflexivity|]. destruct (map_get k pa); [|apply IH].
  destruct (attrFromString v _); cbn [bind]; try reflexivity. apply IH.
Qed.
Theorem C108_unknown_refuted w p id l1 l2 name s : map_get name (pr_attrs p) = None -> set_attributes w p id (l1 ++ (name, s) :: l2) = set_attributes w p id (l1 ++ l2).
Proof. intros H. unfold set_attributes. rewrite unknown_left_out by exact H. reflexivity. Qed.
(** Dates, resolutions, ranges, collections and octets cannot be set by any text, and what is
    set is never a set of values. *)
Theorem C108_syntaxes_partial w p id name tag old s : map_get name (pr_attrs p) = Some (tag, old) ->
  (In tag [0x30; 0x31; 0x32; 0x33; 0x34] -> fst (set_attributes w p id [(name, s)]) = [] /\ exists t, snd (set_attributes w p id [(name, s)]) = Ok (Some t)) /\
  (forall v, meant s tag v -> match v with VStr _ | VInt _ | VBool _ => True | _ => False end).
Proof.
  intros G. split.
  - intros I. pose proof (fromString_meant s tag) as F. unfold set_attributes. cbn [collect_settable]. rewrite G. cbn [fst]. destruct (attrFromString s tag) as [[t v]|e| | |]; try contradiction; cbn [bind].
    + exfalso. destruct F as [_ F]. inversion F as [t' z It Iz|Es|Es|t' It]; subst; cbn [In] in *; lia.
    + split; [reflexivity|]. eexists. reflexivity.
  - intros v H. destruct H; exact Logic.I.
Qed.
(** No word is a text with a language as RFC 8010 has it, whatever it is, so what is sent for
    an attribute of these syntaxes is none. *)
Lemma two_bytes_zero n : (n < 256)%nat -> two_bytes n = String (bZ 0) (String (bZ (Z.of_nat n)) "").
Proof. intros H. unfold two_bytes. rewrite Z.div_small, Z.mod_small by lia. reflexivity. Qed.
Theorem C108_language_refuted pa l attrs name tag v : settled pa l attrs -> Forall (fun q => a_word (snd q)) l -> In tag [0x35; 0x36] -> map_get name attrs = Some (tag, v) ->
  forall language text, (String.length language <= 63)%nat -> v <> VStr (with_language language text).
Proof.
  intros Q W I G language text L E. apply Q in G. destruct G as (s & old & A & _ & M). apply last_in in A. rewrite Forall_forall in W. specialize (W _ A). cbn [snd] in W.
  assert (s = with_language language text) as -> by (inversion M; congruence).
  apply W. unfold with_language. rewrite two_bytes_zero by lia. left. reflexivity.
Qed.

(** ** C109 *)
(** The value of an attribute that is a text with a language is read and used with the
    lengths and the language, so it is never the text. *)
Theorem C109_refuted id m k tag language text : wf_msg m = true -> 0 <= id < 4294967296 -> In tag [0x35; 0x36] ->
  map_get k (m_printerAttrs m) = Some (tag, VStr (with_language language text)) ->
  exists ops m', Permutation ops (m_opAttrs m) /\ decodeMsg (msg_bytes id m ops) = Ok (m', []) /\
    get_str_attr k "" (m_printerAttrs m') = Ok (with_language language text) /\ with_language language text <> text.
Proof.
  intros Hw Hid Ht G. exists (m_opAttrs m), (with_jobs m). split; [apply Permutation_refl|]. split; [|split].
  - rewrite <- (app_nil_r (msg_bytes id m (m_opAttrs m))). apply decode_msg_bytes; [exact Hw|exact Hid|apply Permutation_refl|]. cbn. reflexivity.
  - unfold get_str_attr, attrs_get, attrs_at. change (m_printerAttrs (with_jobs m)) with (m_printerAttrs m). change ipp_attr with (Z * ipp_value)%type in *. rewrite G. reflexivity.
  - intros E. apply (f_equal String.length) in E. unfold with_language, two_bytes in E. cbn [String.append String.length] in E. rewrite !app_length_s in E. cbn [String.length] in E. lia.
Qed.

(** ** Examples *)
Definition set_text : string := "print-quality-supported= 5x,no-such=1,sides-supported=one,sides-supported=two".
Definition set_pairs : list (string * string) := [("print-quality-supported", " 5x"); ("no-such", "1"); ("sides-supported", "one"); ("sides-supported", "two")]%string.
Definition set_args (text : string) : list string := ["set-attrs"; cmd_addr; text]%string.
Example C108_example :
  line (set_args set_text) "set-attrs" [] [cmd_addr; set_text] /\ set_text = pairs_text set_pairs /\ Forall (fun q => plain (fst q) /\ plain (snd q)) set_pairs /\
  Forall (fun q => fst q <> ""%string /\ short (fst q) /\ short (snd q)) set_pairs /\ typed TStr "ipp-versions-supported" (client_printer 4) /\ ~ meaningless (client_printer 4) set_pairs /\
  (match client (client_world 4) junk0 (set_args set_text) with
   | ([Posted _ _; Posted a b], Ok 0) => a = cmd_addr /\ match decodeMsg b with
      | Ok (m, []) => m_opOrStatus m = 0x0013 /\ m_printerAttrs m = [("print-quality-supported", (tEnum, VInt 5)); ("sides-supported", (tKeyword, VStr "two"))]%string
      | _ => False end
   | _ => False end) /\
  meaningless (client_printer 4) [("copies-supported", "1-5")]%string /\ meaningless (client_printer 4) [("print-quality-supported", "high")]%string /\
  (match client (client_world 4) junk0 (set_args "print-quality-supported=high") with ([Posted _ _], Ok 1) => True | _ => False end) /\
  (match client (client_world 4) junk0 (set_args "no-such=1") with ([Posted _ _; Posted _ b], Ok 0) => match decodeMsg b with Ok (m, []) => m_printerAttrs m = [] | _ => False end | _ => False end).
Proof.
  assert (V : key_values (split_string set_text ",") = Some set_pairs) by (vm_compute; reflexivity). apply C72_pairs in V. destruct V as (_ & V1 & V2).
  split; [line_example common_flags (@nil (string * string)) 2%nat (@nil string)|]. split; [exact V1|]. split; [exact V2|]. split; [repeat constructor; discriminate|]. split; [repeat constructor|].
  split; [pose proof (collect_nil (client_printer 4) set_pairs) as C; destruct (collect_settable _ _ _) eqn:E; [exact (proj1 C)|vm_compute in E; discriminate|contradiction|contradiction|contradiction]|].
  split; [vm_compute; auto|]. split; [pose proof (collect_nil (client_printer 4) [("copies-supported", "1-5")]%string) as C; exact C|].
  split; [pose proof (collect_nil (client_printer 4) [("print-quality-supported", "high")]%string) as C; exact C|]. vm_compute. auto.
Qed.
Example C109_example : wf_msg (mkMsg 0 1 1 [] [] [("printer-name", (0x36, VStr (with_language "fr" "chez moi")))]%string) = true /\
  with_language "fr" "hi" = String (bZ 0) (String (bZ 2) ("fr" ++ String (bZ 0) (String (bZ 2) "hi"))) /\
  (match decodeMsg (msg_bytes 1 (mkMsg 0 1 1 [] [] [("printer-name", (0x36, VStr (with_language "fr" "hi")))]%string) []) with
   | Ok (m, []) => get_str_attr "printer-name" "" (m_printerAttrs m) = Ok (String (bZ 0) (String (bZ 2) ("fr" ++ String (bZ 0) (String (bZ 2) "hi"))))
   | _ => False end).
Proof. vm_compute. auto. Qed.

Print Assumptions C108_sent_partial.
Print Assumptions C108_unknown_refuted.
Print Assumptions C108_syntaxes_partial.
Print Assumptions C108_language_refuted.
Print Assumptions C109_refuted.
