(** C88: what the client shows of printers and jobs. *)
From Verif Require Import Base BaseLemmas MapModel FloatModel StringModel StringSpec StringProofs StringProperties IppModel IppSpec IppEncProofs JsonModel SettingModel ConverterModel JobModel PrinterModel PrinterSpec PrinterProperties
  PpmSpec PpmProofs JsonSpec SettingsModel SettingsProofs SupplyProperties DumpProofs DecodeProofs DateProofs ClientModel OutputModel.
From Coq Require Import Lia ZifyBool ZifyNat.
Local Open Scope Z_scope.

(** ** Specification *)
Local Open Scope string_scope.
Definition line_feed : string := String (bZ 10) "".
(** decimal numbers: no leading zeros, a minus sign for negative ones *)
Definition decimal (z : Z) (t : string) : Prop :=
  exists d, number (bytes_of_string d) (Z.abs z) /\ jint (bytes_of_string d) /\ t = (if (z <? 0)%Z then "-" else "") ++ d.
(** #RRGGBB *)
Definition hex_digit_of (c : ascii) (v : Z) : Prop :=
  (48 <= Zb c <= 57 /\ v = Zb c - 48 \/ 65 <= Zb c <= 70 /\ v = Zb c - 55 \/ 97 <= Zb c <= 102 /\ v = Zb c - 87)%Z.
Definition hex_byte (a b : ascii) (v : Z) : Prop := exists x y, hex_digit_of a x /\ hex_digit_of b y /\ v = (16 * x + y)%Z.
Definition is_color (c : string) (r g b : Z) : Prop :=
  exists r1 r2 g1 g2 b1 b2, c = String "#" (String r1 (String r2 (String g1 (String g2 (String b1 (String b2 "")))))) /\ hex_byte r1 r2 r /\ hex_byte g1 g2 g /\ hex_byte b1 b2 b.
(** a blank on a background of the colour (ISO 8613-6: SGR 48;2;r;g;b), and back *)
Definition swatch (r g b : Z) (t : string) : Prop :=
  exists tr tg tb, decimal r tr /\ decimal g tg /\ decimal b tb /\
    t = String (bZ 27) "[48;2;" ++ tr ++ ";" ++ tg ++ ";" ++ tb ++ "m " ++ String (bZ 27) "[0m".
Definition color_shown (c t : string) : Prop := (exists r g b, is_color c r g b /\ swatch r g b t) \/ ((forall r g b, ~ is_color c r g b) /\ t = "").
(** the stanza of a supply *)
Definition percentage (s : supply) (p : Z) : Prop := p = Z.quot (100 * sp_level s) (if (sp_high s =? 0)%Z then 100 else sp_high s).
Definition stanza (s : supply) (t : string) : Prop :=
  exists sw p tp, Forall2 color_shown (sp_colors s) sw /\ percentage s p /\ decimal p tp /\
    t = "* " ++ sp_name s ++ line_feed ++ "  " ++ (let c := glue "" sw in if String.eqb c "" then "" else c ++ " ") ++ tp ++ "%" ++
        (if (sp_level s <=? sp_low s)%Z then "(low)" else "") ++ " " ++ sp_type s.
(** the value of an attribute *)
Definition text_of (pa : ipp_attrs) (k : string) : string := match map_get k pa with Some (_, VStr s) => s | _ => "" end.
Definition number_of (pa : ipp_attrs) (k : string) : Z := match map_get k pa with Some (_, VInt z) => z | _ => 0%Z end.
Definition texts_of (pa : ipp_attrs) (k : string) : list string := map (fun v => match v with VStr s => s | _ => "" end) (values k pa).
(** titles with something below them; those with nothing are left out *)
Definition sections (l : list (string * string)) : string :=
  glue "" (map (fun e => if String.eqb (snd e) "" then "" else fst e ++ line_feed ++ snd e ++ line_feed ++ line_feed) l).
Definition number_shown (z : Z) (t : string) : Prop := (z = 0%Z /\ t = "") \/ (z <> 0%Z /\ decimal z t).
Definition levels32 (l : list supply) : Prop := Forall (fun s => int32 (sp_level s) /\ int32 (sp_high s)) l.

(** ** Proofs *)
Lemma append_nil_r s : s ++ "" = s.
Proof. induction s as [|c s IH]; [reflexivity|]. cbn. f_equal. exact IH. Qed.
Lemma append_assoc a b c : (a ++ b) ++ c = a ++ b ++ c.
Proof. induction a as [|x a IH]; [reflexivity|]. cbn. f_equal. exact IH. Qed.
Lemma decimal_int z : decimal z (int_text z).
Proof.
  unfold decimal, int_text. destruct (Z.ltb_spec z 0) as [L|L].
  - exists (dec_string (- z)). replace (Z.abs z) with (- z)%Z by lia. split; [apply dec_string_number; lia|]. split; [apply jint_dec; lia|reflexivity].
  - exists (dec_string z). replace (Z.abs z) with z by lia. split; [apply dec_string_number; lia|]. split; [apply jint_dec; lia|reflexivity].
Qed.
Lemma hex_value_spec c : match hex_value c with Some v => hex_digit_of c v | None => forall v, ~ hex_digit_of c v end.
Proof.
  unfold hex_value, hex_digit_of. set (z := Zb c). destruct ((48 <=? z) && (z <=? 57))%Z eqn:E1; [left; lia|]. destruct ((97 <=? z) && (z <=? 102))%Z eqn:E2; [right; right; lia|].
  destruct ((65 <=? z) && (z <=? 70))%Z eqn:E3; [right; left; lia|]. intros v. lia.
Qed.
Lemma hex_digit_fun c v w : hex_digit_of c v -> hex_digit_of c w -> v = w.
Proof. unfold hex_digit_of. lia. Qed.
Lemma hex_pair_spec a b : match hex_pair a b with Some v => hex_byte a b v /\ (0 <= v <= 255)%Z | None => forall v, ~ hex_byte a b v end.
Proof.
  unfold hex_pair, hex_byte. pose proof (hex_value_spec a) as A. pose proof (hex_value_spec b) as B. destruct (hex_value a) as [x|]; [|intros v [x [y [H _]]]; exact (A x H)].
  destruct (hex_value b) as [y|]; [|intros v [x' [y [_ [H _]]]]; exact (B y H)]. split; [eauto|]. unfold hex_digit_of in *. lia.
Qed.
Lemma color_text_shown c : color_shown c (color_text c).
Proof.
  assert (N : forall t, t = "" -> (forall r1 r2 g1 g2 b1 b2 r g b, c = String "#" (String r1 (String r2 (String g1 (String g2 (String b1 (String b2 "")))))) -> hex_byte r1 r2 r -> hex_byte g1 g2 g -> hex_byte b1 b2 b -> False) -> color_shown c t).
  { intros t Ht H. right. split; [|exact Ht]. intros r g b [r1 [r2 [g1 [g2 [b1 [b2 [E [H1 [H2 H3]]]]]]]]]. eapply H; eassumption. }
  destruct c as [|h [|r1 [|r2 [|g1 [|g2 [|b1 [|b2 [|x c]]]]]]]]; try (apply N; [reflexivity|intros; discriminate]).
  unfold color_text. destruct (Ascii.eqb_spec h "#") as [Q|Q]; [|apply N; [reflexivity|]; intros; congruence].
  pose proof (hex_pair_spec r1 r2) as R. pose proof (hex_pair_spec g1 g2) as G. pose proof (hex_pair_spec b1 b2) as B.
  destruct (hex_pair r1 r2) as [r|]; [|apply N; [reflexivity|]; intros ? ? ? ? ? ? r g b E H1 H2 H3; inversion E; subst; exact (R r H1)].
  destruct (hex_pair g1 g2) as [g|]; [|apply N; [reflexivity|]; intros ? ? ? ? ? ? r' g b E H1 H2 H3; inversion E; subst; exact (G g H2)].
  destruct (hex_pair b1 b2) as [b|]; [|apply N; [reflexivity|]; intros ? ? ? ? ? ? r' g' b E H1 H2 H3; inversion E; subst; exact (B b H3)].
  left. exists r, g, b. destruct R as [R R'], G as [G G'], B as [B B']. subst h. split; [exists r1, r2, g1, g2, b1, b2; auto|].
  assert (D : forall z, (0 <= z <= 255)%Z -> decimal z (dec_string z)). { intros z Hz. pose proof (decimal_int z) as D. unfold int_text in D. destruct (Z.ltb_spec z 0); [lia|exact D]. }
  exists (dec_string r), (dec_string g), (dec_string b). split; [auto|]. split; [auto|]. split; [auto|]. reflexivity.
Qed.
Lemma glue_nil_cons x l : glue "" (x :: l) = x ++ glue "" l.
Proof. destruct l; [cbn; rewrite append_nil_r; reflexivity|reflexivity]. Qed.
Lemma print_colors_shown l : exists sw, Forall2 color_shown l sw /\ print_colors l = glue "" sw.
Proof.
  induction l as [|c l [sw [IH1 IH2]]]; [exists []; split; [constructor|reflexivity]|]. exists (color_text c :: sw). split; [constructor; [apply color_text_shown|exact IH1]|].
  rewrite glue_nil_cons. cbn [print_colors]. rewrite IH2. reflexivity.
Qed.
Lemma supply_text_stanza s t : int32 (sp_level s) -> int32 (sp_high s) -> supply_text s = Ok t -> stanza s t.
Proof.
  intros Hl Hh H. unfold supply_text in H. rewrite C62_exact in H by assumption. cbv zeta in H. set (q := Z.quot _ _) in H. destruct ((- 2 ^ 31 <=? q) && (q <? 2 ^ 31))%Z; [|discriminate]. cbn [bind] in H.
  destruct (print_colors_shown (sp_colors s)) as [sw [F E]]. exists sw, q, (int_text q). split; [exact F|]. split; [reflexivity|]. split; [apply decimal_int|]. injection H as <-. cbv zeta. rewrite <- E.
  unfold isLow. destruct (String.eqb (print_colors (sp_colors s)) ""); reflexivity.
Qed.
Lemma glue_cons2 sep x y l : glue sep (x :: y :: l) = x ++ sep ++ glue sep (y :: l).
Proof. reflexivity. Qed.
Lemma supplies_text_stanzas l : forall t, levels32 l -> supplies_text l = Ok t -> exists ts, Forall2 stanza l ts /\ t = glue line_feed ts.
Proof.
  induction l as [|s l IH]; intros t L H; cbn [supplies_text] in H; [injection H as <-; exists []; split; [constructor|reflexivity]|].
  inversion L as [|? ? [L1 L2] L3]; subst. bind_inv H as t1 E1 H. bind_inv H as r E2 H. destruct (IH r L3 E2) as [ts [F E]]. exists (t1 :: ts). split; [constructor; [apply supply_text_stanza; assumption|exact F]|].
  destruct l as [|s2 l]; inversion F; subst; injection H as <-; [reflexivity|]. rewrite glue_cons2. reflexivity.
Qed.
Lemma stanza_not_empty s t : stanza s t -> t <> "".
Proof. intros (sw & p & tp & _ & _ & _ & ->). discriminate. Qed.
Lemma firmware_text_glue l : firmware_text l = glue line_feed (map (fun f => fst f ++ ": " ++ snd f) l).
Proof.
  induction l as [|f [|g l] IH]; [reflexivity|reflexivity|]. change (firmware_text (f :: g :: l)) with (fst f ++ ": " ++ snd f ++ nl ++ firmware_text (g :: l)). rewrite IH.
  cbn [map]. rewrite glue_cons2. cbn [map]. rewrite !append_assoc. reflexivity.
Qed.
Lemma concat_glue l : String.concat "" l = glue "" l.
Proof. induction l as [|x [|y l] IH]; [reflexivity|reflexivity|]. change (String.concat "" (x :: y :: l)) with (x ++ "" ++ String.concat "" (y :: l)). rewrite IH. reflexivity. Qed.
Lemma get_str_text k pa v : get_str_attr k "" pa = Ok v -> v = text_of pa k.
Proof.
  unfold get_str_attr, attrs_get, attrs_at, text_of. destruct (map_get k pa) as [[t x]|]; cbn [bind]; [|intros H; injection H as <-; reflexivity]. cbn [snd]. unfold get_as. destruct x; cbn; intros H; try discriminate; injection H as <-; reflexivity.
Qed.
Lemma get_int_number k pa v : get_int_attr k pa = Ok v -> v = number_of pa k.
Proof.
  unfold get_int_attr, attrs_get, attrs_at, number_of. destruct (map_get k pa) as [[t x]|]; cbn [bind]; [|intros H; injection H as <-; reflexivity]. cbn [snd]. unfold get_as. destruct x; cbn; intros H; try discriminate; injection H as <-; reflexivity.
Qed.
Lemma str_list_texts k pa l : str_list k pa = Ok l -> l = texts_of pa k.
Proof. intros H. apply str_list_values in H. unfold texts_of. rewrite <- H, map_map. symmetry. apply map_id. Qed.
Lemma print_string_section title v : print_string title v = if String.eqb v "" then "" else title ++ line_feed ++ v ++ line_feed ++ line_feed.
Proof. reflexivity. Qed.

(** ** Theorems *)
(** The swatches of a supply's colours. *)
Theorem C88_colors l : exists sw, Forall2 color_shown l sw /\ print_colors l = glue "" sw.
Proof. apply print_colors_shown. Qed.
(** A supply's percentage, rounded down, and whether its level is at or below the low one. *)
Theorem C88_supply s : (0 <= sp_level s <= sp_high s)%Z -> int32 (sp_high s) -> (0 < sp_high s)%Z ->
  exists t p tp rest, supply_text s = Ok t /\ stanza s t /\ decimal p tp /\ (0 <= p <= 100)%Z /\ (p * sp_high s <= 100 * sp_level s < (p + 1) * sp_high s)%Z /\
    t = rest ++ tp ++ "%" ++ (if (sp_level s <=? sp_low s)%Z then "(low) " else " ") ++ sp_type s.
Proof.
  intros Hl Hh Hp. destruct (C62_percentage s Hl Hh Hp) as [p [E [B1 B2]]]. unfold supply_text. rewrite E. cbn [bind].
  eexists. exists p, (int_text p). eexists. split; [reflexivity|]. split; [|split; [apply decimal_int|]; split; [exact B1|]; split; [exact B2|]].
  - apply supply_text_stanza; [unfold int32 in *; lia|exact Hh|]. unfold supply_text. rewrite E. reflexivity.
  - instantiate (1 := "* " ++ sp_name s ++ nl ++ "  " ++ (if negb (String.eqb (print_colors (sp_colors s)) "") then print_colors (sp_colors s) ++ " " else "")).
    rewrite !append_assoc. unfold isLow. do 4 f_equal. destruct (sp_level s <=? sp_low s)%Z; reflexivity.
Qed.
(** Unknown levels (PWG 5100.9: negative) count as low. *)
Theorem C88_unknown_refuted : forall s, sp_level s = (-2)%Z -> (0 <= sp_low s)%Z -> (200 < sp_high s)%Z -> int32 (sp_high s) ->
  exists rest, supply_text s = Ok (rest ++ "0%(low) " ++ sp_type s).
Proof.
  intros s Hl Hlo Hh H32. assert (E : getPercent s = Ok 0%Z).
  { rewrite C62_exact; [|rewrite Hl; unfold int32; lia|exact H32]. cbv zeta. rewrite Hl. destruct (Z.eqb_spec (sp_high s) 0); [lia|]. replace (Z.quot (100 * -2) (sp_high s)) with 0%Z; [reflexivity|].
    change (100 * -2)%Z with (- (200))%Z. rewrite Z.quot_opp_l by lia. rewrite Z.quot_small by lia. reflexivity. }
  unfold supply_text. rewrite E. cbn [bind]. unfold isLow. destruct (Z.leb_spec (sp_level s) (sp_low s)); [|lia].
  exists ("* " ++ sp_name s ++ nl ++ "  " ++ (if negb (String.eqb (print_colors (sp_colors s)) "") then print_colors (sp_colors s) ++ " " else "")). rewrite !append_assoc. reflexivity.
Qed.
(** info: a section for every attribute that is set. *)
Theorem C88_info pa t : (forall l, supplies pa = Ok l -> levels32 l) -> info_text pa = Ok t ->
  exists ppm ppmc l ts fw guessed inputs,
    number_shown (number_of pa "pages-per-minute") ppm /\ number_shown (number_of pa "pages-per-minute-color") ppmc /\
    supplies pa = Ok l /\ Forall2 stanza l ts /\ firmware pa = Ok fw /\ additionalDocumentFormats pa = Ok guessed /\ printerInputFormats pa = Ok inputs /\
    t = sections
      [ ("Name:", text_of pa "printer-name"); ("Make and model:", text_of pa "printer-make-and-model"); ("Location:", text_of pa "printer-location");
        ("UUID:", text_of pa "printer-uuid"); ("Printer state message:", text_of pa "printer-state-message");
        ("Printer state reasons:", glue line_feed (texts_of pa "printer-state-reasons")); ("IPP versions:", glue ", " (texts_of pa "ipp-versions-supported"));
        ("IPP features:", glue line_feed (texts_of pa "ipp-features-supported")); ("Pages per minute:", ppm); ("Pages per minute (color):", ppmc);
        ("Supplies:", glue line_feed ts); ("Firmware:", glue line_feed (map (fun f => fst f ++ ": " ++ snd f) fw));
        ("Settable attributes:", glue line_feed (texts_of pa "printer-settable-attributes-supported")); ("Icons:", glue line_feed (texts_of pa "printer-icons"));
        ("Strings:", text_of pa "printer-strings-uri"); ("Document formats (native):", glue line_feed (texts_of pa "document-format-supported"));
        ("Document formats (guessed):", glue line_feed guessed); ("Document formats (with conversion):", glue line_feed inputs) ].
Proof.
  intros L H. unfold info_text in H.
  assert (S : forall title k v, info_str pa title k = Ok v -> v = print_string title (text_of pa k)). { intros title k v E. unfold info_str in E. bind_inv E as x E1 E. injection E as <-. rewrite (get_str_text _ _ _ E1). reflexivity. }
  assert (SS : forall title k sep v, info_strs pa title k sep = Ok v -> v = print_string title (glue sep (texts_of pa k))).
  { intros title k sep v E. unfold info_strs in E. bind_inv E as x E1 E. injection E as <-. rewrite (str_list_texts _ _ _ E1), join_glue. reflexivity. }
  assert (I : forall title k v, info_int pa title k = Ok v -> exists n, number_shown (number_of pa k) n /\ v = print_string title n).
  { intros title k v E. unfold info_int in E. bind_inv E as x E1 E. injection E as <-. rewrite (get_int_number _ _ _ E1). unfold print_int. destruct (Z.eqb_spec (number_of pa k) 0) as [Q|N].
    - exists "". split; [left; split; [exact Q|reflexivity]|reflexivity].
    - exists (int_text (number_of pa k)). split; [right; split; [exact N|apply decimal_int]|]. unfold print_string.
      replace (String.eqb (int_text (number_of pa k)) "") with false; [reflexivity|]. symmetry. apply String.eqb_neq. intros E. destruct (decimal_int (number_of pa k)) as [d [Hd [_ E']]]. rewrite E in E'.
      destruct (number_of pa k <? 0)%Z; [discriminate|]. cbn in E'. subst d. inversion Hd. destruct l; discriminate. }
  bind_inv H as t1 E1 H. bind_inv H as t2 E2 H. bind_inv H as t3 E3 H. bind_inv H as t4 E4 H. bind_inv H as t5 E5 H. bind_inv H as t6 E6 H. bind_inv H as t7 E7 H. bind_inv H as t8 E8 H. bind_inv H as t9 E9 H. bind_inv H as t10 E10 H.
  bind_inv H as s E11 H. bind_inv H as st E11' H. bind_inv H as f E12 H. bind_inv H as t13 E13 H. bind_inv H as t14 E14 H. bind_inv H as t15 E15 H. bind_inv H as t16 E16 H. bind_inv H as a E17 H. bind_inv H as c E18 H. apply (f_equal (fun o => match o with Ok x => x | _ => t end)) in H. cbv beta iota in H.
  apply S in E1, E2, E3, E4, E5, E15. apply SS in E6, E7, E8, E13, E14, E16. apply I in E9, E10. destruct E9 as [ppm [N1 E9]], E10 as [ppmc [N2 E10]].
  destruct (supplies_text_stanzas s st (L s E11) E11') as [ts [F Est]]. exists ppm, ppmc, s, ts, f, a, c. repeat (split; [assumption|]).
  rewrite <- H, concat_glue. unfold sections. cbn [map fst snd]. f_equal. subst. rewrite !join_glue. unfold print_string, print_text.
  assert (P11 : print_list "Supplies:" s (glue line_feed ts) = if String.eqb (glue line_feed ts) "" then "" else "Supplies:" ++ line_feed ++ glue line_feed ts ++ line_feed ++ line_feed).
  { destruct F as [|x y s' ts' F1 F2]; [reflexivity|]. cbn [print_list]. replace (String.eqb (glue line_feed (y :: ts')) "") with false; [reflexivity|]. symmetry. apply String.eqb_neq. intros E.
    apply (stanza_not_empty x y F1). destruct ts' as [|z ts']; [exact E|]. rewrite glue_cons2 in E. destruct y; [reflexivity|discriminate]. }
  assert (P12 : print_list "Firmware:" f (firmware_text f) = if String.eqb (glue line_feed (map (fun f => fst f ++ ": " ++ snd f) f)) "" then "" else "Firmware:" ++ line_feed ++ glue line_feed (map (fun f => fst f ++ ": " ++ snd f) f) ++ line_feed ++ line_feed).
  { rewrite <- firmware_text_glue. destruct f as [|x f]; [reflexivity|]. cbn [print_list]. replace (String.eqb (firmware_text (x :: f)) "") with false; [reflexivity|]. symmetry. apply String.eqb_neq. intros E.
    destruct x as [[|ch n] v], f; discriminate. }
  rewrite P11, P12. reflexivity.
Qed.
(** The text is written exactly if info ends with 0. *)
Theorem C88_info_exit pa : (exists t, info_text pa = Ok t) <-> info_command pa = Ok 0%Z.
Proof.
  assert (S : forall title k, (exists t, info_str pa title k = Ok t) <-> exists v, get_str_attr k "" pa = Ok v). { intros title k. unfold info_str. destruct (get_str_attr k "" pa); cbn [bind]; split; intros [x E]; try discriminate; eauto. }
  assert (SS : forall title k sep, (exists t, info_strs pa title k sep = Ok t) <-> exists v, str_list k pa = Ok v). { intros title k sep. unfold info_strs. destruct (str_list k pa); cbn [bind]; split; intros [x E]; try discriminate; eauto. }
  assert (I : forall title k, (exists t, info_int pa title k = Ok t) <-> exists v, get_int_attr k pa = Ok v). { intros title k. unfold info_int. destruct (get_int_attr k pa); cbn [bind]; split; intros [x E]; try discriminate; eauto. }
  assert (P : forall l, (exists t, supplies_text l = Ok t) <-> (fix percents l := match l with [] => Ok tt | s :: l' => let! _ := getPercent s in percents l' end) l = Ok tt).
  { induction l as [|s l IH]; [split; [reflexivity|intros _; eexists; reflexivity]|]. cbn [supplies_text]. unfold supply_text. destruct (getPercent s) as [p| | | |]; cbn [bind]; try (split; [intros [t E]; discriminate|discriminate]).
    rewrite <- IH. destruct (supplies_text l) as [r| | | |]; cbn [bind]; split; intros [t E]; try discriminate; eexists; reflexivity. }
  split.
  - intros [t H]. unfold info_text in H.
    bind_inv H as t1 E1 H. bind_inv H as t2 E2 H. bind_inv H as t3 E3 H. bind_inv H as t4 E4 H. bind_inv H as t5 E5 H. bind_inv H as t6 E6 H. bind_inv H as t7 E7 H. bind_inv H as t8 E8 H. bind_inv H as t9 E9 H. bind_inv H as t10 E10 H.
    bind_inv H as s E11 H. bind_inv H as st E11' H. bind_inv H as f E12 H. bind_inv H as t13 E13 H. bind_inv H as t14 E14 H. bind_inv H as t15 E15 H. bind_inv H as t16 E16 H. bind_inv H as a E17 H. bind_inv H as c E18 H. clear H.
    unfold info_command. cbn [each].
    repeat match goal with
      | E : info_str pa ?t ?k = Ok ?v |- _ => let X := fresh in assert (X : exists v, get_str_attr k "" pa = Ok v) by (apply (S t); eauto); clear E; destruct X as [? X]; rewrite X; cbn [bind]
      | E : info_strs pa ?t ?k ?s = Ok ?v |- _ => let X := fresh in assert (X : exists v, str_list k pa = Ok v) by (apply (SS t k s); eauto); clear E; destruct X as [? X]; rewrite ?X; cbn [bind]
      | E : info_int pa ?t ?k = Ok ?v |- _ => let X := fresh in assert (X : exists v, get_int_attr k pa = Ok v) by (apply (I t); eauto); clear E; destruct X as [? X]; rewrite X; cbn [bind]
      end.
    rewrite E11. cbn [bind]. assert (X : exists t, supplies_text s = Ok t) by eauto. apply P in X. rewrite X. cbn [bind]. rewrite E12, E18. reflexivity.
  - intros H. unfold info_command in H. cbn [each] in H.
    bind_inv H as u1 A H. bind_inv A as v1 A1 A. bind_inv A as v2 A2 A. bind_inv A as v3 A3 A. bind_inv A as v4 A4 A. bind_inv A as v5 A5 A. clear A.
    bind_inv H as u2 A H. bind_inv A as v6 A6 A. bind_inv A as v7 A7 A. bind_inv A as v8 A8 A. clear A.
    bind_inv H as u3 A H. bind_inv A as v9 A9 A. bind_inv A as v10 A10 A. clear A.
    bind_inv H as l A11 H. bind_inv H as u4 A12 H. bind_inv H as f A13 H. bind_inv H as u5 A H. bind_inv A as v13 A14 A. bind_inv A as v14 A15 A. clear A.
    bind_inv H as v15 A16 H. bind_inv H as c A17 H. clear H. pose proof A17 as A18. unfold printerInputFormats in A18. bind_inv A18 as base A19 A18. bind_inv A18 as add A20 A18. clear A18.
    destruct u4. apply P in A12. destruct A12 as [st A12]. unfold info_text, info_str, info_strs, info_int.
    rewrite A1, A2, A3, A4, A5, A6, A7, A8, A9, A10, A11. cbn [bind]. rewrite A12, A13. cbn [bind]. rewrite A14, A15, A16, A19, A20, A17. cbn [bind]. eexists. reflexivity.
Qed.
(** get-jobs: every job of the answer, in order. *)
Definition job_stanza (i : job_info) (t : string) : Prop :=
  exists n s, decimal (ji_id i) n /\ decimal (ji_state i) s /\
    t = n ++ ": " ++ ji_name i ++ line_feed ++ "State: " ++ s ++ (if String.eqb (ji_message i) "" then "" else " (" ++ ji_message i ++ ")") ++ line_feed.
Theorem C88_jobs e p id b : command_output e p id "get-jobs" = Ok b ->
  (exists error l, snd (get_jobs (e_world e) p id) = Ok (Some error, l) /\ b = []) \/
  (exists l ts, snd (get_jobs (e_world e) p id) = Ok (None, l) /\ Forall2 job_stanza l ts /\ b = bytes_of_string (glue "" ts)).
Proof.
  unfold command_output. cbn [String.eqb Ascii.eqb Bool.eqb]. intros H. bind_inv H as r E H. destruct r as [[error|] l]; cbn [fst snd] in H; injection H as <-; [left; eauto|]. right.
  exists l, (map job_text l). split; [exact E|]. split; [|unfold jobs_text; rewrite concat_glue; reflexivity]. clear. induction l as [|i l IH]; constructor; [|exact IH].
  exists (int_text (ji_id i)), (int_text (ji_state i)). split; [apply decimal_int|]. split; [apply decimal_int|]. reflexivity.
Qed.
(** get-attrs: the output determines the attributes, dates included.  (Missing: dates whose
    offsets from UTC have three digits, C87.) *)
Theorem C88_attributes_partial e p p' id id' b : command_output e p id "get-attrs" = Ok b -> command_output e p' id' "get-attrs" = Ok b ->
  wf_attrs (pr_attrs p) = true -> wf_attrs (pr_attrs p') = true -> group_ok short_offsets (pr_attrs p) = true -> group_ok short_offsets (pr_attrs p') = true ->
  pr_attrs p = pr_attrs p'.
Proof.
  unfold command_output. cbn [String.eqb Ascii.eqb Bool.eqb]. unfold attributes_text. intros H H' R R' D D'. apply typed_attrs_inj; try assumption.
  assert (E : dump (attrsToJSON (pr_attrs p)) = dump (attrsToJSON (pr_attrs p'))) by congruence. rewrite <- (app_nil_r (dump _)), <- (app_nil_r (dump (attrsToJSON (pr_attrs p')))) in E. apply dump_determines in E; [tauto|exact Logic.I|exact Logic.I].
Qed.
Definition shown_attrs : ipp_attrs :=
  [ ("document-format-supported", (tMimeMediaType, VSet [VStr "application/pdf"; VStr "image/urf"]));
    ("marker-colors", (tNameWithoutLanguage, VSet [VStr "#00FFff#ff00FF"; VStr "none"]));
    ("marker-high-levels", (tInteger, VSet [VInt 100; VInt 90]));
    ("marker-levels", (tInteger, VSet [VInt 50; VInt 20]));
    ("marker-low-levels", (tInteger, VSet [VInt 10; VInt 20]));
    ("marker-names", (tNameWithoutLanguage, VSet [VStr "CM"; VStr "waste"]));
    ("marker-types", (tKeyword, VSet [VStr "ink"; VStr "waste-ink"]));
    ("pages-per-minute", (tInteger, VInt 20));
    ("printer-name", (tNameWithoutLanguage, VStr "Office")) ].
Definition esc : string := String (bZ 27) "".
Example C88_example : info_text shown_attrs = Ok (
  "Name:" ++ nl ++ "Office" ++ nl ++ nl ++ "Pages per minute:" ++ nl ++ "20" ++ nl ++ nl ++
  "Supplies:" ++ nl ++ "* CM" ++ nl ++ "  " ++ esc ++ "[48;2;0;255;255m " ++ esc ++ "[0m" ++ esc ++ "[48;2;255;0;255m " ++ esc ++ "[0m 50% ink" ++ nl ++ "* waste" ++ nl ++ "  22%(low) waste-ink" ++ nl ++ nl ++
  "Document formats (native):" ++ nl ++ "application/pdf" ++ nl ++ "image/urf" ++ nl ++ nl ++
  "Document formats (with conversion):" ++ nl ++ "application/pdf" ++ nl ++ "image/urf" ++ nl ++ nl).
Proof. vm_compute. reflexivity. Qed.
Example C88_levels_example : exists l, supplies shown_attrs = Ok l /\ levels32 l /\ length l = 2%nat.
Proof. eexists. split; [vm_compute; reflexivity|]. split; [|reflexivity]. repeat constructor; unfold int32; cbn; lia. Qed.
Example C88_unknown_example : supply_text (mkSupply "K" "toner" [] (-2) 10 1000) = Ok ("* K" ++ nl ++ "  0%(low) toner").
Proof. vm_compute. reflexivity. Qed.
Example C88_jobs_example : jobs_text [mkInfo 7 "a.pdf" 9 ""; mkInfo (-1) "b" 5 "busy"] = "7: a.pdf" ++ nl ++ "State: 9" ++ nl ++ "-1: b" ++ nl ++ "State: 5 (busy)" ++ nl.
Proof. vm_compute. reflexivity. Qed.
Example C88_attributes_example : wf_attrs shown_attrs = true /\ group_ok short_offsets shown_attrs = true.
Proof. split; reflexivity. Qed.

Print Assumptions C88_colors.
Print Assumptions C88_supply.
Print Assumptions C88_unknown_refuted.
Print Assumptions C88_info.
Print Assumptions C88_info_exit.
Print Assumptions C88_jobs.
Print Assumptions C88_attributes_partial.
