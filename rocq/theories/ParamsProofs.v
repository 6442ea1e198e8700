(** Lemmas about the parsing of page ranges and media sizes and about page sequences. *)
From Verif Require Import Base BaseLemmas FloatModel StringModel StringProofs StringSpec ParamsModel PpmSpec PpmProofs ParamsSpec
  StringProperties.
From Coq Require Import Lia ZifyBool ZifyNat.
Local Open Scope Z_scope.

(** ** Numbers *)
Lemma digits_number l : digits l -> l <> [] -> exists v, number l v.
Proof.
  induction l as [|c l IH] using rev_ind; [congruence|]. intros Hd _.
  apply Forall_app in Hd. destruct Hd as [Hl Hc]. inversion Hc as [|? ? Hc' _]; subst.
  assert (Ed : exists d, 0 <= d <= 9 /\ c = bZ (48 + d)).
  { exists (Zb c - 48). unfold is_digit in Hc'. split; [lia|]. replace (48 + (Zb c - 48)) with (Zb c) by lia.
    symmetry. apply bZ_Zb. }
  destruct Ed as (d & Hdr & ->). destruct l as [|x l].
  - exists d. apply number_one. assumption.
  - destruct IH as [v Hv]; [assumption|discriminate|]. exists (10 * v + d). apply number_more; assumption.
Qed.
Lemma all_digits_spec s : all_digits s = true <-> digits (bytes_of_string s).
Proof.
  induction s as [|c s IH]; simpl; [split; [constructor|reflexivity]|].
  rewrite andb_true_iff, IH. split.
  - intros [H1 H2]. constructor; assumption.
  - intros H. inversion H. auto.
Qed.
Lemma match_single_spec s : match_single s = true <-> exists n, digits_of s n.
Proof.
  unfold match_single, digits_of. split.
  - intros H. apply digits_number.
    + apply all_digits_spec. destruct s; [discriminate|assumption].
    + destruct s; discriminate.
  - intros [n H]. apply number_digits in H. destruct H as (Hd & Hne & _).
    apply all_digits_spec in Hd. destruct s; [contradiction Hne; reflexivity|assumption].
Qed.
Lemma stoul_number s n : digits_of s n -> stoul s = if n <? two64 then Ok n else Throw OutOfRange.
Proof.
  unfold digits_of. intros Hn. destruct (Z.ltb_spec n two64) as [Hlt|Hge].
  - rewrite <- (string_bytes_id s). apply number_stoul; assumption.
  - pose proof (number_digits _ _ Hn) as (Hd & Hne & Hp). pose proof (number_scan _ _ Hn) as Hs.
    rewrite string_bytes_id in Hs.
    destruct s as [|c s]; [contradiction Hne; reflexivity|].
    assert (H1 : is_digit c = true) by (inversion Hd; assumption).
    destruct (digit_not c H1) as (E1 & _ & _ & E2 & E3).
    unfold stoul. cbn [skip_space]. rewrite E1. apply Z.eqb_neq in E2, E3. rewrite E2, E3. cbn [starts_digit]. rewrite H1.
    rewrite Hs. rewrite (proj2 (Z.ltb_ge _ _) Hge). reflexivity.
Qed.
Lemma span_digits_spec s : let '(a, b) := span_digits s in
  s = (a ++ b)%string /\ all_digits a = true /\ match b with String c _ => is_digit c = false | _ => True end.
Proof.
  induction s as [|c s IH]; simpl; [auto|]. destruct (is_digit c) eqn:E.
  - destruct (span_digits s) as [a b]. destruct IH as (-> & H2 & H3). simpl. rewrite E, H2. auto.
  - auto.
Qed.
Lemma span_digits_app a c b : all_digits a = true -> is_digit c = false ->
  span_digits (a ++ String c b) = (a, String c b).
Proof.
  intros Ha Hc. induction a as [|x a IH]; cbn [append span_digits]; [rewrite Hc; reflexivity|].
  simpl in Ha. apply andb_prop in Ha. destruct Ha as [-> Ha]. rewrite IH by assumption. reflexivity.
Qed.
Lemma digits_all s n : digits_of s n -> all_digits s = true /\ s <> ""%string.
Proof.
  intros H. pose proof (number_digits _ _ H) as (Hd & Hne & _). split; [apply all_digits_spec; assumption|].
  intros ->. apply Hne. reflexivity.
Qed.
Lemma match_range_spec s a b : match_range s = Some (a, b) <->
  s = (a ++ "-" ++ b)%string /\ (exists n, digits_of a n) /\ (b = ""%string \/ exists m, digits_of b m).
Proof.
  unfold match_range. split.
  - pose proof (span_digits_spec s) as H. destruct (span_digits s) as [x y].
    destruct H as (-> & Hx & Hy). destruct x as [|cx x]; [discriminate|]. destruct y as [|cy y]; [discriminate|].
    destruct (Ascii.eqb_spec cy "-") as [->|]; [|discriminate]. cbn [andb].
    destruct (all_digits y) eqn:Ey; [|discriminate]. intros E. injection E as <- <-.
    split; [reflexivity|]. split.
    + apply digits_number; [apply all_digits_spec; assumption|discriminate].
    + destruct y as [|c y]; [left; reflexivity|right]. apply digits_number; [apply all_digits_spec; assumption|discriminate].
  - intros (-> & [n Hn] & Hb). destruct (digits_all _ _ Hn) as [Ha Hne]. cbn [append].
    rewrite span_digits_app by (assumption || reflexivity). destruct a as [|c a]; [congruence|].
    cbn [Ascii.eqb Bool.eqb andb].
    assert (Hd : all_digits b = true) by (destruct Hb as [->|[m Hm]]; [reflexivity|apply (digits_all _ _ Hm)]).
    rewrite Hd. reflexivity.
Qed.
Lemma digits_unique s n m : digits_of s n -> digits_of s m -> n = m.
Proof. apply number_unique. Qed.

(** a single number is not a range *)
Lemma no_minus s n : digits_of s n -> forall a b, s <> (a ++ "-" ++ b)%string.
Proof.
  intros H a b ->. apply digits_all in H. destruct H as [H _]. induction a as [|c a IH]; simpl in H; [discriminate|].
  apply andb_prop in H. destruct H. auto.
Qed.

(** ** parsePageRange *)
(** the range a piece denotes, as a function *)
Lemma range_text_unique s r r' : range_text s r -> range_text s r' -> r = r'.
Proof.
  assert (K : forall a b n, digits_of a n -> forall a' b' n', digits_of a' n' ->
            (a ++ "-" ++ b = a' ++ "-" ++ b')%string -> a = a' /\ b = b').
  { intros a b n Ha a' b' n' Ha' E.
    pose proof (proj1 (digits_all _ _ Ha)) as D. pose proof (proj1 (digits_all _ _ Ha')) as D'.
    pose proof (span_digits_app a "-" b D eq_refl) as S1. pose proof (span_digits_app a' "-" b' D' eq_refl) as S2.
    cbn [append] in E. rewrite E in S1. rewrite S1 in S2. injection S2 as -> ->. auto. }
  intros H H'. destruct H as [s n Hn|a b n m Ha Hb|a n Ha]; inversion H' as [s' n' Hn' E1 E2|a' b' n' m' Ha' Hb' E1 E2|a' n' Ha' E1 E2]; subst.
  - rewrite (digits_unique _ _ _ Hn Hn'). reflexivity.
  - exfalso. eapply no_minus; [exact Hn|reflexivity].
  - exfalso. eapply (no_minus _ _ Hn a' ""%string). rewrite app_s_nil. reflexivity.
  - exfalso. eapply no_minus; [exact Hn'|reflexivity].
  - destruct (K _ _ _ Ha' _ _ _ Ha E1) as [-> ->].
    rewrite (digits_unique _ _ _ Ha Ha'), (digits_unique _ _ _ Hb Hb'). reflexivity.
  - exfalso. destruct (K a' ""%string _ Ha' _ _ _ Ha E1) as [-> <-]. apply digits_all in Hb. destruct Hb. congruence.
  - exfalso. eapply (no_minus _ _ Hn' a ""%string). reflexivity.
  - exfalso. destruct (K _ _ _ Ha' a ""%string _ Ha E1) as [-> ->]. apply digits_all in Hb'. destruct Hb'. congruence.
  - destruct (K a' ""%string _ Ha' a ""%string _ Ha E1) as [-> _]. rewrite (digits_unique _ _ _ Ha Ha'). reflexivity.
Qed.

(** what the loop does with one piece *)
Lemma piece_cases s :
  (exists n, digits_of s n /\ match_single s = true) \/
  (exists a n, s = (a ++ "-")%string /\ digits_of a n /\ match_single s = false /\ match_range s = Some (a, ""%string)) \/
  (exists a b n m, s = (a ++ "-" ++ b)%string /\ digits_of a n /\ digits_of b m /\ match_single s = false /\
     match_range s = Some (a, b) /\ b <> ""%string) \/
  ((forall r, ~ range_text s r) /\ match_single s = false /\ match_range s = None).
Proof.
  destruct (match_single s) eqn:Es.
  - left. apply match_single_spec in Es. destruct Es as [n Hn]. eauto.
  - right. destruct (match_range s) as [[a b]|] eqn:Er.
    + apply match_range_spec in Er as Er'. destruct Er' as (Hs & [n Hn] & Hb).
      destruct Hb as [->|[m Hm]].
      * left. exists a, n. rewrite app_s_nil in Hs. auto.
      * right. left. exists a, b, n, m. pose proof (digits_all _ _ Hm). intuition.
    + right. right. split; [|auto]. intros r Hr. inversion Hr as [s' n Hn|a b n m Ha Hb|a n Ha]; subst.
      * assert (match_single s = true) by (apply match_single_spec; eauto). congruence.
      * assert (match_range (a ++ "-" ++ b) = Some (a, b)) by (apply match_range_spec; eauto 6). congruence.
      * assert (match_range (a ++ "-") = Some (a, ""%string)) by (apply match_range_spec; split; [reflexivity|eauto]).
        congruence.
Qed.

Lemma pow64 : 2 ^ 64 = two64. Proof. reflexivity. Qed.
Lemma to_end_eq : to_end = size_max. Proof. reflexivity. Qed.

Definition no_result (pieces : list string) (prev : Z) : Prop :=
  forall rs, Forall2 range_text pieces rs -> in_size_t rs -> ~ ascending prev rs.
Definition huge (s : string) : Prop := exists a d b n, s = (a ++ d ++ b)%string /\ digits_of d n /\ two64 <= n.

Lemma parse_pieces_spec pieces : forall prev acc, 0 <= prev ->
  match parse_pieces pieces prev acc with
  | Ok l => (exists rs, l = acc ++ rs /\ Forall2 range_text pieces rs /\ in_size_t rs /\ ascending prev rs)
            \/ (l = [] /\ no_result pieces prev)
  | Throw e => e = OutOfRange /\ Exists huge pieces
  | _ => False
  end.
Proof.
  induction pieces as [|s pieces IH]; intros prev acc Hp; cbn [parse_pieces].
  - left. exists []. rewrite app_nil_r. repeat constructor.
  - assert (Hstep : forall r, range_text s r -> fst r < two64 -> snd r < two64 -> 0 <= snd r ->
      (prev < fst r /\ fst r <= snd r ->
        match parse_pieces pieces (snd r) (acc ++ [r]) with
        | Ok l => (exists rs, l = acc ++ rs /\ Forall2 range_text (s :: pieces) rs /\ in_size_t rs /\ ascending prev rs)
                  \/ (l = [] /\ no_result (s :: pieces) prev)
        | Throw e => e = OutOfRange /\ Exists huge (s :: pieces)
        | _ => False
        end) /\
      (~ (prev < fst r /\ fst r <= snd r) -> no_result (s :: pieces) prev)).
    { intros r Hr B1 B2 B3. split.
      - intros [Ho1 Ho2]. specialize (IH (snd r) (acc ++ [r]) B3).
        destruct (parse_pieces pieces (snd r) (acc ++ [r])) as [l|e| | |]; auto.
        + destruct IH as [(rs & -> & H1 & H2 & H3)|(-> & H1)].
          * left. exists (r :: rs). rewrite <- app_assoc. split; [reflexivity|]. split; [constructor; assumption|].
            split; [unfold in_size_t in *; rewrite pow64 in *; constructor; [exact (conj B1 B2)|exact H2]|]. destruct r as [f t]. exact (conj Ho1 (conj Ho2 H3)).
          * right. split; [reflexivity|]. intros rs H2 H3 H4.
            inversion H2 as [|? r' ? rs' Hr' Hrs]; subst. rewrite (range_text_unique _ _ _ Hr Hr') in *.
            destruct r' as [f t]. destruct H4 as (_ & _ & H4). inversion H3; subst. eapply H1; eassumption.
        + destruct IH as [-> H]. split; [reflexivity|apply Exists_cons_tl; assumption].
      - intros Hn rs H2 H3 H4. inversion H2 as [|? r' ? rs' Hr' Hrs]; subst. rewrite (range_text_unique _ _ _ Hr Hr') in *.
        destruct r' as [f t]. destruct H4 as (H4 & H5 & _). apply Hn. auto. }
    destruct (piece_cases s) as [(n & Hn & ->)|[(a & n & -> & Ha & -> & ->)|[(a & b & n & m & -> & Ha & Hb & -> & -> & Hne)|(Hno & -> & ->)]]].
    + rewrite (stoul_number _ _ Hn). destruct (Z.ltb_spec n two64) as [Hl|Hl]; cbn [bind].
      * pose proof (number_digits _ _ Hn) as (_ & _ & Hn0).
        destruct (Hstep (n, n) (range_single _ _ Hn) Hl Hl Hn0) as [G1 G2]. cbn [fst snd] in *.
        destruct (Z.leb_spec n prev) as [Hle|Hgt].
        -- right. split; [reflexivity|]. apply G2. lia.
        -- apply G1. lia.
      * split; [reflexivity|]. apply Exists_cons_hd. exists ""%string, s, ""%string, n. rewrite app_s_nil. auto.
    + rewrite (stoul_number _ _ Ha). destruct (Z.ltb_spec n two64) as [Hl|Hl]; cbn [bind].
      * change (String.eqb "" "") with true. cbn [bind].
        assert (Ht : to_end < two64) by reflexivity. assert (Ht0 : 0 <= to_end) by (vm_compute; discriminate).
        destruct (Hstep (n, to_end) (range_open _ _ Ha) Hl Ht Ht0) as [G1 G2].
        cbn [fst snd] in *. change size_max with to_end.
        destruct ((to_end <? n) || (n <=? prev)) eqn:Ec.
        -- right. split; [reflexivity|]. apply G2. clear - Ec. lia.
        -- apply G1. clear - Ec. lia.
      * split; [reflexivity|]. apply Exists_cons_hd. exists ""%string, a, "-"%string, n. auto.
    + rewrite (stoul_number _ _ Ha). destruct (Z.ltb_spec n two64) as [Hl|Hl]; cbn [bind].
      * destruct (String.eqb_spec b ""); [congruence|]. rewrite (stoul_number _ _ Hb).
        destruct (Z.ltb_spec m two64) as [Hl'|Hl']; cbn [bind].
        -- pose proof (number_digits _ _ Hb) as (_ & _ & Hm0).
           destruct (Hstep (n, m) (range_closed _ _ _ _ Ha Hb) Hl Hl' Hm0) as [G1 G2]. cbn [fst snd] in *.
           destruct ((m <? n) || (n <=? prev)) eqn:Ec.
           ++ right. split; [reflexivity|]. apply G2. clear - Ec. lia.
           ++ apply G1. clear - Ec. lia.
        -- split; [reflexivity|]. apply Exists_cons_hd. exists (a ++ "-")%string, b, ""%string, m.
           rewrite app_s_nil, app_s_assoc. auto.
      * split; [reflexivity|]. apply Exists_cons_hd. exists ""%string, a, ("-" ++ b)%string, n. auto.
    + right. split; [reflexivity|]. intros rs H2 _ _. inversion H2; subst. eapply Hno. eassumption.
Qed.

(** ** Page sequences *)
Lemma count_from_snoc n : forall f, count_from (S n) f = count_from n f ++ [f + Z.of_nat n].
Proof.
  induction n as [|n IH]; intros f; [cbn; f_equal; lia|].
  change (f :: count_from (S n) (f + 1) = (f :: count_from n (f + 1)) ++ [f + Z.of_nat (S n)]).
  rewrite IH. cbn [app]. do 3 f_equal. lia.
Qed.
Lemma document_snoc n : 0 <= n -> document (n + 1) = document n ++ [n + 1].
Proof.
  intros Hn. unfold document. replace (Z.to_nat (n + 1)) with (S (Z.to_nat n)) by lia.
  rewrite seq_S, map_app. cbn [map]. do 2 f_equal. lia.
Qed.
Lemma count_pages n f l : 0 <= n -> 1 <= f -> count_from (Z.to_nat (Z.min l n - f + 1)) f = pages_of n (f, l).
Proof.
  intros Hn Hf. pattern n. apply natlike_ind; [| |assumption].
  - replace (Z.to_nat (Z.min l 0 - f + 1)) with 0%nat by lia. reflexivity.
  - clear n Hn. intros n Hn IH. unfold Z.succ. unfold pages_of. rewrite document_snoc, filter_app by assumption.
    fold (pages_of n (f, l)). rewrite <- IH. cbn [filter fst snd].
    destruct ((f <=? n + 1) && (n + 1 <=? l)) eqn:E.
    + replace (Z.to_nat (Z.min l (n + 1) - f + 1)) with (S (Z.to_nat (n + 1 - f))) by lia.
      replace (Z.to_nat (Z.min l n - f + 1)) with (Z.to_nat (n + 1 - f)) by lia.
      rewrite count_from_snoc. do 2 f_equal. lia.
    + rewrite app_nil_r. f_equal. lia.
Qed.
Lemma range_pages_ok n f l : 0 <= n < to_end -> 1 <= f -> range_pages n f l = Ok (pages_of n (f, l)).
Proof.
  intros Hn Hf. unfold range_pages. rewrite <- count_pages by lia.
  unfold to_end in Hn. rewrite pow64 in Hn.
  replace (Z.min l n =? two64 - 1) with false by lia. reflexivity.
Qed.
Lemma select_pages_ok n rs : 0 <= n < to_end -> Forall (fun r => 1 <= fst r) rs ->
  select_pages n rs = Ok (flat_map (pages_of n) rs).
Proof.
  intros Hn. induction rs as [|[f l] rs IH]; intros H; [reflexivity|].
  inversion H; subst. cbn [select_pages flat_map]. rewrite range_pages_ok by assumption.
  cbn [bind]. rewrite IH by assumption. reflexivity.
Qed.
Lemma document_pages n : pages_of n (1, n) = document n.
Proof.
  unfold pages_of, document. cbn [fst snd].
  assert (G : forall l, Forall (fun q => 1 <= q <= n) l -> filter (fun q => (1 <=? q) && (q <=? n)) l = l).
  { induction l as [|q l IH]; intros H; [reflexivity|]. inversion H; subst. cbn [filter].
    replace ((1 <=? q) && (q <=? n)) with true by lia. f_equal. auto. }
  apply G. apply Forall_forall. intros q Hq. apply in_map_iff in Hq. destruct Hq as (i & <- & Hi).
  apply in_seq in Hi. lia.
Qed.
Lemma selected_ok n rs : 0 <= n < to_end -> Forall (fun r => 1 <= fst r) rs ->
  select_pages n (match rs with [] => [(1, n)] | l => l end) = Ok (selection n rs).
Proof.
  intros Hn H. destruct rs as [|r rs].
  - rewrite select_pages_ok; [|assumption|repeat constructor; simpl; lia].
    cbn [flat_map selection]. rewrite app_nil_r, document_pages. reflexivity.
  - apply select_pages_ok; assumption.
Qed.
Lemma pages_of_in n r q : In q (pages_of n r) <-> fst r <= q <= snd r /\ 1 <= q <= n.
Proof.
  unfold pages_of, document. rewrite filter_In, in_map_iff. split.
  - intros [(i & <- & Hi) H]. apply in_seq in Hi. lia.
  - intros [H1 H2]. split; [|lia]. exists (Z.to_nat q). rewrite in_seq. lia.
Qed.
Lemma selection_no_blank n rs : ~ In blank (selection n rs).
Proof.
  unfold blank. destruct rs as [|r rs].
  - cbn [selection]. rewrite <- document_pages, pages_of_in. lia.
  - cbn [selection]. rewrite in_flat_map. intros (x & _ & Hx). rewrite pages_of_in in Hx. lia.
Qed.

Lemma append_copies_eq n : forall acc c, append_copies n acc c = acc ++ concat (repeat c n).
Proof.
  induction n as [|n IH]; intros acc c; cbn [append_copies repeat concat]; [symmetry; apply app_nil_r|].
  rewrite IH, app_assoc. reflexivity.
Qed.
Lemma push_sheet_eq n : forall s acc, push_sheet n s acc = acc ++ concat (repeat s n).
Proof.
  induction n as [|n IH]; intros s acc; cbn [push_sheet repeat concat]; [symmetry; apply app_nil_r|].
  rewrite IH, app_assoc. reflexivity.
Qed.
Lemma concat_single {A} (a : A) n : concat (repeat [a] n) = repeat a n.
Proof. induction n; simpl; congruence. Qed.
Lemma uncollated_one c l : forall acc, uncollated false c l acc = Ok (acc ++ flat_map (fun q => repeat q c) l).
Proof.
  induction l as [|q l IH]; intros acc; cbn [uncollated flat_map]; [rewrite app_nil_r; reflexivity|].
  rewrite IH, push_sheet_eq, concat_single, app_assoc. reflexivity.
Qed.
Definition sheet_copies (c : nat) (s : Z * Z) : list Z := concat (repeat [fst s; snd s] c).
Lemma even_odd_1 n : Nat.eqb (Nat.modulo n 2) 1 = negb (Nat.even n).
Proof.
  rewrite <- Nat.negb_odd, negb_involutive. destruct (Nat.odd n) eqn:E.
  - apply Nat.odd_spec in E. destruct E as [k ->]. apply Nat.eqb_eq.
    replace (2 * k + 1)%nat with (1 + k * 2)%nat by lia. rewrite Nat.mod_add by lia. reflexivity.
  - rewrite <- Nat.negb_even in E. apply negb_false_iff, Nat.even_spec in E. destruct E as [k ->].
    replace (2 * k)%nat with (0 + k * 2)%nat by lia. rewrite Nat.mod_add by lia. reflexivity.
Qed.
Lemma whole_sheets_more a b l : whole_sheets (a :: b :: l) = a :: b :: whole_sheets l.
Proof. unfold whole_sheets. cbn [length Nat.even]. destruct (Nat.even (length l)); reflexivity. Qed.
Lemma uncollated_two c l s : sheets l s -> forall acc,
  uncollated true c (whole_sheets l) acc = Ok (acc ++ flat_map (sheet_copies c) s).
Proof.
  induction 1 as [|a|a b l s _ IH]; intros acc.
  - cbn. rewrite app_nil_r. reflexivity.
  - cbn [whole_sheets length Nat.even app uncollated flat_map]. rewrite push_sheet_eq, app_nil_r. reflexivity.
  - rewrite whole_sheets_more. cbn [uncollated flat_map]. rewrite IH, push_sheet_eq, app_assoc. reflexivity.
Qed.
Lemma sheets_exist l : exists s, sheets l s.
Proof.
  assert (G : forall n l, (length l <= n)%nat -> exists s, sheets l s).
  { induction n as [|n IH]; intros m Hm; [destruct m; [eexists; constructor|simpl in Hm; lia]|].
    destruct m as [|a [|b m]]; [eexists; constructor|eexists; constructor|].
    destruct (IH m) as [s Hs]; [simpl in Hm; lia|]. eexists. constructor. exact Hs. }
  apply (G (length l)). lia.
Qed.
Lemma sheets_unique l s : sheets l s -> forall s', sheets l s' -> s = s'.
Proof. induction 1; intros s' H'; inversion H'; subst; f_equal; auto. Qed.
Lemma count_concat_repeat l n q : count_occ Z.eq_dec (concat (repeat l n)) q = (n * count_occ Z.eq_dec l q)%nat.
Proof.
  induction n as [|n IH]; cbn [repeat concat]; [reflexivity|]. rewrite count_occ_app, IH. reflexivity.
Qed.

(** ** Media size names *)
Lemma split_last_none c s : ~ has_char c s -> split_last c s = None.
Proof.
  induction s as [|d s IH]; intros H; [reflexivity|]. cbn [split_last].
  rewrite IH by (intros K; apply H; right; exact K).
  destruct (Ascii.eqb_spec c d) as [->|]; [|reflexivity]. contradiction H. left. reflexivity.
Qed.
Lemma split_last_spec c s a b : split_last c s = Some (a, b) <-> s = (a ++ String c b)%string /\ ~ has_char c b.
Proof.
  revert a b. induction s as [|d s IH]; intros a b; cbn [split_last].
  - split; [discriminate|]. intros [H _]. destruct a; discriminate.
  - split.
    + destruct (split_last c s) as [[a' b']|] eqn:E.
      * intros H. injection H as <- <-. destruct (proj1 (IH a' b') eq_refl) as [-> H]. split; [reflexivity|assumption].
      * destruct (Ascii.eqb_spec c d) as [->|]; [|discriminate]. intros H. injection H as <- <-. split; [reflexivity|].
        intros Hc. apply in_split in Hc. destruct Hc as (l1 & l2 & Hl).
        assert (Hx : exists a b, s = (a ++ String d b)%string /\ ~ has_char d b).
        { clear -Hl. revert l1 l2 Hl. induction s as [|x s IHs]; intros l1 l2 Hl; [destruct l1; discriminate|].
          destruct (in_dec ascii_dec d (list_ascii_of_string s)) as [Hi|Hi].
          - apply in_split in Hi. destruct Hi as (k1 & k2 & Hk). destruct (IHs _ _ Hk) as (a & b & -> & Hb).
            exists (String x a), b. split; [reflexivity|assumption].
          - destruct l1 as [|y l1].
            + injection Hl as -> _. exists ""%string, s. split; [reflexivity|assumption].
            + injection Hl as -> Hl. contradiction Hi. rewrite Hl. apply in_or_app. right. left. reflexivity. }
        destruct Hx as (a & b & Hs & Hb). pose proof (proj2 (IH a b) (conj Hs Hb)). discriminate.
    + intros [H Hb]. destruct a as [|y a].
      * injection H as -> ->. rewrite split_last_none by assumption. rewrite Ascii.eqb_refl. reflexivity.
      * injection H as -> H. rewrite (proj2 (IH a b) (conj H Hb)). reflexivity.
Qed.
Lemma split_first_spec c s a b : split_first c s = Some (a, b) <-> s = (a ++ String c b)%string /\ ~ has_char c a.
Proof.
  revert a b. induction s as [|d s IH]; intros a b; cbn [split_first].
  - split; [discriminate|]. intros [H _]. destruct a; discriminate.
  - destruct (Ascii.eqb_spec c d) as [->|Hne].
    + split.
      * intros H. injection H as <- <-. split; [reflexivity|intros []].
      * intros [H Hc]. destruct a as [|y a]; [injection H as ->; reflexivity|]. injection H as -> _.
        contradiction Hc. left. reflexivity.
    + split.
      * destruct (split_first c s) as [[a' b']|] eqn:E; [|discriminate]. intros H. injection H as <- <-.
        destruct (proj1 (IH a' b') eq_refl) as [-> H]. split; [reflexivity|]. intros [|K]; [congruence|auto].
      * intros [H Hc]. destruct a as [|y a]; [injection H as -> _; congruence|]. injection H as -> H.
        rewrite (proj2 (IH a b)); [reflexivity|]. split; [assumption|]. intros K. apply Hc. right. exact K.
Qed.
Lemma all_digits_chars s : all_digits s = true -> forall c, has_char c s -> is_digit c = true.
Proof.
  intros H c Hc. apply all_digits_spec in H. unfold digits in H. rewrite Forall_forall in H. apply H. exact Hc.
Qed.
Lemma digits_chars s n c : digits_of s n -> has_char c s -> is_digit c = true.
Proof. intros H. apply all_digits_chars. apply (digits_all _ _ H). Qed.
Lemma decimal_chars s n d k c : decimal_text s n d k -> has_char c s -> is_digit c = true \/ c = "."%char.
Proof.
  intros H Hc. destruct H as [s n H|a b n d Ha Hb].
  - left. eapply digits_chars; eassumption.
  - apply has_char_app in Hc. destruct Hc as [Hc|[Hc|Hc]]; [left|right|left].
    + exact (digits_chars _ _ _ Ha Hc).
    + congruence.
    + exact (digits_chars _ _ _ Hb Hc).
Qed.
Lemma span_digits_all s : all_digits s = true -> span_digits s = (s, ""%string).
Proof.
  induction s as [|c s IH]; cbn [all_digits span_digits]; [reflexivity|]. intros H. apply andb_prop in H.
  destruct H as [-> H]. rewrite IH by assumption. reflexivity.
Qed.
Lemma match_decimal_spec s : match_decimal s = true <-> exists n d k, decimal_text s n d k.
Proof.
  unfold match_decimal. split.
  - pose proof (span_digits_spec s) as H. destruct (span_digits s) as [x y].
    destruct H as (-> & Hx & Hy). destruct x as [|cx x]; [discriminate|].
    destruct (digits_number (bytes_of_string (String cx x))) as [n Hn]; [apply all_digits_spec; assumption|discriminate|].
    destruct y as [|cy y].
    + intros _. exists n, 0, 0%nat. rewrite app_s_nil. constructor. exact Hn.
    + destruct (Ascii.eqb_spec cy ".") as [->|]; [|discriminate]. destruct y as [|c y]; [discriminate|]. cbn [andb].
      intros Hc.
      destruct (digits_number (bytes_of_string (String c y))) as [d Hd]; [apply all_digits_spec; assumption|discriminate|].
      exists n, d, (String.length (String c y)). apply (decimal_frac (String cx x) (String c y)); assumption.
  - intros (n & d & k & H). destruct H as [s n H|a b n d Ha Hb].
    + destruct (digits_all _ _ H) as [Hd Hne]. rewrite span_digits_all by assumption. destruct s; [congruence|reflexivity].
    + destruct (digits_all _ _ Ha) as [Da Na]. destruct (digits_all _ _ Hb) as [Db Nb]. cbn [append].
      rewrite span_digits_app by (assumption || reflexivity). destruct a; [congruence|]. destruct b; [congruence|exact Db].
Qed.
Lemma name_char_spec c : name_char c = true <-> name_byte c.
Proof.
  unfold name_char, name_byte, is_digit. rewrite !orb_true_iff, !andb_true_iff, !Z.leb_le, !Ascii.eqb_eq. tauto.
Qed.
Lemma all_name_chars_spec s : all_name_chars s = true <-> forall c, In c (list_ascii_of_string s) -> name_byte c.
Proof.
  induction s as [|d s IH]; cbn [all_name_chars list_ascii_of_string].
  - split; [intros _ c []|reflexivity].
  - rewrite andb_true_iff, IH, name_char_spec. split.
    + intros [H1 H2] c [<-|Hc]; auto.
    + intros H. split; [apply H; left; reflexivity|]. intros c Hc. apply H. right. exact Hc.
Qed.
Definition unit_string (inches : bool) : string := if inches then "in" else "mm".
Lemma match_paper_size_spec s w h u :
  match_paper_size s = Some (w, h, u) <->
  exists inches, u = unit_string inches /\ size_name_text s w h inches /\
    (exists n d k, decimal_text w n d k) /\ (exists n d k, decimal_text h n d k).
Proof.
  unfold match_paper_size. split.
  - destruct (split_last "_" s) as [[name dims]|] eqn:E; [|discriminate]. apply split_last_spec in E. destruct E as [-> Hd].
    destruct (String.eqb_spec name ""); [discriminate|]. destruct (all_name_chars name) eqn:En; [|discriminate]. cbn [orb negb].
    destruct (split_first "x" dims) as [[w' hu]|] eqn:E; [|discriminate]. apply split_first_spec in E. destruct E as [-> Hw].
    set (m := (String.length hu - 2)%nat). destruct (match_decimal w') eqn:E1; [|discriminate].
    destruct (match_decimal (take m hu)) eqn:E2; [|discriminate]. cbn [andb].
    destruct (String.eqb (drop m hu) "mm" || String.eqb (drop m hu) "in") eqn:E3; [|discriminate]. cbn [andb].
    destruct (2 <=? String.length hu)%nat eqn:E4; [|discriminate]. intros H. injection H as <- <- <-.
    apply match_decimal_spec in E1, E2. apply orb_true_iff in E3. rewrite !String.eqb_eq in E3.
    pose proof (take_drop m hu) as Et.
    assert (G : exists inches, drop m hu = unit_string inches /\ unit_text (drop m hu) inches).
    { destruct E3 as [->| ->]; [exists false|exists true]; split; constructor. }
    destruct G as (inches & G1 & G2). exists inches. split; [exact G1|]. split; [|split; assumption].
    exists name, (drop m hu). split; [assumption|]. split; [apply all_name_chars_spec; assumption|]. split; [exact G2|].
    rewrite Et. reflexivity.
  - intros (inches & Hu0 & (name & u1 & Hne & Hn & Hu & ->) & Hw & Hh). subst u. rename u1 into u.
    assert (Hwx : forall c, has_char c w -> is_digit c = true \/ c = "."%char)
      by (destruct Hw as (? & ? & ? & Hw); intros c; apply (decimal_chars _ _ _ _ _ Hw)).
    assert (Hhx : forall c, has_char c h -> is_digit c = true \/ c = "."%char)
      by (destruct Hh as (? & ? & ? & Hh'); intros c; apply (decimal_chars _ _ _ _ _ Hh')).
    assert (Eu : u = unit_string inches) by (destruct Hu; reflexivity).
    assert (Hux : ~ has_char "_" u) by (destruct Hu; cbn; intuition discriminate).
    assert (Hul : String.length u = 2%nat) by (destruct Hu; reflexivity).
    rewrite (proj2 (split_last_spec "_" _ name (w ++ "x" ++ h ++ u)%string)).
    2:{ split; [reflexivity|]. intros K. apply has_char_app in K. destruct K as [K|[K|K]].
        - apply Hwx in K. destruct K as [K|K]; discriminate.
        - discriminate.
        - apply (proj1 (has_char_app "_" h u)) in K. destruct K as [K|K]; [|exact (Hux K)]. apply Hhx in K. destruct K as [K|K]; discriminate. }
    destruct (String.eqb_spec name ""); [congruence|]. rewrite (proj2 (all_name_chars_spec name) Hn). cbn [orb negb].
    rewrite (proj2 (split_first_spec "x" _ w (h ++ u)%string)).
    2:{ split; [reflexivity|]. intros K. apply Hwx in K. destruct K as [K|K]; discriminate. }
    rewrite length_app_s. replace (String.length h + String.length u - 2)%nat with (String.length h) by lia.
    rewrite take_app, drop_app. rewrite (proj2 (match_decimal_spec w) Hw), (proj2 (match_decimal_spec h) Hh).
    replace (2 <=? String.length h + String.length u)%nat with true by lia. rewrite <- Eu.
    destruct Hu; reflexivity.
Qed.

(** *** The numbers *)
Lemma digits_no_dot a n : digits_of a n -> ~ has_char "." a.
Proof. intros H K. apply (digits_chars _ _ _ H) in K. discriminate. Qed.
Lemma from_string_spec s n d k : decimal_text s n d k ->
  from_string s =
    if (n <? two64) && (d <? two64) then
      Ok (if Nat.eqb k 0 then fofZ n else fadd (fofZ n) (fdiv (fofZ d) (fpow10 k)))
    else Throw OutOfRange.
Proof.
  unfold from_string. intros H. destruct H as [s n H|a b n d Ha Hb].
  - destruct (split_first "." s) as [[x y]|] eqn:E.
    + apply split_first_spec in E. destruct E as [E _]. exfalso. apply (digits_no_dot _ _ H). rewrite E.
      apply has_char_app. right. left. reflexivity.
    + rewrite (stoul_number _ _ H). cbn [Z.ltb Z.compare Nat.eqb]. change (0 <? two64) with true. rewrite andb_true_r.
      destruct (n <? two64); reflexivity.
  - rewrite (proj2 (split_first_spec "." _ a b)).
    2:{ split; [reflexivity|apply (digits_no_dot _ _ Ha)]. }
    rewrite (stoul_number _ _ Ha), (stoul_number _ _ Hb).
    destruct (n <? two64); [|reflexivity]. cbn [bind andb]. destruct (d <? two64); [|reflexivity]. cbn [bind].
    destruct b; [destruct (digits_all _ _ Hb); congruence|]. reflexivity.
Qed.
Lemma decimal_unique s n d k n' d' k' : decimal_text s n d k -> decimal_text s n' d' k' -> n = n' /\ d = d' /\ k = k'.
Proof.
  intros H H'. destruct H as [s n H|a b n d Ha Hb]; inversion H' as [s1 n1 H1 E1|a1 b1 n1 d1 Ha1 Hb1 E1]; subst.
  - rewrite (digits_unique _ _ _ H H1). auto.
  - exfalso. apply (digits_no_dot _ _ H). apply has_char_app. right. left. reflexivity.
  - exfalso. apply (digits_no_dot _ _ H1). apply has_char_app. right. left. reflexivity.
  - assert (E : split_first "." (a ++ "." ++ b) = Some (a, b))
      by (apply split_first_spec; split; [reflexivity|apply (digits_no_dot _ _ Ha)]).
    assert (E' : split_first "." (a1 ++ "." ++ b1) = Some (a1, b1))
      by (apply split_first_spec; split; [reflexivity|apply (digits_no_dot _ _ Ha1)]).
    cbn [append] in E, E', E1. rewrite E1 in E'. rewrite E in E'. injection E' as <- <-.
    rewrite (digits_unique _ _ _ Ha Ha1), (digits_unique _ _ _ Hb Hb1). auto.
Qed.
Lemma number_bound l v : number l v -> v < 10 ^ Z.of_nat (length l).
Proof.
  induction 1 as [d Hd|l v d Hn IH Hd]; [cbn; lia|].
  rewrite app_length. replace (Z.of_nat (length l + length [bZ (48 + d)])) with (Z.of_nat (length l) + 1) by (cbn [length]; lia).
  rewrite Z.pow_add_r by lia. lia.
Qed.
