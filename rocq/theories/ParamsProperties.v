(** Page ranges (C16), page sequences (C17, C18, C19), media size names (C20) and page
    geometry (C21). *)
From Verif Require Import Base BaseLemmas FloatModel StringModel StringProofs StringSpec StringProperties ParamsModel PpmSpec PpmProofs
  ParamsSpec ParamsProofs HeaderModel HeaderSpec FloatLemmas HeaderProofs GeometryProofs PageProofs RasterProperties.
From Coq Require Import Lia Reals Lra Sorted.
From Coq Require Import ZifyBool ZifyNat.
From Flocq Require Import Core.Core Relative IEEE754.BinarySingleNaN.
Local Open Scope Z_scope.
Ltac Zify.zify_post_hook ::= Z.div_mod_to_equations.

(** ** C16: page ranges *)

Lemma pieces_of_ranges texts rs : Forall2 range_text texts rs -> Forall (fun t => ~ has_char "," t) texts.
Proof.
  assert (K : forall s n, digits_of s n -> ~ has_char "," s)
    by (intros s n H Hc; apply (digits_chars _ _ _ H) in Hc; discriminate).
  induction 1 as [|t r texts rs Hr _ IH]; constructor; [|assumption]. destruct Hr as [s n H|a b n m Ha Hb|a n Ha].
  - eauto.
  - intros Hc. apply (proj1 (has_char_app _ _ _)) in Hc. destruct Hc as [Hc|[Hc|Hc]]; [|discriminate|].
    + exact (K _ _ Ha Hc).
    + exact (K _ _ Hb Hc).
  - intros Hc. apply (proj1 (has_char_app _ _ _)) in Hc. destruct Hc as [Hc|[Hc|[]]]; [|discriminate].
    exact (K _ _ Ha Hc).
Qed.
Lemma split_pieces s : glue "," (split_string s ",") = s /\ split_string s "," <> [].
Proof.
  destruct (C22_split_join_partial s ",") as (H & _ & _). split; [exact H|].
  rewrite split_string_pieces. unfold pieces_list. destruct (pieces "," s). discriminate.
Qed.
Lemma split_ranges texts rs : texts <> [] -> Forall2 range_text texts rs -> split_string (glue "," texts) "," = texts.
Proof.
  intros Hne H. rewrite <- C22_join_is_glue. apply C22_join_split_partial; [assumption|].
  eapply Forall_impl; [|exact (pieces_of_ranges _ _ H)]. intros t Ht Hc. apply Ht. apply has_char_occurs. exact Hc.
Qed.

(** The grammar: a comma separated list of N, N-M and N-, strictly increasing (hence
    N >= 1) and numbers of 64 bits. *)
Definition range_list (s : string) (rs : list (Z * Z)) : Prop :=
  ranges_text s rs /\ in_size_t rs /\ ascending 0 rs.

Lemma range_list_unique s rs rs' : ranges_text s rs -> ranges_text s rs' -> rs = rs'.
Proof.
  intros (t & Ht & -> & H) (t' & Ht' & E & H').
  assert (Et : t = t') by (rewrite <- (split_ranges _ _ Ht H), E; apply (split_ranges _ _ Ht' H')).
  subst t'. clear -H H'. revert rs' H'. induction H as [|x r t rs Hr _ IH]; intros rs' H'; inversion H'; subst; [reflexivity|].
  f_equal; [eapply range_text_unique; eassumption|auto].
Qed.

(** On every string: either accepted, in the grammar and exactly its ranges stored; or
    rejected, not in the grammar (and the stored ranges emptied); or a number of at
    least 2^64 is in the text, and std::out_of_range is raised.  Nothing else in the
    parameters changes.  Missing from the claim: no exception in the last case. *)
Theorem C16_exact_grammar_partial : forall p s,
  match setPageRange p s with
  | Ok (true, p') => range_list s (p_pageRanges p') /\ keeps_rest p p' /\ keeps_paper p p'
  | Ok (false, p') => (forall rs, ~ range_list s rs) /\ p_pageRanges p' = [] /\ keeps_rest p p' /\ keeps_paper p p'
  | Throw e => e = OutOfRange /\ exists a d b n, s = (a ++ d ++ b)%string /\ digits_of d n /\ 2 ^ 64 <= n
  | _ => False
  end.
Proof.
  intros p s. unfold setPageRange, parsePageRange.
  destruct (split_pieces s) as [Hg Hne].
  pose proof (parse_pieces_spec (split_string s ",") 0 [] ltac:(lia)) as H.
  destruct (parse_pieces (split_string s ",") 0 []) as [l|e| | |]; cbn [bind]; try contradiction.
  - destruct H as [(rs & -> & H1 & H2 & H3)|(-> & H)].
    + assert (Hr : rs <> []) by (intros ->; inversion H1; congruence).
      destruct rs as [|r rs]; [congruence|]. cbn [List.app p_pageRanges]. split; [|split; repeat split].
      split; [|split; assumption]. exists (split_string s ","). auto.
    + split; [|split; [reflexivity|split; repeat split]].
      intros rs ((t & Ht & Es & Hf) & H2 & H3).
      assert (Et : split_string s "," = t) by (rewrite Es; eapply split_ranges; eassumption).
      rewrite Et in H. exact (H rs Hf H2 H3).
  - destruct H as [-> H]. split; [reflexivity|]. apply Exists_exists in H. destruct H as (t & Hin & a & d & b & n & -> & Hd & Hn).
    apply in_split in Hin. destruct Hin as (l1 & l2 & El). rewrite <- Hg, El.
    assert (G : forall l1, exists x y, glue "," (l1 ++ (a ++ d ++ b)%string :: l2) = (x ++ (a ++ d ++ b) ++ y)%string).
    { induction l0 as [|q l0 IH].
      - cbn [List.app]. destruct l2 as [|q2 l2]; [exists ""%string, ""%string; rewrite app_s_nil; reflexivity|].
        exists ""%string, ("," ++ glue "," (q2 :: l2))%string. reflexivity.
      - destruct IH as (x & y & E). exists (q ++ "," ++ x)%string, y.
        cbn [List.app]. destruct l0 as [|q0 l0]; cbn [List.app] in *.
        + change (glue "," (q :: (a ++ d ++ b)%string :: l2)) with (q ++ "," ++ glue "," ((a ++ d ++ b)%string :: l2))%string.
          rewrite E, !app_s_assoc. reflexivity.
        + change (glue "," (q :: q0 :: l0 ++ (a ++ d ++ b)%string :: l2)%list)
            with (q ++ "," ++ glue "," (q0 :: l0 ++ (a ++ d ++ b)%string :: l2)%list)%string.
          rewrite E, !app_s_assoc. reflexivity. }
    destruct (G l1) as (x & y & E). exists (x ++ a)%string, d, (b ++ y)%string, n. rewrite E, !app_s_assoc. auto.
Qed.
Print Assumptions C16_exact_grammar_partial.
(** In particular every string in the grammar is accepted, with its ranges: the numbers
    of such a string all fit, so that the third case is impossible. *)
Theorem C16_accepts_grammar : forall p s rs, range_list s rs ->
  exists p', setPageRange p s = Ok (true, p') /\ p_pageRanges p' = rs /\ keeps_rest p p' /\ keeps_paper p p'.
Proof.
  intros p s rs Hr. pose proof (C16_exact_grammar_partial p s) as H. pose proof Hr as ((t & Ht & Es & Hf) & H2 & H3).
  destruct (setPageRange p s) as [[[|] p']|e| | |] eqn:E; try contradiction.
  - destruct H as (H & K1 & K2). exists p'. split; [reflexivity|]. split; [|auto].
    eapply range_list_unique; [apply H|apply Hr].
  - destruct H as [H _]. contradiction (H rs).
  - exfalso. unfold setPageRange, parsePageRange in E. rewrite Es, (split_ranges _ _ Ht Hf) in E.
    assert (G : forall t rs prev acc, Forall2 range_text t rs -> in_size_t rs -> ascending prev rs ->
                exists l, parse_pieces t prev acc = Ok l).
    { clear. intros t rs prev acc Hf. revert prev acc. induction Hf as [|x r t rs Hr _ IH]; intros prev acc H2 H3; [eexists; reflexivity|].
      inversion H2 as [|? ? [B1 B2] H2']; subst. rewrite pow64 in B1, B2. cbn [parse_pieces]. unfold in_size_t in IH. rewrite pow64 in H2', IH.
      destruct Hr as [s n Hs|a b n m Ha Hb|a n Ha]; cbn [fst snd] in *; destruct H3 as (O1 & O2 & O3).
      - rewrite (proj2 (match_single_spec s) (ex_intro _ n Hs)), (stoul_number _ _ Hs). rewrite (proj2 (Z.ltb_lt _ _) B1). cbn [bind].
        rewrite (proj2 (Z.leb_gt _ _) O1). apply IH; assumption.
      - assert (Em : match_single (a ++ "-" ++ b) = false).
        { destruct (match_single (a ++ "-" ++ b)) eqn:Em; [|reflexivity]. apply match_single_spec in Em. destruct Em as [v Hv].
          exfalso. eapply no_minus; [exact Hv|reflexivity]. }
        assert (Er : match_range (a ++ "-" ++ b) = Some (a, b)) by (apply match_range_spec; eauto 6).
        rewrite Em, Er, (stoul_number _ _ Ha), (proj2 (Z.ltb_lt _ _) B1). cbn [bind].
        destruct (String.eqb_spec b "") as [->|]; [destruct (digits_all _ _ Hb); congruence|].
        rewrite (stoul_number _ _ Hb), (proj2 (Z.ltb_lt _ _) B2). cbn [bind].
        rewrite (proj2 (Z.ltb_ge _ _) O2), (proj2 (Z.leb_gt _ _) O1). cbn [orb]. apply IH; assumption.
      - assert (Em : match_single (a ++ "-") = false).
        { destruct (match_single (a ++ "-")) eqn:Em; [|reflexivity]. apply match_single_spec in Em. destruct Em as [v Hv].
          exfalso. exact (no_minus _ _ Hv a ""%string eq_refl). }
        assert (Er : match_range (a ++ "-") = Some (a, ""%string)) by (apply match_range_spec; split; [reflexivity|eauto]).
        rewrite Em, Er, (stoul_number _ _ Ha), (proj2 (Z.ltb_lt _ _) B1). cbn [bind].
        change (String.eqb "" "") with true. cbn [bind]. change size_max with to_end.
        rewrite (proj2 (Z.ltb_ge _ _) O2), (proj2 (Z.leb_gt _ _) O1). cbn [orb]. apply IH; assumption. }
    destruct (G t rs 0 [] Hf H2 H3) as [l Hl]. rewrite Hl in E. discriminate.
Qed.
Print Assumptions C16_accepts_grammar.

Example C16_example : exists p',
  setPageRange default_params "1,3-5,007-" = Ok (true, p') /\
  p_pageRanges p' = [(1, 1); (3, 5); (7, to_end)] /\ range_list "1,3-5,007-" [(1, 1); (3, 5); (7, to_end)].
Proof.
  assert (N1 : forall c, 48 <= Zb c <= 57 -> digits_of (String c "") (Zb c - 48)).
  { intros c Hc. unfold digits_of. cbn [bytes_of_string list_ascii_of_string]. rewrite <- (bZ_Zb c) at 1.
    replace (Zb c) with (48 + (Zb c - 48)) at 1 by lia. constructor. lia. }
  assert (D007 : digits_of "007" 7).
  { exact (number_more _ 0 7 (number_more _ 0 0 (number_one 0 ltac:(lia)) ltac:(lia)) ltac:(lia)). }
  assert (L : range_list "1,3-5,007-" [(1, 1); (3, 5); (7, to_end)]).
  { split; [|split].
    - exists ["1"; "3-5"; "007-"]%string. split; [discriminate|]. split; [reflexivity|].
      constructor; [apply range_single; apply (N1 "1"%char); vm_compute; split; discriminate|].
      constructor; [apply (range_closed "3" "5"); [apply (N1 "3"%char)|apply (N1 "5"%char)]; vm_compute; split; discriminate|].
      constructor; [apply (range_open "007"); exact D007|constructor].
    - repeat constructor.
    - cbn [ascending]. unfold to_end. lia. }
  destruct (C16_accepts_grammar default_params _ _ L) as (p' & H1 & H2 & _). exists p'. auto.
Qed.
(** Finding: a number of more than 64 bits raises std::out_of_range (std::stoul), where
    the interface promises a failure report. *)
Theorem C16_raises_refuted : setPageRange default_params "18446744073709551616" = Throw OutOfRange /\
  setPageRange default_params "1-99999999999999999999" = Throw OutOfRange.
Proof. split; reflexivity. Qed.
(** Finding: a rejected string also loses the ranges accepted before. *)
Theorem C16_reject_clears_ranges : forall p s, (forall rs, ~ range_list s rs) ->
  forall r, setPageRange p s = Ok r -> fst r = false /\ p_pageRanges (snd r) = [].
Proof.
  intros p s Hn r E. pose proof (C16_exact_grammar_partial p s) as H. rewrite E in H.
  destruct r as [[|] p']; [destruct H as [H _]; contradiction (Hn _ H)|]. destruct H as (_ & H & _). auto.
Qed.
Example C16_reject_example : let p := snd (match setPageRange default_params "1-2" with Ok r => r | _ => (false, default_params) end) in
  p_pageRanges p = [(1, 2)] /\ exists p', setPageRange p "2,1" = Ok (false, p') /\ p_pageRanges p' = [].
Proof. split; [reflexivity|]. eexists. split; reflexivity. Qed.

(** ** C17: one copy *)
(** ranges as setPageRange stores them *)
Lemma increasing_firsts rs : forall prev, 0 <= prev -> ascending prev rs -> Forall (fun r => 1 <= fst r) rs.
Proof.
  induction rs as [|[f t] rs IH]; intros prev Hp H; [constructor|]. destruct H as (H1 & H2 & H3).
  constructor; [simpl; lia|]. apply (IH t); [lia|assumption].
Qed.
Lemma sequence_unfold p n : 0 <= n < to_end -> Forall (fun r => 1 <= fst r) (p_pageRanges p) ->
  let sel := selection n (p_pageRanges p) in
  getPageSequence p n =
    if p_copies p >? 1 then
      let seq := if isTwoSided p && Nat.eqb (Nat.modulo (length sel) 2) 1 then sel ++ [INVALID_PAGE] else sel in
      if p_collated p then Ok (append_copies (Z.to_nat (p_copies p - 1)) seq seq)
      else uncollated (isTwoSided p) (Z.to_nat (p_copies p)) seq []
    else Ok sel.
Proof.
  intros Hn Hr sel. unfold getPageSequence. pose proof (selected_ok n _ Hn Hr) as S. fold sel in S.
  destruct (p_pageRanges p); cbv zeta; rewrite S; reflexivity.
Qed.
(** Nothing but the pages of the ranges that exist, in the order of the ranges. *)
Theorem C17_one_copy : forall p n, 0 <= n < to_end -> Forall (fun r => 1 <= fst r) (p_pageRanges p) -> p_copies p <= 1 ->
  getPageSequence p n = Ok (selection n (p_pageRanges p)).
Proof.
  intros p n Hn Hr Hc. rewrite sequence_unfold by assumption. cbv zeta.
  rewrite Z.gtb_ltb. rewrite (proj2 (Z.ltb_ge 1 _) Hc). reflexivity.
Qed.
Print Assumptions C17_one_copy.
(** What that means: a page is printed iff it is in the document and in a range; for
    parsed (increasing) ranges the sequence is strictly increasing. *)
Theorem C17_selection_meaning : forall n rs q, rs <> [] ->
  (In q (selection n rs) <-> 1 <= q <= n /\ exists r, In r rs /\ fst r <= q <= snd r).
Proof.
  intros n rs q Hne. destruct rs as [|r rs]; [congruence|]. cbn [selection]. rewrite in_flat_map. split.
  - intros (x & Hx & Hq). apply pages_of_in in Hq. split; [apply Hq|]. exists x. tauto.
  - intros (H1 & x & Hx & H2). exists x. split; [assumption|]. apply pages_of_in. tauto.
Qed.
Lemma document_sorted n : StronglySorted Z.lt (document n).
Proof.
  unfold document. generalize (Z.to_nat n) as m, 1%nat as k. induction m as [|m IH]; intros k; cbn [seq map]; constructor.
  - apply IH.
  - apply Forall_forall. intros q Hq. apply in_map_iff in Hq. destruct Hq as (i & <- & Hi). apply in_seq in Hi. lia.
Qed.
Lemma sorted_filter (f : Z -> bool) l : StronglySorted Z.lt l -> StronglySorted Z.lt (filter f l).
Proof.
  induction 1 as [|q l H IH Hq]; [constructor|]. cbn [filter]. destruct (f q); [|assumption]. constructor; [assumption|].
  apply Forall_forall. intros x Hx. apply filter_In in Hx. rewrite Forall_forall in Hq. apply Hq, Hx.
Qed.
Lemma sorted_app l m : StronglySorted Z.lt l -> StronglySorted Z.lt m -> (forall a b, In a l -> In b m -> a < b) ->
  StronglySorted Z.lt (l ++ m).
Proof.
  induction 1 as [|q l H IH Hq]; intros Hm Hab; [assumption|]. cbn [List.app]. constructor.
  - apply IH; [assumption|]. intros a b Ha. apply Hab. right. exact Ha.
  - apply Forall_app. split; [assumption|]. apply Forall_forall. intros b. apply Hab. left. reflexivity.
Qed.
Theorem C17_in_order : forall n rs, ascending 0 rs -> StronglySorted Z.lt (selection n rs).
Proof.
  intros n rs H. destruct rs as [|r rs]; [apply document_sorted|]. cbn [selection].
  revert H. generalize (r :: rs) as l. intros l. generalize 0 as prev. clear r rs. induction l as [|[f t] l IH]; intros prev H; [constructor|].
  destruct H as (H1 & H2 & H3). cbn [flat_map]. apply sorted_app.
  - apply sorted_filter, document_sorted.
  - eapply IH. exact H3.
  - intros a b Ha Hb. apply pages_of_in in Ha. apply in_flat_map in Hb. destruct Hb as (x & Hx & Hb). apply pages_of_in in Hb.
    cbn [fst snd] in Ha. assert (G : t < fst x); [|lia].
    clear -Hx H3. revert t H3. induction l as [|[f' t'] l IH]; intros t H3; [contradiction|].
    destruct H3 as (H1 & H2 & H3). destruct Hx as [<-|Hx]; [exact H1|]. specialize (IH Hx t' H3). lia.
Qed.
Print Assumptions C17_in_order.
Example C17_example : exists p,
  setPageRange default_params "2-3,5-,9" = Ok (false, p) /\
  exists p', setPageRange default_params "2-3,5-" = Ok (true, p') /\ getPageSequence p' 6 = Ok [2; 3; 5; 6] /\
  getPageSequence default_params 3 = Ok [1; 2; 3].
Proof. eexists. split; [reflexivity|]. eexists. split; [reflexivity|]. split; reflexivity. Qed.
(** For a document of 2^64 - 1 pages the loop never ends (not a reachable page count). *)
Theorem C17_endless_at_size_max : forall p, p_pageRanges p = [] -> getPageSequence p to_end = Hang.
Proof. intros p Hp. unfold getPageSequence. rewrite Hp. reflexivity. Qed.

(** ** C18, C19: several copies *)
Lemma sequence_copies p n : 0 <= n < to_end -> Forall (fun r => 1 <= fst r) (p_pageRanges p) -> 1 < p_copies p ->
  let sel := selection n (p_pageRanges p) in
  let one := if isTwoSided p then whole_sheets sel else sel in
  getPageSequence p n =
    if p_collated p then Ok (append_copies (Z.to_nat (p_copies p - 1)) one one)
    else uncollated (isTwoSided p) (Z.to_nat (p_copies p)) one [].
Proof.
  intros Hn Hr Hc. cbv zeta. rewrite sequence_unfold by assumption. cbv zeta.
  rewrite Z.gtb_ltb. rewrite (proj2 (Z.ltb_lt 1 _) Hc). rewrite even_odd_1.
  destruct (isTwoSided p); [|reflexivity]. cbn [andb]. unfold whole_sheets, blank, INVALID_PAGE.
  destruct (Nat.even (length (selection n (p_pageRanges p)))); reflexivity.
Qed.
Theorem C18_collated_copies : forall p n, 0 <= n < to_end -> Forall (fun r => 1 <= fst r) (p_pageRanges p) ->
  p_collated p = true -> 1 < p_copies p ->
  let sel := selection n (p_pageRanges p) in
  exists copy seq,
    getPageSequence p n = Ok seq /\ seq = concat (repeat copy (Z.to_nat (p_copies p))) /\
    (* one copy is the selection, with one blank appended iff two-sided and odd *)
    (copy = sel /\ (p_duplexMode p = OneSided \/ Nat.even (length sel) = true) \/
     copy = sel ++ [blank] /\ p_duplexMode p <> OneSided /\ Nat.even (length sel) = false) /\
    (* so that every copy starts on a front side *)
    (p_duplexMode p <> OneSided -> Nat.even (length copy) = true) /\
    (* and every page is there copies times *)
    (forall q, q <> blank -> count_occ Z.eq_dec seq q = (Z.to_nat (p_copies p) * count_occ Z.eq_dec sel q)%nat).
Proof.
  intros p n Hn Hr Hc1 Hc sel. set (one := if isTwoSided p then whole_sheets sel else sel).
  pose proof (sequence_copies p n Hn Hr Hc) as H. cbv zeta in H. fold sel in H. fold one in H. rewrite Hc1 in H.
  exists one, (concat (repeat one (Z.to_nat (p_copies p)))).
  assert (E : append_copies (Z.to_nat (p_copies p - 1)) one one = concat (repeat one (Z.to_nat (p_copies p)))).
  { rewrite append_copies_eq. replace (Z.to_nat (p_copies p)) with (S (Z.to_nat (p_copies p - 1))) by lia. reflexivity. }
  rewrite E in H. split; [exact H|]. split; [reflexivity|].
  assert (Hone : one = sel /\ (p_duplexMode p = OneSided \/ Nat.even (length sel) = true) \/
     one = sel ++ [blank] /\ p_duplexMode p <> OneSided /\ Nat.even (length sel) = false).
  { unfold one, isTwoSided, whole_sheets. destruct (p_duplexMode p), (Nat.even (length sel)); auto; right; repeat split; discriminate. }
  split; [exact Hone|]. split.
  - intros Hd. destruct Hone as [[-> [H1|H1]]|(-> & _ & H1)]; [contradiction|assumption|].
    rewrite app_length. cbn [length]. rewrite Nat.add_1_r, Nat.even_succ, <- Nat.negb_even, H1. reflexivity.
  - intros q Hq. rewrite count_concat_repeat. f_equal. destruct Hone as [[-> _]|(-> & _)]; [reflexivity|].
    rewrite count_occ_app. cbn [count_occ]. destruct (Z.eq_dec blank q); [congruence|lia].
Qed.
Print Assumptions C18_collated_copies.
Definition job (d : duplex_mode) (copies : Z) (collated : bool) : params :=
  {| p_format := PWG; p_colorMode := sRGB24; p_quality := DefaultQuality;
     p_antiAlias := false; p_paperSizeName := "iso_a4_210x297mm";
     p_hwResW := 300; p_hwResH := 300; p_units := Millimeters;
     p_sizeW := fofZ 210; p_sizeH := fofZ 297;
     p_duplexMode := d; p_backXform := Normal;
     p_copies := copies; p_collated := collated; p_pageRanges := [(1, 2); (5, to_end)];
     p_mediaPosition := 0; p_mediaType := "" |}.
Example C18_example :
  getPageSequence (job TwoSidedLongEdge 2 true) 5 = Ok [1; 2; 5; 0; 1; 2; 5; 0] /\
  getPageSequence (job OneSided 2 true) 5 = Ok [1; 2; 5; 1; 2; 5] /\
  getPageSequence (job TwoSidedLongEdge 1 true) 5 = Ok [1; 2; 5].
Proof. repeat split. Qed.

Theorem C19_uncollated_one_sided : forall p n, 0 <= n < to_end -> Forall (fun r => 1 <= fst r) (p_pageRanges p) ->
  p_collated p = false -> p_duplexMode p = OneSided -> 1 < p_copies p ->
  getPageSequence p n = Ok (flat_map (fun q => repeat q (Z.to_nat (p_copies p))) (selection n (p_pageRanges p))).
Proof.
  intros p n Hn Hr Hc1 Hd Hc. rewrite (sequence_copies p n Hn Hr Hc), Hc1.
  unfold isTwoSided. rewrite Hd. apply uncollated_one.
Qed.
Print Assumptions C19_uncollated_one_sided.
(** No undefined behaviour: the iteration in pairs always finds a back side. *)
Theorem C19_uncollated_two_sided : forall p n, 0 <= n < to_end -> Forall (fun r => 1 <= fst r) (p_pageRanges p) ->
  p_collated p = false -> p_duplexMode p <> OneSided -> 1 < p_copies p ->
  exists shs, sheets (selection n (p_pageRanges p)) shs /\
    getPageSequence p n = Ok (flat_map (fun sh => concat (repeat [fst sh; snd sh] (Z.to_nat (p_copies p)))) shs).
Proof.
  intros p n Hn Hr Hc1 Hd Hc. rewrite (sequence_copies p n Hn Hr Hc), Hc1.
  destruct (sheets_exist (selection n (p_pageRanges p))) as [shs Hs]. exists shs. split; [exact Hs|].
  assert (Ht : isTwoSided p = true) by (unfold isTwoSided; destruct (p_duplexMode p); congruence).
  rewrite Ht. apply (uncollated_two (Z.to_nat (p_copies p)) _ _ Hs []).
Qed.
Print Assumptions C19_uncollated_two_sided.
Example C19_example :
  getPageSequence (job TwoSidedLongEdge 2 false) 5 = Ok [1; 2; 1; 2; 5; 0; 5; 0] /\
  sheets (selection 5 (p_pageRanges (job TwoSidedLongEdge 2 false))) [(1, 2); (5, 0)] /\
  getPageSequence (job OneSided 2 false) 5 = Ok [1; 1; 2; 2; 5; 5].
Proof. split; [reflexivity|]. split; [|reflexivity]. apply (sheets_more 1 2 [5]). apply sheets_last. Qed.

(** ** C20: media size names *)
Lemma repr_SF x r : repr x r -> is_finite_SF x = true /\ SF2R radix2 x = r.
Proof. intros (b & <- & Fb & <-). rewrite is_finite_SF_B2SF, SF2R_B2SF. auto. Qed.
Lemma bpow_neg e : e < 0 -> bpow radix2 e = (/ IZR (2 ^ (- e)))%R.
Proof. intros He. pose proof (scaled_neg 1 e He) as H. unfold Rdiv in H. rewrite !Rmult_1_l in H. exact H. Qed.
Lemma rnd_rel x : (x = 0 \/ bpow radix2 (-1000) <= x)%R -> (Rabs (rnd x - x) <= / 9007199254740992 * x)%R.
Proof.
  intros [->|Hx].
  - unfold rnd. rewrite round_0 by auto with typeclass_instances. rewrite Rminus_0_r, Rabs_R0, Rmult_0_r. apply Rle_refl.
  - assert (Hp : (0 < x)%R) by (eapply Rlt_le_trans; [apply bpow_gt_0|exact Hx]).
    pose proof (relative_error_N_FLT radix2 (-1074) 53 ltac:(lia) (fun z => negb (Z.even z)) x) as H.
    rewrite (Rabs_pos_eq x) in H by lra.
    assert (Hb : (bpow radix2 (-1074 + 53 - 1) <= x)%R).
    { eapply Rle_trans; [|exact Hx]. apply bpow_le. lia. }
    specialize (H Hb). unfold rnd. eapply Rle_trans; [exact H|]. apply Rmult_le_compat_r; [lra|].
    rewrite bpow_neg by lia. change (2 ^ (- (- (53) + 1))) with 4503599627370496. lra.
Qed.
Lemma tiny : (bpow radix2 (-1000) <= / IZR (10 ^ 23))%R.
Proof.
  rewrite bpow_neg by lia. apply Rinv_le_contravar.
  - apply IZR_lt. reflexivity.
  - apply IZR_le. vm_compute. discriminate.
Qed.
Lemma pow10_exact k : (k <= 22)%nat -> repr (fpow10 k) (IZR (10 ^ Z.of_nat k)).
Proof.
  intros Hk. unfold fpow10.
  assert (E : 10 ^ Z.of_nat k = 5 ^ Z.of_nat k * 2 ^ Z.of_nat k) by (rewrite <- Z.pow_mul_l; reflexivity).
  assert (B5 : 0 < 5 ^ Z.of_nat k <= 2 ^ 53).
  { split; [apply Z.pow_pos_nonneg; lia|]. apply Z.le_trans with (5 ^ 22); [apply Z.pow_le_mono_r; lia|]. vm_compute. discriminate. }
  assert (B10 : 0 < 10 ^ Z.of_nat k <= 10 ^ 22).
  { split; [apply Z.pow_pos_nonneg; lia|]. apply Z.pow_le_mono_r; lia. }
  pose proof (repr_ofZ_any (10 ^ Z.of_nat k)) as H.
  assert (B : Z.abs (10 ^ Z.of_nat k) <= 2 ^ 1000).
  { rewrite Z.abs_eq by lia. apply Z.le_trans with (10 ^ 22); [lia|]. vm_compute. discriminate. }
  specialize (H B). rewrite E in H at 2. rewrite mult_IZR in H.
  replace (IZR (2 ^ Z.of_nat k)) with (bpow radix2 (Z.of_nat k)) in H
    by (rewrite <- (IZR_Zpower radix2) by lia; reflexivity).
  rewrite rnd_exact in H by lia. rewrite E at 2. rewrite mult_IZR.
  replace (IZR (2 ^ Z.of_nat k)) with (bpow radix2 (Z.of_nat k)) by (rewrite <- (IZR_Zpower radix2) by lia; reflexivity).
  exact H.
Qed.
Lemma IZR_small z : 0 <= z -> (IZR z = 0 \/ bpow radix2 (-1000) <= IZR z)%R.
Proof.
  intros Hz. destruct (Z.eq_dec z 0) as [->|]; [left; reflexivity|right].
  apply Rle_trans with 1%R; [|apply IZR_le; lia]. change 1%R with (bpow radix2 0). apply bpow_le. lia.
Qed.
Lemma near_pos u x y : (0 <= u <= 1)%R -> (0 <= x)%R -> (Rabs (y - x) <= u * x)%R -> (0 <= y <= x + u * x /\ x - u * x <= y)%R.
Proof.
  intros Hu Hx H. apply Rabs_le_inv in H. assert (Hux : (u * x <= 1 * x)%R) by (apply Rmult_le_compat_r; lra). lra.
Qed.
Lemma big_R r z : (0 <= r <= IZR z)%R -> z <= 2 ^ 1000 -> (Rabs r <= bpow radix2 1000)%R.
Proof. apply big. Qed.

Lemma decimal_value n d k : 0 <= n < two64 -> 0 <= d < two64 -> (1 <= k <= 22)%nat ->
  let x := fadd (fofZ n) (fdiv (fofZ d) (fpow10 k)) in
  let exact := (IZR n + IZR d / IZR (10 ^ Z.of_nat k))%R in
  exists v, repr x v /\ (Rabs (v - exact) <= exact * / IZR (2 ^ 51))%R.
Proof.
  intros Hn Hd Hk x exact. unfold two64 in Hn, Hd.
  assert (Hub : (0 <= / 9007199254740992 <= 1)%R) by lra.
  set (T := 10 ^ Z.of_nat k). assert (HT : 1 <= T <= 10 ^ 22).
  { unfold T. split; [apply (Z.pow_le_mono_r 10 0); lia|apply Z.pow_le_mono_r; lia]. }
  assert (HTr : (1 <= IZR T)%R) by (apply IZR_le; lia).
  assert (HTi : (0 < / IZR T <= 1)%R).
  { split; [apply Rinv_0_lt_compat; lra|]. rewrite <- Rinv_1. apply Rinv_le_contravar; lra. }
  pose proof (pow10_exact k ltac:(lia)) as R10. fold T in R10.
  assert (P1000 : 2 ^ 70 <= 2 ^ 1000) by (apply Z.pow_le_mono_r; lia).
  assert (Rn : repr (fofZ n) (rnd (IZR n))) by (apply repr_ofZ_any; lia).
  assert (Rd : repr (fofZ d) (rnd (IZR d))) by (apply repr_ofZ_any; lia).
  pose proof (rnd_rel _ (IZR_small n ltac:(lia))) as En. pose proof (rnd_rel _ (IZR_small d ltac:(lia))) as Ed.
  assert (Nn : (0 <= IZR n < 18446744073709551616)%R) by (split; [apply IZR_le|apply IZR_lt]; lia).
  assert (Nd : (0 <= IZR d < 18446744073709551616)%R) by (split; [apply IZR_le|apply IZR_lt]; lia).
  pose proof (near_pos _ _ _ Hub (proj1 Nn) En) as Fn. pose proof (near_pos _ _ _ Hub (proj1 Nd) Ed) as Fd.
  set (n' := rnd (IZR n)) in *. set (d' := rnd (IZR d)) in *.
  (* the quotient *)
  set (q := (IZR d / IZR T)%R). set (q1 := (d' / IZR T)%R).
  assert (Hq : (0 <= q <= IZR d)%R).
  { unfold q, Rdiv. split; [apply Rmult_le_pos; lra|]. rewrite <- (Rmult_1_r (IZR d)) at 2. apply Rmult_le_compat_l; lra. }
  assert (Hq1 : (Rabs (q1 - q) <= / 9007199254740992 * q)%R).
  { unfold q1, q, Rdiv. replace (d' * / IZR T - IZR d * / IZR T)%R with ((d' - IZR d) * / IZR T)%R by ring.
    rewrite Rabs_mult, (Rabs_pos_eq (/ IZR T)) by lra. rewrite <- Rmult_assoc. apply Rmult_le_compat_r; [lra|exact Ed]. }
  pose proof (near_pos _ _ _ Hub (proj1 Hq) Hq1) as Fq1.
  assert (Sq1 : (q1 = 0 \/ bpow radix2 (-1000) <= q1)%R).
  { destruct (Z.eq_dec d 0) as [E0|E0].
    - left. unfold q1, d'. rewrite E0. unfold rnd. rewrite round_0 by auto with typeclass_instances. unfold Rdiv. ring.
    - right. apply Rle_trans with (1 := tiny).
      assert (D1 : (1 <= d')%R).
      { unfold d'. apply (rnd_ge_IZR (IZR d) 1); [lia|]. apply IZR_le. lia. }
      unfold q1, Rdiv. rewrite <- (Rmult_1_l (/ IZR (10 ^ 23))). apply Rmult_le_compat; [lra| |exact D1|].
      + left. apply Rinv_0_lt_compat. apply IZR_lt. reflexivity.
      + apply Rinv_le_contravar; [lra|]. apply IZR_le. apply Z.le_trans with (10 ^ 22); [lia|]. vm_compute. discriminate. }
  assert (Rq : repr (fdiv (fofZ d) (fpow10 k)) (rnd q1)).
  { apply repr_div; [exact Rd|exact R10|lra|]. apply (big_R q1 (2 ^ 70)); [|exact P1000]. change (2 ^ 70) with 1180591620717411303424. fold q1. lra. }
  pose proof (rnd_rel _ Sq1) as Eq2.
  pose proof (near_pos _ _ _ Hub (proj1 (proj1 Fq1)) Eq2) as Fq2. set (q2 := rnd q1) in *.
  assert (Ss : (n' + q2 = 0 \/ bpow radix2 (-1000) <= n' + q2)%R).
  { destruct (Z.eq_dec n 0) as [E0|E0].
    - assert (En0 : n' = 0%R) by (unfold n'; rewrite E0; unfold rnd; apply round_0; auto with typeclass_instances).
      rewrite En0, Rplus_0_l. destruct Sq1 as [Z0|Z1].
      + left. unfold q2. rewrite Z0. unfold rnd. apply round_0; auto with typeclass_instances.
      + right. pose proof (rnd_le _ _ Z1) as G. pose proof (rnd_exact 1 (-1000) ltac:(lia) ltac:(lia)) as G1.
        rewrite Rmult_1_l in G1. rewrite G1 in G. exact G.
    - right. assert (D1 : (1 <= n')%R) by (unfold n'; apply (rnd_ge_IZR (IZR n) 1); [lia|]; apply IZR_le; lia).
      apply Rle_trans with 1%R; [change 1%R with (bpow radix2 0); apply bpow_le; lia|]. lra. }
  pose proof (rnd_rel _ Ss) as Es.  exists (rnd (n' + q2)). split.
  - apply repr_add; [exact Rn|exact Rq|]. apply (big_R _ (2 ^ 70)); [|exact P1000]. change (2 ^ 70) with 1180591620717411303424. lra.
  - unfold exact. fold T. fold q. change (2 ^ 51) with 2251799813685248.
    apply Rabs_le. apply Rabs_le_inv in Es, En, Hq1, Eq2. clear - Es En Hq1 Eq2 Hq Nn Fn Fq1 Fq2. lra.
Qed.

Lemma from_string_reads s n d k : decimal_text s n d k -> n < 2 ^ 64 -> d < 2 ^ 64 -> (k <= 22)%nat ->
  exists x, from_string s = Ok x /\ reads_as x n d k.
Proof.
  intros H Hn Hd Hk. rewrite (from_string_spec _ _ _ _ H). rewrite pow64 in Hn, Hd.
  rewrite (proj2 (Z.ltb_lt _ _) Hn), (proj2 (Z.ltb_lt _ _) Hd). cbn [andb]. eexists. split; [reflexivity|].
  assert (P : 0 <= n /\ 0 <= d).
  { destruct H as [s n H|a b n d Ha Hb].
    - pose proof (number_digits _ _ H) as (_ & _ & ?). lia.
    - pose proof (number_digits _ _ Ha) as (_ & _ & ?). pose proof (number_digits _ _ Hb) as (_ & _ & ?). lia. }
  destruct (Nat.eqb_spec k 0) as [->|Hk0].
  - assert (Ed : d = 0). { inversion H; subst; [reflexivity|]. match goal with Hb : digits_of ?b d |- _ => destruct b; [destruct (digits_all _ _ Hb); congruence|discriminate] end. }
    subst d. unfold two64 in *.
    assert (Rn : repr (fofZ n) (rnd (IZR n))) by (apply repr_ofZ_any; rewrite Z.abs_eq by lia; apply Z.le_trans with (2 ^ 64); [lia|]; apply Z.pow_le_mono_r; lia).
    destruct (repr_SF _ _ Rn) as [F V]. split; [exact F|]. split.
    + cbv zeta. rewrite V. change (10 ^ Z.of_nat 0) with 1. unfold Rdiv. rewrite Rmult_0_l, Rplus_0_r.
      pose proof (rnd_rel _ (IZR_small n (proj1 P))) as E. eapply Rle_trans; [exact E|]. rewrite Rmult_comm.
      apply Rmult_le_compat_l; [apply IZR_le; lia|]. change (2 ^ 51) with 2251799813685248. lra.
    + intros _ Hs. rewrite V. apply rnd_IZR. lia.
  - destruct (decimal_value n d k) as (v & Hv & He); [lia|lia|lia|].
    destruct (repr_SF _ _ Hv) as [F V]. split; [exact F|]. split; [cbv zeta; rewrite V; exact He|]. intros E. congruence.
Qed.

(** [s] is a self-describing name: class_name_WxHmm or ...in *)
Definition size_name (s w h : string) (inches : bool) : Prop :=
  size_name_text s w h inches /\ (exists n d k, decimal_text w n d k) /\ (exists n d k, decimal_text h n d k).
(** all numbers fit 64 bits *)
Definition numbers_fit (t : string) : Prop := exists n d k, decimal_text t n d k /\ n < 2 ^ 64 /\ d < 2 ^ 64.

(** Accepted exactly on the grammar, when the numbers fit 64 bits; rejected without any
    change outside of the grammar.  Missing: "exactly W and H" (the value is within
    2^-51 of it, C20_sets_size_partial; refuted below) and numbers of more than 64 bits. *)
Theorem C20_accepts_exactly_partial : forall p s,
  match setPaperSize p s with
  | Ok (true, p') => exists w h inches, size_name s w h inches /\ numbers_fit w /\ numbers_fit h
  | Ok (false, p') => p' = p /\ forall w h inches, ~ size_name s w h inches
  | Throw e => e = OutOfRange /\ exists w h inches, size_name s w h inches /\ ~ (numbers_fit w /\ numbers_fit h)
  | _ => False
  end.
Proof.
  intros p s. unfold setPaperSize.
  assert (K : forall t n d k, decimal_text t n d k -> from_string t = Throw OutOfRange -> ~ numbers_fit t).
  { intros t n d k H E (n' & d' & k' & H' & B1 & B2). rewrite (from_string_spec _ _ _ _ H') in E. rewrite pow64 in B1, B2.
    rewrite (proj2 (Z.ltb_lt _ _) B1), (proj2 (Z.ltb_lt _ _) B2) in E. discriminate. }
  assert (K' : forall t n d k, decimal_text t n d k ->
    (exists x, from_string t = Ok x /\ numbers_fit t) \/ from_string t = Throw OutOfRange).
  { intros t n d k H. pose proof (from_string_spec _ _ _ _ H) as E. destruct ((n <? two64) && (d <? two64)) eqn:B.
    - left. eexists. split; [exact E|]. exists n, d, k. rewrite pow64. apply andb_prop in B. rewrite !Z.ltb_lt in B. tauto.
    - right. exact E. }
  destruct (match_paper_size s) as [[[w h] u]|] eqn:E.
  - apply match_paper_size_spec in E. destruct E as (inches & Hu & Hs & Hw & Hh).
    assert (Hsn : size_name s w h inches) by (split; auto).
    destruct Hw as (n & d & k & Hw). destruct Hh as (n' & d' & k' & Hh).
    destruct (K' _ _ _ _ Hw) as [(x & -> & Fw)|Ew].
    + cbn [bind]. destruct (K' _ _ _ _ Hh) as [(y & -> & Fh)|Eh].
      * cbn [bind]. exists w, h, inches. auto.
      * rewrite Eh. cbn [bind]. split; [reflexivity|]. exists w, h, inches. split; [assumption|]. intros [_ F].
        exact (K _ _ _ _ Hh Eh F).
    + rewrite Ew. cbn [bind]. split; [reflexivity|]. exists w, h, inches. split; [assumption|]. intros [F _].
      exact (K _ _ _ _ Hw Ew F).
  - split; [reflexivity|]. intros w h inches (H1 & H2 & H3).
    assert (match_paper_size s = Some (w, h, unit_string inches)) by (apply match_paper_size_spec; exists inches; auto). congruence.
Qed.
Print Assumptions C20_accepts_exactly_partial.
(** a name has one reading *)
Theorem C20_name_unambiguous : forall s w h inches w' h' inches',
  size_name s w h inches -> size_name s w' h' inches' -> w = w' /\ h = h' /\ inches = inches'.
Proof.
  assert (K : forall s w h i, size_name s w h i -> match_paper_size s = Some (w, h, unit_string i)).
  { intros s w h i (H1 & H2 & H3). apply match_paper_size_spec. exists i. auto. }
  intros s w h i w' h' i' H H'. apply K in H, H'. rewrite H in H'. injection H' as -> -> Hi. split; [reflexivity|]. split; [reflexivity|].
  destruct i, i'; (reflexivity || discriminate).
Qed.
(** What is stored.  Missing: "exactly" W and H, and more than 22 decimals. *)
Theorem C20_sets_size_partial : forall p s w h inches n d k n' d' k',
  size_name_text s w h inches -> decimal_text w n d k -> decimal_text h n' d' k' ->
  n < 2 ^ 64 -> d < 2 ^ 64 -> n' < 2 ^ 64 -> d' < 2 ^ 64 -> (k <= 22)%nat -> (k' <= 22)%nat ->
  exists p', setPaperSize p s = Ok (true, p') /\
    reads_as (p_sizeW p') n d k /\ reads_as (p_sizeH p') n' d' k' /\
    p_units p' = (if inches then Inches else Millimeters) /\ p_paperSizeName p' = s /\
    keeps_rest p p' /\ keeps_ranges p p'.
Proof.
  intros p s w h inches n d k n' d' k' Hs Hw Hh B1 B2 B3 B4 Hk Hk'. unfold setPaperSize.
  assert (E : match_paper_size s = Some (w, h, unit_string inches)) by (apply match_paper_size_spec; exists inches; split; [reflexivity|]; split; [exact Hs|]; split; eauto).
  rewrite E. destruct (from_string_reads _ _ _ _ Hw B1 B2 Hk) as (x & -> & Hx). cbn [bind].
  destruct (from_string_reads _ _ _ _ Hh B3 B4 Hk') as (y & -> & Hy). cbn [bind].
  eexists. split; [reflexivity|]. cbn [with_paper p_sizeW p_sizeH p_units p_paperSizeName].
  split; [exact Hx|]. split; [exact Hy|]. split; [destruct inches; reflexivity|]. split; [reflexivity|].
  split; repeat split.
Qed.
Print Assumptions C20_sets_size_partial.
Lemma digits_215 : digits_of "215" 215.
Proof. exact (number_more _ 21 5 (number_more _ 2 1 (number_one 2 ltac:(lia)) ltac:(lia)) ltac:(lia)). Qed.
Example C20_example : exists p',
  setPaperSize default_params "na_letter_8.5x11in" = Ok (true, p') /\ p_units p' = Inches /\
  p_sizeW p' = fmk 17 (-1) /\ p_sizeH p' = fofZ 11 /\ p_paperSizeName p' = "na_letter_8.5x11in"%string /\
  size_name_text "na_letter_8.5x11in" "8.5" "11" true /\ decimal_text "8.5" 8 5 1 /\ decimal_text "11" 11 0 0.
Proof.
  eexists. split; [vm_compute; reflexivity|]. split; [vm_compute; reflexivity|]. split; [vm_compute; reflexivity|].
  split; [vm_compute; reflexivity|]. split; [vm_compute; reflexivity|]. split; [|split].
  - exists "na_letter"%string, "in"%string. split; [discriminate|]. split; [|split; [constructor|reflexivity]].
    intros c Hc. apply name_char_spec. revert c Hc. apply Forall_forall. repeat constructor.
  - apply (decimal_frac "8" "5"); [exact (number_one 8 ltac:(lia))|exact (number_one 5 ltac:(lia))].
  - apply decimal_int. exact (number_more _ 1 1 (number_one 1 ltac:(lia)) ltac:(lia)).
Qed.
(** Finding: adding the rounded fraction to the integer rounds twice; 1.14 becomes the
    double above the nearest one.  5134103575202365 / 2^52 is nearer. *)
Theorem C20_not_nearest_refuted :
  from_string "1.14" = Ok (fmk 5134103575202366 (-52)) /\
  Z.abs (5134103575202365 * 100 - 114 * 2 ^ 52) < Z.abs (5134103575202366 * 100 - 114 * 2 ^ 52).
Proof. split; [vm_compute; reflexivity|]. vm_compute. reflexivity. Qed.
(** Finding: more than 64 bits raise std::out_of_range; decimals beyond the 19th count. *)
Theorem C20_raises_refuted :
  setPaperSize default_params "a_1x18446744073709551616mm" = Throw OutOfRange /\
  setPaperSize default_params "a_1x0.33333333333333333333mm" = Throw OutOfRange.
Proof. split; vm_compute; reflexivity. Qed.

(** ** C21: geometry *)
Theorem C21_geometry : forall p, sane_geometry p ->
  let m := p_colorMode p in
  let bpp := Z.of_nat (mode_colors m * mode_bits m) in
  exists W H B,
    getPaperSizeWInPixels p = Ok W /\ getPaperSizeHInPixels p = Ok H /\ getPaperSizeWInBytes p = Ok B /\
    (* the least number of bytes *)
    8 * (B - 1) < W * bpp <= 8 * B /\
    (* whole units of compression *)
    (exists k, B = k * Z.of_nat (unit_bytes m)) /\
    getNumberOfColors p = Z.of_nat (mode_colors m) /\ getBitsPerColor p = Z.of_nat (mode_bits m) /\
    (* the bitmap holds exactly H such lines *)
    (B * H < two64 -> getPaperSizeInBytes p = Ok (B * H)) /\
    (* and the headers say so *)
    (forall back hdr, params_in_range p -> fits_field (p_mediaType p) -> fits_field (p_paperSizeName p) ->
       W < 4294967296 -> H < 4294967296 -> B < 4294967296 ->
       make_pwg_hdr p back = Ok hdr ->
       u32_at hdr off_Width = Some W /\ u32_at hdr off_Height = Some H /\ u32_at hdr off_BytesPerLine = Some B /\
       u32_at hdr off_BitsPerPixel = Some bpp /\
       u32_at hdr off_BitsPerColor = Some (getBitsPerColor p) /\ u32_at hdr off_NumColors = Some (getNumberOfColors p)).
Proof.
  intros p Hp m bpp. destruct (sane_pixels _ Hp) as (W & H & HW & HH & HWb & HHb). exists W, H, (line_bytes m W).
  pose proof (bytes_per_line _ _ HW HWb) as HB.
  assert (Eb : Z.of_nat (line_units m (Z.to_nat W)) * Z.of_nat (unit_bytes m) = line_bytes m W)
    by (unfold m; rewrite line_bytes_eq by lia; reflexivity).
  fold m in HB. rewrite Eb in HB.
  assert (C : getNumberOfColors p = Z.of_nat (mode_colors m)) by (unfold getNumberOfColors, m; destruct (p_colorMode p); reflexivity).
  assert (D : getBitsPerColor p = Z.of_nat (mode_bits m)) by (unfold getBitsPerColor, m; destruct (p_colorMode p); reflexivity).
  split; [exact HW|]. split; [exact HH|]. split; [exact HB|]. split.
  { unfold line_bytes, bpp. rewrite Nat2Z.inj_mul. clear. destruct m; cbn [mode_colors mode_bits Z.of_nat Pos.of_succ_nat Pos.succ]; lia. }
  split; [eexists; symmetry; exact Eb|]. split; [exact C|]. split; [exact D|]. split.
  { intros Hlt. unfold getPaperSizeInBytes. rewrite HB, HH. cbn [bind]. rewrite Z.mod_small; [reflexivity|].
    split; [|exact Hlt]. apply Z.mul_nonneg_nonneg; [|lia]. rewrite <- Eb. lia. }
  intros back hdr HR F1 F2 B1 B2 B3 Hh. rewrite C, D.
  destruct (make_pwg_hdr_describes p back W H hdr) as (px & py & _ & _ & Hd); auto; [unfold two32; lia..|].
  unfold pwg_header_describes in Hd. cbv zeta in Hd. destruct (if back then _ else _) as [hm vm]. fold m in Hd.
  split; [apply Hd|]. split; [apply Hd|]. split; [apply Hd|]. split; [apply Hd|]. split; apply Hd.
Qed.
Print Assumptions C21_geometry.
Example C21_example : sane_geometry default_params /\ getPaperSizeWInPixels default_params = Ok 2480 /\
  getPaperSizeHInPixels default_params = Ok 3507 /\ getPaperSizeWInBytes default_params = Ok 7440 /\
  getPaperSizeInBytes default_params = Ok 26092080.
Proof.
  split; [|split; [vm_compute; reflexivity|split; [vm_compute; reflexivity|split; vm_compute; reflexivity]]].
  unfold sane_geometry. cbn [default_params p_sizeW p_sizeH p_hwResW p_hwResH].
  split; [apply sane_fofZ; unfold max_size; lia|]. split; [apply sane_fofZ; unfold max_size; lia|]. lia.
Qed.
