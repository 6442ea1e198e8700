(** C106: the poppler and cairo calls of pdf_to_printable (lib/pdf2printable.cpp). *)
From Verif Require Import Base BaseLemmas FloatModel ParamsModel RasterModel HeaderModel RenderModel RenderProperties CallsModel CallsSpec IppEncProofs.
From Coq Require Import Lia ZifyBool ZifyNat.
Local Open Scope Z_scope.

(** ** Which pages are asked for *)
Lemma count_from_within n : forall f x, In x (count_from n f) -> f <= x < f + Z.of_nat n.
Proof.
  induction n as [|n IH]; intros f x; cbn [count_from]; [contradiction|]. intros [<-|H]; [lia|]. specialize (IH _ _ H). lia.
Qed.
Lemma select_within n : forall rs l, Forall (fun r => 1 <= fst r) rs -> select_pages n rs = Ok l -> forall x, In x l -> 1 <= x <= n.
Proof.
  induction rs as [|[f t] rs IH]; intros l HR H x Hx; cbn [select_pages] in H; [injection H as <-; contradiction|].
  inversion HR as [|a b R1 R2]; subst. cbn [fst] in R1.
  unfold range_pages in H. destruct ((Z.min t n =? two64 - 1) && (f <=? Z.min t n)); [discriminate|]. cbn [bind] in H.
  bind_inv H as r H1 H2. injection H2 as <-. apply in_app_or in Hx. destruct Hx as [Hx|Hx].
  - apply count_from_within in Hx. lia.
  - exact (IH _ R2 H1 _ Hx).
Qed.
Lemma push_sheet_in n : forall s acc x, In x (push_sheet n s acc) -> In x acc \/ In x s.
Proof.
  induction n as [|n IH]; intros s acc x; cbn [push_sheet]; [auto|]. intros H. apply IH in H. destruct H as [H|H]; [|auto]. apply in_app_or in H. tauto.
Qed.
Lemma append_copies_in n : forall s c x, In x (append_copies n s c) -> In x s \/ In x c.
Proof.
  induction n as [|n IH]; intros s acc x; cbn [append_copies]; [auto|]. intros H. apply IH in H. destruct H as [H|H]; [|auto]. apply in_app_or in H. tauto.
Qed.
Lemma uncollated_in two c : forall k seq acc l x, (length seq <= k)%nat -> uncollated two c seq acc = Ok l -> In x l -> In x acc \/ In x seq.
Proof.
  induction k as [|k IH]; intros seq acc l x L H Hx.
  - destruct seq; [|cbn in L; lia]. injection H as <-. auto.
  - destruct seq as [|a seq]; cbn [uncollated] in H; [injection H as <-; auto|]. destruct two.
    + destruct seq as [|b seq]; [discriminate|]. apply (IH _ _ _ x) in H; [|cbn in L; lia|exact Hx]. destruct H as [H|H]; [|cbn; auto].
      apply push_sheet_in in H. cbn in *. tauto.
    + apply (IH _ _ _ x) in H; [|cbn in L; lia|exact Hx]. destruct H as [H|H]; [|cbn; auto].
      apply push_sheet_in in H. cbn in *. tauto.
Qed.
(** pages that are asked for are in the document, or blank *)
Lemma sequence_within p n seq : Forall (fun r => 1 <= fst r) (p_pageRanges p) -> getPageSequence p n = Ok seq ->
  Forall (fun i => i = INVALID_PAGE \/ 1 <= i <= n) seq.
Proof.
  intros HR H. unfold getPageSequence in H. bind_inv H as sel H1 H2. apply Forall_forall. intros x Hx.
  assert (S0 : forall y, In y sel -> 1 <= y <= n).
  { refine (select_within _ _ _ _ H1). destruct (p_pageRanges p); [repeat constructor; cbn; lia|exact HR]. }
  set (sq := if isTwoSided p && Nat.eqb (Nat.modulo (length sel) 2) 1 then sel ++ [INVALID_PAGE] else sel) in H2. cbv zeta in H2.
  assert (S1 : forall y, In y sq -> y = INVALID_PAGE \/ 1 <= y <= n).
  { intros y Hy. unfold sq in Hy. destruct (_ && _); [|auto]. apply in_app_or in Hy. destruct Hy as [Hy|[Hy|[]]]; auto. }
  destruct (p_copies p >? 1).
  - destruct (p_collated p).
    + injection H2 as <-. apply append_copies_in in Hx. destruct Hx; auto.
    + eapply uncollated_in in H2; [|reflexivity|exact Hx]. destruct H2 as [[]|H2]; auto.
  - injection H2 as <-. auto.
Qed.

(** ** Runs of the machine *)
Lemma run_app d l l' s : run d (l ++ l') s = match run d l s with Some s' => run d l' s' | None => None end.
Proof. revert s. induction l as [|c l IH]; intros s; cbn [app run]; [reflexivity|]. destruct (step d c s); [apply IH|reflexivity]. Qed.
Definition held (c : option Z) : list Z := match c with Some n => [n] | None => [] end.
(** in the loop: the libraries loaded, the document open, and a surface *)
Definition mid (v : bool) (cs : list Z) : state := mkState true true true false [] (Some (mkSurface v false true)) cs false.

Lemma usable_mid v cs : usable (mid v cs) = true.
Proof. unfold usable, mid. cbn. apply orb_true_r. Qed.
Lemma begin_ok d p c n : c <> Some n -> run d (begin_page p c n) (mid (negb (is_raster p)) (held c)) = Some (mid (negb (is_raster p)) [n]).
Proof.
  intros N. unfold begin_page.
  assert (A : run d (CreateContext n :: match c with Some m => [DestroyContext m] | None => [] end) (mid (negb (is_raster p)) (held c)) = Some (mid (negb (is_raster p)) [n])).
  { destruct c as [m|]; cbn [held run step loaded mid negb].
    - assert (M : (n =? m) = false) by (apply Z.eqb_neq; congruence). assert (M' : (m =? n) = false) by (rewrite Z.eqb_sym; exact M).
      rewrite usable_mid. unfold has_context at 1. cbn [contexts mid existsb]. rewrite M. cbn [orb negb andb guard]. cbn [loaded negb].
      unfold has_context, without. cbn [contexts existsb filter]. rewrite M', Z.eqb_refl. cbn [orb negb]. reflexivity.
    - rewrite usable_mid. reflexivity. }
  rewrite app_comm_cons, run_app, A. destruct (is_raster p); [|reflexivity]. cbn [negb].
  rewrite run_app.
  assert (B : run d (if p_antiAlias p then [] else no_antialias n) (mid false [n]) = Some (mid false [n])).
  { destruct (p_antiAlias p); [reflexivity|]. unfold no_antialias. do 8 (unfold has_context, usable, mid; cbn -[Z.eqb]; rewrite ?Z.eqb_refl); reflexivity. }
  rewrite B. unfold white. do 8 (unfold has_context, usable, mid; cbn -[Z.eqb]; rewrite ?Z.eqb_refl); reflexivity.
Qed.

Lemma has_one n v : has_context n (mid v [n]) = true.
Proof. unfold has_context. cbn. rewrite Z.eqb_refl. reflexivity. Qed.
Lemma on_context d f n v : step d (OnContext f n) (mid v [n]) = Some (mid v [n]).
Proof. unfold step. cbn [loaded mid negb]. fold (mid v [n]). rewrite has_one, usable_mid. reflexivity. Qed.
Lemma on_surface d f v cs : step d (OnSurface f) (mid v cs) = Some (mid v cs).
Proof. unfold step. cbn [loaded mid negb]. fold (mid v cs). rewrite usable_mid. reflexivity. Qed.
(** while a page is there *)
Definition with_page (i : Z) (v : bool) (n : Z) : state := mkState true true true false [i] (Some (mkSurface v false true)) [n] false.
Lemma get_page d N i v n : d_count d = Some N -> 1 <= i <= N -> d_has d i = true -> step d (GetPage i) (mid v [n]) = Some (with_page i v n).
Proof.
  intros C I H. unfold step, mid. cbn [loaded negb]. rewrite C, H. cbn [doc pages existsb negb andb]. rewrite (proj2 (Z.leb_le 1 i)), (proj2 (Z.leb_le i N)) by lia. reflexivity.
Qed.
Lemma page_context d f i n v : step d (OnContext f n) (with_page i v n) = Some (with_page i v n).
Proof.
  unfold step, with_page. cbn [loaded negb]. unfold has_context, usable. cbn [contexts existsb surf s_finished s_vector stream negb andb]. rewrite Z.eqb_refl, orb_true_r. reflexivity.
Qed.
Lemma page_size d i v n : step d (PageSize i) (with_page i v n) = Some (with_page i v n).
Proof. unfold step, with_page. cbn [loaded negb pages existsb]. rewrite Z.eqb_refl. reflexivity. Qed.
Lemma page_render d i v n : step d (RenderPage i n) (with_page i v n) = Some (with_page i v n).
Proof. unfold step, with_page. cbn [loaded negb pages existsb]. unfold has_context, usable. cbn [contexts existsb surf s_finished s_vector stream negb andb]. rewrite !Z.eqb_refl, orb_true_r. reflexivity. Qed.
Lemma page_unref d i v n : step d (UnrefPage i) (with_page i v n) = Some (mid v [n]).
Proof. unfold step, with_page, without. cbn [loaded negb pages existsb filter]. rewrite Z.eqb_refl. reflexivity. Qed.

Lemma draw_ok d N n v place : d_count d = Some N -> (forall i t, place = Some (i, t) -> 1 <= i <= N /\ d_has d i = true) ->
  run d (draw_page (d_has d) n place) (mid v [n]) = Some (mid v [n]).
Proof.
  intros C P. destruct place as [[i t]|]; [|reflexivity]. destruct (P i t eq_refl) as [I H]. unfold draw_page. cbn [app run].
  rewrite (get_page d N i v n C I H), page_size, !page_context. rewrite run_app.
  assert (R : run d (if t_rotate t then [OnContext "transform" n] else []) (with_page i v n) = Some (with_page i v n)) by (destruct (t_rotate t); [cbn [run]; rewrite page_context|]; reflexivity).
  rewrite R. cbn [run]. rewrite page_render, H. cbn [run]. rewrite page_unref. reflexivity.
Qed.

Definition progress (ev : list event) : nat := length (filter (fun e => match e with Progress _ _ => true | _ => false end) ev).

(** the calls follow the pages that are printed *)
Lemma page_calls_result has r wr p total : forall seq k c bmp out seen, snd (page_calls has r wr p total seq k c bmp out seen) = print_pages r wr p total seq k bmp out seen.
Proof.
  induction seq as [|i seq IH]; intros k c bmp out seen; cbn [page_calls print_pages]; [reflexivity|].
  destruct (if i =? INVALID_PAGE then Ok None else _) as [place| | | |]; cbn [bind]; try reflexivity.
  destruct (r_draw r (k + 1) place) as [data|]; [|reflexivity].
  destruct (if is_raster p then _ else _) as [[bmp' out']| | | |]; cbn [bind]; try reflexivity.
  destruct (wr seen out'); [|reflexivity]. specialize (IH (k + 1) (Some (k + 1)) bmp' [] (seen ++ [Wrote out'; Progress (k + 1) total])).
  destruct (page_calls _ _ _ _ _ _ _ _ _ _ _) as [[l c'] o]. exact IH.
Qed.

Lemma pages_ok d N r wr p total (C : d_count d = Some N) : forall seq k c bmp out seen,
  Forall (fun i => i = INVALID_PAGE \/ 1 <= i <= N) seq -> (forall i, In i seq -> i <> INVALID_PAGE -> d_has d i = true) -> (forall m, c = Some m -> m <= k) ->
  match page_calls (d_has d) r wr p total seq k c bmp out seen with
  | (l, c', o) => exists s, run d l (mid (negb (is_raster p)) (held c)) = Some s /\ match o with Ok _ | Throw _ => s = mid (negb (is_raster p)) (held c') | _ => True end
  end.
Proof.
  induction seq as [|i seq IH]; intros k c bmp out seen W H K; cbn [page_calls]; [exists (mid (negb (is_raster p)) (held c)); split; reflexivity|].
  assert (B := begin_ok d p c (k + 1) (fun E => ltac:(specialize (K _ E); lia))).
  inversion W as [|a b W1 W2]; subst. specialize (IH (k + 1)).
  assert (G : i <> INVALID_PAGE -> 1 <= i <= N /\ d_has d i = true) by (intros Hi; split; [destruct W1; [contradiction|assumption]|apply H; [left; reflexivity|exact Hi]]).
  destruct (if i =? INVALID_PAGE then Ok None else _) as [place|e| | |] eqn:EP.
  - assert (P : forall j t, place = Some (j, t) -> 1 <= j <= N /\ d_has d j = true).
    { intros j t ->. destruct (Z.eqb_spec i INVALID_PAGE) as [|Hi]; [discriminate|]. destruct (r_size r i) as [w h]. bind_inv EP as t' E1 E2. injection E2 as <- <-. exact (G Hi). }
    assert (D : run d (begin_page p c (k + 1) ++ draw_page (d_has d) (k + 1) place ++ [OnContext "status" (k + 1)]) (mid (negb (is_raster p)) (held c)) = Some (mid (negb (is_raster p)) [k + 1])).
    { rewrite run_app, B, run_app, (draw_ok d N _ _ _ C P). cbn [run]. rewrite on_context. reflexivity. }
    destruct (r_draw r (k + 1) place) as [data|]; [|eexists; split; [exact D|reflexivity]].
    assert (Sh : run d ((begin_page p c (k + 1) ++ draw_page (d_has d) (k + 1) place ++ [OnContext "status" (k + 1)]) ++ [OnSurface "show_page"] ++ (if is_raster p then [OnSurface "flush"; GetData] else []))
        (mid (negb (is_raster p)) (held c)) = Some (mid (negb (is_raster p)) [k + 1])).
    { rewrite run_app, D, run_app. cbn [run]. rewrite on_surface. destruct (is_raster p); [|reflexivity]. cbn [run]. rewrite on_surface. reflexivity. }
    destruct (if is_raster p then _ else Ok (bmp, out ++ r_stream r (k + 1) place)) as [[bmp' out']| | | |]; try (eexists; split; [exact Sh|reflexivity]).
    destruct (wr seen out'); [|eexists; split; [exact Sh|reflexivity]].
    specialize (IH (Some (k + 1)) bmp' [] (seen ++ [Wrote out'; Progress (k + 1) total]) W2 (fun j Hj => H j (or_intror Hj)) ltac:(intros m E; injection E as <-; lia)).
    destruct (page_calls _ _ _ _ _ _ _ _ _ _ _) as [[l c'] o]. destruct IH as [s [R S']]. exists s. split; [|exact S'].
    rewrite run_app, Sh. exact R.
  - destruct (Z.eqb_spec i INVALID_PAGE) as [|Hi]; [discriminate|]. destruct (G Hi) as [I J]. exists (mid (negb (is_raster p)) [k + 1]). split; [|reflexivity].
    rewrite run_app, B. cbn [app run]. rewrite (get_page d N i _ _ C I J), page_size, J. cbn [run]. rewrite page_unref. reflexivity.
  - destruct (Z.eqb_spec i INVALID_PAGE) as [|Hi]; [discriminate|]. destruct (G Hi) as [I J]. eexists. split; [|exact Logic.I].
    rewrite run_app, B. cbn [app run]. rewrite (get_page d N i _ _ C I J), page_size. reflexivity.
  - destruct (Z.eqb_spec i INVALID_PAGE) as [|Hi]; [discriminate|]. destruct (G Hi) as [I J]. eexists. split; [|exact Logic.I].
    rewrite run_app, B. cbn [app run]. rewrite (get_page d N i _ _ C I J), page_size. reflexivity.
  - destruct (Z.eqb_spec i INVALID_PAGE) as [|Hi]; [discriminate|]. destruct (G Hi) as [I J]. eexists. split; [|exact Logic.I].
    rewrite run_app, B. cbn [app run]. rewrite (get_page d N i _ _ C I J), page_size. reflexivity.
Qed.

(** the destructors: with an image surface, or one that is finished, they do no harm; with one
    for a stream that is not finished they write to the stream when it is gone *)
Lemma unwind_ok d madness v fin c : v = false \/ fin = true ->
  run d (unwind madness false true c true) (mkState true true true false [] (Some (mkSurface v fin true)) (held c) false) = Some (start madness).
Proof.
  intros H. assert (X : fin || negb v || false = true) by (destruct H as [-> | ->]; [rewrite orb_true_r|]; reflexivity).
  unfold unwind. destruct c as [n|]; cbn [app held run step loaded negb doc stream guard].
  - unfold has_context. cbn [contexts existsb]. rewrite Z.eqb_refl. cbn [orb]. unfold without. cbn [filter contexts]. rewrite Z.eqb_refl. cbn [negb]. unfold collect at 1. cbn [surf s_held orb].
    destruct madness; cbn [app run step loaded negb surf s_held]; unfold collect; cbn [surf s_held contexts length Nat.eqb negb orb s_finished s_vector stream]; rewrite X; reflexivity.
  - destruct madness; cbn [app run step loaded negb surf s_held]; unfold collect; cbn [surf s_held contexts length Nat.eqb negb orb s_finished s_vector stream]; rewrite X; reflexivity.
Qed.
Lemma unwind_bad d madness c : run d (unwind madness false true c true) (mid true (held c)) = None.
Proof.
  unfold unwind, mid. destruct c as [n|]; cbn [app held run step loaded negb doc stream guard].
  - unfold has_context. cbn [contexts existsb]. rewrite Z.eqb_refl. cbn [orb]. unfold without. cbn [filter contexts]. rewrite Z.eqb_refl. cbn [negb]. unfold collect at 1. cbn [surf s_held orb].
    destruct madness; reflexivity.
  - destruct madness; reflexivity.
Qed.
Lemma progress_app a b : progress (a ++ b) = (progress a + progress b)%nat.
Proof. unfold progress. rewrite filter_app, app_length. reflexivity. Qed.
Lemma print_progress r wr p total : forall seq k bmp out seen ev e out', print_pages r wr p total seq k bmp out seen = Ok (ev, e, out') ->
  match e with None => progress ev = (progress seen + length seq)%nat | Some _ => (progress ev < progress seen + length seq)%nat end.
Proof.
  induction seq as [|i seq IH]; intros k bmp out seen ev e out' H; cbn [print_pages] in H; [injection H as <- <- <-; cbn; lia|].
  bind_inv H as place H1 H2. destruct (r_draw r (k + 1) place); [|injection H2 as <- <- <-; cbn [length]; lia].
  bind_inv H2 as b H3 H4. destruct b as [bmp' o']. destruct (wr seen o').
  - apply IH in H4. rewrite progress_app in H4. cbn in H4. destruct e; cbn [length]; lia.
  - injection H4 as <- <- <-. rewrite progress_app. cbn. lia.
Qed.

(** before the loop *)
Lemma early_ok d (madness : bool) N : d_count d = Some N ->
  run d ((if madness then [Load] else []) ++ [BeginStream; OpenDocument] ++ [CountPages]) (start madness) = Some (mkState true true true false [] None [] false).
Proof. intros C. destruct madness; cbn; rewrite C; reflexivity. Qed.
Lemma early_end d madness : run d (unwind madness false true None false) (mkState true true true false [] None [] false) = Some (start madness).
Proof. destruct madness; reflexivity. Qed.

(** ** The theorems *)
(** The document of a renderer: what it says of its pages, and all of them there. *)
Definition document_of (r : renderer) (has : Z -> bool) : document := mkDoc (r_pages r) has.
Definition complete (r : renderer) (has : Z -> bool) : Prop := forall n i, r_pages r = Some n -> 1 <= i <= n -> has i = true.
(** a run that does not end by undefined behaviour or for ever *)
Definition ends {A} (o : outcome A) : Prop := match o with Ok _ | Throw _ => True | _ => False end.

(** The calls up to the end of the page loop and after it. *)
Lemma calls_unfold madness has r wr p : Forall (fun x => 1 <= fst x) (p_pageRanges p) -> complete r has ->
  let l := pdf_calls madness has r wr p in let d := document_of r has in let o := pdf_to_printable r wr p in
  (allowed d madness l /\ (ends o -> allowed_and_clean d madness l) /\ (p_format p = Invalid \/ r_pages r = None \/ p_format p = URF /\ p_hwResW p <> p_hwResH p \/ ~ ends o \/ exists e, o = Throw e)) \/
  (exists n seq bts c pre res, r_pages r = Some n /\ getPageSequence p n = Ok seq /\ p_format p <> Invalid /\
     res = print_pages r wr p (Z.of_nat (length seq)) seq 0 [] bts [] /\
     (exists s, run d pre (start madness) = Some s /\ match res with Ok _ | Throw _ => s = mid (negb (is_raster p)) (held c) | _ => True end) /\
     l = pre ++ (match res with Ok (_, None, _) => [Finish] | _ => [] end) ++ leave res (unwind madness false true c true) /\
     match res with
     | Ok (ev, Some e, _) => o = Ok (ev, Some e)
     | Ok (ev, None, _) => exists more e, o = Ok (ev ++ more, e) /\ progress more = 0%nat
     | Throw e => o = Throw e
     | _ => ~ ends o
     end).
Proof.
  intros HR HC l d o. subst l o. unfold pdf_calls, pdf_to_printable.
  destruct (match p_format p with URF => negb (p_hwResW p =? p_hwResH p) | _ => false end) eqn:EU.
  { left. split; [exists (start madness); reflexivity|]. split; [intros _; exists (start madness); split; reflexivity|]. right. right. left. destruct (p_format p); try discriminate. split; [reflexivity|lia]. }
  destruct (r_pages r) as [n|] eqn:EN.
  2:{ assert (A : allowed_and_clean d madness ((if madness then [Load] else []) ++ [BeginStream; OpenDocument] ++ [ReadError] ++ unwind madness true false None false)).
      { exists (start madness). split; [|reflexivity]. destruct madness; cbn; unfold d, document_of; cbn [d_count]; rewrite EN; reflexivity. }
      left. split; [destruct A as [s [A _]]; exists s; exact A|]. split; [intros _; exact A|]. auto. }
  assert (DC : d_count d = Some n) by exact EN.
  assert (pre1 := early_ok d madness n DC). set (hd := (if madness then [Load] else []) ++ [BeginStream; OpenDocument] ++ [CountPages]) in *.
  assert (HD : forall t, (if madness then [Load] else []) ++ [BeginStream; OpenDocument] ++ [CountPages] ++ t = hd ++ t) by (intros t; unfold hd; rewrite <- !app_assoc; reflexivity).
  rewrite HD.
  assert (EE : forall (A B : Type) (oo : outcome A) (o2 : outcome B), match oo with Ok _ => True | Throw _ => ends o2 /\ (exists e, o2 = Throw e) | _ => ~ ends o2 end -> (forall x, oo <> Ok x) ->
      (allowed d madness (hd ++ leave oo (unwind madness false true None false)) /\ (ends o2 -> allowed_and_clean d madness (hd ++ leave oo (unwind madness false true None false))) /\
      (p_format p = Invalid \/ Some n = None \/ p_format p = URF /\ p_hwResW p <> p_hwResH p \/ ~ ends o2 \/ exists e, o2 = Throw e))).
  { intros A B oo o2 X NO. destruct oo as [x|e| | |]; [destruct (NO x eq_refl)| | | |]; cbn [leave].
    1:{ assert (Q : allowed_and_clean d madness (hd ++ unwind madness false true None false)) by (exists (start madness); split; [rewrite run_app, pre1; apply early_end|reflexivity]).
        split; [destruct Q as [s [Q _]]; exists s; exact Q|]. split; [intros _; exact Q|]. destruct X as [_ X]. auto. }
    all: split; [eexists; rewrite app_nil_r; exact pre1|]; split; [intros E; contradiction|]; auto. }
  destruct (getPageSequence p n) as [seq|e| | |] eqn:ES; cbn [bind].
  2-5: left; apply EE; [cbn; eauto|discriminate].
  set (total := Z.of_nat (length seq)).
  destruct (if is_raster p then _ else Ok []) as [bts|e| | |] eqn:EB; cbn [bind].
  2-5: left; apply EE; [cbn; eauto|discriminate].
  destruct (match p_format p with Invalid => true | _ => false end) eqn:EF.
  { left. assert (F : p_format p = Invalid) by (destruct (p_format p); congruence). rewrite F.
    assert (Q : allowed_and_clean d madness (hd ++ unwind madness false true None false)) by (exists (start madness); split; [rewrite run_app, pre1; apply early_end|reflexivity]).
    split; [destruct Q as [s [Q _]]; exists s; exact Q|]. split; [intros _; exact Q|]. auto. }
  right.
  pose proof (pages_ok d n r wr p total DC seq 0 None [] bts []) as PO. pose proof (page_calls_result has r wr p total seq 0 None [] bts []) as PR.
  destruct (page_calls has r wr p total seq 0 None [] bts []) as [[l c] o] eqn:EL.
  change (d_has d) with has in PO. rewrite EL in PO.
  destruct PO as [s [PO1 PO2]].
  { exact (sequence_within p n seq HR ES). }
  { intros i Hi Hn. pose proof (sequence_within p n seq HR ES) as SW. rewrite Forall_forall in SW. destruct (SW i Hi) as [|R]; [contradiction|]. exact (HC n i EN R). }
  { intros m E. discriminate. }
  cbn [snd] in PR. subst o.
  exists n, seq, bts, c, (hd ++ (surface_calls p ++ [OnSurface "set_fallback_resolution"]) ++ l), (print_pages r wr p total seq 0 [] bts []).
  split; [reflexivity|]. split; [exact ES|]. split; [intros F; rewrite F in EF; discriminate|]. split; [reflexivity|].
  assert (SF : run d (surface_calls p ++ [OnSurface "set_fallback_resolution"]) (mkState true true true false [] None [] false) = Some (mid (negb (is_raster p)) [])).
  { unfold surface_calls, is_raster. destruct (p_format p); try discriminate; reflexivity. }
  split; [exists s; split; [rewrite run_app, pre1, run_app, SF; exact PO1|exact PO2]|].
  split; [destruct (p_format p); try discriminate; rewrite <- !app_assoc; reflexivity|].
  assert (O : forall X : outcome (list event * option string), match p_format p with Invalid => Ok ([], Some "Unknown format"%string) | _ => X end = X) by (intros X; destruct (p_format p); try reflexivity; discriminate).
  rewrite O. destruct (print_pages r wr p total seq 0 [] bts []) as [[[ev e] ob]|e| | |]; cbn [bind]; try (cbn; tauto).
  destruct e as [e|]; [reflexivity|]. destruct (if is_raster p then ob else _); [exists [], None; rewrite app_nil_r; split; reflexivity|].
  destruct (wr ev _); [exists [Wrote (b :: l0)], None|exists [Wrote (b :: l0)], (Some "Write error"%string)]; split; reflexivity.
Qed.

(** Raster formats (and the cases where no surface is made): every call is allowed, and however
    the function ends, all that it has got from the libraries is given back, once, before the
    libraries are unloaded. *)
Theorem C106_raster : forall madness has r wr p, Forall (fun x => 1 <= fst x) (p_pageRanges p) -> complete r has -> p_format p <> PDF -> p_format p <> Postscript ->
  allowed (document_of r has) madness (pdf_calls madness has r wr p) /\
  (ends (pdf_to_printable r wr p) -> allowed_and_clean (document_of r has) madness (pdf_calls madness has r wr p)).
Proof.
  intros madness has r wr p HR HC F1 F2. destruct (calls_unfold madness has r wr p HR HC) as [[A [B _]]|X]; [split; assumption|].
  destruct X as [n [seq [bts [c [pre [res [E1 [E2 [E3 [E4 [[s [R1 R2]] [E5 E6]]]]]]]]]]]]. rewrite E5. clear E4 E5.
  assert (IR : is_raster p = true) by (unfold is_raster; destruct (p_format p); congruence). rewrite IR in R2. cbn [negb] in R2.
  assert (U := fun fin => unwind_ok (document_of r has) madness false fin c (or_introl eq_refl)).
  destruct res as [[[ev e] ob]|e| | |]; cbn [leave].
  - destruct e as [e|]; cbn [app].
    + assert (Q : allowed_and_clean (document_of r has) madness (pre ++ unwind madness false true c true)) by (exists (start madness); split; [rewrite run_app, R1, R2; apply U|reflexivity]).
      split; [destruct Q as [q [Q _]]; exists q; exact Q|intros _; exact Q].
    + assert (Q : allowed_and_clean (document_of r has) madness (pre ++ Finish :: unwind madness false true c true)) by (exists (start madness); split; [rewrite run_app, R1, R2; cbn [run]; exact (U true)|reflexivity]).
      split; [destruct Q as [q [Q _]]; exists q; exact Q|intros _; exact Q].
  - assert (Q : allowed_and_clean (document_of r has) madness (pre ++ unwind madness false true c true)) by (exists (start madness); split; [rewrite run_app, R1, R2; apply U|reflexivity]).
    split; [destruct Q as [q [Q _]]; exists q; exact Q|intros _; exact Q].
  - split; [exists s; rewrite app_nil_r; exact R1|]. intros K. contradiction.
  - split; [exists s; rewrite app_nil_r; exact R1|]. intros K. contradiction.
  - split; [exists s; rewrite app_nil_r; exact R1|]. intros K. contradiction.
Qed.
Print Assumptions C106_raster.

(** PDF and Postscript: the same if all pages were taken; if not, the function uses memory after
    its lifetime has ended.  So exactly the jobs that fail before the last page was taken do so. *)
Theorem C106_vector_partial : forall madness has r wr p n seq ev e, Forall (fun x => 1 <= fst x) (p_pageRanges p) -> complete r has -> p_format p = PDF \/ p_format p = Postscript ->
  r_pages r = Some n -> getPageSequence p n = Ok seq -> pdf_to_printable r wr p = Ok (ev, e) ->
  (progress ev <= length seq)%nat /\
  (progress ev = length seq -> allowed_and_clean (document_of r has) madness (pdf_calls madness has r wr p)) /\
  ((progress ev < length seq)%nat -> ~ allowed (document_of r has) madness (pdf_calls madness has r wr p)).
Proof.
  intros madness has r wr p n seq ev e HR HC F EN ES EO. destruct (calls_unfold madness has r wr p HR HC) as [[_ [_ X]]|X].
  { rewrite EO in X. exfalso. destruct X as [X|[X|[[X _]|[X|[y X]]]]]; try congruence; [destruct F; congruence|destruct F; congruence|]. apply X. exact Logic.I. }
  destruct X as [n' [seq' [bts [c [pre [res [E1 [E2 [E3 [E4 [[s [R1 R2]] [E5 E6]]]]]]]]]]]]. rewrite E5. clear E5.
  rewrite EN in E1. injection E1 as <-. rewrite ES in E2. injection E2 as <-. rewrite EO in E6.
  assert (IR : is_raster p = false) by (unfold is_raster; destruct F as [-> | ->]; reflexivity). rewrite IR in R2. cbn [negb] in R2.
  destruct res as [[[ev' e'] ob]|y| | |]; try discriminate; try (destruct E6; exact Logic.I). symmetry in E4. apply print_progress in E4. cbn [progress filter length] in E4. change (progress []) with 0%nat in E4. cbn [leave].
  destruct e' as [e'|].
  - injection E6 as -> ->. split; [lia|]. split; [lia|]. intros _ [q Q]. cbn [app] in Q. rewrite run_app, R1, R2, unwind_bad in Q. discriminate.
  - destruct E6 as [more [e2 [E6 M]]]. injection E6 as -> ->. rewrite progress_app, M. split; [lia|]. split; [|lia]. intros _. exists (start madness). split; [|reflexivity].
    cbn [app]. rewrite run_app, R1, R2. cbn [run]. exact (unwind_ok (document_of r has) madness true true c (or_intror eq_refl)).
Qed.
Print Assumptions C106_vector_partial.

(** A job for a printer that takes PDF, of which the second page is not accepted: the rest of
    the document is written to a stream that no longer exists. *)
Theorem C106_destroyed_stream_refuted : exists r wr p, Forall (fun x => 1 <= fst x) (p_pageRanges p) /\ complete r (fun _ => true) /\ p_format p = PDF /\
  (exists ev, pdf_to_printable r wr p = Ok (ev, Some "Write error"%string)) /\
  forall madness, ~ allowed (document_of r (fun _ => true)) madness (pdf_calls madness (fun _ => true) r wr p).
Proof.
  set (p := small_paper sRGB24 PDF 2 1). assert (HR : Forall (fun x => 1 <= fst x) (p_pageRanges p)) by (repeat constructor; cbn; lia).
  assert (HC : complete example_doc (fun _ => true)) by (intros n i _ _; reflexivity).
  assert (O : exists ev, pdf_to_printable example_doc accept_once p = Ok (ev, Some "Write error"%string) /\ progress ev = 1%nat) by (eexists; split; vm_compute; reflexivity).
  destruct O as [ev [O P]]. exists example_doc, accept_once, p. split; [exact HR|]. split; [exact HC|]. split; [reflexivity|]. split; [exists ev; exact O|].
  intros madness. apply (C106_vector_partial madness (fun _ => true) example_doc accept_once p 3 [1; 0; 1; 0] ev _ HR HC (or_introl eq_refl) eq_refl ltac:(vm_compute; reflexivity) O). rewrite P. cbn. lia.
Qed.
Print Assumptions C106_destroyed_stream_refuted.

(** A document that says it has a page and has not: the size of the page is read from variables
    that are not set. *)
Theorem C106_missing_page_refuted : forall madness has r wr p n i seq, p_format p = PWG \/ p_format p = URF /\ p_hwResW p = p_hwResH p \/ p_format p = PDF \/ p_format p = Postscript ->
  r_pages r = Some n -> getPageSequence p n = Ok (i :: seq) -> i <> INVALID_PAGE -> has i = false ->
  (p_format p = PWG \/ p_format p = URF -> exists w h, getPaperSizeWInPixels p = Ok w /\ getPaperSizeHInPixels p = Ok h) ->
  ~ allowed (document_of r has) madness (pdf_calls madness has r wr p).
Proof.
  intros madness has r wr p n i seq F EN ES Hi HA SZ [q Q]. unfold pdf_calls in Q. set (d := document_of r has) in *.
  assert (EU : match p_format p with URF => negb (p_hwResW p =? p_hwResH p) | _ => false end = false) by (destruct F as [-> |[[-> F]|[-> | ->]]]; try reflexivity; lia).
  rewrite EU in Q. assert (pre1 := early_ok d madness n EN). destruct (r_pages r) as [n'|] eqn:EN'; [injection EN as ->|discriminate].
  set (hd := (if madness then [Load] else []) ++ [BeginStream; OpenDocument] ++ [CountPages]) in *.
  assert (HD : forall t, (if madness then [Load] else []) ++ [BeginStream; OpenDocument] ++ [CountPages] ++ t = hd ++ t) by (intros t; unfold hd; rewrite <- !app_assoc; reflexivity).
  rewrite HD, run_app, pre1 in Q.
  rewrite ES in Q.
  assert (SF : run d (surface_calls p ++ [OnSurface "set_fallback_resolution"]) (mkState true true true false [] None [] false) = Some (mid (negb (is_raster p)) [])).
  { unfold surface_calls, is_raster. destruct F as [-> |[[-> F]|[-> | ->]]]; reflexivity. }
  set (total := Z.of_nat (length (i :: seq))) in Q.
  set (bts := if is_raster p then _ else Ok []) in Q. assert (EB : exists b, bts = Ok b).
  { unfold bts. destruct (is_raster p) eqn:IR; [|eauto]. destruct SZ as [w [h [Ew Eh]]]; [unfold is_raster in IR; destruct (p_format p); try discriminate; auto|]. rewrite Ew, Eh. cbn [bind]. eauto. }
  destruct EB as [b EB]. rewrite EB in Q.
  assert (O : forall X Y : list call, match p_format p with Invalid => X | _ => Y end = Y) by (intros X Y; destruct F as [-> |[[-> _]|[-> | ->]]]; reflexivity). rewrite O in Q.
  assert (L : exists t, fst (fst (page_calls has r wr p total (i :: seq) 0 None [] b [])) = begin_page p None 1 ++ [GetPage i; PageSize i] ++ t).
  { cbn [page_calls]. rewrite (proj2 (Z.eqb_neq i INVALID_PAGE) Hi). destruct (r_size r i) as [w0 h0]. destruct (fixup_scale w0 h0 p) as [t0| | | |]; cbn [bind].
    2-5: cbn [fst]; rewrite ?HA; eexists; try reflexivity.
    change (0 + 1) with 1. cbn [draw_page]. rewrite HA.
    destruct (r_draw r 1 (Some (i, t0))); [|cbn [fst]; rewrite <- !app_assoc; eexists; reflexivity].
    destruct (if is_raster p then _ else Ok ([], b ++ r_stream r 1 (Some (i, t0)))) as [[b1 b2]| | | |]; [|cbn [fst]; rewrite <- !app_assoc; eexists; reflexivity..].
    destruct (wr [] b2); [|cbn [fst]; rewrite <- !app_assoc; eexists; reflexivity].
    destruct (page_calls has r wr p total seq 1 (Some 1) b1 [] _) as [[l1 l2] l3]. cbn [fst]. rewrite <- !app_assoc. eexists; reflexivity. }
  destruct (page_calls has r wr p total (i :: seq) 0 None [] b []) as [[l c] o]. cbn [fst] in L. destruct L as [t ->].
  rewrite app_assoc, run_app, SF, <- app_assoc, run_app in Q. change (@nil Z) with (held None) in Q. rewrite begin_ok in Q by discriminate.
  cbn [app run] in Q. unfold step at 1 in Q. cbn [mid loaded negb] in Q. change (d_count d) with (r_pages r) in Q. rewrite EN' in Q. change (d_has d i) with (has i) in Q. rewrite HA in Q.
  cbn [doc pages existsb negb] in Q. destruct (guard _ _) as [s|] eqn:G; [|discriminate]. unfold guard in G. destruct (_ && _); [|discriminate]. injection G as <-. discriminate.
Qed.
Print Assumptions C106_missing_page_refuted.

(** ** Examples *)
(** four pages of a raster job with the libraries loaded by hand, and the same when the printer
    takes only one page *)
Example C106_example : let p := small_paper sRGB24 URF 2 1 in let all := fun _ : Z => true in
  ends (pdf_to_printable example_doc accept p) /\ length (pdf_calls true all example_doc accept p) = 87%nat /\
  ends (pdf_to_printable example_doc accept_once p) /\
  allowed_and_clean (document_of example_doc all) true (pdf_calls true all example_doc accept p) /\
  allowed_and_clean (document_of example_doc all) true (pdf_calls true all example_doc accept_once p).
Proof.
  cbv zeta. split; [vm_compute; exact Logic.I|]. split; [vm_compute; reflexivity|]. split; [vm_compute; exact Logic.I|].
  split; eexists; (split; [vm_compute; reflexivity|reflexivity]).
Qed.
Example C106_example_vector : let p := small_paper sRGB24 Postscript 2 1 in let all := fun _ : Z => true in
  (exists ev, pdf_to_printable example_doc accept p = Ok (ev, None) /\ progress ev = 4%nat) /\
  allowed_and_clean (document_of example_doc all) false (pdf_calls false all example_doc accept p).
Proof. cbv zeta. split; [eexists; split; vm_compute; reflexivity|]. eexists. split; [vm_compute; reflexivity|reflexivity]. Qed.
Example C106_example_missing : let p := small_paper sRGB24 PWG 2 1 in let has := fun i => negb (i =? 1) in
  ends (pdf_to_printable example_doc accept p) /\ run (document_of example_doc has) (pdf_calls false has example_doc accept p) (start false) = None.
Proof. cbv zeta. split; [vm_compute; exact Logic.I|vm_compute; reflexivity]. Qed.
