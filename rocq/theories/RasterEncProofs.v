(** Proofs about the page encoder. *)
From Coq Require Import Lia ZifyBool ZifyNat ZifyN.
From Verif Require Import Base BaseLemmas ListLemmas RasterModel RasterSpec.
Ltac Zify.zify_post_hook ::= Z.div_mod_to_equations.

Local Open Scope Z_scope.

Section Line.
  Variable m : list byte.
  Variable base : Z.
  Variable c : nat.
  Variable chunks : list (list byte).
  Hypothesis chunk_len : Forall (fun p => length p = c) chunks.
  Hypothesis mem : exists pre post, m = pre ++ concat chunks ++ post /\ Z.of_nat (length pre) = base.

  Let n := length chunks.
  Let P (i : nat) : Z := base + Z.of_nat i * Z.of_nat c.

  Lemma load_chunks i k : (i + k <= n)%nat ->
    load m (P i) (Z.of_nat k * Z.of_nat c) = Ok (concat (firstn k (skipn i chunks))).
  Proof.
    intros H. destruct mem as (pre & post & -> & Hb).
    assert (E : chunks = firstn i chunks ++ firstn k (skipn i chunks) ++ skipn k (skipn i chunks)).
    { rewrite firstn_skipn, firstn_skipn. reflexivity. }
    rewrite E at 1. rewrite !concat_app.
    replace (pre ++ (concat (firstn i chunks) ++ concat (firstn k (skipn i chunks)) ++
               concat (skipn k (skipn i chunks))) ++ post)
      with ((pre ++ concat (firstn i chunks)) ++ concat (firstn k (skipn i chunks)) ++
              (concat (skipn k (skipn i chunks)) ++ post))
      by (rewrite <- !app_assoc; reflexivity).
    apply load_mid.
    - rewrite app_length, (concat_length_uniform c) by (apply Forall_firstn; assumption).
      rewrite firstn_length. unfold P, n in *. nia.
    - rewrite (concat_length_uniform c) by (apply Forall_firstn, Forall_skipn; assumption).
      rewrite firstn_length, skipn_length. unfold n in *. nia.
  Qed.

  Lemma load_chunk i : (i < n)%nat -> load m (P i) (Z.of_nat c) = Ok (nth i chunks []).
  Proof.
    intros H. replace (Z.of_nat c) with (Z.of_nat 1 * Z.of_nat c) by lia.
    rewrite load_chunks by lia.
    rewrite (skipn_nth_cons []) by (unfold n in H; lia). simpl. rewrite app_nil_r. reflexivity.
  Qed.

  Lemma mem_eq_chunks i j : (i < n)%nat -> (j < n)%nat ->
    mem_eq m (P i) (P j) (Z.of_nat c) = Ok (bytes_eqb (nth i chunks []) (nth j chunks [])).
  Proof.
    intros Hi Hj. unfold mem_eq. rewrite (load_chunk i), (load_chunk j) by assumption. reflexivity.
  Qed.

  Hypothesis c_pos : (1 <= c)%nat.

  Lemma P_eq i j : (P i =? P j) = (i =? j)%nat.
  Proof. unfold P. destruct (i =? j)%nat eqn:E; nia. Qed.

  Lemma P_S i : P i + Z.of_nat c = P (S i).
  Proof. unfold P. lia. Qed.

  Lemma repeat_run_ok fuel i j rep :
    (i <= n)%nat -> (j < n)%nat -> 0 <= rep < 127 -> (n - i < fuel)%nat ->
    exists i', repeat_run fuel m (P n) (Z.of_nat c) (P j) (P i) rep
                 = Ok (P i', rep + Z.of_nat (i' - i)) /\
      (i <= i' <= n)%nat /\ rep + Z.of_nat (i' - i) <= 127 /\
      (forall k, (i <= k < i')%nat -> nth k chunks [] = nth j chunks []).
  Proof.
    revert i rep. induction fuel as [|f IH]; intros i rep Hi Hj Hr Hf; [lia|].
    cbn [repeat_run]. rewrite P_eq.
    destruct (i =? n)%nat eqn:E.
    { exists i. repeat split; try lia. do 2 f_equal. lia. }
    rewrite mem_eq_chunks by lia. cbn [bind].
    destruct (bytes_eqb (nth i chunks []) (nth j chunks [])) eqn:Eq.
    - apply bytes_eqb_spec in Eq. rewrite P_S.
      destruct (rep + 1 =? 127) eqn:E1.
      + exists (S i). repeat split; try lia.
        * do 2 f_equal. lia.
        * intros k Hk. replace k with i by lia. assumption.
      + destruct (IH (S i) (rep + 1)) as (i' & Hrun & Hle & Hmax & Hall); try lia.
        exists i'. rewrite Hrun. repeat split; try lia.
        * do 2 f_equal. lia.
        * intros k Hk. destruct (Nat.eq_dec k i) as [->|]; [assumption|]. apply Hall. lia.
    - exists i. repeat split; try lia. do 2 f_equal. lia.
  Qed.

  Lemma literal_run_ok fuel i v :
    (i < n)%nat -> 1 <= v < 127 -> (n - i <= fuel)%nat ->
    exists i', literal_run fuel m (P n) (Z.of_nat c) (P i) v
                 = Ok (P i', v + Z.of_nat (i' - i)) /\
      (i < i' <= n)%nat /\ v + Z.of_nat (i' - i) <= 127.
  Proof.
    revert i v. induction fuel as [|f IH]; intros i v Hi Hv Hf; [lia|].
    cbn [literal_run]. rewrite P_S.
    destruct (v + 1 =? 127) eqn:E1.
    { exists (S i). repeat split; try lia. do 2 f_equal. lia. }
    rewrite P_eq. destruct (S i =? n)%nat eqn:E2.
    { exists (S i). repeat split; try lia. do 2 f_equal. lia. }
    rewrite mem_eq_chunks by lia. cbn [bind].
    destruct (bytes_eqb _ _) eqn:Eq.
    { exists (S i). repeat split; try lia. do 2 f_equal. lia. }
    destruct (IH (S i) (v + 1)) as (i' & Hrun & Hle & Hmax); try lia.
    exists i'. rewrite Hrun. repeat split; try lia. do 2 f_equal. lia.
  Qed.

  Lemma nth_len i : (i < n)%nat -> length (nth i chunks []) = c.
  Proof.
    intros H. rewrite Forall_forall in chunk_len. apply chunk_len. apply nth_In. assumption.
  Qed.

  Lemma compress_loop_ok fill fuel i :
    (i <= n)%nat -> (n - i < fuel)%nat ->
    exists out, compress_loop fuel m (P n) (Z.of_nat c) (P i) = Ok out /\
      line_code c fill out (skipn i chunks).
  Proof.
    revert i. induction fuel as [|f IH]; intros i Hi Hf; [lia|].
    cbn [compress_loop]. rewrite P_eq.
    destruct (i =? n)%nat eqn:E.
    { exists []. split; [reflexivity|]. rewrite skipn_all2 by (unfold n in *; lia). constructor. }
    rewrite P_S, P_eq.
    assert (Hi' : (i < n)%nat) by lia. clear Hi E.
    (* the two branches, once the test of line 120 is decided *)
    assert (Hrep : (if (S i =? n)%nat then Ok true else mem_eq m (P (S i)) (P i) (Z.of_nat c))
                   = Ok (if (S i =? n)%nat then true
                         else bytes_eqb (nth (S i) chunks []) (nth i chunks []))).
    { destruct (S i =? n)%nat eqn:E; [reflexivity|]. apply mem_eq_chunks; lia. }
    rewrite Hrep. cbn [bind].
    destruct (if (S i =? n)%nat then true else _) eqn:Er.
    - (* repeated *)
      destruct (repeat_run_ok (S f) (S i) i 0) as (i' & Hrun & Hle & Hmax & Hall); try lia.
      rewrite Hrun. cbn [bind].
      rewrite load_chunk by assumption. cbn [bind].
      destruct (IH i') as (out & Hout & Hcode); try lia.
      rewrite Hout. cbn [bind]. eexists; split; [reflexivity|].
      replace (skipn i chunks) with (repeat (nth i chunks []) (i' - i) ++ skipn i' chunks).
      + replace (0 + Z.of_nat (i' - S i)) with (Z.of_nat (i' - i) - 1) by lia.
        apply lc_run; [lia| apply nth_len; assumption | assumption].
      + rewrite <- (firstn_all_eq_repeat (nth i chunks []) (i' - i) (skipn i chunks)).
        * replace i' with (i + (i' - i))%nat at 2 by lia.
          rewrite <- skipn_skipn. apply firstn_skipn.
        * rewrite skipn_length. unfold n in *. lia.
        * intros k Hk. rewrite nth_skipn.
          destruct k as [|k]; [rewrite Nat.add_0_r; apply nth_indep; unfold n in *; lia|].
          rewrite (nth_indep _ _ []) by (unfold n in *; lia).
          apply Hall. lia.
    - (* literal *)
      assert (HS : (S i < n)%nat) by (destruct (S i =? n)%nat eqn:E; [discriminate|lia]).
      destruct (literal_run_ok (S f) (S i) 1) as (i' & Hrun & Hle & Hmax); try lia.
      rewrite Hrun. cbn [bind]. rewrite P_eq.
      set (v := if (i' =? n)%nat then 1 + Z.of_nat (i' - S i) else 1 + Z.of_nat (i' - S i) - 1).
      assert (Hv : exists k, v = Z.of_nat k /\ (1 <= k <= 127)%nat /\ (i + k <= n)%nat).
      { subst v. destruct (i' =? n)%nat eqn:E.
        - exists (i' - i)%nat. lia.
        - exists (i' - i - 1)%nat. lia. }
      destruct Hv as (k & -> & Hk & Hik).
      destruct (Z.of_nat k =? 1) eqn:E1.
      + assert (k = 1%nat) by lia. subst k.
        rewrite load_chunk by assumption. cbn [bind].
        destruct (IH (S i)) as (out & Hout & Hcode); try lia.
        rewrite Hout. cbn [bind]. eexists; split; [reflexivity|].
        rewrite (skipn_nth_cons []) by (unfold n in *; lia).
        apply (lc_run c fill 1); [lia | apply nth_len; assumption | assumption].
      + rewrite load_chunks by lia. cbn [bind].
        replace (P i + Z.of_nat k * Z.of_nat c) with (P (i + k)) by (unfold P; lia).
        destruct (IH (i + k)%nat) as (out & Hout & Hcode); try lia.
        rewrite Hout. cbn [bind]. eexists; split; [reflexivity|].
        assert (Hl : length (firstn k (skipn i chunks)) = k)
          by (rewrite firstn_length, skipn_length; unfold n in *; lia).
        assert (Hsplit : skipn i chunks = firstn k (skipn i chunks) ++ skipn (i + k) chunks)
          by (rewrite <- skipn_skipn; symmetry; apply firstn_skipn).
        assert (Hps : Forall (fun p => length p = c) (firstn k (skipn i chunks)))
          by (apply Forall_firstn, Forall_skipn; assumption).
        set (ps := firstn k (skipn i chunks)) in *.
        rewrite Hsplit. rewrite <- Hl.
        apply (lc_literal c fill ps); [rewrite Hl; lia | assumption | rewrite Hl; assumption].
  Qed.
End Line.

Lemma compress_line_ok fill m base c chunks len :
  (1 <= c)%nat -> Forall (fun p => length p = c) chunks ->
  load m base len = Ok (concat chunks) ->
  exists out, compress_line m base len (Z.of_nat c) = Ok out /\ line_code c fill out chunks.
Proof.
  intros Hc Hl Hm. apply load_inv in Hm. destruct Hm as (_ & _ & _ & pre & post & -> & Hb & Hlen).
  rewrite (concat_length_uniform c) in Hlen by assumption.
  unfold compress_line.
  destruct (compress_loop_ok (pre ++ concat chunks ++ post) base c chunks Hl
              (ex_intro _ pre (ex_intro _ post (conj eq_refl Hb))) Hc)
    with (fill := fill) (fuel := S (Z.to_nat len)) (i := 0%nat) as (out & Hout & Hcode).
  - lia.
  - nia.
  - simpl in Hout. rewrite Z.add_0_r in Hout.
    replace (base + len) with (base + Z.of_nat (length chunks) * Z.of_nat c) by lia.
    exists out. split; assumption.
Qed.

(** ** Lines *)

Section Page.
  Variable m : list byte.
  Variables row0 oneLine bpl : Z.
  Variable lines : list (list byte).   (* in the order of encoding *)
  Let h := length lines.
  Let Q (y : nat) : Z := row0 + Z.of_nat y * oneLine.
  Hypothesis mem : forall y, (y < h)%nat -> load m (Q y) bpl = Ok (nth y lines []).

  Lemma mem_eq_lines y y' : (y < h)%nat -> (y' < h)%nat ->
    mem_eq m (Q y) (Q y') bpl = Ok (bytes_eqb (nth y lines []) (nth y' lines [])).
  Proof. intros. unfold mem_eq. rewrite (mem y), (mem y') by assumption. reflexivity. Qed.

  Lemma same_lines_ok fuel y0 y r :
    (y0 <= y < h)%nat -> 0 <= r < 255 -> (h - y <= fuel)%nat ->
    exists y', same_lines fuel m (Z.of_nat h) bpl oneLine (Q y0) (Q (S y)) (Z.of_nat y) r
               = Ok (Z.of_nat y', r + Z.of_nat (y' - y)) /\
      (y <= y' < h)%nat /\ r + Z.of_nat (y' - y) <= 255 /\
      (forall k, (y < k <= y')%nat -> nth k lines [] = nth y0 lines []).
  Proof.
    revert y r. induction fuel as [|f IH]; intros y r Hy Hr Hf; [lia|].
    cbn [same_lines]. destruct (Z.of_nat y + 1 <? Z.of_nat h) eqn:E.
    2:{ exists y. repeat split; try lia. do 2 f_equal. lia. }
    rewrite mem_eq_lines by lia. cbn [bind].
    destruct (bytes_eqb _ _) eqn:Eq.
    - apply bytes_eqb_spec in Eq.
      destruct (r + 1 =? 255) eqn:E1.
      + exists (S y). repeat split; try lia.
        * do 2 f_equal; lia.
        * intros k Hk. replace k with (S y) by lia. congruence.
      + replace (Q (S y) + oneLine) with (Q (S (S y))) by (unfold Q; lia).
        replace (Z.of_nat y + 1) with (Z.of_nat (S y)) by lia.
        destruct (IH (S y) (r + 1)) as (y' & Hrun & Hle & Hmax & Hall); try lia.
        exists y'. rewrite Hrun. repeat split; try lia.
        * do 2 f_equal. lia.
        * intros k Hk. destruct (Nat.eq_dec k (S y)) as [->|]; [congruence|]. apply Hall. lia.
    - exists y. repeat split; try lia. do 2 f_equal. lia.
  Qed.

  (** per-line encoder: whatever it is, if each line is encoded correctly then the
      page is. *)
  Variable c w : nat.
  Variable bpc : Z.
  Variable hflip : bool.
  Variable oneChunk : Z.
  Variable px : list byte -> line.    (* pixels of an encoded line *)
  Variable fill : option pixel.
  Definition line_body (thisLine : Z) : outcome (list byte) :=
    if hflip then
      let! tmpLine :=
        (if bpc =? 1 then flip_bits (Z.to_nat bpl) m thisLine bpl 0
         else flip_chunks (S (Z.to_nat bpl)) m (thisLine + bpl - oneChunk) bpl oneChunk 0) in
      compress_line tmpLine 0 bpl oneChunk
    else compress_line m thisLine bpl oneChunk.
  Hypothesis body_ok : forall y, (y < h)%nat ->
    exists out, line_body (Q y) = Ok out /\ line_code c fill out (px (nth y lines [])).
  Hypothesis px_w : forall y, (y < h)%nat -> length (px (nth y lines [])) = w.

  Lemma encode_lines_ok fuel y :
    (y <= h)%nat -> (h - y < fuel)%nat ->
    exists out,
      encode_lines fuel m (Z.of_nat h) bpl oneLine row0 bpc oneChunk hflip (Z.of_nat y) = Ok out /\
      page_code c w fill out (map px (skipn y lines)).
  Proof.
    revert y. induction fuel as [|f IH]; intros y Hy Hf; [lia|].
    cbn [encode_lines]. destruct (Z.of_nat y <? Z.of_nat h) eqn:E.
    2:{ exists []. split; [reflexivity|]. rewrite skipn_all2 by (unfold h in *; lia). constructor. }
    change (row0 + Z.of_nat y * oneLine) with (Q y).
    replace (Q y + oneLine) with (Q (S y)) by (unfold Q; lia).
    destruct (same_lines_ok (S f) y y 0) as (y' & Hrun & Hle & Hmax & Hall); try lia.
    rewrite Hrun. cbn [bind].
    change (if hflip then _ else _) with (line_body (Q y)).
    destruct (body_ok y) as (body & Hb & Hcode); [lia|].
    rewrite Hb. cbn [bind].
    replace (Z.of_nat y' + 1) with (Z.of_nat (S y')) by lia.
    destruct (IH (S y')) as (rest & Hr & Hpage); try lia.
    rewrite Hr. cbn [bind]. eexists; split; [reflexivity|].
    replace (0 + Z.of_nat (y' - y)) with (Z.of_nat (S y' - y) - 1) by lia.
    assert (Hsk : skipn y lines = repeat (nth y lines []) (S y' - y) ++ skipn (S y') lines).
    { rewrite <- (firstn_all_eq_repeat (nth y lines []) (S y' - y) (skipn y lines)).
      - replace (S y') with (y + (S y' - y))%nat at 2 by lia.
        rewrite <- skipn_skipn. symmetry. apply firstn_skipn.
      - rewrite skipn_length. unfold h in *. lia.
      - intros k Hk. rewrite nth_skipn.
        destruct k as [|k]; [rewrite Nat.add_0_r; apply nth_indep; unfold h in *; lia|].
        rewrite (nth_indep _ _ []) by (unfold h in *; lia). apply Hall. lia. }
    rewrite Hsk, map_app.
    replace (map px (repeat (nth y lines []) (S y' - y)))
      with (repeat (px (nth y lines [])) (S y' - y)).
    - apply pc_line; [lia | apply px_w; lia | assumption | assumption].
    - generalize (S y' - y)%nat as k. induction k; simpl; congruence.
  Qed.
End Page.

(** ** Flipping one line *)

Lemma flip_chunks_ok c m base chunks bpl k fuel :
  (1 <= c)%nat -> Forall (fun p => length p = c) chunks ->
  load m base bpl = Ok (concat chunks) ->
  (k <= length chunks)%nat -> (length chunks - k < fuel)%nat ->
  flip_chunks fuel m (base + bpl - Z.of_nat c) bpl (Z.of_nat c) (Z.of_nat k * Z.of_nat c)
    = Ok (concat (rev (firstn (length chunks - k) chunks))).
Proof.
  intros Hc Hl Hm.
  pose proof Hm as Hm'. apply load_inv in Hm'.
  destruct Hm' as (_ & _ & _ & pre & post & E & Hb & Hlen).
  rewrite (concat_length_uniform c) in Hlen by assumption.
  assert (Hmem : exists pre post, m = pre ++ concat chunks ++ post /\ Z.of_nat (length pre) = base)
    by (exists pre, post; auto).
  revert k. induction fuel as [|f IH]; intros k Hk Hf; [lia|].
  cbn [flip_chunks]. destruct (Z.of_nat k * Z.of_nat c <? bpl) eqn:E1.
  - assert (k < length chunks)%nat by nia.
    replace (Z.of_nat k * Z.of_nat c + Z.of_nat c <=? bpl) with true by nia.
    replace (base + bpl - Z.of_nat c - Z.of_nat k * Z.of_nat c)
      with (base + Z.of_nat (length chunks - 1 - k) * Z.of_nat c) by nia.
    rewrite (load_chunk m base c chunks Hl Hmem) by lia. cbn [bind].
    replace (Z.of_nat k * Z.of_nat c + Z.of_nat c) with (Z.of_nat (S k) * Z.of_nat c) by lia.
    rewrite IH by lia. cbn [bind].
    do 2 f_equal.
    replace (length chunks - k)%nat with (S (length chunks - 1 - k)) by lia.
    replace (length chunks - S k)%nat with (length chunks - 1 - k)%nat by lia.
    set (j := (length chunks - 1 - k)%nat) in *.
    assert (Hj : (j < length chunks)%nat) by lia.
    rewrite (firstn_S_snoc []), rev_app_distr by assumption. reflexivity.
  - replace (length chunks - k)%nat with 0%nat by nia. reflexivity.
Qed.

Lemma flip_bits_ok m base l bpl k n :
  load m base bpl = Ok l -> (k + n = length l)%nat ->
  flip_bits n m base bpl (Z.of_nat k)
    = Ok (map reverse_bits (rev (firstn n l))).
Proof.
  intros Hm. apply load_inv in Hm.
  destruct Hm as (_ & _ & _ & pre & post & -> & Hb & Hlen). subst base bpl.
  revert k. induction n as [|n IH]; intros k Hk; [reflexivity|].
  cbn [flip_bits].
  assert (Hn : (n < length l)%nat) by lia.
  assert (E : l = firstn n l ++ [nth n l (bZ 0)] ++ skipn (S n) l).
  { rewrite <- (firstn_skipn n l) at 1. f_equal. apply (skipn_nth_cons (bZ 0)). assumption. }
  assert (Hld : load (pre ++ l ++ post) (Z.of_nat (length pre) + (Z.of_nat (length l) - 1 - Z.of_nat k)) 1
                = Ok [nth n l (bZ 0)]).
  { rewrite E at 1. rewrite <- !app_assoc. rewrite (app_assoc pre).
    apply load_mid; [|reflexivity]. rewrite app_length, firstn_length. lia. }
  rewrite Hld. cbn [bind].
  replace (Z.of_nat k + 1) with (Z.of_nat (S k)) by lia.
  rewrite IH by lia. cbn [bind]. f_equal.
  rewrite (firstn_S_snoc (bZ 0)), rev_app_distr by assumption. reflexivity.
Qed.

(** ** The page *)

(** What the encoder does to the image (used only inside proofs; the property
    statements speak about pixel coordinates). *)
Definition hm_line (bits1 : bool) (l : line) : line :=
  rev (if bits1 then map (map reverse_bits) l else l).
Definition xform (bits1 hf vf : bool) (img : image) : image :=
  let img := if vf then rev img else img in
  if hf then map (hm_line bits1) img else img.

Lemma flat_load c w h (img : image) extra y :
  image_of_size c w h img -> (y < h)%nat ->
  load (flat img ++ extra) (Z.of_nat y * (Z.of_nat w * Z.of_nat c)) (Z.of_nat w * Z.of_nat c)
    = Ok (concat (nth y img [])).
Proof.
  intros [Hh Hall] Hy.
  set (ls := map (@concat byte) img).
  assert (Hls : Forall (fun l => length l = (w * c)%nat) ls).
  { subst ls. rewrite Forall_map. eapply Forall_impl; [|exact Hall].
    intros l [Hw Hc]. rewrite (concat_length_uniform c) by assumption. lia. }
  assert (Hm : exists pre post, flat img ++ extra = pre ++ concat ls ++ post /\ Z.of_nat (length pre) = 0)
    by (exists [], extra; split; reflexivity).
  assert (Hy' : (y < length ls)%nat) by (subst ls; rewrite map_length; lia).
  pose proof (load_chunk (flat img ++ extra) 0 (w * c) ls Hls Hm y Hy') as H.
  cbv zeta beta in H. rewrite Z.add_0_l in H.
  replace (Z.of_nat w * Z.of_nat c) with (Z.of_nat (w * c)) by lia.
  rewrite H. f_equal.
  subst ls. change (@nil byte) with (concat (@nil (list byte))) at 1. apply map_nth.
Qed.

(** group a flat line into pixels *)
Fixpoint group (n c : nat) (l : list byte) : line :=
  match n with
  | O => []
  | S n' => firstn c l :: group n' c (skipn c l)
  end.

Lemma group_concat c (l : line) :
  Forall (fun p => length p = c) l -> group (length l) c (concat l) = l.
Proof.
  induction 1 as [|p l Hp _ IH]; simpl; [reflexivity|].
  rewrite firstn_app, skipn_app, <- Hp, Nat.sub_diag, firstn_all, skipn_all. simpl.
  rewrite app_nil_r, Hp, IH. reflexivity.
Qed.

Lemma group_length n c l : length (group n c l) = n.
Proof. revert l; induction n; intros; simpl; auto. Qed.

Lemma Forall_nth_d {A} (Pr : A -> Prop) (l : list A) i d :
  Forall Pr l -> (i < length l)%nat -> Pr (nth i l d).
Proof. intros H Hi. rewrite Forall_forall in H. apply H, nth_In, Hi. Qed.

Lemma Forall_rev_pix (Pr : pixel -> Prop) (l : line) : Forall Pr l -> Forall Pr (rev l).
Proof.
  intros H. rewrite Forall_forall in *. intros x Hx. apply H. apply in_rev. assumption.
Qed.

Lemma map_map_concat_rev1 (l : line) :
  Forall (fun p => length p = 1%nat) l ->
  concat (rev (map (map reverse_bits) l)) = map reverse_bits (rev (concat l)).
Proof.
  induction 1 as [|p l Hp _ IH]; simpl; [reflexivity|].
  rewrite concat_app, IH. simpl. rewrite app_nil_r, rev_app_distr, map_app. f_equal.
  destruct p as [|x [|]]; simpl in Hp; try lia. reflexivity.
Qed.

Lemma encode_page_ok fill c w h (img : image) extra colors bpc hf vf :
  (1 <= c)%nat ->
  image_of_size c w h img ->
  Z.of_nat c = (if bpc =? 1 then colors else colors * bpc / 8) ->
  (bpc = 1 -> c = 1%nat) ->
  Z.of_nat w * Z.of_nat c < 2147483648 ->
  exists body,
    encode_page (flat img ++ extra) (Z.of_nat h) (Z.of_nat w * Z.of_nat c) colors bpc hf vf = Ok body /\
    page_code c w fill body (xform (bpc =? 1) hf vf img).
Proof.
  intros Hc Himg Hchunk Hb1 Hw. unfold encode_page. rewrite <- Hchunk.
  set (bpl := Z.of_nat w * Z.of_nat c) in *.
  assert (Hone : to_s32 ((if vf then - bpl else bpl) mod two32) = if vf then - bpl else bpl).
  { unfold two32. destruct vf; apply to_s32_id; lia. }
  rewrite Hone. clear Hone.
  set (row0 := if vf then (Z.of_nat h - 1) * bpl else 0).
  set (oneLine := if vf then - bpl else bpl).
  destruct Himg as [Hh Hall].
  set (img1 := if vf then rev img else img).
  assert (Hh1 : length img1 = h) by (subst img1; destruct vf; [rewrite rev_length|]; assumption).
  assert (Hall1 : Forall (fun l : line => length l = w /\ Forall (fun p : pixel => length p = c) l) img1).
  { subst img1. destruct vf; [|assumption]. rewrite Forall_forall in *.
    intros x Hx. apply Hall. apply in_rev. assumption. }
  set (lines := map (@concat byte) img1).
  assert (Hlen : length lines = h) by (subst lines; rewrite map_length; assumption).
  assert (Hnth : forall y, nth y lines [] = concat (nth y img1 [])).
  { intros y. subst lines. change (@nil byte) with (concat (@nil (list byte))) at 1. apply map_nth. }
  assert (Hmem : forall y, (y < length lines)%nat ->
             load (flat img ++ extra) (row0 + Z.of_nat y * oneLine) bpl = Ok (nth y lines [])).
  { rewrite Hlen. intros y Hy. rewrite Hnth. subst row0 oneLine img1. destruct vf.
    - rewrite rev_nth by lia. rewrite Hh.
      replace ((Z.of_nat h - 1) * bpl + Z.of_nat y * - bpl)
        with (Z.of_nat (h - S y) * bpl) by (subst bpl; nia).
      apply (flat_load c w h); [split; assumption | lia].
    - replace (0 + Z.of_nat y * bpl) with (Z.of_nat y * bpl) by lia.
      apply (flat_load c w h); [split; assumption | lia]. }
  set (px := fun l => (if hf then hm_line (bpc =? 1) else fun x => x) (group w c l)).
  assert (Hpx : forall y, (y < h)%nat ->
             px (nth y lines []) = (if hf then hm_line (bpc =? 1) else fun x => x) (nth y img1 [])).
  { intros y Hy. subst px. cbn beta. rewrite Hnth.
    destruct (Forall_nth_d _ img1 y [] Hall1) as [Hlw Hlc]; [lia|].
    rewrite <- Hlw, group_concat by assumption. reflexivity. }
  assert (Hbody : forall y, (y < length lines)%nat ->
            exists out, line_body (flat img ++ extra) bpl bpc hf (Z.of_nat c) (row0 + Z.of_nat y * oneLine) = Ok out /\
                        line_code c fill out (px (nth y lines []))).
  { intros y Hy. pose proof (Hmem y Hy) as Hld. rewrite Hlen in Hy. rewrite Hpx by assumption.
    rewrite Hnth in Hld.
    destruct (Forall_nth_d _ img1 y [] Hall1) as [Hlw Hlc]; [lia|].
    unfold line_body. destruct hf.
    - destruct (bpc =? 1) eqn:E.
      + assert (c = 1%nat) by (apply Hb1; lia). subst c.
        assert (Hlc1 : length (concat (nth y img1 [])) = w)
          by (rewrite (concat_length_uniform 1) by assumption; lia).
        change 0 with (Z.of_nat 0) at 1.
        rewrite (flip_bits_ok _ _ (concat (nth y img1 []))); [|assumption|lia].
        cbn [bind].
        replace (Z.to_nat bpl) with (length (concat (nth y img1 []))) by lia.
        rewrite firstn_all.
        rewrite <- map_map_concat_rev1 by assumption.
        unfold hm_line.
        apply compress_line_ok; [lia| |].
        * apply Forall_rev_pix. rewrite Forall_map. eapply Forall_impl; [|exact Hlc].
          intros p Hp. cbn beta in *. rewrite map_length. assumption.
        * apply load_all. rewrite (concat_length_uniform 1).
          -- rewrite rev_length, map_length. lia.
          -- apply Forall_rev_pix. rewrite Forall_map. eapply Forall_impl; [|exact Hlc].
             intros p Hp. cbn beta in *. rewrite map_length. assumption.
      + change 0 with (Z.of_nat 0 * Z.of_nat c) at 1.
        rewrite (flip_chunks_ok c _ _ (nth y img1 [])); try assumption; try lia; [|nia].
        cbn [bind]. rewrite Nat.sub_0_r, firstn_all.
        unfold hm_line.
        apply compress_line_ok; [lia | apply Forall_rev_pix; assumption |].
        apply load_all. rewrite (concat_length_uniform c) by (apply Forall_rev_pix; assumption).
        rewrite rev_length. lia.
    - apply compress_line_ok; assumption. }
  assert (Hpw : forall y, (y < length lines)%nat -> length (px (nth y lines [])) = w).
  { intros y Hy. subst px. cbn beta. destruct hf; unfold hm_line.
    - rewrite rev_length. destruct (bpc =? 1); rewrite ?map_length; apply group_length.
    - apply group_length. }
  destruct (encode_lines_ok (flat img ++ extra) row0 oneLine bpl lines Hmem c w bpc hf (Z.of_nat c)
              px fill Hbody Hpw (S (Z.to_nat (Z.of_nat h))) 0) as (out & Hout & Hpage); try lia.
  rewrite Hlen in Hout. change (Z.of_nat 0) with 0 in Hout.
  exists out. split; [exact Hout|].
  cbn [skipn] in Hpage. replace (xform (bpc =? 1) hf vf img) with (map px lines); [assumption|].
  unfold xform. fold img1.
  apply (list_eq_nth []).
  { destruct hf; rewrite ?map_length; lia. }
  rewrite map_length, Hlen. intros y Hy.
  rewrite (nth_indep (map px lines) [] (px [])) by (rewrite map_length; lia).
  rewrite map_nth. rewrite Hpx by assumption.
  destruct hf; [|reflexivity].
  rewrite (nth_indep (map (hm_line (bpc =? 1)) img1) [] (hm_line (bpc =? 1) [])) by (rewrite map_length; lia).
  rewrite map_nth. reflexivity.
Qed.
