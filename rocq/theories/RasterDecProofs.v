(** Proofs about the page decoder. *)
From Coq Require Import Lia ZifyBool ZifyNat ZifyN.
From Verif Require Import Base BaseLemmas ListLemmas RasterModel RasterSpec.
Ltac Zify.zify_post_hook ::= Z.div_mod_to_equations.
Local Open Scope Z_scope.

(** What the decoder has to do for the fill code to agree with fill pixel [fill]. *)
Definition fill_agrees (c : nat) (urf : bool) (fill : option pixel) : Prop :=
  match fill with
  | None => True
  | Some p => urf = true /\ length p = c /\
      forall (l : list byte) k,
        fill_white l (Z.of_nat (length l) + Z.of_nat k * Z.of_nat c) (white_pixel (Z.of_nat c))
        = Ok (l ++ concat (repeat p k))
  end.

Lemma line_code_pixels c fill bs l :
  line_code c fill bs l ->
  (forall p, fill = Some p -> length p = c) ->
  Forall (fun p => length p = c) l.
Proof.
  induction 1 as [|k p bs l Hk Hp Hc IH|ps bs l Hl Hps Hc IH|p k Hf Hk]; intros Hfill.
  - constructor.
  - apply Forall_app. split; [|auto]. apply Forall_forall. intros x Hx.
    apply repeat_spec in Hx. subst x. assumption.
  - apply Forall_app. split; auto.
  - apply Forall_forall. intros x Hx. apply repeat_spec in Hx. subst x. auto.
Qed.

Lemma fill_agrees_len c urf fill : fill_agrees c urf fill -> forall p, fill = Some p -> length p = c.
Proof. intros H p ->. apply H. Qed.

Lemma decode_line_done fuel file l bw colors urf :
  (1 <= fuel)%nat -> Z.of_nat (length l) = bw ->
  decode_line fuel file l bw colors urf = Ok (l, file).
Proof.
  intros Hf Hl. destruct fuel as [|f]; [lia|]. cbn [decode_line].
  replace (Z.of_nat (length l) =? bw) with true by lia. reflexivity.
Qed.

Lemma decode_line_ok c fill urf bs l :
  (1 <= c)%nat -> fill_agrees c urf fill -> line_code c fill bs l ->
  forall pre rest fuel,
    (length bs < fuel)%nat ->
    decode_line fuel (bs ++ rest) pre (Z.of_nat (length pre) + Z.of_nat (length l) * Z.of_nat c)
                (Z.of_nat c) urf
    = Ok (pre ++ concat l, rest).
Proof.
  intros Hc Hfill H.
  induction H as [|k p bs l Hk Hp Hcode IH|ps bs l Hl Hps Hcode IH|p k Hf Hk];
    intros pre rest fuel Hfuel.
  - simpl. rewrite app_nil_r. apply decode_line_done; simpl; lia.
  - destruct fuel as [|f]; [lia|]. cbn [decode_line app].
    rewrite app_length, repeat_length.
    replace (Z.of_nat (length pre) =? _) with false by nia.
    cbn [get_u8 bind]. rewrite Zb_bZ_small by lia.
    replace (Z.of_nat k - 1 =? 128) with false by lia. rewrite andb_false_r.
    replace (Z.of_nat k - 1 <? 128) with true by lia.
    rewrite <- app_assoc, get_bytes_app by lia. cbn [bind].
    replace (Z.of_nat k - 1 + 1) with (Z.of_nat k) by lia. rewrite Nat2Z.id.
    simpl in Hfuel. rewrite app_length in Hfuel.
    specialize (IH (pre ++ concat (repeat p k)) rest f ltac:(lia)).
    rewrite app_length, concat_repeat_length in IH.
    replace (Z.of_nat (length pre) + Z.of_nat (k + length l) * Z.of_nat c)
      with (Z.of_nat (length pre + k * length p) + Z.of_nat (length l) * Z.of_nat c) by nia.
    rewrite IH. rewrite concat_app, <- app_assoc. reflexivity.
  - destruct fuel as [|f]; [lia|]. cbn [decode_line app].
    rewrite app_length.
    replace (Z.of_nat (length pre) =? _) with false by nia.
    cbn [get_u8 bind]. rewrite Zb_bZ_small by lia.
    replace (257 - Z.of_nat (length ps) =? 128) with false by lia. rewrite andb_false_r.
    replace (257 - Z.of_nat (length ps) <? 128) with false by lia.
    rewrite <- app_assoc, get_bytes_app
      by (rewrite (concat_length_uniform c) by assumption; nia).
    cbn [bind].
    simpl in Hfuel. rewrite app_length in Hfuel.
    specialize (IH (pre ++ concat ps) rest f ltac:(lia)).
    rewrite app_length, (concat_length_uniform c ps) in IH by assumption.
    replace (Z.of_nat (length pre) + Z.of_nat (length ps + length l) * Z.of_nat c)
      with (Z.of_nat (length pre + length ps * c) + Z.of_nat (length l) * Z.of_nat c) by nia.
    rewrite IH. rewrite concat_app, <- app_assoc. reflexivity.
  - subst fill. destruct Hfill as (-> & Hpl & Hw).
    destruct fuel as [|f]; [lia|]. cbn [decode_line app]. rewrite repeat_length.
    replace (Z.of_nat (length pre) =? _) with false by nia.
    cbn [get_u8 bind]. rewrite Zb_bZ_small by lia.
    rewrite Z.eqb_refl. cbn [andb].
    rewrite Hw. cbn [bind].
    apply decode_line_done; [simpl in Hfuel; lia|].
    rewrite app_length, concat_repeat_length. nia.
Qed.

Lemma decode_lines_ok c w fill urf bs img :
  (1 <= c)%nat -> fill_agrees c urf fill -> page_code c w fill bs img ->
  forall rest fuel,
    (length bs < fuel)%nat ->
    Z.of_nat (length img) < two64 ->
    decode_lines fuel (bs ++ rest) (Z.of_nat w * Z.of_nat c) (Z.of_nat (length img)) (Z.of_nat c) urf
    = Ok (flat img, rest).
Proof.
  intros Hc Hfill H.
  induction H as [|k bs l rs img Hk Hl Hcode Hpage IH]; intros rest fuel Hfuel Hh.
  - destruct fuel as [|f]; [simpl in Hfuel; lia|]. reflexivity.
  - destruct fuel as [|f]; [lia|]. cbn [decode_lines app].
    rewrite app_length, repeat_length in *.
    replace (Z.of_nat (k + length img) =? 0) with false by lia.
    cbn [get_u8 bind]. rewrite Zb_bZ_small by lia.
    rewrite <- app_assoc.
    pose proof (decode_line_ok c fill urf bs l Hc Hfill Hcode [] (rs ++ rest)
                  (S (length (bs ++ rs ++ rest)))) as Hd.
    rewrite Hl in Hd. simpl length in Hd. cbn [app] in Hd.
    rewrite Z.add_0_l in Hd. rewrite Hd by (rewrite !app_length; lia). cbn [bind].
    replace (((Z.of_nat (k + length img) - 1) mod two64 - (Z.of_nat k - 1)) mod two64)
      with (Z.of_nat (length img)).
    2:{ unfold two64 in *. rewrite (Z.mod_small (_ - 1)) by lia. rewrite Z.mod_small; lia. }
    simpl in Hfuel. rewrite app_length in Hfuel.
    rewrite IH by lia. cbn [bind]. do 2 f_equal.
    unfold flat. rewrite map_app, concat_app, app_assoc. f_equal.
    destruct k as [|k]; [lia|].
    replace (Z.to_nat (Z.of_nat (S k) - 1)) with k by lia.
    cbn [repeat map concat]. f_equal.
    clear. induction k; simpl; congruence.
Qed.

Lemma raster_to_bmp_ok c w fill urf bs img rest :
  (1 <= c)%nat -> fill_agrees c urf fill -> page_code c w fill bs img ->
  Z.of_nat (length img) < two64 ->
  raster_to_bmp (bs ++ rest) (Z.of_nat w * Z.of_nat c) (Z.of_nat (length img)) (Z.of_nat c) urf
  = Ok (flat img, rest).
Proof.
  intros. unfold raster_to_bmp. eapply decode_lines_ok; eauto. rewrite app_length. lia.
Qed.

(** ** The fill code *)

Lemma fill_agrees_pattern (c : nat) (p : pixel) :
  length p = c -> (1 <= c)%nat ->
  (exists j, p = concat (repeat (white_pixel (Z.of_nat c)) j)) ->
  fill_agrees c true (Some p).
Proof.
  intros Hp Hc [j Hj]. repeat split; auto. intros l k.
  set (wp := white_pixel (Z.of_nat c)) in *.
  assert (Hwl : (1 <= length wp)%nat).
  { subst wp. unfold white_pixel. destruct (_ =? 1); [|destruct (_ =? 4)]; simpl; lia. }
  assert (Hcj : c = (j * length wp)%nat) by (rewrite <- Hp, Hj, concat_repeat_length; reflexivity).
  unfold fill_white.
  replace (Z.of_nat (length l) + Z.of_nat k * Z.of_nat c - Z.of_nat (length l))
    with (Z.of_nat (k * j) * Z.of_nat (length wp)) by nia.
  rewrite Z.mod_mul by lia. rewrite Z.div_mul by lia.
  replace (0 <=? Z.of_nat (k * j) * Z.of_nat (length wp)) with true by nia.
  cbn [andb Z.eqb]. rewrite Nat2Z.id. do 2 f_equal.
  rewrite Hj. clear. induction k; [reflexivity|].
  cbn [Nat.mul repeat concat]. rewrite repeat_app, concat_app, IHk. reflexivity.
Qed.

(** The while loop behind [fill_white] (pwg2ppm.cpp:26-29), literally. *)
Fixpoint fill_loop (fuel : nat) (line : list byte) (byteWidth : Z) (white : list byte) : outcome (list byte) :=
  match fuel with
  | O => NoFuel
  | S f =>
      if Z.of_nat (length line) =? byteWidth then Ok line
      else fill_loop f (line ++ white) byteWidth white
  end.

Lemma fill_white_hang line bw white :
  (1 <= length white)%nat -> fill_white line bw white = Hang ->
  forall fuel, fill_loop fuel line bw white = NoFuel.
Proof.
  intros Hw H fuel. unfold fill_white in H.
  destruct (_ && _) eqn:E; [discriminate|]. clear H.
  revert line E. induction fuel as [|f IH]; intros line E; [reflexivity|].
  cbn [fill_loop]. destruct (Z.of_nat (length line) =? bw) eqn:E1.
  - exfalso. replace (bw - Z.of_nat (length line)) with 0 in E by lia.
    rewrite Z.mod_0_l in E by lia. simpl in E. discriminate.
  - apply IH. rewrite app_length.
    apply not_true_is_false. intros E2.
    apply andb_true_iff in E2. destruct E2 as [E2 E3].
    apply andb_false_iff in E. destruct E as [E|E]; [lia|].
    replace (bw - Z.of_nat (length line))
      with (bw - Z.of_nat (length line + length white) + 1 * Z.of_nat (length white)) in E by lia.
    rewrite Z.mod_add in E by lia. lia.
Qed.

Lemma fill_white_terminates line bw white l' :
  (1 <= length white)%nat -> fill_white line bw white = Ok l' ->
  exists fuel, fill_loop fuel line bw white = Ok l'.
Proof.
  intros Hw H. unfold fill_white in H.
  destruct (_ && _) eqn:E; [|discriminate]. inversion H; subst; clear H.
  apply andb_true_iff in E. destruct E as [E1 E2].
  set (k := Z.to_nat ((bw - Z.of_nat (length line)) / Z.of_nat (length white))).
  assert (Hk : bw = Z.of_nat (length line) + Z.of_nat k * Z.of_nat (length white)).
  { subst k. rewrite Z2Nat.id by (apply Z.div_pos; lia).
    rewrite Z.eqb_eq in E2. rewrite Z.mod_eq in E2 by lia. lia. }
  clearbody k. clear E1 E2. exists (S k). subst bw. revert line.
  induction k as [|k IH]; intros line; cbn [fill_loop repeat concat].
  - rewrite app_nil_r. replace (_ =? _) with true by lia. reflexivity.
  - replace (_ =? _) with false by nia.
    rewrite app_assoc. rewrite <- IH. cbn [fill_loop]. rewrite app_length.
    replace (Z.of_nat (length line) + Z.of_nat (S k) * Z.of_nat (length white))
      with (Z.of_nat (length line + length white) + Z.of_nat k * Z.of_nat (length white)) by lia.
    reflexivity.
Qed.

(** ** Arbitrary input *)

Lemma decode_line_total fuel file line bw colors urf :
  0 <= colors -> (length file < fuel)%nat ->
  match decode_line fuel file line bw colors urf with
  | Ok (l, rest) => Z.of_nat (length l) = bw /\ exists used, file = used ++ rest
  | Throw e => e = OutOfRange
  | Hang => urf = true
  | UB | NoFuel => False
  end.
Proof.
  intros Hc. revert file line. induction fuel as [|f IH]; intros file line Hf; [lia|].
  cbn [decode_line]. destruct (Z.of_nat (length line) =? bw) eqn:E.
  { split; [lia|]. exists []. reflexivity. }
  destruct file as [|b file]; cbn [get_u8 bind]; [reflexivity|].
  simpl in Hf.
  destruct (urf && (Zb b =? 128)) eqn:E1.
  { destruct (fill_white line bw (white_pixel colors)) eqn:Ef; unfold fill_white in Ef;
      (destruct (_ && _) in Ef; try discriminate); cbn [bind].
    - specialize (IH file a ltac:(lia)). destruct (decode_line _ _ _ _ _ _) as [[l rest]| | | |]; auto.
      destruct IH as [H1 [u ->]]. split; [assumption|]. exists (b :: u). reflexivity.
    - apply andb_true_iff in E1. apply E1. }
  destruct (Zb b <? 128) eqn:E2.
  - destruct (get_bytes colors file) as [[tmp file']| | | |] eqn:Eg;
      unfold get_bytes in Eg; destruct (_ <=? _) eqn:El in Eg; try discriminate; cbn [bind];
      [|congruence].
    inversion Eg; subst; clear Eg.
    specialize (IH (skipn (Z.to_nat colors) file)
                   (line ++ concat (repeat (firstn (Z.to_nat colors) file) (Z.to_nat (Zb b + 1))))
                   ltac:(rewrite skipn_length; lia)).
    destruct (decode_line _ _ _ _ _ _) as [[l rest]| | | |]; auto.
    destruct IH as [H1 [u Hu]]. split; [assumption|].
    exists (b :: firstn (Z.to_nat colors) file ++ u). simpl. rewrite <- app_assoc, <- Hu, firstn_skipn. reflexivity.
  - destruct (get_bytes _ file) as [[tmp file']| | | |] eqn:Eg;
      unfold get_bytes in Eg; destruct (_ <=? _) eqn:El in Eg; try discriminate; cbn [bind];
      [|congruence].
    inversion Eg; subst; clear Eg.
    set (v := Z.to_nat (- (Zb b - 257) * colors)) in *.
    specialize (IH (skipn v file) (line ++ firstn v file) ltac:(rewrite skipn_length; lia)).
    destruct (decode_line _ _ _ _ _ _) as [[l rest]| | | |]; auto.
    destruct IH as [H1 [u Hu]]. split; [assumption|].
    exists (b :: firstn v file ++ u). simpl. rewrite <- app_assoc, <- Hu, firstn_skipn. reflexivity.
Qed.

Lemma decode_lines_total fuel file bw height colors urf :
  0 <= colors -> 0 <= height < two64 -> (length file < fuel)%nat ->
  match decode_lines fuel file bw height colors urf with
  | Ok (out, rest) =>
      exists lines used, Z.of_nat (length out) = lines * bw /\ 0 <= lines /\
        file = used ++ rest /\
        lines <= 256 * Z.of_nat (length used) /\ (lines - height) mod two64 = 0
  | Throw e => e = OutOfRange
  | Hang => urf = true
  | UB | NoFuel => False
  end.
Proof.
  intros Hc. revert file height. induction fuel as [|f IH]; intros file height Hh Hf; [lia|].
  cbn [decode_lines]. destruct (height =? 0) eqn:E.
  { assert (height = 0) by lia. subst height. exists 0, []. repeat split; simpl; try lia. }
  destruct file as [|b file]; cbn [get_u8 bind]; [reflexivity|].
  simpl in Hf.
  pose proof (decode_line_total (S (length file)) file [] bw colors urf Hc ltac:(lia)) as Hl.
  destruct (decode_line _ _ _ _ _ _) as [[l file']| | | |]; cbn [bind]; auto.
  destruct Hl as [Hlen [u ->]].
  pose proof (Zb_range b) as Hb.
  set (h' := ((height - 1) mod two64 - Zb b) mod two64).
  assert (Hh' : 0 <= h' < two64) by (subst h'; apply Z.mod_pos_bound; reflexivity).
  rewrite app_length in Hf.
  specialize (IH file' h' Hh' ltac:(lia)).
  destruct (decode_lines f file' bw h' colors urf) as [[rest file'']| | | |]; cbn [bind]; auto.
  destruct IH as (n & u' & H1 & H2 & -> & H3 & H4).
  exists (n + 1 + Zb b), (b :: u ++ u').
  rewrite !app_length, concat_repeat_length. repeat split.
  - rewrite !Nat2Z.inj_add, Nat2Z.inj_mul, Hlen, H1. rewrite Z2Nat.id by lia. lia.
  - lia.
  - simpl. rewrite <- app_assoc. reflexivity.
  - simpl. rewrite app_length. lia.
  - subst h'. unfold two64 in *. lia.
Qed.

Lemma raster_to_bmp_total file bw height colors urf :
  0 <= colors -> 0 <= height < two64 ->
  256 * Z.of_nat (length file) < two64 ->
  match raster_to_bmp file bw height colors urf with
  | Ok (out, rest) =>
      Z.of_nat (length out) = height * bw /\ exists used, file = used ++ rest
  | Throw e => e = OutOfRange
  | Hang => urf = true
  | UB | NoFuel => False
  end.
Proof.
  intros Hc Hh Hf. unfold raster_to_bmp.
  pose proof (decode_lines_total (S (length file)) file bw height colors urf Hc Hh ltac:(lia)) as H.
  destruct (decode_lines _ _ _ _ _ _) as [[out rest]| | | |]; auto.
  destruct H as (n & u & H1 & H2 & H3 & H4 & H5).
  split; [|exists u; assumption].
  rewrite H1. f_equal.
  subst file. rewrite app_length in Hf. unfold two64 in *. lia.
Qed.

(** ** Pixel conversions *)

Lemma invert_invert l : invert (invert l) = l.
Proof.
  unfold invert. rewrite map_map. rewrite <- (map_id l) at 2. apply map_ext. intros b.
  apply bZ_eq. rewrite Zb_bZ. pose proof (Zb_range b). lia.
Qed.
