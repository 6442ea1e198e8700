(** C07: for which page bodies exactly the decoder returns, and for which it hangs. *)
From Verif Require Import Base BaseLemmas ListLemmas RasterModel RasterProperties.
From Coq Require Import Lia.
Local Open Scope Z_scope.

(** ** Specification *)
(** size of the white pixel that the fill code adds: 1 byte for one byte per pixel, 4
    for four, and 3 for any other number *)
Definition white_size (c : Z) : Z := if c =? 1 then 1 else if c =? 4 then 4 else 3.
(** [packets c W bs n]: [bs] is a sequence of packets (runs and literals of pixels of [c]
    bytes) that give [n] bytes, and none but the last brings the line to [W] bytes. In URF
    mode a packet cannot start with the byte 128; in PWG mode it is a literal of 129 pixels. *)
Inductive packets (c W : Z) (urf : bool) : list byte -> Z -> Prop :=
| pk_none : packets c W urf [] 0
| pk_run bs n k p : packets c W urf bs n -> n <> W -> 1 <= k <= 128 -> Z.of_nat (length p) = c ->
    packets c W urf (bs ++ bZ (k - 1) :: p) (n + k * c)
| pk_literal bs n k ps : packets c W urf bs n -> n <> W -> 2 <= k <= (if urf then 128 else 129) -> Z.of_nat (length ps) = k * c ->
    packets c W urf (bs ++ bZ (257 - k) :: ps) (n + k * c).
(** a line of [W] bytes: packets that give exactly so many, or fewer, with the fill code
    after them and a rest that white pixels fill evenly *)
Definition whole_line (c W : Z) (urf : bool) (bs : list byte) : Prop :=
  packets c W urf bs W \/
  urf = true /\ exists ps n, bs = ps ++ [bZ 128] /\ packets c W urf ps n /\ n < W /\ (W - n) mod white_size c = 0.
(** [lines c W urf h0 bs h]: after the lines [bs] of a page of [h0] lines, [h] are left
    (modulo 2^64: a line may be repeated too often). *)
Inductive lines (c W : Z) (urf : bool) (h0 : Z) : list byte -> Z -> Prop :=
| ls_none : lines c W urf h0 [] h0
| ls_line bs h k l : lines c W urf h0 bs h -> h <> 0 -> 1 <= k <= 256 -> whole_line c W urf l ->
    lines c W urf h0 (bs ++ bZ (k - 1) :: l) ((h - k) mod 2 ^ 64).
(** the page starts with some whole lines, and the next has a fill code after packets that
    exceed the line or leave a rest that white pixels do not fill evenly *)
Definition misplaced_fill (c W h0 : Z) (file : list byte) : Prop :=
  exists ls h k l n rest, file = ls ++ bZ (k - 1) :: l ++ bZ 128 :: rest /\ lines c W true h0 ls h /\ h <> 0 /\ 1 <= k <= 256 /\
    packets c W true l n /\ (W < n \/ n < W /\ (W - n) mod white_size c <> 0).

(** ** Proof *)
Lemma white_size_ok c : Z.of_nat (length (white_pixel c)) = white_size c.
Proof. unfold white_pixel, white_size. destruct (c =? 1); [reflexivity|]. destruct (c =? 4); reflexivity. Qed.
Lemma white_size_pos c : 1 <= white_size c.
Proof. unfold white_size. destruct (c =? 1); [lia|]. destruct (c =? 4); lia. Qed.
Lemma concat_repeat_length {A} (x : list A) n : length (concat (repeat x n)) = (n * length x)%nat.
Proof. induction n as [|n IH]; [reflexivity|]. cbn [repeat concat]. rewrite app_length, IH. lia. Qed.

Lemma fill_white_cases line W c :
  (fill_white line W (white_pixel c) = Hang /\ (W < Z.of_nat (length line) \/ Z.of_nat (length line) <= W /\ (W - Z.of_nat (length line)) mod white_size c <> 0)) \/
  (exists l', fill_white line W (white_pixel c) = Ok l' /\ Z.of_nat (length l') = W /\ Z.of_nat (length line) <= W /\ (W - Z.of_nat (length line)) mod white_size c = 0).
Proof.
  unfold fill_white. cbv zeta. rewrite white_size_ok. pose proof (white_size_pos c) as P. set (n := Z.of_nat (length line)).
  destruct (Z.leb_spec 0 (W - n)) as [L|L]; cbn [andb].
  - destruct (Z.eqb_spec ((W - n) mod white_size c) 0) as [M|M].
    + right. eexists. split; [reflexivity|]. split; [|split; [lia|exact M]]. rewrite app_length, concat_repeat_length, Nat2Z.inj_add, Nat2Z.inj_mul, white_size_ok.
      rewrite Z2Nat.id by (apply Z.div_pos; lia). fold n. pose proof (Z.div_mod (W - n) (white_size c) ltac:(lia)) as E. nia.
    + left. split; [reflexivity|]. right. split; [lia|exact M].
  - left. split; [reflexivity|]. left. lia.
Qed.

Definition line_end (c W : Z) (urf : bool) (all : list byte) (o : outcome (list byte * list byte)) : Prop :=
  match o with
  | Ok (line, rest) => Z.of_nat (length line) = W /\ exists l, all = l ++ rest /\ whole_line c W urf l
  | Hang => urf = true /\ exists l n rest, all = l ++ bZ 128 :: rest /\ packets c W urf l n /\ (W < n \/ n < W /\ (W - n) mod white_size c <> 0)
  | _ => True
  end.
Lemma decode_line_end c W urf (Hc : 0 <= c) : forall f file line bs, packets c W urf bs (Z.of_nat (length line)) ->
  line_end c W urf (bs ++ file) (decode_line f file line W c urf).
Proof.
  induction f as [|f IH]; intros file line bs P; [exact I|]. cbn [decode_line].
  destruct (Z.eqb_spec (Z.of_nat (length line)) W) as [E|E].
  - split; [exact E|]. exists bs. split; [reflexivity|]. left. rewrite <- E at 2. exact P.
  - destruct file as [|a file]; [exact I|]. cbn [get_u8 bind].
    pose proof (Zb_range a) as Ra. pose proof (bZ_Zb a) as Ba.
    destruct (urf && (Zb a =? 128)) eqn:U.
    + apply andb_prop in U. destruct U as [-> U]. apply Z.eqb_eq in U. assert (A : a = bZ 128) by (rewrite <- U; symmetry; apply bZ_Zb).
      destruct (fill_white_cases line W c) as [[-> D]|(l' & -> & L & D & M)]; cbn [bind].
      * split; [reflexivity|]. exists bs, (Z.of_nat (length line)), file. split; [rewrite A; reflexivity|]. split; [exact P|]. destruct D as [D|[D D']]; [left; exact D|right; split; [lia|exact D']].
      * destruct f as [|f]; [exact I|]. cbn [decode_line]. rewrite (proj2 (Z.eqb_eq _ _) L). split; [exact L|].
        exists (bs ++ [bZ 128]). split; [rewrite <- app_assoc, A; reflexivity|]. right. split; [reflexivity|]. exists bs, (Z.of_nat (length line)).
        split; [reflexivity|]. split; [exact P|]. split; [lia|exact M].
    + destruct (Z.ltb_spec (Zb a) 128) as [L|L].
      * unfold get_bytes. destruct (Z.leb_spec c (Z.of_nat (length file))) as [G|G]; [|exact I]. cbn [bind].
        assert (Lp : Z.of_nat (length (firstn (Z.to_nat c) file)) = c) by (rewrite firstn_length; lia).
        rewrite <- (firstn_skipn (Z.to_nat c) file) at 1.
        replace (bs ++ a :: firstn (Z.to_nat c) file ++ skipn (Z.to_nat c) file) with ((bs ++ bZ (Zb a + 1 - 1) :: firstn (Z.to_nat c) file) ++ skipn (Z.to_nat c) file)
          by (rewrite <- app_assoc; cbn [app]; replace (Zb a + 1 - 1) with (Zb a) by lia; rewrite Ba; reflexivity).
        apply IH. rewrite app_length, concat_repeat_length, Nat2Z.inj_add, Nat2Z.inj_mul, Lp, Z2Nat.id by lia.
        apply pk_run; [exact P|exact E|lia|exact Lp].
      * unfold get_bytes. set (k := - (Zb a - 257)). assert (Hk : 2 <= k <= (if urf then 128 else 129)).
        { unfold k. destruct urf; [|lia]. cbn [andb] in U. apply Z.eqb_neq in U. lia. }
        destruct (Z.leb_spec (k * c) (Z.of_nat (length file))) as [G|G]; [|exact I]. cbn [bind].
        assert (Q : 0 <= k * c) by nia.
        assert (Lp : Z.of_nat (length (firstn (Z.to_nat (k * c)) file)) = k * c) by (rewrite firstn_length; lia).
        rewrite <- (firstn_skipn (Z.to_nat (k * c)) file) at 1.
        replace (bs ++ a :: firstn (Z.to_nat (k * c)) file ++ skipn (Z.to_nat (k * c)) file) with ((bs ++ bZ (257 - k) :: firstn (Z.to_nat (k * c)) file) ++ skipn (Z.to_nat (k * c)) file)
          by (rewrite <- app_assoc; cbn [app]; replace (257 - k) with (Zb a) by (unfold k; lia); rewrite Ba; reflexivity).
        apply IH. rewrite app_length, Nat2Z.inj_add, Lp. apply pk_literal; [exact P|exact E|exact Hk|exact Lp].
Qed.

(** the other direction: packets are taken as such *)
Lemma decode_packets c W urf (Hc : 0 <= c) l n : packets c W urf l n -> forall s f, (length (l ++ s) < f)%nat ->
  exists line f', decode_line f (l ++ s) [] W c urf = decode_line f' s line W c urf /\ Z.of_nat (length line) = n /\ (length s < f')%nat.
Proof.
  induction 1 as [|bs n k p P IH E Hk L|bs n k p P IH E Hk L]; intros s f F.
  - exists [], f. repeat split; [exact F].
  - rewrite <- app_assoc in *. cbn [app] in *. destruct (IH (bZ (k - 1) :: p ++ s) f F) as (line & f' & -> & Ln & F').
    cbn [length] in F'. rewrite app_length in F'. destruct f' as [|f']; [lia|]. cbn [decode_line]. rewrite Ln, (proj2 (Z.eqb_neq _ _) E). cbn [get_u8 bind].
    rewrite Zb_bZ_small by lia. replace (urf && (k - 1 =? 128)) with false by (destruct urf; lia). replace (k - 1 <? 128) with true by lia.
    unfold get_bytes. rewrite app_length, Nat2Z.inj_add, L. replace (c <=? c + Z.of_nat (length s)) with true by lia. cbn [bind].
    replace (Z.to_nat c) with (length p) by lia. rewrite firstn_app, Nat.sub_diag, firstn_O, app_nil_r, firstn_all, skipn_app, Nat.sub_diag, skipn_all. cbn [app skipn].
    eexists _, f'. split; [reflexivity|]. split; [|lia]. rewrite app_length, concat_repeat_length, Nat2Z.inj_add, Nat2Z.inj_mul, L, Ln, Z2Nat.id by lia. nia.
  - rewrite <- app_assoc in *. cbn [app] in *. destruct (IH (bZ (257 - k) :: p ++ s) f F) as (line & f' & -> & Ln & F').
    cbn [length] in F'. rewrite app_length in F'. destruct f' as [|f']; [lia|]. cbn [decode_line]. rewrite Ln, (proj2 (Z.eqb_neq _ _) E). cbn [get_u8 bind].
    assert (Hk' : 2 <= k <= 129) by (destruct urf; lia).
    rewrite Zb_bZ_small by lia. replace (urf && (257 - k =? 128)) with false by (destruct urf; [cbn [andb]; symmetry; apply Z.eqb_neq; lia|reflexivity]). replace (257 - k <? 128) with false by lia.
    unfold get_bytes. replace (- (257 - k - 257)) with k by lia. rewrite app_length, Nat2Z.inj_add, L. replace (k * c <=? k * c + Z.of_nat (length s)) with true by lia. cbn [bind].
    replace (Z.to_nat (k * c)) with (length p) by lia. rewrite firstn_app, Nat.sub_diag, firstn_O, app_nil_r, firstn_all, skipn_app, Nat.sub_diag, skipn_all. cbn [app skipn].
    eexists _, f'. split; [reflexivity|]. split; [|lia]. rewrite app_length, Nat2Z.inj_add, L, Ln. reflexivity.
Qed.
Lemma decode_whole c W urf (Hc : 0 <= c) l : whole_line c W urf l -> forall s f, (length (l ++ s) < f)%nat ->
  exists line, decode_line f (l ++ s) [] W c urf = Ok (line, s) /\ Z.of_nat (length line) = W.
Proof.
  intros [P|(U & ps & n & -> & P & L & M)] s f F.
  - destruct (decode_packets c W urf Hc l W P s f F) as (line & f' & -> & Ln & F'). destruct f' as [|f']; [lia|]. cbn [decode_line].
    rewrite (proj2 (Z.eqb_eq _ _) Ln). exists line. split; [reflexivity|exact Ln].
  - subst urf. rewrite <- app_assoc in *. cbn [app] in *. destruct (decode_packets c W true Hc ps n P _ f F) as (line & f' & -> & Ln & F').
    destruct f' as [|f']; [lia|]. cbn [decode_line]. cbn [length] in F'. replace (Z.of_nat (length line) =? W) with false by lia. cbn [get_u8 bind]. rewrite Zb_bZ_small by lia. cbn [andb Z.eqb Pos.eqb].
    destruct (fill_white_cases line W c) as [[_ D]|(l' & -> & L' & _)]; [exfalso; rewrite Ln in D; destruct D as [D|[_ D]]; [lia|congruence]|]. cbn [bind].
    destruct f' as [|f']; [lia|]. cbn [decode_line]. rewrite (proj2 (Z.eqb_eq _ _) L'). exists l'. split; [reflexivity|exact L'].
Qed.

Definition page_end (c W h0 : Z) (urf : bool) (all : list byte) (o : outcome (list byte * list byte)) : Prop :=
  match o with
  | Ok (_, rest) => exists ls, all = ls ++ rest /\ lines c W urf h0 ls 0
  | Hang => urf = true /\ misplaced_fill c W h0 all
  | _ => True
  end.
Lemma height_step h k : ((h - 1) mod two64 - (k - 1)) mod two64 = (h - k) mod 2 ^ 64.
Proof. change (2 ^ 64) with two64. rewrite Zminus_mod_idemp_l. f_equal. lia. Qed.
Lemma decode_lines_end c W urf h0 (Hc : 0 <= c) : forall f file h bs, lines c W urf h0 bs h ->
  page_end c W h0 urf (bs ++ file) (decode_lines f file W h c urf).
Proof.
  induction f as [|f IH]; intros file h bs P; [exact I|]. cbn [decode_lines].
  destruct (Z.eqb_spec h 0) as [->|E]; [exists bs; split; [reflexivity|exact P]|].
  destruct file as [|a file]; [exact I|]. cbn [get_u8 bind]. pose proof (Zb_range a) as Ra. pose proof (bZ_Zb a) as Ba.
  pose proof (decode_line_end c W urf Hc (S (length file)) file [] [] (pk_none c W urf)) as D. cbn [app] in D.
  destruct (decode_line (S (length file)) file [] W c urf) as [[line rest]|e| | |]; cbn [bind line_end] in *; try exact I.
  - destruct D as (_ & l & -> & Wl). replace (Zb a) with ((Zb a + 1) - 1) at 1 by lia. rewrite height_step.
    assert (P' : lines c W urf h0 (bs ++ bZ (Zb a + 1 - 1) :: l) ((h - (Zb a + 1)) mod 2 ^ 64)) by (apply ls_line; [exact P|exact E|lia|exact Wl]).
    specialize (IH rest _ _ P'). replace (Zb a + 1 - 1) with (Zb a) in * by lia. rewrite Ba in IH. rewrite <- app_assoc in IH. cbn [app] in IH.
    destruct (decode_lines f rest W _ c urf) as [[more rest']|e| | |]; cbn [bind page_end] in *; exact IH.
  - destruct D as (-> & l & n & rest & -> & Pl & Hn). split; [reflexivity|]. exists bs, h, (Zb a + 1), l, n, rest.
    split; [replace (Zb a + 1 - 1) with (Zb a) by lia; rewrite Ba; reflexivity|]. split; [exact P|]. split; [exact E|]. split; [lia|]. split; [exact Pl|exact Hn].
Qed.
Lemma decode_taken c W urf h0 (Hc : 0 <= c) ls h : lines c W urf h0 ls h -> forall s f, (length (ls ++ s) < f)%nat ->
  exists f' pre, (length s < f')%nat /\ decode_lines f (ls ++ s) W h0 c urf = (let! (out, rest) := decode_lines f' s W h c urf in Ok (pre ++ out, rest)).
Proof.
  induction 1 as [|bs h k l P IH E Hk Wl]; intros s f F.
  - exists f, []. split; [exact F|]. cbn [app]. destruct (decode_lines f s W h0 c urf) as [[o r]|e| | |]; reflexivity.
  - rewrite <- app_assoc in *. cbn [app] in *. destruct (IH (bZ (k - 1) :: l ++ s) f F) as (f' & pre & F' & ->).
    destruct f' as [|f']; [lia|]. cbn [decode_lines]. rewrite (proj2 (Z.eqb_neq _ _) E). cbn [get_u8 bind length] in *. rewrite Zb_bZ_small by lia.
    destruct (decode_whole c W urf Hc l Wl s (S (length (l ++ s))) ltac:(lia)) as (line & -> & _). cbn [bind]. rewrite height_step.
    rewrite app_length in F'. eexists f', _. split; [lia|]. destruct (decode_lines f' s W ((h - k) mod 2 ^ 64) c urf) as [[o r]|e| | |]; cbn [bind]; try reflexivity.
    rewrite !app_assoc. reflexivity.
Qed.

(** ** Theorems *)
(** The decoder hangs exactly on the pages with a misplaced fill code, in URF mode. *)
Theorem C07_hang_exactly : forall file byteWidth height colors urf, 0 <= colors ->
  raster_to_bmp file byteWidth height colors urf = Hang <-> urf = true /\ misplaced_fill colors byteWidth height file.
Proof.
  intros file W h c urf Hc. split.
  - intros H. pose proof (decode_lines_end c W urf h Hc (S (length file)) file h [] (ls_none c W urf h)) as E.
    unfold raster_to_bmp in H. rewrite H in E. exact E.
  - intros [-> (ls & h' & k & l & n & rest & -> & Pl & E & Hk & Pk & Hn)]. unfold raster_to_bmp.
    destruct (decode_taken c W true h Hc ls h' Pl (bZ (k - 1) :: l ++ bZ 128 :: rest) _ (Nat.lt_succ_diag_r _)) as (f' & pre & F' & ->).
    destruct f' as [|f']; [lia|]. cbn [decode_lines]. rewrite (proj2 (Z.eqb_neq _ _) E). cbn [get_u8 bind length] in *.
    destruct (decode_packets c W true Hc l n Pk (bZ 128 :: rest) (S (length (l ++ bZ 128 :: rest))) ltac:(lia)) as (line & g & -> & Ln & G).
    destruct g as [|g]; [lia|]. cbn [decode_line]. replace (Z.of_nat (length line) =? W) with false by lia. cbn [get_u8 bind]. rewrite Zb_bZ_small by lia. cbn [andb Z.eqb Pos.eqb].
    destruct (fill_white_cases line W c) as [[-> _]|(l' & _ & _ & D & M)]; [reflexivity|]. exfalso. rewrite Ln in *. destruct Hn as [Hn|[_ Hn]]; [lia|congruence].
Qed.
Print Assumptions C07_hang_exactly.

(** It returns exactly on the pages that start with whole lines that leave no height; the
    unread rest is what follows the first such lines. *)
Theorem C07_returns_exactly : forall file byteWidth height colors urf rest, 0 <= colors ->
  (exists out, raster_to_bmp file byteWidth height colors urf = Ok (out, rest)) <->
  exists ls, file = ls ++ rest /\ lines colors byteWidth urf height ls 0.
Proof.
  intros file W h c urf rest Hc. split.
  - intros [out H]. pose proof (decode_lines_end c W urf h Hc (S (length file)) file h [] (ls_none c W urf h)) as E.
    unfold raster_to_bmp in H. rewrite H in E. exact E.
  - intros (ls & -> & Pl). unfold raster_to_bmp.
    destruct (decode_taken c W urf h Hc ls 0 Pl rest _ (Nat.lt_succ_diag_r _)) as (f' & pre & F' & ->).
    destruct f' as [|f']; [lia|]. cbn [decode_lines Z.eqb bind]. eexists. reflexivity.
Qed.
Print Assumptions C07_returns_exactly.

(** a grey page of two lines of 4 bytes: the first is repeated, then the page is complete;
    and one where the run of 3 in the second line goes beyond it and a fill code follows *)
Example C07_returns_example : lines 1 4 true 3 (map bZ [1; 255; 7; 8; 128; 0; 3; 9]) 0 /\
  exists out, raster_to_bmp (map bZ [1; 255; 7; 8; 128; 0; 3; 9; 55]) 4 3 1 true = Ok (out, [bZ 55]).
Proof.
  assert (L : lines 1 4 true 3 (map bZ [1; 255; 7; 8; 128; 0; 3; 9]) 0).
  { apply (ls_line 1 4 true 3 (map bZ [1; 255; 7; 8; 128]) 1 1 (map bZ [3; 9])); [|lia|lia|left; apply (pk_run 1 4 true [] 0 4 [bZ 9]); [constructor|lia|lia|reflexivity]].
    apply (ls_line 1 4 true 3 [] 3 2 (map bZ [255; 7; 8; 128])); [constructor|lia|lia|]. right. split; [reflexivity|].
    exists (map bZ [255; 7; 8]), 2. split; [reflexivity|]. split; [|split; [lia|reflexivity]].
    apply (pk_literal 1 4 true [] 0 2 (map bZ [7; 8])); [constructor|lia|lia|reflexivity]. }
  split; [exact L|]. apply (C07_returns_exactly _ 4 3 1 true [bZ 55]); [lia|]. exists (map bZ [1; 255; 7; 8; 128; 0; 3; 9]). split; [reflexivity|exact L].
Qed.
Example C07_hang_example : misplaced_fill 1 4 2 (map bZ [0; 128; 0; 1; 5; 2; 6; 128; 0]) /\
  raster_to_bmp (map bZ [0; 128; 0; 1; 5; 2; 6; 128; 0]) 4 2 1 true = Hang.
Proof.
  assert (M : misplaced_fill 1 4 2 (map bZ [0; 128; 0; 1; 5; 2; 6; 128; 0])).
  { exists (map bZ [0; 128]), 1, 1, (map bZ [1; 5; 2; 6]), 5, [bZ 0]. split; [reflexivity|]. split; [|split; [lia|split; [lia|split; [|left; lia]]]].
    - apply (ls_line 1 4 true 2 [] 2 1 [bZ 128]); [constructor|lia|lia|]. right. split; [reflexivity|]. exists [], 0. split; [reflexivity|]. split; [constructor|]. split; [lia|reflexivity].
    - apply (pk_run 1 4 true (map bZ [1; 5]) 2 3 [bZ 6]); [|lia|lia|reflexivity]. apply (pk_run 1 4 true [] 0 2 [bZ 5]); [constructor|lia|lia|reflexivity]. }
  split; [exact M|]. apply C07_hang_exactly; [lia|]. split; [reflexivity|exact M].
Qed.
