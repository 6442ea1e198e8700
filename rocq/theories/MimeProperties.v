(** C56: detecting the type of a file. *)
From Verif Require Import Base BaseLemmas StringModel PpmModel ConverterModel.
From Coq Require Import Lia.
Local Open Scope Z_scope.

(** ** Specification: the formats' signatures, complete *)
Definition signatures : list (string * list Z) :=
  [ ("application/pdf", [0x25; 0x50; 0x44; 0x46]);                       (* %PDF *)
    ("application/postscript", [0x25; 0x21; 0x50; 0x53]);                (* %!PS *)
    ("image/pwg-raster", [0x52; 0x61; 0x53; 0x32]);                      (* RaS2 *)
    ("image/urf", [0x55; 0x4E; 0x49; 0x52; 0x41; 0x53; 0x54]);           (* UNIRAST *)
    ("image/png", [0x89; 0x50; 0x4E; 0x47]);                             (* .PNG *)
    ("image/gif", [0x47; 0x49; 0x46; 0x38]);                             (* GIF8 *)
    ("image/jpeg", [0xFF; 0xD8; 0xFF]);
    ("image/tiff", [0x49; 0x49; 0x2A; 0x00]);                            (* II*. , little endian *)
    ("image/tiff", [0x4D; 0x4D; 0x00; 0x2A]) ]%string.                   (* MM.* , big endian *)
Definition begins (sig : list Z) (file : list byte) : Prop := exists rest, file = map bZ sig ++ rest.
(** the type of a file: that of the signature it begins with; none for an empty file *)
Definition file_type (file : list byte) (t : string) : Prop :=
  (file = [] /\ t = ""%string) \/
  (exists sig, In (t, sig) signatures /\ begins sig file) \/
  (file <> [] /\ (forall t' sig, In (t', sig) signatures -> ~ begins sig file) /\ t = "application/octet-stream"%string).
(** Begins like a TIFF file but lacks the rest of the signature. *)
Definition half_tiff (file : list byte) : Prop :=
  (begins [0x49; 0x49; 0x2A] file /\ ~ begins [0x49; 0x49; 0x2A; 0x00] file) \/
  (begins [0x4D; 0x4D] file /\ ~ begins [0x4D; 0x4D; 0x00; 0x2A] file).

(** ** Proofs *)
Lemma eat_some lit : forall b r, eat lit b = Some r <-> b = lit ++ r.
Proof.
  induction lit as [|x lit IH]; intros b r; cbn [eat app].
  - split; [intros H; injection H as ->; reflexivity|intros ->; reflexivity].
  - destruct b as [|y b]; [split; discriminate|]. destruct (Ascii.eqb_spec x y) as [->|N].
    + rewrite IH. split; [intros ->; reflexivity|]. intros H. injection H as ->. reflexivity.
    + split; [discriminate|]. intros H. injection H as -> _. congruence.
Qed.
Lemma starts_firstn lit b n : (length lit <= n)%nat -> starts lit (firstn n b) = true <-> exists rest, b = lit ++ rest.
Proof.
  intros Hn. unfold starts. destruct (eat lit (firstn n b)) as [r|] eqn:E.
  - split; [intros _|reflexivity]. apply eat_some in E. exists (r ++ skipn n b). rewrite app_assoc, <- E, firstn_skipn. reflexivity.
  - split; [discriminate|]. intros [rest ->]. rewrite firstn_app in E. rewrite firstn_all2 in E by lia.
    assert (X : eat lit (lit ++ firstn (n - length lit) rest) = Some (firstn (n - length lit) rest)) by (apply eat_some; reflexivity). congruence.
Qed.
Lemma begins_dec sig file : begins sig file \/ ~ begins sig file.
Proof.
  unfold begins. pose proof (starts_firstn (map bZ sig) file (length (map bZ sig)) (le_n _)) as H.
  destruct (starts _ _); [left; apply H; reflexivity|right; intros X; apply H in X; discriminate].
Qed.
Lemma begins_clash s1 s2 file : begins s1 file -> begins s2 file ->
  firstn (Nat.min (length s1) (length s2)) (map bZ s1) = firstn (Nat.min (length s1) (length s2)) (map bZ s2).
Proof.
  intros [r1 E1] [r2 E2]. assert (A : forall s (r : list byte) n, (n <= length s)%nat -> firstn n (map bZ s ++ r) = firstn n (map bZ s)).
  { intros s r n H. rewrite firstn_app, map_length. replace (n - length s)%nat with O by lia. apply app_nil_r. }
  rewrite <- (A s1 r1), <- (A s2 r2) by lia. congruence.
Qed.
(** at most one type's signature fits *)
Lemma one_type t1 s1 t2 s2 file : In (t1, s1) signatures -> In (t2, s2) signatures -> begins s1 file -> begins s2 file -> t1 = t2.
Proof.
  intros H1 H2 B1 B2. pose proof (begins_clash _ _ _ B1 B2) as E. clear B1 B2. unfold signatures in *.
  repeat (destruct H1 as [H1|H1]; [injection H1 as <- <-; repeat (destruct H2 as [H2|H2]; [injection H2 as <- <-; first [reflexivity|vm_compute in E; discriminate E]|]); destruct H2|]).
  destruct H1.
Qed.
Lemma starts7 sig file : (length sig <= 7)%nat -> starts (map bZ sig) (firstn 7 file) = true <-> begins sig file.
Proof. intros H. rewrite starts_firstn by (rewrite map_length; exact H). reflexivity. Qed.

(** The function, with the literals spelled out. *)
Lemma getMimeType_cases file : file <> [] -> getMimeType file =
  (if starts (map bZ [0x25; 0x50; 0x44; 0x46]) (firstn 7 file) then mPDF
   else if starts (map bZ [0x25; 0x21; 0x50; 0x53]) (firstn 7 file) then mPostscript
   else if starts (map bZ [0x52; 0x61; 0x53; 0x32]) (firstn 7 file) then mPWG
   else if starts (map bZ [0x55; 0x4E; 0x49; 0x52; 0x41; 0x53; 0x54]) (firstn 7 file) then mURF
   else if starts (map bZ [0x89; 0x50; 0x4E; 0x47]) (firstn 7 file) then mPNG
   else if starts (map bZ [0x47; 0x49; 0x46; 0x38]) (firstn 7 file) then mGIF
   else if starts (map bZ [0xFF; 0xD8; 0xFF]) (firstn 7 file) then mJPEG
   else if starts (map bZ [0x49; 0x49; 0x2A]) (firstn 7 file) || starts (map bZ [0x4D; 0x4D]) (firstn 7 file) then mTIFF
   else OctetStream).
Proof.
  intros H. unfold getMimeType. destruct file as [|b file]; [congruence|]. cbv zeta. set (bts := firstn 7 (b :: file)).
  assert (Hb : exists x l, bts = x :: l) by (eexists; eexists; reflexivity). destruct Hb as (x & l & ->). reflexivity.
Qed.

(** Every file that does not begin with an incomplete TIFF signature has the detected type,
    and no other. *)
Theorem C56_detected_partial file t : ~ half_tiff file -> (getMimeType file = t <-> file_type file t).
Proof.
  intros Hh. destruct file as [|b0 f0] eqn:E0.
  { split; [intros <-; left; split; reflexivity|]. intros [[_ ->]|[(sig & Hin & rest & E)|[H _]]]; [reflexivity| |congruence].
    exfalso. repeat (destruct Hin as [Hin|Hin]; [injection Hin as <- <-; discriminate E|]). destruct Hin. }
  rewrite <- E0 in *. assert (Hne : file <> []) by (rewrite E0; discriminate). clear E0 b0 f0.
  assert (F : file_type file (getMimeType file)).
  { rewrite (getMimeType_cases _ Hne). right.
    repeat match goal with
    | |- context [if starts (map bZ ?s) _ then _ else _] =>
        let B := fresh "B" in
        destruct (starts (map bZ s) (firstn 7 file)) eqn:B;
        [left; exists s; split; [cbn; tauto|apply (starts7 s); [cbn; lia|exact B]]|]
    end.
    destruct (starts (map bZ [0x49; 0x49; 0x2A]) (firstn 7 file)) eqn:BI.
    { left. exists [0x49; 0x49; 0x2A; 0x00]. split; [cbn; tauto|]. destruct (begins_dec [0x49; 0x49; 0x2A; 0x00] file) as [Y|N]; [exact Y|].
      exfalso. apply Hh. left. split; [apply (starts7 [0x49; 0x49; 0x2A]); [cbn; lia|exact BI]|exact N]. }
    destruct (starts (map bZ [0x4D; 0x4D]) (firstn 7 file)) eqn:BM.
    { left. exists [0x4D; 0x4D; 0x00; 0x2A]. split; [cbn; tauto|]. destruct (begins_dec [0x4D; 0x4D; 0x00; 0x2A] file) as [Y|N]; [exact Y|].
      exfalso. apply Hh. right. split; [apply (starts7 [0x4D; 0x4D]); [cbn; lia|exact BM]|exact N]. }
    cbn [orb]. right. split; [exact Hne|]. split; [|reflexivity]. intros t' sig Hin Hb.
    assert (P : forall s r, begins (s ++ r) file -> begins s file).
    { intros s r [rest E]. exists (map bZ r ++ rest). rewrite E, map_app, app_assoc. reflexivity. }
    unfold signatures in Hin. cbn [In] in Hin.
    repeat (destruct Hin as [Hin|Hin];
      [injection Hin as <- <-;
       first [apply (starts7 _ file) in Hb; [congruence|cbn; lia]
             |apply (P [0x49; 0x49; 0x2A] [0x00]), (starts7 _ file) in Hb; [congruence|cbn; lia]
             |apply (P [0x4D; 0x4D] [0x00; 0x2A]), (starts7 _ file) in Hb; [congruence|cbn; lia]]|]).
    destruct Hin. }
  split; [intros <-; exact F|]. intros H.
  destruct F as [[E _]|[(s1 & H1 & B1)|(_ & N1 & E1)]]; [congruence| |].
  - destruct H as [[E _]|[(s2 & H2 & B2)|(_ & N2 & E2)]]; [congruence| |].
    + exact (one_type _ _ _ _ _ H1 H2 B1 B2).
    + exfalso. exact (N2 _ _ H1 B1).
  - destruct H as [[E _]|[(s2 & H2 & B2)|(_ & N2 & E2)]]; [congruence| |congruence]. exfalso. exact (N1 _ _ H2 B2).
Qed.
Example C56_example :
  getMimeType (bytes_of_string "%PDF-1.7 ...") = "application/pdf"%string /\ getMimeType (map bZ [0x4D; 0x4D; 0x00; 0x2A; 0; 0]) = "image/tiff"%string /\
  getMimeType (bytes_of_string "UNIRAS") = "application/octet-stream"%string /\ ~ half_tiff (bytes_of_string "%PDF-1.7 ...").
Proof.
  repeat split. intros [[[r E] _]|[[r E] _]]; discriminate E.
Qed.

(** Only the first seven bytes matter. *)
Theorem C56_local_partial f1 f2 : firstn 7 f1 = firstn 7 f2 -> getMimeType f1 = getMimeType f2.
Proof. intros H. unfold getMimeType. rewrite H. reflexivity. Qed.
Example C56_local_example : getMimeType (bytes_of_string "UNIRAST" ++ [bZ 0; bZ 1]) = getMimeType (bytes_of_string "UNIRASTxyz").
Proof. apply C56_local_partial. reflexivity. Qed.

(** The literals of the TIFF signatures end at their NUL characters, so that a file with
    an incomplete signature (any text beginning with the letters MM) is taken for a TIFF. *)
Theorem C56_half_tiff_refuted file : half_tiff file -> getMimeType file = "image/tiff"%string.
Proof.
  intros H. assert (Hp : begins [0x49; 0x49; 0x2A] file \/ begins [0x4D; 0x4D] file) by (destruct H as [[H _]|[H _]]; auto). clear H.
  assert (Hne : file <> []) by (destruct Hp as [[r ->]|[r ->]]; discriminate).
  rewrite (getMimeType_cases _ Hne). destruct Hp as [[r ->]|[r ->]].
  - reflexivity.
  - reflexivity.
Qed.
Theorem C56_refuted : ~ forall file, file_type file (getMimeType file).
Proof.
  intros H. specialize (H (bytes_of_string "MMXXVI, a text")). destruct H as [[E _]|[(sig & Hin & rest & E)|(_ & _ & E)]]; [discriminate| |discriminate E].
  change (getMimeType (bytes_of_string "MMXXVI, a text")) with "image/tiff"%string in Hin. cbn [signatures In] in Hin.
  repeat (destruct Hin as [Hin|Hin]; [first [discriminate Hin|injection Hin as <-; discriminate E]|]). destruct Hin.
Qed.
Example C56_half_example : half_tiff (bytes_of_string "MMXXVI, a text").
Proof. right. split; [eexists; reflexivity|]. intros [r E]. discriminate E. Qed.

Print Assumptions C56_detected_partial.
Print Assumptions C56_local_partial.
Print Assumptions C56_half_tiff_refuted.
Print Assumptions C56_refuted.
