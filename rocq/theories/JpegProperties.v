(** C82, C83: the source and destination managers of baselinify. *)
From Verif Require Import Base BaseLemmas RenderModel JpegModel.
From Coq Require Import Lia ZifyBool ZifyNat.
Local Open Scope Z_scope.

(** ** C82: libjpeg gets the bytes of the file, in order, and no others *)
(** Reading from position [i] of a file: every access is to a byte of the file *)
Inductive delivers (data : list byte) : Z -> list source_op -> list byte -> Prop :=
| delivers_none i : delivers data i [] []
| delivers_skip i n ops l : delivers data (i + n) ops l -> delivers data i (Skip n :: ops) l
| delivers_byte a b c ops l : data = a ++ b :: c -> delivers data (Z.of_nat (length a) + 1) ops l -> delivers data (Z.of_nat (length a)) (TakeByte :: ops) (b :: l).
(** libjpeg skips forward only *)
Definition forward (ops : list source_op) : Prop := Forall (fun o => match o with TakeByte => True | Skip n => 0 <= n end) ops.
(** the position after some accesses *)
Definition advance (o : source_op) : Z := match o with TakeByte => 1 | Skip n => n end.
Fixpoint consumed (ops : list source_op) : Z := match ops with [] => 0 | o :: ops' => advance o + consumed ops' end.

Lemma get_at_spec (data : list byte) i b : get_at data i = Ok b <-> exists a c, data = a ++ b :: c /\ i = Z.of_nat (length a).
Proof.
  unfold get_at. split.
  - destruct (Z.ltb_spec i 0); [discriminate|]. destruct (nth_error data (Z.to_nat i)) as [x|] eqn:E; [|discriminate]. intros K. injection K as ->.
    apply nth_error_split in E. destruct E as [a [c [-> El]]]. exists a, c. split; [reflexivity|lia].
  - intros [a [c [-> ->]]]. destruct (Z.ltb_spec (Z.of_nat (length a)) 0); [lia|]. rewrite Nat2Z.id, nth_error_app2, Nat.sub_diag by lia. reflexivity.
Qed.
Lemma take_eq data s : take_byte data s = match get_at data (s_next s) with Ok b => Ok (Taken b (mkSource (s_next s + 1) ((s_left s - 1) mod two64))) | Throw e => Throw e | UB => UB | Hang => Hang | NoFuel => NoFuel end.
Proof. unfold take_byte, fill_input_buffer. destruct (s_left s =? 0); cbn [negb]; destruct (get_at data (s_next s)); reflexivity. Qed.
(** Exactly the accesses within the file are served, with exactly the bytes there; every other
    sequence of accesses reads outside of the file.  Missing from the claim: the end of the
    file is never reported. *)
Theorem C82_delivers_partial data ops l : run_source data (source_init data) ops = Ok (Some l) <-> delivers data 0 ops l.
Proof.
  unfold source_init. generalize (Z.of_nat (length data)). generalize 0. revert l. induction ops as [|o ops IH]; intros l i left; cbn [run_source].
  - split; [intros H; injection H as <-; constructor|intros H; inversion H; reflexivity].
  - destruct o as [|n].
    + rewrite take_eq. cbn [s_next s_left]. split.
      * destruct (get_at data i) as [b| | | |] eqn:E; try discriminate. cbn [bind]. destruct (run_source data _ ops) as [[l'|]| | | |] eqn:E'; cbn; try discriminate. intros H. injection H as <-.
        apply get_at_spec in E. destruct E as [a [c [E ->]]]. apply delivers_byte with (c := c); [exact E|]. apply IH in E'. exact E'.
      * intros H. inversion H as [|? ? ? ? ?|a b c ops' l' Ed Hd]; subst. rewrite (proj2 (get_at_spec (a ++ b :: c) (Z.of_nat (length a)) b)) by (exists a, c; auto). cbn [bind].
        rewrite (proj2 (IH l' (Z.of_nat (length a) + 1) ((left - 1) mod two64)) Hd). reflexivity.
    + unfold skip_input_data. cbn [s_next s_left]. split; intros H; [constructor; apply IH in H; exact H|inversion H; subst; apply IH; assumption].
Qed.
Theorem C82_within_file data ops : forward ops -> consumed ops <= Z.of_nat (length data) -> exists l, run_source data (source_init data) ops = Ok (Some l).
Proof.
  intros Hf Hc. assert (G : forall i, 0 <= i -> i + consumed ops <= Z.of_nat (length data) -> exists l, delivers data i ops l).
  { clear Hc. induction Hf as [|o ops Ho Hf IH]; intros i Hi Hc; [exists []; constructor|]. cbn [consumed] in Hc. assert (Hr : 0 <= consumed ops).
    { clear - Hf. induction Hf as [|o' ops' Ho' Hf' IH']; [cbn; lia|]. cbn [consumed]. destruct o' as [|n]; cbn [advance]; cbn in Ho'; lia. }
    destruct o as [|n]; cbn [advance] in Hc.
    - destruct (IH (i + 1)) as [l Hl]; [lia|lia|]. destruct (nth_error data (Z.to_nat i)) as [b|] eqn:E; [|apply nth_error_None in E; lia].
      apply nth_error_split in E. destruct E as [a [c [Ed El]]]. exists (b :: l). replace i with (Z.of_nat (length a)) in * by lia. apply delivers_byte with (c := c); assumption.
    - destruct (IH (i + n)) as [l Hl]; [lia|lia|]. exists l. constructor. exact Hl. }
  destruct (G 0) as [l Hl]; [lia|lia|]. exists l. apply C82_delivers_partial. exact Hl.
Qed.
(** Finding: a file that ends too early makes libjpeg read outside of it: fill_input_buffer
    answers TRUE without supplying data, and bytes_in_buffer is decremented below 0. *)
Theorem C82_truncated_refuted data ops : forward ops -> Z.of_nat (length data) <= consumed ops -> run_source data (source_init data) (ops ++ [TakeByte]) = UB.
Proof.
  intros Hf. unfold source_init. generalize (Z.of_nat (length data)) at 2. assert (G : forall i left, Z.of_nat (length data) <= i + consumed ops -> 0 <= i -> run_source data (mkSource i left) (ops ++ [TakeByte]) = UB).
  { induction Hf as [|o ops Ho Hf IH]; intros i left Hc Hi; cbn [app run_source].
    - rewrite take_eq. cbn [s_next consumed] in *. unfold get_at. destruct (Z.ltb_spec i 0); [reflexivity|]. rewrite (proj2 (nth_error_None data (Z.to_nat i))) by lia. reflexivity.
    - cbn [consumed] in Hc. destruct o as [|n]; cbn [advance] in Hc.
      + rewrite take_eq. cbn [s_next s_left]. unfold get_at. destruct (Z.ltb_spec i 0); [reflexivity|]. destruct (nth_error data (Z.to_nat i)); [|reflexivity]. cbn [bind]. rewrite IH by lia. reflexivity.
      + unfold skip_input_data. cbn [s_next s_left]. apply IH; lia. }
  intros left Hc. apply G; lia.
Qed.
Example C82_example : let data := map bZ [255; 216; 255; 224] in
  run_source data (source_init data) [TakeByte; Skip 2; TakeByte] = Ok (Some (map bZ [255; 224])) /\ forward [TakeByte; Skip 2; TakeByte] /\ consumed [TakeByte; Skip 2; TakeByte] = 4
  /\ run_source data (source_init data) [TakeByte; Skip 2; TakeByte; TakeByte] = UB.
Proof. split; [vm_compute; reflexivity|]. split; [repeat constructor; lia|]. split; vm_compute; reflexivity. Qed.

(** ** C83: what libjpeg writes is appended to the output, whatever the size of the buffer *)
Lemma firstn_set (l : list byte) k b : (k < length l)%nat -> firstn (S k) (firstn k l ++ b :: skipn (S k) l) = firstn k l ++ [b].
Proof.
  intros H. rewrite firstn_app, firstn_firstn, firstn_length. replace (Nat.min (S k) k) with k by lia. replace (S k - Nat.min k (length l))%nat with 1%nat by lia. reflexivity.
Qed.
Lemma emit_bytes_spec size l : 0 < size < two64 -> forall d pending, Z.of_nat (length (d_buffer d)) = size -> d_next d = Z.of_nat (length pending) -> d_free d = size - d_next d -> 0 <= d_next d < size ->
  firstn (length pending) (d_buffer d) = pending ->
  exists d' pending', emit_bytes size d l = Ok d' /\ Z.of_nat (length (d_buffer d')) = size /\ d_next d' = Z.of_nat (length pending') /\ d_free d' = size - d_next d' /\ 0 <= d_next d' < size
    /\ firstn (length pending') (d_buffer d') = pending' /\ d_out d' ++ pending' = d_out d ++ pending ++ l.
Proof.
  intros Hs. induction l as [|b l IH]; intros d pending Hl Hn Hf Hr Hp.
  - exists d, pending. rewrite app_nil_r. cbn [emit_bytes]. auto 8.
  - cbn [emit_bytes]. unfold emit_byte, set_at. rewrite (proj2 (andb_true_iff _ _)) by (split; lia). cbn [bind d_free d_buffer d_next d_out].
    set (buf := firstn (Z.to_nat (d_next d)) (d_buffer d) ++ b :: skipn (S (Z.to_nat (d_next d))) (d_buffer d)).
    assert (Hk : Z.to_nat (d_next d) = length pending) by lia.
    assert (Hb : Z.of_nat (length buf) = size). { unfold buf. rewrite app_length, firstn_length. cbn [length]. rewrite skipn_length. lia. }
    assert (Hfst : firstn (length (pending ++ [b])) buf = pending ++ [b]).
    { rewrite app_length. cbn [length]. rewrite Nat.add_1_r. unfold buf. rewrite Hk, firstn_set by lia. rewrite Hp. reflexivity. }
    rewrite (Z.mod_small (d_free d - 1)) by lia. destruct (Z.eqb_spec (d_free d - 1) 0) as [E|E].
    + unfold empty_output_buffer, put_bytes. cbn [d_buffer d_out]. rewrite (proj2 (andb_true_iff _ _)) by (split; lia). cbn [bind].
      destruct (IH (mkDest buf 0 size (d_out d ++ firstn (Z.to_nat size) buf)) []) as [d' [q [H1 [H2 [H3 [H4 [H5 [H6 H7]]]]]]]]; cbn [d_buffer d_next d_free d_out length]; try lia; try reflexivity.
      exists d', q. rewrite H1. split; [reflexivity|]. split; [exact H2|]. split; [exact H3|]. split; [exact H4|]. split; [exact H5|]. split; [exact H6|]. rewrite H7. cbn [d_out].
      replace (Z.to_nat size) with (length (pending ++ [b])) by (rewrite app_length; cbn [length]; lia). rewrite Hfst. rewrite <- !app_assoc. reflexivity.
    + cbn [bind]. destruct (IH (mkDest buf (d_next d + 1) (d_free d - 1) (d_out d)) (pending ++ [b])) as [d' [q [H1 [H2 [H3 [H4 [H5 [H6 H7]]]]]]]]; cbn [d_buffer d_next d_free d_out]; try (rewrite ?app_length; cbn [length]; lia); [exact Hfst|].
      exists d', q. rewrite H1. split; [reflexivity|]. split; [exact H2|]. split; [exact H3|]. split; [exact H4|]. split; [exact H5|]. split; [exact H6|]. rewrite H7. cbn [d_out]. rewrite <- !app_assoc. reflexivity.
Qed.
Theorem C83_all_written size garbage out l : 0 < size < 2 ^ 64 -> Z.of_nat (length garbage) = size -> run_destination size garbage out l = Ok (out ++ l).
Proof.
  intros Hs Hg. change (2 ^ 64) with two64 in Hs. unfold run_destination.
  destruct (emit_bytes_spec size l Hs (dest_init size garbage out) []) as [d [q [H1 [H2 [H3 [H4 [H5 [H6 H7]]]]]]]]; cbn [dest_init d_buffer d_next d_free d_out length]; try lia; try reflexivity.
  rewrite H1. cbn [bind]. unfold term_destination, put_bytes. rewrite Z.mod_small by lia. rewrite (proj2 (andb_true_iff _ _)) by (split; lia).
  replace (Z.to_nat (size - d_free d)) with (length q) by lia. rewrite H6. cbn [dest_init d_out app] in H7. rewrite H7. reflexivity.
Qed.
Example C83_example : run_destination 3 (map bZ [7; 7; 7]) (map bZ [9]) (map bZ [1; 2; 3; 4; 5; 6; 8]) = Ok (map bZ [9; 1; 2; 3; 4; 5; 6; 8])
  /\ run_destination 3 (map bZ [7; 7; 7]) [] (map bZ [1; 2; 3]) = Ok (map bZ [1; 2; 3]).
Proof. split; vm_compute; reflexivity. Qed.

Print Assumptions C82_delivers_partial.
Print Assumptions C82_within_file.
Print Assumptions C82_truncated_refuted.
Print Assumptions C83_all_written.
