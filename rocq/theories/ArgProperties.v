(** C24 (command lines) and C55 (bsplit). *)
From Verif Require Import Base BaseLemmas StringModel StringProofs FloatModel ParamsModel PpmModel PpmSpec PpmProofs ParamsSpec ArgModel ArgSpec.
From Coq Require Import Lia ZifyBool ZifyNat.
Local Open Scope Z_scope.
Ltac Zify.zify_post_hook ::= Z.div_mod_to_equations.

(** ** Proofs *)
(** *** Values *)
Lemma digit_range c : is_digit c = true <-> 48 <= Zb c <= 57.
Proof. unfold is_digit. lia. Qed.
Lemma append_app (a b : string) : bytes_of_string (a ++ b) = bytes_of_string a ++ bytes_of_string b.
Proof. induction a as [|c a IH]; [reflexivity|]. cbn. f_equal. exact IH. Qed.
(** the digits a text starts with *)
Lemma scan_app l : forall acc rest, digits l -> starts_digit rest = false ->
  scan_digits (string_of_bytes l ++ rest) acc = scan_digits (string_of_bytes l) acc.
Proof.
  induction l as [|c l IH]; intros acc rest Hl Hr.
  - cbn. destruct rest as [|c rest]; [reflexivity|]. cbn in *. rewrite Hr. reflexivity.
  - inversion Hl; subst. cbn. rewrite H1. apply IH; assumption.
Qed.
Lemma digit_number c : is_digit c = true -> number [c] (digit_val c).
Proof.
  intros H. apply digit_range in H. replace c with (bZ (48 + digit_val c)) at 1; [constructor; unfold digit_val; lia|].
  unfold digit_val. replace (48 + (Zb c - 48)) with (Zb c) by lia. apply bZ_Zb.
Qed.
Lemma digits_number l v : number l v -> forall s, exists l' rest, s = (string_of_bytes l' ++ rest)%string
  /\ number (l ++ l') (scan_digits s v) /\ starts_digit rest = false.
Proof.
  intros Hn s. revert l v Hn. induction s as [|c s IH]; intros l v Hn.
  - exists [], ""%string. split; [reflexivity|]. rewrite app_nil_r. split; [exact Hn|reflexivity].
  - cbn [scan_digits]. destruct (is_digit c) eqn:E.
    + assert (K : number (l ++ [c]) (v * 10 + digit_val c)).
      { apply digit_range in E. replace c with (bZ (48 + digit_val c)) at 1
          by (unfold digit_val; replace (48 + (Zb c - 48)) with (Zb c) by lia; apply bZ_Zb).
        replace (v * 10 + digit_val c) with (10 * v + digit_val c) by lia. constructor; [exact Hn|unfold digit_val; lia]. }
      destruct (IH _ _ K) as [l' [rest [-> [H1 H2]]]]. exists (c :: l'), rest. split; [reflexivity|].
      rewrite <- app_assoc in H1. split; [exact H1|exact H2].
    + exists [], (String c s). split; [reflexivity|]. rewrite app_nil_r. split; [exact Hn|exact E].
Qed.
Lemma digits_split s : starts_digit s = true -> exists ds rest, s = (ds ++ rest)%string /\ digits_of ds (scan_digits s 0) /\ starts_digit rest = false.
Proof.
  destruct s as [|c s]; [discriminate|]. cbn [starts_digit scan_digits]. intros E. rewrite E.
  replace (0 * 10 + digit_val c) with (digit_val c) by lia.
  destruct (digits_number [c] (digit_val c) (digit_number c E) s) as [l [rest [-> [H1 H2]]]].
  exists (String c (string_of_bytes l)), rest. split; [reflexivity|]. split; [|exact H2]. unfold digits_of.
  change (bytes_of_string (String c (string_of_bytes l))) with (c :: bytes_of_string (string_of_bytes l)).
  rewrite bytes_string_id. exact H1.
Qed.
Lemma skip_space_split s : exists gap, s = (gap ++ skip_space s)%string /\ Forall white (bytes_of_string gap)
  /\ match skip_space s with String c _ => is_space c = false | EmptyString => True end.
Proof.
  induction s as [|c s [gap [H1 [H2 H3]]]]; [exists ""%string; repeat split; constructor|]. cbn [skip_space].
  destruct (is_space c) eqn:E.
  - exists (String c gap). split; [cbn; f_equal; exact H1|]. split; [|exact H3]. constructor; [apply white_spec; exact E|exact H2].
  - exists ""%string. split; [reflexivity|]. split; [constructor|exact E].
Qed.
Lemma skip_space_app gap s : Forall white (bytes_of_string gap) -> match s with String c _ => is_space c = false | EmptyString => True end ->
  skip_space (gap ++ s) = s.
Proof.
  induction gap as [|c gap IH]; intros Hg Hs.
  - cbn. destruct s as [|c s]; [reflexivity|]. cbn. rewrite Hs. reflexivity.
  - cbn in Hg |- *. inversion Hg as [|? ? Hc Hg']; subst. apply white_spec in Hc. rewrite Hc. apply IH; assumption.
Qed.
(** what stoi, stol and stoul look at *)
Definition sign_split (s : string) : bool * string :=
  match s with
  | String c s' => if Zb c =? 45 then (true, s') else if Zb c =? 43 then (false, s') else (false, s)
  | EmptyString => (false, s)
  end.
Lemma Zb_char n c : 0 <= n < 256 -> Zb c = n -> c = bZ n.
Proof. intros H <-. symmetry. apply bZ_Zb. Qed.
Lemma int_text_read s neg n : int_text s neg n <->
  starts_digit (snd (sign_split (skip_space s))) = true /\ neg = fst (sign_split (skip_space s)) /\ n = scan_digits (snd (sign_split (skip_space s))) 0.
Proof.
  split.
  - intros [gap [sign [ds [rest [-> [Hg [Hs [Hd Hr]]]]]]]].
    assert (Hd' := Hd). unfold digits_of in Hd'. pose proof (number_digits _ _ Hd') as [Hdd [Hne _]].
    assert (Hrd : starts_digit rest = false).
    { destruct rest as [|c rest]; [reflexivity|]. cbn. destruct (is_digit c) eqn:E; [|reflexivity]. apply digit_range in E. destruct (Hr _ _ eq_refl E). }
    destruct ds as [|d ds]; [destruct (Hne eq_refl)|]. inversion Hdd as [|? ? Hdig Hdd']; subst.
    assert (Es : scan_digits (String d ds ++ rest) 0 = n).
    { rewrite <- (string_bytes_id (String d ds)). rewrite scan_app by assumption. apply number_scan. exact Hd'. }
    pose proof (digit_not d Hdig) as (N1 & _ & _ & N4 & N5). apply Z.eqb_neq in N4, N5.
    assert (K : (neg = true /\ sign = "-"%string) \/ (neg = false /\ (sign = "" \/ sign = "+")%string)) by (destruct neg; [left|right]; split; auto).
    destruct K as [[-> ->]|[-> [-> | ->]]]; (rewrite skip_space_app; [|exact Hg|try reflexivity; exact N1]).
    + cbn [append sign_split]. change (Zb "-"%char =? 45) with true. cbn [fst snd]. split; [exact Hdig|]. split; [reflexivity|]. symmetry. exact Es.
    + cbn [append sign_split]. rewrite N4, N5. cbn [fst snd]. split; [exact Hdig|]. split; [reflexivity|]. symmetry. exact Es.
    + cbn [append sign_split]. change (Zb "+"%char =? 45) with false. change (Zb "+"%char =? 43) with true. cbn [fst snd]. split; [exact Hdig|]. split; [reflexivity|]. symmetry. exact Es.
  - intros [H1 [-> ->]]. destruct (skip_space_split s) as [gap [Eg [Hg _]]].
    destruct (digits_split _ H1) as [ds [rest [Ed [Hd Hr]]]].
    assert (K : exists sign, skip_space s = (sign ++ snd (sign_split (skip_space s)))%string
      /\ (if fst (sign_split (skip_space s)) then sign = "-" else sign = "" \/ sign = "+")%string).
    { destruct (skip_space s) as [|c s']; cbn [sign_split]; [exists ""%string; split; [reflexivity|left; reflexivity]|].
      destruct (Zb c =? 45) eqn:E1; [exists "-"%string; split; [|reflexivity]; cbn; f_equal; apply (Zb_char 45); lia|].
      destruct (Zb c =? 43) eqn:E2; [exists "+"%string; split; [|right; reflexivity]; cbn; f_equal; apply (Zb_char 43); lia|].
      exists ""%string. split; [reflexivity|left; reflexivity]. }
    destruct K as [sign [Es Hs]]. exists gap, sign, ds, rest. split; [rewrite <- Ed, <- Es; exact Eg|]. split; [exact Hg|]. split; [exact Hs|]. split; [exact Hd|].
    intros c rest' ->. cbn in Hr. intros K. apply digit_range in K. congruence.
Qed.
Lemma number_nonneg s neg n : int_text s neg n -> 0 <= n.
Proof. intros [? [? [? [? [_ [_ [_ [H _]]]]]]]]. apply number_digits in H. tauto. Qed.
Definition in_range (lo hi z : Z) : outcome Z := if (lo <=? z) && (z <? hi) then Ok z else Throw OutOfRange.
Lemma stoi_read s : stoi s = let p := sign_split (skip_space s) in
  if starts_digit (snd p) then in_range (-2147483648) 2147483648 (signed (fst p) (scan_digits (snd p) 0)) else Throw InvalidArgument.
Proof. unfold stoi. change (match skip_space s with String c s' => if Zb c =? 45 then (true, s') else if Zb c =? 43 then (false, s') else (false, skip_space s) | EmptyString => (false, skip_space s) end) with (sign_split (skip_space s)). destruct (sign_split (skip_space s)) as [neg t]. reflexivity. Qed.
Lemma stol_read s : stol s = let p := sign_split (skip_space s) in
  if starts_digit (snd p) then in_range (-9223372036854775808) 9223372036854775808 (signed (fst p) (scan_digits (snd p) 0)) else Throw InvalidArgument.
Proof. unfold stol. change (match skip_space s with String c s' => if Zb c =? 45 then (true, s') else if Zb c =? 43 then (false, s') else (false, skip_space s) | EmptyString => (false, skip_space s) end) with (sign_split (skip_space s)). destruct (sign_split (skip_space s)) as [neg t]. reflexivity. Qed.
Lemma stoul_read s : stoul s = let p := sign_split (skip_space s) in
  if starts_digit (snd p) then
    if scan_digits (snd p) 0 <? two64 then Ok (if fst p then (- scan_digits (snd p) 0) mod two64 else scan_digits (snd p) 0) else Throw OutOfRange
  else Throw InvalidArgument.
Proof. unfold stoul. change (match skip_space s with String c s' => if Zb c =? 45 then (true, s') else if Zb c =? 43 then (false, s') else (false, skip_space s) | EmptyString => (false, skip_space s) end) with (sign_split (skip_space s)). destruct (sign_split (skip_space s)) as [neg t]. reflexivity. Qed.
Lemma stoi_text s z : stoi s = Ok z <-> exists neg n, int_text s neg n /\ - 2 ^ 31 <= signed neg n < 2 ^ 31 /\ z = signed neg n.
Proof.
  rewrite stoi_read. cbv zeta. unfold in_range. change (2 ^ 31) with 2147483648. split.
  - intros H. destruct (starts_digit _) eqn:E; [|discriminate]. destruct (_ && _) eqn:E2 in H; [|discriminate]. injection H as <-.
    exists (fst (sign_split (skip_space s))), (scan_digits (snd (sign_split (skip_space s))) 0). split; [apply int_text_read; auto|]. split; [lia|reflexivity].
  - intros [neg [n [H [H1 ->]]]]. apply int_text_read in H. destruct H as [E [-> ->]]. rewrite E.
    match goal with |- (if ?b then _ else _) = _ => replace b with true by lia end. reflexivity.
Qed.
Lemma stol_text s z : stol s = Ok z <-> exists neg n, int_text s neg n /\ - 2 ^ 63 <= signed neg n < 2 ^ 63 /\ z = signed neg n.
Proof.
  rewrite stol_read. cbv zeta. unfold in_range. change (2 ^ 63) with 9223372036854775808. split.
  - intros H. destruct (starts_digit _) eqn:E; [|discriminate]. destruct (_ && _) eqn:E2 in H; [|discriminate]. injection H as <-.
    exists (fst (sign_split (skip_space s))), (scan_digits (snd (sign_split (skip_space s))) 0). split; [apply int_text_read; auto|]. split; [lia|reflexivity].
  - intros [neg [n [H [H1 ->]]]]. apply int_text_read in H. destruct H as [E [-> ->]]. rewrite E.
    match goal with |- (if ?b then _ else _) = _ => replace b with true by lia end. reflexivity.
Qed.
Lemma stoul_text s z : stoul s = Ok z <-> exists neg n, int_text s neg n /\ n < 2 ^ 64 /\ z = signed neg n mod 2 ^ 64.
Proof.
  rewrite stoul_read. cbv zeta. unfold two64. change (2 ^ 64) with 18446744073709551616. split.
  - intros H. destruct (starts_digit _) eqn:E; [|discriminate]. destruct (_ <? _) eqn:E2 in H; [|discriminate].
    assert (Hi : int_text s (fst (sign_split (skip_space s))) (scan_digits (snd (sign_split (skip_space s))) 0)) by (apply int_text_read; auto).
    pose proof (number_nonneg _ _ _ Hi). exists (fst (sign_split (skip_space s))), (scan_digits (snd (sign_split (skip_space s))) 0). split; [exact Hi|]. split; [lia|].
    injection H as <-. unfold signed. destruct (fst _); [reflexivity|]. symmetry. apply Z.mod_small. lia.
  - intros [neg [n [H [H1 ->]]]]. pose proof (number_nonneg _ _ _ H). apply int_text_read in H. destruct H as [E [-> ->]]. rewrite E.
    match goal with |- (if ?b then _ else _) = _ => replace b with true by lia end. unfold signed. destruct (fst _); [reflexivity|]. rewrite Z.mod_small by lia. reflexivity.
Qed.
Lemma enum_get_entry m s z : enum_get m s = Some z <-> entry m s z.
Proof.
  induction m as [|[k v] m IH]; cbn [enum_get].
  - split; [discriminate|]. intros [b [a [E _]]]. destruct b; discriminate.
  - destruct (String.eqb_spec s k) as [->|N].
    + split.
      * intros H. injection H as ->. exists [], m. split; [reflexivity|intros z' []].
      * intros [b [a [E H]]]. destruct b as [|e b]; [injection E as <- _; reflexivity|]. injection E as <- _. destruct (H v). left. reflexivity.
    + rewrite IH. split.
      * intros [b [a [-> H]]]. exists ((k, v) :: b), a. split; [reflexivity|]. intros z' [E|Hin]; [injection E as -> _; congruence|apply (H z' Hin)].
      * intros [b [a [E H]]]. destruct b as [|e b]; [injection E as -> _; congruence|]. injection E as <- ->. exists b, a. split; [reflexivity|]. intros z' Hin. apply (H z'). right. exact Hin.
Qed.
Theorem C24_values k s x : convert k s = Ok x <-> value_text k s x.
Proof.
  destruct k; cbn [convert value_text].
  - split; [intros H; injection H as <-|intros ->]; reflexivity.
  - split; [intros H; injection H as <-|intros ->]; reflexivity.
  - destruct (stoi s) as [z| | | |] eqn:E; cbn [bind].
    1: apply stoi_text in E; destruct E as [neg [n [H1 [H2 ->]]]]; split; [intros H; injection H as <-; exists neg, n; auto|].
    1: intros [neg' [n' [H1' [H2' ->]]]]; apply int_text_read in H1, H1'; destruct H1 as [_ [-> ->]], H1' as [_ [-> ->]]; reflexivity.
    all: split; [discriminate|]; intros [neg [n [H1 [H2 ->]]]]; assert (K : stoi s = Ok (signed neg n)) by (apply stoi_text; exists neg, n; auto); congruence.
  - destruct (stol s) as [z| | | |] eqn:E; cbn [bind].
    1: apply stol_text in E; destruct E as [neg [n [H1 [H2 ->]]]]; split; [intros H; injection H as <-; exists neg, n; auto|].
    1: intros [neg' [n' [H1' [H2' ->]]]]; apply int_text_read in H1, H1'; destruct H1 as [_ [-> ->]], H1' as [_ [-> ->]]; reflexivity.
    all: split; [discriminate|]; intros [neg [n [H1 [H2 ->]]]]; assert (K : stol s = Ok (signed neg n)) by (apply stol_text; exists neg, n; auto); congruence.
  - assert (M : forall z, (z mod 2 ^ 64) mod two32 = z mod 2 ^ 32) by (intros z; unfold two32; change (2 ^ 64) with (4294967296 * 4294967296); change (2 ^ 32) with 4294967296; rewrite Z.rem_mul_r by lia; rewrite Z.mul_comm, Z.mod_add by lia; apply Z.mod_mod; lia).
    destruct (stoul s) as [z| | | |] eqn:E; cbn [bind].
    1: apply stoul_text in E; destruct E as [neg [n [H1 [H2 ->]]]]; rewrite M; split; [intros H; injection H as <-; exists neg, n; auto|].
    1: intros [neg' [n' [H1' [H2' ->]]]]; apply int_text_read in H1, H1'; destruct H1 as [_ [-> ->]], H1' as [_ [-> ->]]; reflexivity.
    all: split; [discriminate|]; intros [neg [n [H1 [H2 ->]]]]; assert (K : stoul s = Ok (signed neg n mod 2 ^ 64)) by (apply stoul_text; exists neg, n; auto); congruence.
  - destruct (stoul s) as [z| | | |] eqn:E; cbn [bind].
    1: apply stoul_text in E; destruct E as [neg [n [H1 [H2 ->]]]]; split; [intros H; injection H as <-; exists neg, n; auto|].
    1: intros [neg' [n' [H1' [H2' ->]]]]; apply int_text_read in H1, H1'; destruct H1 as [_ [-> ->]], H1' as [_ [-> ->]]; reflexivity.
    all: split; [discriminate|]; intros [neg [n [H1 [H2 ->]]]]; assert (K : stoul s = Ok (signed neg n mod 2 ^ 64)) by (apply stoul_text; exists neg, n; auto); congruence.
  - destruct (enum_get m s) as [z|] eqn:E.
    + apply enum_get_entry in E. split; [intros H; injection H as <-; exists z; auto|]. intros [z' [H ->]]. apply enum_get_entry in E, H. congruence.
    + split; [discriminate|]. intros [z [H _]]. apply enum_get_entry in H. congruence.
Qed.
Example C24_value_examples :
  value_text KInt " -12x"%string (AInt (-12)) /\ value_text KUInt "-1"%string (AInt 4294967295) /\ value_text KLong "+9223372036854775807"%string (AInt 9223372036854775807)
  /\ ~ (exists x, value_text KInt "2147483648"%string x) /\ ~ (exists x, value_text KInt "x1"%string x).
Proof.
  split; [apply C24_values; vm_compute; reflexivity|]. split; [apply C24_values; vm_compute; reflexivity|]. split; [apply C24_values; vm_compute; reflexivity|].
  split; intros [x H]; apply C24_values in H; vm_compute in H; discriminate.
Qed.

(** *** Parsing *)
Definition assigns (st : astate) (l : list (nat * aval)) : astate := fold_left (fun s e => assign s (fst e) (snd e)) l st.
Lemma assigns_holds l : forall st, holds st l (assigns st l).
Proof.
  induction l as [|[j v] l IH]; intros st i; cbn [last_assigned]; [split; reflexivity|]. change (assigns st ((j, v) :: l)) with (assigns (assign st j v) l).
  destruct (IH (assign st j v) i) as [H1 H2]. rewrite H1, H2. cbn [assign a_val a_set]. destruct (last_assigned l i); [split; reflexivity|].
  destruct (Nat.eqb i j); split; reflexivity.
Qed.
Lemma assigns_app st l1 l2 : assigns st (l1 ++ l2) = assigns (assigns st l1) l2.
Proof. unfold assigns. apply fold_left_app. Qed.
Lemma existsb_name a l : existsb (String.eqb a) l = true <-> In a l.
Proof.
  rewrite existsb_exists. split.
  - intros [x [H1 H2]]. apply String.eqb_eq in H2. subst x. exact H1.
  - intros H. exists a. split; [exact H|apply String.eqb_refl].
Qed.
Lemma existsb_name_false a l : existsb (String.eqb a) l = false <-> ~ In a l.
Proof. rewrite <- existsb_name. destruct (existsb (String.eqb a) l); split; intros; congruence. Qed.

(** one round of the loop *)
Lemma try_known defs name d st rest : known defs name d -> exists st', try_switches defs st (name :: rest) =
  match parse_switch d st (name :: rest) with Parsed st' args' => Went st' args' | Failed args' => Bad (switch_error d args') | NoMatch => st' end.
Proof.
  intros [before [after [-> [Hin Hno]]]]. exists (try_switches after st (name :: rest)). induction before as [|e before IH].
  - cbn [app try_switches]. destruct (parse_switch d st (name :: rest)); reflexivity.
  - cbn [app try_switches]. unfold parse_switch at 1. replace (existsb (String.eqb name) (sw_names e)) with false by (symmetry; apply existsb_name_false; apply Hno; left; reflexivity).
    apply IH. intros e' He'. apply Hno. right. exact He'.
Qed.
Lemma parse_known d st name rest : In name (sw_names d) -> parse_switch d st (name :: rest) =
  match sw_kind d with
  | KBool => Parsed (assign st (sw_id d) (ABool true)) rest
  | k => match rest with
         | [] => Failed []
         | v :: rest' => match convert k v with Ok x => Parsed (assign st (sw_id d) x) rest' | _ => Failed rest end
         end
  end.
Proof. intros H. unfold parse_switch. apply existsb_name in H. rewrite H. reflexivity. Qed.
Lemma find_known defs name : (exists d, known defs name d) \/ (forall d, In d defs -> ~ In name (sw_names d)).
Proof.
  induction defs as [|e defs IH]; [right; intros d []|]. destruct (in_dec string_dec name (sw_names e)) as [H|H].
  - left. exists e, [], defs. split; [reflexivity|]. split; [exact H|]. intros e' [].
  - destruct IH as [[d [b [a [E [H1 H2]]]]]|IH].
    + left. exists d, (e :: b), a. split; [rewrite E; reflexivity|]. split; [exact H1|]. intros e' [<-|He']; [exact H|apply H2; exact He'].
    + right. intros d [<-|Hd]; [exact H|apply IH; exact Hd].
Qed.
Lemma try_unknown defs name st rest : (forall d, In d defs -> ~ In name (sw_names d)) -> try_switches defs st (name :: rest) = Stuck.
Proof.
  induction defs as [|e defs IH]; intros H; [reflexivity|]. cbn [try_switches parse_switch].
  replace (existsb (String.eqb name) (sw_names e)) with false by (symmetry; apply existsb_name_false; apply H; left; reflexivity).
  apply IH. intros d Hd. apply H. right. exact Hd.
Qed.
Definition no_switch (defs : list switch) (args : list string) : Prop :=
  match args with [] => True | a :: _ => forall d, In d defs -> ~ In a (sw_names d) end.

Lemma loop_switches defs sw l : switches defs sw l -> forall rest, no_switch defs rest -> forall fuel st, (length (sw ++ rest) <= fuel)%nat ->
  switch_loop fuel defs st (sw ++ rest) = Ok (inl (assigns st l, rest)).
Proof.
  induction 1 as [|name d args l Hk Hb Hs IH|name value x d args l Hk Hb Hc Hs IH]; intros rest Hr fuel st Hf.
  - cbn [app] in *. destruct rest as [|a rest]; [destruct fuel; reflexivity|]. destruct fuel as [|fuel]; [cbn in Hf; lia|].
    cbn [switch_loop]. rewrite (try_unknown defs a st rest Hr). reflexivity.
  - cbn [app length] in Hf. destruct fuel as [|fuel]; [lia|]. cbn [app switch_loop]. destruct (try_known defs name d st (args ++ rest) Hk) as [x E].
    rewrite E. destruct Hk as [? [? [_ [Hin _]]]]. rewrite (parse_known d st name (args ++ rest) Hin), Hb. rewrite IH; [reflexivity|exact Hr|lia].
  - cbn [app length] in Hf. destruct fuel as [|fuel]; [lia|]. cbn [app switch_loop]. destruct (try_known defs name d st (value :: args ++ rest) Hk) as [y E].
    rewrite E. destruct Hk as [? [? [_ [Hin _]]]]. rewrite (parse_known d st name (value :: args ++ rest) Hin).
    apply C24_values in Hc. destruct (sw_kind d) eqn:K; [congruence|..]; rewrite Hc; (rewrite IH; [reflexivity|exact Hr|lia]).
Qed.

(** what the loop can end in *)
Lemma switch_error_nonempty d args : switch_error d args <> ""%string.
Proof.
  unfold switch_error. destruct args as [|a args]; [discriminate|]. destruct (String.eqb (sw_hint d) "") eqn:E; [discriminate|].
  apply String.eqb_neq in E. destruct (sw_hint d); [congruence|discriminate].
Qed.
Lemma loop_cases defs : forall fuel st args, (length args <= fuel)%nat ->
  (exists sw l rest, args = sw ++ rest /\ switches defs sw l /\ no_switch defs rest /\ switch_loop fuel defs st args = Ok (inl (assigns st l, rest)))
  \/ (exists msg st', switch_loop fuel defs st args = Ok (inr (msg, st')) /\ msg <> ""%string).
Proof.
  induction fuel as [|fuel IH]; intros st args Hf.
  - destruct args as [|a args]; [|cbn in Hf; lia]. left. exists [], [], []. split; [reflexivity|]. split; [constructor|]. split; [exact I|reflexivity].
  - destruct args as [|a args]; [left; exists [], [], []; split; [reflexivity|]; split; [constructor|]; split; [exact I|reflexivity]|].
    cbn [length] in Hf. destruct (find_known defs a) as [[d Hk]|Hu].
    + destruct (try_known defs a d st args Hk) as [y E]. assert (Hin : In a (sw_names d)) by (destruct Hk as [? [? [_ [H _]]]]; exact H).
      rewrite (parse_known d st a args Hin) in E. cbn [switch_loop]. destruct (sw_kind d) eqn:K.
      1: { rewrite E. destruct (IH (assign st (sw_id d) (ABool true)) args ltac:(lia)) as [[sw [l [rest [-> [H1 [H2 H3]]]]]]|H].
           - left. exists (a :: sw), ((sw_id d, ABool true) :: l), rest. split; [reflexivity|]. split; [constructor; assumption|]. split; [exact H2|exact H3].
           - right. exact H. }
      all: destruct args as [|v args];
        [rewrite E; right; eexists; eexists; split; [reflexivity|apply switch_error_nonempty]|];
        rewrite <- K in E; destruct (convert (sw_kind d) v) eqn:C; rewrite E;
        [|right; eexists; eexists; split; [reflexivity|apply switch_error_nonempty]..];
        cbn [length] in Hf; destruct (IH (assign st (sw_id d) a0) args ltac:(lia)) as [[sw [l [rest [-> [H1 [H2 H3]]]]]]|H];
        [left; exists (a :: v :: sw), ((sw_id d, a0) :: l), rest; split; [reflexivity|]; split; [apply switches_value; [exact Hk|congruence|apply C24_values; exact C|exact H1]|]; split; [exact H2|exact H3]
        |right; exact H].
    + left. exists [], [], (a :: args). split; [reflexivity|]. split; [constructor|]. split; [exact Hu|]. cbn [switch_loop]. rewrite (try_unknown defs a st args Hu). reflexivity.
Qed.
Lemma parse_pos_ok pos : forall args st, (length args <= length pos)%nat -> (forall p, In p (skipn (length args) pos) -> pa_optional p = true) ->
  parse_pos pos st args = inl (assigns st (pos_assigned pos args), []).
Proof.
  induction pos as [|p pos IH]; intros args st Hl Ho; destruct args as [|a args]; cbn [length] in Hl; try lia; [reflexivity|..].
  - cbn [length skipn] in Ho. cbn [parse_pos]. rewrite (Ho p) by (left; reflexivity).
    rewrite IH; [unfold pos_assigned; cbn [combine map]; destruct pos; reflexivity|cbn; lia|intros q Hq; apply Ho; right; exact Hq].
  - cbn [length skipn] in Ho. cbn [parse_pos]. rewrite IH; [reflexivity|lia|exact Ho].
Qed.
Lemma parse_pos_missing pos : forall args st, (length args <= length pos)%nat -> ~ (forall p, In p (skipn (length args) pos) -> pa_optional p = true) ->
  exists msg st', parse_pos pos st args = inr (msg, st') /\ msg <> ""%string.
Proof.
  induction pos as [|p pos IH]; intros args st Hl Ho; destruct args as [|a args]; cbn [length] in Hl; try lia.
  - exfalso. apply Ho. intros q [].
  - cbn [length skipn] in Ho. cbn [parse_pos]. destruct (pa_optional p) eqn:E.
    + apply IH; [cbn; lia|]. cbn [length skipn]. intros H. apply Ho. intros q [<-|Hq]; [exact E|apply H; exact Hq].
    + eexists. eexists. split; [reflexivity|discriminate].
  - cbn [length skipn] in Ho. cbn [parse_pos]. apply IH; [lia|exact Ho].
Qed.
Lemma optional_dec (l : list posarg) : (forall p, In p l -> pa_optional p = true) \/ ~ (forall p, In p l -> pa_optional p = true).
Proof.
  destruct (forallb pa_optional l) eqn:E; [left; apply forallb_forall; exact E|right; intros H]. apply forallb_forall in H. congruence.
Qed.

(** ** C24 *)
(** The outcome of parsing in both directions: a well-formed command line is accepted and
    makes exactly its assignments; anything else is refused with a message. *)
Theorem C24_accepts defs pos st args l : well_formed defs pos args l ->
  exists st', get_args defs pos st args = Ok (true, ""%string, st') /\ holds st l st'.
Proof.
  intros [sw [p [l1 [-> [Hs [[Hp1 [Hp2 Hp3]] ->]]]]]]. exists (assigns st (l1 ++ pos_assigned pos p)). split; [|apply assigns_holds].
  unfold get_args. rewrite (loop_switches defs sw l1 Hs p Hp3 _ st (le_n _)). cbn [bind].
  replace (length pos <? length p)%nat with false by lia. rewrite (parse_pos_ok pos p _ Hp1 Hp2), assigns_app. reflexivity.
Qed.
Theorem C24_refuses defs pos st args : (forall l, ~ well_formed defs pos args l) ->
  exists msg st', get_args defs pos st args = Ok (false, msg, st') /\ msg <> ""%string.
Proof.
  intros H. unfold get_args. destruct (loop_cases defs (length args) st args (le_n _)) as [[sw [l [rest [E [Hs [Hn Hl]]]]]]|[msg [st' [E Hm]]]].
  - rewrite Hl. cbn [bind]. destruct (length pos <? length rest)%nat eqn:L; [eexists; eexists; split; [reflexivity|discriminate]|].
    destruct (optional_dec (skipn (length rest) pos)) as [O|O].
    + exfalso. apply (H (l ++ pos_assigned pos rest)). exists sw, rest, l. split; [exact E|]. split; [exact Hs|]. split; [|reflexivity].
      split; [lia|]. split; [exact O|exact Hn].
    + destruct (parse_pos_missing pos rest (assigns st l) ltac:(lia) O) as [msg [st' [E' Hm]]]. rewrite E'. eexists. eexists. split; [reflexivity|exact Hm].
  - rewrite E. cbn [bind]. eexists. eexists. split; [reflexivity|exact Hm].
Qed.
(** Hence parsing succeeds exactly for well-formed command lines, which can be read in
    only one way as far as the variables are concerned. *)
Theorem C24_exactly defs pos st args : (exists msg st', get_args defs pos st args = Ok (true, msg, st')) <-> (exists l, well_formed defs pos args l).
Proof.
  split.
  - intros [msg [st' E]]. destruct (loop_cases defs (length args) st args (le_n _)) as [[sw [l [rest [Ea [Hs [Hn Hl]]]]]]|[m [s [E' Hm]]]].
    + unfold get_args in E. rewrite Hl in E. cbn [bind] in E. destruct (length pos <? length rest)%nat eqn:L; [discriminate|].
      destruct (optional_dec (skipn (length rest) pos)) as [O|O].
      * exists (l ++ pos_assigned pos rest), sw, rest, l. split; [exact Ea|]. split; [exact Hs|]. split; [|reflexivity]. split; [lia|]. split; [exact O|exact Hn].
      * destruct (parse_pos_missing pos rest (assigns st l) ltac:(lia) O) as [m [s [E' Hm]]]. rewrite E' in E. discriminate.
    + unfold get_args in E. rewrite E' in E. discriminate.
  - intros [l H]. destruct (C24_accepts defs pos st args l H) as [st' [E _]]. exists ""%string, st'. exact E.
Qed.
(** sub-commands *)
Lemma find_sub_command subs name d : find_sub subs name = Some d <-> sub_command subs name d.
Proof.
  assert (F : forall subs, find_sub subs name = None -> forall d', ~ In (name, d') subs).
  { clear. induction subs as [|[n d0] subs IH]; intros H d'; [intros []|]. cbn [find_sub] in H. destruct (find_sub subs name) as [d1|] eqn:E; [discriminate|].
    destruct (String.eqb_spec n name) as [->|N]; [discriminate|]. intros [K|K]; [injection K as -> _; congruence|exact (IH eq_refl d' K)]. }
  induction subs as [|[n d0] subs IH]; cbn [find_sub].
  - split; [discriminate|]. intros [b [a [E _]]]. destruct b; discriminate.
  - split.
    + intros H. destruct (find_sub subs name) as [d1|] eqn:E.
      * injection H as ->. destruct (proj1 IH eq_refl) as [b [a [-> K]]]. exists ((n, d0) :: b), a. split; [reflexivity|exact K].
      * destruct (String.eqb_spec n name) as [->|N]; [|discriminate]. injection H as ->. exists [], subs. split; [reflexivity|]. apply F. exact E.
    + intros [b [a [E K]]]. destruct b as [|e b].
      * injection E as -> -> ->. destruct (find_sub a name) as [d1|] eqn:E1; [|rewrite String.eqb_refl; reflexivity].
        exfalso. clear - E1 K. induction a as [|[n d0] a IH]; [discriminate|]. cbn [find_sub] in E1. destruct (find_sub a name) as [d2|] eqn:E2.
        -- apply IH; [exact E1|]. intros d' Hd. apply (K d'). right. exact Hd.
        -- destruct (String.eqb_spec n name) as [->|N]; [|discriminate]. apply (K d0). left. reflexivity.
      * injection E as <- ->. rewrite (proj2 IH); [reflexivity|]. exists b, a. split; [reflexivity|exact K].
Qed.
Theorem C24_sub_commands subs st args : (exists name msg st', sub_get_args subs st args = Ok (true, name, msg, st')) <->
  exists name rest defs pos l, args = name :: rest /\ sub_command subs name (defs, pos) /\ well_formed defs pos rest l.
Proof.
  split.
  - intros [n [msg [st' E]]]. destruct args as [|name rest]; [discriminate|]. cbn [sub_get_args] in E. destruct (find_sub subs name) as [[defs pos]|] eqn:F; [|discriminate].
    destruct (get_args defs pos st rest) as [[[ok m] s]| | | |] eqn:G; try discriminate. cbn [bind] in E. destruct ok; [|discriminate].
    assert (H : exists l, well_formed defs pos rest l) by (apply (proj1 (C24_exactly defs pos st rest)); exists m, s; exact G).
    destruct H as [l H]. exists name, rest, defs, pos, l. split; [reflexivity|]. split; [apply find_sub_command; exact F|exact H].
  - intros [name [rest [defs [pos [l [-> [F H]]]]]]]. apply find_sub_command in F. destruct (C24_accepts defs pos st rest l H) as [st' [E _]]. exists name, ""%string, st'. cbn [sub_get_args]. rewrite F, E. reflexivity.
Qed.
(** the variables after a sub-command *)
Theorem C24_sub_command_values subs st name rest defs pos l : sub_command subs name (defs, pos) -> well_formed defs pos rest l ->
  exists st', sub_get_args subs st (name :: rest) = Ok (true, name, ""%string, st') /\ holds st l st'.
Proof.
  intros F H. apply find_sub_command in F. destruct (C24_accepts defs pos st rest l H) as [st' [E Hh]]. exists st'. cbn [sub_get_args]. rewrite F, E. split; [reflexivity|exact Hh].
Qed.
Example C24_sub_example : let d1 := ([] : list switch, [mkPos 1 "file" false]) in let d2 := ([mkSwitch 0 KBool ["-v"%string] ""], [mkPos 1 "file" false]) in
  sub_command [("a", d1); ("b", d1); ("a", d2)]%string "a" d2 /\ well_formed (fst d2) (snd d2) ["-v"; "x"]%string [(0%nat, ABool true); (1%nat, AStr "x"%string)].
Proof.
  split.
  - eexists [_; _], []. split; [reflexivity|intros d' []].
  - exists ["-v"%string], ["x"%string], [(0%nat, ABool true)]. split; [reflexivity|]. split; [|split; [|reflexivity]].
    + apply (switches_flag _ "-v" (mkSwitch 0 KBool ["-v"%string] "")); [|reflexivity|constructor]. exists [], []. split; [reflexivity|]. split; [left; reflexivity|intros e []].
    + split; [cbn; lia|]. split; [intros p []|]. intros d [<-|[]] [E|[]]. discriminate.
Qed.

(** the switches of the programs are told apart by their names *)
Definition names_distinct (defs : list switch) : bool :=
  let l := flat_map sw_names defs in Nat.eqb (length (nodup string_dec l)) (length l).
Example C24_distinct_names : names_distinct ppm2pwg_switches = true /\ names_distinct bsplit_switches = true.
Proof. split; vm_compute; reflexivity. Qed.
Example C24_example : exists l,
  well_formed ppm2pwg_switches ppm2pwg_pos ["-d"; "-r"; "300"; "--format"; "urf"; "-r"; "600"; "in.ppm"; "-d"]%string l
  /\ last_assigned l 5 = Some (AInt 600) /\ last_assigned l 9 = None.
Proof.
  eexists. split.
  - exists ["-d"; "-r"; "300"; "--format"; "urf"; "-r"; "600"]%string, ["in.ppm"; "-d"]%string. eexists. split; [reflexivity|]. split; [|split; [|reflexivity]].
    + apply switches_flag with (d := nth 8 ppm2pwg_switches (mkSwitch 0 KBool [] "")); [|reflexivity|].
      * exists (firstn 8 ppm2pwg_switches), (skipn 9 ppm2pwg_switches). split; [reflexivity|]. split; [left; reflexivity|]. intros e He; repeat destruct He as [<-|He]; try destruct He; cbn; intros F; repeat destruct F as [F|F]; try discriminate F; exact F.
      * apply switches_value with (d := nth 5 ppm2pwg_switches (mkSwitch 0 KBool [] "")) (x := AInt 300); [|discriminate|apply C24_values; vm_compute; reflexivity|].
        { exists (firstn 5 ppm2pwg_switches), (skipn 6 ppm2pwg_switches). split; [reflexivity|]. split; [left; reflexivity|]. intros e He; repeat destruct He as [<-|He]; try destruct He; cbn; intros F; repeat destruct F as [F|F]; try discriminate F; exact F. }
        apply switches_value with (d := nth 2 ppm2pwg_switches (mkSwitch 0 KBool [] "")) (x := AInt 3); [|discriminate|apply C24_values; vm_compute; reflexivity|].
        { exists (firstn 2 ppm2pwg_switches), (skipn 3 ppm2pwg_switches). split; [reflexivity|]. split; [right; left; reflexivity|]. intros e He; repeat destruct He as [<-|He]; try destruct He; cbn; intros F; repeat destruct F as [F|F]; try discriminate F; exact F. }
        apply switches_value with (d := nth 5 ppm2pwg_switches (mkSwitch 0 KBool [] "")) (x := AInt 600); [|discriminate|apply C24_values; vm_compute; reflexivity|constructor].
        exists (firstn 5 ppm2pwg_switches), (skipn 6 ppm2pwg_switches). split; [reflexivity|]. split; [left; reflexivity|]. intros e He; repeat destruct He as [<-|He]; try destruct He; cbn; intros F; repeat destruct F as [F|F]; try discriminate F; exact F.
    + split; [cbn; lia|]. split; [intros p []|]. intros d Hd; repeat destruct Hd as [<-|Hd]; try destruct Hd; cbn; intros F; repeat destruct F as [F|F]; try discriminate F; exact F.
  - split; reflexivity.
Qed.

(** ** C55 *)
Lemma get_bytes_within n s : n <= Z.of_nat (length s) -> get_bytes n s = Ok (firstn (Z.to_nat n) s, skipn (Z.to_nat n) s).
Proof. intros H. unfold get_bytes. replace (n <=? Z.of_nat (length s)) with true by lia. reflexivity. Qed.
(** The pieces of a file at offset n, counted either way, add up to the file. *)
Theorem C55_pieces bts n : 0 <= n <= Z.of_nat (length bts) -> n < 2147483648 -> Z.of_nat (length bts) - n < 2147483648 ->
  exists head tail, bsplit_head bts n = Ok head /\ bsplit_tail bts (Z.of_nat (length bts) - n) = Ok tail
    /\ head ++ tail = bts /\ Z.of_nat (length head) = n.
Proof.
  intros Hn H1 H2. unfold bsplit_head, bsplit_tail, split_length. replace (n <? 0) with false by lia. replace (Z.of_nat (length bts) - n <? 0) with false by lia.
  unfold two64. rewrite !Z.mod_small by lia. replace (Z.of_nat (length bts) - (Z.of_nat (length bts) - n)) with n by lia.
  exists (firstn (Z.to_nat n) bts), (skipn (Z.to_nat n) bts).
  rewrite (get_bytes_within n bts) by lia. cbn [bind]. rewrite get_bytes_within by (rewrite skipn_length; lia). cbn [bind]. split; [reflexivity|].
  split; [f_equal; apply firstn_all2; rewrite skipn_length; lia|]. split; [apply firstn_skipn|rewrite firstn_length; lia].
Qed.
(** negative offsets count from the other end, for files below 2 GiB *)
Theorem C55_negative_partial bts n : Z.of_nat (length bts) < 2147483648 -> - Z.of_nat (length bts) <= n < 0 ->
  bsplit_head bts n = bsplit_head bts (Z.of_nat (length bts) + n) /\ bsplit_tail bts n = bsplit_tail bts (Z.of_nat (length bts) + n).
Proof.
  intros Hl Hn. assert (E : split_length (Z.of_nat (length bts)) n = split_length (Z.of_nat (length bts)) (Z.of_nat (length bts) + n)).
  { unfold split_length. replace (n <? 0) with true by lia. replace (Z.of_nat (length bts) + n <? 0) with false by lia.
    unfold two64, two32. rewrite (Z.mod_small _ 18446744073709551616) by lia. rewrite Z.mod_small by lia. unfold to_s32. replace (Z.of_nat (length bts) + n <? 2147483648) with true by lia. lia. }
  unfold bsplit_head, bsplit_tail. rewrite E. split; reflexivity.
Qed.
Lemma get_bytes_over n s : Z.of_nat (length s) < n -> get_bytes n s = Throw OutOfRange.
Proof. intros H. unfold get_bytes. replace (n <=? Z.of_nat (length s)) with false by lia. reflexivity. Qed.
(** offsets outside the file raise before anything is written *)
Theorem C55_refused bts n : Z.of_nat (length bts) < 2147483648 -> -2147483648 <= n < 2147483648 -> n < - Z.of_nat (length bts) \/ Z.of_nat (length bts) < n ->
  bsplit_head bts n = Throw OutOfRange /\ bsplit_tail bts n = Throw OutOfRange.
Proof.
  intros Hl Hr Hn. set (k := split_length (Z.of_nat (length bts)) n).
  assert (E : (k < 0 /\ -2147483648 <= k) \/ Z.of_nat (length bts) < k < 2147483648).
  { subst k. unfold split_length. destruct (n <? 0) eqn:E; [|lia]. left. unfold to_s32, two32, two64. destruct Hn as [Hn|Hn]; [|lia].
    replace ((Z.of_nat (length bts) + n) mod 18446744073709551616) with (Z.of_nat (length bts) + n + 18446744073709551616) by lia.
    destruct ((Z.of_nat (length bts) + n + 18446744073709551616) mod 4294967296 <? 2147483648) eqn:E2; lia. }
  unfold bsplit_head, bsplit_tail. fold k. clearbody k. cbv zeta. split.
  - rewrite get_bytes_over; [reflexivity|]. unfold two64. lia.
  - destruct E as [E|E].
    + destruct ((Z.of_nat (length bts) - k) mod two64 <=? Z.of_nat (length bts)) eqn:L; [unfold two64 in L; lia|]. rewrite get_bytes_over by lia. reflexivity.
    + rewrite get_bytes_over by (unfold two64; lia). reflexivity.
Qed.
(** In a file of 4 GiB and five bytes, all but the last three bytes are the first two. *)
Theorem C55_negative_large_refuted bts : Z.of_nat (length bts) = 4294967296 + 5 -> exists out, bsplit_head bts (-3) = Ok out /\ length out = 2%nat.
Proof.
  intros H. unfold bsplit_head. rewrite H. change (split_length (4294967296 + 5) (-3) mod two64) with 2. rewrite get_bytes_within by lia. cbn [bind].
  eexists. split; [reflexivity|]. rewrite firstn_length. lia.
Qed.
(** The whole program: with a well-formed command line giving only one of the options, it
    writes the piece asked for to the output file and nothing else. *)
Theorem C55_program files args i o bts n l : well_formed bsplit_switches bsplit_pos args l ->
  last_assigned l 0 = None -> last_assigned l 1 = Some (AInt n) -> last_assigned l 2 = None -> last_assigned l 3 = Some (AStr i) ->
  last_assigned l 4 = Some (AStr o) -> files i = Some bts ->
  bsplit files args = let! out := bsplit_head bts n in Ok (0, Some (o, out)).
Proof.
  intros H H0 H1 H2 H3 H4 Hf. destruct (C24_accepts _ _ bsplit_init args l H) as [st [E Hst]]. unfold bsplit. rewrite E. cbn [bind].
  destruct (Hst 0%nat) as [V0 _]. destruct (Hst 1%nat) as [V1 S1]. destruct (Hst 2%nat) as [_ S2]. destruct (Hst 3%nat) as [V3 _]. destruct (Hst 4%nat) as [V4 _].
  rewrite V0, V1, V3, V4, S1, S2, H0, H1, H2, H3, H4. cbn [as_bool as_str as_int bsplit_init a_val a_set negb Bool.eqb]. rewrite Hf. reflexivity.
Qed.
Theorem C55_program_tail files args i o bts n l : well_formed bsplit_switches bsplit_pos args l ->
  last_assigned l 0 = None -> last_assigned l 1 = None -> last_assigned l 2 = Some (AInt n) -> last_assigned l 3 = Some (AStr i) ->
  last_assigned l 4 = Some (AStr o) -> files i = Some bts ->
  bsplit files args = let! out := bsplit_tail bts n in Ok (0, Some (o, out)).
Proof.
  intros H H0 H1 H2 H3 H4 Hf. destruct (C24_accepts _ _ bsplit_init args l H) as [st [E Hst]]. unfold bsplit. rewrite E. cbn [bind].
  destruct (Hst 0%nat) as [V0 _]. destruct (Hst 1%nat) as [_ S1]. destruct (Hst 2%nat) as [V2 S2]. destruct (Hst 3%nat) as [V3 _]. destruct (Hst 4%nat) as [V4 _].
  rewrite V0, V2, V3, V4, S1, S2, H0, H1, H2, H3, H4. cbn [as_bool as_str as_int bsplit_init a_val a_set negb Bool.eqb]. rewrite Hf. reflexivity.
Qed.
(** Unless exactly one of the options is given, and unless the command line is well formed
    and the input file can be read, nothing is written. *)
Theorem C55_nothing files args l : well_formed bsplit_switches bsplit_pos args l ->
  (last_assigned l 1 = None <-> last_assigned l 2 = None) \/ last_assigned l 0 <> None \/ (forall i, last_assigned l 3 = Some (AStr i) -> files i = None) ->
  exists code, bsplit files args = Ok (code, None) /\ (last_assigned l 0 = None -> code = 1).
Proof.
  intros H Hc. destruct (C24_accepts _ _ bsplit_init args l H) as [st [E Hst]]. unfold bsplit. rewrite E. cbn [bind].
  destruct (Hst 0%nat) as [V0 _]. destruct (Hst 1%nat) as [_ S1]. destruct (Hst 2%nat) as [_ S2]. destruct (Hst 3%nat) as [V3 _].
  assert (F0 : last_assigned l 0 = None \/ last_assigned l 0 = Some (ABool true)).
  { destruct H as [sw [p [l1 [_ [Hs [[Hl _] ->]]]]]]. clear - Hs Hl.
    assert (F : forall l, (forall v, In (0%nat, v) l -> v = ABool true) -> last_assigned l 0 = None \/ last_assigned l 0 = Some (ABool true)).
    { clear. induction l as [|[j v] l IH]; intros H; [left; reflexivity|]. cbn [last_assigned]. destruct IH as [-> | ->]; [intros w Hw; apply H; right; exact Hw| |right; reflexivity].
      destruct j as [|j]; [|left; reflexivity]. right. cbn. f_equal. apply H. left. reflexivity. }
    apply F. intros v Hv. apply in_app_or in Hv. destruct Hv as [Hv|Hv].
    - induction Hs as [|name d args l Hk Hb Hs IH|name value x d args l Hk Hb Hc Hs IH]; [destruct Hv|..].
      + destruct Hv as [Ev|Hv]; [injection Ev as _ <-; reflexivity|exact (IH Hv)].
      + destruct Hv as [Ev|Hv]; [|exact (IH Hv)]. injection Ev as E0 _. destruct Hk as [b [a [Ed _]]].
        assert (Hd : In d bsplit_switches) by (rewrite Ed; apply in_or_app; right; left; reflexivity).
        repeat destruct Hd as [<-|Hd]; try destruct Hd; cbn in E0, Hb; congruence.
    - exfalso. unfold pos_assigned, bsplit_pos in Hv. destruct p as [|a [|b [|c p]]]; cbn in Hv, Hl; try lia; repeat destruct Hv as [Hv|Hv]; try discriminate Hv; try destruct Hv. }
  rewrite V0. destruct F0 as [F0|F0]; rewrite F0; cbn [as_bool bsplit_init a_val].
  2: { exists 0. split; [reflexivity|discriminate]. }
  exists 1. split; [|reflexivity]. cbn [negb]. rewrite V3.
  destruct (files _) as [bts|] eqn:Ef; [|reflexivity]. rewrite S1, S2. destruct Hc as [Hc|[Hc|Hc]]; [|congruence|].
  - destruct (last_assigned l 1), (last_assigned l 2); try reflexivity; destruct Hc as [Hc1 Hc2]; [discriminate (Hc2 eq_refl)|discriminate (Hc1 eq_refl)].
  - exfalso. assert (K : exists i, last_assigned l 3 = Some (AStr i)).
    { destruct H as [sw [p [l1 [_ [Hs [[Hl [Ho _]] ->]]]]]]. clear - Hs Hl Ho.
      destruct p as [|a [|b [|c p]]]; cbn in Hl; try lia.
      - specialize (Ho (mkPos 3 "input file" false)). cbn in Ho. discriminate Ho. left. reflexivity.
      - specialize (Ho (mkPos 4 "output file" false)). cbn in Ho. discriminate Ho. left. reflexivity.
      - exists a. induction l1 as [|[j v] l1 IH]; [reflexivity|]. cbn [app last_assigned].
        assert (G : forall l : list (nat * aval), last_assigned (l ++ pos_assigned bsplit_pos [a; b]) 3 = Some (AStr a)) by (clear; induction l as [|[j v] l IH]; [reflexivity|]; cbn [app last_assigned]; rewrite IH; reflexivity).
        rewrite G. reflexivity. }
    destruct K as [i K]. rewrite K in Ef. cbn in Ef. rewrite (Hc i K) in Ef. discriminate.
Qed.
Theorem C55_bad_command_line files args : (forall l, ~ well_formed bsplit_switches bsplit_pos args l) -> exists code, bsplit files args = Ok (code, None).
Proof.
  intros H. destruct (C24_refuses _ _ bsplit_init args H) as [msg [st [E _]]]. unfold bsplit. rewrite E. cbn [bind negb]. destruct (as_bool _); eexists; reflexivity.
Qed.
Example C55_neither : let f := bytes_of_string "Hello world" in
  bsplit (fun n => if String.eqb n "a" then Some f else None) ["a"; "b"]%string = Ok (1, None)
  /\ bsplit (fun n => if String.eqb n "a" then Some f else None) ["--head"; "1"; "--tail"; "2"; "a"; "b"]%string = Ok (1, None).
Proof. vm_compute. auto. Qed.
Example C55_example : let f := bytes_of_string "Hello world" in
  bsplit (fun n => if String.eqb n "a" then Some f else None) ["--head"; "5"; "a"; "b"]%string = Ok (0, Some ("b"%string, bytes_of_string "Hello"))
  /\ bsplit (fun n => if String.eqb n "a" then Some f else None) ["--tail"; "-5"; "a"; "b"]%string = Ok (0, Some ("b"%string, bytes_of_string " world"))
  /\ bsplit (fun n => if String.eqb n "a" then Some f else None) ["--tail"; "12"; "a"; "b"]%string = Throw OutOfRange.
Proof. vm_compute. auto. Qed.

Print Assumptions C24_accepts.
Print Assumptions C24_refuses.
Print Assumptions C24_exactly.
Print Assumptions C24_sub_commands.
Print Assumptions C24_sub_command_values.
Print Assumptions C24_values.
Print Assumptions C55_nothing.
Print Assumptions C55_bad_command_line.
Print Assumptions C55_pieces.
Print Assumptions C55_negative_partial.
Print Assumptions C55_refused.
Print Assumptions C55_negative_large_refuted.
Print Assumptions C55_program.
Print Assumptions C55_program_tail.
