(** C60, C102 to C104 ask something of the JSON parser ([parser_for]).  One parser meets
    that for every value, so no theorem is about an empty set of parsers. *)
From Verif Require Import Base BaseLemmas StringModel IppModel JsonModel JsonSpec SettingsModel SettingsProofs SettingsProperties DumpProofs ClientModel SavedSpec.
From Coq Require Import Lia.

(** It accepts what json11 writes and nothing else. *)
Definition reference (t : list byte) : option json :=
  match read (S (length t)) t with
  | Some (j, []) => if list_eq_dec ascii_dec (dump j) t then Some j else None
  | _ => None
  end.

Lemma in_list (x : list byte) l : In x l -> (length x <= length (dump_list l))%nat.
Proof.
  induction l as [|y l IH]; intros H; [destruct H|]. destruct l as [|z l].
  - destruct H as [<-|[]]. cbn. lia.
  - change (dump_list (y :: z :: l)) with (y ++ bytes_of_string ", " ++ dump_list (z :: l)). rewrite !app_length. destruct H as [<-|H]; [lia|]. specialize (IH H). lia.
Qed.
Lemma deepest {A} (f : A -> nat) l b : (forall x, In x l -> (f x <= b)%nat) -> (fold_right (fun x n => Nat.max (f x) n) O l <= b)%nat.
Proof. induction l as [|x l IH]; intros H; cbn; [lia|]. pose proof (H x (or_introl eq_refl)). specialize (IH (fun y h => H y (or_intror h))). lia. Qed.
Lemma depth_dump j : (depth j <= length (dump j))%nat.
Proof.
  induction j as [j Ha Ho|l IH|m IH] using json_ind2.
  - destruct j as [|s|z|b|l|m]; try (cbn [depth]; lia); [destruct (Ha l eq_refl)|destruct (Ho m eq_refl)].
  - cbn [depth dump]. rewrite !app_length. change (length (bytes_of_string "[")) with 1%nat. change (length (bytes_of_string "]")) with 1%nat.
    assert (fold_right (fun x n => Nat.max (depth x) n) O l <= length (dump_list (map dump l)))%nat; [|lia].
    apply deepest. intros x H. rewrite Forall_forall in IH. specialize (IH x H). pose proof (in_list (dump x) (map dump l) (in_map _ _ _ H)). lia.
  - cbn [depth dump]. rewrite !app_length. change (length (bytes_of_string "{")) with 1%nat. change (length (bytes_of_string "}")) with 1%nat.
    match goal with |- (S ?a <= 1 + (length ?b + 1))%nat => assert (a <= length b)%nat; [|lia] end.
    apply (deepest (fun e => depth (snd e))). intros x H. rewrite Forall_forall in IH. specialize (IH x H).
    match goal with |- (_ <= length (dump_list (map ?f m)))%nat => pose proof (in_list (f x) (map f m) (in_map _ _ _ H)) as L end.
    cbv beta in L. rewrite !app_length in L. lia.
Qed.

Theorem C60_parser : exists parse, forall j, parser_for parse j.
Proof.
  exists reference. intros j. split.
  - intros t x H. unfold reference in H. destruct (read (S (length t)) t) as [[y [|c r]]|]; try discriminate. destruct (list_eq_dec ascii_dec (dump y) t) as [<-|]; [|discriminate]. apply json_text_dump.
  - unfold reference. pose proof (depth_dump j) as D. pose proof (read_dump j (S (length (dump j))) [] ltac:(lia) I) as R. rewrite app_nil_r in R. rewrite R.
    destruct (list_eq_dec ascii_dec (dump j) (dump j)); [reflexivity|contradiction].
Qed.
(** and with it any history of commands is within C104 *)
Theorem C104_parser : exists parse : list byte -> string + json, forall e l, e_parse e = parse -> reads_saved e l.
Proof.
  destruct C60_parser as [p H]. exists (fun b => match p b with Some j => inr j | None => inl "no"%string end). intros e l E c j _ _.
  destruct (H (settings_json j)) as [H1 H2]. split.
  - intros t x X. unfold parse_opt in X. rewrite E in X. apply (H1 t x). destruct (p t); [congruence|discriminate].
  - unfold parse_opt. rewrite E. rewrite H2. reflexivity.
Qed.

Print Assumptions C60_parser.
Print Assumptions C104_parser.
