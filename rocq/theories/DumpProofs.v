(** The text json11 writes determines the value: a reader for it. *)
From Verif Require Import Base BaseLemmas StringModel IppModel JsonModel PpmSpec PpmProofs JsonSpec SettingsModel SettingsProofs.
From Coq Require Import Lia ZifyBool ZifyNat.
Local Open Scope Z_scope.

Definition unhex (c : byte) : Z := let z := Zb c in if z <? 58 then z - 48 else z - 87.
(** the characters of a string up to the closing quote *)
Fixpoint read_chars (fuel : nat) (l : list byte) : option (list byte * list byte) :=
  match fuel with
  | O => None
  | S f =>
      let push c x := match x with Some (s, r) => Some (c ++ s, r) | None => None end in
      match l with
      | [] => None
      | c :: l1 =>
          if Zb c =? 34 then Some ([], l1)
          else if Zb c =? 92 then
            match l1 with
            | [] => None
            | d :: l2 =>
                let z := Zb d in
                if z =? 98 then push [bZ 8] (read_chars f l2)
                else if z =? 102 then push [bZ 12] (read_chars f l2)
                else if z =? 110 then push [bZ 10] (read_chars f l2)
                else if z =? 114 then push [bZ 13] (read_chars f l2)
                else if z =? 116 then push [bZ 9] (read_chars f l2)
                else if z =? 117 then
                  match l2 with
                  | a :: _ :: x :: y :: l3 =>
                      if Zb a =? 48 then push [bZ (16 * unhex x + unhex y)] (read_chars f l3)
                      else push [bZ 0xe2; bZ 0x80; bZ (if Zb y =? 56 then 0xa8 else 0xa9)] (read_chars f l3)
                  | _ => None
                  end
                else push [d] (read_chars f l2)
            end
          else push [c] (read_chars f l1)
      end
  end.
Lemma unhex_digit z : 0 <= z < 16 -> unhex (hex_digit z) = z.
Proof.
  intros H. unfold unhex, hex_digit. destruct (Z.ltb_spec z 10); rewrite Zb_bZ_small by lia.
  - destruct (Z.ltb_spec (48 + z) 58); lia.
  - destruct (Z.ltb_spec (87 + z) 58); lia.
Qed.
Lemma bZ_of c z : Zb c = z -> bZ z = c.
Proof. intros <-. apply bZ_Zb. Qed.
Definition escaped (d : byte) : Z :=
  let z := Zb d in if z =? 98 then 8 else if z =? 102 then 12 else if z =? 110 then 10 else if z =? 114 then 13 else if z =? 116 then 9 else z.
Lemma read_escape f d l s r : Zb d <> 117 -> read_chars f l = Some (s, r) -> read_chars (S f) (bZ 92 :: d :: l) = Some (bZ (escaped d) :: s, r).
Proof.
  intros N H. cbn [read_chars]. change (Zb (bZ 92) =? 34) with false. change (Zb (bZ 92) =? 92) with true. cbv iota. cbv zeta. unfold escaped. rewrite H.
  destruct (Zb d =? 98); [reflexivity|]. destruct (Zb d =? 102); [reflexivity|]. destruct (Zb d =? 110); [reflexivity|]. destruct (Zb d =? 114); [reflexivity|]. destruct (Zb d =? 116); [reflexivity|].
  destruct (Z.eqb_spec (Zb d) 117); [contradiction|]. rewrite bZ_Zb. reflexivity.
Qed.
Lemma read_control f x y l s r : read_chars f l = Some (s, r) -> read_chars (S f) (bZ 92 :: bZ 117 :: bZ 48 :: bZ 48 :: x :: y :: l) = Some (bZ (16 * unhex x + unhex y) :: s, r).
Proof. intros H. cbn [read_chars]. change (Zb (bZ 92) =? 34) with false. change (Zb (bZ 92) =? 92) with true. cbv iota zeta. change (Zb (bZ 117)) with 117. cbn [Z.eqb Pos.eqb]. change (Zb (bZ 48)) with 48. cbn [Z.eqb Pos.eqb]. rewrite H. reflexivity. Qed.
Lemma read_separator f y l s r : read_chars f l = Some (s, r) -> read_chars (S f) (bZ 92 :: bZ 117 :: bZ 50 :: bZ 48 :: bZ 50 :: y :: l) = Some (bZ 0xe2 :: bZ 0x80 :: bZ (if Zb y =? 56 then 0xa8 else 0xa9) :: s, r).
Proof. intros H. cbn [read_chars]. change (Zb (bZ 92) =? 34) with false. change (Zb (bZ 92) =? 92) with true. cbv iota zeta. change (Zb (bZ 117)) with 117. cbn [Z.eqb Pos.eqb]. change (Zb (bZ 50)) with 50. cbn [Z.eqb Pos.eqb]. rewrite H. reflexivity. Qed.
Lemma read_plain f c l s r : Zb c <> 34 -> Zb c <> 92 -> read_chars f l = Some (s, r) -> read_chars (S f) (c :: l) = Some (c :: s, r).
Proof. intros N1 N2 H. cbn [read_chars]. destruct (Z.eqb_spec (Zb c) 34); [contradiction|]. destruct (Z.eqb_spec (Zb c) 92); [contradiction|]. cbv zeta. rewrite H. reflexivity. Qed.
Lemma read_chars_dump n : forall s r fuel, (length s <= n)%nat -> (length (dump_chars s) < fuel)%nat -> read_chars fuel (dump_chars s ++ bZ 34 :: r) = Some (s, r).
Proof.
  induction n as [|n IH]; intros s r [|fuel] Hn Hf; try lia.
  - destruct s as [|c s]; [reflexivity|cbn in Hn; lia].
  - destruct s as [|c s]; [reflexivity|]. cbn [length] in Hn. cbn [dump_chars] in *.
    assert (Esc : forall z (d : ascii), Zb c = z -> Zb d <> 117 -> escaped d = z -> (length ([bZ 92; d] ++ dump_chars s) < S fuel)%nat -> read_chars (S fuel) (([bZ 92; d] ++ dump_chars s) ++ bZ 34 :: r) = Some (c :: s, r)).
    { intros z d E N E' L. cbn [app length] in *. rewrite (read_escape fuel d _ s r N); [rewrite E', (bZ_of c z E); reflexivity|]. apply IH; lia. }
    destruct (Z.eqb_spec (Zb c) 92) as [E|N1]; [apply (Esc _ (bZ 92) E); [discriminate|reflexivity|exact Hf]|].
    destruct (Z.eqb_spec (Zb c) 34) as [E|N2]; [apply (Esc _ (bZ 34) E); [discriminate|reflexivity|exact Hf]|].
    destruct (Z.eqb_spec (Zb c) 8) as [E|_]; [apply (Esc _ (bZ 98) E); [discriminate|reflexivity|exact Hf]|].
    destruct (Z.eqb_spec (Zb c) 12) as [E|_]; [apply (Esc _ (bZ 102) E); [discriminate|reflexivity|exact Hf]|].
    destruct (Z.eqb_spec (Zb c) 10) as [E|_]; [apply (Esc _ (bZ 110) E); [discriminate|reflexivity|exact Hf]|].
    destruct (Z.eqb_spec (Zb c) 13) as [E|_]; [apply (Esc _ (bZ 114) E); [discriminate|reflexivity|exact Hf]|].
    destruct (Z.eqb_spec (Zb c) 9) as [E|_]; [apply (Esc _ (bZ 116) E); [discriminate|reflexivity|exact Hf]|].
    clear Esc. destruct (Z.leb_spec (Zb c) 31) as [L|L].
    + change (bytes_of_string "\u00") with [bZ 92; bZ 117; bZ 48; bZ 48] in *. cbn [app length] in *. rewrite (read_control fuel _ _ _ s r); [|apply IH; lia].
      pose proof (Zb_range c). rewrite !unhex_digit by lia. do 3 f_equal. apply bZ_of. lia.
    + assert (Pl : (length (c :: dump_chars s) < S fuel)%nat -> read_chars (S fuel) ((c :: dump_chars s) ++ bZ 34 :: r) = Some (c :: s, r)).
      { intros Hl. cbn [app length] in *. apply read_plain; [exact N2|exact N1|]. apply IH; lia. }
      destruct s as [|d [|e s]]; [exact (Pl Hf)|exact (Pl Hf)|].
      destruct ((Zb c =? 0xe2) && (Zb d =? 0x80) && (Zb e =? 0xa8)) eqn:E1; [|destruct ((Zb c =? 0xe2) && (Zb d =? 0x80) && (Zb e =? 0xa9)) eqn:E2; [|exact (Pl Hf)]]; clear Pl; cbn [length] in Hn.
      * change (bytes_of_string "\u2028") with [bZ 92; bZ 117; bZ 50; bZ 48; bZ 50; bZ 56] in *. cbn [app length] in *. rewrite (read_separator fuel _ _ s r); [|apply IH; lia].
        change (Zb (bZ 56) =? 56) with true. cbv iota. do 2 f_equal. rewrite (bZ_of c), (bZ_of d), (bZ_of e) by lia. reflexivity.
      * change (bytes_of_string "\u2029") with [bZ 92; bZ 117; bZ 50; bZ 48; bZ 50; bZ 57] in *. cbn [app length] in *. rewrite (read_separator fuel _ _ s r); [|apply IH; lia].
        change (Zb (bZ 57) =? 56) with false. cbv iota. do 2 f_equal. rewrite (bZ_of c), (bZ_of d), (bZ_of e) by lia. reflexivity.
Qed.

(** numbers *)
Fixpoint read_digits (acc : Z) (l : list byte) : Z * list byte :=
  match l with
  | c :: l' => if (48 <=? Zb c) && (Zb c <=? 57) then read_digits (10 * acc + (Zb c - 48)) l' else (acc, l)
  | [] => (acc, [])
  end.
Definition no_digit (l : list byte) : Prop := match l with c :: _ => ~ 48 <= Zb c <= 57 | [] => True end.
Lemma read_digits_stop acc l : no_digit l -> read_digits acc l = (acc, l).
Proof. destruct l as [|c l]; [reflexivity|]. cbn [no_digit read_digits]. intros H. destruct (Z.leb_spec 48 (Zb c)); destruct (Z.leb_spec (Zb c) 57); cbn [andb]; try reflexivity. lia. Qed.
Lemma read_digits_number l v : number l v -> forall r, read_digits 0 (l ++ r) = read_digits v r.
Proof.
  induction 1 as [d Hd|l v d H IH Hd]; intros r.
  - cbn [app read_digits]. rewrite Zb_bZ_small by lia. destruct (Z.leb_spec 48 (48 + d)); [|lia]. destruct (Z.leb_spec (48 + d) 57); [|lia]. cbn [andb]. f_equal. lia.
  - rewrite <- app_assoc, IH. cbn [app read_digits]. rewrite Zb_bZ_small by lia. destruct (Z.leb_spec 48 (48 + d)); [|lia]. destruct (Z.leb_spec (48 + d) 57); [|lia]. cbn [andb]. f_equal. lia.
Qed.
Lemma read_dec z r : 0 <= z -> no_digit r -> read_digits 0 (bytes_of_string (dec_string z) ++ r) = (z, r).
Proof. intros Hz Hr. rewrite (read_digits_number _ z (dec_string_number z Hz)). apply read_digits_stop. exact Hr. Qed.

(** values *)
Fixpoint read (fuel : nat) (l : list byte) : option (json * list byte) :=
  match fuel with
  | O => None
  | S f =>
      let elements := fix elements (n : nat) (l : list byte) : option (list json * list byte) :=
        match n with
        | O => None
        | S n =>
            match read f l with
            | Some (v, c :: l1) =>
                if Zb c =? 93 then Some ([v], l1)
                else match elements n (tl l1) with Some (vs, r) => Some (v :: vs, r) | None => None end
            | _ => None
            end
        end in
      let members := fix members (n : nat) (l : list byte) : option (list (string * json) * list byte) :=
        match n with
        | O => None
        | S n =>
            match read_chars (S (length l)) (tl l) with
            | Some (k, l0) =>
                match read f (tl (tl l0)) with
                | Some (v, c :: l1) =>
                    if Zb c =? 125 then Some ([(string_of_bytes k, v)], l1)
                    else match members n (tl l1) with Some (vs, r) => Some ((string_of_bytes k, v) :: vs, r) | None => None end
                | _ => None
                end
            | None => None
            end
        end in
      match l with
      | [] => None
      | c :: l1 =>
          let z := Zb c in
          if z =? 110 then Some (JNull, skipn 3 l1)
          else if z =? 116 then Some (JBool true, skipn 3 l1)
          else if z =? 102 then Some (JBool false, skipn 4 l1)
          else if z =? 34 then match read_chars (S (length l1)) l1 with Some (s, r) => Some (JStr (string_of_bytes s), r) | None => None end
          else if z =? 45 then let (n, r) := read_digits 0 l1 in Some (JInt (- n), r)
          else if z =? 91 then
            match l1 with
            | c :: l2 => if Zb c =? 93 then Some (JArr [], l2) else match elements (length l) l1 with Some (vs, r) => Some (JArr vs, r) | None => None end
            | [] => None
            end
          else if z =? 123 then
            match l1 with
            | c :: l2 => if Zb c =? 125 then Some (JObj [], l2) else match members (length l) l1 with Some (vs, r) => Some (JObj vs, r) | None => None end
            | [] => None
            end
          else let (n, r) := read_digits 0 l in Some (JInt n, r)
      end
  end.
Lemma string_back s : string_of_bytes (bytes_of_string s) = s.
Proof. induction s as [|c s IH]; [reflexivity|]. cbn. f_equal. exact IH. Qed.
Fixpoint depth (j : json) : nat :=
  match j with
  | JArr l => S (fold_right (fun x n => Nat.max (depth x) n) O l)
  | JObj m => S (fold_right (fun e n => Nat.max (depth (snd e)) n) O m)
  | _ => O
  end.
Lemma dump_first j : exists c l, dump j = c :: l /\ Zb c <> 93 /\ Zb c <> 125.
Proof.
  destruct j as [|s|z|[|]|l|m]; try (eexists; eexists; split; [reflexivity|]; split; discriminate).
  cbn [dump]. unfold dump_int. destruct (Z.ltb_spec z 0) as [L|L]; [eexists; eexists; split; [reflexivity|]; split; discriminate|].
  destruct (jint_dec z L) as [E|[c [l [E [H _]]]]]; rewrite E; eexists; eexists; (split; [reflexivity|]).
  - split; discriminate.
  - lia.
Qed.
Definition starts (t : list byte) : Prop := exists c l, t = c :: l /\ Zb c <> 93 /\ Zb c <> 125.
Lemma all_first l : Forall starts (map dump l).
Proof. apply Forall_forall. intros t H. apply in_map_iff in H. destruct H as [j [<- _]]. apply dump_first. Qed.
Lemma dump_list_first l : l <> [] -> Forall starts l -> starts (dump_list l).
Proof.
  intros N H. destruct l as [|x l]; [contradiction|]. inversion H as [|? ? [c [t [E [N1 N2]]]] F]; subst.
  destruct l as [|y l]; (eexists; eexists; split; [reflexivity|]; split; assumption).
Qed.
Lemma dump_list_long l : Forall starts l -> (length l <= length (dump_list l))%nat.
Proof.
  induction 1 as [|x l [c [t [E _]]] H IH]; [cbn; lia|]. subst x. destruct l as [|y l]; [cbn; lia|].
  change (dump_list ((c :: t) :: y :: l)) with ((c :: t) ++ bytes_of_string ", " ++ dump_list (y :: l)). rewrite !app_length. cbn [length] in *. lia.
Qed.
Lemma depth_elements l fuel : (depth (JArr l) < S fuel)%nat -> Forall (fun j => (depth j < fuel)%nat) l.
Proof. cbn [depth]. induction l as [|x l IH]; intros H; [constructor|]. cbn [fold_right] in H. constructor; [lia|]. apply IH. lia. Qed.
Lemma depth_members m fuel : (depth (JObj m) < S fuel)%nat -> Forall (fun e : string * json => (depth (snd e) < fuel)%nat) m.
Proof. cbn [depth]. induction m as [|x l IH]; intros H; [constructor|]. cbn [fold_right] in H. constructor; [lia|]. apply IH. lia. Qed.
Lemma read_dump j : forall fuel r, (depth j < fuel)%nat -> no_digit r -> read fuel (dump j ++ r) = Some (j, r).
Proof.
  induction j as [j Ha Ho|l IH|m IH] using json_ind2; intros [|fuel] r Hf Hr; try lia.
  - destruct j as [|s|z|[|]|l|m]; try (exfalso; eapply Ha; reflexivity); try (exfalso; eapply Ho; reflexivity); try reflexivity.
    + cbn [dump]. unfold dump_string. cbn [map app]. rewrite <- app_assoc. cbn [app]. cbn [read]. change (Zb (bZ 34)) with 34. cbn [Z.eqb Pos.eqb].
      rewrite (read_chars_dump (length (bytes_of_string s))); [rewrite string_back; reflexivity|lia|rewrite app_length; lia].
    + cbn [dump]. unfold dump_int. destruct (Z.ltb_spec z 0) as [L|L].
      * change (bytes_of_string (String "-" (dec_string (- z)))) with (bZ 45 :: bytes_of_string (dec_string (- z))). cbn [app read]. change (Zb (bZ 45)) with 45. cbn [Z.eqb Pos.eqb]. rewrite read_dec by (lia || assumption). f_equal. f_equal. f_equal. lia.
      * assert (E : exists c l, bytes_of_string (dec_string z) = c :: l /\ 48 <= Zb c <= 57). { destruct (jint_dec z L) as [E|[c [l [E [H _]]]]]; rewrite E; eexists; eexists; (split; [reflexivity|]); [cbn; lia|lia]. }
        destruct E as [c [l [E H]]]. pose proof (read_dec z r L Hr) as R. rewrite E in *. cbn [app read] in *. cbv zeta.
        destruct (Z.eqb_spec (Zb c) 110); [lia|]. destruct (Z.eqb_spec (Zb c) 116); [lia|]. destruct (Z.eqb_spec (Zb c) 102); [lia|]. destruct (Z.eqb_spec (Zb c) 34); [lia|]. destruct (Z.eqb_spec (Zb c) 45); [lia|].
        destruct (Z.eqb_spec (Zb c) 91); [lia|]. destruct (Z.eqb_spec (Zb c) 123); [lia|]. rewrite R. reflexivity.
  - cbn [dump]. change (bytes_of_string "[") with [bZ 91]. change (bytes_of_string "]") with [bZ 93]. destruct l as [|x l]; [reflexivity|].
    rewrite <- !app_assoc. cbn [app]. cbn [read]. change (Zb (bZ 91)) with 91. cbn [Z.eqb Pos.eqb].
    set (els := fix elements (n : nat) (l : list byte) : option (list json * list byte) := _).
    assert (E : forall xs n, xs <> [] -> Forall (fun j => forall fuel r, (depth j < fuel)%nat -> no_digit r -> read fuel (dump j ++ r) = Some (j, r)) xs -> Forall (fun j => (depth j < fuel)%nat) xs -> (length xs <= n)%nat -> els n (dump_list (map dump xs) ++ bZ 93 :: r) = Some (xs, r)).
    { induction xs as [|y xs IHx]; intros [|n] N Hx Hd L; try contradiction; try (cbn in L; lia). inversion Hx as [|? ? X1 X2]; subst. inversion Hd as [|? ? D1 D2]; subst. cbn [map]. destruct xs as [|y' xs].
      - cbn [map dump_list els]. rewrite X1; [|exact D1|cbn; lia]. reflexivity.
      - change (dump_list (dump y :: map dump (y' :: xs))) with (dump y ++ bytes_of_string ", " ++ dump_list (map dump (y' :: xs))). rewrite <- !app_assoc. change (bytes_of_string ", ") with [bZ 44; bZ 32]. cbn [els app]. rewrite X1; [|exact D1|cbn; lia].
        change (Zb (bZ 44) =? 93) with false. cbv iota. cbn [tl]. fold els. rewrite IHx; [reflexivity|discriminate|exact X2|exact D2|cbn [length] in *; lia]. }
    destruct (dump_list_first (map dump (x :: l))) as [c [l' [E1 [E2 _]]]]; [discriminate|apply all_first|].
    pose proof (dump_list_long (map dump (x :: l)) (all_first _)) as Len. rewrite map_length in Len.
    assert (R : els (length (bZ 91 :: dump_list (map dump (x :: l)) ++ bZ 93 :: r)) (dump_list (map dump (x :: l)) ++ bZ 93 :: r) = Some (x :: l, r)).
    { apply E; [discriminate|exact IH|apply depth_elements; exact Hf|]. cbn [length] in *. rewrite app_length. lia. }
    rewrite E1 in *. cbn [app] in *. destruct (Z.eqb_spec (Zb c) 93); [contradiction|]. rewrite R. reflexivity.
  - cbn [dump]. change (bytes_of_string "{") with [bZ 123]. change (bytes_of_string "}") with [bZ 125]. destruct m as [|x m]; [reflexivity|].
    rewrite <- !app_assoc. cbn [app]. cbn [read]. change (Zb (bZ 123)) with 123. cbn [Z.eqb Pos.eqb].
    set (mem := fix members (n : nat) (l : list byte) : option (list (string * json) * list byte) := _).
    set (one := fun e : string * json => dump_string (fst e) ++ bytes_of_string ": " ++ dump (snd e)).
    assert (E : forall xs n, xs <> [] -> Forall (fun e : string * json => forall fuel r, (depth (snd e) < fuel)%nat -> no_digit r -> read fuel (dump (snd e) ++ r) = Some (snd e, r)) xs -> Forall (fun e : string * json => (depth (snd e) < fuel)%nat) xs -> (length xs <= n)%nat -> mem n (dump_list (map one xs) ++ bZ 125 :: r) = Some (xs, r)).
    { assert (Key : forall k l, read_chars (S (length (dump_string k ++ l))) (tl (dump_string k ++ l)) = Some (bytes_of_string k, l)).
      { intros k l. unfold dump_string. cbn [map app tl]. rewrite <- app_assoc. cbn [app]. apply (read_chars_dump (length (bytes_of_string k))); [lia|]. cbn [length]. rewrite app_length. lia. }
      induction xs as [|[k v] xs IHx]; intros [|n] N Hx Hd L; try contradiction; try (cbn in L; lia). inversion Hx as [|? ? X1 X2]; subst. inversion Hd as [|? ? D1 D2]; subst. cbn [map fst snd] in *. destruct xs as [|y' xs].
      - cbn [map dump_list mem]. unfold one. cbn [fst snd]. rewrite <- !app_assoc. rewrite Key. rewrite string_back. change (bytes_of_string ": ") with [bZ 58; bZ 32]. cbn [app tl]. rewrite X1; [|exact D1|cbn; lia]. reflexivity.
      - change (dump_list (one (k, v) :: map one (y' :: xs))) with (one (k, v) ++ bytes_of_string ", " ++ dump_list (map one (y' :: xs))). unfold one at 1. cbn [fst snd]. rewrite <- !app_assoc. cbn [mem]. rewrite Key. rewrite string_back.
        change (bytes_of_string ": ") with [bZ 58; bZ 32]. change (bytes_of_string ", ") with [bZ 44; bZ 32]. cbn [app tl]. rewrite X1; [|exact D1|cbn; lia].
        change (Zb (bZ 44) =? 125) with false. cbv iota. cbn [tl]. fold mem. rewrite IHx; [reflexivity|discriminate|exact X2|exact D2|cbn [length] in *; lia]. }
    assert (F : Forall starts (map one (x :: m))). { apply Forall_forall. intros t H. apply in_map_iff in H. destruct H as [e [<- _]]. eexists; eexists; split; [reflexivity|]. split; discriminate. }
    destruct (dump_list_first (map one (x :: m))) as [c [l' [E1 [_ E2]]]]; [discriminate|exact F|].
    pose proof (dump_list_long (map one (x :: m)) F) as Len. rewrite map_length in Len.
    assert (R : mem (length (bZ 123 :: dump_list (map one (x :: m)) ++ bZ 125 :: r)) (dump_list (map one (x :: m)) ++ bZ 125 :: r) = Some (x :: m, r)).
    { apply E; [discriminate|exact IH|apply depth_members; exact Hf|]. cbn [length] in *. rewrite app_length. lia. }
    change (fun e : string * json => dump_string (fst e) ++ [bZ 58; bZ 32] ++ dump (snd e)) with one in *. fold one.
    rewrite E1 in *. cbn [app] in *. destruct (Z.eqb_spec (Zb c) 125); [contradiction|]. rewrite R. reflexivity.
Qed.
(** the text followed by anything that does not start with a digit determines the value *)
Theorem dump_determines j j' r r' : no_digit r -> no_digit r' -> dump j ++ r = dump j' ++ r' -> j = j' /\ r = r'.
Proof.
  intros N N' E. pose proof (read_dump j (S (Nat.max (depth j) (depth j'))) r ltac:(lia) N) as R. pose proof (read_dump j' (S (Nat.max (depth j) (depth j'))) r' ltac:(lia) N') as R'.
  rewrite E in R. rewrite R' in R. injection R as -> ->. split; reflexivity.
Qed.
