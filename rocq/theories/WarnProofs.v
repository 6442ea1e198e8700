(** Reading a message with what is written: the message is the same; the text ends in a brace. *)
From Verif Require Import Base BaseLemmas MapModel IppModel JsonModel SettingsModel WarnModel.
Local Open Scope Z_scope.

Lemma decode_loop_w_snd fuel : forall m g attrs s, snd (decode_loop_w fuel m g attrs s) = decode_loop fuel m g attrs s.
Proof.
  induction fuel as [|fuel IH]; intros m g attrs s; destruct s as [|t s]; try reflexivity. cbn [decode_loop_w decode_loop].
  destruct (Zb t <=? tUnsupportedAttrs).
  - cbv zeta. destruct (Zb t =? tEndAttrs); [reflexivity|]. rewrite <- IH. destruct (decode_loop_w _ _ _ _ _). reflexivity.
  - destruct (consumeAttribute attrs (t :: s)) as [[a r]| | | |]; try reflexivity. cbn [bind]. apply IH.
Qed.
Lemma decodeMsg_w_snd s : snd (decodeMsg_w s) = decodeMsg s.
Proof.
  unfold decodeMsg_w, decodeMsg. destruct (get_u8 s) as [[maj s1]| | | |]; try reflexivity. cbn [bind]. destruct (get_u8 s1) as [[min s2]| | | |]; try reflexivity. cbn [bind].
  destruct (get_u16 s2) as [[op s3]| | | |]; try reflexivity. cbn [bind]. destruct (get_u32 s3) as [[id s4]| | | |]; try reflexivity. cbn [bind]. apply decode_loop_w_snd.
Qed.

(** nothing, or a text that ends in a brace *)
Definition braced (w : list byte) : Prop := w = [] \/ exists x, w = x ++ [bZ 125].
Lemma braced_app a b : braced a -> braced b -> braced (a ++ b).
Proof. intros [->|[x ->]] [->|[y ->]]; [left; reflexivity|right; exists y; reflexivity|right; exists x; rewrite app_nil_r; reflexivity|right; eexists; rewrite app_assoc; reflexivity]. Qed.
Lemma warned_braced g attrs : braced (warned g attrs).
Proof.
  unfold warned. destruct (_ =? _); [|left; reflexivity]. right. unfold unsupported_warning, attrsToJSON. cbn [dump].
  change (bytes_of_string "}") with [bZ 125]. eexists. rewrite !app_assoc. reflexivity.
Qed.
Lemma decode_loop_w_braced fuel : forall m g attrs s, braced (fst (decode_loop_w fuel m g attrs s)).
Proof.
  induction fuel as [|fuel IH]; intros m g attrs s; destruct s as [|t s]; try (left; reflexivity). cbn [decode_loop_w].
  destruct (Zb t <=? tUnsupportedAttrs).
  - cbv zeta. destruct (Zb t =? tEndAttrs); [apply warned_braced|]. specialize (IH (store_group m g attrs) (Zb t) [] s). destruct (decode_loop_w _ _ _ _ _). cbn [fst] in *. apply braced_app; [apply warned_braced|exact IH].
  - destruct (consumeAttribute attrs (t :: s)) as [[a r]| | | |]; try (left; reflexivity). apply IH.
Qed.
Lemma decodeMsg_w_braced s : braced (fst (decodeMsg_w s)).
Proof.
  unfold decodeMsg_w. destruct (get_u8 s) as [[maj s1]| | | |]; try (left; reflexivity). cbn [bind]. destruct (get_u8 s1) as [[min s2]| | | |]; try (left; reflexivity). cbn [bind].
  destruct (get_u16 s2) as [[op s3]| | | |]; try (left; reflexivity). cbn [bind]. destruct (get_u32 s3) as [[id s4]| | | |]; try (left; reflexivity). cbn [bind]. apply decode_loop_w_braced.
Qed.
