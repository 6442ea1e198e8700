(** RFC 8010 (IPP/1.1 encoding and transport): what an encoded message is, written
    without reference to the model of lib/ippmsg.cpp.  Values are those of IppModel. *)
From Verif Require Import Base MapModel IppModel.
Local Open Scope Z_scope.

(** RFC 8010 3.1.4, 3.1.5: a value-tag, a name (empty for an additional value) and a value *)
Record item := mkItem { i_tag : Z; i_name : list byte; i_value : list byte }.
Definition blen (l : list byte) : Z := Z.of_nat (length l).
Definition item_bytes (i : item) : list byte :=
  bZ (i_tag i) :: be16 (blen (i_name i)) ++ i_name i ++ be16 (blen (i_value i)) ++ i_value i.
(** nothing is cut off: tag and lengths fit their fields *)
Definition item_fits (i : item) : Prop :=
  0 <= i_tag i < 256 /\ blen (i_name i) < 65536 /\ blen (i_value i) < 65536.

(** RFC 8010 3.9: the octets of a value that is not a collection *)
Definition scalar_bytes (v : ipp_value) : list byte :=
  match v with
  | VStr s => bytes_of_string s
  | VInt z => be32 z
  | VBool b => [bZ (if b then 1 else 0)]
  | VRange lo hi => be32 lo ++ be32 hi
  | VRes x y u => be32 x ++ be32 y ++ [bZ u]
  | VDate d => be16 (d_year d) ++ map bZ [d_month d; d_day d; d_hour d; d_minutes d; d_seconds d; d_deciSeconds d;
                                          d_plusMinus d; d_utcHOffset d; d_utcMOffset d]
  | VSet _ | VColl _ => []
  end.

(** RFC 8010 3.1.4-3.1.6: the items of an attribute; only the first has its name.  A
    collection is a begCollection item, then for each member a memberAttrName item and
    the items of its values, and an endCollection item. *)
Fixpoint attr_items (name : string) (t : Z) (v : ipp_value) {struct v} : list item :=
  match v with
  | VSet l =>
      match l with
      | [] => []
      | w :: l' => attr_items name t w ++ flat_map (attr_items "" t) l'
      end
  | VColl m =>
      mkItem 0x34 (bytes_of_string name) []
      :: flat_map (fun e => mkItem 0x4A [] (bytes_of_string (fst e))
                            :: attr_items "" (fst (snd e)) (snd (snd e))) m
      ++ [mkItem 0x37 [] []]
  | _ => [mkItem t (bytes_of_string name) (scalar_bytes v)]
  end.

(** Values of the types of the C++ members: int is 32 bits wide, and so on. *)
Definition s32_ok (z : Z) : bool := (-2147483648 <=? z) && (z <? 2147483648).
Definition u32_ok (z : Z) : bool := (0 <=? z) && (z <? 4294967296).
Definition u16_ok (z : Z) : bool := (0 <=? z) && (z <? 65536).
Definition u8_ok (z : Z) : bool := (0 <=? z) && (z <? 256).
Definition str_ok (s : string) : bool := Z.of_nat (String.length s) <? 65536.
Definition date_ok (d : ipp_date) : bool :=
  u16_ok (d_year d) && forallb u8_ok [d_month d; d_day d; d_hour d; d_minutes d; d_seconds d; d_deciSeconds d;
                                      d_plusMinus d; d_utcHOffset d; d_utcMOffset d].
(** RFC 8010 3.5.2: which tags carry which syntax *)
Definition str_tags : list Z := [0x30; 0x35; 0x36; 0x41; 0x42; 0x44; 0x45; 0x46; 0x47; 0x48; 0x49].
Definition scalar_ok (t : Z) (v : ipp_value) : bool :=
  match v with
  | VStr s => existsb (Z.eqb t) str_tags && str_ok s
  | VInt z => ((t =? 0x21) || (t =? 0x23)) && s32_ok z
  | VBool _ => t =? 0x22
  | VRange lo hi => (t =? 0x33) && s32_ok lo && s32_ok hi
  | VRes x y u => (t =? 0x32) && u32_ok x && u32_ok y && u8_ok u
  | VDate d => (t =? 0x31) && date_ok d
  | VSet _ | VColl _ => false
  end.
Fixpoint keys_sorted {A} (m : list (string * A)) : bool :=
  match m with
  | [] => true
  | (k, _) :: m' => forallb (fun e => match String.compare k (fst e) with Lt => true | _ => false end) m' && keys_sorted m'
  end.
(** An attribute (a tag and one value, or a set of at least two values) is well formed.
    [set]: a set is allowed; there are no sets of sets. *)
Fixpoint wf_val (set : bool) (t : Z) (v : ipp_value) {struct v} : bool :=
  match v with
  | VSet l => set && (2 <=? Z.of_nat (length l)) && forallb (wf_val false t) l
  | VColl m =>
      (t =? 0x34) && keys_sorted m
      && forallb (fun e => str_ok (fst e) && wf_val true (fst (snd e)) (snd (snd e))) m
  | _ => scalar_ok t v
  end.
Definition wf_attr (a : ipp_attr) : bool := wf_val true (fst a) (snd a).
(** a group of attributes: names that are not empty *)
Definition wf_attrs (m : ipp_attrs) : bool :=
  keys_sorted m && forallb (fun e => negb (String.eqb (fst e) "") && str_ok (fst e) && wf_attr (snd e)) m.
Definition wf_msg (m : ipp_msg) : bool :=
  u16_ok (m_opOrStatus m) && u8_ok (m_majVsn m) && u8_ok (m_minVsn m)
  && wf_attrs (m_opAttrs m) && forallb wf_attrs (m_jobAttrs m) && wf_attrs (m_printerAttrs m).

(** all strings and names are short enough for their 16-bit length fields *)
Fixpoint lengths_ok (v : ipp_value) : bool :=
  match v with
  | VStr s => str_ok s
  | VSet l => forallb lengths_ok l
  | VColl m => forallb (fun e => str_ok (fst e) && lengths_ok (snd (snd e))) m
  | _ => true
  end.
Definition attrs_lengths_ok (m : list (string * ipp_attr)) : bool :=
  forallb (fun e => str_ok (fst e) && lengths_ok (snd (snd e))) m.
Definition msg_lengths_ok (m : ipp_msg) : bool :=
  attrs_lengths_ok (m_opAttrs m) && forallb attrs_lengths_ok (m_jobAttrs m) && attrs_lengths_ok (m_printerAttrs m).

(** RFC 8011 4.1.4, 4.1.5: the order of the first operation attributes *)
Definition op_rank (name : string) : nat :=
  if String.eqb name "attributes-charset" then 0
  else if String.eqb name "attributes-natural-language" then 1
  else if String.eqb name "printer-uri" then 2
  else if String.eqb name "job-id" then 3
  else if String.eqb name "requesting-user-name" then 4
  else 5.
(** [l] is the same attributes, the ones with lower rank first *)
Fixpoint rank_sorted (l : list (string * ipp_attr)) : Prop :=
  match l with
  | [] => True
  | e :: l' => Forall (fun e' => (op_rank (fst e) <= op_rank (fst e'))%nat) l' /\ rank_sorted l'
  end.

Definition group_items (l : list (string * ipp_attr)) : list item :=
  flat_map (fun e => attr_items (fst e) (fst (snd e)) (snd (snd e))) l.
Definition group_bytes (l : list (string * ipp_attr)) : list byte := flat_map item_bytes (group_items l).
Definition nonempty {A} (l : list A) : bool := match l with [] => false | _ => true end.
(** RFC 8010 3.1.1: the whole message, given the operation attributes in the order in
    which they are sent *)
Definition msg_bytes (id : Z) (m : ipp_msg) (ops : list (string * ipp_attr)) : list byte :=
  [bZ (m_majVsn m); bZ (m_minVsn m)] ++ be16 (m_opOrStatus m) ++ be32 id
  ++ [bZ 1] ++ group_bytes ops
  ++ flat_map (fun g => bZ 2 :: group_bytes g) (filter nonempty (m_jobAttrs m))
  ++ flat_map (fun g => bZ 4 :: group_bytes g) (filter nonempty [m_printerAttrs m])
  ++ [bZ 3].
