(** lib/ippattr.cpp: attributes to and from JSON values.  A json11::Json is the tree it
    represents; json11 itself (a submodule) is not modelled. *)
From Verif Require Import Base MapModel StringModel IppModel.
Local Open Scope Z_scope.

(** json11::Json as far as it is used; an object is a std::map. *)
Inductive json := JNull | JStr (s : string) | JInt (z : Z) | JBool (b : bool) | JArr (l : list json) | JObj (m : list (string * json)).

(** Json::int_value: 0 if it is not a number *)
Definition int_value (j : json) : Z := match j with JInt z => z | _ => 0 end.
(** std::map::at *)
Definition json_at (k : string) (m : list (string * json)) : outcome json :=
  match map_get k m with Some j => Ok j | None => Throw OutOfRange end.

(** std::setfill('0') << std::setw(w) *)
Fixpoint zeros (n : nat) : string := match n with O => EmptyString | S n' => String "0" (zeros n') end.
Definition padded (w : nat) (z : Z) : string :=
  let s := dec_string z in String.append (zeros (w - String.length s)) s.
(** IppDateTime::toStr: ippattr.cpp:70-81; plusMinus, a uint8_t, is written as a character *)
Definition date_str (d : ipp_date) : string :=
  fold_right String.append ""%string
    [ padded 4 (d_year d); "-"; padded 2 (d_month d); "-"; padded 2 (d_day d); "T"; padded 2 (d_hour d); ":";
      padded 2 (d_minutes d); ":"; padded 2 (d_seconds d); "."; padded 3 (d_deciSeconds d * 100); " GMT";
      String (bZ (d_plusMinus d)) ""; padded 2 (d_utcHOffset d); padded 2 (d_utcMOffset d) ]%string.

(** IppAttr::valueToJSON and IppAttr::toJSON: ippattr.cpp:166-169, 221-268 with the
    toJSON of ranges (27-30), resolutions (51-54; (int) of a uint32_t) and dates (89-92) *)
Fixpoint valueToJSON (v : ipp_value) : json :=
  match v with
  | VStr s => JStr s
  | VInt z => JInt z
  | VBool b => JBool b
  | VRange lo hi => JObj [("high", JInt hi); ("low", JInt lo)]%string
  | VRes x y u => JObj [("units", JInt u); ("x", JInt (to_s32 x)); ("y", JInt (to_s32 y))]%string
  | VDate d => JStr (date_str d)
  | VSet l => JArr (map valueToJSON l)
  | VColl m => JObj (map (fun e => (fst e, JObj [("tag", JInt (fst (snd e))); ("value", valueToJSON (snd (snd e)))]%string)) m)
  end.
Definition attrToJSON (a : ipp_attr) : json := JObj [("tag", JInt (fst a)); ("value", valueToJSON (snd a))]%string.
(** IppAttrs::toJSON: ippattr.cpp:340-348 *)
Definition attrsToJSON (m : ipp_attrs) : json := JObj (map (fun e => (fst e, attrToJSON (snd e))) m).

(** IppAttr::valuefromJSON and IppAttr::fromJSON: ippattr.cpp:160-164, 171-219 with the
    fromJSON of ranges (22-25), resolutions (44-49) and dates (83-87).  object_items() of
    anything but an object is empty. *)
Fixpoint valuefromJSON (tag : Z) (j : json) {struct j} : outcome ipp_value :=
  match j with
  | JStr s => Ok (VStr s)
  | JInt z => Ok (VInt z)
  | JBool b => Ok (VBool b)
  | JArr l =>
      let! vs := (fix each l :=
        match l with
        | [] => Ok []
        | x :: l' =>
            let! v := valuefromJSON tag x in
            let! vs := each l' in
            Ok (v :: vs)
        end) l in
      Ok (VSet vs)
  | JObj m =>
      if tag =? tIntegerRange then
        let! low := json_at "low" m in
        let! high := json_at "high" m in
        Ok (VRange (int_value low) (int_value high))
      else if tag =? tResolution then
        let! x := json_at "x" m in
        let! y := json_at "y" m in
        let! units := json_at "units" m in
        Ok (VRes (int_value x mod two32) (int_value y mod two32) (int_value units mod two8))
      else if tag =? tDateTime then Ok (VDate default_date)
      else if tag =? tBeginCollection then
        let! c := (fix each m (acc : ipp_attrs) :=
          match m with
          | [] => Ok acc
          | (k, x) :: m' =>
              let! a :=
                (match x with
                 | JObj o =>
                     let! t := json_at "tag" o in
                     let t := int_value t mod two8 in
                     let! v := (fix value o :=
                       match o with
                       | [] => Throw OutOfRange
                       | (k', y) :: o' => if String.eqb "value" k' then valuefromJSON t y else value o'
                       end) o in
                     Ok (t, v)
                 | _ => Throw OutOfRange
                 end) in
              each m' (map_set k a acc)
          end) m [] in
        Ok (VColl c)
      else Throw LogicError
  | JNull => Throw LogicError
  end.
Definition attrfromJSON (j : json) : outcome ipp_attr :=
  let m := match j with JObj m => m | _ => [] end in
  let! t := json_at "tag" m in
  let t := int_value t mod two8 in
  let! x := json_at "value" m in
  let! v := valuefromJSON t x in
  Ok (t, v).
(** IppAttrs::fromJSON: ippattr.cpp:330-338 *)
Fixpoint attrsfromJSON (m : list (string * json)) (acc : ipp_attrs) : outcome ipp_attrs :=
  match m with
  | [] => Ok acc
  | (k, x) :: m' =>
      let! a := attrfromJSON x in
      attrsfromJSON m' (map_set k a acc)
  end.
