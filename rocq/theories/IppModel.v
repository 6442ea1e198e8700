(** lib/ippattr.h (values), lib/ippmsg.{h,cpp}: IppMsg encoding and decoding. *)
From Verif Require Import Base MapModel.
Local Open Scope Z_scope.

(** IppTag: ippattr.h:21-49.  A tag is its uint8_t value (the enumeration has a fixed
    underlying type, so that every byte is a valid IppTag). *)
Definition tOpAttrs : Z := 0x01.
Definition tJobAttrs : Z := 0x02.
Definition tEndAttrs : Z := 0x03.
Definition tPrinterAttrs : Z := 0x04.
Definition tUnsupportedAttrs : Z := 0x05.
Definition tInteger : Z := 0x21.
Definition tBoolean : Z := 0x22.
Definition tEnum : Z := 0x23.
Definition tOctetString : Z := 0x30.
Definition tDateTime : Z := 0x31.
Definition tResolution : Z := 0x32.
Definition tIntegerRange : Z := 0x33.
Definition tBeginCollection : Z := 0x34.
Definition tTextWithLanguage : Z := 0x35.
Definition tNameWithLanguage : Z := 0x36.
Definition tEndCollection : Z := 0x37.
Definition tTextWithoutLanguage : Z := 0x41.
Definition tNameWithoutLanguage : Z := 0x42.
Definition tKeyword : Z := 0x44.
Definition tUri : Z := 0x45.
Definition tUriScheme : Z := 0x46.
Definition tCharset : Z := 0x47.
Definition tNaturalLanguage : Z := 0x48.
Definition tMimeMediaType : Z := 0x49.
Definition tMemberName : Z := 0x4A.

(** IppDateTime: ippattr.h:81-98 *)
Record ipp_date := mkDate {
  d_year : Z; d_month : Z; d_day : Z; d_hour : Z; d_minutes : Z; d_seconds : Z;
  d_deciSeconds : Z; d_plusMinus : Z; d_utcHOffset : Z; d_utcMOffset : Z }.
(** its member initialisers; plusMinus is a plus sign *)
Definition default_date : ipp_date := mkDate 0 0 0 0 0 0 0 43 0 0.

(** IppValue: ippattr.h:100-102 (std::variant); IppOneSetOf is a list of values,
    IppCollection a std::map from names to IppAttr, an IppAttr a tag and a value
    (ippattr.h:104-138). *)
Inductive ipp_value :=
| VStr (s : string)
| VInt (z : Z)
| VBool (b : bool)
| VRange (low high : Z)
| VRes (x y units : Z)
| VDate (d : ipp_date)
| VSet (l : list ipp_value)
| VColl (m : list (string * (Z * ipp_value))).
Definition ipp_attr : Type := Z * ipp_value.
Definition ipp_attrs := smap ipp_attr.

(** IppMsg's members: ippmsg.h:71-80 *)
Record ipp_msg := mkMsg {
  m_opOrStatus : Z; m_majVsn : Z; m_minVsn : Z;
  m_opAttrs : ipp_attrs; m_jobAttrs : list ipp_attrs; m_printerAttrs : ipp_attrs }.
(** ippmsg.h:71-78 *)
Definition empty_msg : ipp_msg := mkMsg 0 1 1 [] [] [].
(** ippmsg.cpp:55-62 *)
Definition new_msg (op : Z) (opAttrs jobAttrs printerAttrs : ipp_attrs) : ipp_msg :=
  mkMsg op 1 1 opAttrs [jobAttrs] printerAttrs.
(** ippmsg.cpp:108-111 *)
Definition setOpAttr (m : ipp_msg) (name : string) (a : ipp_attr) : ipp_msg :=
  mkMsg (m_opOrStatus m) (m_majVsn m) (m_minVsn m) (map_insert name a (m_opAttrs m)) (m_jobAttrs m) (m_printerAttrs m).
(** ippmsg.cpp:113-117 *)
Definition setVersion (m : ipp_msg) (maj min : Z) : ipp_msg :=
  mkMsg (m_opOrStatus m) maj min (m_opAttrs m) (m_jobAttrs m) (m_printerAttrs m).
(** ippmsg.cpp:119-131; [user] is getenv("USER") *)
Definition baseOpAttrs (user : option string) (url : string) : ipp_attrs :=
  let name := match user with Some u => u | None => "anonymous"%string end in
  [ ("attributes-charset", (tCharset, VStr "utf-8"));
    ("attributes-natural-language", (tNaturalLanguage, VStr "en-us"));
    ("printer-uri", (tUri, VStr url));
    ("requesting-user-name", (tNameWithoutLanguage, VStr name)) ]%string.

(** ** Encoding *)

(** the string case labels of encodeValue, ippmsg.cpp:419-429 *)
Definition string_tag (t : Z) : bool :=
  existsb (Z.eqb t) [tOctetString; tTextWithLanguage; tNameWithLanguage; tTextWithoutLanguage; tNameWithoutLanguage;
                     tKeyword; tUri; tUriScheme; tCharset; tNaturalLanguage; tMimeMediaType].

Definition enc_u8 (z : Z) : list byte := [bZ z].
(** "msg << (uint16_t)name.length() << name": the length modulo 2^16, all the bytes *)
Definition enc_str (s : string) : list byte := be16 (Z.of_nat (String.length s)) ++ bytes_of_string s.
(** ippmsg.cpp:391-393 *)
Definition enc_date (d : ipp_date) : list byte :=
  be16 11 ++ be16 (d_year d) ++ enc_u8 (d_month d) ++ enc_u8 (d_day d) ++ enc_u8 (d_hour d) ++ enc_u8 (d_minutes d)
  ++ enc_u8 (d_seconds d) ++ enc_u8 (d_deciSeconds d) ++ enc_u8 (d_plusMinus d) ++ enc_u8 (d_utcHOffset d)
  ++ enc_u8 (d_utcMOffset d).

(** the further values of a set: ippmsg.cpp:354-358; [enc] is encodeValue *)
Definition encodeMoreWith (enc : ipp_value -> outcome (list byte)) (t : Z) :=
  fix more (l : list ipp_value) : outcome (list byte) :=
    match l with
    | [] => Ok []
    | w :: l' =>
        let! b := enc w in
        let! r := more l' in
        Ok (enc_u8 t ++ be16 0 ++ b ++ r)
    end.

(** encodeValue (ippmsg.cpp:366-440) together with encodeAttribute for the members of a
    collection (ippmsg.cpp:339-364 with subCollection = true).  The result is what is
    appended to the message; std::get of a wrong alternative throws
    std::bad_variant_access, List::takeFront of an empty list std::logic_error. *)
Fixpoint encodeValue (tag : Z) (v : ipp_value) {struct v} : outcome (list byte) :=
  if (tag =? tOpAttrs) || (tag =? tJobAttrs) || (tag =? tEndAttrs) || (tag =? tPrinterAttrs) then Throw LogicError
  else if (tag =? tInteger) || (tag =? tEnum) then
    match v with VInt z => Ok (be16 4 ++ be32 z) | _ => Throw BadVariant end
  else if tag =? tBoolean then
    match v with VBool b => Ok (be16 1 ++ enc_u8 (if b then 1 else 0)) | _ => Throw BadVariant end
  else if tag =? tDateTime then
    match v with VDate d => Ok (enc_date d) | _ => Throw BadVariant end
  else if tag =? tResolution then
    match v with VRes x y u => Ok (be16 9 ++ be32 x ++ be32 y ++ enc_u8 u) | _ => Throw BadVariant end
  else if tag =? tIntegerRange then
    match v with VRange lo hi => Ok (be16 8 ++ be32 lo ++ be32 hi) | _ => Throw BadVariant end
  else if tag =? tBeginCollection then
    match v with
    | VColl m =>
        let! body := (fix members m :=
          match m with
          | [] => Ok []
          | (name, (t, w)) :: m' =>
              let! val :=
                (match w with
                 | VSet [] => Throw LogicError
                 | VSet (w0 :: l) =>
                     let! first := encodeValue t w0 in
                     let! rest := encodeMoreWith (encodeValue t) t l in
                     Ok (first ++ rest)
                 | _ => encodeValue t w
                 end) in
              let! rest := members m' in
              Ok (enc_u8 tMemberName ++ be16 0 ++ enc_str name ++ enc_u8 t ++ be16 0 ++ val ++ rest)
          end) m in
        Ok (be16 0 ++ body ++ enc_u8 tEndCollection ++ be16 0 ++ be16 0)
    | _ => Throw BadVariant
    end
  else if string_tag tag then
    match v with VStr s => Ok (enc_str s) | _ => Throw BadVariant end
  else Throw LogicError.

(** ippmsg.cpp:350-363: the values of an attribute, without its tag and name *)
Definition encodeValues (a : ipp_attr) : outcome (list byte) :=
  match snd a with
  | VSet [] => Throw LogicError
  | VSet (w :: l) =>
      let! first := encodeValue (fst a) w in
      let! rest := encodeMoreWith (encodeValue (fst a)) (fst a) l in
      Ok (first ++ rest)
  | w => encodeValue (fst a) w
  end.
(** encodeAttribute: ippmsg.cpp:339-364 (not as a member of a collection) *)
Definition encodeAttribute (name : string) (a : ipp_attr) : outcome (list byte) :=
  let! b := encodeValues a in
  Ok (enc_u8 (fst a) ++ enc_str name ++ b).
(** encodeAttributes: ippmsg.cpp:331-337 *)
Fixpoint encodeAttributes (m : ipp_attrs) : outcome (list byte) :=
  match m with
  | [] => Ok []
  | (name, a) :: m' =>
      let! b := encodeAttribute name a in
      let! r := encodeAttributes m' in
      Ok (b ++ r)
  end.

(** ippmsg.cpp:76-80 *)
Definition InitialAttrs : list string :=
  ["attributes-charset"; "attributes-natural-language"; "printer-uri"; "job-id"; "requesting-user-name"]%string.
(** ippmsg.cpp:81-89: the initial attributes, then the map without them *)
Fixpoint encodeInitial (keys : list string) (opAttrs : ipp_attrs) : outcome (list byte * ipp_attrs) :=
  match keys with
  | [] => Ok ([], opAttrs)
  | key :: keys' =>
      match map_get key opAttrs with
      | Some val =>
          let! b := encodeAttribute key val in
          let! x := encodeInitial keys' (map_erase key opAttrs) in
          Ok (b ++ fst x, snd x)
      | None => encodeInitial keys' opAttrs
      end
  end.
(** ippmsg.cpp:91-98 *)
Fixpoint encodeJobGroups (l : list ipp_attrs) : outcome (list byte) :=
  match l with
  | [] => Ok []
  | m :: l' =>
      let! b := (match m with [] => Ok [] | _ => let! x := encodeAttributes m in Ok (enc_u8 tJobAttrs ++ x) end) in
      let! r := encodeJobGroups l' in
      Ok (b ++ r)
  end.
(** IppMsg::encode: ippmsg.cpp:64-106.  The static request id is an argument; also
    when encoding throws, it has been incremented. *)
Definition encodeMsg (reqId : Z) (m : ipp_msg) : outcome (list byte) * Z :=
  ((let! x := encodeInitial InitialAttrs (m_opAttrs m) in
    let! others := encodeAttributes (snd x) in
    let! jobs := encodeJobGroups (m_jobAttrs m) in
    let! printer := (match m_printerAttrs m with
                     | [] => Ok []
                     | a => let! b := encodeAttributes a in Ok (enc_u8 tPrinterAttrs ++ b)
                     end) in
    Ok (enc_u8 (m_majVsn m) ++ enc_u8 (m_minVsn m) ++ be16 (m_opOrStatus m) ++ be32 reqId
        ++ enc_u8 tOpAttrs ++ fst x ++ others ++ jobs ++ printer ++ enc_u8 tEndAttrs)),
   (reqId + 1) mod two32).

(** ** Decoding *)

(** data >>= (uint16_t)0 : whether the next two bytes are zero; consumes them if so *)
Definition next_zero (s : list byte) : option (list byte) :=
  match s with
  | a :: b :: r => if un16 a b =? 0 then Some r else None
  | _ => None
  end.
(** data >> (uint16_t)n *)
Definition expect_u16 (n : Z) (s : list byte) : outcome (list byte) :=
  let! x := get_u16 s in
  if fst x =? n then Ok (snd x) else Throw BadMatch.
(** ippmsg.cpp:167-169 *)
Definition get_date (s : list byte) : outcome (ipp_date * list byte) :=
  let! (y, s) := get_u16 s in
  let! (mo, s) := get_u8 s in
  let! (da, s) := get_u8 s in
  let! (h, s) := get_u8 s in
  let! (mi, s) := get_u8 s in
  let! (se, s) := get_u8 s in
  let! (de, s) := get_u8 s in
  let! (pm, s) := get_u8 s in
  let! (uh, s) := get_u8 s in
  let! (um, s) := get_u8 s in
  Ok (mkDate y mo da h mi se de pm uh um, s).
(** a length-prefixed string: data.getString(data.get<uint16_t>()) *)
Definition get_str (s : list byte) : outcome (string * list byte) :=
  let! (n, s) := get_u16 s in
  let! (b, s) := get_bytes n s in
  Ok (string_of_bytes b, s).

(** decodeValue: ippmsg.cpp:133-207 *)
Definition decodeValue (tag : Z) (s : list byte) : outcome (ipp_value * list byte) :=
  if (tag =? tOpAttrs) || (tag =? tJobAttrs) || (tag =? tEndAttrs) || (tag =? tPrinterAttrs) || (tag =? tUnsupportedAttrs)
  then Throw LogicError
  else if (tag =? tInteger) || (tag =? tEnum) then
    match next_zero s with
    | Some r => Ok (VInt 0, r)
    | None =>
        let! s := expect_u16 4 s in
        let! (z, s) := get_u32 s in
        Ok (VInt (to_s32 z), s)
    end
  else if tag =? tBoolean then
    match next_zero s with
    | Some r => Ok (VBool false, r)
    | None =>
        let! s := expect_u16 1 s in
        let! (z, s) := get_u8 s in
        Ok (VBool (negb (z =? 0)), s)
    end
  else if tag =? tDateTime then
    match next_zero s with
    | Some r => Ok (VDate default_date, r)
    | None =>
        let! s := expect_u16 11 s in
        let! (d, s) := get_date s in
        Ok (VDate d, s)
    end
  else if tag =? tResolution then
    match next_zero s with
    | Some r => Ok (VRes 0 0 0, r)
    | None =>
        let! s := expect_u16 9 s in
        let! (x, s) := get_u32 s in
        let! (y, s) := get_u32 s in
        let! (u, s) := get_u8 s in
        Ok (VRes x y u, s)
    end
  else if tag =? tIntegerRange then
    match next_zero s with
    | Some r => Ok (VRange 0 0, r)
    | None =>
        let! s := expect_u16 8 s in
        let! (lo, s) := get_u32 s in
        let! (hi, s) := get_u32 s in
        Ok (VRange (to_s32 lo) (to_s32 hi), s)
    end
  else
    let! (b, s) := get_str s in
    Ok (VStr b, s).

(** getUnnamedAttributes: ippmsg.cpp:209-227.  [fuel]: bounds the number of values; each
    takes at least three bytes. *)
Fixpoint getUnnamed (fuel : nat) (s : list byte) : outcome (list ipp_attr * list byte) :=
  match s with
  | [] => Ok ([], s)
  | t :: r =>
      match next_zero r with
      | None => Ok ([], s)
      | Some r' =>
          match fuel with
          | O => NoFuel
          | S fuel' =>
              let! (v, r'') := decodeValue (Zb t) r' in
              let! (l, r3) := getUnnamed fuel' r'' in
              Ok ((Zb t, v) :: l, r3)
          end
      end
  end.

(** ippmsg.cpp:248-251: while(attrs.front().tag() == tag).  front() of an empty list is
    undefined behaviour. *)
Fixpoint takeSame (tag : Z) (attrs : list ipp_attr) : outcome (list ipp_value * list ipp_attr) :=
  match attrs with
  | [] => UB
  | (t, v) :: r =>
      if t =? tag then
        let! (l, r') := takeSame tag r in
        Ok (v :: l, r')
      else Ok ([], attrs)
  end.
(** ippmsg.cpp:289-296 *)
Definition collapse (l : list ipp_value) : ipp_value := match l with [v] => v | _ => VSet l end.

(** collectAttributes: ippmsg.cpp:229-297; every iteration takes an attribute off the
    list, so that its length is enough fuel. *)
Fixpoint collect (fuel : nat) (attrs : list ipp_attr) (resArr : list ipp_value) (resVal : ipp_attrs)
  : outcome (ipp_value * list ipp_attr) :=
  match fuel with
  | O => NoFuel
  | S fuel' =>
      match attrs with
      | [] => Ok (collapse resArr, [])
      | (tag, v) :: rest =>
          if tag =? tMemberName then
            match v with
            | VStr key =>
                match rest with
                | [] => Throw LogicError
                | (t1, v1) :: rest1 =>
                    if t1 =? tBeginCollection then
                      let! (cv, rest2) := collect fuel' rest1 [] [] in
                      collect fuel' rest2 resArr (map_insert key (tBeginCollection, cv) resVal)
                    else
                      let! (more, rest2) := takeSame t1 rest1 in
                      collect fuel' rest2 resArr
                        (map_insert key (t1, match more with [] => v1 | _ => VSet (v1 :: more) end) resVal)
                end
            | _ => Throw BadVariant
            end
          else if tag =? tEndCollection then
            let resArr := resArr ++ [VColl resVal] in
            match rest with
            | [] => Ok (collapse resArr, [])
            | (t1, _) :: rest1 =>
                if t1 =? tBeginCollection then collect fuel' rest1 resArr []
                else Ok (collapse resArr, rest)
            end
          else Throw LogicError
      end
  end.

(** consumeAttributes: ippmsg.cpp:299-329 *)
Definition consumeAttribute (attrs : ipp_attrs) (s : list byte) : outcome (ipp_attrs * list byte) :=
  let! (tag, s) := get_u8 s in
  let! (name, s) := get_str s in
  let! (value, s) := decodeValue tag s in
  let! (unnamed, s) := getUnnamed (length s) s in
  let! (value, unnamed) :=
    (if tag =? tBeginCollection then collect (S (length unnamed)) unnamed [] [] else Ok (value, unnamed)) in
  let value := match unnamed with [] => value | _ => VSet (value :: map snd unnamed) end in
  Ok (map_insert name (tag, value) attrs, s).

(** ippmsg.cpp:20-38: the group read so far is stored when the next tag is a delimiter *)
Definition store_group (m : ipp_msg) (group : Z) (attrs : ipp_attrs) : ipp_msg :=
  if group =? tOpAttrs then mkMsg (m_opOrStatus m) (m_majVsn m) (m_minVsn m) attrs (m_jobAttrs m) (m_printerAttrs m)
  else if group =? tJobAttrs then
    mkMsg (m_opOrStatus m) (m_majVsn m) (m_minVsn m) (m_opAttrs m) (m_jobAttrs m ++ [attrs]) (m_printerAttrs m)
  else if group =? tPrinterAttrs then
    mkMsg (m_opOrStatus m) (m_majVsn m) (m_minVsn m) (m_opAttrs m) (m_jobAttrs m) attrs
  else m.
(** the loop of the constructor: ippmsg.cpp:16-52; each iteration reads at least a byte.
    The result is the message and the unread rest. *)
Fixpoint decode_loop (fuel : nat) (m : ipp_msg) (group : Z) (attrs : ipp_attrs) (s : list byte) : outcome (ipp_msg * list byte) :=
  match s with
  | [] => Ok (m, [])
  | t :: r =>
      match fuel with
      | O => NoFuel
      | S fuel' =>
          if Zb t <=? tUnsupportedAttrs then
            let m := store_group m group attrs in
            if Zb t =? tEndAttrs then Ok (m, r)
            else decode_loop fuel' m (Zb t) [] r
          else
            let! (attrs, s') := consumeAttribute attrs s in
            decode_loop fuel' m group attrs s'
      end
  end.
(** IppMsg::IppMsg(Bytestream&): ippmsg.cpp:7-53 *)
Definition decodeMsg (s : list byte) : outcome (ipp_msg * list byte) :=
  let! (maj, s) := get_u8 s in
  let! (min, s) := get_u8 s in
  let! (op, s) := get_u16 s in
  let! (_, s) := get_u32 s in
  decode_loop (length s) (mkMsg op maj min [] [] []) tEndAttrs [] s.

(** IppPrinter::_mkMsg: ippprinter.cpp:543-554.  [two] is whether "2.0" is among the
    ipp-versions-supported. *)
Definition makeRequest (two : bool) (user : option string) (addr : string) (op : Z) (opAttrs jobAttrs printerAttrs : ipp_attrs) : ipp_msg :=
  let opAttrs := fold_left (fun m e => map_insert (fst e) (snd e) m) (baseOpAttrs user addr) opAttrs in
  let msg := new_msg op opAttrs jobAttrs printerAttrs in
  if two then setVersion msg 2 0 else msg.

(** A session: messages encoded one after another with the static counter
    (ippmsg.cpp:5, 69); the request ids used and the bytes. *)
Fixpoint session (reqId : Z) (l : list ipp_msg) : list (outcome (list byte)) :=
  match l with
  | [] => []
  | m :: l' => let (b, id) := encodeMsg reqId m in b :: session id l'
  end.
