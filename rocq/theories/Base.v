(** Common vocabulary of the model: bytes, outcomes, big-endian integers.

    Conventions (see DESIGN.md):
    - a byte (uint8_t) is an [ascii]: exactly 256 values;
    - std::string is [string], a Bytestream is a list of bytes (the bytes that
      remain to be read);
    - a computation yields an [outcome]: a value, a C++ exception, undefined
      behaviour, a provably endless loop, or (for fuelled loops) exhausted fuel. *)
From Coq Require Export String Ascii Bool ZArith List.
From Coq Require Import Lia ZifyBool ZifyNat ZifyN.
Export ListNotations.

Definition byte := ascii.

(** [uint8_t] -> integer *)
Definition Zb (b : byte) : Z := Z.of_N (N_of_ascii b).
(** conversion of an integer to [uint8_t]/[int8_t] storage: modulo 2^8 *)
Definition bZ (z : Z) : byte := ascii_of_N (Z.to_N (z mod 256)).

(** C++ exceptions that matter to callers. *)
Inductive exn :=
| OutOfRange       (* std::out_of_range *)
| LogicError       (* std::logic_error *)
| InvalidArgument  (* std::invalid_argument (stoul & co) *)
| BadMatch         (* Bytestream: "bts >> constant" does not match *)
| BadVariant       (* std::bad_variant_access *)
| LengthError      (* std::length_error *)
| RuntimeError.    (* std::runtime_error *)

Inductive outcome (A : Type) :=
| Ok (a : A)
| Throw (e : exn)
| UB        (* C++ undefined behaviour *)
| Hang      (* an endless loop *)
| NoFuel.   (* artefact of fuelled definitions; proved unreachable *)
Arguments Ok {A} a.
Arguments Throw {A} e.
Arguments UB {A}.
Arguments Hang {A}.
Arguments NoFuel {A}.

Definition bind {A B} (x : outcome A) (f : A -> outcome B) : outcome B :=
  match x with
  | Ok a => f a
  | Throw e => Throw e
  | UB => UB
  | Hang => Hang
  | NoFuel => NoFuel
  end.

Notation "'let!' x ':=' e 'in' k" := (bind e (fun x => k))
  (at level 200, x pattern, e at level 100, k at level 200, right associativity).

(** Byte string equality (memcmp(..) == 0, std::string ==). *)
Fixpoint bytes_eqb (a b : list byte) : bool :=
  match a, b with
  | [], [] => true
  | x :: a', y :: b' => Ascii.eqb x y && bytes_eqb a' b'
  | _, _ => false
  end.

(** A read of [n] bytes at offset [p] of a memory block: undefined behaviour
    unless the whole range lies inside the block. *)
Definition load (m : list byte) (p n : Z) : outcome (list byte) :=
  if (0 <=? p)%Z && (0 <=? n)%Z && (p + n <=? Z.of_nat (length m))%Z
  then Ok (firstn (Z.to_nat n) (skipn (Z.to_nat p) m))
  else UB.

(** Big-endian encodings (Bytestream's default byte order for uint16_t and
    uint32_t; see DESIGN.md, assumptions about bytestream). *)
Definition be16 (z : Z) : list byte := [bZ (z / 256); bZ z].
Definition be32 (z : Z) : list byte :=
  [bZ (z / 16777216); bZ (z / 65536); bZ (z / 256); bZ z].

Definition un16 (a b : byte) : Z := (Zb a * 256 + Zb b)%Z.
Definition un32 (a b c d : byte) : Z :=
  (Zb a * 16777216 + Zb b * 65536 + Zb c * 256 + Zb d)%Z.

(** two's complement reading of a 32/16/8-bit pattern *)
Definition to_s32 (z : Z) : Z := if (z <? 2147483648)%Z then z else (z - 4294967296)%Z.
Definition to_s8 (z : Z) : Z := if (z <? 128)%Z then z else (z - 256)%Z.

(** Bytestream reads; a stream is the list of its unread bytes.
    "bts >> var", get<T>, getString(n), getBytestream(n): throw std::out_of_range
    when too few bytes remain (bytestream submodule, assumed). *)
Definition get_u8 (s : list byte) : outcome (Z * list byte) :=
  match s with
  | a :: r => Ok (Zb a, r)
  | _ => Throw OutOfRange
  end.
Definition get_u16 (s : list byte) : outcome (Z * list byte) :=
  match s with
  | a :: b :: r => Ok (un16 a b, r)
  | _ => Throw OutOfRange
  end.
Definition get_u32 (s : list byte) : outcome (Z * list byte) :=
  match s with
  | a :: b :: c :: d :: r => Ok (un32 a b c d, r)
  | _ => Throw OutOfRange
  end.
Definition get_bytes (n : Z) (s : list byte) : outcome (list byte * list byte) :=
  if (n <=? Z.of_nat (length s))%Z
  then Ok (firstn (Z.to_nat n) s, skipn (Z.to_nat n) s)
  else Throw OutOfRange.

Definition bytes_of_string (s : string) : list byte := list_ascii_of_string s.
Definition string_of_bytes (l : list byte) : string := string_of_list_ascii l.

Definition u8_max : Z := 255.
Definition two8 : Z := 256.
Definition two16 : Z := 65536.
Definition two32 : Z := 4294967296.
Definition two64 : Z := 18446744073709551616.
