(** binary64 arithmetic (C++ double), as computed by the standard library's
    executable IEEE-754 specification [Coq.Floats.SpecFloat] (round to nearest,
    ties to even).  No axioms. *)
From Coq Require Export Floats.SpecFloat.
From Verif Require Import Base.
Local Open Scope Z_scope.

Definition f64 := spec_float.
Definition fadd : f64 -> f64 -> f64 := SFadd 53 1024.
Definition fsub : f64 -> f64 -> f64 := SFsub 53 1024.
Definition fmul : f64 -> f64 -> f64 := SFmul 53 1024.
Definition fdiv : f64 -> f64 -> f64 := SFdiv 53 1024.
Definition fltb : f64 -> f64 -> bool := SFltb.
Definition feqb : f64 -> f64 -> bool := SFeqb.

(** the double nearest to m * 2^e (conversion from integers, decoded literals) *)
Definition fmk (m e : Z) : f64 := binary_normalize 53 1024 m e false.
Definition fofZ (z : Z) : f64 := fmk z 0.

(** truncation towards zero of a finite double (conversion to an integer type,
    before the range check); None for infinities and NaN *)
Definition ftrunc (x : f64) : option Z :=
  match x with
  | S754_zero _ => Some 0
  | S754_finite s m e =>
      let a := if 0 <=? e then Zpos m * 2 ^ e else Zpos m / 2 ^ (- e) in
      Some (if s then - a else a)
  | _ => None
  end.

(** std::floor followed by use as an integer *)
Definition ffloorZ (x : f64) : option Z :=
  match x with
  | S754_zero _ => Some 0
  | S754_finite s m e =>
      let v := if s then Zneg m else Zpos m in
      Some (if 0 <=? e then v * 2 ^ e else v / 2 ^ (- e))
  | _ => None
  end.

(** std::round: nearest integer, halves away from zero *)
Definition froundZ (x : f64) : option Z :=
  match x with
  | S754_zero _ => Some 0
  | S754_finite s m e =>
      let a := if 0 <=? e then Zpos m * 2 ^ e
               else (2 * Zpos m + 2 ^ (- e)) / (2 * 2 ^ (- e)) in
      Some (if s then - a else a)
  | _ => None
  end.

(** std::round as a double: the result is always representable, so the
    conversion back is exact; infinities and NaN are kept *)
Definition fround (x : f64) : f64 :=
  match x, froundZ x with
  | S754_finite s _ _, Some z => if z =? 0 then S754_zero s else fofZ z
  | _, _ => x
  end.

(** Conversion of a double to an unsigned integer type of [bits] bits: undefined
    behaviour if the truncated value does not fit (or is NaN/infinite). *)
Definition f_to_unsigned (bits : Z) (x : f64) : outcome Z :=
  match ftrunc x with
  | Some z => if (0 <=? z) && (z <? 2 ^ bits) then Ok z else UB
  | None => UB
  end.
Definition f_to_signed (bits : Z) (x : f64) : outcome Z :=
  match ftrunc x with
  | Some z => if (- 2 ^ (bits - 1) <=? z) && (z <? 2 ^ (bits - 1)) then Ok z else UB
  | None => UB
  end.

(** literals used by the code *)
Definition f25_4 : f64 := fmk 3574732204225331 (-47).      (* 25.4 *)
Definition f72 : f64 := fofZ 72.                            (* 72.0 *)
Definition f100 : f64 := fofZ 100.

(** round2: printparameters.h:185-188 (also pdf2printable.cpp) *)
Definition round2 (d : f64) : f64 := fdiv (fround (fmul d f100)) f100.
