(** Numbers passed to plural lookups: internal/cast.ToNumber on numeric kinds,
    float64 conversion and poplural's Rule.Evaluate. *)
From Coq Require Import String Ascii List ZArith Bool.
From Verif Require Import Base PopModel.
Import ListNotations.
Open Scope Z_scope.

(** Integer kinds of Go accepted by cast.ToNumber. *)
Inductive ikind : Type :=
  Kint | Kint8 | Kint16 | Kint32 | Kint64
| Kuint | Kuint8 | Kuint16 | Kuint32 | Kuint64.

(** Range of a kind (int and uint are 64 bits wide: GOARCH assumption). *)
Definition kmin (k : ikind) : Z :=
  match k with
  | Kint8 => -128 | Kint16 => -32768 | Kint32 => -2147483648
  | Kint | Kint64 => minInt64
  | _ => 0
  end.
Definition kmax (k : ikind) : Z :=
  match k with
  | Kint8 => 127 | Kint16 => 32767 | Kint32 => 2147483647
  | Kint | Kint64 => maxInt64
  | Kuint8 => 255 | Kuint16 => 65535 | Kuint32 => 4294967295
  | Kuint | Kuint64 => maxUint64
  end.

(** Division rounding to the nearest integer, ties to even; b > 0, a >= 0. *)
Definition div_even (a b : Z) : Z :=
  let q := a / b in
  let r := a mod b in
  if 2 * r <? b then q
  else if b <? 2 * r then q + 1
  else if Z.even q then q else q + 1.

(** float64(z) for an integer z: the nearest float64, an integer again
    (IEEE 754 binary64, round to nearest even; |z| < 2^1024). *)
Definition f64_of_nat (z : Z) : Z :=
  if z <? 9007199254740992 then z
  else let u := 2 ^ (Z.log2 z - 52) in div_even z u * u.
Definition f64_of_int (z : Z) : Z :=
  if z <? 0 then - f64_of_nat (- z) else f64_of_nat z.

(** Conversion float64 -> int64 of an integral value.  Out of range the Go
    specification leaves the result to the implementation; modelled as on
    amd64 (0x8000000000000000). *)
Definition f64_to_int64 (z : Z) : Z :=
  if (minInt64 <=? z) && (z <=? maxInt64) then z else minInt64.

(** A numeric argument: an integer of some kind, or a finite float64/float32
    value given exactly as the fraction num/den, den > 0 (NaN, infinities,
    strings, complex and other types are not modelled). *)
Inductive arg : Type :=
| AInt (k : ikind) (z : Z)
| AFloat (num den : Z).

(** internal/cast/number.go:10-58 (ToNumber) followed by
    catalog/poplural/rule.go:28 math.RoundToEven(math.Abs(num)): the
    nonnegative integral float64 that Evaluate hands on. *)
Definition abs_round (a : arg) : Z :=
  match a with
  | AInt _ z => Z.abs (f64_of_int z)
  | AFloat n d => div_even (Z.abs n) d
  end.

(** catalog/poplural/rule.go:23-31 (Evaluate) *)
Definition evaluate (r : rule) (a : arg) : Z :=
  r_form r (f64_to_int64 (abs_round a)).
