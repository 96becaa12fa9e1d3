(** humanize/numbers.go: Intword and Intcomma. *)
From Coq Require Import String Ascii List ZArith QArith Qround Qabs Bool.
From Verif Require Import Base PopModel NumModel F64Model FltModel CalModel HumModel.
Import ListNotations.
Open Scope Z_scope.

(** math.Pow10 for 0 <= n <= 308 (package math): a table of the powers of 10^32
    times a table of the powers up to 10^31, both correctly rounded. *)
Definition pow10 (n : Z) : Q := fmul (frnd (inject_Z (10 ^ (32 * (n / 32))))) (frnd (inject_Z (10 ^ (n mod 32)))).

(** numbers.go:51-67: the singular and the plural are the same everywhere *)
Definition converters : list (Z * bytes) :=
  [(6, bs "%[1]s million"); (9, bs "%[1]s billion"); (12, bs "%[1]s trillion"); (15, bs "%[1]s quadrillion");
   (18, bs "%[1]s quintillion"); (21, bs "%[1]s sextillion"); (24, bs "%[1]s septillion"); (27, bs "%[1]s octillion");
   (30, bs "%[1]s nonillion"); (33, bs "%[1]s decillion"); (100, bs "%[1]s googol")].

(** A text, or the value handed to h.loc.Print("%v", number.Decimal(value,
    MaxFractionDigits(6))) by numbers.go:108-115 (Intcomma). *)
Inductive iword : Type := IText (o : out) | IComma (x : fnum).

(** numbers.go:93-96 *)
Definition rounded_value (x : Q) : Z :=
  let r := fto_int64 (fceil (fsub x (inject_Z 1))) + 1 in
  if r <? 0 then fto_int64 (Qabs (ffloor x)) else r.

(** a < b *)
Definition qlt (a b : Q) : bool := negb (Qle_bool b a).

(** numbers.go:89-101: the loop, for a finite value *)
Fixpoint intword_loop (l : list (Z * bytes)) (value : Q) : iword :=
  match l with
  | [] => IComma (FFin value)
  | (e, text) :: l' =>
      let large := pow10 e in
      if qlt (Qabs value) (fmul large (inject_Z 1000)) then
        let x := fdiv value large in
        IText (ONGetf [] text text (rounded_value x) (AText (OPrint (bs "%.1f") (AFloat64 x))))
      else intword_loop l' value
  end.

(** numbers.go:78-102 (Intword), once the number is known: every comparison with
    an infinity or with NaN is false there. *)
Definition intword (x : fnum) : iword :=
  match x with
  | FFin q => if qlt (Qabs q) (inject_Z 1000000) then IComma x else intword_loop converters q
  | _ => IComma x
  end.
