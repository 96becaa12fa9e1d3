(** IEEE 754 binary64 values as exact rationals, and strconv.ParseFloat on
    decimal text (standard library; no file of /repo). *)
From Coq Require Import String Ascii List ZArith QArith Qround Qabs Bool.
From Verif Require Import Base PopModel NumModel.
Import ListNotations.
Open Scope Z_scope.

(** Largest l with 2^l <= n/d, for n, d > 0. *)
Definition floor_log2 (n d : Z) : Z :=
  let l := Z.log2 n - Z.log2 d in
  if (if 0 <=? l then d * 2 ^ l <=? n else d <=? n * 2 ^ (- l)) then l else l - 1.

(** m * 2^e. *)
Definition dyadic (m e : Z) : Q :=
  if 0 <=? e then inject_Z (m * 2 ^ e) else Qmake m (Z.to_pos (2 ^ (- e))).

(** The float64 nearest to n/d (n >= 0, d > 0), ties to even; None when it
    overflows. *)
Definition f64_round (n d : Z) : option Q :=
  if n =? 0 then Some (inject_Z 0)
  else
    let e := Z.max (floor_log2 n d - 52) (-1074) in
    let m := if 0 <=? e then div_even n (d * 2 ^ e) else div_even (n * 2 ^ (- e)) d in
    if (971 <? e) || ((e =? 971) && (9007199254740992 <=? m)) then None
    else Some (dyadic m e).

(** Longest prefix of decimal digits. *)
Fixpoint take_digits (s : bytes) : bytes * bytes :=
  match s with
  | c :: s' => if is_digit c then let (a, b) := take_digits s' in (c :: a, b) else ([], s)
  | [] => ([], [])
  end.

(** Optional leading sign. *)
Definition take_sign (s : bytes) : bool * bytes :=
  match s with
  | c :: s' =>
      if Ascii.eqb c "-" then (true, s')
      else if Ascii.eqb c "+" then (false, s') else (false, s)
  | [] => (false, [])
  end.

(** Decimal floating-point text: sign, digits, point, digits, exponent.
    None: not of this form. *)
Definition read_float (s : bytes) : option (bool * bytes * bytes * Z) :=
  let (neg, s1) := take_sign s in
  let (ip, s2) := take_digits s1 in
  let (fp, s3) := match s2 with
                  | c :: s' => if Ascii.eqb c "." then take_digits s' else ([], s2)
                  | [] => ([], [])
                  end in
  match ip ++ fp with
  | [] => None
  | _ :: _ =>
      match s3 with
      | [] => Some (neg, ip, fp, 0)
      | c :: s4 =>
          if Ascii.eqb (lower c) "e" then
            let (eneg, s5) := take_sign s4 in
            match take_digits s5 with
            | ((_ :: _) as ds, []) => Some (neg, ip, fp, if eneg then - dec_val ds else dec_val ds)
            | _ => None
            end
          else None
      end
  end.

(** strconv.ParseFloat(s, 64): sign and magnitude.  Only decimal text is
    modelled; hexadecimal floats, "inf", "infinity" and "nan", which Go also
    accepts, count as errors here.  Go caps exponents beyond 10000, which
    changes nothing for texts of fewer than some thousand digits. *)
Definition parse_float (s : bytes) : res (bool * Q) :=
  match read_float s with
  | None => Err
  | Some (neg, ip, fp, e) =>
      let m := dec_val (ip ++ fp) in
      let x := e - Z.of_nat (length fp) in
      match (if 0 <=? x then f64_round (m * 10 ^ x) 1 else f64_round m (10 ^ (- x))) with
      | None => Err
      | Some q => Ok (neg, q)
      end
  end.

(** int64(f): truncation; out of range as on amd64. *)
Definition f64_trunc (neg : bool) (q : Q) : Z :=
  let t := Qfloor q in f64_to_int64 (if neg then - t else t).

(** math.Mod(x, y) for x >= 0 and an integral y > 0; exact in IEEE
    arithmetic. *)
Definition fmod (x : Q) (y : Z) : Q := Qmake (Qnum x mod (y * Zpos (Qden x))) (Qden x).

(** The float64 constant 1e-6. *)
Definition feps : Q := Qmake 4722366482869645 4722366482869645213696.

(** internal/util/compare.go:5-7 (FloatEqual).  The float64 subtraction is
    taken as exact: whenever |a - b| <= 1.1e-6 and a is an integer the
    difference is representable, and rounding of larger differences is
    monotone, so the comparison is not affected. *)
Definition float_equal (a b : Q) : bool := Qle_bool (Qabs (a - b)) feps.

(** strings.TrimRight(s, "0"). *)
Fixpoint trim_zeros (s : bytes) : bytes :=
  match s with
  | [] => []
  | c :: s' =>
      match trim_zeros s' with
      | [] => if Ascii.eqb c "0" then [] else [c]
      | t => c :: t
      end
  end.

(** fmt.Sprintf("%v", f) for a float (shortest %g, exponent form from 1e6 on
    and below 1e-4; strconv/ftoa.go).  The float is given by its shortest
    decimal digits: 0.digs * 10^dp, digs without trailing zeros, [] for 0. *)
Definition fmt_exp (x : Z) : bytes :=
  bs "e" ++ (if x <? 0 then bs "-" else bs "+") ++
  (if Z.abs x <? 10 then bs "0" else []) ++ utoa (Z.abs x).
Definition fmt_v (neg : bool) (digs : bytes) (dp : Z) : bytes :=
  (if neg then bs "-" else []) ++
  match digs with
  | [] => bs "0"
  | d :: ds =>
      let x := dp - 1 in
      if (x <? -4) || (6 <=? x) then
        d :: (match ds with [] => [] | _ => "."%char :: ds end) ++ fmt_exp x
      else
        let n := Z.of_nat (length digs) in
        (if 0 <? dp
         then firstn (Z.to_nat dp) digs ++ repeat "0"%char (Z.to_nat (dp - n))
         else bs "0") ++
        (if dp <? n
         then "."%char :: repeat "0"%char (Z.to_nat (- dp)) ++ skipn (Z.to_nat dp) digs
         else [])
  end.
