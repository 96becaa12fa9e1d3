(** Texts of floating-point numbers as in the Go specification, with an
    optional sign. *)
From Coq Require Import String Ascii List ZArith QArith Bool.
From Verif Require Import Base.
Import ListNotations.
Open Scope Z_scope.

Definition base_digit (hex : bool) (c : ascii) : Prop :=
  48 <= bval c <= 57 \/ hex = true /\ (65 <= bval c <= 70 \/ 97 <= bval c <= 102).
Definition digit_value (c : ascii) : Z :=
  if bval c <=? 57 then bval c - 48 else if bval c <=? 70 then bval c - 55 else bval c - 87.

(** Sign, base, digits before and after the point, exponent with its sign. *)
Record literal : Type := Lit {
  l_neg : bool; l_hex : bool; l_ip : bytes; l_fp : bytes; l_exp : option (bool * bytes) }.

Definition lit_ok (x : literal) : Prop :=
  Forall (base_digit (l_hex x)) (l_ip x) /\ Forall (base_digit (l_hex x)) (l_fp x) /\ (l_ip x ++ l_fp x)%list <> [] /\
  match l_exp x with
  | Some (_, ds) => ds <> [] /\ Forall (base_digit false) ds
  | None => l_hex x = false
  end.

Definition sign_text (neg : bool) (s : bytes) : Prop :=
  if neg then s = ["-"%char] else s = [] \/ s = ["+"%char].
Definition exp_letter (hex : bool) (c : ascii) : Prop :=
  if hex then c = "p"%char \/ c = "P"%char else c = "e"%char \/ c = "E"%char.
Definition plain_body (x : literal) (s : bytes) : Prop :=
  exists pt et, s = (l_ip x ++ pt ++ et)%list /\
    (pt = [] /\ l_fp x = [] \/ pt = "."%char :: l_fp x) /\
    match l_exp x with
    | None => et = []
    | Some (n, ds) => exists c sg, et = (c :: sg ++ ds)%list /\ exp_letter (l_hex x) c /\ sign_text n sg
    end.

(** An underscore stands between two digits, or between 0x and a digit. *)
Definition without_underscores (s : bytes) : bytes := filter (fun c => negb (c =? "_")%char) s.
Definition underscores_ok (hex : bool) (s : bytes) : Prop := forall a b, s = (a ++ "_"%char :: b)%list ->
  match rev a with [] => hex = true | c :: _ => base_digit hex c end /\
  match b with [] => False | c :: _ => base_digit hex c end.

Definition spelled (x : literal) (s : bytes) : Prop := exists sg pre body,
  s = (sg ++ pre ++ body)%list /\ sign_text (l_neg x) sg /\
  (if l_hex x then pre = bs "0x" \/ pre = bs "0X" else pre = []) /\
  plain_body x (without_underscores body) /\ underscores_ok (l_hex x) body.

(** The number, exactly: a hexadecimal number has a binary exponent. *)
Definition digits_value (b : Z) (s : bytes) : Z := fold_left (fun a c => a * b + digit_value c) s 0.
Definition lit_digits (x : literal) : Z := digits_value (if l_hex x then 16 else 10) (l_ip x ++ l_fp x).
Definition lit_exp (x : literal) : Z :=
  match l_exp x with None => 0 | Some (n, ds) => (if n then -1 else 1) * digits_value 10 ds end.
Definition lit_value (x : literal) : Q :=
  inject_Z ((if l_neg x then -1 else 1) * lit_digits x) *
  (if l_hex x then Qpower 2 (lit_exp x - 4 * Z.of_nat (length (l_fp x)))
   else Qpower 10 (lit_exp x - Z.of_nat (length (l_fp x)))).

(** Infinities and not-a-number. *)
Definition special_text (s : bytes) : Prop :=
  (exists neg sg w, s = (sg ++ w)%list /\ sign_text neg sg /\ (to_lower w = bs "inf" \/ to_lower w = bs "infinity")) \/
  to_lower s = bs "nan".
