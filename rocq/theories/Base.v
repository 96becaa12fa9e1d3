(** Go substrate shared by all models: byte strings, results, decimal
    conversion.  No file of /repo is modelled here; the definitions mirror the
    Go standard library functions named in the comments. *)
From Coq Require Import String Ascii List ZArith Bool Lia.
Import ListNotations.
Open Scope Z_scope.

(** A Go string is a sequence of bytes. *)
Notation bytes := (list ascii).

(** String literal to bytes. *)
Definition bs (s : string) : bytes := list_ascii_of_string s.

(** Outcome of a Go call: a value, a returned error, a run-time panic, or
    "did not finish within the fuel of the model" (an explicit value, so that
    totality has to be proved and is never assumed). *)
Inductive res (A : Type) : Type :=
| Ok (a : A)
| Err
| Panic
| OutOfFuel.
Arguments Ok {A} _.
Arguments Err {A}.
Arguments Panic {A}.
Arguments OutOfFuel {A}.

Definition rbind {A B} (r : res A) (f : A -> res B) : res B :=
  match r with
  | Ok a => f a
  | Err => Err
  | Panic => Panic
  | OutOfFuel => OutOfFuel
  end.

Notation "'do' x <- r ; k" := (rbind r (fun x => k))
  (at level 200, x pattern, r at level 100, k at level 200).

(** Byte value as a number. *)
Definition bval (c : ascii) : Z := Z.of_N (N_of_ascii c).
Definition byte_of (z : Z) : ascii := ascii_of_N (Z.to_N z).

Definition NUL : ascii := "000"%char.
Definition LF : ascii := "010"%char.
Definition CR : ascii := "013"%char.
Definition TAB : ascii := "009"%char.
Definition SP : ascii := " "%char.
Definition QUOTE : ascii := """"%char.
Definition BSLASH : ascii := "\"%char.

Definition is_digit (c : ascii) : bool :=
  (48 <=? bval c) && (bval c <=? 57).
Definition is_lower (c : ascii) : bool :=
  (97 <=? bval c) && (bval c <=? 122).
Definition is_upper (c : ascii) : bool :=
  (65 <=? bval c) && (bval c <=? 90).
Definition is_letter (c : ascii) : bool := is_lower c || is_upper c.

(** ASCII part of unicode.ToLower. *)
Definition lower (c : ascii) : ascii :=
  if is_upper c then byte_of (bval c + 32) else c.
Definition to_lower (s : bytes) : bytes := map lower s.

(** Equality of byte strings. *)
Fixpoint beq (x y : bytes) : bool :=
  match x, y with
  | [], [] => true
  | a :: x', b :: y' => Ascii.eqb a b && beq x' y'
  | _, _ => false
  end.

(** Decimal digits. *)
Definition digit_char (d : Z) : ascii := byte_of (48 + d).
Definition digit_val (c : ascii) : Z := bval c - 48.

Fixpoint utoa_aux (fuel : nat) (n : Z) (acc : bytes) : bytes :=
  match fuel with
  | O => acc
  | S f =>
      let acc' := digit_char (n mod 10) :: acc in
      if n <? 10 then acc' else utoa_aux f (n / 10) acc'
  end.

(** strconv.FormatUint(n, 10) for n >= 0. *)
Definition utoa (n : Z) : bytes := utoa_aux (S (Z.to_nat (Z.log2 n))) n [].

(** strconv.FormatInt(n, 10) / strconv.Itoa. *)
Definition itoa (n : Z) : bytes :=
  if n <? 0 then "-"%char :: utoa (- n) else utoa n.

(** Value of a digit string (no bound). *)
Definition dec_val (s : bytes) : Z :=
  fold_left (fun acc c => acc * 10 + digit_val c) s 0.

Definition maxInt64 : Z := 9223372036854775807.
Definition minInt64 : Z := -9223372036854775808.
Definition maxUint64 : Z := 18446744073709551615.

(** Error kinds of strconv.ParseInt, with the value it returns besides. *)
Inductive pint : Type := PInt (v : Z) | PSyntax | PRange (v : Z).

(** strconv.ParseUint loop (base 10, 64 bit): stops at the first bad
    character or at the first overflow, whichever comes first. *)
Fixpoint parse_uint_loop (s : bytes) (n : Z) : pint :=
  match s with
  | [] => PInt n
  | c :: s' =>
      if is_digit c then
        let n1 := n * 10 + digit_val c in
        if maxUint64 <? n1 then PRange maxUint64 else parse_uint_loop s' n1
      else PSyntax
  end.

Definition parse_uint (s : bytes) : pint :=
  match s with [] => PSyntax | _ => parse_uint_loop s 0 end.

(** strconv.ParseInt(s, 10, 64); strconv.Atoi agrees with it (value returned
    and error kind) on a 64-bit platform. *)
Definition parse_int (s : bytes) : pint :=
  match s with
  | [] => PSyntax
  | c :: s' =>
      let neg := Ascii.eqb c "-" in
      let body := if neg || Ascii.eqb c "+" then s' else s in
      match parse_uint body with
      | PSyntax => PSyntax
      | PInt un | PRange un =>
          if neg then
            if 9223372036854775808 <? un then PRange minInt64 else PInt (- un)
          else
            if maxInt64 <? un then PRange maxInt64 else PInt un
      end
  end.

(** Value that Go code sees when it ignores the error of ParseInt/Atoi. *)
Definition parse_int_ignore (s : bytes) : Z :=
  match parse_int s with PInt v | PRange v => v | PSyntax => 0 end.

(** b2z: Go's "if cond {return 1}; return 0". *)
Definition b2z (b : bool) : Z := if b then 1 else 0.

(** strings.HasPrefix / strings.HasSuffix. *)
Fixpoint has_prefix (s p : bytes) {struct p} : bool :=
  match p, s with
  | [], _ => true
  | a :: p', b :: s' => Ascii.eqb a b && has_prefix s' p'
  | _ :: _, [] => false
  end.
Definition has_suffix (s p : bytes) : bool := has_prefix (rev s) (rev p).
