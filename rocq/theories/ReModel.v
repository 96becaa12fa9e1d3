(** Regular expressions over bytes: the part of Go's regexp used by the
    scanners (standard library; no file of /repo).  Matching is by Brzozowski
    derivatives; [^...$] is a match of the whole text. *)
From Coq Require Import String Ascii List ZArith Bool.
From Verif Require Import Base.
Import ListNotations.
Open Scope Z_scope.

Inductive re : Type :=
| RNone
| REmpty
| RSet (p : ascii -> bool)
| RSeq (a b : re)
| RAlt (a b : re)
| RStar (a : re).

Definition rchar (c : ascii) : re := RSet (Ascii.eqb c).
Fixpoint rlit (s : bytes) : re :=
  match s with [] => REmpty | c :: s' => RSeq (rchar c) (rlit s') end.
Definition ropt (a : re) : re := RAlt REmpty a.
Definition rplus (a : re) : re := RSeq a (RStar a).
Fixpoint rseq (l : list re) : re :=
  match l with [] => REmpty | a :: l' => RSeq a (rseq l') end.
(** \d, \s (tab, newline, form feed, carriage return, space), and [.] (any
    rune but newline; on bytes: any byte but newline, the same language under
    a star). *)
Definition rdigit : re := RSet is_digit.
Definition re_space (c : ascii) : bool :=
  let v := bval c in (v =? 9) || (v =? 10) || (v =? 12) || (v =? 13) || (v =? 32).
Definition rspace : re := RSet re_space.
Definition rdot : re := RSet (fun c => negb (Ascii.eqb c LF)).

Fixpoint nullable (r : re) : bool :=
  match r with
  | RNone | RSet _ => false
  | REmpty | RStar _ => true
  | RSeq a b => nullable a && nullable b
  | RAlt a b => nullable a || nullable b
  end.

Fixpoint deriv (c : ascii) (r : re) : re :=
  match r with
  | RNone | REmpty => RNone
  | RSet p => if p c then REmpty else RNone
  | RSeq a b =>
      if nullable a then RAlt (RSeq (deriv c a) b) (deriv c b) else RSeq (deriv c a) b
  | RAlt a b => RAlt (deriv c a) (deriv c b)
  | RStar a => RSeq (deriv c a) (RStar a)
  end.

Fixpoint rmatch (r : re) (s : bytes) : bool :=
  match s with
  | [] => nullable r
  | c :: s' => rmatch (deriv c r) s'
  end.
