(** Rules that mention the exponent operand (c or e). *)
From Coq Require Import List Bool.
From Verif Require Import Base CldrModel CldrSpec.
Import ListNotations.

(** Does the condition mention the exponent? *)
Fixpoint uses_exp (c : cond) : bool :=
  match c with
  | Rel _ x _ => match x_op x with Oc | Oe => true | _ => false end
  | And a b | Or a b => uses_exp a || uses_exp b
  end.
Definition row_exp (l : list (category * bytes * cond)) : bool := existsb (fun y => uses_exp (snd y)) l.
