(** A plural expression without its parentheses. *)
From Coq Require Import List ZArith.
From Verif Require Import Base PopSpec.
Import ListNotations.

Inductive symbol : Type := YN | YNum (v : Z) | YOp (o : cop) | YQuestion | YColon.
Fixpoint symbols (e : cexp) : list symbol :=
  match e with
  | CN => [YN]
  | CV v => [YNum v]
  | CBin o a b => symbols a ++ YOp o :: symbols b
  | CCond c t f => symbols c ++ YQuestion :: symbols t ++ YColon :: symbols f
  end.
