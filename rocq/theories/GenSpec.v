(** Which plural rules the generators can be used for.  Written on the C
    expressions of PopSpec and the conditions of CldrSpec; uses nothing of the
    modelled generators. *)
From Coq Require Import String Ascii List ZArith Bool.
From Verif Require Import Base PopSpec CldrSpec.
Import ListNotations.
Open Scope Z_scope.

(** Arithmetic: n, numbers, and remainders by n or a number other than 0, from
    the left. *)
Fixpoint go_arith (e : cexp) : bool :=
  match e with
  | CN | CV _ => true
  | CBin CRem a b =>
      go_arith a && match b with CN => true | CV v => negb (v =? 0) | _ => false end
  | _ => false
  end.
(** Conditions: comparisons of arithmetic, joined by && and ||. *)
Fixpoint go_bool (e : cexp) : bool :=
  match e with
  | CBin CAnd a b | CBin COr a b => go_bool a && go_bool b
  | CBin CRem _ _ => false
  | CBin _ a b => go_arith a && go_arith b
  | _ => false
  end.
(** A chain c1 ? v1 : c2 ? v2 : ... : vk of conditions and numbers. *)
Fixpoint go_tree (e : cexp) : bool :=
  match e with
  | CCond c (CV _) f => go_bool c && match f with CV _ => true | _ => go_tree f end
  | _ => false
  end.
(** A rule with two forms is a condition, one with more a chain. *)
Definition go_able (np : Z) (e : cexp) : bool :=
  (np <=? 1) || (if np =? 2 then go_bool e else go_tree e).

(** CLDR conditions: a relation has at most one range, unless it is about n. *)
Definition is_range (e : elem) : bool := match e with Range _ _ => true | Val _ => false end.
Fixpoint one_range (c : cond) : Prop :=
  match c with
  | Rel _ e l => x_op e = On \/ (length (filter is_range l) <= 1)%nat
  | And a b | Or a b => one_range a /\ one_range b
  end.

(** The input: a condition and its samples on one line; samples alone. *)
Definition rule_line (c : cond) (s : bytes) : Prop :=
  exists ts sts, is_or c /\ cond_toks c ts /\ sts <> [] /\ sample_toks sts /\ spaced (ts ++ sts) s /\ ~ In LF s.
Definition samples_line (s : bytes) : Prop :=
  exists z r, Forall (fun c => In c [SP; TAB; LF; CR]) z /\ s = z ++ "@"%char :: r.
