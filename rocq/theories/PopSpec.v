(** Independent specification of Plural-Forms headers: lexical layout, C
    grammar (precedence and associativity) and C semantics.  Uses nothing of
    the model. *)
From Coq Require Import String Ascii List ZArith Bool.
From Verif Require Import Base.
Import ListNotations.
Open Scope Z_scope.

(** Lexemes of a header. *)
Inductive lexeme : Type :=
| LNplurals | LPlural | LN | LNum (ds : bytes)
| LAssign | LSemi | LQuestion | LColon | LParen | RParen
| LRem | LLt | LLe | LGt | LGe | LEq | LNe | LAnd | LOr.

(** How a lexeme may be spelled (the words in any case). *)
Definition spells (l : lexeme) (s : bytes) : Prop :=
  match l with
  | LNplurals => to_lower s = bs "nplurals"
  | LPlural => to_lower s = bs "plural"
  | LN => to_lower s = bs "n"
  | LNum ds => s = ds /\ ds <> [] /\ forallb is_digit ds = true
  | LAssign => s = bs "="
  | LSemi => s = bs ";"
  | LQuestion => s = bs "?"
  | LColon => s = bs ":"
  | LParen => s = bs "("
  | RParen => s = bs ")"
  | LRem => s = bs "%"
  | LLt => s = bs "<"
  | LLe => s = bs "<="
  | LGt => s = bs ">"
  | LGe => s = bs ">="
  | LEq => s = bs "=="
  | LNe => s = bs "!="
  | LAnd => s = bs "&&"
  | LOr => s = bs "||"
  end.

(** White space between lexemes. *)
Definition blank (c : ascii) : Prop := c = SP \/ c = TAB \/ c = LF.

(** Maximal munch: [l] must not be directly followed by a character that would
    extend it. *)
Definition closed (l : lexeme) (rest : bytes) : Prop :=
  match rest with
  | [] => True
  | c :: _ =>
      match l with
      | LNplurals | LPlural | LN => is_letter c = false /\ c <> "_"%char
      | LNum _ => is_digit c = false /\ c <> "_"%char
      | LAssign | LLt | LGt => c <> "="%char
      | _ => True
      end
  end.

(** [lays ls t]: the text [t] is the lexeme sequence [ls] with arbitrary blanks
    around the lexemes. *)
Inductive lays : list lexeme -> bytes -> Prop :=
| lays_nil : forall w, Forall blank w -> lays [] w
| lays_cons : forall w l s ls rest,
    Forall blank w -> spells l s -> closed l rest -> lays ls rest ->
    lays (l :: ls) (w ++ s ++ rest).

(** C expressions over the one variable n. *)
Inductive cop : Type := CRem | CLt | CLe | CGt | CGe | CEq | CNe | CAnd | COr.
Inductive cexp : Type :=
| CN
| CV (v : Z)
| CBin (o : cop) (a b : cexp)
| CCond (c t f : cexp).

Definition tobool (z : Z) : bool := negb (z =? 0).

(** C semantics.  [None]: remainder by zero (undefined in C).  && and || and
    ?: evaluate only what C evaluates; any nonzero condition is true. *)
Fixpoint csem (e : cexp) (n : Z) : option Z :=
  match e with
  | CN => Some n
  | CV v => Some v
  | CCond c t f =>
      match csem c n with
      | Some v => if tobool v then csem t n else csem f n
      | None => None
      end
  | CBin CAnd a b =>
      match csem a n with
      | Some v =>
          if tobool v then
            match csem b n with
            | Some w => Some (b2z (tobool w))
            | None => None
            end
          else Some 0
      | None => None
      end
  | CBin COr a b =>
      match csem a n with
      | Some v =>
          if tobool v then Some 1 else
            match csem b n with
            | Some w => Some (b2z (tobool w))
            | None => None
            end
      | None => None
      end
  | CBin o a b =>
      match csem a n, csem b n with
      | Some x, Some y =>
          match o with
          | CRem => if y =? 0 then None else Some (Z.rem x y)
          | CLt => Some (b2z (x <? y))
          | CLe => Some (b2z (x <=? y))
          | CGt => Some (b2z (y <? x))
          | CGe => Some (b2z (y <=? x))
          | CEq => Some (b2z (x =? y))
          | CNe => Some (b2z (negb (x =? y)))
          | _ => None
          end
      | _, _ => None
      end
  end.

(** Syntactic class of expressions that only take the values 0 and 1. *)
Fixpoint logical (e : cexp) : bool :=
  match e with
  | CN => false
  | CV v => (v =? 0) || (v =? 1)
  | CBin CRem _ _ => false
  | CBin _ _ _ => true
  | CCond _ t f => logical t && logical f
  end.

(** Every condition of ?: and every operand of && and || is logical. *)
Fixpoint logical_conds (e : cexp) : bool :=
  match e with
  | CN | CV _ => true
  | CCond c t f =>
      logical c && logical_conds c && logical_conds t && logical_conds f
  | CBin CAnd a b | CBin COr a b =>
      logical a && logical b && logical_conds a && logical_conds b
  | CBin _ a b => logical_conds a && logical_conds b
  end.

(** Semantic, pointwise version: at this n, every condition has value 0 or 1. *)
Definition zero_one (e : cexp) (n : Z) : Prop :=
  forall v, csem e n = Some v -> v = 0 \/ v = 1.
Fixpoint conds01 (e : cexp) (n : Z) : Prop :=
  match e with
  | CN | CV _ => True
  | CCond c t f =>
      zero_one c n /\ conds01 c n /\ conds01 t n /\ conds01 f n
  | CBin CAnd a b | CBin COr a b =>
      zero_one a n /\ zero_one b n /\ conds01 a n /\ conds01 b n
  | CBin _ a b => conds01 a n /\ conds01 b n
  end.

(** C grammar, one level per precedence: 0 primary, 1 multiplicative,
    2 relational, 3 equality, 4 logical and, 5 logical or, 6 conditional.
    As in C, && and || associate to the left, ?: to the right.  The
    sub-grammar accepted by the library has at most one operator on the levels
    1, 2 and 3. *)
Definition op_at (lv : nat) (l : lexeme) : option cop :=
  match lv, l with
  | 1%nat, LRem => Some CRem
  | 2%nat, LLt => Some CLt
  | 2%nat, LLe => Some CLe
  | 2%nat, LGt => Some CGt
  | 2%nat, LGe => Some CGe
  | 3%nat, LEq => Some CEq
  | 3%nat, LNe => Some CNe
  | _, _ => None
  end.

Inductive gram : nat -> list lexeme -> cexp -> Prop :=
| g_n : gram 0 [LN] CN
| g_num : forall ds, gram 0 [LNum ds] (CV (dec_val ds))
| g_paren : forall ts e,
    gram 6 ts e -> gram 0 (LParen :: ts ++ [RParen]) e
| g_up : forall lv ts e, (lv < 6)%nat -> gram lv ts e -> gram (S lv) ts e
| g_bin : forall lv o op ts1 ts2 a b,
    op_at (S lv) o = Some op ->
    gram lv ts1 a -> gram lv ts2 b ->
    gram (S lv) (ts1 ++ o :: ts2) (CBin op a b)
| g_and : forall ts1 ts2 a b,
    gram 4 ts1 a -> gram 3 ts2 b ->
    gram 4 (ts1 ++ LAnd :: ts2) (CBin CAnd a b)
| g_or : forall ts1 ts2 a b,
    gram 5 ts1 a -> gram 4 ts2 b ->
    gram 5 (ts1 ++ LOr :: ts2) (CBin COr a b)
| g_cond : forall tc tt tf c t f,
    gram 5 tc c -> gram 6 tt t -> gram 6 tf f ->
    gram 6 (tc ++ LQuestion :: tt ++ LColon :: tf) (CCond c t f).

(** A whole header: nplurals=<np>; plural=<e>; *)
Definition header (ls : list lexeme) (np : Z) (e : cexp) : Prop :=
  exists ds ts,
    ls = [LNplurals; LAssign; LNum ds; LSemi; LPlural; LAssign]
         ++ ts ++ [LSemi] /\
    np = dec_val ds /\ gram 6 ts e.

(** All number literals fit into int64. *)
Definition nums_fit (ls : list lexeme) : Prop :=
  forall ds, In (LNum ds) ls -> dec_val ds <= maxInt64.

(** [header_text t np e]: t is a header text with meaning (np, e). *)
Definition header_text (t : bytes) (np : Z) (e : cexp) : Prop :=
  exists ls, lays ls t /\ nums_fit ls /\ header ls np e.

(** Expressions in which no comparison, && or ?: is an operand of %, < or ==
    (etc.), and no ?: is an operand or a condition.  [clv] is the precedence
    level at which the expression can be used without parentheses; a || counts
    as parenthesised. *)
Definition clv (e : cexp) : nat :=
  match e with
  | CN | CV _ | CBin COr _ _ => 0
  | CBin CRem _ _ => 1
  | CBin CEq _ _ | CBin CNe _ _ => 3
  | CBin CAnd _ _ => 4
  | CBin _ _ _ => 2
  | CCond _ _ _ => 6
  end%nat.
Fixpoint plain (e : cexp) : bool :=
  match e with
  | CN | CV _ => true
  | CBin o a b =>
      let k := match o with
               | CRem => 0 | CEq | CNe => 2 | CAnd | COr => 4 | _ => 1
               end%nat in
      (clv a <=? k)%nat && (clv b <=? k)%nat && plain a && plain b
  | CCond c t f => (clv c <=? 4)%nat && plain c && plain t && plain f
  end.
