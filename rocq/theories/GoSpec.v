(** The part of the Go language that the rule generators write: tokens with
    automatic semicolons, expressions, statements, the declarations of a
    generated file, their types and their values.  Written from the Go
    specification (https://go.dev/ref/spec); nothing here comes from the
    modelled generators.  Only the functions a rule may call
    ([isFloatInRange], [isFloatOneOf], [slices.Contains], [math.Mod]) are those
    of the model of catalog/cldrplural/evaluation.go. *)
From Coq Require Import String Ascii List ZArith QArith Bool.
From Verif Require Import Base NumModel F64Model CldrModel.
Import ListNotations.
Open Scope Z_scope.

(** ** Tokens *)

Inductive gtok : Type :=
| TNum (v : Z) | TStr (s : bytes) | TName (s : bytes)
| TIf | TReturn | TFunc | TSwitch | TCase | TDefault | TPackage | TImport
| TAnd | TOr | TNot | TEq | TNe | TLt | TLe | TGt | TGe | TRem | TAmp | TStar
| TLp | TRp | TLb | TRb | TLc | TRc | TComma | TSemi | TColon.

(** A name here includes the selectors: [ops.N] and [math.Mod] are one token. *)
Definition word_char (c : ascii) : bool :=
  is_digit c || is_letter c || (c =? "_")%char || (c =? ".")%char.

Definition word_tok (w : bytes) : option gtok :=
  match w with
  | [] => None
  | c :: _ =>
      if is_digit c then if forallb is_digit w then Some (TNum (dec_val w)) else None
      else if beq w (bs "if") then Some TIf
      else if beq w (bs "return") then Some TReturn
      else if beq w (bs "func") then Some TFunc
      else if beq w (bs "switch") then Some TSwitch
      else if beq w (bs "case") then Some TCase
      else if beq w (bs "default") then Some TDefault
      else if beq w (bs "package") then Some TPackage
      else if beq w (bs "import") then Some TImport
      else Some (TName w)
  end.

(** Operators of one character that never begin a longer one. *)
Definition single (c : ascii) : option gtok :=
  if (c =? "%")%char then Some TRem else
  if (c =? "(")%char then Some TLp else
  if (c =? ")")%char then Some TRp else
  if (c =? "[")%char then Some TLb else
  if (c =? "]")%char then Some TRb else
  if (c =? "{")%char then Some TLc else
  if (c =? "}")%char then Some TRc else
  if (c =? ",")%char then Some TComma else
  if (c =? ";")%char then Some TSemi else
  if (c =? ":")%char then Some TColon else
  if (c =? "*")%char then Some TStar else None.

(** Characters that may begin a longer operator, and the operators. *)
Definition op_char (c : ascii) : bool :=
  ((c =? "&") || (c =? "|") || (c =? "!") || (c =? "=") || (c =? "<") || (c =? ">") || (c =? "/"))%char.
Definition op1 (c : ascii) : option gtok :=
  if (c =? "!")%char then Some TNot else
  if (c =? "<")%char then Some TLt else
  if (c =? ">")%char then Some TGt else
  if (c =? "&")%char then Some TAmp else None.
Definition op2 (c d : ascii) : option gtok :=
  if (c =? "&")%char && (d =? "&")%char then Some TAnd else
  if (c =? "|")%char && (d =? "|")%char then Some TOr else
  if (c =? "=")%char && (d =? "=")%char then Some TEq else
  if (c =? "!")%char && (d =? "=")%char then Some TNe else
  if (c =? "<")%char && (d =? "=")%char then Some TLe else
  if (c =? ">")%char && (d =? "=")%char then Some TGe else None.

(** A line break after one of these ends the statement. *)
Definition ends_statement (t : gtok) : bool :=
  match t with
  | TNum _ | TStr _ | TName _ | TReturn | TRp | TRb | TRc => true
  | _ => false
  end.

(** Reading from left to right; [w] and the output are reversed. *)
Inductive gmode : Type :=
| MStart | MWord (w : bytes) | MOp (c : ascii) | MStr (w : bytes) | MComment | MBad.
Record gstate : Type := GState { g_mode : gmode; g_out : list gtok }.

Definition emit (t : option gtok) (out : list gtok) : gstate :=
  match t with Some t => GState MStart (t :: out) | None => GState MBad out end.
Definition flush (st : gstate) : gstate :=
  match g_mode st with
  | MWord w => emit (word_tok (rev w)) (g_out st)
  | MOp c => emit (op1 c) (g_out st)
  | _ => st
  end.
Definition newline (out : list gtok) : list gtok :=
  match out with
  | t :: _ => if ends_statement t then TSemi :: out else out
  | [] => []
  end.
(** A character at the beginning of a token. *)
Definition begin (st : gstate) (c : ascii) : gstate :=
  match g_mode st with
  | MStart =>
      if word_char c then GState (MWord [c]) (g_out st)
      else if op_char c then GState (MOp c) (g_out st)
      else if (c =? SP)%char || (c =? TAB)%char || (c =? CR)%char then st
      else if (c =? LF)%char then GState MStart (newline (g_out st))
      else if (c =? """")%char then GState (MStr []) (g_out st)
      else emit (single c) (g_out st)
  | _ => st
  end.
Definition gstep (st : gstate) (c : ascii) : gstate :=
  match g_mode st with
  | MStart => begin st c
  | MWord w => if word_char c then GState (MWord (c :: w)) (g_out st) else begin (flush st) c
  | MOp d =>
      match op2 d c with
      | Some t => GState MStart (t :: g_out st)
      | None =>
          if (d =? "/")%char && (c =? "/")%char then GState MComment (g_out st)
          else begin (flush st) c
      end
  | MStr w =>
      if (c =? """")%char then GState MStart (TStr (rev w) :: g_out st)
      else if (c =? "\")%char || (c =? LF)%char then GState MBad (g_out st)
      else GState (MStr (c :: w)) (g_out st)
  | MComment => if (c =? LF)%char then GState MStart (newline (g_out st)) else st
  | MBad => st
  end.

Definition go_tokens (s : bytes) : option (list gtok) :=
  let st := flush (fold_left gstep s (GState MStart [])) in
  match g_mode st with
  | MStart | MComment => Some (rev (g_out st))
  | _ => None
  end.

(** ** Expressions

    Binary operators by precedence: [%] binds tighter than the comparisons,
    these tighter than [&&], that tighter than [||]; all associate to the
    left. *)
Inductive gop : Type := OpOr | OpAnd | OpEq | OpNe | OpLt | OpLe | OpGt | OpGe | OpRem.
Inductive gexp : Type :=
| GNum (v : Z)
| GName (x : bytes)
| GCall (f : bytes) (args : list gexp)
| GInts (l : list gexp)                 (* []int64{...} *)
| GNot (e : gexp)
| GBin (o : gop) (a b : gexp).

Definition binop (t : gtok) : option gop :=
  match t with
  | TOr => Some OpOr | TAnd => Some OpAnd
  | TEq => Some OpEq | TNe => Some OpNe | TLt => Some OpLt | TLe => Some OpLe
  | TGt => Some OpGt | TGe => Some OpGe
  | TRem => Some OpRem
  | _ => None
  end.
Definition level (o : gop) : nat :=
  match o with
  | OpOr => 4 | OpAnd => 3 | OpRem => 1 | _ => 2
  end%nat.

(** [gexpr fuel lv ts]: an expression whose binary operators have at most level
    [lv], and the tokens after it.  [gtail] continues a chain of operators of
    level [lv + 1] and [gargs] reads the rest of a parenthesised list. *)
Fixpoint gexpr (fuel lv : nat) (ts : list gtok) : option (gexp * list gtok) :=
  match fuel with
  | O => None
  | S fuel =>
      match lv with
      | O =>
          match ts with
          | TNot :: r =>
              match gexpr fuel 0 r with Some (e, r') => Some (GNot e, r') | None => None end
          | TNum v :: r => Some (GNum v, r)
          | TLp :: r =>
              match gexpr fuel 4 r with Some (e, TRp :: r') => Some (e, r') | _ => None end
          | TLb :: TRb :: TName t :: TLc :: r =>
              if beq t (bs "int64") then
                match gargs fuel TRc r with Some (l, r') => Some (GInts l, r') | None => None end
              else None
          | TName f :: TLp :: r =>
              match gargs fuel TRp r with Some (l, r') => Some (GCall f l, r') | None => None end
          | TName x :: r => Some (GName x, r)
          | _ => None
          end
      | S lv =>
          match gexpr fuel lv ts with
          | Some (a, r) => gtail fuel lv a r
          | None => None
          end
      end
  end
with gtail (fuel lv : nat) (a : gexp) (ts : list gtok) : option (gexp * list gtok) :=
  match fuel with
  | O => None
  | S fuel =>
      match ts with
      | t :: r =>
          match binop t with
          | Some o =>
              if (level o =? S lv)%nat then
                match gexpr fuel lv r with
                | Some (b, r') => gtail fuel lv (GBin o a b) r'
                | None => None
                end
              else Some (a, ts)
          | None => Some (a, ts)
          end
      | [] => Some (a, ts)
      end
  end
with gargs (fuel : nat) (close : gtok) (ts : list gtok) : option (list gexp * list gtok) :=
  match fuel with
  | O => None
  | S fuel =>
      match gexpr fuel 4 ts with
      | Some (e, TComma :: r) =>
          match gargs fuel close r with Some (l, r') => Some (e :: l, r') | None => None end
      | Some (e, TRp :: r) => match close with TRp => Some ([e], r) | _ => None end
      | Some (e, TRc :: r) => match close with TRc => Some ([e], r) | _ => None end
      | _ => None
      end
  end.

(** ** Statements *)

Inductive gstmt : Type :=
| SIf (c : gexp) (body : list gstmt)
| SReturn (e : gexp).

(** Statements up to a closing brace or the end, separated by semicolons. *)
Fixpoint gbody (fuel : nat) (ts : list gtok) : option (list gstmt * list gtok) :=
  match fuel with
  | O => None
  | S fuel =>
      match ts with
      | [] => Some ([], [])
      | TRc :: _ => Some ([], ts)
      | TIf :: r =>
          match gexpr fuel 4 r with
          | Some (c, TLc :: r1) =>
              match gbody fuel r1 with
              | Some (b, TRc :: r2) =>
                  match r2 with
                  | TSemi :: r3 =>
                      match gbody fuel r3 with Some (l, r4) => Some (SIf c b :: l, r4) | None => None end
                  | TRc :: _ | [] => Some ([SIf c b], r2)
                  | _ => None
                  end
              | _ => None
              end
          | _ => None
          end
      | TReturn :: r =>
          match gexpr fuel 4 r with
          | Some (e, r1) =>
              match r1 with
              | TSemi :: r2 =>
                  match gbody fuel r2 with Some (l, r3) => Some (SReturn e :: l, r3) | None => None end
              | TRc :: _ | [] => Some ([SReturn e], r1)
              | _ => None
              end
          | None => None
          end
      | _ => None
      end
  end.

(** Text that is one expression, text that is the body of a function. *)
Definition is_expr (s : bytes) (e : gexp) : Prop :=
  exists ts fuel, go_tokens s = Some ts /\ gexpr fuel 4 ts = Some (e, []).
Definition is_body (s : bytes) (b : list gstmt) : Prop :=
  exists ts fuel, go_tokens s = Some ts /\ gbody fuel ts = Some (b, []).

(** ** Types

    An untyped integer constant becomes int64 or float64 as needed. *)
Inductive gty : Type := YConst (v : Z) | YInt | YFloat | YBool | YInts | YCat.

Definition int_const (v : Z) : bool := (minInt64 <=? v) && (v <=? maxInt64).
(** Can a value of type [t] be used as an int64, as a float64? *)
Definition as_int (t : gty) : bool :=
  match t with YInt => true | YConst v => int_const v | _ => false end.
Definition as_float (t : gty) : bool :=
  match t with YFloat => true | YConst _ => true | _ => false end.

Definition ty_bin (o : gop) (a b : gty) : option gty :=
  match o with
  | OpAnd | OpOr => match a, b with YBool, YBool => Some YBool | _, _ => None end
  | OpRem =>
      match a, b with
      | YConst x, YConst y => if y =? 0 then None else Some (YConst (Z.rem x y))
      | _, YConst y => if as_int a && int_const y && negb (y =? 0) then Some YInt else None
      | _, _ => if as_int a && as_int b then Some YInt else None
      end
  | OpEq | OpNe =>
      match a, b with
      | YBool, YBool | YConst _, YConst _ | YCat, YCat => Some YBool
      | _, _ => if (as_int a && as_int b) || (as_float a && as_float b) then Some YBool else None
      end
  | _ =>
      match a, b with
      | YConst _, YConst _ => Some YBool
      | _, _ => if (as_int a && as_int b) || (as_float a && as_float b) then Some YBool else None
      end
  end.

Definition ty_call (f : bytes) (args : list gty) : option gty :=
  if beq f (bs "math.Mod") then
    match args with [a; b] => if as_float a && as_float b then Some YFloat else None | _ => None end
  else if beq f (bs "isFloatInRange") || beq f (bs "isFloatOneOf") then
    match args with
    | a :: l => if as_float a && forallb as_int l then Some YBool else None
    | [] => None
    end
  else if beq f (bs "slices.Contains") then
    match args with [YInts; b] => if as_int b then Some YBool else None | _ => None end
  else None.

Fixpoint all_some {A} (l : list (option A)) : option (list A) :=
  match l with
  | [] => Some []
  | Some a :: l' => match all_some l' with Some r => Some (a :: r) | None => None end
  | None :: _ => None
  end.

Fixpoint gtype (vars : bytes -> option gty) (e : gexp) : option gty :=
  match e with
  | GNum v => Some (YConst v)
  | GName x => vars x
  | GNot e => match gtype vars e with Some YBool => Some YBool | _ => None end
  | GBin o a b =>
      match gtype vars a, gtype vars b with
      | Some x, Some y => ty_bin o x y
      | _, _ => None
      end
  | GInts l =>
      match all_some (map (gtype vars) l) with
      | Some ts => if forallb as_int ts then Some YInts else None
      | None => None
      end
  | GCall f l =>
      match all_some (map (gtype vars) l) with
      | Some ts => ty_call f ts
      | None => None
      end
  end.

(** Conditions are boolean and the results of the result type. *)
Fixpoint stmt_typed (vars : bytes -> option gty) (res : gty -> bool) (s : gstmt) : bool :=
  match s with
  | SIf c b =>
      match gtype vars c with Some YBool => forallb (stmt_typed vars res) b | _ => false end
  | SReturn e => match gtype vars e with Some t => res t | None => false end
  end.
(** A function with a result ends in a terminating statement. *)
Fixpoint terminating (b : list gstmt) : bool :=
  match b with
  | [] => false
  | [SReturn _] => true
  | _ :: b' => terminating b'
  end.
Definition body_typed (vars : bytes -> option gty) (res : gty -> bool) (b : list gstmt) : bool :=
  forallb (stmt_typed vars res) b && terminating b.

(** ** Values *)

Inductive gval : Type :=
| VInt (v : Z) | VFloat (q : Q) | VBool (b : bool) | VInts (l : list Z) | VCat (c : category) | VPanic.

Definition cmp_int (o : gop) (x y : Z) : gval :=
  match o with
  | OpEq => VBool (x =? y) | OpNe => VBool (negb (x =? y))
  | OpLt => VBool (x <? y) | OpLe => VBool (x <=? y)
  | OpGt => VBool (x >? y) | OpGe => VBool (x >=? y)
  | OpRem => match y with 0 => VPanic | _ => VInt (Z.rem x y) end
  | _ => VPanic
  end.
Definition qlt (a b : Q) : bool := negb (Qle_bool b a).
Definition cmp_float (o : gop) (x y : Q) : gval :=
  match o with
  | OpEq => VBool (Qeq_bool x y) | OpNe => VBool (negb (Qeq_bool x y))
  | OpLt => VBool (qlt x y) | OpLe => VBool (Qle_bool x y)
  | OpGt => VBool (qlt y x) | OpGe => VBool (Qle_bool y x)
  | _ => VPanic
  end.
(** A constant beside a float64 is converted to float64. *)
Definition ev_bin (o : gop) (a b : gval) : gval :=
  match o with
  | OpAnd =>
      match a with
      | VBool x =>
          match b with VBool y => VBool (x && y) | _ => if x then VPanic else VBool false end
      | _ => VPanic
      end
  | OpOr =>
      match a with
      | VBool x =>
          match b with VBool y => VBool (x || y) | _ => if x then VBool true else VPanic end
      | _ => VPanic
      end
  | _ =>
      match a, b with
      | VInt x, VInt y => cmp_int o x y
      | VFloat x, VFloat y => cmp_float o x y
      | VFloat x, VInt y => cmp_float o x (inject_Z (f64_of_int y))
      | VInt x, VFloat y => cmp_float o (inject_Z (f64_of_int x)) y
      | VBool x, VBool y =>
          match o with
          | OpEq => VBool (Bool.eqb x y) | OpNe => VBool (negb (Bool.eqb x y)) | _ => VPanic
          end
      | _, _ => VPanic
      end
  end.

Fixpoint ints (l : list gval) : option (list Z) :=
  match l with
  | [] => Some []
  | VInt v :: l' => match ints l' with Some r => Some (v :: r) | None => None end
  | _ => None
  end.
Fixpoint pairs (l : list Z) : option (list (Z * Z)) :=
  match l with
  | [] => Some []
  | a :: b :: l' => match pairs l' with Some r => Some ((a, b) :: r) | None => None end
  | _ => None
  end.
Definition ev_call (f : bytes) (args : list gval) : gval :=
  if beq f (bs "math.Mod") then
    match args with
    | [VFloat x; VInt m] => match m with 0 => VPanic | _ => VFloat (fmod x (f64_of_int m)) end
    | _ => VPanic
    end
  else if beq f (bs "isFloatInRange") then
    match args with
    | VFloat x :: l =>
        match ints l with
        | Some zs => match pairs zs with Some ps => VBool (is_float_in_range x ps) | None => VPanic end
        | None => VPanic
        end
    | _ => VPanic
    end
  else if beq f (bs "isFloatOneOf") then
    match args with
    | VFloat x :: l => match ints l with Some zs => VBool (is_float_one_of x zs) | None => VPanic end
    | _ => VPanic
    end
  else if beq f (bs "slices.Contains") then
    match args with [VInts l; VInt x] => VBool (contains l x) | _ => VPanic end
  else VPanic.

Fixpoint geval (env : bytes -> gval) (e : gexp) : gval :=
  match e with
  | GNum v => VInt v
  | GName x => env x
  | GNot e => match geval env e with VBool b => VBool (negb b) | _ => VPanic end
  | GBin o a b => ev_bin o (geval env a) (geval env b)
  | GInts l => match ints (map (geval env) l) with Some zs => VInts zs | None => VPanic end
  | GCall f l => ev_call f (map (geval env) l)
  end.

(** Running statements: [None] when none of them returns. *)
Fixpoint run_stmt (env : bytes -> gval) (s : gstmt) : option gval :=
  match s with
  | SReturn e => Some (geval env e)
  | SIf c b =>
      match geval env c with
      | VBool k =>
          if k then
            (fix run (l : list gstmt) : option gval :=
               match l with
               | [] => None
               | s :: l' => match run_stmt env s with Some v => Some v | None => run l' end
               end) b
          else None
      | _ => Some VPanic
      end
  end.
Fixpoint run (env : bytes -> gval) (l : list gstmt) : option gval :=
  match l with
  | [] => None
  | s :: l' => match run_stmt env s with Some v => Some v | None => run env l' end
  end.

(** ** The two kinds of rule functions *)

(** func(n int64) int *)
Definition pop_vars (x : bytes) : option gty := if beq x (bs "n") then Some YInt else None.
Definition pop_env (n : Z) (x : bytes) : gval := if beq x (bs "n") then VInt n else VPanic.
(** The result is a constant of type int. *)
Definition pop_res (t : gty) : bool := match t with YConst v => int_const v | _ => false end.
Definition pop_function (b : list gstmt) (f : Z -> Z) : Prop :=
  body_typed pop_vars pop_res b = true /\ forall n, run (pop_env n) b = Some (VInt (f n)).

(** func(ops *Operands) Category *)
Definition cldr_vars (x : bytes) : option gty :=
  if beq x (bs "ops.N") then Some YFloat
  else if beq x (bs "ops.I") || beq x (bs "ops.V") || beq x (bs "ops.W") ||
          beq x (bs "ops.F") || beq x (bs "ops.T") || beq x (bs "ops.C") then Some YInt
  else if beq x (bs "Zero") || beq x (bs "One") || beq x (bs "Two") ||
          beq x (bs "Few") || beq x (bs "Many") || beq x (bs "Other") then Some YCat
  else None.
Definition cat_of (x : bytes) : option category :=
  if beq x (bs "Zero") then Some Zero else if beq x (bs "One") then Some One
  else if beq x (bs "Two") then Some Two else if beq x (bs "Few") then Some Few
  else if beq x (bs "Many") then Some Many else if beq x (bs "Other") then Some Other else None.
Definition cldr_env (o : ops) (x : bytes) : gval :=
  if beq x (bs "ops.N") then VFloat (oN o)
  else if beq x (bs "ops.I") then VInt (oI o)
  else if beq x (bs "ops.V") then VInt (oV o)
  else if beq x (bs "ops.W") then VInt (oW o)
  else if beq x (bs "ops.F") then VInt (oF o)
  else if beq x (bs "ops.T") then VInt (oT o)
  else if beq x (bs "ops.C") then VInt (oC o)
  else match cat_of x with Some c => VCat c | None => VPanic end.
Definition cldr_res (t : gty) : bool := match t with YCat => true | _ => false end.
Definition cldr_function (b : list gstmt) (f : ops -> category) : Prop :=
  body_typed cldr_vars cldr_res b = true /\ forall o, run (cldr_env o) b = Some (VCat (f o)).

(** ** Generated files

    A file holds constructors ([return &Rule{...}]) and functions that choose
    one by a switch over strings. *)
Inductive gret : Type :=
| RNil
| RCall (f : bytes)
| RPop (np : Z) (form : list gstmt)                    (* &Rule{NPlurals: np, FormFunc: ...} *)
| RCldr (cats : list bytes) (form : list gstmt).       (* &RuleSet{Categories: ..., FormFunc: ...} *)
Inductive gfun : Type :=
| FReturn (r : gret)
| FSwitch (cases : list (list bytes * gret)) (dflt : gret).
Definition gfile : Type := list (bytes * gfun).

Fixpoint names (fuel : nat) (ts : list gtok) : option (list bytes * list gtok) :=
  match fuel, ts with
  | S fuel, TName x :: TComma :: r =>
      match names fuel r with Some (l, r') => Some (x :: l, r') | None => None end
  | _, TName x :: r => Some ([x], r)
  | _, _ => None
  end.
Fixpoint strings (fuel : nat) (ts : list gtok) : option (list bytes * list gtok) :=
  match fuel, ts with
  | S fuel, TStr x :: TComma :: r =>
      match strings fuel r with Some (l, r') => Some (x :: l, r') | None => None end
  | _, TStr x :: r => Some ([x], r)
  | _, _ => None
  end.

(** The operand of a return statement in these functions. *)
Definition gresult (fuel : nat) (ts : list gtok) : option (gret * list gtok) :=
  match ts with
  | TName x :: TLp :: TRp :: r => Some (RCall x, r)
  | TName x :: r => if beq x (bs "nil") then Some (RNil, r) else None
  | TAmp :: TName ty :: TLc :: TName k :: TColon :: r =>
      if beq ty (bs "Rule") && beq k (bs "NPlurals") then
        match r with
        | TNum np :: TComma :: TName ff :: TColon :: TFunc :: TLp :: TName p :: TName pt :: TRp :: TName rt :: TLc :: r1 =>
            if beq ff (bs "FormFunc") && beq p (bs "n") && beq pt (bs "int64") && beq rt (bs "int") then
              match gbody fuel r1 with
              | Some (b, TRc :: TComma :: TRc :: r2) => Some (RPop np b, r2)
              | _ => None
              end
            else None
        | _ => None
        end
      else if beq ty (bs "RuleSet") && beq k (bs "Categories") then
        match r with
        | TLb :: TRb :: TName c :: TLc :: r0 =>
            match names fuel r0 with
            | Some (cs, TRc :: TComma :: TName ff :: TColon :: TFunc :: TLp :: TName p :: TStar :: TName pt :: TRp :: TName rt :: TLc :: r1) =>
                if beq c (bs "Category") && beq ff (bs "FormFunc") && beq p (bs "ops") &&
                   beq pt (bs "Operands") && beq rt (bs "Category") then
                  match gbody fuel r1 with
                  | Some (b, TRc :: TComma :: TRc :: r2) => Some (RCldr cs b, r2)
                  | _ => None
                  end
                else None
            | _ => None
            end
        | _ => None
        end
      else None
  | _ => None
  end.

Fixpoint gcases (fuel : nat) (ts : list gtok)
  : option (list (list bytes * gret) * gret * list gtok) :=
  match fuel with
  | O => None
  | S fuel' =>
      match ts with
      | TDefault :: TColon :: TReturn :: r =>
          match gresult fuel r with
          | Some (g, TSemi :: TRc :: r') => Some ([], g, r')
          | _ => None
          end
      | TCase :: r =>
          match strings fuel r with
          | Some (l, TColon :: TReturn :: r1) =>
              match gresult fuel r1 with
              | Some (g, TSemi :: r2) =>
                  match gcases fuel' r2 with
                  | Some (cs, d, r3) => Some ((l, g) :: cs, d, r3)
                  | None => None
                  end
              | _ => None
              end
          | _ => None
          end
      | _ => None
      end
  end.

(** func name([p string]) *T { ... } for the remaining declarations. *)
Fixpoint gdecls (fuel : nat) (ts : list gtok) : option gfile :=
  match fuel with
  | O => None
  | S fuel' =>
      match ts with
      | [] => Some []
      | TFunc :: TName f :: TLp :: TRp :: TStar :: TName _ :: TLc :: TReturn :: r =>
          match gresult fuel r with
          | Some (g, TSemi :: TRc :: TSemi :: r') =>
              match gdecls fuel' r' with Some fs => Some ((f, FReturn g) :: fs) | None => None end
          | _ => None
          end
      | TFunc :: TName f :: TLp :: TName p :: TName pt :: TRp :: TStar :: TName _ :: TLc ::
        TSwitch :: TName q :: TLc :: r =>
          if beq pt (bs "string") && beq p q then
            match gcases fuel r with
            | Some (cs, d, TSemi :: TRc :: TSemi :: r') =>
                match gdecls fuel' r' with Some fs => Some ((f, FSwitch cs d) :: fs) | None => None end
            | _ => None
            end
          else None
      | _ => None
      end
  end.
(** The package clause and the imports. *)
Fixpoint skip_imports (fuel : nat) (ts : list gtok) : option (list gtok) :=
  match fuel, ts with
  | S fuel, TStr _ :: TSemi :: r => skip_imports fuel r
  | _, TRp :: TSemi :: r => Some r
  | _, _ => None
  end.
Definition go_file (s : bytes) : option gfile :=
  match go_tokens s with
  | Some (TPackage :: TName _ :: TSemi :: r) =>
      let fuel := length r in
      match r with
      | TImport :: TLp :: r1 =>
          match skip_imports fuel r1 with Some r2 => gdecls fuel r2 | None => None end
      | _ => gdecls fuel r
      end
  | _ => None
  end.

Fixpoint find_fun (fs : gfile) (f : bytes) : option gfun :=
  match fs with
  | [] => None
  | (g, d) :: fs' => if beq f g then Some d else find_fun fs' f
  end.
Fixpoint find_case (cs : list (list bytes * gret)) (d : gret) (s : bytes) : gret :=
  match cs with
  | [] => d
  | (l, g) :: cs' => if existsb (beq s) l then g else find_case cs' d s
  end.
(** What [f(s)] returns; [None]: [f] or a function it calls is undefined. *)
Definition resolve (fs : gfile) (g : gret) : option gret :=
  match g with
  | RCall f => match find_fun fs f with Some (FReturn g') => Some g' | _ => None end
  | g => Some g
  end.
Definition call_string (fs : gfile) (f s : bytes) : option gret :=
  match find_fun fs f with
  | Some (FSwitch cs d) => resolve fs (find_case cs d s)
  | _ => None
  end.

(** The declarations the compiler accepts: rule functions of the right type,
    constructors that exist, no name and no case twice. *)
Fixpoint nodupb (l : list bytes) : bool :=
  match l with
  | [] => true
  | x :: l' => negb (existsb (beq x) l') && nodupb l'
  end.
Definition is_some {A} (x : option A) : bool := match x with Some _ => true | None => false end.
Definition ret_ok (fs : gfile) (g : gret) : bool :=
  match g with
  | RNil => true
  | RCall f => match find_fun fs f with Some (FReturn _) => true | _ => false end
  | RPop np b => int_const np && body_typed pop_vars pop_res b
  | RCldr cs b => forallb (fun c => is_some (cat_of c)) cs && body_typed cldr_vars cldr_res b
  end.
Definition fun_ok (fs : gfile) (f : gfun) : bool :=
  match f with
  | FReturn g => ret_ok fs g
  | FSwitch cs d =>
      nodupb (concat (map fst cs)) && forallb (fun c => ret_ok fs (snd c)) cs && ret_ok fs d
  end.
Definition file_ok (fs : gfile) : bool :=
  nodupb (map fst fs) && forallb (fun f => fun_ok fs (snd f)) fs.

(** The name of the constructor that [f(s)] calls. *)
Definition called (fs : gfile) (f s : bytes) : option bytes :=
  match find_fun fs f with
  | Some (FSwitch cs d) => match find_case cs d s with RCall g => Some g | _ => None end
  | _ => None
  end.

(** The lines of the function [f], and the texts of its comments at a depth
    of [n] tabs. *)
Fixpoint until_end (l : list string) : list string :=
  match l with
  | [] => []
  | s :: l' => if beq (list_ascii_of_string s) (bs "}") then [] else s :: until_end l'
  end.
Fixpoint lines_in (l : list string) (f : bytes) : list string :=
  match l with
  | [] => []
  | s :: l' =>
      if has_prefix (list_ascii_of_string s) (bs "func " ++ f ++ bs "() ") then until_end l'
      else lines_in l' f
  end.
Definition comment (n : nat) (s : string) : list bytes :=
  let p := repeat TAB n ++ bs "// " in
  if has_prefix (list_ascii_of_string s) p then [skipn (length p) (list_ascii_of_string s)] else [].
Definition comments_in (n : nat) (l : list string) (f : bytes) : list bytes :=
  flat_map (comment n) (lines_in l f).

(** A file given line by line. *)
Definition text_of_lines (l : list string) : bytes :=
  flat_map (fun s => list_ascii_of_string s ++ [LF]) l.
