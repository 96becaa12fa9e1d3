(** UTS #35 plural rules: operands of a decimal numeral, meaning of a
    condition, category chosen by a list of rules.  Written from the text of
    the standard, independent of the model except for the category names. *)
From Coq Require Import String Ascii List ZArith QArith Qround Qabs Bool.
From Verif Require Import Base CldrModel.
Import ListNotations.
Open Scope Z_scope.

(** ** Conditions *)

Inductive oper : Type := On | Oi | Ov | Ow | Of | Ot | Oc | Oe.
Record expr : Type := Expr { x_op : oper; x_mod : option Z }.
Inductive elem : Type := Val (v : Z) | Range (a b : Z).
Inductive cond : Type :=
| Rel (neg : bool) (e : expr) (l : list elem)
| And (a b : cond)
| Or (a b : cond).

(** Operands of a number: n exact, the others integers. *)
Record uops : Type := UOps {
  un : Q; ui : Z; uv : Z; uw : Z; uf : Z; ut : Z; uc : Z }.

Definition oper_val (o : oper) (u : uops) : Q :=
  match o with
  | On => un u
  | Oi => inject_Z (ui u)
  | Ov => inject_Z (uv u)
  | Ow => inject_Z (uw u)
  | Of => inject_Z (uf u)
  | Ot => inject_Z (ut u)
  | Oc | Oe => inject_Z (uc u)
  end.

(** x mod m = x - m * floor(x / m). *)
Definition expr_val (e : expr) (u : uops) : Q :=
  let x := oper_val (x_op e) u in
  match x_mod e with
  | None => x
  | Some m => (x - inject_Z (m * Qfloor (x / inject_Z m)))%Q
  end.

(** A range contains the integers from a to b and nothing else. *)
Definition elem_holds (x : Q) (e : elem) : Prop :=
  match e with
  | Val v => (x == inject_Z v)%Q
  | Range a b => exists z, a <= z <= b /\ (x == inject_Z z)%Q
  end.

Fixpoint holds (c : cond) (u : uops) : Prop :=
  match c with
  | Rel false e l => Exists (elem_holds (expr_val e u)) l
  | Rel true e l => ~ Exists (elem_holds (expr_val e u)) l
  | And a b => holds a u /\ holds b u
  | Or a b => holds a u \/ holds b u
  end.

(** The category of a number: the first one whose condition holds, Other if
    none does. *)
Fixpoint chosen (rules : list (category * cond)) (u : uops) (c : category) : Prop :=
  match rules with
  | [] => c = Other
  | (k, cd) :: r => (holds cd u /\ c = k) \/ (~ holds cd u /\ chosen r u c)
  end.

(** ** Numerals: [-]ip[.fp][c exp] *)

Record numeral : Type := Num {
  nm_neg : bool; nm_ip : bytes; nm_fp : option bytes; nm_exp : option nat }.

Definition nm_fdigits (x : numeral) : bytes :=
  match nm_fp x with Some f => f | None => [] end.
Definition nm_e (x : numeral) : nat := match nm_exp x with Some e => e | None => 0%nat end.

Definition all_digits (s : bytes) : Prop := Forall (fun c => is_digit c = true) s.

(** At least one integer digit and, after a point, at least one fraction
    digit. *)
Definition nm_ok (x : numeral) : Prop :=
  nm_ip x <> [] /\ all_digits (nm_ip x) /\
  match nm_fp x with Some f => f <> [] /\ all_digits f | None => True end.

Definition nm_text (x : numeral) : bytes :=
  (if nm_neg x then bs "-" else []) ++ nm_ip x ++
  match nm_fp x with Some f => "."%char :: f | None => [] end ++
  match nm_exp x with Some e => "c"%char :: utoa (Z.of_nat e) | None => [] end.

(** All digits as one number; its magnitude is nm_digits * 10^e / 10^|fp|. *)
Definition nm_digits (x : numeral) : Z := dec_val (nm_ip x ++ nm_fdigits x).
Definition p10 (n : nat) : Z := 10 ^ Z.of_nat n.

(** Visible fraction digits after applying the exponent. *)
Definition nm_v (x : numeral) : nat := (length (nm_fdigits x) - nm_e x)%nat.
(** The magnitude times 10^v, an integer. *)
Definition nm_scaled (x : numeral) : Z := nm_digits x * p10 (nm_e x - length (nm_fdigits x)).
Definition nm_value (x : numeral) : Q := Qmake (nm_scaled x) (Z.to_pos (p10 (nm_v x))).

(** w and t: v digits without the trailing zeros. *)
Definition without_zeros (v f w t : Z) : Prop :=
  0 <= w <= v /\ f = t * 10 ^ (v - w) /\ (w = 0 \/ t mod 10 <> 0).

(** UTS #35, Plural Operand Meanings. *)
Definition operands_of (x : numeral) (u : uops) : Prop :=
  (un u == nm_value x)%Q /\
  ui u = Qfloor (nm_value x) /\
  uv u = Z.of_nat (nm_v x) /\
  uf u = nm_scaled x mod p10 (nm_v x) /\
  without_zeros (uv u) (uf u) (uw u) (ut u) /\
  uc u = Z.of_nat (nm_e x).

(** ** Rule text

    condition = and_condition ('or' and_condition)*,
    and_condition = relation ('and' relation)*; the operators associate to the
    right here, which makes no difference to the meaning. *)
Fixpoint is_and (c : cond) : Prop :=
  match c with
  | Rel _ _ l => l <> []
  | And (Rel _ _ l) b => l <> [] /\ is_and b
  | _ => False
  end.
Fixpoint is_or (c : cond) : Prop :=
  match c with
  | Or a b => is_and a /\ is_or b
  | c => is_and c
  end.

Definition oper_text (o : oper) : bytes :=
  match o with
  | On => bs "n" | Oi => bs "i" | Ov => bs "v" | Ow => bs "w"
  | Of => bs "f" | Ot => bs "t" | Oc => bs "c" | Oe => bs "e"
  end.

(** A value is written with any number of leading zeros; the upper end of a
    range without them. *)
Definition writes (v : Z) (s : bytes) : Prop :=
  s <> [] /\ all_digits s /\ dec_val s = v.
Definition no_leading_zero (s : bytes) : Prop :=
  match s with [] => False | c :: _ => c <> "0"%char end.

Inductive elem_toks : elem -> bytes -> Prop :=
| ET_val v s : writes v s -> elem_toks (Val v) s
| ET_range a b s t : writes a s -> writes b t -> no_leading_zero t -> a <= b ->
    elem_toks (Range a b) (s ++ bs ".." ++ t).

Inductive expr_toks : expr -> list bytes -> Prop :=
| XT_op o : expr_toks (Expr o None) [oper_text o]
| XT_mod o m s w : writes m s -> w = bs "%" \/ w = bs "mod" ->
    expr_toks (Expr o (Some m)) [oper_text o; w; s].

Inductive cond_toks : cond -> list bytes -> Prop :=
| CT_rel neg e l xs ls : expr_toks e xs -> Forall2 elem_toks l ls ->
    cond_toks (Rel neg e l) (xs ++ (if neg then bs "!=" else bs "=") :: ls)
| CT_and a b ta tb : cond_toks a ta -> cond_toks b tb ->
    cond_toks (And a b) (ta ++ bs "and" :: tb)
| CT_or a b ta tb : cond_toks a ta -> cond_toks b tb ->
    cond_toks (Or a b) (ta ++ bs "or" :: tb).

(** Tokens with separators: white space or commas, at least one between two
    tokens. *)
Definition sep_char (c : ascii) : Prop :=
  In c [SP; TAB; LF; CR; ","%char].
Inductive spaced : list bytes -> bytes -> Prop :=
| SpNil z : Forall sep_char z -> spaced [] z
| SpOne z t y : Forall sep_char z -> Forall sep_char y -> spaced [t] (z ++ t ++ y)
| SpCons z t ts s : Forall sep_char z ->
    spaced ts s -> (exists c s', s = c :: s' /\ sep_char c) -> spaced (t :: ts) (z ++ t ++ s).

(** Every number written in the condition stays below 2^53, so that float64
    holds it exactly; moduli are positive. *)
Definition small (z : Z) : Prop := 0 <= z < 9007199254740992.
Definition elem_small (e : elem) : Prop :=
  match e with Val v => small v | Range a b => small a /\ small b /\ a <= b end.
Fixpoint cond_small (c : cond) : Prop :=
  match c with
  | Rel _ e l =>
      match x_mod e with Some m => small m /\ 0 < m | None => True end /\ Forall elem_small l
  | And a b | Or a b => cond_small a /\ cond_small b
  end.

(** ** Samples *)

(** A sample number: unsigned, without superfluous leading zeros and without
    an exponent; the point may be its last character. *)
Definition sample_num (x : numeral) : Prop :=
  (nm_ip x <> [] /\ all_digits (nm_ip x) /\ all_digits (nm_fdigits x)) /\ nm_neg x = false /\ nm_exp x = None /\
  (nm_ip x = ["0"%char] \/ no_leading_zero (nm_ip x)).
(** Two numerals with the same number of fraction digits. *)
Definition same_places (x y : numeral) : Prop :=
  match nm_fp x, nm_fp y with
  | None, None => True
  | Some f, Some g => length f = length g
  | _, _ => False
  end.
(** The numbers from [x] to [y] in steps of one unit in the last place. *)
Definition steps_from (x y : numeral) (zs : list numeral) : Prop :=
  Forall (fun z => sample_num z /\ same_places x z) zs /\
  map nm_digits zs =
    map (fun i => nm_digits x + Z.of_nat i) (seq 0 (S (Z.to_nat (nm_digits y - nm_digits x)))).

Inductive sample_tok : bytes -> Prop :=
| ST_mark s : s = bs "@integer" \/ s = bs "@decimal" -> sample_tok s
| ST_num x : sample_num x -> sample_tok (nm_text x)
| ST_range x y : sample_num x -> sample_num y -> same_places x y -> nm_digits x <= nm_digits y ->
    sample_tok (nm_text x ++ "~"%char :: nm_text y)
| ST_dots s : s = ["226"%char; "128"%char; "166"%char] \/ s = bs "..." -> sample_tok s.
(** Samples begin with a marker. *)
Definition sample_toks (ts : list bytes) : Prop :=
  match ts with
  | [] => True
  | t :: _ => (t = bs "@integer" \/ t = bs "@decimal") /\ Forall sample_tok ts
  end.

(** The usual spelling of a condition, as in the CLDR data. *)
Fixpoint commas (l : list bytes) : bytes :=
  match l with
  | [] => []
  | [a] => a
  | a :: l' => a ++ ","%char :: commas l'
  end.
Definition elem_text (e : elem) : bytes :=
  match e with
  | Val v => utoa v
  | Range a b => utoa a ++ bs ".." ++ utoa b
  end.
Definition expr_text (e : expr) : bytes :=
  oper_text (x_op e) ++
  match x_mod e with Some m => bs " % " ++ utoa m | None => [] end.
Fixpoint cond_text (c : cond) : bytes :=
  match c with
  | Rel neg e l => expr_text e ++ (if neg then bs " != " else bs " = ") ++ commas (map elem_text l)
  | And a b => cond_text a ++ bs " and " ++ cond_text b
  | Or a b => cond_text a ++ bs " or " ++ cond_text b
  end.

(** Categories in the order of the standard. *)
Definition cat_rank (c : category) : Z :=
  match c with Zero => 0 | One => 1 | Two => 2 | Few => 3 | Many => 4 | Other => 5 end.
Fixpoint ascending (l : list category) : Prop :=
  match l with
  | a :: ((b :: _) as r) => cat_rank a < cat_rank b /\ ascending r
  | _ => True
  end.
