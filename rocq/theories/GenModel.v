(** Model of the two rule generators (catalog/poplural/generator,
    catalog/cldrplural/generator): the Go text they write for a rule.  The
    values are written with strconv.FormatInt or %d, which is [itoa]. *)
From Coq Require Import String Ascii List ZArith Bool.
From Verif Require Import Base StrModel PopModel CldrModel.
Import ListNotations.
Open Scope Z_scope.

(** ** catalog/poplural/generator *)

(** catalog/poplural/generator/compiler.go:41-85 (compileBinaryPluralNode); a
    conditional is none of the cases and writes nothing. *)
Fixpoint gen_bin (a : node) : bytes :=
  match a with
  | NVal v => itoa v
  | NOp => bs "n"
  | NBin o x y =>
      match o with
      | BAnd => gen_bin x ++ bs " && " ++ gen_bin y
      | BOr => bs "(" ++ gen_bin x ++ bs " || " ++ gen_bin y ++ bs ")"
      | BEq => gen_bin x ++ bs " == " ++ gen_bin y
      | BNe => gen_bin x ++ bs " != " ++ gen_bin y
      | BGt => gen_bin x ++ bs " > " ++ gen_bin y
      | BGe => gen_bin x ++ bs " >= " ++ gen_bin y
      | BLt => gen_bin x ++ bs " < " ++ gen_bin y
      | BLe => gen_bin x ++ bs " <= " ++ gen_bin y
      | BRem => gen_bin x ++ bs "%" ++ gen_bin y
      end
  | NCond _ _ _ => []
  end.

(** catalog/poplural/generator/compiler.go:88-113 (compileNode) *)
Fixpoint gen_node (a : node) : bytes :=
  match a with
  | NCond c t f =>
      bs "if " ++ gen_bin c ++
      match t with
      | NVal v => bs "{" ++ [LF] ++ bs "return " ++ itoa v ++ [LF] ++ bs "}" ++ [LF]
      | _ => gen_node t
      end ++
      match f with
      | NVal v => bs "return " ++ itoa v
      | _ => gen_node f
      end
  | a => gen_bin a
  end.

(** catalog/poplural/generator/compiler.go:20-39 (compileForms) *)
Definition gen_forms (f : forms) : bytes :=
  if f_nplurals f <=? 1 then bs "return 0"
  else if f_nplurals f =? 2 then
    bs "if " ++ gen_bin (f_root f) ++ bs "{" ++ [LF] ++ bs "return 1" ++ [LF] ++ bs "}" ++ [LF] ++
    bs "return 0"
  else gen_node (f_root f).

(** catalog/poplural/generator/compiler.go:10-18 (newRuleData): the text of
    the function and the key of the rule; MustParse panics on an error. *)
Definition gen_rule (raw : bytes) : res (bytes * bytes * Z) :=
  match parse_forms raw with
  | Ok f => Ok (gen_forms f, compile_forms f, f_nplurals f)
  | Err => Panic
  | r => do _ <- r; Panic
  end.

(** catalog/poplural/generator/extra.go:12-20 (extraRulesTable) *)
Definition extra_rules : list bytes := [
  bs "nplurals=3; plural=n == 0 ? 0 : (n == 0 || n == 1) && n != 0 ? 1 : 2;";
  bs "nplurals=4; plural=n % 100 == 1 ? 0 : n % 100 == 2 ? 1 : n % 100 >= 3 && n % 100 <= 4 ? 2 : 3;";
  bs "nplurals=2; plural=n % 10 == 1 && n % 100 != 11;";
  bs "nplurals=2; plural=((n == 1 || (n == 2 || n == 3)) || n % 10 != 4 && n % 10 != 6 && n % 10 != 9);";
  bs "nplurals=2; plural=(n == 0 || n == 1);";
  bs "nplurals=5; plural=n % 10 == 1 && n % 100 != 11 && n % 100 != 71 && n % 100 != 91 ? 0 : n % 10 == 2 && n % 100 != 12 && n % 100 != 72 && n % 100 != 92 ? 1 : (n % 10 >= 3 && n % 10 <= 4 || n % 10 == 9) && (n % 100 < 10 || n % 100 > 19) && (n % 100 < 70 || n % 100 > 79) && (n % 100 < 90 || n % 100 > 99) ? 2 : n != 0 && n % 1000000 == 0 ? 3 : 4;";
  bs "nplurals=2; plural=(n <= 1 || n >= 11 && n <= 99);"].

(** ** catalog/cldrplural/generator *)

(** catalog/cldrplural/generator/compiler.go:135-154 (goOperandName) *)
Definition go_operand_name (o : bytes) : res bytes :=
  if beq o (bs "n") then Ok (bs "ops.N")
  else if beq o (bs "i") then Ok (bs "ops.I")
  else if beq o (bs "v") then Ok (bs "ops.V")
  else if beq o (bs "w") then Ok (bs "ops.W")
  else if beq o (bs "f") then Ok (bs "ops.F")
  else if beq o (bs "t") then Ok (bs "ops.T")
  else if beq o (bs "c") || beq o (bs "e") then Ok (bs "ops.C")
  else Panic.

(** catalog/cldrplural/generator/compiler.go:22-29 (ModuloExpr, OperandExpr) *)
Definition gen_expr (e : cexpr) : res bytes :=
  do x <- go_operand_name (ce_operand e);
  match ce_mod e with
  | None => Ok x
  | Some m =>
      if beq (ce_operand e) (bs "n") then Ok (bs "math.Mod(" ++ x ++ bs ", " ++ itoa m ++ bs ")")
      else Ok (x ++ bs " % " ++ itoa m)
  end.

(** catalog/cldrplural/generator/compiler.go:38-53: ast.Inspect visits the
    values and ranges in order; a range contributes its two ends. *)
Fixpoint single_values (l : list relem) : list bytes :=
  match l with
  | [] => []
  | RVal v :: l' => itoa v :: single_values l'
  | RRange _ _ :: l' => single_values l'
  end.
Fixpoint value_ranges (l : list relem) : list bytes :=
  match l with
  | [] => []
  | RVal _ :: l' => value_ranges l'
  | RRange a b :: l' => itoa a :: itoa b :: value_ranges l'
  end.

(** catalog/cldrplural/generator/compiler.go:59-72 *)
Definition gen_ranges (is_float : bool) (x : bytes) (rs : list bytes) : bytes :=
  match rs with
  | [] => []
  | _ =>
      match rs, is_float with
      | [a; b], false => bs "(" ++ x ++ bs " >= " ++ a ++ bs " && " ++ x ++ bs " <= " ++ b ++ bs ")"
      | _, _ =>
          (if is_float then bs "isFloatInRange(" else bs "isIntInRange(") ++ x ++ bs ", " ++
          join (bs ",") rs ++ bs ")"
      end
  end.

(** catalog/cldrplural/generator/compiler.go:91-97: the loop over at most
    three values *)
Fixpoint gen_or_values (vs : list bytes) : bytes :=
  match vs with
  | [] => []
  | [v] => bs "ops.I == " ++ v
  | v :: vs' => bs "ops.I == " ++ v ++ bs " || " ++ gen_or_values vs'
  end.

(** catalog/cldrplural/generator/compiler.go:84-106, several values *)
Definition gen_values (is_float : bool) (x : bytes) (vs : list bytes) : bytes :=
  (if is_float then bs "isFloatOneOf(" ++ x ++ bs ", " ++ join (bs ",") vs
   else if (Nat.leb (length vs) 3) && beq x (bs "ops.I") then bs "(" ++ gen_or_values vs
   else bs "slices.Contains([]int64{" ++ join (bs ",") vs ++ bs "}, " ++ x) ++ bs ")".

(** strings.Contains *)
Fixpoint str_contains (s sub : bytes) : bool :=
  has_prefix s sub || match s with [] => false | _ :: s' => str_contains s' sub end.

(** catalog/cldrplural/generator/compiler.go:30-128 (InRelationExpr); [neg] is
    [e.Op == ast.NotEqual]. *)
Definition gen_rel (neg : bool) (e : cexpr) (l : list relem) : res bytes :=
  let vs := single_values l in
  let rs := value_ranges l in
  do x <- gen_expr e;
  let is_float := beq (ce_operand e) (bs "n") in
  let r := gen_ranges is_float x rs in
  let sep := match vs, rs with _ :: _, _ :: _ => bs " || " | _, _ => [] end in
  match vs, rs, neg with
  | [v], [], true => Ok (x ++ bs " != " ++ v)
  | _, _, _ =>
      let v :=
        match vs with
        | [] => []
        | [v] => x ++ bs " == " ++ v
        | _ => gen_values is_float x vs
        end in
      let t := r ++ sep ++ v in
      let multiple := str_contains t (bs " || ") in
      if neg then Ok (if multiple then bs "!( " ++ t ++ bs " )" else bs "!" ++ t)
      else Ok (if multiple then bs "( " ++ t ++ bs " )" else t)
  end.

(** catalog/cldrplural/generator/compiler.go:12-133 (compileNode); the operands
    are compiled first. *)
Fixpoint gen_cnode (a : cnode) : res bytes :=
  match a with
  | CAnd x y => do l <- gen_cnode x; do r <- gen_cnode y; Ok (l ++ bs " && " ++ r)
  | COr x y => do l <- gen_cnode x; do r <- gen_cnode y; Ok (l ++ bs " || " ++ r)
  | CRel neg e l => gen_rel neg e l
  end.

(** catalog/cldrplural/generator/main.go:89-93 (ConvertToGo); checkError ends
    the program, a rule without a condition has no root and gives "". *)
Definition convert_to_go (fuel : nat) (raw : bytes) : res bytes :=
  do r <- CldrModel.parse_rule fuel raw;
  match cr_root r with Some n => gen_cnode n | None => Ok [] end.

(** catalog/cldrplural/generator/main.go:99-101 (HasCondition) *)
Definition has_condition (raw : bytes) : bool := negb (has_prefix (trim_space raw) (bs "@")).

(** catalog/cldrplural/generator/json.go:41-44 (WithoutExamples); without an @
    the slice bounds are out of range. *)
Fixpoint before_at (s : bytes) : option bytes :=
  match s with
  | [] => None
  | c :: s' => if (c =? "@")%char then Some [] else option_map (cons c) (before_at s')
  end.
Definition without_examples (raw : bytes) : res bytes :=
  match before_at raw with Some s => Ok (trim_space s) | None => Panic end.

(** catalog/cldrplural/cldr.go:25-32 (CategoryNames) *)
Definition category_name (c : category) : bytes :=
  match c with
  | Zero => bs "Zero" | One => bs "One" | Two => bs "Two"
  | Few => bs "Few" | Many => bs "Many" | Other => bs "Other"
  end.

Definition tabs (n : nat) : bytes := LF :: repeat TAB n.

(** catalog/cldrplural/generator/main.go:145-156, the body of FormFunc in the
    template for one rule, with the white space trimmed by [-] removed. *)
Definition gen_case (fuel : nat) (c : category) (raw : bytes) : res bytes :=
  if has_condition raw then
    do w <- without_examples raw;
    do g <- convert_to_go fuel raw;
    Ok (tabs 5 ++ bs "// " ++ w ++ tabs 5 ++ bs "if " ++ g ++ bs " {" ++ tabs 6 ++
        bs "return " ++ category_name c ++ tabs 5 ++ bs "}" ++ tabs 4)
  else
    do w <- without_examples raw;
    Ok (tabs 5 ++ match w with [] => [] | _ => bs "// " ++ w end ++ tabs 5 ++
        bs "return " ++ category_name c).
Fixpoint gen_form_func (fuel : nat) (rules : list (category * bytes)) : res bytes :=
  match rules with
  | [] => Ok (tabs 2)
  | (c, raw) :: rules' =>
      do t <- gen_case fuel c raw;
      do r <- gen_form_func fuel rules';
      Ok (t ++ r)
  end.

(** catalog/cldrplural/generator/json.go:57-78 (ToData): the rules present in
    the order of the categories; [j] gives the text for a category, empty when
    absent. *)
Definition to_data (j : category -> bytes) : list (category * bytes) :=
  filter (fun x => match snd x with [] => false | _ => true end)
    (map (fun c => (c, j c)) [Zero; One; Two; Few; Many; Other]).
