(** Model of catalog/cldrplural: categories, operands, the rule scanner and
    parser (ast/), and the rule evaluator. *)
From Coq Require Import String Ascii List ZArith QArith Bool.
From Verif Require Import Base Utf8Model StrModel PopModel NumModel F64Model ReModel.
Import ListNotations.
Open Scope Z_scope.

(** catalog/cldrplural/cldr.go:13-22 *)
Inductive category : Type := Zero | One | Two | Few | Many | Other.

Definition cat_eqb (a b : category) : bool :=
  match a, b with
  | Zero, Zero | One, One | Two, Two | Few, Few | Many, Many | Other, Other => true
  | _, _ => false
  end.

(** catalog/cldrplural/cldr.go:63-78.  N is a float64, kept as its exact
    value. *)
Record ops : Type := Ops {
  oN : Q; oI : Z; oV : Z; oW : Z; oF : Z; oT : Z; oC : Z }.

(** catalog/cldrplural/cldr.go:44-49 *)
Record rule_set : Type := RuleSet {
  rs_categories : list category;
  rs_form : ops -> category }.

(** ** Operands *)

(** catalog/cldrplural/cldr.go:117-122.  [-i] of the smallest int64 is that
    value again. *)
Definition new_operands_int (i : Z) : ops :=
  let a := if (i <? 0) && negb (i =? minInt64) then - i else i in
  Ops (inject_Z (f64_of_int a)) a 0 0 0 0 0.

(** catalog/cldrplural/cldr.go:170-193 (the loop).  Bytes instead of runes:
    only digits, sign and point survive the later ParseFloat. *)
Fixpoint shift_loop (raw : bytes) (c : Z) (shift : bool) : bytes * Z :=
  match raw with
  | [] => ([], c)
  | r :: t =>
      if Ascii.eqb r "." then shift_loop t c true
      else
        let dot := (c =? 0) && shift in
        let shift' := shift && negb dot in
        let c' := if shift' then c - 1 else c in
        let (o, c2) := shift_loop t c' shift' in
        ((if dot then ["."%char; r] else [r]) ++ o, c2)
  end.
Definition shift_decimal_point (raw : bytes) (c : Z) : bytes :=
  let (o, c2) := shift_loop raw c false in
  o ++ repeat "0"%char (Z.to_nat c2).

(** strconv.ParseInt with its error returned. *)
Definition parse_int_err (s : bytes) : res Z :=
  match parse_int s with PInt v => Ok v | _ => Err end.

(** catalog/cldrplural/cldr.go:144-165: V, F, W and T from the text after the
    first point. *)
Definition fraction_ops (raw : bytes) : res (Z * Z * Z * Z) :=
  match index_byte "." raw with
  | None => Ok (0, 0, 0, 0)
  | Some i =>
      let fd := skipn (S i) raw in
      do vf <- match fd with
               | [] => Ok (0, 0)
               | _ => do f <- parse_int_err fd ; Ok (Z.of_nat (length fd), f)
               end ;
      let wz := trim_zeros fd in
      do wt <- match wz with
               | [] => Ok (0, 0)
               | _ => do t <- parse_int_err wz ; Ok (Z.of_nat (length wz), t)
               end ;
      Ok (fst vf, snd vf, fst wt, snd wt)
  end.

(** catalog/cldrplural/cldr.go:124-168 (newOperandsString) *)
Definition new_operands_string (raw0 : bytes) : res ops :=
  do cr <- match index_byte "c" raw0 with
           | Some i =>
               do c <- parse_int_err (skipn (S i) raw0) ;
               Ok (c, shift_decimal_point (firstn i raw0) c)
           | None => Ok (0, raw0)
           end ;
  do src <- parse_float (snd cr) ;
  do x <- fraction_ops (snd cr) ;
  match x with
  | (v, f, w, t) =>
      Ok (Ops (snd src) (f64_trunc (fst src) (snd src)) v w f t (fst cr))
  end.

(** Arguments of Evaluate: int and int64; the other integer kinds, which go
    through cast.ToNumber to a float64; floats, given by their shortest
    decimal digits (value 0.digs * 10^dp); strings; nil.  Pointers are
    dereferenced first; complex and other types are not modelled. *)
Inductive carg : Type :=
| CInt (z : Z)
| CKind (k : ikind) (z : Z)
| CFloat (neg : bool) (digs : bytes) (dp : Z)
| CString (s : bytes)
| CNil.

(** strconv's shortest decimal of an integral float64 f >= 0 (below 10^20): the
    number with the most zeros at its end that rounds to f, of two such numbers
    the nearer one.  Below 2^53 it is f itself. *)
Fixpoint shortest_loop (f : Z) (k : nat) : Z :=
  match k with
  | O => f
  | S k' =>
      let p := 10 ^ Z.of_nat k in
      let lo := f / p * p in
      let hi := lo + p in
      if f64_of_nat lo =? f
      then if (f64_of_nat hi =? f) && (hi - f <? f - lo) then hi else lo
      else if f64_of_nat hi =? f then hi
      else shortest_loop f k'
  end.
Definition shortest_int (f : Z) : Z := shortest_loop f 20.
Definition int_digits (z : Z) : bytes := trim_zeros (utoa (shortest_int (Z.abs z))).
Definition int_dp (z : Z) : Z := Z.of_nat (length (utoa (shortest_int (Z.abs z)))).

(** catalog/cldrplural/cldr.go:91-115 (NewOperands) with
    internal/cast/number.go:10-40 for the integer kinds. *)
Definition new_operands (a : carg) : res ops :=
  match a with
  | CInt z => Ok (new_operands_int z)
  | CKind _ z =>
      let f := f64_of_int z in
      new_operands_string (fmt_v (f <? 0) (int_digits f) (int_dp f))
  | CFloat neg digs dp => new_operands_string (fmt_v neg digs dp)
  | CString s => new_operands_string s
  | CNil => Err
  end.

(** catalog/cldrplural/cldr.go:51-58 (Evaluate) *)
Definition rs_evaluate (r : rule_set) (a : carg) : res category :=
  do o <- new_operands a ; Ok (rs_form r o).

(** ** Comparisons used by the generated rules *)

(** catalog/cldrplural/evaluation.go:160-164: the loop over [n] values from
    [v] on. *)
Fixpoint range_loop (x : Q) (v : Z) (n : nat) : bool :=
  match n with
  | O => false
  | S n' => if float_equal (inject_Z (f64_of_int v)) x then true
            else range_loop x (v + 1) n'
  end.

Definition qle (a b : Q) : bool := Qle_bool a b.
Definition qeq (a b : Q) : bool := Qeq_bool a b.

(** One range of catalog/cldrplural/evaluation.go:149-168. *)
Definition in_range1 (x : Q) (l u : Z) : bool :=
  if qle (inject_Z (f64_of_int l)) x && qle x (inject_Z (f64_of_int u))
  then range_loop x l (Z.to_nat (u - l + 1))
  else false.

(** catalog/cldrplural/evaluation.go:149-168 (isFloatInRange); the values come
    in pairs. *)
Fixpoint is_float_in_range (x : Q) (l : list (Z * Z)) : bool :=
  match l with
  | [] => false
  | (a, b) :: l' => if in_range1 x a b then true else is_float_in_range x l'
  end.

(** catalog/cldrplural/evaluation.go:170-178 (isFloatOneOf) *)
Fixpoint is_float_one_of (x : Q) (l : list Z) : bool :=
  match l with
  | [] => false
  | v :: l' => if float_equal (inject_Z (f64_of_int v)) x then true else is_float_one_of x l'
  end.

(** slices.Contains on int64 *)
Definition contains (l : list Z) (z : Z) : bool := existsb (Z.eqb z) l.

(** [ops.N == k] and [math.Mod(ops.N, m) == k] for integer constants *)
Definition neq_const (x : Q) (k : Z) : bool := qeq x (inject_Z k).

(** ** Rule scanner *)

(** catalog/cldrplural/ast/scanner.go:12-27 *)
Inductive ctok : Type :=
  KEof | KUnknown | KOperand | KValue | KEqual | KNotEqual | KRange | KAnd | KOr
| KRem | KSample | KSampleValue | KSampleRange.

(** \d+, and the alternatives of catalog/cldrplural/ast/scanner.go:29-34 *)
Definition re_value : re := rplus rdigit.
Definition r19 : re := RSet (fun c => (49 <=? bval c) && (bval c <=? 57)).
Definition re_range : re :=
  rseq [rplus rdigit; rlit (bs ".."); r19; RStar rdigit].
Definition re_int : re := RAlt (rchar "0") (RSeq r19 (RStar rdigit)).
Definition re_sample_value : re :=
  RAlt
    (RSeq (RAlt (rchar "0") (rseq [r19; RStar rdigit; ropt (rchar "c"); RStar rdigit]))
          (ropt (RSeq (rchar ".") (RStar rdigit))))
    (RSeq (RAlt (rchar "0") (rseq [r19; RStar rdigit; RStar rdigit]))
          (ropt (rseq [rchar "."; RStar rdigit; ropt (rchar "c"); RStar rdigit]))).
Definition re_sample_range : re :=
  rseq [re_int; ropt (RSeq (rchar ".") (RStar rdigit)); rchar "~";
        re_int; ropt (RSeq (rchar ".") (RStar rdigit))].

(** strings.ToLower, as far as comparison with ASCII keywords goes: ASCII
    letters, and U+0130 whose lower case is [i].  (U+212A, the only other rune
    with an ASCII lower case, gives [k], which no keyword contains.) *)
Fixpoint kw_lower (s : bytes) : bytes :=
  match s with
  | a :: ((b :: t) as s') =>
      if (bval a =? 196) && (bval b =? 176) then "i"%char :: kw_lower t
      else lower a :: kw_lower s'
  | [a] => [lower a]
  | [] => []
  end.

(** catalog/cldrplural/ast/scanner.go:117-121 (generateTokens) *)
Definition generate_tokens (s : bytes) : list bytes :=
  fields (fun r => is_space r || (r =? 44)) (segs_fuel (length s) s) [].

Definition mem_b (x : bytes) (l : list bytes) : bool := existsb (beq x) l.

(** catalog/cldrplural/ast/scanner.go:50-99 (Scan) on the remaining tokens. *)
Fixpoint cscan (ts : list bytes) : ctok * bytes * list bytes :=
  match ts with
  | [] => (KEof, [], [])
  | lit :: r =>
      let l := kw_lower lit in
      if beq l [] then (KEof, [], r)
      else if mem_b l [bs "n"; bs "i"; bs "v"; bs "w"; bs "f"; bs "t"; bs "c"; bs "e"]
        then (KOperand, lit, r)
      else if beq l (bs "=") then (KEqual, lit, r)
      else if mem_b l [bs "%"; bs "mod"] then (KRem, bs "%", r)
      else if beq l (bs "!=") then (KNotEqual, bs "!=", r)
      else if mem_b l [bs "@integer"; bs "@decimal"] then (KSample, lit, r)
      else if beq l (bs "and") then (KAnd, lit, r)
      else if beq l (bs "or") then (KOr, lit, r)
      else if mem_b l [encode_rune 8230; bs "..."; bs "."] then cscan r
      else
        let classify (x : bytes) : ctok :=
          if rmatch re_value x then KValue
          else if rmatch re_sample_value x then KSampleValue
          else if rmatch re_range x then KRange
          else if rmatch re_sample_range x then KSampleRange
          else KUnknown in
        match r with
        | nx :: r2 =>
            if mem_b nx [bs ".."; bs "~"] then
              match r2 with
              | [] => (KUnknown, lit ++ nx, [])
              | n3 :: r3 => let x := lit ++ nx ++ n3 in (classify x, x, r3)
              end
            else (classify lit, lit, r)
        | [] => (classify lit, lit, [])
        end
  end.

(** ** Rule parser *)

(** catalog/cldrplural/ast/ast.go:12-38.  A RangeListExpr chain is the list of
    its X fields. *)
Inductive relem : Type := RVal (v : Z) | RRange (from to : Z).
Record cexpr : Type := CExpr { ce_operand : bytes; ce_mod : option Z }.
Inductive cnode : Type :=
| CRel (neg : bool) (e : cexpr) (l : list relem)
| CAnd (x y : cnode)
| COr (x y : cnode).

(** Parser state: last token, last literal, remaining tokens. *)
Record pst : Type := PSt { p_tok : ctok; p_lit : bytes; p_rest : list bytes }.

(** catalog/cldrplural/ast/parser.go:326-341 (scanNext; the one-token buffer n
    is never set) *)
Definition pnext (st : pst) : res pst :=
  match cscan (p_rest st) with
  | (KUnknown, _, _) => Err
  | (t, l, r) => Ok (PSt t l r)
  end.

Definition tok_eqb (a b : ctok) : bool :=
  match a, b with
  | KEof, KEof | KUnknown, KUnknown | KOperand, KOperand | KValue, KValue
  | KEqual, KEqual | KNotEqual, KNotEqual | KRange, KRange | KAnd, KAnd | KOr, KOr
  | KRem, KRem | KSample, KSample | KSampleValue, KSampleValue
  | KSampleRange, KSampleRange => true
  | _, _ => false
  end.

(** catalog/cldrplural/ast/parser.go:208-220 (value; the ParseInt error is
    ignored) *)
Definition p_value (st : pst) : res (Z * pst) :=
  match p_tok st with
  | KValue => let v := parse_int_ignore (p_lit st) in do st' <- pnext st ; Ok (v, st')
  | _ => Err
  end.

(** strings.Split(s, "..") *)
Fixpoint split_dots (s : bytes) : list bytes :=
  match s with
  | [] => [[]]
  | a :: ((b :: t) as s') =>
      if Ascii.eqb a "." && Ascii.eqb b "." then [] :: split_dots t
      else match split_dots s' with
           | [] => [[a]]
           | l :: ls => (a :: l) :: ls
           end
  | [a] => [[a]]
  end.

(** catalog/cldrplural/ast/parser.go:256-289 (rangeExpression) *)
Definition p_range (st : pst) : res (relem * pst) :=
  match p_tok st with
  | KRange =>
      match split_dots (p_lit st) with
      | [a; b] =>
          do l <- parse_int_err a ;
          do r <- parse_int_err b ;
          if r <? l then Err
          else do st' <- pnext st ; Ok (RRange l r, st')
      | _ => Err
      end
  | _ => Err
  end.

(** catalog/cldrplural/ast/parser.go:223-253 (rangeList) *)
Fixpoint p_list (fuel : nat) (st : pst) : res (list relem * pst) :=
  match fuel with
  | O => OutOfFuel
  | S f =>
      do xs <- match p_tok st with
               | KValue => do vs <- p_value st ; Ok (RVal (fst vs), snd vs)
               | KRange => p_range st
               | _ => Err
               end ;
      match p_tok (snd xs) with
      | KRange | KValue => do ls <- p_list f (snd xs) ; Ok (fst xs :: fst ls, snd ls)
      | _ => Ok ([fst xs], snd xs)
      end
  end.

(** catalog/cldrplural/ast/parser.go:176-205 (expression) *)
Definition p_expression (st : pst) : res (cexpr * pst) :=
  match p_tok st with
  | KOperand =>
      let o := p_lit st in
      do st1 <- pnext st ;
      match p_tok st1 with
      | KRem =>
          do st2 <- pnext st1 ;
          do vs <- p_value st2 ;
          Ok (CExpr o (Some (fst vs)), snd vs)
      | _ => Ok (CExpr o None, st1)
      end
  | _ => Err
  end.

(** catalog/cldrplural/ast/parser.go:149-174 (relation) *)
Definition p_relation (fuel : nat) (st : pst) : res (cnode * pst) :=
  do es <- p_expression st ;
  match p_tok (snd es) with
  | KEqual | KNotEqual =>
      do st2 <- pnext (snd es) ;
      do ls <- p_list fuel st2 ;
      Ok (CRel (tok_eqb (p_tok (snd es)) KNotEqual) (fst es) (fst ls), snd ls)
  | _ => Err
  end.

(** catalog/cldrplural/ast/parser.go:122-147 (andCondition) *)
Fixpoint p_andc (fuel : nat) (st : pst) : res (cnode * pst) :=
  match fuel with
  | O => OutOfFuel
  | S f =>
      do ls <- p_relation (S f) st ;
      match p_tok (snd ls) with
      | KAnd =>
          do st1 <- pnext (snd ls) ;
          do rs <- p_andc f st1 ;
          Ok (CAnd (fst ls) (fst rs), snd rs)
      | _ => Ok ls
      end
  end.

(** catalog/cldrplural/ast/parser.go:95-120 (condition) *)
Fixpoint p_cond (fuel : nat) (st : pst) : res (cnode * pst) :=
  match fuel with
  | O => OutOfFuel
  | S f =>
      do ls <- p_andc (S f) st ;
      match p_tok (snd ls) with
      | KOr =>
          do st1 <- pnext (snd ls) ;
          do rs <- p_cond f st1 ;
          Ok (COr (fst ls) (fst rs), snd rs)
      | _ => Ok ls
      end
  end.

(** catalog/cldrplural/ast/parser.go:360-378 (increment), on the reversed
    text: the result and whether a carry is left.  Sample ranges are ASCII, so
    runes are bytes. *)
Fixpoint incr_rev (l : bytes) : bytes * bool :=
  match l with
  | [] => ([], true)
  | c :: t =>
      if Ascii.eqb c "." then let (t', k) := incr_rev t in (c :: t', k)
      else if Ascii.eqb c "9" then let (t', k) := incr_rev t in ("0"%char :: t', k)
      else (byte_of (bval c + 1) :: t, false)
  end.
Definition increment (s : bytes) : bytes :=
  let (r, k) := incr_rev (rev s) in
  if k then "1"%char :: rev r else rev r.

(** catalog/cldrplural/ast/parser.go:345-358 (parseSampleRange): the loop has
    no bound of its own; [fuel] bounds it in the model. *)
Fixpoint sample_loop (fuel : nat) (ex stop : bytes) : res (list bytes) :=
  match fuel with
  | O => OutOfFuel
  | S f =>
      if beq ex stop then Ok [ex]
      else do l <- sample_loop f (increment ex) stop ; Ok (ex :: l)
  end.
Definition parse_sample_range (fuel : nat) (s : bytes) : res (list bytes) :=
  match split_on "~" s with
  | [a; b] => sample_loop fuel a b
  | l => Ok l
  end.

(** catalog/cldrplural/ast/parser.go:302-321 (samples, the loop).  [steps]
    counts tokens; [fuel] is for sample ranges. *)
Fixpoint samples_loop (fuel steps : nat) (st : pst) : res (list bytes) :=
  match p_tok st with
  | KEof => Ok []
  | _ =>
      match steps with
      | O => OutOfFuel
      | S n =>
          match p_tok st with
          | KSample => do st' <- pnext st ; samples_loop fuel n st'
          | KSampleValue | KValue =>
              do st' <- pnext st ;
              do l <- samples_loop fuel n st' ; Ok (p_lit st :: l)
          | KSampleRange =>
              do rs <- parse_sample_range fuel (p_lit st) ;
              do st' <- pnext st ;
              do l <- samples_loop fuel n st' ; Ok (rs ++ l)
          | _ => Err
          end
      end
  end.

(** catalog/cldrplural/ast/parser.go:291-324 (samples) *)
Definition p_samples (fuel steps : nat) (st : pst) : res (list bytes) :=
  match p_tok st with
  | KEof => Ok []
  | KSample => samples_loop fuel steps st
  | _ => Err
  end.

(** catalog/cldrplural/ast/ast.go:3-6 (Rule); a nil Root is None. *)
Record crule : Type := CRule { cr_root : option cnode; cr_samples : list bytes }.

(** catalog/cldrplural/ast/parser.go:61-93 (Parse) *)
Definition parse_rule (fuel : nat) (s : bytes) : res crule :=
  let ts := generate_tokens s in
  let k := S (length ts) in
  do st <- pnext (PSt KEof [] ts) ;
  do ns <- match p_tok st with
           | KSample => Ok (None, st)
           | _ => do r <- p_cond k st ; Ok (Some (fst r), snd r)
           end ;
  do sm <- p_samples fuel k (snd ns) ;
  Ok (CRule (fst ns) sm).

(** ** Rule evaluation *)

(** Go's integer remainder: panics on zero. *)
Definition irem (a b : Z) : res Z := if b =? 0 then Panic else Ok (Z.rem a b).

(** catalog/cldrplural/evaluation.go:101-145 (evaluateExpression); None is
    NaN, the value of math.Mod(x, 0). *)
Definition eval_expr (e : cexpr) (o : ops) : res (option Q) :=
  let lit := ce_operand e in
  let fz (z : Z) : option Q := Some (inject_Z (f64_of_int z)) in
  let int_op (z : Z) : res (option Q) :=
    match ce_mod e with
    | None => Ok (fz z)
    | Some m => do r <- irem z m ; Ok (fz r)
    end in
  if beq lit (bs "n") then
    match ce_mod e with
    | None => Ok (Some (oN o))
    | Some m => Ok (if m =? 0 then None else Some (fmod (oN o) (f64_of_int m)))
    end
  else if beq lit (bs "i") then int_op (oI o)
  else if beq lit (bs "v") then int_op (oV o)
  else if beq lit (bs "w") then int_op (oW o)
  else if beq lit (bs "f") then int_op (oF o)
  else if beq lit (bs "t") then int_op (oT o)
  else if beq lit (bs "c") || beq lit (bs "e") then int_op (oC o)
  else Panic.

(** One element of the range list, catalog/cldrplural/evaluation.go:74-89.
    Comparisons with NaN are false.  With an upper end of maxInt64 the loop
    variable of isFloatInRange wraps around and the loop does not end unless
    it finds the value. *)
Definition elem_matches (x : option Q) (e : relem) : res bool :=
  match x with
  | None => Ok false
  | Some q =>
      match e with
      | RVal v => Ok (qeq (inject_Z (f64_of_int v)) q)
      | RRange a b =>
          if in_range1 q a b then Ok true
          else if (b =? maxInt64) && qle (inject_Z (f64_of_int a)) q
                  && qle q (inject_Z (f64_of_int b)) then OutOfFuel
          else Ok false
      end
  end.

(** ast.Inspect over the list (catalog/cldrplural/ast/walk.go:7-28): a match
    of one element does not stop the walk over the others. *)
Fixpoint list_matches (x : option Q) (l : list relem) : res bool :=
  match l with
  | [] => Ok false
  | e :: l' =>
      do b <- elem_matches x e ;
      do c <- list_matches x l' ;
      Ok (b || c)
  end.

(** catalog/cldrplural/evaluation.go:61-99 (evaluateNode): both sides are
    always evaluated. *)
Fixpoint eval_cnode (n : cnode) (o : ops) : res bool :=
  match n with
  | CRel neg e l =>
      do x <- eval_expr e o ;
      do b <- list_matches x l ;
      Ok (xorb neg b)
  | CAnd x y => do a <- eval_cnode x o ; do b <- eval_cnode y o ; Ok (a && b)
  | COr x y => do a <- eval_cnode x o ; do b <- eval_cnode y o ; Ok (a || b)
  end.

(** catalog/cldrplural/evaluation.go:53-59 (evaluate) *)
Definition eval_rule (r : crule) (o : ops) : res bool :=
  match cr_root r with None => Ok true | Some n => eval_cnode n o end.

(** catalog/cldrplural/evaluation.go:37-47: the form function; the list is the
    rule map in the order the iteration happens to take. *)
Fixpoint form_rules (rules : list (category * crule)) (o : ops) : res category :=
  match rules with
  | [] => Ok Other
  | (c, r) :: rest => do b <- eval_rule r o ; if b then Ok c else form_rules rest o
  end.

(** catalog/cldrplural/evaluation.go:20-50 (ParseRules): the parsed rules and
    the categories, both in iteration order. *)
Fixpoint parse_all (fuel : nat) (raw : list (category * bytes)) : res (list (category * crule)) :=
  match raw with
  | [] => Ok []
  | (c, s) :: raw' =>
      do r <- parse_rule fuel s ;
      do rs <- parse_all fuel raw' ;
      Ok ((c, r) :: rs)
  end.
Definition parse_rules (fuel : nat) (raw : list (category * bytes))
  : res (list category * list (category * crule)) :=
  do rs <- parse_all fuel raw ;
  let cats := map fst raw in
  Ok ((if existsb (cat_eqb Other) cats then cats else cats ++ [Other]), rs).

(** ** PO form index *)

(** catalog/po_decoder.go:152-172 (getCLDRPluralFunction): the map from
    categories to positions; a later entry replaces an earlier one. *)
Fixpoint cat_form (cs : list category) (i : nat) (c : category) : option nat :=
  match cs with
  | [] => None
  | k :: cs' =>
      match cat_form cs' (S i) c with
      | Some j => Some j
      | None => if cat_eqb k c then Some i else None
      end
  end.
Definition cldr_plural_index (r : rule_set) (a : carg) : res nat :=
  do c <- rs_evaluate r a ;
  Ok (match cat_form (rs_categories r) 0 c with Some i => i | None => 0%nat end).
