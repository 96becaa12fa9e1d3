(** Model of catalog/poplural: scanner, parser, evaluator and string compiler
    of Plural-Forms headers.  The built-in tables are in PopBuiltin.v. *)
From Coq Require Import String Ascii List ZArith Bool.
From Verif Require Import Base.
Import ListNotations.
Open Scope Z_scope.

(** catalog/poplural/ast/token.go:3-28 *)
Inductive tok : Type :=
| TEof | TWs | TFail | TValue | TOperand | TPlural | TNPlurals
| TEq | TAssign | TGt | TGe | TLt | TLe | TRem | TNe | TAnd | TOr
| TQuestion | TColon | TSemi | TLB | TRB.

Definition tok_eqb (a b : tok) : bool :=
  match a, b with
  | TEof, TEof | TWs, TWs | TFail, TFail | TValue, TValue
  | TOperand, TOperand | TPlural, TPlural | TNPlurals, TNPlurals
  | TEq, TEq | TAssign, TAssign | TGt, TGt | TGe, TGe | TLt, TLt
  | TLe, TLe | TRem, TRem | TNe, TNe | TAnd, TAnd | TOr, TOr
  | TQuestion, TQuestion | TColon, TColon | TSemi, TSemi
  | TLB, TLB | TRB, TRB => true
  | _, _ => false
  end.

(** catalog/poplural/ast/scanner.go:163 (isWhitespace) *)
Definition sc_ws (c : ascii) : bool :=
  Ascii.eqb c SP || Ascii.eqb c TAB || Ascii.eqb c LF.

(** The read loops of scanWhitespace, scanNumber and scanText,
    catalog/poplural/ast/scanner.go:92-102, 112-121, 130-139.  Reading NUL is
    taken for the end of the input (scannerEOF = rune(0), line 170): the NUL is
    consumed and not unread.  The input is read rune by rune in Go; every
    character class used here is ASCII, a byte >= 0x80 always belongs to a rune
    outside all classes, so working on bytes is exact up to the number of bytes
    skipped by a [failure] token, after which no caller scans again. *)
Fixpoint take_run (p : ascii -> bool) (s : bytes) : bytes * bytes :=
  match s with
  | [] => ([], [])
  | c :: s' =>
      if Ascii.eqb c NUL then ([], s')
      else if p c then let (a, r) := take_run p s' in (c :: a, r)
      else ([], s)
  end.

(** keyword switch of scanText, catalog/poplural/ast/scanner.go:141-150 *)
Definition word_tok (w : bytes) : tok :=
  let l := to_lower w in
  if beq l (bs "nplurals") then TNPlurals
  else if beq l (bs "plural") then TPlural
  else if beq l (bs "n") then TOperand
  else TFail.

(** one scanned token with its literal and the unread input *)
Record lexed := Lexed { lx_tok : tok; lx_lit : bytes; lx_rest : bytes }.

(** first rune of the rest, 0 at the end of input: s.read() *)
Definition peek (s : bytes) : ascii :=
  match s with [] => NUL | c :: _ => c end.

(** catalog/poplural/ast/scanner.go:24-85 (scan) *)
Definition scan (s : bytes) : lexed :=
  match s with
  | [] => Lexed TEof [] []
  | c :: s' =>
      if Ascii.eqb c NUL then Lexed TEof [] s'
      else if sc_ws c then
        let (a, r) := take_run sc_ws s' in Lexed TWs (c :: a) r
      else if is_letter c then
        let (a, r) :=
          take_run (fun x => is_letter x || Ascii.eqb x "_") s' in
        Lexed (word_tok (c :: a)) (c :: a) r
      else if is_digit c then
        let (a, r) := take_run (fun x => is_digit x || Ascii.eqb x "_") s' in
        Lexed TValue (c :: a) r
      else if Ascii.eqb c "%" then Lexed TRem [c] s'
      else if Ascii.eqb c "?" then Lexed TQuestion [c] s'
      else if Ascii.eqb c ":" then Lexed TColon [c] s'
      else if Ascii.eqb c ";" then Lexed TSemi [c] s'
      else if Ascii.eqb c "(" then Lexed TLB [c] s'
      else if Ascii.eqb c ")" then Lexed TRB [c] s'
      else
        let d := peek s' in
        let two := [c; d] in
        if beq two (bs "!=") then Lexed TNe two (tl s')
        else if beq two (bs "&&") then Lexed TAnd two (tl s')
        else if beq two (bs "==") then Lexed TEq two (tl s')
        else if beq two (bs "||") then Lexed TOr two (tl s')
        else if beq two (bs ">=") then Lexed TGe two (tl s')
        else if beq two (bs "<=") then Lexed TLe two (tl s')
        else if Ascii.eqb c "<" then Lexed TLt [c] s'
        else if Ascii.eqb c ">" then Lexed TGt [c] s'
        else if Ascii.eqb c "=" then Lexed TAssign [c] s'
        else Lexed TFail [c] s'
  end.

(** catalog/poplural/ast/parser.go:338-344 (scanIgnoreWhitespace); the
    one-token buffer [n] of parser.scan (324-335) is never set and is left
    out. *)
Definition scan_iw (s : bytes) : lexed :=
  let l := scan s in
  match lx_tok l with TWs => scan (lx_rest l) | _ => l end.

(** catalog/poplural/ast/node.go.  [Token]-typed operators are restricted to
    the nine the parser creates. *)
Inductive bop : Type :=
  BAnd | BOr | BEq | BNe | BGt | BGe | BLt | BLe | BRem.
Inductive node : Type :=
| NVal (v : Z)
| NOp
| NBin (o : bop) (x y : node)
| NCond (c t f : node).

(** Parser state: the last token read is the current one
    (parser.lastToken/lastLiteral), [lx_rest] is the unread input. *)
Notation pst := lexed.

(** catalog/poplural/ast/parser.go:317-322 (scanNext) *)
Definition scan_next (st : pst) : res pst :=
  let l := scan_iw (lx_rest st) in
  match lx_tok l with
  | TEof | TFail => Err
  | _ => Ok l
  end.

(** left rotation of the right-recursive chain,
    catalog/poplural/ast/parser.go:147-160 and 182-195.  Go rotates the tree in
    place; the nodes are not shared, so the functional version is the same. *)
Definition mk_chain (o : bop) (ln rn : node) : node :=
  match o, rn with
  | BOr, NBin BOr x y => NBin BOr (NBin BOr ln x) y
  | BAnd, NBin BAnd x y => NBin BAnd (NBin BAnd ln x) y
  | _, _ => NBin o ln rn
  end.

(** The functions below take the parser of a full expression as argument
    (Go: mutual recursion); [p_expr] ties the knot with fuel. *)
Section Levels.
  Variable pe : pst -> res (node * pst).

  (** catalog/poplural/ast/parser.go:280-315 (pmExpression) *)
  Definition p_pm (st : pst) : res (node * pst) :=
    match lx_tok st with
    | TOperand => do st1 <- scan_next st; Ok (NOp, st1)
    | TValue =>
        do st1 <- scan_next st; Ok (NVal (parse_int_ignore (lx_lit st)), st1)
    | TLB =>
        do st1 <- scan_next st;
        do (e, st2) <- pe st1;
        match lx_tok st2 with
        | TRB => do st3 <- scan_next st2; Ok (e, st3)
        | _ => Err
        end
    | _ => Err
    end.

  (** catalog/poplural/ast/parser.go:253-278 (multiplicativeExpression) *)
  Definition p_mul (st : pst) : res (node * pst) :=
    do (x, st1) <- p_pm st;
    match lx_tok st1 with
    | TRem =>
        do st2 <- scan_next st1;
        do (y, st3) <- p_pm st2;
        Ok (NBin BRem x y, st3)
    | _ => Ok (x, st1)
    end.

  Definition rel_op (t : tok) : option bop :=
    match t with
    | TGt => Some BGt | TLt => Some BLt | TGe => Some BGe | TLe => Some BLe
    | _ => None
    end.

  (** catalog/poplural/ast/parser.go:227-251 (relationalExpression) *)
  Definition p_rel (st : pst) : res (node * pst) :=
    do (x, st1) <- p_mul st;
    match rel_op (lx_tok st1) with
    | Some o =>
        do st2 <- scan_next st1;
        do (y, st3) <- p_mul st2;
        Ok (NBin o x y, st3)
    | None => Ok (x, st1)
    end.

  Definition eq_op (t : tok) : option bop :=
    match t with TEq => Some BEq | TNe => Some BNe | _ => None end.

  (** catalog/poplural/ast/parser.go:201-225 (equalityExpression) *)
  Definition p_eq (st : pst) : res (node * pst) :=
    do (x, st1) <- p_rel st;
    match eq_op (lx_tok st1) with
    | Some o =>
        do st2 <- scan_next st1;
        do (y, st3) <- p_rel st2;
        Ok (NBin o x y, st3)
    | None => Ok (x, st1)
    end.

  (** catalog/poplural/ast/parser.go:166-199 (logicalAndExpression) *)
  Fixpoint p_and (fuel : nat) (st : pst) : res (node * pst) :=
    match fuel with
    | O => OutOfFuel
    | S f =>
        do (x, st1) <- p_eq st;
        match lx_tok st1 with
        | TAnd =>
            do st2 <- scan_next st1;
            do (y, st3) <- p_and f st2;
            Ok (mk_chain BAnd x y, st3)
        | _ => Ok (x, st1)
        end
    end.

  (** catalog/poplural/ast/parser.go:131-164 (logicalOrExpression) *)
  Fixpoint p_or (fuel : nat) (st : pst) : res (node * pst) :=
    match fuel with
    | O => OutOfFuel
    | S f =>
        do (x, st1) <- p_and (S f) st;
        match lx_tok st1 with
        | TOr =>
            do st2 <- scan_next st1;
            do (y, st3) <- p_or f st2;
            Ok (mk_chain BOr x y, st3)
        | _ => Ok (x, st1)
        end
    end.
End Levels.

(** catalog/poplural/ast/parser.go:91-129 (expression) *)
Fixpoint p_expr (fuel : nat) (st : pst) : res (node * pst) :=
  match fuel with
  | O => OutOfFuel
  | S f =>
      do (c, st1) <- p_or (p_expr f) (S f) st;
      match lx_tok st1 with
      | TQuestion =>
          do st2 <- scan_next st1;
          do (t, st3) <- p_expr f st2;
          match lx_tok st3 with
          | TColon =>
              do st4 <- scan_next st3;
              do (e, st5) <- p_expr f st4;
              Ok (NCond c t e, st5)
          | _ => Err
          end
      | _ => Ok (c, st1)
      end
  end.

(** catalog/poplural/ast/parser.go:10-13 (Forms) *)
Record forms := Forms { f_nplurals : Z; f_root : node }.

(** if tok, lit := p.scanIgnoreWhitespace(); tok != want { return error } *)
Definition expect (want : tok) (s : bytes) : res lexed :=
  let l := scan_iw s in
  if tok_eqb (lx_tok l) want then Ok l else Err.

(** catalog/poplural/ast/parser.go:31-89 (Parse).  Error texts are not
    modelled. *)
Definition parse_forms (s : bytes) : res forms :=
  do l1 <- expect TNPlurals s;
  do l2 <- expect TAssign (lx_rest l1);
  do l3 <- expect TValue (lx_rest l2);
  let np := parse_int_ignore (lx_lit l3) in
  do l4 <- expect TSemi (lx_rest l3);
  do l5 <- expect TPlural (lx_rest l4);
  do l6 <- expect TAssign (lx_rest l5);
  do st <- scan_next l6;
  do (n, st') <- p_expr (S (length s)) st;
  match lx_tok st' with
  | TSemi => do _ <- expect TEof (lx_rest st'); Ok (Forms np n)
  | _ => Err
  end.

(** catalog/poplural/rule.go:76-123 (evaluateNode) *)
Fixpoint eval_node (a : node) (n : Z) : Z :=
  match a with
  | NVal v => v
  | NOp => n
  | NCond c t f =>
      if eval_node c n =? 1 then eval_node t n else eval_node f n
  | NBin BAnd x y => b2z ((eval_node x n =? 1) && (eval_node y n =? 1))
  | NBin BOr x y => b2z ((eval_node x n =? 1) || (eval_node y n =? 1))
  | NBin BEq x y => b2z (eval_node x n =? eval_node y n)
  | NBin BNe x y => b2z (negb (eval_node x n =? eval_node y n))
  | NBin BGt x y => b2z (eval_node x n >? eval_node y n)
  | NBin BGe x y => b2z (eval_node x n >=? eval_node y n)
  | NBin BLt x y => b2z (eval_node x n <? eval_node y n)
  | NBin BLe x y => b2z (eval_node x n <=? eval_node y n)
  | NBin BRem x y =>
      if eval_node y n =? 0 then 0 else Z.rem (eval_node x n) (eval_node y n)
  end.

(** catalog/poplural/ast/compile.go:13-58 (compileNode).  [len] counts bytes. *)
Fixpoint compile_node (a : node) : bytes :=
  match a with
  | NVal v => itoa v
  | NOp => bs "n"
  | NCond c t f =>
      let cond := compile_node c in
      let thn := compile_node t in
      let oth := compile_node f in
      let cond' :=
        if (1 <? Z.of_nat (length cond)) &&
           (negb (has_prefix cond (bs "(")) || negb (has_suffix cond (bs ")")))
        then bs "(" ++ cond ++ bs ")" else cond in
      let thn' := if 1 <? Z.of_nat (length thn)
                  then bs "(" ++ thn ++ bs ")" else thn in
      let oth' := if 1 <? Z.of_nat (length oth)
                  then bs "(" ++ oth ++ bs ")" else oth in
      cond' ++ bs " ? " ++ thn' ++ bs " : " ++ oth'
  | NBin o x y =>
      let l := compile_node x in
      let r := compile_node y in
      match o with
      | BAnd => l ++ bs " && " ++ r
      | BOr => bs "(" ++ l ++ bs " || " ++ r ++ bs ")"
      | BEq => l ++ bs " == " ++ r
      | BNe => l ++ bs " != " ++ r
      | BGt => l ++ bs " > " ++ r
      | BGe => l ++ bs " >= " ++ r
      | BLt => l ++ bs " < " ++ r
      | BLe => l ++ bs " <= " ++ r
      | BRem => l ++ bs " % " ++ r
      end
  end.

(** catalog/poplural/ast/compile.go:9-11 (CompileToString) *)
Definition compile_forms (f : forms) : bytes :=
  bs "nplurals=" ++ itoa (f_nplurals f) ++ bs "; plural=" ++
  compile_node (f_root f) ++ bs ";".

(** catalog/poplural/rule.go:13-18 (Rule) *)
Record rule := Rule { r_nplurals : Z; r_form : Z -> Z }.
