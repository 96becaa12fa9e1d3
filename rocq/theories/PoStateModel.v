(** The PO scanner and parser with their state: one token at a time, tokens
    that are put back, a parser that is used again.  PoFileModel gives the
    same as functions of the text. *)
From Coq Require Import String Ascii List ZArith Bool.
From Verif Require Import Base StrModel PoStrModel PoFileModel.
Import ListNotations.
Open Scope Z_scope.

(** ** Scanner *)
(** catalog/po/scanner.go:29-38.  [sc_rest]: the lines that lineScanner still
    gives; [sc_text]: its method Text.  [TEof] stands for the zero token. *)
Record scanner : Type := Scanner
  { sc_rest : list bytes; sc_text : bytes; sc_n : bool; sc_last : ptok; sc_pos : Z; sc_ign : bool }.
(** catalog/po/scanner.go:40-45, parser.go:60-61 *)
Definition new_scanner (s : bytes) (ign : bool) : scanner := Scanner (file_lines s) [] false TEof 0 ign.

(** catalog/po/scanner.go:202-217 (read); None is an error.  Once Scan has
    returned false, every later read is an error. *)
Definition sc_read (s : scanner) : option bytes * scanner :=
  if sc_n s then (Some (sc_text s), Scanner (sc_rest s) (sc_text s) false (sc_last s) (sc_pos s) (sc_ign s))
  else match sc_rest s with
       | [] => (None, Scanner [] [] false (sc_last s) (sc_pos s) (sc_ign s))
       | l :: r => (Some l, Scanner r l false (sc_last s) (sc_pos s + 1) (sc_ign s))
       end.
(** catalog/po/scanner.go:220 *)
Definition sc_unread (s : scanner) : scanner := Scanner (sc_rest s) (sc_text s) true (sc_last s) (sc_pos s) (sc_ign s).
(** catalog/po/scanner.go:49-51 *)
Definition sc_set_last (s : scanner) (k : ptok) : scanner := Scanner (sc_rest s) (sc_text s) (sc_n s) k (sc_pos s) (sc_ign s).

(** catalog/po/scanner.go:184-200 (scanWhitespace); [fuel] bounds the loop. *)
Fixpoint sc_white (fuel : nat) (s : scanner) : res scanner :=
  match fuel with
  | O => OutOfFuel
  | S f =>
      let (o, s1) := sc_read s in
      match o with
      | None => Ok s1
      | Some l => if is_nil l || is_nil (trim_space l) then sc_white f s1 else Ok (sc_unread s1)
      end
  end.
(** catalog/po/scanner.go:47-76 (scan), with scanComment and scanMessage of
    PoFileModel; None is the call of scan in scanComment. *)
Fixpoint sc_scan (fuel : nat) (s : scanner) : res (ptok * bytes * scanner) :=
  match fuel with
  | O => OutOfFuel
  | S f =>
      let (o, s1) := sc_read s in
      do r <- (match o with
               | None => Ok (TEof, [], s1)
               | Some l =>
                   if is_nil l then do s2 <- sc_white f s1 ; Ok (TWs, [], s2)
                   else
                     let t := trim_space l in
                     if is_nil t then do s2 <- sc_white f s1 ; Ok (TWs, [], s2)
                     else match scan_line (sc_ign s1) (sc_last s1) t with
                          | None => sc_scan f s1
                          | Some k => Ok (k, t, s1)
                          end
               end) ;
      let '(k, l, s2) := r in Ok (k, l, sc_set_last s2 k)
  end.

(** ** Parser *)
(** catalog/po/parser.go:13-23.  [p_mem]: the maps of messages that were made
    so far; [p_map]: which of them is the parser's (None: nil). *)
Record parser : Type := Parser
  { p_s : scanner; p_last : ptok; p_lit : bytes; p_n : bool;
    p_header : option header; p_map : option nat; p_ign : bool; p_mem : list (list message) }.
(** catalog/po/parser.go:25-29; the scanner is nil, it is set before it is used *)
Definition new_parser (mem : list (list message)) : parser :=
  Parser (new_scanner [] false) TEof [] false None None false mem.
(** catalog/po/parser.go:51 *)
Definition set_ignore (p : parser) (ign : bool) : parser :=
  Parser (p_s p) (p_last p) (p_lit p) (p_n p) (p_header p) (p_map p) ign (p_mem p).
(** catalog/po/parser.go:53-56 *)
Definition p_reset (p : parser) : parser :=
  Parser (p_s p) (p_last p) (p_lit p) (p_n p) None (Some (length (p_mem p))) (p_ign p) (p_mem p ++ [[]]).
Definition p_messages (p : parser) : list message :=
  match p_map p with None => [] | Some a => nth a (p_mem p) [] end.
(** p.messages[msg.Context][msg.ID] = msg *)
Definition p_put (p : parser) (m : message) : parser :=
  Parser (p_s p) (p_last p) (p_lit p) (p_n p) (p_header p) (p_map p) (p_ign p)
    (match p_map p with None => p_mem p | Some a => set_nth a (p_messages p ++ [m]) (p_mem p) end).
Definition p_set_header (p : parser) (h : option header) : parser :=
  Parser (p_s p) (p_last p) (p_lit p) (p_n p) h (p_map p) (p_ign p) (p_mem p).

(** The errors, catalog/po/parser.go:65 and 119, 90, 108, 191, 309: what is
    wrong, with the numbers and texts named. *)
Inductive perr : Type :=
| EEmpty
| EHeader (pos : Z) (line : bytes)
| EDup (id : bytes) (pos : Z)
| EIndex (pos : Z)
| EPos (pos : Z) (line : bytes).
(** A call: its result and the parser afterwards, or an error and the parser. *)
Inductive out (A : Type) : Type := OGot (a : A) (p : parser) | OErr (e : perr) (p : parser) | OPanic | OFuel.
Arguments OGot {A}. Arguments OErr {A}. Arguments OPanic {A}. Arguments OFuel {A}.
Definition obind {A B} (x : out A) (f : A -> parser -> out B) : out B :=
  match x with OGot a p => f a p | OErr e p => OErr e p | OPanic => OPanic | OFuel => OFuel end.
Definition of_res {A} (r : res A) (e : perr) (p : parser) : out A :=
  match r with Ok a => OGot a p | Err => OErr e p | Panic => OPanic | OutOfFuel => OFuel end.

(** catalog/po/parser.go:312-323, 325 (scan, unscan) *)
Definition p_scan (k : nat) (p : parser) : out (ptok * bytes) :=
  if p_n p then
    OGot (p_last p, p_lit p) (Parser (p_s p) (p_last p) (p_lit p) false (p_header p) (p_map p) (p_ign p) (p_mem p))
  else match sc_scan k (p_s p) with
       | Ok (t, l, s') => OGot (t, l) (Parser s' t l (p_n p) (p_header p) (p_map p) (p_ign p) (p_mem p))
       | _ => OFuel
       end.
Definition p_unscan (p : parser) : parser :=
  Parser (p_s p) (p_last p) (p_lit p) true (p_header p) (p_map p) (p_ign p) (p_mem p).

(** catalog/po/parser.go:308-310 (buildPosError), scanner.go:219 *)
Definition pos_error (p : parser) : perr := EPos (sc_pos (p_s p)) (sc_text (p_s p)).
(** catalog/po/parser.go:189-192, 199, 203: the error of a field *)
Definition step_error (t : ptok) (p : parser) : perr :=
  match t with TStrP => EIndex (sc_pos (p_s p)) | _ => pos_error p end.

(** In the following [k] bounds the scanner, [fuel] DecodePoString and [n] the
    rounds of the loop. *)
(** catalog/po/parser.go:208-284 (parseComment); None is io.EOF. *)
Fixpoint p_comment (k fuel n : nat) (c : comment) (p : parser) : out (option comment) :=
  match n with
  | O => OFuel
  | S n' =>
      obind (p_scan k p) (fun tl p1 =>
        let (t, l) := tl in
        match t with
        | TEof => OGot None p1
        | TFail => OErr (pos_error p1) p1
        | _ => if is_comment t
               then obind (of_res (comment_step fuel c t l) (pos_error p1) p1) (fun c' p2 => p_comment k fuel n' c' p2)
               else OGot (Some c) (p_unscan p1)
        end)
  end.
(** catalog/po/parser.go:137-154: the comments; None is io.EOF. *)
Fixpoint p_comments (k fuel n : nat) (m : message) (p : parser) : out (option message) :=
  match n with
  | O => OFuel
  | S n' =>
      obind (p_scan k p) (fun tl p1 =>
        if is_comment (fst tl) then
          obind (p_comment k fuel n new_comment (p_unscan p1)) (fun o p2 =>
            match o with
            | None => OGot None p2
            | Some c => p_comments k fuel n' (set_com m c) p2
            end)
        else OGot (Some m) (p_unscan p1))
  end.
(** catalog/po/parser.go:156-206: the fields *)
Fixpoint p_fields (k fuel n : nat) (m : message) (p : parser) : out message :=
  match n with
  | O => OFuel
  | S n' =>
      obind (p_scan k p) (fun tl p1 =>
        let (t, l) := tl in
        match t with
        | TFail => OErr (pos_error p1) p1
        | TEof | TWs => OGot m p1
        | _ => if is_comment t then OGot m p1
               else obind (of_res (message_step fuel m t l) (step_error t p1) p1) (fun m' p2 => p_fields k fuel n' m' p2)
        end)
  end.
(** catalog/po/parser.go:129-206 (parseMessage); None is io.EOF. *)
Definition p_message (k fuel n : nat) (p : parser) : out (option message) :=
  obind (p_scan k p) (fun tl p1 =>
    match fst tl with
    | TEof => OGot None p1
    | _ =>
        obind (p_comments k fuel n new_message (p_unscan p1)) (fun o p2 =>
          match o with
          | None => OGot None p2
          | Some m => obind (p_fields k fuel n m p2) (fun m' p3 => OGot (Some m') p3)
          end)
    end).
(** catalog/po/parser.go:118-126; the file is its header and its map. *)
Definition p_finish (p : parser) : out (header * option nat) :=
  match p_header p, p_messages p with
  | None, [] => OErr EEmpty p
  | None, _ => OGot (new_header, p_map p) p
  | Some h, _ => OGot (h, p_map p) p
  end.
(** catalog/po/parser.go:72-127 (parseFile).  A header that cannot be read is
    dropped. *)
Fixpoint p_file (k fuel n : nat) (p : parser) : out (header * option nat) :=
  match n with
  | O => OFuel
  | S n' =>
      obind (p_message k fuel n p) (fun o p1 =>
        match o with
        | None => p_finish p1
        | Some m =>
            if is_nil (m_id m) then
              if is_nil (m_str m) then p_file k fuel n' p1
              else match p_header p1 with
                   | Some _ => OErr (EHeader (sc_pos (p_s p1)) (sc_text (p_s p1))) p1
                   | None => p_file k fuel n' (p_set_header p1 (parse_header m))
                   end
            else if existsb (same_key m) (p_messages p1) then OErr (EDup (m_id m) (sc_pos (p_s p1))) p1
            else let p2 := p_put p1 m in
                 match p_last p2 with
                 | TEof => p_finish p2
                 | _ => p_file k fuel n' p2
                 end
        end)
  end.
(** catalog/po/parser.go:58-70 (Parse) *)
Definition p_parse (fuel : nat) (p : parser) (s : bytes) : out (header * option nat) :=
  let k := S (length (file_lines s)) in
  let p0 := p_reset p in
  let p1 := Parser (new_scanner s (p_ign p0)) (p_last p0) (p_lit p0) (p_n p0) (p_header p0) (p_map p0) (p_ign p0) (p_mem p0) in
  obind (p_scan k p1) (fun tl p2 =>
    match fst tl with
    | TEof => OErr EEmpty p2
    | _ => p_file k fuel (S (S k)) (p_unscan p2)
    end).
