(** The text of JSON files: encoding/json (standard library; scanner.go,
    decode.go, encode.go, indent.go) as the catalogs use it, and the writing of
    catalogs. *)
From Coq Require Import String Ascii List ZArith Bool.
From Verif Require Import Base PoStrModel Utf8Model CldrModel JsonModel.
Import ListNotations.
Open Scope Z_scope.

(** ** Reading *)

Definition is_ws (c : ascii) : bool :=
  ((c =? SP) || (c =? TAB) || (c =? LF) || (c =? CR))%char.
Fixpoint skip_ws (s : bytes) : bytes :=
  match s with
  | c :: s' => if is_ws c then skip_ws s' else s
  | [] => []
  end.

(** A hexadecimal digit; four of them (getu4 of decode.go). *)
Definition hex_val (c : ascii) : option Z :=
  if is_digit c then Some (digit_val c)
  else if (97 <=? bval (lower c)) && (bval (lower c) <=? 102) then Some (bval (lower c) - 87)
  else None.
Definition u4 (s : bytes) : option (Z * bytes) :=
  match s with
  | a :: b :: c :: d :: s' =>
      match hex_val a, hex_val b, hex_val c, hex_val d with
      | Some a, Some b, Some c, Some d => Some (((a * 16 + b) * 16 + c) * 16 + d, s')
      | _, _, _, _ => None
      end
  | _ => None
  end.
(** The character an escape letter stands for. *)
Definition json_escape (c : ascii) : option ascii :=
  if ((c =? QUOTE) || (c =? BSLASH) || (c =? "/"))%char then Some c
  else if (c =? "b")%char then Some (byte_of 8)
  else if (c =? "f")%char then Some (byte_of 12)
  else if (c =? "n")%char then Some LF
  else if (c =? "r")%char then Some CR
  else if (c =? "t")%char then Some TAB
  else None.
(** utf16.IsSurrogate; utf16.DecodeRune of a surrogate and the \uXXXX that may
    follow: the rune and what is left. *)
Definition surrogate (x : Z) : bool := in_rng 55296 57343 x.
Definition low_half (x : Z) (s : bytes) : option (Z * bytes) :=
  match s with
  | b :: u :: s' =>
      if ((b =? BSLASH) && (u =? "u"))%char then
        match u4 s' with
        | Some (y, s2) =>
            if in_rng 55296 56319 x && in_rng 56320 57343 y
            then Some ((x - 55296) * 1024 + (y - 56320) + 65536, s2) else None
        | None => None
        end
      else None
  | _ => None
  end.

(** A string after its opening quote: its value (unquoteBytes of decode.go;
    what is not UTF-8 becomes U+FFFD) and the text after the closing quote. *)
Definition also (x : bytes) (r : res (bytes * bytes)) : res (bytes * bytes) :=
  do vs <- r; let (v, s) := vs in Ok (x ++ v, s).
Fixpoint p_str (fuel : nat) (s : bytes) : res (bytes * bytes) :=
  match fuel with
  | O => OutOfFuel
  | S f =>
      match s with
      | [] => Err
      | c :: s' =>
          if (c =? QUOTE)%char then Ok ([], s')
          else if (c =? BSLASH)%char then
            match s' with
            | [] => Err
            | e :: s2 =>
                match json_escape e with
                | Some d => also [d] (p_str f s2)
                | None =>
                    if (e =? "u")%char then
                      match u4 s2 with
                      | Some (x, s3) =>
                          if surrogate x then
                            match low_half x s3 with
                            | Some (r, s4) => also (encode_rune r) (p_str f s4)
                            | None => also (encode_rune RuneError) (p_str f s3)
                            end
                          else also (encode_rune x) (p_str f s3)
                      | None => Err
                      end
                    else Err
                end
            end
          else if bval c <? 32 then Err
          else let (r, w) := decode_rune s in also (encode_rune r) (p_str f (skipn w s))
      end
  end.

(** A number: its text and the rest. *)
Fixpoint span_digits (s : bytes) : bytes * bytes :=
  match s with
  | c :: s' => if is_digit c then let (a, b) := span_digits s' in (c :: a, b) else ([], s)
  | [] => ([], [])
  end.
Definition p_int (s : bytes) : option (bytes * bytes) :=
  match s with
  | c :: s' =>
      if (c =? "0")%char then Some ([c], s')
      else if is_digit c then Some (span_digits s) else None
  | [] => None
  end.
Definition p_frac (s : bytes) : option (bytes * bytes) :=
  match s with
  | c :: s' =>
      if (c =? ".")%char then
        match span_digits s' with ([], _) => None | (d, r) => Some (c :: d, r) end
      else Some ([], s)
  | [] => Some ([], [])
  end.
Definition p_exp (s : bytes) : option (bytes * bytes) :=
  match s with
  | c :: s' =>
      if ((c =? "e") || (c =? "E"))%char then
        let (sg, s2) := match s' with
                        | q :: s2 => if ((q =? "+") || (q =? "-"))%char then ([q], s2) else ([], s')
                        | [] => ([], [])
                        end in
        match span_digits s2 with ([], _) => None | (d, r) => Some (c :: sg ++ d, r) end
      else Some ([], s)
  | [] => Some ([], [])
  end.
Definition p_number (s : bytes) : option (bytes * bytes) :=
  let (sg, s1) := match s with
                  | c :: s1 => if (c =? "-")%char then ([c], s1) else ([], s)
                  | [] => ([], [])
                  end in
  match p_int s1 with
  | Some (i, s2) =>
      match p_frac s2 with
      | Some (f, s3) =>
          match p_exp s3 with
          | Some (e, s4) => Some (sg ++ i ++ f ++ e, s4)
          | None => None
          end
      | None => None
      end
  | None => None
  end.

Fixpoint literal (w s : bytes) : option bytes :=
  match w, s with
  | [], _ => Some s
  | a :: w', b :: s' => if (a =? b)%char then literal w' s' else None
  | _, [] => None
  end.

(** A value at the beginning of the text, elements up to ], members up to }. *)
Fixpoint p_value (fuel : nat) (s : bytes) : res (json * bytes) :=
  match fuel with
  | O => OutOfFuel
  | S f =>
      match s with
      | [] => Err
      | c :: s' =>
          if (c =? QUOTE)%char then do x <- p_str (S (length s')) s'; let (v, r) := x in Ok (JStr v, r)
          else if (c =? "{")%char then
            match skip_ws s' with
            | [] => Err
            | d :: r => if (d =? "}")%char then Ok (JObj [], r)
                        else do x <- p_members f (d :: r); let (l, r) := x in Ok (JObj l, r)
            end
          else if (c =? "[")%char then
            match skip_ws s' with
            | [] => Err
            | d :: r => if (d =? "]")%char then Ok (JArr [], r)
                        else do x <- p_elems f (d :: r); let (l, r) := x in Ok (JArr l, r)
            end
          else match literal (bs "null") s, literal (bs "true") s, literal (bs "false") s, p_number s with
               | Some r, _, _, _ => Ok (JNull, r)
               | _, Some r, _, _ => Ok (JBool true, r)
               | _, _, Some r, _ => Ok (JBool false, r)
               | _, _, _, Some (n, r) => Ok (JNum n, r)
               | _, _, _, _ => Err
               end
      end
  end
with p_elems (fuel : nat) (s : bytes) : res (list json * bytes) :=
  match fuel with
  | O => OutOfFuel
  | S f =>
      do x <- p_value f s; let (v, r) := x in
      match skip_ws r with
      | c :: r' =>
          if (c =? "]")%char then Ok ([v], r')
          else if (c =? ",")%char then do x <- p_elems f (skip_ws r'); let (l, r2) := x in Ok (v :: l, r2)
          else Err
      | [] => Err
      end
  end
with p_members (fuel : nat) (s : bytes) : res (list (bytes * json) * bytes) :=
  match fuel with
  | O => OutOfFuel
  | S f =>
      match s with
      | q :: s' =>
          if (q =? QUOTE)%char then
            do x <- p_str (S (length s')) s'; let (k, r) := x in
            match skip_ws r with
            | c :: r' =>
                if (c =? ":")%char then
                  do x <- p_value f (skip_ws r'); let (v, r2) := x in
                  match skip_ws r2 with
                  | d :: r3 =>
                      if (d =? "}")%char then Ok ([(k, v)], r3)
                      else if (d =? ",")%char then do x <- p_members f (skip_ws r3); let (l, r4) := x in Ok ((k, v) :: l, r4)
                      else Err
                  | [] => Err
                  end
                else Err
            | [] => Err
            end
          else Err
      | [] => Err
      end
  end.

(** How deep arrays and objects are nested; the scanner of encoding/json stops
    with an error beyond maxNestingDepth (scanner.go). *)
Fixpoint nesting (v : json) : nat :=
  match v with
  | JArr l => S (fold_right (fun v n => Nat.max (nesting v) n) O l)
  | JObj l => S (fold_right (fun kv n => Nat.max (nesting (snd kv)) n) O l)
  | _ => O
  end.
Definition max_nesting : Z := 10000.
(** json.Unmarshal up to the value: nothing but white space may follow.  The
    nesting is checked after the value is read, not while reading; in both
    cases all that is known of a text nested too deep is an error. *)
Definition parse_json (s : bytes) : res json :=
  do x <- p_value (2 + 2 * length s) (skip_ws s); let (v, r) := x in
  match skip_ws r with
  | [] => if Z.of_nat (nesting v) <=? max_nesting then Ok v else Err
  | _ => Err
  end.

(** ** Writing *)

Definition hex_char (d : Z) : ascii := if d <? 10 then byte_of (48 + d) else byte_of (87 + d).
Definition u_escape (x : Z) : bytes :=
  bs "\u" ++ [hex_char (x / 4096); hex_char (x / 256 mod 16); hex_char (x / 16 mod 16); hex_char (x mod 16)].

(** One rune of a string (appendString of encode.go with HTML escapes):
    [bad] if the byte was not UTF-8. *)
Definition put_rune (r : rune) (bad : bool) : bytes :=
  if bad then bs "\ufffd"
  else if (r =? 34) || (r =? 92) then [BSLASH; byte_of r]
  else if r =? 8 then bs "\b"
  else if r =? 12 then bs "\f"
  else if r =? 10 then bs "\n"
  else if r =? 13 then bs "\r"
  else if r =? 9 then bs "\t"
  else if (r <? 32) || (r =? 60) || (r =? 62) || (r =? 38) || (r =? 8232) || (r =? 8233) then u_escape r
  else encode_rune r.
Fixpoint put_runes (fuel : nat) (s : bytes) : bytes :=
  match fuel, s with
  | S f, _ :: _ =>
      let (r, w) := decode_rune s in
      put_rune r ((r =? RuneError) && Nat.eqb w 1) ++ put_runes f (skipn w s)
  | _, _ => []
  end.
(** json.Marshal of a string *)
Definition put_string (s : bytes) : bytes := [QUOTE] ++ put_runes (length s) s ++ [QUOTE].

(** appendCompact (indent.go) with HTML escapes: white space outside of strings
    is dropped; in the text <, >, & and U+2028, U+2029 become escapes.  [q]:
    in a string, [e]: after a backslash in it. *)
Fixpoint compact (q e : bool) (s : bytes) : bytes :=
  match s with
  | [] => []
  | c :: s' =>
      if ((c =? "<") || (c =? ">") || (c =? "&"))%char then u_escape (bval c) ++ compact q false s'
      else
        let sep := match s with
                   | a :: b :: d :: _ =>
                       (bval a =? 226) && (bval b =? 128) && ((bval d =? 168) || (bval d =? 169))
                   | _ => false
                   end in
        if sep then
          match s' with
          | _ :: d :: s3 => u_escape (8192 + bval d - 128) ++ compact q false s3
          | _ => []
          end
        else if q then
          c :: (if e then compact true false s'
                else if (c =? BSLASH)%char then compact true true s'
                else compact (negb (c =? QUOTE)%char) false s')
        else if is_ws c then compact false false s'
        else c :: compact (c =? QUOTE)%char false s'
  end.

(** catalog/json.go:360-422 (JSONMessage.MarshalJSON), the text *)
Definition member_text (k v : bytes) : bytes := [QUOTE] ++ k ++ bs """: " ++ put_string v.
Fixpoint commas (l : list bytes) : bytes :=
  match l with
  | [] => []
  | [x] => x
  | x :: l' => x ++ bs "," ++ commas l'
  end.
Definition message_text (m : jmsg) : bytes :=
  let tr := match j_tr m with None => [] | Some t => t end in
  let tr := if Nat.eqb (length tr) 0 then cat_set tr Other [] else tr in
  if is_nil (j_comment m) && is_nil (j_context m) && Nat.eqb (length tr) 1 then
    put_string (match cat_get tr Other with Some s => s | None => [] end)
  else
    bs "{" ++
    (if is_nil (j_comment m) then [] else member_text (bs "comment") (j_comment m) ++ bs ",") ++
    (if is_nil (j_context m) then [] else member_text (bs "context") (j_context m) ++ bs ",") ++
    commas (flat_map (fun c => match cat_get tr c with Some s => [member_text (cat_name c) s] | None => [] end) all_categories) ++
    bs "}".
(** json.Marshal of a value with a MarshalJSON: its text must be JSON and is
    made compact. *)
Definition compacted (s : bytes) : res bytes := do _ <- parse_json s; Ok (compact false false s).
(** catalog/json.go:215-250 (jsonCatalog.MarshalJSON), the text *)
Fixpoint member_texts (l : list (bytes * jmsg)) : res (list bytes) :=
  match l with
  | [] => Ok []
  | (k, m) :: l' =>
      do t <- compacted (message_text m);
      do ts <- member_texts l';
      Ok ((put_string k ++ bs ":" ++ t) :: ts)
  end.
Definition catalog_text (tag : Type) (c : jcat tag) : res bytes :=
  do ts <- member_texts (sorted_keys (j_messages tag c));
  Ok (bs "{" ++ commas ts ++ bs "}").

(** appendIndent (indent.go) with two spaces: [q], [e] as above, [depth], and
    [need]: after an opening bracket.  White space after
    the text ([depth] 0) is kept; before the text there is none. *)
Definition new_line (depth : nat) : bytes := LF :: concat (repeat (bs "  ") depth).
Fixpoint indent (q e need : bool) (depth : nat) (s : bytes) : bytes :=
  match s with
  | [] => []
  | c :: s' =>
      if q then
        c :: (if e then indent true false need depth s'
              else if (c =? BSLASH)%char then indent true true need depth s'
              else indent (negb (c =? QUOTE)%char) false need depth s')
      else if is_ws c && negb (Nat.eqb depth 0 && negb need) then indent false false need depth s'
      else if need && negb ((c =? "}") || (c =? "]"))%char then
        new_line (S depth) ++
        (if ((c =? "{") || (c =? "["))%char then c :: indent false false true (S depth) s'
         else c :: indent (c =? QUOTE)%char false false (S depth) s')
      else if ((c =? "{") || (c =? "["))%char then c :: indent false false true depth s'
      else if (c =? ",")%char then c :: new_line depth ++ indent false false false depth s'
      else if (c =? ":")%char then c :: SP :: indent false false false depth s'
      else if ((c =? "}") || (c =? "]"))%char then
        if need then c :: indent false false false depth s'
        else new_line (pred depth) ++ c :: indent false false false (pred depth) s'
      else c :: indent (c =? QUOTE)%char false false depth s'
  end.

(** catalog/json_encoder.go:19-32 (Encode); a nil catalog is None.  Indenting
    needs JSON as well.  Errors of the writer are not modelled. *)
Definition indented (s : bytes) : res bytes := do _ <- parse_json s; Ok (indent false false false 0 s).
Definition encode_json (tag : Type) (c : option (jcat tag)) : res bytes :=
  match c with
  | None => Ok (bs "{}")
  | Some c => do t <- catalog_text tag c; do t <- compacted t; indented (t ++ [LF])
  end.

(** catalog/json_decoder.go:17-24 (Decode) on the bytes of a file *)
Definition decode_json_text (tag : Type) (order : list category)
    (perm : list (bytes * bytes) -> list (bytes * bytes)) (fperm : list (bytes * option jmsg) -> list (bytes * option jmsg))
    (lang : tag) (domain : bytes) (rs : rule_set) (s : bytes) : res (option (jcat tag)) :=
  do v <- parse_json s; decode_json tag order perm fperm lang domain rs v.
