(** Model of /repo/catalog/po: scanner.go, parser.go, encoder.go, file.go,
    comment.go, message.go. *)
From Coq Require Import String Ascii List ZArith Bool.
From Verif Require Import Base Utf8Model StrModel PoStrModel ReModel.
Import ListNotations.
Open Scope Z_scope.

(** ** Data *)

(** comment.go:10-14 *)
Record reference : Type := Ref { r_path : bytes; r_line : Z; r_col : Z }.
(** comment.go:28-35; nil and empty slices are not distinguished. *)
Record comment : Type := Com {
  cm_tr : bytes; cm_ex : bytes; cm_refs : list reference; cm_flags : list bytes;
  cm_pctx : bytes; cm_pid : bytes }.
(** comment.go:37-42 (NewComment) *)
Definition new_comment : comment := Com [] [] [] [] [] [].

(** map[int]string: an association list with distinct keys. *)
Notation strmap := (list (Z * bytes)).
Fixpoint str_get (m : strmap) (k : Z) : option bytes :=
  match m with
  | [] => None
  | (j, v) :: m' => if j =? k then Some v else str_get m' k
  end.
(** m[k], the empty string if absent *)
Definition str_at (m : strmap) (k : Z) : bytes :=
  match str_get m k with Some v => v | None => [] end.
(** m[k] = v *)
Fixpoint str_set (m : strmap) (k : Z) (v : bytes) : strmap :=
  match m with
  | [] => [(k, v)]
  | (j, w) :: m' => if j =? k then (k, v) :: m' else (j, w) :: str_set m' k v
  end.

(** message.go:4-10 *)
Record message : Type := Msg {
  m_com : option comment; m_ctx : bytes; m_id : bytes; m_pl : bytes; m_str : strmap }.
(** message.go:12-23 (NewMessage) *)
Definition new_message : message := Msg (Some new_comment) [] [] [] [].

(** file.go:9-22, in the order of encoder.go:125-138 *)
Definition header_names : list bytes :=
  [bs "Project-Id-Version"; bs "Report-Msgid-Bugs-To"; bs "POT-Creation-Date";
   bs "PO-Revision-Date"; bs "Last-Translator"; bs "Language-Team"; bs "Language";
   bs "MIME-Version"; bs "Content-Type"; bs "Content-Transfer-Encoding";
   bs "Plural-Forms"; bs "X-Generator"].
(** file.go:105-120: the twelve named fields in the order of [header_names],
    and UnknownFields in iteration order. *)
Record header : Type := Hdr {
  h_com : option comment; h_known : list bytes; h_unknown : list (bytes * bytes) }.
Definition new_header : header := Hdr None (repeat [] (length header_names)) [].

(** file.go:38-45: the messages of all contexts in one list, keyed by their
    context and id.  (The parser and AddMessage store every message under its
    own context and id.) *)
Record pofile : Type := PoFile { f_header : header; f_messages : list message }.

Definition same_key (a b : message) : bool :=
  beq (m_ctx a) (m_ctx b) && beq (m_id a) (m_id b).

(** ** Scanner *)

(** token.go; [TNone] is not needed. *)
Inductive ptok : Type :=
  TWs | TFail | TTrans | TExtr | TRefs | TFlags | TPrevCtx | TPrevCtxL | TPrevId
| TPrevIdL | TPrevUnknown | TCtx | TCtxL | TId | TIdL | TPl | TPlL | TStr | TStrL
| TStrP | TStrPL | TEof.

(** bufio.Scanner with ScanLines (standard library): the lines without their
    line feed and one trailing carriage return; no line for an empty rest.  A
    line of 65536 bytes or more ends the input (scanner.go:208-213 treats the
    error as end of file). *)
Definition drop_cr (l : bytes) : bytes :=
  match rev l with
  | c :: r => if Ascii.eqb c CR then rev r else l
  | [] => l
  end.
Definition too_long (l : bytes) : bool := 65536 <=? Z.of_nat (length l).
Fixpoint cut_long (ls : list bytes) : list bytes :=
  match ls with
  | [] => []
  | l :: ls' => if too_long l then [] else drop_cr l :: cut_long ls'
  end.
Definition file_lines (s : bytes) : list bytes :=
  let ls := split_on LF s in
  cut_long (match last ls [] with [] => removelast ls | _ => ls end).

(** scanner.go:11-20 *)
Definition rany : re := RStar (RSet (fun _ => true)).
Definition rquoted : re := rseq [rchar QUOTE; RStar rdot; rchar QUOTE; RStar rspace].
Definition re_prev_ctx : re := rseq [rlit (bs "#|"); rplus rspace; rlit (bs "msgctxt"); rany].
Definition re_prev_id : re := rseq [rlit (bs "#|"); rplus rspace; rlit (bs "msgid"); rany].
Definition re_prev_line : re := rseq [rlit (bs "#|"); rplus rspace; rquoted].
Definition re_ctx : re := rseq [rlit (bs "msgctxt"); rplus rspace; rquoted].
Definition re_id : re := rseq [rlit (bs "msgid"); rplus rspace; rquoted].
Definition re_pl : re := rseq [rlit (bs "msgid_plural"); rplus rspace; rquoted].
Definition re_str : re := rseq [rlit (bs "msgstr"); RStar rspace; rquoted].
Definition re_strp : re :=
  rseq [rlit (bs "msgstr"); RStar rspace; rchar "["; rplus rdigit; rchar "]";
        RStar rspace; rquoted].
Definition re_line : re := rseq [RStar rspace; rquoted].

(** scanner.go:78-122 (scanMessage); a result [none] makes scan return
    failure (71-75). *)
Definition scan_message (last : ptok) (l : bytes) : ptok :=
  if has_prefix l (bs "msgid ") && rmatch re_id l then TId
  else if has_prefix l (bs "msgstr") then
    if beq l (bs "msgstr """"") || rmatch re_str l then TStr
    else if rmatch re_strp l then TStrP
    else TFail
  else if has_prefix l (bs "msgid_plural ") && rmatch re_pl l then TPl
  else if has_prefix l (bs "msgctxt ") && rmatch re_ctx l then TCtx
  else if has_prefix l [QUOTE] && has_suffix l [QUOTE] && rmatch re_line l then
    match last with
    | TId | TIdL => TIdL
    | TPl | TPlL => TPlL
    | TStr | TStrL => TStrL
    | TStrP | TStrPL => TStrPL
    | TCtx | TCtxL => TCtxL
    | _ => TFail
    end
  else TFail.

(** scanner.go:124-181 (scanComment); None: the line is skipped and the next
    one is scanned. *)
Definition scan_comment (ign : bool) (last : ptok) (l : bytes) : option ptok :=
  match l with
  | [_] => if ign then None else Some TTrans
  | _ :: c :: rest =>
      if is_nil rest && (Ascii.eqb c "." || Ascii.eqb c ":" || Ascii.eqb c "," || Ascii.eqb c "|")
      then None
      else if ign && negb (Ascii.eqb c ",") then None
      else if Ascii.eqb c "." then Some TExtr
      else if Ascii.eqb c ":" then Some TRefs
      else if Ascii.eqb c "," then Some TFlags
      else if Ascii.eqb c "|" then
        if rmatch re_prev_ctx l then Some TPrevCtx
        else if rmatch re_prev_id l then Some TPrevId
        else if rmatch re_prev_line l then
          match last with
          | TPrevCtx | TPrevCtxL => Some TPrevCtxL
          | TPrevId | TPrevIdL => Some TPrevIdL
          | _ => Some TPrevUnknown
          end
        else Some TFail
      else Some TTrans
  | [] => Some TFail
  end.

(** scanner.go:62-75: one line that is not blank, already trimmed. *)
Definition scan_line (ign : bool) (last : ptok) (l : bytes) : option ptok :=
  match l with
  | c :: _ => if Ascii.eqb c "#" then scan_comment ign last l else Some (scan_message last l)
  | [] => Some TFail
  end.

(** scanner.go:47-76 and 184-200: all tokens of the file, with their literal.
    The scanner does not depend on the parser, so the model runs it ahead;
    the end of the list is eof.  [blank] tells that the line before was blank
    (scanWhitespace swallows further blank lines). *)
Fixpoint scan_all (ign : bool) (last : ptok) (blank : bool) (ls : list bytes) : list (ptok * bytes) :=
  match ls with
  | [] => []
  | l :: ls' =>
      let t := trim_space l in
      if is_nil t then
        if blank then scan_all ign last true ls'
        else (TWs, []) :: scan_all ign TWs true ls'
      else
        match scan_line ign last t with
        | None => scan_all ign last false ls'
        | Some k => (k, t) :: scan_all ign k false ls'
        end
  end.

(** ** Parser *)

(** s[n:], a panic if s is shorter *)
Definition from (n : nat) (s : bytes) : res bytes :=
  if Nat.ltb (length s) n then Panic else Ok (skipn n s).

(** strings.FieldsFunc(line, space or comma), parser.go:232 *)
Definition flag_fields (l : bytes) : list bytes :=
  fields (fun r => is_space r || (r =? 44)) (segs_fuel (length l) l) [].

(** parser.go:256-278: one reference *)
Definition parse_ref (raw0 : bytes) : reference :=
  let raw := trim_space raw0 in
  match index_byte ":" raw with
  | Some (S i) =>
      Ref (firstn (S i) raw)
          (match parse_int (skipn (S (S i)) raw) with PInt v => v | _ => -1 end) 0
  | _ => Ref raw (-1) 0
  end.

(** x += sep + y unless x is empty, parser.go:219-223 *)
Definition add_line (x y : bytes) : bytes :=
  match x with [] => y | _ => x ++ LF :: y end.

(** DecodePoString; [fuel] bounds its loop, see PoStrModel. *)
Definition dec (fuel : nat) (l : bytes) : res bytes := decode_po_fuel fuel l.

(** parser.go:218-278: one comment token. *)
Definition comment_step (fuel : nat) (c : comment) (k : ptok) (l : bytes) : res comment :=
  match k with
  | TTrans =>
      do x <- from 1 l ;
      Ok (Com (add_line (cm_tr c) (trim_space x)) (cm_ex c) (cm_refs c) (cm_flags c) (cm_pctx c) (cm_pid c))
  | TExtr =>
      do x <- from 2 l ;
      Ok (Com (cm_tr c) (add_line (cm_ex c) (trim_space x)) (cm_refs c) (cm_flags c) (cm_pctx c) (cm_pid c))
  | TFlags =>
      do x <- from 2 l ;
      Ok (Com (cm_tr c) (cm_ex c) (cm_refs c) (cm_flags c ++ flag_fields (trim_space x)) (cm_pctx c) (cm_pid c))
  | TPrevCtx =>
      do x <- from 10 l ;
      match trim_space x with
      | [] => Ok c
      | y => do v <- dec fuel y ;
             Ok (Com (cm_tr c) (cm_ex c) (cm_refs c) (cm_flags c) (cm_pctx c ++ v) (cm_pid c))
      end
  | TPrevCtxL =>
      do x <- from 2 l ; do v <- dec fuel (trim_space x) ;
      Ok (Com (cm_tr c) (cm_ex c) (cm_refs c) (cm_flags c) (cm_pctx c ++ v) (cm_pid c))
  | TPrevId =>
      do x <- from 8 l ;
      match trim_space x with
      | [] => Ok c
      | y => do v <- dec fuel y ;
             Ok (Com (cm_tr c) (cm_ex c) (cm_refs c) (cm_flags c) (cm_pctx c) (cm_pid c ++ v))
      end
  | TPrevIdL =>
      do x <- from 2 l ; do v <- dec fuel (trim_space x) ;
      Ok (Com (cm_tr c) (cm_ex c) (cm_refs c) (cm_flags c) (cm_pctx c) (cm_pid c ++ v))
  | TRefs =>
      do x <- from 2 l ;
      Ok (Com (cm_tr c) (cm_ex c) (cm_refs c ++ map parse_ref (split_on " " (trim_space x)))
              (cm_flags c) (cm_pctx c) (cm_pid c))
  | _ => Err
  end.

Definition is_comment (k : ptok) : bool :=
  match k with
  | TTrans | TExtr | TRefs | TFlags | TPrevCtx | TPrevId | TPrevIdL | TPrevCtxL => true
  | _ => false
  end.

(** parser.go:208-284 (parseComment): None is io.EOF; otherwise the comment
    and the tokens from the first one that is no comment on. *)
Fixpoint parse_comment (fuel : nat) (c : comment) (ts : list (ptok * bytes))
  : res (option (comment * list (ptok * bytes))) :=
  match ts with
  | [] => Ok None
  | (k, l) :: ts' =>
      match k with
      | TFail => Err
      | _ =>
          if is_comment k then do c' <- comment_step fuel c k l ; parse_comment fuel c' ts'
          else Ok (Some (c, ts))
      end
  end.

Definition set_ctx (m : message) (v : bytes) := Msg (m_com m) v (m_id m) (m_pl m) (m_str m).
Definition set_id (m : message) (v : bytes) := Msg (m_com m) (m_ctx m) v (m_pl m) (m_str m).
Definition set_pl (m : message) (v : bytes) := Msg (m_com m) (m_ctx m) (m_id m) v (m_str m).
Definition set_str (m : message) (v : strmap) := Msg (m_com m) (m_ctx m) (m_id m) (m_pl m) v.
Definition set_com (m : message) (c : comment) := Msg (Some c) (m_ctx m) (m_id m) (m_pl m) (m_str m).

(** parser.go:186-195: the index between the first [[] and the first []]. *)
Definition plural_index (l : bytes) : res Z :=
  match index_byte "[" l, index_byte "]" l with
  | Some i, Some j =>
      if Nat.ltb j (S i) then Panic
      else match parse_int (slice (S i) j l) with PInt v => Ok v | _ => Err end
  | _, _ => Panic
  end.

(** parser.go:165-204: one token of a message. *)
Definition message_step (fuel : nat) (m : message) (k : ptok) (l : bytes) : res message :=
  match k with
  | TCtx => do x <- from 8 l ; do v <- dec fuel x ; Ok (set_ctx m v)
  | TCtxL => do v <- dec fuel l ; Ok (set_ctx m (m_ctx m ++ v))
  | TId => do x <- from 6 l ; do v <- dec fuel x ; Ok (set_id m v)
  | TIdL => do v <- dec fuel l ; Ok (set_id m (m_id m ++ v))
  | TPl => do x <- from 13 l ; do v <- dec fuel x ; Ok (set_pl m v)
  | TPlL => do v <- dec fuel l ; Ok (set_pl m (m_pl m ++ v))
  | TStr => do x <- from 7 l ; do v <- dec fuel x ; Ok (set_str m (str_set (m_str m) 0 v))
  | TStrL => do v <- dec fuel l ; Ok (set_str m (str_set (m_str m) 0 (str_at (m_str m) 0 ++ v)))
  | TStrP =>
      do i <- plural_index l ;
      do x <- from 10 l ; do v <- dec fuel x ; Ok (set_str m (str_set (m_str m) i v))
  | TStrPL =>
      let last := Z.of_nat (length (m_str m)) - 1 in
      if last <? 0 then Err
      else do v <- dec fuel l ;
           Ok (set_str m (str_set (m_str m) last (str_at (m_str m) last ++ v)))
  | _ => Err
  end.

(** parser.go:156-206: the message, the tokens after it, and whether it was
    ended by eof.  The token that ends it is consumed. *)
Fixpoint parse_body (fuel : nat) (m : message) (ts : list (ptok * bytes))
  : res (message * list (ptok * bytes) * bool) :=
  match ts with
  | [] => Ok (m, [], true)
  | (k, l) :: ts' =>
      match k with
      | TWs => Ok (m, ts', false)
      | _ =>
          if is_comment k then Ok (m, ts', false)
          else do m' <- message_step fuel m k l ; parse_body fuel m' ts'
      end
  end.

(** parser.go:129-206 (parseMessage): None is io.EOF.  The loop of 137-154
    runs parseComment at most once, because parseComment stops only at a token
    that is no comment. *)
Definition parse_message (fuel : nat) (ts : list (ptok * bytes))
  : res (option (message * list (ptok * bytes) * bool)) :=
  match ts with
  | [] => Ok None
  | (k, _) :: _ =>
      if is_comment k then
        do x <- parse_comment fuel new_comment ts ;
        match x with
        | None => Ok None
        | Some (c, ts') =>
            do r <- parse_body fuel (set_com new_message c) ts' ; Ok (Some r)
        end
      else do r <- parse_body fuel new_message ts ; Ok (Some r)
  end.

(** strings.ToUpper, as far as comparison with the ASCII header names goes:
    ASCII letters and the two runes with an ASCII upper case (U+0131, U+017F). *)
Definition upper (c : ascii) : ascii :=
  if is_lower c then byte_of (bval c - 32) else c.
Fixpoint kw_upper (s : bytes) : bytes :=
  match s with
  | a :: ((b :: t) as s') =>
      if (bval a =? 196) && (bval b =? 177) then "I"%char :: kw_upper t
      else if (bval a =? 197) && (bval b =? 191) then "S"%char :: kw_upper t
      else upper a :: kw_upper s'
  | [a] => [upper a]
  | [] => []
  end.

(** The switches of file.go:125-149 and 161-185: position of the field. *)
Fixpoint field_index (names : list bytes) (key : bytes) : option nat :=
  match names with
  | [] => None
  | n :: names' =>
      if beq (kw_upper key) (kw_upper n) then Some O else option_map S (field_index names' key)
  end.

Fixpoint set_nth {A} (n : nat) (v : A) (l : list A) : list A :=
  match l, n with
  | [], _ => []
  | _ :: l', O => v :: l'
  | x :: l', S n' => x :: set_nth n' v l'
  end.

(** map[string]string: m[k] = v *)
Fixpoint smap_set (m : list (bytes * bytes)) (k v : bytes) : list (bytes * bytes) :=
  match m with
  | [] => [(k, v)]
  | (j, w) :: m' => if beq j k then (k, v) :: m' else (j, w) :: smap_set m' k v
  end.

(** file.go:124-156 (Header.Set) *)
Definition header_set (h : header) (key val : bytes) : header :=
  match field_index header_names key with
  | Some i => Hdr (h_com h) (set_nth i val (h_known h)) (h_unknown h)
  | None => Hdr (h_com h) (h_known h) (smap_set (h_unknown h) key val)
  end.

(** file.go:160-199 (Header.Get); [fold] stands for the folding of
    strings.EqualFold: two runes are equal under it if they have the same
    image.  The unknown fields are looked at in iteration order. *)
Definition equal_fold (fold : rune -> rune) (a b : bytes) : bool :=
  (fix go (x y : list rune) : bool :=
     match x, y with
     | [], [] => true
     | r :: x', q :: y' => (fold r =? fold q) && go x' y'
     | _, _ => false
     end) (runes a) (runes b).
Fixpoint unknown_get (fold : rune -> rune) (m : list (bytes * bytes)) (key : bytes) : bytes :=
  match m with
  | [] => []
  | (k, v) :: m' => if equal_fold fold k key then v else unknown_get fold m' key
  end.
Definition header_get (fold : rune -> rune) (h : header) (key : bytes) : bytes :=
  match field_index header_names key with
  | Some i => nth i (h_known h) []
  | None => unknown_get fold (h_unknown h) key
  end.

(** parser.go:286-306 (parseHeader) *)
Fixpoint header_lines (h : header) (ls : list bytes) : option header :=
  match ls with
  | [] => Some h
  | l :: ls' =>
      match index_byte ":" l with
      | None => if is_nil (trim_space l) then header_lines h ls' else None
      | Some i =>
          header_lines (header_set h (trim_space (firstn i l)) (trim_space (skipn (S i) l))) ls'
      end
  end.
Definition parse_header (m : message) : option header :=
  match header_lines new_header (split_on LF (str_at (m_str m) 0)) with
  | Some h => Some (Hdr (m_com m) (h_known h) (h_unknown h))
  | None => None
  end.

(** parser.go:118-126 *)
Definition finish (h : option header) (ms : list message) : res pofile :=
  match h, ms with
  | None, [] => Err
  | None, _ => Ok (PoFile new_header ms)
  | Some h, _ => Ok (PoFile h ms)
  end.

(** parser.go:72-127 (parseFile).  Every round consumes a token, [steps]
    bounds the rounds. *)
Fixpoint parse_file (fuel steps : nat) (h : option header) (ms : list message)
  (ts : list (ptok * bytes)) : res pofile :=
  match steps with
  | O => OutOfFuel
  | S n =>
      do x <- parse_message fuel ts ;
      match x with
      | None => finish h ms
      | Some (m, ts', ended) =>
          if is_nil (m_id m) then
            if is_nil (m_str m) then parse_file fuel n h ms ts'
            else match h with
                 | Some _ => Err
                 | None => parse_file fuel n (parse_header m) ms ts'
                 end
          else if existsb (same_key m) ms then Err
          else if ended then finish h (ms ++ [m])
          else parse_file fuel n h (ms ++ [m]) ts'
      end
  end.

(** parser.go:58-70 (Parse); [ign] is ignoreComments. *)
Definition parse_po_fuel (fuel : nat) (ign : bool) (s : bytes) : res pofile :=
  let ts := scan_all ign TEof false (file_lines s) in
  match ts with
  | [] => Err
  | _ => parse_file fuel (S (length ts)) None [] ts
  end.
Definition parse_po (s : bytes) : res pofile := parse_po_fuel (S (length s)) false s.

(** ** Sorting *)

(** strings.Compare *)
Fixpoint bcmp (a b : bytes) : Z :=
  match a, b with
  | [], [] => 0
  | [], _ => -1
  | _, [] => 1
  | x :: a', y :: b' =>
      if bval x <? bval y then -1 else if bval y <? bval x then 1 else bcmp a' b'
  end.
Definition zcmp (a b : Z) : Z := if a <? b then -1 else if b <? a then 1 else 0.
Definition or_cmp (a b : Z) : Z := if a =? 0 then b else a.

(** Insertion sort as in slices.SortFunc on at most 12 elements (standard
    library): an element moves left while it is smaller than its neighbour.
    Here on the reversed prefix. *)
Fixpoint ins_rev {A} (cmp : A -> A -> Z) (x : A) (l : list A) : list A :=
  match l with
  | [] => [x]
  | y :: l' => if cmp x y <? 0 then y :: ins_rev cmp x l' else x :: l
  end.
Definition sort {A} (cmp : A -> A -> Z) (l : list A) : list A :=
  rev (fold_left (fun acc x => ins_rev cmp x acc) l []).

(** comment.go:106-122; equal elements are identical, so every sorting
    algorithm gives this result. *)
Definition ref_cmp (a b : reference) : Z :=
  or_cmp (bcmp (r_path a) (r_path b)) (or_cmp (zcmp (r_line a) (r_line b)) (zcmp (r_col a) (r_col b))).
Definition sort_comment (c : comment) : comment :=
  Com (cm_tr c) (cm_ex c) (sort ref_cmp (cm_refs c)) (sort bcmp (cm_flags c)) (cm_pctx c) (cm_pid c).

(** encoder.go:280-305: the loop over the references *)
Fixpoint refs_cmp (a b : list reference) : option Z :=
  match a, b with
  | x :: a', y :: b' =>
      let c := bcmp (r_path x) (r_path y) in
      if negb (c =? 0) then Some c
      else if negb (r_line x =? r_line y) then Some (if r_line x >? r_line y then 1 else -1)
      else if negb (r_col x =? r_col y) then Some (if r_col x >? r_col y then 1 else -1)
      else if negb (is_nil (r_path x)) && negb (is_nil (r_path y)) then Some (bcmp (r_path x) (r_path y))
      else refs_cmp a' b'
  | _, _ => None
  end.
(** encoder.go:275-317 (DefaultSortFunction) on messages whose comments are
    sorted already. *)
Definition msg_cmp (a b : message) : Z :=
  match (match m_com a, m_com b with
         | Some ca, Some cb => refs_cmp (cm_refs ca) (cm_refs cb)
         | _, _ => None
         end) with
  | Some c => c
  | None => or_cmp (bcmp (m_ctx a) (m_ctx b)) (bcmp (m_id a) (m_id b))
  end.
Definition sort_msg_comment (m : message) : message :=
  Msg (option_map sort_comment (m_com m)) (m_ctx m) (m_id m) (m_pl m) (m_str m).
(** encoder.go:97-105 with the default function.  The comparisons sort the
    comments of the messages in place; the model sorts all comments first (a
    comment compared only with nil comments would stay unsorted). *)
Definition sort_messages (ms : list message) : list message :=
  match ms with
  | [] | [_] => ms
  | _ => sort msg_cmp (map sort_msg_comment ms)
  end.

(** ** Encoder *)

(** encoder.go:29-37 without writer and sort function *)
Record enc_opts : Type := EncOpts {
  e_width : Z; e_header : bool; e_empty_header : bool; e_refs : bool }.
Definition default_opts : enc_opts := EncOpts (-1) true true true.

(** encoder.go:180-184 and the like: one prefixed line per wrapped line *)
Definition comment_lines (prefix : bytes) (width : Z) (s : bytes) : bytes :=
  concat (map (fun l => prefix ++ l ++ [LF]) (wrap_string s width)).

(** encoder.go:196-208 *)
Definition ref_text (r : reference) : bytes :=
  r_path r ++ (if 0 <? r_line r then ":"%char :: itoa (r_line r) else []).

(** encoder.go:174-222 (encodeComment) *)
Definition encode_comment (o : enc_opts) (c : option comment) : bytes :=
  match c with
  | None => []
  | Some c =>
      (if is_nil (cm_tr c) then [] else comment_lines (bs "# ") (e_width o) (cm_tr c)) ++
      (if is_nil (cm_ex c) then [] else comment_lines (bs "#. ") (e_width o) (cm_ex c)) ++
      (if negb (is_nil (cm_refs c)) && e_refs o
       then comment_lines (bs "#: ") (e_width o) (join (bs " ") (map ref_text (cm_refs c)))
       else []) ++
      (if is_nil (cm_flags c) then []
       else bs "#, " ++ join (bs ", ") (cm_flags c) ++ [LF])
  end.

(** encoder.go:247-251 *)
Fixpoint encode_strs (width : Z) (m : strmap) : res strmap :=
  match m with
  | [] => Ok []
  | (k, v) :: m' =>
      do x <- encode_po v width ; do xs <- encode_strs width m' ; Ok ((k, x) :: xs)
  end.
Definition key_cmp (a b : Z * bytes) : Z := zcmp (fst a) (fst b).

(** encoder.go:247-273 (encodeTranslations) *)
Definition encode_translations (width : Z) (plural : bool) (orig : strmap) : res bytes :=
  do m0 <- encode_strs width orig ;
  let m1 := match m0 with [] => [(0, bs """""")] | _ => m0 end in
  Ok (if plural then
        let m2 := match m1 with [_] => str_set m1 1 (bs """""") | _ => m1 end in
        concat (map (fun e => bs "msgstr[" ++ itoa (fst e) ++ bs "] " ++ snd e ++ [LF]) (sort key_cmp m2))
      else bs "msgstr " ++ str_at m1 0 ++ [LF]).

(** encoder.go:224-245 (encodeMessage) *)
Definition encode_message (o : enc_opts) (m : message) : res bytes :=
  do c <- (if is_nil (m_ctx m) then Ok []
           else do x <- encode_po (m_ctx m) (e_width o) ; Ok (bs "msgctxt " ++ x ++ [LF])) ;
  do i <- encode_po (m_id m) (e_width o) ;
  let has_plural := negb (is_nil (m_pl m)) || Nat.ltb 1 (length (m_str m)) in
  do p <- (if has_plural
           then do x <- encode_po (m_pl m) (e_width o) ; Ok (bs "msgid_plural " ++ x ++ [LF])
           else Ok []) ;
  do t <- encode_translations (e_width o) has_plural (m_str m) ;
  Ok (encode_comment o (m_com m) ++ c ++ bs "msgid " ++ i ++ [LF] ++ p ++ t).

(** encoder.go:162: the fields left out when empty *)
Definition optional_name (k : bytes) : bool :=
  beq k (bs "MIME-Version") || beq k (bs "Plural-Forms") || beq k (bs "X-Generator").
(** encoder.go:161-171 *)
Definition header_line (e : bytes * bytes) : bytes :=
  if optional_name (fst e) && is_nil (snd e) then []
  else QUOTE :: fst e ++ bs ": " ++ snd e ++ [BSLASH; "n"%char; QUOTE; LF].
(** encoder.go:122-172 (encodeHeader) *)
Definition encode_header (o : enc_opts) (h : header) : bytes :=
  let fs := combine header_names (h_known h) ++ h_unknown h in
  encode_comment o (h_com h) ++
  (if negb (e_empty_header o) && forallb (fun e => is_nil (snd e)) fs then []
   else bs "msgid """"" ++ [LF] ++ bs "msgstr """"" ++ [LF] ++ concat (map header_line fs)).

Fixpoint encode_messages (o : enc_opts) (ms : list message) : res bytes :=
  match ms with
  | [] => Ok []
  | [m] => encode_message o m
  | m :: ms' =>
      do x <- encode_message o m ; do y <- encode_messages o ms' ; Ok (x ++ LF :: y)
  end.

(** encoder.go:87-115 (encode) on messages already in their final order. *)
Definition encode_ordered (o : enc_opts) (h : option header) (ms : list message) : res bytes :=
  do y <- encode_messages o ms ;
  Ok (match h with
      | Some h => if e_header o then encode_header o h ++ [LF] else []
      | None => []
      end ++ y).
(** The same with the default sort function; the list is the order of the map
    iteration. *)
Definition encode_file (o : enc_opts) (h : option header) (ms : list message) : res bytes :=
  encode_ordered o h (sort_messages ms).

(** ** Merging *)

Definition mem_bytes (x : bytes) (l : list bytes) : bool := existsb (beq x) l.

(** comment.go:124-143 (mergeStringArrays): the result list serves as the set
    of strings seen. *)
Definition add_new (acc : list bytes) (x : bytes) : list bytes :=
  if mem_bytes x acc then acc else acc ++ [x].
Definition merge_strings (l r : list bytes) : list bytes :=
  fold_left add_new r (fold_left add_new l []).

(** comment.go:24-26 *)
Definition ref_eqb (a b : reference) : bool :=
  beq (r_path a) (r_path b) && (r_line a =? r_line b) && (r_col a =? r_col b).
(** comment.go:91-99 *)
Definition merge_refs (l r : list reference) : list reference :=
  fold_left (fun acc x => if existsb (fun y => ref_eqb y x) acc then acc else acc ++ [x]) r l.

(** comment.go:71-83 *)
Definition merge_text (a b : bytes) : bytes :=
  if is_nil b then a
  else trim_space (join [LF] (merge_strings (split_on LF a) (split_on LF b))).

(** comment.go:66-89 (Comment.Merge) *)
Definition merge_comment (c : comment) (other : option comment) : comment :=
  match other with
  | None => c
  | Some o =>
      sort_comment (Com (merge_text (cm_tr c) (cm_tr o)) (merge_text (cm_ex c) (cm_ex o))
                        (merge_refs (cm_refs c) (cm_refs o)) (merge_strings (cm_flags c) (cm_flags o))
                        (cm_pctx c) (cm_pid c))
  end.

(** message.go:33-46 (Message.Merge) *)
Definition merge_message (m other : message) : message :=
  let c := match m_com m with Some c => c | None => new_comment end in
  Msg (Some (merge_comment c (m_com other))) (m_ctx m) (m_id m)
      (if is_nil (m_pl m) then m_pl other else m_pl m) (m_str m).

(** file.go:49-60 (Messages.Add) *)
Fixpoint add_to (ms : list message) (m : message) : list message :=
  match ms with
  | [] => [m]
  | x :: ms' => if same_key x m then merge_message x m :: ms' else x :: add_to ms' m
  end.
(** file.go:71-81 (AddMessage) *)
Definition add_message (ms : list message) (m : message) : list message :=
  if is_nil (m_id m) then ms else add_to ms m.
(** file.go:85-96 (GetMessage) *)
Definition get_message (ms : list message) (ctx id : bytes) : option message :=
  find (fun m => beq (m_ctx m) ctx && beq (m_id m) id) ms.
