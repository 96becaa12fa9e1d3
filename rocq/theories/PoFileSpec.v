(** Specification vocabulary for PO files: the line grammar of a file whose
    entries are separated by blank lines.  Only the data types of the model
    are used. *)
From Coq Require Import String Ascii List ZArith Bool Permutation.
From Verif Require Import Base Utf8Model PoStrSpec PoFileModel.
Import ListNotations.
Open Scope Z_scope.

(** Text that neither starts nor ends with white space. *)
Definition clean (t : bytes) : Prop :=
  t = [] \/ exists r u s v, scalar r = true /\ is_space r = false /\ t = encode_rune r ++ u /\
    scalar s = true /\ is_space s = false /\ t = v ++ encode_rune s.

(** Blanks, tabs and carriage returns around a line; blanks and tabs inside. *)
Definition pad (w : bytes) : Prop := Forall (fun c => c = SP \/ c = TAB \/ c = CR) w.
Definition gap (w : bytes) : Prop := Forall (fun c => c = SP \/ c = TAB) w.
Definition padded (t l : bytes) : Prop := exists w1 w2, pad w1 /\ pad w2 /\ l = w1 ++ t ++ w2.

(** "..." *)
Definition quoted_text (q v : bytes) : Prop := exists b, q = QUOTE :: b ++ [QUOTE] /\ po_body b v.

(** [keyword "..."], followed by lines that start with [cont] and contain a
    quoted string; the value is the concatenation. *)
Definition cont_line (cont l v : bytes) : Prop :=
  exists q, quoted_text q v /\ exists g, gap g /\ (cont = [] -> g = []) /\ padded (cont ++ g ++ q) l.
Inductive field (kw cont : bytes) : list bytes -> bytes -> Prop :=
| field_intro : forall l g q v ls vs, padded (kw ++ SP :: g ++ q) l -> gap g -> quoted_text q v ->
    Forall2 (cont_line cont) ls vs -> field kw cont (l :: ls) (v ++ concat vs).

(** ** Comments *)
Inductive citem : Type :=
| ITrans (t : bytes) | IExtr (t : bytes) | IRefs (rs : list reference) | IFlags (fs : list bytes)
| IPrevCtx (v : bytes) | IPrevId (v : bytes).

(** A word: UTF-8 without white space. *)
Definition word (w : bytes) : Prop :=
  w <> [] /\ exists rs, w = encode_all rs /\ Forall (fun r => scalar r = true /\ is_space r = false) rs.

(** path or path:line *)
Definition ref_text_of (r : reference) (s : bytes) : Prop :=
  word (r_path r) /\ ~ In ":"%char (r_path r) /\ r_col r = 0 /\
  ((r_line r = -1 /\ s = r_path r) \/
   exists d, d <> [] /\ Forall (fun c => is_digit c = true) d /\ dec_val d = r_line r /\
     r_line r <= maxInt64 /\ s = r_path r ++ ":"%char :: d).
Inductive refs_text : list reference -> bytes -> Prop :=
| rt_one : forall r s, ref_text_of r s -> refs_text [r] s
| rt_cons : forall r s rs t, ref_text_of r s -> refs_text rs t -> refs_text (r :: rs) (s ++ SP :: t).

(** flags, separated by commas and blanks *)
Definition flag (f : bytes) : Prop := word f /\ ~ In ","%char f.
Definition flag_sep (w : bytes) : Prop := w <> [] /\ Forall (fun c => c = SP \/ c = TAB \/ c = ","%char) w.
Inductive flags_text : list bytes -> bytes -> Prop :=
| ft_one : forall f, flag f -> flags_text [f] f
| ft_cons : forall f w fs t, flag f -> flag_sep w -> flags_text fs t -> flags_text (f :: fs) (f ++ w ++ t).

Inductive item_lines : citem -> list bytes -> Prop :=
| il_empty : forall l, padded (bs "#") l -> item_lines (ITrans []) [l]
| il_trans : forall t g l, t <> [] -> clean t -> gap g -> padded (bs "# " ++ g ++ t) l ->
    item_lines (ITrans t) [l]
| il_extr : forall t g l, t <> [] -> clean t -> gap g -> padded (bs "#. " ++ g ++ t) l ->
    item_lines (IExtr t) [l]
| il_refs : forall rs t g l, refs_text rs t -> gap g -> padded (bs "#: " ++ g ++ t) l ->
    item_lines (IRefs rs) [l]
| il_flags : forall fs t g l, flags_text fs t -> gap g -> padded (bs "#, " ++ g ++ t) l ->
    item_lines (IFlags fs) [l]
| il_pctx : forall ls v, field (bs "#| msgctxt") (bs "#| ") ls v -> item_lines (IPrevCtx v) ls
| il_pid : forall ls v, field (bs "#| msgid") (bs "#| ") ls v -> item_lines (IPrevId v) ls.

Inductive items_lines : list citem -> list bytes -> Prop :=
| ils_nil : items_lines [] []
| ils_cons : forall i is l ls, item_lines i l -> items_lines is ls -> items_lines (i :: is) (l ++ ls).

(** Lines of comment text; empty lines at the beginning do not count. *)
Fixpoint drop_empty (l : list bytes) : list bytes :=
  match l with [] :: l' => drop_empty l' | _ => l end.
Fixpoint lines_text (l : list bytes) : bytes :=
  match l with
  | [] => []
  | [x] => x
  | x :: l' => x ++ LF :: lines_text l'
  end.
Definition com_of (is : list citem) : comment :=
  Com (lines_text (drop_empty (flat_map (fun i => match i with ITrans t => [t] | _ => [] end) is)))
      (lines_text (drop_empty (flat_map (fun i => match i with IExtr t => [t] | _ => [] end) is)))
      (flat_map (fun i => match i with IRefs rs => rs | _ => [] end) is)
      (flat_map (fun i => match i with IFlags fs => fs | _ => [] end) is)
      (flat_map (fun i => match i with IPrevCtx v => v | _ => [] end) is)
      (flat_map (fun i => match i with IPrevId v => v | _ => [] end) is).

(** What is left of a comment or message when comments are ignored: flags. *)
Definition seen_comment (ign : bool) (c : comment) : comment :=
  if ign then Com [] [] [] (cm_flags c) [] [] else c.
Definition seen_message (ign : bool) (m : message) : message :=
  Msg (option_map (seen_comment ign) (m_com m)) (m_ctx m) (m_id m) (m_pl m) (m_str m).

(** ** Entries *)
Inductive ctx_lines : list bytes -> bytes -> Prop :=
| cl_none : ctx_lines [] []
| cl_some : forall ls v, field (bs "msgctxt") [] ls v -> ctx_lines ls v.

(** msgstr[i], msgstr[i+1], ... *)
Inductive forms_lines : Z -> list bytes -> strmap -> Prop :=
| fl_nil : forall i, forms_lines i [] []
| fl_cons : forall i ls v ls' m, i <= maxInt64 ->
    field (bs "msgstr[" ++ utoa i ++ bs "]") [] ls v ->
    forms_lines (i + 1) ls' m -> forms_lines i (ls ++ ls') ((i, v) :: m).

(** plural id and translations *)
Inductive trans_lines : list bytes -> bytes -> strmap -> Prop :=
| tl_single : forall ls v, field (bs "msgstr") [] ls v -> trans_lines ls [] [(0, v)]
| tl_plural : forall ls p ls' m, field (bs "msgid_plural") [] ls p -> m <> [] ->
    forms_lines 0 ls' m -> trans_lines (ls ++ ls') p m.

Inductive entry_lines : message -> list bytes -> Prop :=
| el_intro : forall is il ctx cl id idl pl tl m, items_lines is il -> ctx_lines cl ctx ->
    field (bs "msgid") [] idl id -> trans_lines tl pl m -> id <> [] ->
    entry_lines (Msg (Some (com_of is)) ctx id pl m) (il ++ cl ++ idl ++ tl).

(** ** Header: an entry with empty id whose text has the lines [key: value]. *)
Definition header_text (kvs : list (bytes * bytes)) (v : bytes) : Prop :=
  Forall (fun e => clean (fst e) /\ ~ In ":"%char (fst e) /\ ~ In LF (fst e) /\
                   clean (snd e) /\ ~ In LF (snd e)) kvs /\
  v = concat (map (fun e => fst e ++ bs ": " ++ snd e ++ [LF]) kvs).

Inductive header_lines_of : list citem -> list (bytes * bytes) -> list bytes -> Prop :=
| hl_intro : forall is il idl sl kvs v, items_lines is il -> field (bs "msgid") [] idl [] ->
    field (bs "msgstr") [] sl v -> header_text kvs v ->
    header_lines_of is kvs (il ++ idl ++ sl).

(** ** Files *)
Inductive block : Type :=
| BMsg (m : message)
| BHeader (is : list citem) (kvs : list (bytes * bytes))
| BComment (is : list citem).
Inductive block_lines : block -> list bytes -> Prop :=
| bl_msg : forall m ls, entry_lines m ls -> block_lines (BMsg m) ls
| bl_header : forall is kvs ls, header_lines_of is kvs ls -> block_lines (BHeader is kvs) ls
| bl_comment : forall is ls, is <> [] -> items_lines is ls -> block_lines (BComment is) ls.

Inductive layout : list block -> list bytes -> Prop :=
| lay_nil : forall pre, Forall pad pre -> layout [] pre
| lay_last : forall b pre ls, Forall pad pre -> block_lines b ls -> layout [b] (pre ++ ls)
| lay_cons : forall b bl pre ls w rest, Forall pad pre -> block_lines b ls -> pad w ->
    layout bl rest -> layout (b :: bl) (pre ++ ls ++ w :: rest).

(** The text with these lines; the last line may lack its line feed. *)
Definition text_of (ls : list bytes) (s : bytes) : Prop :=
  Forall (fun l => ~ In LF l /\ Z.of_nat (length l) < 65536) ls /\
  (s = concat (map (fun l => l ++ [LF]) ls) \/
   exists ls' l, ls = ls' ++ [l] /\ l <> [] /\ s = concat (map (fun l => l ++ [LF]) ls') ++ l).

Definition messages_of (bl : list block) : list message :=
  flat_map (fun b => match b with BMsg m => [m] | _ => [] end) bl.
Definition headers_of (bl : list block) : list (list citem * list (bytes * bytes)) :=
  flat_map (fun b => match b with BHeader is kvs => [(is, kvs)] | _ => [] end) bl.
Definition key (m : message) : bytes * bytes := (m_ctx m, m_id m).

(** ** Header fields *)
(** equality of names without regard to (ASCII) case *)
Definition ci_eq (a b : bytes) : Prop := map lower a = map lower b.
Definition ascii_text (s : bytes) : Prop := Forall (fun c => bval c < 128) s.
(** a folding that, on ASCII, identifies letters with their other case and
    nothing else *)
Definition ascii_fold (fold : rune -> rune) : Prop :=
  forall a b : ascii, bval a < 128 -> bval b < 128 -> (fold (bval a) = fold (bval b) <-> lower a = lower b).
(** the value of the last pair with this name *)
Inductive last_value : list (bytes * bytes) -> bytes -> bytes -> Prop :=
| lv_none : forall kvs k, Forall (fun e => ~ ci_eq (fst e) k) kvs -> last_value kvs k []
| lv_some : forall kvs k k' v rest, ci_eq k' k -> Forall (fun e => ~ ci_eq (fst e) k) rest ->
    last_value (kvs ++ (k', v) :: rest) k v.

(** the twelve names with a field of their own *)
Definition known_name (k : bytes) : Prop := exists n, In n header_names /\ ci_eq k n.
(** the other names are spelled in one way only *)
Definition one_spelling (ks : list bytes) : Prop :=
  forall a b, In a ks -> In b ks -> ci_eq a b -> ~ known_name a -> a = b.

(** ** Order *)
(** lexicographic order of byte strings *)
Inductive bytes_lt : bytes -> bytes -> Prop :=
| blt_nil : forall c s, bytes_lt [] (c :: s)
| blt_head : forall c d s t, bval c < bval d -> bytes_lt (c :: s) (d :: t)
| blt_tail : forall c s t, bytes_lt s t -> bytes_lt (c :: s) (c :: t).
Definition bytes_le (a b : bytes) : Prop := bytes_lt a b \/ a = b.
(** path, line, column *)
Definition ref_lt (a b : reference) : Prop :=
  bytes_lt (r_path a) (r_path b) \/
  r_path a = r_path b /\ (r_line a < r_line b \/ r_line a = r_line b /\ r_col a < r_col b).
Definition ref_le (a b : reference) : Prop := ref_lt a b \/ a = b.
(** no element is followed by one that should precede it *)
Definition ordered {A} (le : A -> A -> Prop) (l : list A) : Prop :=
  forall a x b y c, l = a ++ x :: b ++ y :: c -> le x y.
(** context, id *)
Definition key_lt (a b : message) : Prop :=
  bytes_lt (m_ctx a) (m_ctx b) \/ m_ctx a = m_ctx b /\ bytes_lt (m_id a) (m_id b).

Definition refs_of (m : message) : list reference :=
  match m_com m with Some c => cm_refs c | None => [] end.
Definition least_ref (m : message) (r : reference) : Prop :=
  In r (refs_of m) /\ Forall (ref_le r) (refs_of m).
(** messages without references *)
Definition no_refs (ms : list message) : Prop :=
  Forall (fun m => refs_of m = []) ms /\ NoDup (map key ms).
(** messages whose smallest references differ *)
Definition distinct_refs (ms : list message) : Prop :=
  exists rs, Forall2 least_ref ms rs /\ NoDup rs.

(** non-empty, trimmed lines, each once *)
Definition tlines (ls : list bytes) : Prop :=
  NoDup ls /\ Forall (fun l => l <> [] /\ clean l /\ ~ In LF l) ls.

(** ** Files that can be written and read back *)
(** words separated by one blank or line feed *)
Inductive text_words : list bytes -> bytes -> Prop :=
| tw_one : forall w, word w -> text_words [w] w
| tw_cons : forall w c ws t, word w -> c = SP \/ c = LF -> text_words ws t ->
    text_words (w :: ws) (w ++ c :: t).
(** comment text that survives wrapping at width [w]: words separated by one
    blank or line feed, or (not wrapped, w <= 0) trimmed lines; only
    translator comments ([e]) may have empty lines in between *)
Definition comment_text (e : bool) (w : Z) (t : bytes) : Prop :=
  t = [] \/ (exists ws, text_words ws t) \/
  (w <= 0 /\ exists l ls, t = lines_text (l :: ls) /\ l <> [] /\
     Forall (fun x => clean x /\ ~ In LF x /\ (e = false -> x <> [])) (l :: ls)).
Definition same_text (w : Z) (t t' : bytes) : Prop :=
  t' = t \/ (0 < w /\ exists ws, text_words ws t /\ text_words ws t').

Definition writable_ref (r : reference) : Prop :=
  word (r_path r) /\ ~ In ":"%char (r_path r) /\ r_col r = 0 /\
  (r_line r = -1 \/ 0 < r_line r <= maxInt64).
Definition writable_comment (w : Z) (c : comment) : Prop :=
  comment_text true w (cm_tr c) /\ comment_text false w (cm_ex c) /\
  Forall writable_ref (cm_refs c) /\ Forall flag (cm_flags c) /\ cm_pctx c = [] /\ cm_pid c = [].
Definition the_comment (c : option comment) : comment :=
  match c with Some c => c | None => Com [] [] [] [] [] [] end.
Definition same_comment (w : Z) (c c' : option comment) : Prop :=
  same_text w (cm_tr (the_comment c)) (cm_tr (the_comment c')) /\
  same_text w (cm_ex (the_comment c)) (cm_ex (the_comment c')) /\
  Permutation (cm_refs (the_comment c)) (cm_refs (the_comment c')) /\
  Permutation (cm_flags (the_comment c)) (cm_flags (the_comment c')) /\
  cm_pctx (the_comment c) = cm_pctx (the_comment c') /\
  cm_pid (the_comment c) = cm_pid (the_comment c').

Definition writable_text (s : bytes) : Prop := valid_utf8 s /\ ~ Exists unescapable s.
(** one form for a message without plural, otherwise forms 0, ..., n-1 *)
Definition writable_forms (pl : bytes) (m : strmap) : Prop :=
  exists n, Permutation (map fst m) (map Z.of_nat (seq 0 n)) /\ Z.of_nat n <= maxInt64 /\
    ((n = 1%nat /\ pl = []) \/ (2 <= n)%nat).
Definition writable_message (w : Z) (m : message) : Prop :=
  writable_comment w (the_comment (m_com m)) /\ m_id m <> [] /\
  writable_text (m_ctx m) /\ writable_text (m_id m) /\ writable_text (m_pl m) /\
  Forall (fun e => writable_text (snd e)) (m_str m) /\ writable_forms (m_pl m) (m_str m).
(** maps are lists in any order *)
Definition same_message (w : Z) (m m' : message) : Prop :=
  same_comment w (m_com m) (m_com m') /\ m_ctx m = m_ctx m' /\ m_id m = m_id m' /\
  m_pl m = m_pl m' /\ Permutation (m_str m) (m_str m').

(** header texts are written without escapes *)
Definition plain_text (s : bytes) : Prop :=
  clean s /\ exists rs, s = encode_all rs /\ Forall (fun r => scalar r = true /\ r <> 10 /\ r <> 34 /\ r <> 92) rs.
Definition writable_header (w : Z) (h : header) : Prop :=
  writable_comment w (the_comment (h_com h)) /\ length (h_known h) = length header_names /\
  Forall plain_text (h_known h) /\
  Forall (fun e => plain_text (fst e) /\ ascii_text (fst e) /\ ~ In ":"%char (fst e) /\
                   ~ known_name (fst e) /\ plain_text (snd e)) (h_unknown h) /\
  NoDup (map fst (h_unknown h)).
Definition same_header (w : Z) (h h' : header) : Prop :=
  same_comment w (h_com h) (h_com h') /\ h_known h = h_known h' /\ h_unknown h = h_unknown h'.
(** the header that is written at all *)
Definition written_header (o : enc_opts) (h : option header) : option header := if e_header o then h else None.
