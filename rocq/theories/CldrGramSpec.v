(** The texts of plural rules that are accepted, and as what: words, tokens and
    the grammar of catalog/cldrplural/ast/parser.go:9-42 with its deviations.
    Taken from the model: the characters of a text and the tree that is built. *)
From Coq Require Import String Ascii List ZArith QArith Bool.
From Verif Require Import Base Utf8Model StrModel NumModel F64Model CldrModel CldrSpec.
Import ListNotations.
Open Scope Z_scope.

(** ** Words *)
(** white space of Unicode, and the comma *)
Definition separator (r : Z) : Prop :=
  9 <= r <= 13 \/ 8192 <= r <= 8202 \/ In r [32; 44; 133; 160; 5760; 8232; 8233; 8239; 8287; 12288].
(** characters (code point and bytes) to words *)
Inductive words : list (Z * bytes) -> list bytes -> Prop :=
| wo_nil : words [] []
| wo_sep : forall r b l ws, separator r -> words l ws -> words ((r, b) :: l) ws
| wo_word : forall u l ws, u <> [] -> Forall (fun x => ~ separator (fst x)) u -> words l ws ->
    match l with [] => True | x :: _ => separator (fst x) end ->
    words (u ++ l) (concat (map snd u) :: ws).

(** ** Tokens *)
Inductive token : Type :=
| TOper (w : bytes) | TRem | TRel (neg : bool) | TAnd | TOr
| TVal (s : bytes) | TRange (s t : bytes)
| TMark | TSample (s : bytes) | TSamples (x y : numeral).

(** [w] is the word [k] in any letter case; the capital I with a dot is an i *)
Inductive cased : bytes -> bytes -> Prop :=
| ca_nil : cased [] []
| ca_char : forall c k w ks, c = k \/ 97 <= bval k <= 122 /\ bval c = bval k - 32 -> cased w ks -> cased (c :: w) (k :: ks)
| ca_dot : forall w ks, cased w ks -> cased (byte_of 196 :: byte_of 176 :: w) ("i"%char :: ks).

Inductive keyword : bytes -> token -> Prop :=
| kw_oper : forall w o, cased w (oper_text o) -> keyword w (TOper w)
| kw_rem : forall w, w = bs "%" \/ cased w (bs "mod") -> keyword w TRem
| kw_eq : keyword (bs "=") (TRel false)
| kw_ne : keyword (bs "!=") (TRel true)
| kw_and : forall w, cased w (bs "and") -> keyword w TAnd
| kw_or : forall w, cased w (bs "or") -> keyword w TOr
| kw_mark : forall w, cased w (bs "@integer") \/ cased w (bs "@decimal") -> keyword w TMark.

(** words without meaning *)
Definition filler (w : bytes) : Prop := w = ["226"%char; "128"%char; "166"%char] \/ w = bs "..." \/ w = bs ".".

Definition digits (s : bytes) : Prop := s <> [] /\ all_digits s.
(** no leading zero but in 0 itself *)
Definition whole (s : bytes) : Prop := digits s /\ (s = bs "0" \/ no_leading_zero s).
Definition fraction (s : bytes) : Prop := s = [] \/ exists f, all_digits f /\ s = "."%char :: f.
(** samples: 7, 1.50, 1c6, 1c6.5, 1.5c6 *)
Inductive sample_word : bytes -> Prop :=
| sw_plain : forall a f, whole a -> fraction f -> sample_word (a ++ f)
| sw_first : forall a e f, digits a -> no_leading_zero a -> all_digits e -> fraction f -> sample_word (a ++ "c"%char :: e ++ f)
| sw_last : forall a f e, whole a -> all_digits f -> all_digits e -> sample_word (a ++ "."%char :: f ++ "c"%char :: e).

Inductive number : bytes -> token -> Prop :=
| nu_val : forall s, digits s -> number s (TVal s)
| nu_range : forall s t, digits s -> digits t -> no_leading_zero t -> number (s ++ bs ".." ++ t) (TRange s t)
| nu_sample : forall s, sample_word s -> ~ digits s -> number s (TSample s)
| nu_samples : forall x y, sample_num x -> sample_num y -> number (nm_text x ++ "~"%char :: nm_text y) (TSamples x y).

(** a range may be written in three words *)
Inductive lexed : list bytes -> list token -> Prop :=
| lx_nil : lexed [] []
| lx_filler : forall w ws ts, filler w -> lexed ws ts -> lexed (w :: ws) ts
| lx_keyword : forall w ws t ts, keyword w t -> lexed ws ts -> lexed (w :: ws) (t :: ts)
| lx_number : forall w ws t ts, number w t -> lexed ws ts -> lexed (w :: ws) (t :: ts)
| lx_joined : forall a j b ws t ts, a <> [] -> j = bs ".." \/ j = bs "~" -> number (a ++ j ++ b) t -> lexed ws ts ->
    lexed (a :: j :: b :: ws) (t :: ts).

(** ** Rules *)
(** values beyond int64 are its largest number *)
Definition clipped (s : bytes) : Z := Z.min (dec_val s) 9223372036854775807.

Inductive elem_of : token -> relem -> Prop :=
| eo_val : forall s, elem_of (TVal s) (RVal (clipped s))
| eo_range : forall s t, dec_val s <= dec_val t <= 9223372036854775807 -> elem_of (TRange s t) (RRange (dec_val s) (dec_val t)).
Inductive expr_of : list token -> cexpr -> Prop :=
| xo_oper : forall w, expr_of [TOper w] (CExpr w None)
| xo_mod : forall w s, expr_of [TOper w; TRem; TVal s] (CExpr w (Some (clipped s))).
Inductive rel_of : list token -> cnode -> Prop :=
| ro : forall xs e neg ls l, expr_of xs e -> ls <> [] -> Forall2 elem_of ls l -> rel_of (xs ++ TRel neg :: ls) (CRel neg e l).
Inductive and_of : list token -> cnode -> Prop :=
| ao_rel : forall ts n, rel_of ts n -> and_of ts n
| ao_and : forall ts n us m, rel_of ts n -> and_of us m -> and_of (ts ++ TAnd :: us) (CAnd n m).
Inductive or_of : list token -> cnode -> Prop :=
| oo_and : forall ts n, and_of ts n -> or_of ts n
| oo_or : forall ts n us m, and_of ts n -> or_of us m -> or_of (ts ++ TOr :: us) (COr n m).

(** samples, ranges written out *)
Inductive samples_of : list token -> list bytes -> Prop :=
| so_nil : samples_of [] []
| so_mark : forall ts l, samples_of ts l -> samples_of (TMark :: ts) l
| so_val : forall s ts l, samples_of ts l -> samples_of (TVal s :: ts) (s :: l)
| so_sample : forall s ts l, samples_of ts l -> samples_of (TSample s :: ts) (s :: l)
| so_range : forall x y zs ts l, same_places x y -> nm_digits x <= nm_digits y -> steps_from x y zs -> samples_of ts l ->
    samples_of (TSamples x y :: ts) (map nm_text zs ++ l).

(** the condition may be missing if there are samples *)
Inductive rule_of : list token -> option cnode -> list bytes -> Prop :=
| ru_cond : forall ts n, or_of ts n -> rule_of ts (Some n) []
| ru_both : forall ts n sts l, or_of ts n -> samples_of sts l -> rule_of (ts ++ TMark :: sts) (Some n) l
| ru_samples : forall sts l, samples_of sts l -> rule_of (TMark :: sts) None l.

(** ** Meaning *)
(** the tokens of a condition of the specification *)
Inductive elem_reads : token -> elem -> Prop :=
| er_val : forall s, elem_reads (TVal s) (Val (dec_val s))
| er_range : forall s t, elem_reads (TRange s t) (Range (dec_val s) (dec_val t)).
Inductive expr_reads : list token -> expr -> Prop :=
| xr_oper : forall o, expr_reads [TOper (oper_text o)] (Expr o None)
| xr_mod : forall o s, expr_reads [TOper (oper_text o); TRem; TVal s] (Expr o (Some (dec_val s))).
Inductive cond_reads : list token -> cond -> Prop :=
| cr_rel : forall xs e neg ls l, expr_reads xs e -> ls <> [] -> Forall2 elem_reads ls l -> cond_reads (xs ++ TRel neg :: ls) (Rel neg e l)
| cr_and : forall ts a us b, cond_reads ts a -> cond_reads us b -> cond_reads (ts ++ TAnd :: us) (And a b)
| cr_or : forall ts a us b, cond_reads ts a -> cond_reads us b -> cond_reads (ts ++ TOr :: us) (Or a b).
(** what may follow a condition, with the samples it contains *)
Inductive rest_of : list token -> list bytes -> Prop :=
| re_none : rest_of [] []
| re_samples : forall ts l, samples_of ts l -> rest_of (TMark :: ts) l.
Definition capital (w : bytes) : Prop := forall o, w <> oper_text o.

(** ** Texts without an end *)
(** a sample range that is never left: its ends differ in places or descend *)
Definition ascends (x y : numeral) : Prop := same_places x y /\ nm_digits x <= nm_digits y.
Inductive next_range : list bytes -> numeral -> numeral -> Prop :=
| nr_word : forall w rest x y, number w (TSamples x y) -> ~ In (hd [] rest) [bs ".."; bs "~"] -> next_range (w :: rest) x y
| nr_joined : forall a j b rest x y, a <> [] -> j = bs ".." \/ j = bs "~" -> number (a ++ j ++ b) (TSamples x y) -> next_range (a :: j :: b :: rest) x y.
(** everything before it is in order, what follows is never read *)
Definition stuck (ws : list bytes) : Prop :=
  exists us tail ts root l x y, ws = us ++ tail /\ lexed us ts /\ rule_of ts root l /\ In TMark ts /\ next_range tail x y /\ ~ ascends x y.

(** ** Rules that cannot be evaluated *)
(** an operand in capitals, or an integer operand modulo 0 *)
Inductive faulty : cnode -> Prop :=
| fa_capital : forall neg e l, capital (ce_operand e) -> faulty (CRel neg e l)
| fa_zero : forall neg e l, ce_mod e = Some 0 -> ce_operand e <> bs "n" -> faulty (CRel neg e l)
| fa_and : forall a b, faulty a \/ faulty b -> faulty (CAnd a b)
| fa_or : forall a b, faulty a \/ faulty b -> faulty (COr a b).
(** no range reaches up to the largest int64 *)
Fixpoint below_max (n : cnode) : Prop :=
  match n with
  | CRel _ _ l => Forall (fun e => match e with RRange _ b => b <> 9223372036854775807 | RVal _ => True end) l
  | CAnd a b | COr a b => below_max a /\ below_max b
  end.
(** a range up to the largest int64 around a number that is none of its
    integers (to 1e-6) *)
Definition endless (q : Q) (e : relem) : Prop :=
  exists a, e = RRange a 9223372036854775807 /\ (inject_Z (f64_of_int a) <= q)%Q /\ (q <= inject_Z 9223372036854775808)%Q /\
  forall z, a <= z <= 9223372036854775807 -> (feps < Qabs.Qabs (inject_Z (f64_of_int z) - q))%Q.
(** what goes wrong first, from left to right: a panic, or no end *)
Inductive trouble_kind : Type := Panics | Hangs.
Fixpoint trouble (o : ops) (n : cnode) (k : trouble_kind) : Prop :=
  match n with
  | CRel neg e l =>
      match k with
      | Panics => faulty n
      | Hangs => exists q el, eval_expr e o = Ok (Some q) /\ In el l /\ endless q el
      end
  | CAnd a b | COr a b => trouble o a k \/ ((forall k', ~ trouble o a k') /\ trouble o b k)
  end.
