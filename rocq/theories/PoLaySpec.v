(** How a text is laid out in lines of at most [w] characters, for the exact
    form of property C20. *)
From Coq Require Import List ZArith Bool.
From Verif Require Import Base Utf8Model PoStrModel PoStrSpec.
Import ListNotations.
Open Scope Z_scope.

Definition blanks (g : list rune) : Prop := Forall (fun r => breakable r = true) g.
Definition a_word (x : list rune) : Prop := x <> [] /\ Forall (fun r => breakable r = false) x.
(** nothing, or a blank, follows *)
Definition edge (rest : list rune) : Prop := rest = [] \/ exists b t, rest = b :: t /\ breakable b = true.
Definition len (x : list rune) : Z := Z.of_nat (length x).

(** [packed w cur rest ls]: with [cur] on the current line, the text [rest]
    completes the lines [ls]: a word goes on the current line, after its white
    space, if the line then has at most [w] characters; otherwise it begins the
    next line and its white space is dropped.  White space at the end is dropped. *)
Inductive packed (w : Z) : list rune -> list rune -> list (list rune) -> Prop :=
| pk_end : forall cur g, blanks g -> packed w cur g [cur]
| pk_fits : forall cur g x rest ls, g <> [] -> blanks g -> a_word x -> edge rest ->
    len cur + len g + len x <= w -> packed w (cur ++ g ++ x) rest ls -> packed w cur (g ++ x ++ rest) ls
| pk_next : forall cur g x rest ls, g <> [] -> blanks g -> a_word x -> edge rest ->
    w < len cur + len g + len x -> packed w x rest ls -> packed w cur (g ++ x ++ rest) (cur :: ls).

(** How many characters of the first word fit after the indentation [g]. *)
Definition room (w : Z) (g : list rune) : Z := Z.max 0 (w - len g).

(** A line of the text: blank lines become empty; the indentation stays before
    the first word, one character more than fits is allowed there, and if the
    word has two or more characters too many, it is cut where the line is full
    and its second part treated as a word. *)
Inductive laid_line (w : Z) : list rune -> list (list rune) -> Prop :=
| ll_blank : forall g, blanks g -> laid_line w g [[]]
| ll_first : forall g x rest ls, blanks g -> a_word x -> edge rest ->
    g = [] \/ len x <= room w g + 1 -> packed w (g ++ x) rest ls -> laid_line w (g ++ x ++ rest) ls
| ll_cut : forall g a b rest ls, g <> [] -> blanks g -> a_word (a ++ b) -> edge rest ->
    len a = room w g -> 2 <= len b -> packed w b rest ls -> laid_line w (g ++ (a ++ b) ++ rest) ((g ++ a) :: ls).

(** The lines of the text are laid out one by one. *)
Inductive laid_text (w : Z) : list rune -> list (list rune) -> Prop :=
| lt_last : forall l ls, ~ In 10 l -> laid_line w l ls -> laid_text w l ls
| lt_more : forall l rest ls ls', ~ In 10 l -> laid_line w l ls -> laid_text w rest ls' ->
    laid_text w (l ++ 10 :: rest) (ls ++ ls').

(** A line that is allowed: at most [w] characters, or a part without white
    space, or an indentation and the beginning of a word with one character too
    many, or an indentation as wide as the line and at most one character. *)
Definition long_ok (w : Z) (l : list rune) : Prop :=
  len l <= w \/ Forall (fun r => breakable r = false) l \/
  exists g x, l = g ++ x /\ g <> [] /\ blanks g /\ Forall (fun r => breakable r = false) x /\
    (len l = w + 1 \/ (w <= len g /\ len x <= 1)).
