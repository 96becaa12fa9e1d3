(** How EncodePoString breaks a text into lines, for the exact form of property
    C76. *)
From Coq Require Import List ZArith Bool.
From Verif Require Import Base Utf8Model PoStrSpec.
Import ListNotations.
Open Scope Z_scope.

Definition flen (x : list rune) : Z := Z.of_nat (length x).
Definition no_blank (x : list rune) : Prop := Forall (fun r => breakable r = false) x.
(** a word with the white space after it; at the beginning of a line of the
    text ([l] is empty) there may be white space without a word *)
Definition chunk (l c : list rune) : Prop :=
  exists x g, c = x ++ g /\ no_blank x /\ g <> [] /\ Forall (fun r => breakable r = true) g /\ (l <> [] -> x <> []).
(** nothing, or a word, follows *)
Definition fresh (rest : list rune) : Prop := rest = [] \/ exists r t, rest = r :: t /\ breakable r = false.

(** [filled w l rest ls]: with [l] on the current line, [rest], a text without
    line feed, completes the lines [ls].  A word and its white space go on a
    line that has place for both; they begin a line of their own otherwise, and
    end it at once if there is more text and not two places left for it.  The
    last word is put on the line whatever its length. *)
Inductive filled (w : Z) : list rune -> list rune -> list (list rune) -> Prop :=
| fi_last : forall l z, no_blank z -> filled w l z [l ++ z]
| fi_more : forall l c rest ls, l <> [] -> chunk l c -> fresh rest -> flen l + flen c <= w ->
    filled w (l ++ c) rest ls -> filled w l (c ++ rest) ls
| fi_next : forall l c rest ls, l <> [] -> chunk l c -> fresh rest -> w < flen l + flen c ->
    filled w [] (c ++ rest) ls -> filled w l (c ++ rest) (l :: ls)
| fi_first : forall c rest ls, chunk [] c -> fresh rest -> rest = [] \/ flen c + 1 < w ->
    filled w c rest ls -> filled w [] (c ++ rest) ls
| fi_alone : forall c rest ls, chunk [] c -> fresh rest -> rest <> [] -> w <= flen c + 1 ->
    filled w [] rest ls -> filled w [] (c ++ rest) (c :: ls).

(** The lines of the text are broken one by one, the line feed stays at the end
    of its line; after the last line feed there is no empty line. *)
Inductive filled_text (w : Z) : bool -> list rune -> list (list rune) -> Prop :=
| ft_none : filled_text w false [] []
| ft_last : forall b l ls, ~ In 10 l -> b = true \/ l <> [] -> filled w [] l ls -> filled_text w b l ls
| ft_more : forall b l rest ls z ls', ~ In 10 l -> filled w [] l (ls ++ [z]) -> filled_text w false rest ls' ->
    filled_text w b (l ++ 10 :: rest) (ls ++ [z ++ [10]] ++ ls').
