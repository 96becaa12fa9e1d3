(** How far the PO parser has read when an entry is complete. *)
From Coq Require Import String Ascii List ZArith Bool.
From Verif Require Import Base StrModel PoLineSpec.
Import ListNotations.
Open Scope Z_scope.

(** An entry ends with the file, with a comment, or with blank lines.  In the
    last case the line behind them is read, too.  [noticed b j t]: of the lines
    [b] behind an entry [j] are read; [t] is the last of them, or nothing if the
    end of the file was reached. *)
Inductive noticed (ign : bool) : list bytes -> Z -> bytes -> Prop :=
| no_end : noticed ign [] 0 []
| no_comment : forall l c, comment_start l -> ~ passed_over ign (trim_space l) -> noticed ign (l :: c) 1 l
| no_blanks : forall w, w <> [] -> Forall (fun l => trim_space l = []) w -> noticed ign w (Z.of_nat (length w)) []
| no_next : forall w l c, w <> [] -> Forall (fun l => trim_space l = []) w -> trim_space l <> [] ->
    noticed ign (w ++ l :: c) (Z.of_nat (length w) + 1) l.
