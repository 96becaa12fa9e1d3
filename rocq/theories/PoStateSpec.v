(** A PO parser that is used more than once. *)
From Coq Require Import String Ascii List ZArith Bool.
From Verif Require Import Base PoFileModel PoStateModel.
Import ListNotations.

(** what the caller of Parse sees: the file, the error *)
Inductive seen : Type := SFile (f : pofile) | SError (e : perr) | SPanic | SHangs.
(** the messages of a file are those of its map, when it is looked at *)
Definition look (h : header) (a : option nat) (p : parser) : pofile :=
  PoFile h (match a with None => [] | Some a => nth a (p_mem p) [] end).
Definition seen_of (o : out (header * option nat)) : seen :=
  match o with
  | OGot (h, a) p => SFile (look h a p)
  | OErr e _ => SError e
  | OPanic => SPanic
  | OFuel => SHangs
  end.
(** the parser afterwards *)
Definition leaves (o : out (header * option nat)) (p : parser) : Prop :=
  (exists f, o = OGot f p) \/ (exists e, o = OErr e p).
(** new, or set and used any number of times, with files and with errors *)
Inductive used : parser -> Prop :=
| used_new : forall mem, used (new_parser mem)
| used_set : forall p ign, used p -> used (set_ignore p ign)
| used_parse : forall p fuel s p', used p -> leaves (p_parse fuel p s) p' -> used p'.
