(** Specification vocabulary for PO strings: independent of the model. *)
From Coq Require Import String Ascii List ZArith Bool.
From Verif Require Import Base Utf8Model.
Import ListNotations.
Open Scope Z_scope.

(** UTF-8 text: the encoding of a sequence of Unicode scalar values. *)
Definition valid_utf8 (s : bytes) : Prop :=
  exists rs, Forall (fun r => scalar r = true) rs /\ s = encode_all rs.

(** Control characters without a PO escape letter. *)
Definition unescapable (c : ascii) : Prop := bval c < 32 /\ ~ (7 <= bval c <= 13).

(** The PO escape letters (C escapes plus the slash and the apostrophe). *)
Definition po_escapes : list (ascii * Z) :=
  [("a"%char, 7); ("b"%char, 8); ("t"%char, 9); ("n"%char, 10); ("v"%char, 11);
   ("f"%char, 12); ("r"%char, 13); (QUOTE, 34); (BSLASH, 92); ("/"%char, 47);
   ("'"%char, 39)].

(** A quoted body and the text it stands for: escapes from the table, all
    other runes stand for themselves. *)
Inductive po_body : bytes -> bytes -> Prop :=
| pb_nil : po_body [] []
| pb_esc : forall e z s v, In (e, z) po_escapes -> po_body s v ->
    po_body (BSLASH :: e :: s) (byte_of z :: v)
| pb_rune : forall r s v, scalar r = true -> r <> 10 -> r <> 34 -> r <> 92 ->
    po_body s v -> po_body (encode_rune r ++ s) (encode_rune r ++ v).

(** PO source of a string: quoted lines, joined by line feeds, standing for the
    concatenation of their texts. *)
Inductive po_source : bytes -> bytes -> Prop :=
| ps_one : forall b v, po_body b v -> po_source (QUOTE :: b ++ [QUOTE]) v
| ps_cons : forall b v t w, po_body b v -> po_source t w ->
    po_source (QUOTE :: b ++ QUOTE :: LF :: t) (v ++ w).

(** Bytes that are not part of a UTF-8 sequence count as U+FFFD, the way a
    range loop over a Go string presents them. *)
Definition sanitized (s : bytes) : bytes := encode_all (runes s).

(** ** Words *)
(** maximal runs of non-separators *)
Fixpoint words_from (sep : rune -> bool) (cur rs : list rune) : list (list rune) :=
  match rs with
  | [] => match cur with [] => [] | _ => [cur] end
  | r :: rs' =>
      if sep r then
        match cur with [] => words_from sep [] rs' | _ => cur :: words_from sep [] rs' end
      else words_from sep (cur ++ [r]) rs'
  end.
Definition words (sep : rune -> bool) (rs : list rune) := words_from sep [] rs.

(** white space at which a line may be broken: everything but no-break space *)
Definition breakable (r : rune) : bool := is_space r && negb (r =? 160).

(** ** Lines that the decoder cannot finish *)
(** [l] is a line of [t] (without its line feed) *)
Definition is_line (t l : bytes) : Prop :=
  ~ In LF l /\ exists u w, t = u ++ l ++ w /\
    (u = [] \/ exists u', u = u' ++ [LF]) /\ (w = [] \/ exists w', w = LF :: w').

(** [s] ends in an odd number of backslashes *)
Definition odd_tail (s : bytes) : Prop :=
  exists p n, s = p ++ repeat BSLASH n /\ (p = [] \/ exists q c, p = q ++ [c] /\ c <> BSLASH) /\
    Nat.odd n = true.

(** the quoted part of the line (from the first to the last quote) ends in an
    odd number of backslashes, i.e. the closing quote is escaped *)
Definition unclosed (l : bytes) : Prop :=
  exists a b c, l = a ++ QUOTE :: b ++ QUOTE :: c /\ ~ In QUOTE a /\ ~ In QUOTE c /\ odd_tail b.

(** some line of the text begins with breakable white space *)
Fixpoint indented (start : bool) (rs : list rune) : bool :=
  match rs with
  | [] => false
  | r :: rs' =>
      if r =? 10 then indented true rs'
      else (start && breakable r) || indented false rs'
  end.

Definition visible (rs : list rune) : list rune := filter (fun r => negb (breakable r)) rs.
