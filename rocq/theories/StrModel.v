(** Functions of Go's strings package used by several models (standard
    library; no file of /repo). *)
From Coq Require Import String Ascii List ZArith Bool.
From Verif Require Import Base Utf8Model.
Import ListNotations.
Open Scope Z_scope.

(** strings.Split(s, sep) for a one-byte separator: never empty. *)
Fixpoint split_on (c : ascii) (s : bytes) : list bytes :=
  match s with
  | [] => [[]]
  | a :: s' =>
      if Ascii.eqb a c then [] :: split_on c s'
      else match split_on c s' with
           | [] => [[a]]
           | l :: ls => (a :: l) :: ls
           end
  end.

(** strings.Join(l, sep). *)
Fixpoint join (sep : bytes) (l : list bytes) : bytes :=
  match l with
  | [] => []
  | [x] => x
  | x :: l' => x ++ sep ++ join sep l'
  end.

(** strings.Index for a one-byte pattern: None is -1. *)
Fixpoint index_byte (c : ascii) (s : bytes) : option nat :=
  match s with
  | [] => None
  | a :: s' => if Ascii.eqb a c then Some O else option_map S (index_byte c s')
  end.

(** strings.LastIndex for a one-byte pattern. *)
Fixpoint last_index_byte (c : ascii) (s : bytes) : option nat :=
  match s with
  | [] => None
  | a :: s' =>
      match last_index_byte c s' with
      | Some i => Some (S i)
      | None => if Ascii.eqb a c then Some O else None
      end
  end.

(** s[i:j] for i <= j <= len(s). *)
Definition slice (i j : nat) (s : bytes) : bytes := firstn (j - i) (skipn i s).

(** Strip one leading rune satisfying unicode.IsSpace. *)
Definition strip_space (s : bytes) : option bytes :=
  match s with
  | [] => None
  | _ :: _ => let (r, w) := decode_rune s in if is_space r then Some (skipn w s) else None
  end.

Fixpoint trim_left_fuel (fuel : nat) (s : bytes) : bytes :=
  match fuel with
  | O => s
  | S f => match strip_space s with Some s' => trim_left_fuel f s' | None => s end
  end.
(** strings.TrimLeftFunc(s, unicode.IsSpace). *)
Definition trim_left (s : bytes) : bytes := trim_left_fuel (length s) s.

(** The runes of unicode.IsSpace, for the right end: utf8.DecodeLastRune
    returns one of them exactly when the string ends with its encoding. *)
Definition space_runes : list rune :=
  [9; 10; 11; 12; 13; 32; 133; 160; 5760; 8192; 8193; 8194; 8195; 8196; 8197; 8198;
   8199; 8200; 8201; 8202; 8232; 8233; 8239; 8287; 12288].

(** Strip one trailing white-space rune, on the reversed string. *)
Fixpoint strip_rev (l : list rune) (t : bytes) : option bytes :=
  match l with
  | [] => None
  | r :: l' =>
      let e := rev (encode_rune r) in
      if has_prefix t e then Some (skipn (length e) t) else strip_rev l' t
  end.
Fixpoint trim_rev_fuel (fuel : nat) (t : bytes) : bytes :=
  match fuel with
  | O => t
  | S f => match strip_rev space_runes t with Some t' => trim_rev_fuel f t' | None => t end
  end.
(** strings.TrimRightFunc(s, unicode.IsSpace). *)
Definition trim_right (s : bytes) : bytes := rev (trim_rev_fuel (length s) (rev s)).

(** strings.TrimSpace. *)
Definition trim_space (s : bytes) : bytes := trim_right (trim_left s).

(** The runes of a string with the bytes they came from. *)
Fixpoint segs_fuel (fuel : nat) (s : bytes) : list (rune * bytes) :=
  match fuel, s with
  | S f, _ :: _ =>
      let (r, w) := decode_rune s in (r, firstn w s) :: segs_fuel f (skipn w s)
  | _, _ => []
  end.

(** strings.FieldsFunc on such a list; [cur] is the field being collected. *)
Fixpoint fields (p : rune -> bool) (l : list (rune * bytes)) (cur : bytes) : list bytes :=
  match l with
  | [] => match cur with [] => [] | _ => [cur] end
  | (r, b) :: l' =>
      if p r then match cur with
                  | [] => fields p l' []
                  | _ => cur :: fields p l' []
                  end
      else fields p l' (cur ++ b)
  end.
