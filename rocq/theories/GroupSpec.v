(** What the generators are to do with the languages. *)
From Coq Require Import String Ascii List ZArith Bool.
From Verif Require Import Base CldrModel CldrSpec GenSpec.
Import ListNotations.
Open Scope Z_scope.

Section Spec.
  Context {V : Type}.
  Variable canon : bytes -> bytes.
  (** Two names for one language. *)
  Definition alike (a b : bytes) : Prop := a = b \/ canon a = b \/ a = canon b \/ canon a = canon b.
  (** Names for one language have the same data. *)
  Definition consistent (same : V -> V -> Prop) (l : list (bytes * V)) : Prop :=
    forall a v b w, In (a, v) l -> In (b, w) l -> alike a b -> same v w.
End Spec.

(** The rules of a language: the conditions of the categories that have a text,
    in the order of CLDR, and the samples of the rest. *)
Definition lang_rules (j : category -> bytes) (rules : list (category * cond)) : Prop :=
  map fst rules = filter (fun c => match j c with [] => false | _ => true end) [Zero; One; Two; Few; Many] /\
  Forall (fun r => rule_line (snd r) (j (fst r))) rules /\ samples_line (j Other).

(** The same texts. *)
Definition same_rules (j j' : category -> bytes) : Prop := forall c, j c = j' c.

(** Names of languages: small letters, perhaps followed by a region. *)
Definition small (c : ascii) : Prop := 97 <= bval c <= 122.
Definition capital (c : ascii) : Prop := 65 <= bval c <= 90.
Definition is_tag (s : bytes) : Prop := exists c w r, s = c :: w ++ r /\ small c /\ Forall small w /\
  (r = [] \/ exists a b, r = ["-"%char; a; b] /\ capital a /\ capital b).

(** An arrangement in which no element should precede an earlier one. *)
Definition arranged {A} (less : A -> A -> Prop) (l : list A) : Prop :=
  forall a x b y c, l = a ++ x :: b ++ y :: c -> ~ less y x.

(** The texts of a language one after the other, which is what the generator
    takes a checksum of. *)
Definition all_texts (j : category -> bytes) : bytes := concat (map j [Zero; One; Two; Few; Many; Other]).
Definition collision_free (sum : bytes -> bytes) (l : list (bytes * (category -> bytes))) : Prop :=
  forall a j b j', In (a, j) l -> In (b, j') l -> sum (all_texts j) = sum (all_texts j') -> all_texts j = all_texts j'.
Definition told_apart (l : list (bytes * (category -> bytes))) : Prop :=
  forall a j b j', In (a, j) l -> In (b, j') l -> all_texts j = all_texts j' -> same_rules j j'.
