(** Which languages are asked for and which catalogs there are, read off the
    list of options. *)
From Coq Require Import String Ascii List ZArith Bool.
From Verif Require Import Base LocaleModel BundleModel BundleSpec.
Import ListNotations.

Section Spec.
  Variable tag any E C : Type.
  (** the tag a language argument names *)
  Variable name : langarg tag -> tag + E.
  Notation opt := (opt tag any E C).
  Notation loaders_of := (loaders_of tag any E C).
  Notation requests_of := (requests_of tag any E C name).

  (** an option asks for the language *)
  Definition requested (os : list opt) (t : tag) : Prop :=
    exists o a, In (o, a) (requests_of os) /\ name a = inl t.
  (** there is a catalog for the domain in the language *)
  Definition catalog_for (os : list opt) (t : tag) (d : bytes) : Prop :=
    exists ld c, In (d, ld) (loaders_of os) /\ ld t d = inl c.
End Spec.
