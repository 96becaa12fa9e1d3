From Coq Require Import String List Ascii Lia Bool Arith.
From Verif Require Import Base LangModel LangSpec.
Import ListNotations.

Section P.
  Variable tag : Type.
  Variable is_root : tag -> bool.
  Variable tag_string : tag -> bytes.
  Variable base : tag -> bytes * bool.
  Variable parent : tag -> tag.
  Variable R : Type.
  Variable table : bytes -> option R.

  Notation fl := (for_language tag is_root tag_string base parent R table).
  Notation own := (own tag tag_string base R table).

  Lemma fl_step : forall f t, is_root t = false ->
    fl (S f) t = match own t with Some r => Ok (Some r, true) | None => fl f (parent t) end.
  Proof.
    intros f t H. simpl. rewrite H. unfold LangSpec.own.
    destruct (table (tag_string t)); [reflexivity|].
    destruct (base t) as [b []]; reflexivity.
  Qed.

  Theorem for_language_spec : forall d t, depth tag is_root parent t d ->
    forall fuel, d <= fuel ->
    (exists r, fl fuel t = Ok (Some r, true) /\
       nearest tag tag_string base parent R table t d r) \/
    (fl fuel t = Ok (table (bs "en"), false) /\
       nothing tag tag_string base parent R table t d).
  Proof.
    induction d as [|d IH]; intros t [H1 H2] fuel Hf.
    - right. simpl in H1. split; [destruct fuel; simpl; now rewrite H1|].
      intros k Hk. lia.
    - destruct fuel as [|fuel]; [lia|].
      assert (Hr : is_root t = false) by (apply (H2 0); lia).
      rewrite fl_step by assumption.
      destruct (own t) as [r|] eqn:O.
      + left. exists r. split; [reflexivity|]. exists 0. repeat split; auto; lia.
      + destruct (IH (parent t)) with (fuel := fuel) as [[r [E [k [K1 [K2 K3]]]]] | [E N]].
        * split; [exact H1|]. intros k Hk. apply (H2 (S k)). lia.
        * lia.
        * left. exists r. split; [assumption|]. exists (S k). repeat split; [lia|assumption|].
          intros [|j] Hj; [assumption|]. apply K3. lia.
        * right. split; [assumption|]. intros [|k] Hk; [assumption|]. apply N. lia.
  Qed.
End P.
