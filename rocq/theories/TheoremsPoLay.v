(** C20: the exact lines of wrapString, for every text. *)
From Coq Require Import String Ascii List ZArith Bool Lia.
From Verif Require Import Base Utf8Model PoStrModel PoStrSpec PoStrProofs WrapProofs PoLaySpec PoLayProofs.
Import ListNotations.
Open Scope Z_scope.

(** Every text, indented or not, is laid out as [laid_text] says ... *)
Theorem C20_layout : forall s w, 0 < w -> laid_text w (runes s) (map runes (wrap_string s w)).
Proof. intros s w H. rewrite wrap_string_runes by assumption. apply wrap_laid. Qed.
(** ... and in no other way. *)
Theorem C20_layout_unique : forall s w ls, 0 < w -> laid_text w (runes s) ls -> map runes (wrap_string s w) = ls.
Proof. intros s w ls H L. rewrite wrap_string_runes by assumption. now apply laid_wrap. Qed.
(** The lines that are longer than asked for, whatever the text. *)
Theorem C20_line_lengths : forall s w l, 0 < w -> In l (wrap_string s w) -> long_ok w (runes l).
Proof.
  intros s w l H I. pose proof (laid_lengths _ _ _ H (C20_layout s w H)) as F.
  rewrite Forall_forall in F. apply F. now apply in_map.
Qed.

Example C20_layout_example :
  laid_text 8 (runes (bs " a few words")) [runes (bs " a few"); runes (bs "words")].
Proof.
  apply lt_last.
  - vm_compute. intuition discriminate.
  - apply (ll_first 8 (runes (bs " ")) (runes (bs "a")) (runes (bs " few words"))).
    + repeat constructor.
    + split; [discriminate|repeat constructor].
    + right. eexists _, _. split; [vm_compute; reflexivity|reflexivity].
    + right. vm_compute. discriminate.
    + apply (pk_fits 8 _ (runes (bs " ")) (runes (bs "few")) (runes (bs " words"))).
      * discriminate.
      * repeat constructor.
      * split; [discriminate|repeat constructor].
      * right. eexists _, _. split; [vm_compute; reflexivity|reflexivity].
      * vm_compute. discriminate.
      * apply (pk_next 8 _ (runes (bs " ")) (runes (bs "words")) []).
        -- discriminate.
        -- repeat constructor.
        -- split; [discriminate|repeat constructor].
        -- now left.
        -- vm_compute. reflexivity.
        -- apply pk_end. constructor.
Qed.

(** An indented line may be too long although it could be broken elsewhere. *)
Theorem C20_lengths_refuted : exists s w l, 0 < w /\ In l (wrap_string s w) /\
  w < len (runes l) /\ exists r, In r (runes l) /\ breakable r = true.
Proof.
  exists (bs "  abcd"), 5, (bs "  abcd"). split; [lia|]. split; [vm_compute; now left|]. split; [vm_compute; reflexivity|].
  exists 32. split; [vm_compute; now left|reflexivity].
Qed.

Print Assumptions C20_layout.
Print Assumptions C20_layout_unique.
Print Assumptions C20_line_lengths.
Print Assumptions C20_lengths_refuted.
