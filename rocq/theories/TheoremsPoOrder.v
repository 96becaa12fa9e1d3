(** C27: exactly when the order of the messages does not depend on the map. *)
From Coq Require Import String Ascii List ZArith Bool Lia Permutation.
From Verif Require Import Base BaseProofs PoStrModel PoFileModel PoFileSpec PoSortProofs PoMergeProofs TheoremsPoFile PoOrderSpec PoOrderProofs.
Import ListNotations.
Open Scope Z_scope.

(** The sign of DefaultSortFunction, for every two messages. *)
Theorem C27_comparison : forall a b, let c := msg_cmp (sort_msg_comment a) (sort_msg_comment b) in
  (precedes a b <-> c < 0) /\ (precedes b a <-> 0 < c).
Proof.
  intros a b c. split; [apply precedes_cmp|]. unfold c.
  destruct (msg_cmp_cases a b) as [(_ & N & C)|[(H & _ & C)|(_ & N & C)]]; split; intro K; auto; try contradiction; lia.
Qed.

(** If different messages are always in some order and there is no cycle, the
    file is written the same for every order of the map, in that order (and any
    other algorithm would give it). *)
Theorem C27_arranged_partial : forall o h ms ms', Permutation ms ms' -> arranged ms ->
  encode_file o h ms = encode_file o h ms' /\ ordered precedes (sort_messages ms) /\
  forall l, Permutation (map sort_msg_comment ms) l -> ordered precedes l -> l = sort msg_cmp (map sort_msg_comment ms).
Proof.
  intros o h ms ms' P A. split; [|split].
  - unfold encode_file. now rewrite (arranged_perm ms ms' P A).
  - now apply arranged_order.
  - intros l Q O. symmetry. apply (sort_unique _ (fun m => In m (map sort_msg_comment ms)) precedes).
    + now apply arranged_ok.
    + now apply Forall_forall.
    + exact Q.
    + intros a x b y c E. left. exact (O a x b y c E).
Qed.

(** This condition is necessary: otherwise two orders of the map give two
    orders in the file (with insertion sort, which slices.SortFunc uses for at
    most twelve elements). *)
Theorem C27_exactly : forall ms, NoDup (map key ms) ->
  ((forall ms', Permutation ms ms' -> map key (sort_messages ms') = map key (sort_messages ms)) <-> arranged ms).
Proof.
  intros ms N. split; [now apply same_order_arranged|]. intros A ms' P. now rewrite (arranged_perm ms ms' P A).
Qed.

(** With and without references. *)
Example C27_arranged_example :
  arranged [ref_msg (bs "a") [Ref (bs "x.go") 9 0; Ref (bs "x.go") 1 0]; ref_msg (bs "c") []; ref_msg (bs "b") [Ref (bs "x.go") 2 0]] /\
  map m_id (sort_messages [ref_msg (bs "a") [Ref (bs "x.go") 9 0; Ref (bs "x.go") 1 0]; ref_msg (bs "c") []; ref_msg (bs "b") [Ref (bs "x.go") 2 0]])
    = [bs "a"; bs "b"; bs "c"].
Proof.
  split; [|vm_compute; reflexivity]. split; [|split].
  - repeat constructor; cbn; intuition discriminate.
  - intros a b A B K. rewrite !precedes_cmp. destruct A as [<-|[<-|[<-|[]]]]; destruct B as [<-|[<-|[<-|[]]]];
      try (exfalso; now apply K); vm_compute; auto.
  - intros a b c A B C. rewrite !precedes_cmp. destruct A as [<-|[<-|[<-|[]]]]; destruct B as [<-|[<-|[<-|[]]]]; destruct C as [<-|[<-|[<-|[]]]];
      vm_compute; intros; congruence.
Qed.

Print Assumptions C27_comparison.
Print Assumptions C27_arranged_partial.
Print Assumptions C27_exactly.
