(** Property theorems C16-C20, C48: PO strings and word wrapping. *)
From Coq Require Import String Ascii List ZArith Bool Lia.
From Verif Require Import Base BaseProofs Utf8Model Utf8Proofs StrModel PoStrModel PoStrSpec
  PoStrProofs PoDecodeProofs WrapProofs.
Import ListNotations.
Open Scope Z_scope.

(** ** C16 *)
Theorem C16_round_trip : forall s lim, valid_utf8 s -> ~ Exists unescapable s ->
  exists t, encode_po s lim = Ok t /\ decode_po t = Ok s.
Proof.
  intros s lim V N. destruct (encode_spec s lim) as [[B E]|[B [t [E P]]]].
  - exfalso. apply N. now apply (encode_total_iff s lim).
  - exists t. split; [assumption|]. rewrite (sanitized_valid s V) in P. now apply decode_source.
Qed.

(** For text that is not valid UTF-8 the round trip replaces every stray byte
    by U+FFFD and changes nothing else. *)
Theorem C16_round_trip_any : forall s lim t, encode_po s lim = Ok t ->
  decode_po t = Ok (sanitized s).
Proof.
  intros s lim t H. destruct (encode_spec s lim) as [[B E]|[B [t' [E P]]]]; [congruence|].
  rewrite E in H. injection H as <-. now apply decode_source.
Qed.

Example C16_example :
  let s := bs "Hello ""World""" ++ [LF] ++ bs "tab" ++ [TAB] ++ encode_all [8364; 128512] in
  valid_utf8 s /\ ~ Exists unescapable s /\
  encode_po s 8 = Ok (bs """""" ++ [LF] ++ bs """Hello \""World\""\n""" ++ [LF] ++
                      bs """tab\t" ++ encode_all [8364; 128512] ++ bs """").
Proof.
  cbv zeta. split; [|split].
  - exists (runes (bs "Hello ""World""" ++ [LF] ++ bs "tab" ++ [TAB] ++ encode_all [8364; 128512])).
    split; [apply runes_scalar|vm_compute; reflexivity].
  - intro H. apply (encode_total_iff _ 0) in H. vm_compute in H. discriminate.
  - vm_compute. reflexivity.
Qed.

(** ** C17.  Encoding panics exactly on control characters without an escape
    letter: po_string.go:298 indexes past the end of `hex`. *)
Theorem C17_encode_total_partial : forall s lim, ~ Exists unescapable s ->
  exists t, encode_po s lim = Ok t.
Proof.
  intros s lim N. destruct (encode_spec s lim) as [[B E]|[B [t [E P]]]]; [|eauto].
  exfalso. apply N. now apply (encode_total_iff s lim).
Qed.

Theorem C17_panics_exactly : forall s lim, encode_po s lim = Panic <-> Exists unescapable s.
Proof. exact encode_total_iff. Qed.

Theorem C17_encode_total_refuted : exists s, valid_utf8 s /\ forall lim, encode_po s lim = Panic.
Proof.
  exists [byte_of 27]. split.
  - exists [27]. split; [repeat constructor|reflexivity].
  - intro lim. apply encode_total_iff. constructor. unfold unescapable.
    change (bval (byte_of 27)) with 27. lia.
Qed.

(** ** C18.  Decoding finishes exactly when no line has an escaped closing
    quote. *)
Theorem C18_decode_total_partial : forall t, (forall l, is_line t l -> ~ unclosed l) ->
  exists v, decode_po t = Ok v.
Proof. intro t. apply decode_outcome. Qed.

Theorem C18_hangs_exactly : forall t,
  (forall fuel, decode_po_fuel fuel t = OutOfFuel) <-> exists l, is_line t l /\ unclosed l.
Proof.
  intro t. destruct (decode_outcome t) as [H1 H2]. split; [|exact H1].
  intro H.
  assert (D : (exists l, In l (split_on LF t) /\ unclosed l) \/
              (forall l, In l (split_on LF t) -> ~ unclosed l)).
  { generalize (split_on LF t) as ls. induction ls as [|l ls [[l' [I U]]|N]].
    - right. intros l [].
    - left. exists l'. split; [now right|assumption].
    - destruct (unclosed_dec l) as [U|U]; [left; exists l; split; [now left|assumption]|].
      right. intros l' [<-|I]; [assumption|now apply N]. }
  destruct D as [[l [I U]]|N].
  - exists l. split; [now apply split_is_line|assumption].
  - destruct H2 as [v V].
    + intros l L. apply N. now apply split_is_line.
    + unfold decode_po in V. rewrite H in V. discriminate.
Qed.

(** po_string.go:363-365: `"\"` never finishes. *)
Theorem C18_decode_total_refuted : exists t, forall fuel, decode_po_fuel fuel t = OutOfFuel.
Proof.
  exists (bs """\"""). apply C18_hangs_exactly.
  exists (bs """\"""). split.
  - apply split_is_line. vm_compute. now left.
  - exists [], [BSLASH], []. repeat split; try (intros []).
    exists [], 1%nat. repeat split. now left.
Qed.

Example C18_example : decode_po (bs "msgid ""a\tb\q\\"" # c""") = Ok (bs "a" ++ [TAB] ++ bs "b\q\"" # c").
Proof. vm_compute. reflexivity. Qed.

(** ** C19.  What is written is a PO string for the text: quoted lines whose
    bodies contain no raw quote, backslash or line feed outside an escape. *)
Theorem C19_encoding_well_formed : forall s lim t, encode_po s lim = Ok t ->
  po_source t (sanitized s).
Proof.
  intros s lim t H. destruct (encode_spec s lim) as [[B E]|[B [t' [E P]]]]; congruence.
Qed.

Example C19_example : po_source (bs """a\""b""") (bs "a""b") /\ ~ po_source (bs """a""") (bs "b").
Proof.
  split.
  - apply (C19_encoding_well_formed (bs "a""b") 0). vm_compute. reflexivity.
  - intro H. apply decode_source in H. vm_compute in H. discriminate.
Qed.

(** ** C48 *)
Theorem C48_decode_means_escapes : forall t v, po_source t v -> decode_po t = Ok v.
Proof. exact decode_source. Qed.

Theorem C48_source_unambiguous : forall t v v', po_source t v -> po_source t v' -> v = v'.
Proof.
  intros t v v' H H'. apply decode_source in H. apply decode_source in H'. congruence.
Qed.

(** ** C20 *)
(** Every visible character survives, in order. *)
Theorem C20_visible_kept : forall s w, 0 < w ->
  visible (concat (map runes (wrap_string s w))) = visible (runes s).
Proof. intros s w H. rewrite wrap_string_runes by assumption. apply wrap_words_visible. Qed.

(** Without wrapping the lines are exactly the lines of the text. *)
Theorem C20_no_wrap : forall s w, w <= 0 ->
  join [LF] (wrap_string s w) = s /\ forall l, In l (wrap_string s w) <-> is_line s l.
Proof.
  intros s w H. unfold wrap_string. replace (w <=? 0) with true by (symmetry; now apply Z.leb_le).
  split; [apply split_join|apply split_is_line].
Qed.

(** Words stay whole and lines short, provided no line of the text is indented. *)
Theorem C20_words_kept_partial : forall s w, 0 < w -> indented true (runes s) = false ->
  concat (map (fun l => words breakable (runes l)) (wrap_string s w)) = words breakable (runes s) /\
  forall l, In l (wrap_string s w) ->
    Z.of_nat (length (runes l)) <= w \/ Forall (fun r => breakable r = false) (runes l).
Proof.
  intros s w H I. destruct (wrap_words_spec w (runes s) H I) as [A B].
  rewrite <- (wrap_string_runes s w H) in A, B. rewrite map_map in A. split; [exact A|].
  intros l L. rewrite Forall_forall in B. apply (B (runes l)). now apply in_map.
Qed.

Example C20_example :
  indented true (runes (bs "a few words to wrap")) = false /\
  wrap_string (bs "a few words to wrap") 8 = [bs "a few"; bs "words to"; bs "wrap"].
Proof. split; vm_compute; reflexivity. Qed.

(** An indented line has its first word split. *)
Theorem C20_words_kept_refuted : exists s w, 0 < w /\
  words breakable (runes s) = [runes (bs "abcdef")] /\
  wrap_string s w = [bs " ab"; bs "cdef"].
Proof. exists (bs " abcdef"), 3. repeat split; vm_compute; reflexivity. Qed.

Print Assumptions C16_round_trip.
Print Assumptions C16_round_trip_any.
Print Assumptions C17_encode_total_partial.
Print Assumptions C17_panics_exactly.
Print Assumptions C17_encode_total_refuted.
Print Assumptions C18_decode_total_partial.
Print Assumptions C18_hangs_exactly.
Print Assumptions C18_decode_total_refuted.
Print Assumptions C19_encoding_well_formed.
Print Assumptions C48_decode_means_escapes.
Print Assumptions C48_source_unambiguous.
Print Assumptions C20_visible_kept.
Print Assumptions C20_no_wrap.
Print Assumptions C20_words_kept_partial.
Print Assumptions C20_words_kept_refuted.
