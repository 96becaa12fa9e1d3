(** C64 (continued) and C81: the names and the order of the rules of the
    gettext generator, and the examples it writes into the generated test. *)
From Coq Require Import String Ascii List ZArith Bool Lia Permutation.
From Verif Require Import Base StrModel GroupModel GroupSpec ExModel ExSpec ExProofs.
Import ListNotations.
Open Scope Z_scope.

(** ** C64, the order of the gettext rules *)

(** Different lists of languages give different names of functions. *)
Theorem C64_gettext_names : forall a b, Forall locale_tag a -> Forall locale_tag b -> set_name a = set_name b -> a = b.
Proof. exact set_name_locale. Qed.
(** The names of the functions differ; the rules and their order do not depend
    on the order in which the languages are met, nor on how they are sorted.
    Missing: a formula with two numbers of forms (C64_forms_refuted). *)
Theorem C64_gettext_order_partial : forall l l' sets out, Permutation l l' ->
  (forall a v b w, In (a, v) l -> In (b, w) l -> fst v = fst w -> snd v = snd w) ->
  NoDup (map fst l) -> Forall locale_tag (map fst l) ->
  pop_sets l = Ok sets -> Permutation sets out -> arranged (fun a b => pop_cmp a b < 0) out ->
  NoDup (map pop_name (filter (fun d => match ps_langs d with [] => false | _ => true end) out)) /\
  exists sets', pop_sets l' = Ok sets' /\
    forall out', Permutation sets' out' -> arranged (fun a b => pop_cmp a b < 0) out' -> out' = out.
Proof.
  intros l l' sets out P D ND TG OK PO A.
  assert (DET : pop_determined l).
  { intros a v b w I J E. pose proof (D a v b w I J E). destruct v, w. cbn in *. congruence. }
  split.
  - pose proof (pop_langs_nodup l sets ND OK) as N.
    assert (N' : NoDup (filter (fun d => match ps_langs d with [] => false | _ => true end) out)).
    { eapply Permutation_NoDup; [|exact N]. now apply filter_perm. }
    apply nodup_map_on; [exact N'|]. intros a b IA IB E. apply filter_In in IA as [IA _]. apply filter_In in IB as [IB _].
    eapply (pop_names_apart l sets); eauto; eapply Permutation_in; try (symmetry; eassumption); assumption.
  - destruct (pop_sets_perm l l' sets DET P OK) as (s & S & PS). exists s. split; [exact S|].
    intros out' PO' A'. symmetry. eapply pop_deterministic; eauto.
Qed.

(** Two rules with two forms, one of them for two languages. *)
Example C64_gettext_example : exists sets out,
  let l := [(bs "zh_Hans", (bs "0", 1)); (bs "fr", (bs "n > 1", 2)); (bs "es_419", (bs "n != 1", 2)); (bs "de_AT", (bs "n != 1", 2))] in
  pop_sets l = Ok sets /\ Permutation sets out /\ arranged (fun a b => pop_cmp a b < 0) out /\
  map pop_name (firstn 3 out) = [bs "Zh_Hans"; bs "De_ATEs_419"; bs "Fr"] /\ Forall locale_tag (map fst l).
Proof.
  eexists. eexists. cbv zeta. split; [vm_compute; reflexivity|].
  match goal with |- Permutation ?s _ /\ _ => set (sets := s) end.
  split; [exact (PoSortProofs.sort_perm _ pop_cmp sets)|].
  split; [|split; [vm_compute; reflexivity|]].
  - apply arranged_check. vm_compute. reflexivity.
  - unfold locale_tag, small, capital, figure.
    apply Forall_cons; [|apply Forall_cons; [|apply Forall_cons; [|apply Forall_cons; [|constructor]]]].
    + exists "z"%char, (bs "h"), (bs "_Hans"). split; [reflexivity|]. split; [vm_compute; intuition congruence|].
      split; [repeat constructor; vm_compute; congruence|]. right. right. right. eexists. eexists. eexists. eexists.
      split; [reflexivity|]. repeat split; vm_compute; congruence.
    + exists "f"%char, (bs "r"), []. split; [reflexivity|]. split; [vm_compute; intuition congruence|].
      split; [repeat constructor; vm_compute; congruence|]. now left.
    + exists "e"%char, (bs "s"), (bs "_419"). split; [reflexivity|]. split; [vm_compute; intuition congruence|].
      split; [repeat constructor; vm_compute; congruence|]. right. right. left. eexists. eexists. eexists.
      split; [reflexivity|]. repeat split; vm_compute; congruence.
    + exists "d"%char, (bs "e"), (bs "_AT"). split; [reflexivity|]. split; [vm_compute; intuition congruence|].
      split; [repeat constructor; vm_compute; congruence|]. right. left. eexists. eexists.
      split; [reflexivity|]. repeat split; vm_compute; congruence.
Qed.

(** ** C81 *)

(** The list of a case is turned into the numerals it stands for, in order: the
    numbers themselves, powers of ten with an e, all numbers of a range.
    Missing: other texts. *)
Theorem C81_listing_partial : forall t o, listing t o ->
  exists k, forall fuel, (k < fuel)%nat -> case_examples fuel (split_on "," t) = Ok o.
Proof. intros t o L. destruct (listing_read t o L) as (k & K). exists k. intros fuel F. apply (K fuel F). Qed.

(** A form is tested with the examples of the case of its name and with nothing
    else, whatever the order in which the cases are met. *)
Theorem C81_cases_partial : forall cases data (f : bytes -> list bytes), NoDup cases -> NoDup (map fst data) ->
  (forall name t, In (name, t) data -> listing t (f name)) ->
  exists k, forall fuel, (k < fuel)%nat -> exists m, extract_examples fuel cases data = Ok m /\
    forall i x, examples_at i m = Some x <-> exists name, nth_error cases i = Some name /\ In name (map fst data) /\ x = f name.
Proof.
  intros cases data f NC ND L. destruct (extract_read cases data f ND L) as (k & K). exists k. intros fuel FU.
  destruct (K fuel FU) as (m & M & H). exists m. split; [exact M|]. intros i x. rewrite H.
  split; intros (name & I & J); exists name; (split; [|exact J]); [now apply index_nth|now apply nth_index].
Qed.
(** The order does not matter for any text: if the program ends for one order,
    it ends for every order, with the same examples. *)
Theorem C81_order : forall fuel cases data data' m, NoDup (map fst data) -> Permutation data data' ->
  extract_examples fuel cases data = Ok m ->
  exists m', extract_examples fuel cases data' = Ok m' /\ forall i, examples_at i m' = examples_at i m.
Proof. exact extract_order. Qed.

(** A range that ends at the largest int never ends. *)
Theorem C81_endless_refuted : exists s t, numeral s /\ numeral t /\ dec_val t < 2 ^ 63 /\
  forall fuel, case_examples fuel (split_on "," (s ++ "~"%char :: t)) = OutOfFuel.
Proof.
  exists (bs "9223372036854775806"), (bs "9223372036854775807").
  split; [split; [discriminate|repeat constructor; vm_compute; congruence]|].
  split; [split; [discriminate|repeat constructor; vm_compute; congruence]|].
  split; [vm_compute; reflexivity|]. intro fuel.
  change (split_on "," (bs "9223372036854775806" ++ "~"%char :: bs "9223372036854775807"))
    with [bs "9223372036854775806~9223372036854775807"]. cbn [case_examples].
  change (beq (bs "9223372036854775806~9223372036854775807") omission) with false. cbv iota.
  replace (trim_space (bs "9223372036854775806~9223372036854775807")) with (bs "9223372036854775806~9223372036854775807") by (vm_compute; reflexivity).
  assert (E : one_example fuel (bs "9223372036854775806~9223372036854775807") = count_up fuel 9223372036854775806 maxInt64).
  { unfold one_example.
    replace (split_on "~" (bs "9223372036854775806~9223372036854775807")) with [bs "9223372036854775806"; bs "9223372036854775807"] by (vm_compute; reflexivity).
    replace (atoi (bs "9223372036854775806")) with (Ok 9223372036854775806) by (vm_compute; reflexivity).
    replace (atoi (bs "9223372036854775807")) with (Ok maxInt64) by (vm_compute; reflexivity). reflexivity. }
  rewrite E, count_endless by (unfold minInt64, maxInt64; lia). reflexivity.
Qed.
(** A range of fractions ends the program; without the blank the omission is
    taken for a number. *)
Theorem C81_texts_refuted :
  (exists t, (exists a b c d, t = a ++ "."%char :: b ++ "~"%char :: c ++ "."%char :: d /\ numeral a /\ numeral b /\ numeral c /\ numeral d) /\
     forall fuel, case_examples fuel (split_on "," t) = Err) /\
  (exists s, plain s /\ forall fuel, case_examples fuel (split_on "," (s ++ ","%char :: dots)) = Ok [s; dots]).
Proof.
  split.
  - exists (bs "0.1~0.5"). split.
    + exists (bs "0"), (bs "1"), (bs "0"), (bs "5"). split; [reflexivity|].
      repeat split; try discriminate; repeat constructor; vm_compute; congruence.
    + intro fuel. vm_compute. reflexivity.
  - exists (bs "7"). split; [split; [discriminate|]; repeat constructor; vm_compute; congruence|]. intro fuel. vm_compute. reflexivity.
Qed.

Example C81_example :
  listing (bs "0, 2~4, 1c6, " ++ dots) (bs "0" :: map itoa [2; 3; 4] ++ [bs "1e6"]) /\
  extract_examples 9 [bs "one"; bs "other"] [(bs "other", bs "0, 2~4, 1c6, " ++ dots); (bs "one", bs "1")]
    = Ok [(1%nat, map bs ["0"; "2"; "3"; "4"; "1e6"]%string); (0%nat, [bs "1"])].
Proof.
  split; [|vm_compute; reflexivity].
  assert (P : forall s, s <> [] -> forallb is_digit s = true -> Forall figure s).
  { intros s _ F. apply Forall_forall. intros c I. rewrite forallb_forall in F. apply BaseProofs.is_digit_val, F, I. }
  apply (listing_more (bs "0") [bs "0"] (bs "2~4, 1c6, " ++ dots)).
  { apply sample_number. split; [discriminate|]. repeat constructor; vm_compute; congruence. }
  apply (listing_more (bs "2~4") (map itoa [2; 3; 4]) (bs "1c6, " ++ dots)).
  { apply (sample_range (bs "2") (bs "4")); try (vm_compute; reflexivity).
    - split; [discriminate|]. apply P; [discriminate|reflexivity].
    - split; [discriminate|]. apply P; [discriminate|reflexivity].
    - change (dec_val (bs "2")) with 2. change (dec_val (bs "4")) with 4. split; [exact (from_ascending 3 2)|].
      intro n. cbn [In]. lia. }
  apply (listing_open (bs "1c6")). apply (sample_power (bs "1") (bs "6")).
  - split; [discriminate|]. repeat constructor; vm_compute; congruence.
  - split; [discriminate|]. apply P; [discriminate|reflexivity].
Qed.

Print Assumptions C64_gettext_names.
Print Assumptions C64_gettext_order_partial.
Print Assumptions C81_listing_partial.
Print Assumptions C81_cases_partial.
Print Assumptions C81_order.
Print Assumptions C81_endless_refuted.
Print Assumptions C81_texts_refuted.
