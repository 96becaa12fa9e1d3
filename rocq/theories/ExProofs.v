(** Lemmas about the examples of the gettext generator and the order of its
    rules. *)
From Coq Require Import String Ascii List ZArith Bool Lia ZifyBool Permutation.
From Verif Require Import Base BaseProofs Utf8Model StrModel PoFileModel PoFileSpec PoSortProofs PoMergeProofs TrimProofs PoScanProofs PoItemProofs
  GenModel GroupModel GroupSpec GroupProofs ExModel ExSpec.
Import ListNotations.
Open Scope Z_scope.

(** ** Items *)
Lemma figure_digit : forall s, Forall figure s -> forallb is_digit s = true.
Proof. intros s F. apply forallb_forall. intros c I. rewrite Forall_forall in F. apply is_digit_val, F, I. Qed.
Lemma atoi_numeral : forall s, numeral s -> dec_val s < 2 ^ 63 -> atoi s = Ok (dec_val s).
Proof.
  intros s [N F] B. unfold atoi. rewrite parse_int_digits; [reflexivity|exact N|now apply figure_digit|unfold maxInt64; lia].
Qed.

(** Characters of an item: none of them is white space or a comma. *)
Definition item_char (c : ascii) : Prop := figure c \/ c = "."%char \/ c = "c"%char \/ c = "~"%char.
Lemma item_solid : forall c, item_char c -> solid c = true.
Proof.
  intros c [F|[->|[->| ->]]]; try reflexivity. unfold figure in F. unfold solid, is_space, in_rng. lia.
Qed.
Lemma items_clean : forall s, Forall item_char s -> clean s.
Proof.
  intros [|a s] F; [now left|]. destruct s as [|b s] using rev_ind.
  - inversion F as [|? ? A _]; subst. apply item_solid in A. unfold solid in A. right.
    exists (bval a), [], (bval a), []. rewrite encode_byte, solid_scalar by lia.
    apply andb_true_iff in A as [_ A]. apply negb_true_iff in A. auto 10.
  - inversion F as [|? ? A F']; subst. apply Forall_app in F' as [_ B]. inversion B; subst.
    apply clean_ascii; now apply item_solid.
Qed.
Lemma items_not : forall s c, Forall item_char s -> ~ item_char c -> ~ In c s.
Proof. intros s c F N I. rewrite Forall_forall in F. now apply N, F. Qed.
Ltac not_item := let H := fresh in intros [H|[H|[H|H]]]; [vm_compute in H; intuition congruence|discriminate|discriminate|discriminate].
Lemma comma_not : ~ item_char ","%char.
Proof. not_item. Qed.
Lemma sp_not : ~ item_char SP.
Proof. not_item. Qed.
Lemma figures_items : forall s, Forall figure s -> Forall item_char s.
Proof. intros s F. eapply Forall_impl; [|exact F]. intros. now left. Qed.
Lemma plain_items : forall s, plain s -> Forall item_char s.
Proof. intros s [_ F]. eapply Forall_impl; [|exact F]. intros a [A|A]; [now left|right; now left]. Qed.
Lemma sample_items : forall s o, sample s o -> Forall item_char s /\ s <> [].
Proof.
  intros s o H. destruct H as [s P|s e P E|s t l S T _ _ _].
  - split; [now apply plain_items|apply P].
  - split; [|destruct s; discriminate]. apply Forall_app. split; [now apply plain_items|].
    constructor; [right; right; now left|]. apply figures_items, E.
  - split; [|destruct s; discriminate]. apply Forall_app. split; [apply figures_items, S|].
    constructor; [right; right; now right|]. apply figures_items, T.
Qed.

(** ** Ranges *)
Fixpoint from (a : Z) (k : nat) : list Z := match k with O => [] | S k' => a :: from (a + 1) k' end.
Lemma from_in : forall k a n, In n (from a k) <-> a <= n < a + Z.of_nat k.
Proof.
  induction k as [|k IH]; intros a n; cbn [from In]; [lia|]. rewrite IH. lia.
Qed.
Lemma ascending_tail : forall x l, ascending (x :: l) -> ascending l /\ forall y, In y l -> x < y.
Proof.
  intros x l A. split.
  - intros u y v z w ->. now apply (A (x :: u) y v z w).
  - intros y I. apply in_split in I as (u & w & ->). now apply (A [] x u y w).
Qed.
Lemma ascending_same : forall l m, ascending l -> ascending m -> (forall n, In n l <-> In n m) -> l = m.
Proof.
  induction l as [|x l IH]; intros [|y m] A B H.
  - reflexivity.
  - exfalso. apply (H y). now left.
  - exfalso. apply (H x). now left.
  - apply ascending_tail in A as [A1 A2]. apply ascending_tail in B as [B1 B2].
    assert (x = y).
    { destruct (proj1 (H x) (or_introl eq_refl)) as [<-|I]; [reflexivity|]. destruct (proj2 (H y) (or_introl eq_refl)) as [->|J]; [reflexivity|].
      apply A2 in J. apply B2 in I. lia. }
    subst y. f_equal. apply IH; auto. intro n. split; intro I.
    + destruct (proj1 (H n) (or_intror I)) as [<-|J]; [|exact J]. apply A2 in I. lia.
    + destruct (proj2 (H n) (or_intror I)) as [<-|J]; [|exact J]. apply B2 in I. lia.
Qed.
Lemma from_ascending : forall k a, ascending (from a k).
Proof.
  induction k as [|k IH]; intros a u x v y w E.
  - destruct u; discriminate.
  - cbn [from] in E. destruct u as [|z u]; cbn [app] in E; injection E as -> E.
    + assert (I : In y (from (x + 1) k)) by (rewrite E; apply in_or_app; right; now left). apply from_in in I. lia.
    + now apply (IH _ _ _ _ _ _ E).
Qed.
Lemma stretch_from : forall a b l, stretch a b l -> l = from a (Z.to_nat (b - a + 1)).
Proof.
  intros a b l [A H]. apply ascending_same; [exact A|apply from_ascending|]. intro n. rewrite H, from_in. lia.
Qed.
Lemma count_from : forall k fuel a b, minInt64 <= a -> b < maxInt64 -> k = Z.to_nat (b - a + 1) -> (k < fuel)%nat ->
  count_up fuel a b = Ok (map itoa (from a k)).
Proof.
  induction k as [|k IH]; intros fuel a b L B E F; (destruct fuel as [|fuel]; [lia|]); cbn [count_up from map].
  - replace (a <=? b) with false by lia. reflexivity.
  - replace (a <=? b) with true by lia. replace (a =? maxInt64) with false by lia.
    rewrite (IH fuel (a + 1) b) by lia. reflexivity.
Qed.
Lemma count_endless : forall fuel a, minInt64 <= a <= maxInt64 -> count_up fuel a maxInt64 = OutOfFuel.
Proof.
  induction fuel as [|fuel IH]; intros a H; [reflexivity|]. cbn [count_up]. replace (a <=? maxInt64) with true by lia.
  rewrite IH; [reflexivity|]. unfold minInt64, maxInt64 in *. destruct (a =? 9223372036854775807) eqn:E; lia.
Qed.
Lemma dec_val_pos : forall s, Forall figure s -> 0 <= dec_val s.
Proof. intros s F. rewrite dec_val_from. apply dec_from_nonneg; [now apply figure_digit|lia]. Qed.

(** ** The list of a case *)
Lemma tilde_not : forall s, Forall (fun c => figure c \/ c = "."%char) s -> ~ In "~"%char s.
Proof. intros s F I. rewrite Forall_forall in F. apply F in I as [I|I]; [vm_compute in I; intuition congruence|discriminate]. Qed.
Lemma c_stays : forall s, Forall (fun c => figure c \/ c = "."%char) s ->
  map (fun c => if (c =? "c")%char then "e"%char else c) s = s.
Proof.
  induction 1 as [|c s H F IH]; [reflexivity|]. cbn [map]. rewrite IH.
  destruct (c =? "c")%char eqn:E; [|reflexivity]. apply Ascii.eqb_eq in E. subst c.
  destruct H as [H|H]; [vm_compute in H; intuition congruence|discriminate].
Qed.
Lemma figures_plain : forall s, Forall figure s -> Forall (fun c => figure c \/ c = "."%char) s.
Proof. intros s F. eapply Forall_impl; [|exact F]. auto. Qed.
Lemma sample_read : forall s o, sample s o -> exists k, forall fuel, (k < fuel)%nat -> one_example fuel s = Ok o.
Proof.
  intros s o H. destruct H as [s P|s e P E|s t l S T BS BT ST].
  - exists O. intros fuel _. unfold one_example. rewrite split_one by apply tilde_not, P. now rewrite c_stays by apply P.
  - exists O. intros fuel _. unfold one_example. rewrite split_one.
    + rewrite map_app. cbn [map]. rewrite !c_stays; [reflexivity|apply figures_plain, E|apply P].
    + intro I. apply in_app_or in I as [I|[I|I]]; [revert I; apply tilde_not, P|discriminate|].
      revert I. apply tilde_not, figures_plain, E.
  - exists (Z.to_nat (dec_val t - dec_val s + 1)). intros fuel F. unfold one_example.
    rewrite split_sep by apply tilde_not, figures_plain, S. rewrite split_one by apply tilde_not, figures_plain, T.
    rewrite atoi_numeral by (exact S || lia). cbn [rbind]. rewrite atoi_numeral by (exact T || lia). cbn [rbind].
    rewrite (stretch_from _ _ _ ST). pose proof (dec_val_pos s (proj2 S)). apply count_from; [unfold minInt64; lia|unfold maxInt64; lia|reflexivity|exact F].
Qed.
Lemma omission_dots : omission = SP :: dots.
Proof. reflexivity. Qed.
Lemma item_not_omission : forall s, Forall item_char s -> beq s omission = false /\ beq (SP :: s) omission = false.
Proof.
  intros s F. split; apply beq_neq; intros E.
  - rewrite E in F. inversion F as [|? ? H _]. now apply sp_not in H.
  - rewrite omission_dots in E. injection E as ->. inversion F as [|? ? H _].
    destruct H as [H|[H|[H|H]]]; [vm_compute in H; intuition congruence|discriminate|discriminate|discriminate].
Qed.
Lemma trim_item : forall s, Forall item_char s -> trim_space s = s /\ trim_space (SP :: s) = s.
Proof.
  intros s F. split; [now apply clean_trim, items_clean|]. apply (gap_trim_sp [] s); [constructor|now apply items_clean].
Qed.
(** With or without the blank after the comma. *)
Lemma listing_read : forall t o, listing t o -> exists k, forall fuel, (k < fuel)%nat ->
  case_examples fuel (split_on "," t) = Ok o /\ case_examples fuel (split_on "," (SP :: t)) = Ok o.
Proof.
  assert (SPS : forall s rest, Forall item_char s -> split_on "," (SP :: s ++ ","%char :: rest) = (SP :: s) :: split_on "," rest).
  { intros s rest F. change (SP :: s ++ ","%char :: rest) with ((SP :: s) ++ ","%char :: rest). apply split_sep.
    intros [E|I]; [discriminate|]. revert I. now apply items_not, comma_not. }
  assert (SPO : forall s, Forall item_char s -> split_on "," (SP :: s) = [SP :: s]).
  { intros s F. apply split_one. intros [E|I]; [discriminate|]. revert I. now apply items_not, comma_not. }
  assert (NC : forall s, Forall item_char s -> ~ In ","%char s) by (intros; now apply items_not, comma_not).
  induction 1 as [s o S|s o S|s o t p S L IH]; destruct (sample_items s o S) as [F N];
    destruct (sample_read s o S) as (k & K); destruct (item_not_omission s F) as [O1 O2]; destruct (trim_item s F) as [T1 T2].
  - exists k. intros fuel FU. rewrite split_one by auto. rewrite SPO by exact F. cbn [case_examples].
    rewrite O1, O2, T1, T2, (K fuel FU). cbn [rbind]. now rewrite app_nil_r.
  - exists k. intros fuel FU. change (s ++ bs ", " ++ dots) with (s ++ ","%char :: SP :: dots).
    rewrite split_sep by auto. rewrite SPS by exact F.
    change (split_on "," (SP :: dots)) with [omission]. cbn [case_examples].
    rewrite O1, O2, T1, T2, (K fuel FU). change (beq omission omission) with true. cbn [rbind]. now rewrite app_nil_r.
  - destruct IH as (k' & K'). exists (Nat.max k k'). intros fuel FU.
    change (s ++ bs ", " ++ t) with (s ++ ","%char :: SP :: t).
    rewrite split_sep by auto. rewrite SPS by exact F. cbn [case_examples].
    rewrite O1, O2, T1, T2, (K fuel) by lia. cbn [rbind].
    destruct (K' fuel) as [_ R]; [lia|]. now rewrite R.
Qed.

(** ** All cases *)
Lemma index_nth : forall name cases i, case_index name cases = Some i -> nth_error cases i = Some name.
Proof.
  induction cases as [|c cases IH]; intros i E; [discriminate|]. cbn [case_index] in E.
  destruct (beq c name) eqn:B; [injection E as <-; apply beq_eq in B; now subst|].
  destruct (case_index name cases) as [j|]; [|discriminate]. injection E as <-. now apply IH.
Qed.
Lemma nth_index : forall cases i name, NoDup cases -> nth_error cases i = Some name -> case_index name cases = Some i.
Proof.
  induction cases as [|c cases IH]; intros i name N E; [destruct i; discriminate|]. inversion N as [|? ? NI N']; subst.
  destruct i as [|i]; cbn in E |- *; [injection E as ->; now rewrite beq_refl|].
  destruct (beq c name) eqn:B; [|now rewrite (IH i name N' E)]. apply beq_eq in B. subst c. apply nth_error_In in E. contradiction.
Qed.
Lemma extract_read : forall cases data (f : bytes -> list bytes), NoDup (map fst data) ->
  (forall name t, In (name, t) data -> listing t (f name)) ->
  exists k, forall fuel, (k < fuel)%nat -> exists m, extract_examples fuel cases data = Ok m /\
    forall i x, examples_at i m = Some x <-> exists name, case_index name cases = Some i /\ In name (map fst data) /\ x = f name.
Proof.
  intros cases data f. induction data as [|[name t] data IH]; intros N L.
  - exists O. intros fuel _. exists []. split; [reflexivity|]. intros i x. cbn. split; [discriminate|intros (? & _ & [] & _)].
  - cbn [map fst] in N. inversion N as [|? ? NI N']; subst. destruct IH as (k & K); [exact N'|intros; apply L; now right|].
    destruct (listing_read t (f name) (L name t (or_introl eq_refl))) as (k' & K').
    exists (Nat.max k k'). intros fuel FU. destruct (K fuel) as (m & M & H); [lia|]. destruct (K' fuel) as [R _]; [lia|].
    cbn [extract_examples]. rewrite R. cbn [rbind]. rewrite M. cbn [rbind]. eexists. split; [reflexivity|].
    intros i x. destruct (case_index name cases) as [j|] eqn:J.
    + cbn [examples_at]. destruct (examples_at i m) as [y|] eqn:A.
      * apply H in A as (nm & I1 & I2 & ->). split.
        -- intro E. injection E as <-. exists nm. split; [exact I1|]. split; [now right|reflexivity].
        -- intros (nm' & I3 & I4 & ->). apply index_nth in I1. apply index_nth in I3. rewrite I1 in I3. now injection I3 as ->.
      * destruct (Nat.eqb i j) eqn:E.
        -- apply Nat.eqb_eq in E. subst j. split.
           ++ intro X. injection X as <-. exists name. split; [exact J|]. split; [now left|reflexivity].
           ++ intros (nm & I1 & I2 & ->). apply index_nth in I1. apply index_nth in J. rewrite I1 in J. injection J as ->. reflexivity.
        -- split; [discriminate|]. intros (nm & I1 & [I2|I2] & ->).
           ++ cbn in I2. subst nm. apply Nat.eqb_neq in E. congruence.
           ++ assert (X : examples_at i m = Some (f nm)) by (apply H; eauto). congruence.
    + rewrite H. split; intros (nm & I1 & I2 & ->).
      * exists nm. split; [exact I1|]. split; [now right|reflexivity].
      * destruct I2 as [I2|I2]; [cbn in I2; subst nm; congruence|]. eauto.
Qed.

(** ** Names of the functions *)
Definition name_tail (r : bytes) : Prop :=
  r = [] \/ (exists a b, r = ["_"%char; a; b] /\ capital a /\ capital b)
  \/ (exists a b d, r = ["_"%char; a; b; d] /\ figure a /\ figure b /\ figure d)
  \/ (exists a b d e, r = ["_"%char; a; b; d; e] /\ capital a /\ small b /\ small d /\ small e).
Lemma keep_name : forall w, Forall (fun c => c <> SP /\ c <> "-"%char) w ->
  map (fun c => if (c =? "-")%char then "_"%char else c) (filter (fun c => negb (c =? SP)%char) w) = w.
Proof.
  induction 1 as [|c w [A B] F IH]; [reflexivity|]. cbn [filter].
  apply Ascii.eqb_neq in A. apply Ascii.eqb_neq in B. rewrite A. cbn [negb map]. now rewrite B, IH.
Qed.
Lemma word_char : forall c, small c \/ capital c \/ figure c \/ c = "_"%char -> c <> SP /\ c <> "-"%char.
Proof.
  intros c H. split; intros ->; unfold small, capital, figure in H; vm_compute in H; intuition congruence.
Qed.
Lemma locale_name : forall s, locale_tag s -> exists c w r, s = c :: w ++ r /\ lang_name s = upper c :: w ++ r /\
  small c /\ Forall small w /\ name_tail r.
Proof.
  intros s (c & w & r & -> & C & W & R). exists c, w, r. repeat (split; [reflexivity || assumption|]).
  - split; [|split; [exact C|split; [exact W|exact R]]]. unfold lang_name. rewrite keep_name; [reflexivity|].
    constructor.
    + apply word_char. right. left. unfold capital. rewrite (upper_small c C). unfold small in C. lia.
    + apply Forall_app. split; [eapply Forall_impl; [|exact W]; intros; apply word_char; auto|].
      destruct R as [->|[(a & b & -> & A & B)|[(a & b & d & -> & A & B & D)|(a & b & d & e & -> & A & B & D & E)]]];
        repeat constructor; apply word_char; auto.
Qed.
Lemma locales_start : forall ts, Forall locale_tag ts -> match set_name ts with c :: _ => capital c | [] => ts = [] end.
Proof.
  intros [|t ts] F; [reflexivity|]. inversion F as [|? ? T _]; subst. destruct (locale_name t T) as (c & w & r & _ & E & S & _).
  unfold set_name. cbn [map concat]. rewrite E. cbn [app]. unfold capital. rewrite (upper_small c S). unfold small in S. lia.
Qed.
Lemma tail_split : forall r r' x x', name_tail r -> name_tail r' ->
  match x with c :: _ => capital c | [] => True end -> match x' with c :: _ => capital c | [] => True end ->
  (r ++ x = r' ++ x')%list -> r = r' /\ x = x'.
Proof.
  assert (U : ~ capital "_"%char) by (unfold capital; vm_compute; intuition congruence).
  intros r r' x x' R R' X X' E.
  destruct R as [->|[(a & b & -> & A & B)|[(a & b & d & -> & A & B & D)|(a & b & d & e & -> & A & B & D & F)]]];
  destruct R' as [->|[(a' & b' & -> & A' & B')|[(a' & b' & d' & -> & A' & B' & D')|(a' & b' & d' & e' & -> & A' & B' & D' & F')]]];
  cbn [app] in E; subst; try (exfalso; now apply U); try (split; reflexivity || assumption);
  try (injection E; intros; subst; auto; fail);
  exfalso; injection E; intros; subst; unfold small, capital, figure in *; lia.
Qed.
Lemma set_name_locale : forall ts ts', Forall locale_tag ts -> Forall locale_tag ts' -> set_name ts = set_name ts' -> ts = ts'.
Proof.
  assert (ST : forall r x, name_tail r -> match x with c :: _ => capital c | [] => True end -> match (r ++ x)%list with h :: _ => ~ small h | [] => True end).
  { intros r x R X. destruct R as [->|[(a & b & -> & _)|[(a & b & d & -> & _)|(a & b & d & e & -> & _)]]];
      try (cbn; unfold small; vm_compute; intuition congruence).
    destruct x; [exact I|]. cbn. unfold small, capital in *. lia. }
  induction ts as [|t ts IH]; intros ts' F F' E.
  - pose proof (locales_start ts' F') as H. rewrite <- E in H. now cbn in H.
  - destruct ts' as [|t' ts'].
    { pose proof (locales_start (t :: ts) F) as H. rewrite E in H. now cbn in H. }
    inversion F as [|? ? T FT]; inversion F' as [|? ? T' FT']; subst.
    destruct (locale_name t T) as (c & w & r & ET & EN & C & W & R).
    destruct (locale_name t' T') as (c2 & w2 & r2 & ET2 & EN2 & C2 & W2 & R2).
    pose proof (locales_start ts FT) as NS. pose proof (locales_start ts' FT') as NS'.
    assert (X : match set_name ts with c :: _ => capital c | [] => True end) by (destruct (set_name ts); auto).
    assert (X' : match set_name ts' with c :: _ => capital c | [] => True end) by (destruct (set_name ts'); auto).
    unfold set_name in E. cbn [map concat] in E. rewrite EN, EN2 in E. cbn [app] in E. injection E as E1 E.
    change (concat (map lang_name ts)) with (set_name ts) in E. change (concat (map lang_name ts')) with (set_name ts') in E.
    assert (c = c2).
    { apply bval_inj. pose proof (upper_small c C). pose proof (upper_small c2 C2). rewrite E1 in H. lia. }
    subst c2. rewrite <- !app_assoc in E.
    destruct (small_split w w2 _ _ W W2 (ST _ _ R X) (ST _ _ R2 X') E) as [-> E'].
    destruct (tail_split r r2 _ _ R R2 X X' E') as [-> E2]. rewrite ET, ET2. f_equal. now apply IH.
Qed.

(** ** The order of the rules *)
Definition pop_lt (a b : pop_set) : Prop :=
  ps_count a < ps_count b \/ ps_count a = ps_count b /\ bytes_lt (pop_name a) (pop_name b).
Lemma pop_cmp_ok : forall P : pop_set -> Prop, (forall a b, P a -> P b -> ps_count a = ps_count b -> pop_name a = pop_name b -> a = b) -> cmp_ok P pop_lt pop_cmp.
Proof.
  intros P H. apply cmp_ok_of_cases.
  - intros x y z _ _ _ [A|[A A']] [B|[B B']]; unfold pop_lt; try (left; lia). right. split; [lia|]. eapply bytes_lt_trans; eauto.
  - intros x _ [A|[_ A]]; [lia|now apply bytes_lt_irrefl in A].
  - intros x y X Y. unfold pop_cmp, or_cmp, pop_lt.
    destruct (zcmp_spec (ps_count x) (ps_count y)) as [[L E]|[[L E]|[L E]]]; rewrite E; cbn [Z.eqb].
    + left. split; [left; lia|lia].
    + destruct (Z.lt_trichotomy (bcmp (pop_name x) (pop_name y)) 0) as [B|[B|B]].
      * left. split; [right; split; [lia|now apply bcmp_lt]|exact B].
      * right. left. split; [|exact B]. apply H; auto. now apply bcmp_eq.
      * right. right. split; [right; split; [lia|now apply bcmp_gt]|exact B].
    + right. right. split; [left; lia|lia].
Qed.
Lemma sets_map : forall g sets, pop_sets_of g = Ok sets ->
  map (fun e => pop_set_of (fst (snd e)) (snd (snd e))) g = map Ok sets.
Proof.
  intros g sets E. apply pop_sets_members in E. induction E as [|e s g sets H F IH]; [reflexivity|]. cbn [map]. now rewrite H, IH.
Qed.
Lemma map_sets : forall g sets, map (fun e => pop_set_of (fst (snd e)) (snd (snd e))) g = map Ok sets -> pop_sets_of g = Ok sets.
Proof.
  induction g as [|[k [ls v]] g IH]; intros [|s sets] E; try discriminate; [reflexivity|]. cbn [map fst snd] in E. injection E as E1 E2.
  cbn [pop_sets_of]. now rewrite E1, (IH sets E2).
Qed.
Definition pop_determined (l : list (bytes * (bytes * Z))) : Prop :=
  forall a v b w, In (a, v) l -> In (b, w) l -> fst v = fst w -> v = w.
Lemma perm_ok : forall A (x y : list (res A)) s, Permutation x y -> x = map Ok s -> exists s', y = map Ok s' /\ Permutation s s'.
Proof. intros A x y s P ->. symmetry in P. apply Permutation_map_inv in P as (s' & -> & P). exists s'. auto. Qed.
Lemma pop_sets_perm : forall l l' sets, pop_determined l -> Permutation l l' -> pop_sets l = Ok sets ->
  exists sets', pop_sets l' = Ok sets' /\ Permutation sets sets'.
Proof.
  intros l l' sets DET P OK. destruct (pop_split l sets OK) as (a & b & A & B & ->).
  assert (PG : Permutation (map (fun e => pop_set_of (fst (snd e)) (snd (snd e))) (group fst l)) (map (fun e => pop_set_of (fst (snd e)) (snd (snd e))) (group fst l'))).
  { apply groups_perm; [exact P|]. intros k v v' (x & I & KV) (y & J & KW). cbn [fst snd].
    rewrite (DET x v y v' I J) by congruence. unfold pop_set_of. now rewrite (sort_members _ _ l l' k P). }
  destruct (perm_ok _ _ _ a PG (sets_map _ _ A)) as (a' & E & PA). apply map_sets in E.
  exists (a' ++ b). unfold pop_sets. rewrite E, B. cbn [rbind]. split; [reflexivity|]. now apply Permutation_app_tail.
Qed.
Lemma key_start : forall raw b k n, gen_rule raw = Ok (b, k, n) -> exists t, k = "n"%char :: t.
Proof.
  intros raw b k n G. unfold gen_rule in G. destruct (PopModel.parse_forms raw) as [f| | |]; try discriminate. injection G as _ <- _.
  unfold PopModel.compile_forms. eexists. reflexivity.
Qed.
Definition keys_apart : bool :=
  forallb (fun r => forallb (fun r' =>
    match gen_rule r, gen_rule r' with
    | Ok (_, k, _), Ok (_, k', _) => negb (beq k k') || beq r r'
    | _, _ => false
    end) extra_rules) extra_rules.
Lemma extra_keys : forall r r' b b' k n n', In r extra_rules -> In r' extra_rules ->
  gen_rule r = Ok (b, k, n) -> gen_rule r' = Ok (b', k, n') -> r = r'.
Proof.
  assert (K : keys_apart = true) by (vm_compute; reflexivity).
  intros r r' b b' k n n' I I' G G'. unfold keys_apart in K. rewrite forallb_forall in K. apply K in I. rewrite forallb_forall in I.
  apply I in I'. rewrite G, G', beq_refl in I'. cbn [negb orb] in I'. now apply beq_eq.
Qed.
Lemma one_value : forall A (l : list (bytes * A)) m u v, NoDup (map fst l) -> In (m, u) l -> In (m, v) l -> u = v.
Proof.
  intros A l m u v ND IU IM. induction l as [|[a w] l0 IH]; [contradiction|]. cbn in ND. inversion ND as [|? ? NI ND']; subst.
  destruct IU as [X|IU], IM as [Y|IM]; try congruence; auto.
  - injection X as -> ->. exfalso. apply NI. change m with (fst (m, v)). now apply in_map.
  - injection Y as -> ->. exfalso. apply NI. change m with (fst (m, u)). now apply in_map.
Qed.
Lemma same_set : forall a b : pop_set, ps_langs a = ps_langs b -> ps_raw a = ps_raw b -> ps_count a = ps_count b ->
  ps_body a = ps_body b -> ps_key a = ps_key b -> a = b.
Proof. intros [] []. cbn. congruence. Qed.
Lemma langs_in : forall l k m (v : bytes * Z), In (m, v) l -> fst v = k -> In m (sort bcmp (members fst l k)).
Proof. intros l k m v I K. apply sort_in, in_members. eauto. Qed.
Lemma pop_names_apart : forall l sets, pop_determined l -> NoDup (map fst l) -> Forall locale_tag (map fst l) -> pop_sets l = Ok sets ->
  forall a b, In a sets -> In b sets -> pop_name a = pop_name b -> a = b.
Proof.
  intros l sets DET ND TG OK a b IA IB E.
  assert (TM : forall k, Forall locale_tag (sort bcmp (members fst l k))).
  { intro q. rewrite Forall_forall in *. intros x IX. apply sort_in, in_members in IX as (u & IU & _). apply TG.
    change x with (fst (x, u)). now apply in_map. }
  assert (NM : forall d v m, ps_langs d = sort bcmp (members fst l (fst v)) -> In (m, v) l ->
    pop_name d = set_name (ps_langs d) /\ exists c t, pop_name d = c :: t /\ capital c).
  { intros d v m L I. assert (J : In m (ps_langs d)) by (rewrite L; eapply langs_in; eauto).
    assert (X : pop_name d = set_name (ps_langs d)) by (unfold pop_name; destruct (ps_langs d); [contradiction|reflexivity]).
    split; [exact X|]. rewrite X. pose proof (locales_start (ps_langs d)) as S. rewrite L in S at 1. specialize (S (TM _)).
    destruct (set_name (ps_langs d)) as [|c t]; [rewrite S in J; contradiction|eauto]. }
  assert (EX : forall d raw, ps_langs d = [] -> gen_rule raw = Ok (ps_body d, ps_key d, ps_count d) -> pop_name d = ps_key d /\ exists t, pop_name d = "n"%char :: t).
  { intros d raw L G. assert (X : pop_name d = ps_key d) by (unfold pop_name; now rewrite L). split; [exact X|]. rewrite X.
    eapply key_start; eauto. }
  assert (NC : ~ capital "n"%char) by (unfold capital; vm_compute; intuition congruence).
  destruct (pop_from l sets OK a IA) as [(v & (m & IM) & L & R & C & _ & n & G)|(L & r & IR & R & G)];
  destruct (pop_from l sets OK b IB) as [(v' & (m' & IM') & L' & R' & C' & _ & n' & G')|(L' & r' & IR' & R' & G')].
  - destruct (NM a v m L IM) as (N1 & _). destruct (NM b v' m' L' IM') as (N2 & _). rewrite N1, N2 in E.
    apply set_name_locale in E; [|rewrite L; apply TM|rewrite L'; apply TM].
    assert (J : In m (sort bcmp (members fst l (fst v')))) by (rewrite <- L', <- E, L; eapply langs_in; eauto).
    apply sort_in, in_members in J as (u & IU & KU). rewrite (one_value _ l m u v ND IU IM) in KU.
    assert (v = v') by (eapply DET; eauto). subst v'. rewrite G in G'. injection G' as GB GK _. apply same_set; congruence.
  - destruct (NM a v m L IM) as (_ & c & t & N1 & CC). destruct (EX b r' L' G') as (_ & t' & N2). rewrite N1, N2 in E.
    injection E as -> _. contradiction.
  - destruct (NM b v' m' L' IM') as (_ & c & t & N1 & CC). destruct (EX a r L G) as (_ & t' & N2). rewrite N1, N2 in E.
    injection E as <- _. contradiction.
  - destruct (EX a r L G) as (N1 & _). destruct (EX b r' L' G') as (N2 & _). rewrite N1, N2 in E. rewrite E in G.
    assert (H : r = r') by (eapply extra_keys; eauto). rewrite <- H in G'. rewrite G in G'. injection G' as GB GN. apply same_set; congruence.
Qed.
Lemma pop_deterministic : forall l l' sets sets' out out', pop_determined l -> NoDup (map fst l) -> Forall locale_tag (map fst l) ->
  Permutation l l' -> pop_sets l = Ok sets -> pop_sets l' = Ok sets' -> Permutation sets out -> Permutation sets' out' ->
  arranged (fun a b => pop_cmp a b < 0) out -> arranged (fun a b => pop_cmp a b < 0) out' -> out = out'.
Proof.
  intros l l' sets sets' out out' DET ND TG P OK OK' PO PO' A A'.
  destruct (pop_sets_perm l l' sets DET P OK) as (s & S & PS). rewrite OK' in S. injection S as <-.
  assert (CO : cmp_ok (fun d => In d sets) pop_lt pop_cmp).
  { apply pop_cmp_ok. intros a b IA IB _ E. now apply (pop_names_apart l sets DET ND TG OK). }
  assert (FO : Forall (fun d => In d sets) out).
  { apply Forall_forall. intros d I. exact (Permutation_in _ (Permutation_sym PO) I). }
  assert (PP : Permutation out out') by (rewrite <- PO, <- PO'; exact PS).
  apply (ordered_unique _ _ _ _ out out' CO FO PP).
  - eapply arranged_ordered; eauto.
  - eapply arranged_ordered; eauto. now apply (Permutation_Forall PP).
Qed.
Lemma filter_perm : forall A (p : A -> bool) l l', Permutation l l' -> Permutation (filter p l) (filter p l').
Proof.
  intros A p l l' P. induction P; cbn [filter]; [constructor|..].
  - destruct (p x); [now constructor|assumption].
  - destruct (p x), (p y); try constructor; reflexivity.
  - etransitivity; eauto.
Qed.
Lemma nodup_map_on : forall A B (f : A -> B) l, NoDup l -> (forall a b, In a l -> In b l -> f a = f b -> a = b) -> NoDup (map f l).
Proof.
  intros A B f l N. induction N as [|x l NI N IH]; intro H; [constructor|]. cbn [map]. constructor.
  - intro I. apply in_map_iff in I as (y & E & I). apply NI. rewrite (H x y); auto; [now left|now right].
  - apply IH. intros a b I J. apply H; now right.
Qed.
Lemma nodup_concat : forall A B (f : A -> list B) l, NoDup (concat (map f l)) ->
  NoDup (filter (fun d => match f d with [] => false | _ => true end) l).
Proof.
  intros A B f. induction l as [|x l IH]; intro N; [constructor|]. cbn [map concat] in N. cbn [filter].
  destruct (f x) as [|y r] eqn:E; [now apply IH|]. constructor.
  - intro I. apply filter_In in I as [I _]. cbn [app] in N. inversion N as [|? ? NI _]; subst. apply NI.
    apply in_or_app. right. apply in_concat. exists (f x). split; [now apply in_map|]. rewrite E. now left.
  - apply IH. revert N. generalize (y :: r). induction l0 as [|z q IQ]; intro N; [exact N|]. cbn [app] in N. inversion N; auto.
Qed.
Lemma id_labels : forall ls, case_labels (fun s => s) ls = [] <-> ls = [].
Proof.
  intros [|a ls]; [easy|]. split; [|discriminate]. intro E.
  assert (I : In a (case_labels (fun s => s) (a :: ls))) by (apply in_case_labels; exists a; split; [now left|now left]).
  rewrite E in I. contradiction.
Qed.
Lemma pop_langs_nodup : forall l sets, NoDup (map fst l) -> pop_sets l = Ok sets ->
  NoDup (filter (fun d => match ps_langs d with [] => false | _ => true end) sets).
Proof.
  intros l sets ND OK.
  assert (CON : consistent (fun s => s) eq l).
  { intros a v b w I J A. assert (a = b) by (unfold alike in A; intuition). subst b. eapply one_value; eauto. }
  pose proof (pop_labels (fun s => s) l CON sets OK sets (Permutation_refl _)) as N. apply nodup_concat in N.
  rewrite (filter_ext (fun d => match ps_langs d with [] => false | _ => true end)
    (fun d => match case_labels (fun s => s) (ps_langs d) with [] => false | _ => true end)); [exact N|].
  intro d. pose proof (id_labels (ps_langs d)) as [H1 H2].
  destruct (case_labels (fun s => s) (ps_langs d)) as [|y q] eqn:E; [now rewrite (H1 eq_refl)|].
  destruct (ps_langs d) as [|x r]; [now discriminate (H2 eq_refl)|]. reflexivity.
Qed.

(** ** The order of the cases *)
Lemma extract_last : forall fuel cases data m, extract_examples fuel cases data = Ok m -> NoDup (map fst data) ->
  (forall name t, In (name, t) data -> exists x, case_examples fuel (split_on "," t) = Ok x) /\
  forall i x, examples_at i m = Some x <-> exists name t, case_index name cases = Some i /\ In (name, t) data /\ case_examples fuel (split_on "," t) = Ok x.
Proof.
  induction data as [|[name t] data IH]; intros m E N; cbn [extract_examples] in E.
  - injection E as <-. split; [intros ? ? []|]. intros i x. cbn. split; [discriminate|intros (? & ? & _ & [] & _)].
  - destruct (case_examples fuel (split_on "," t)) as [y| | |] eqn:C; try discriminate. cbn [rbind] in E.
    destruct (extract_examples fuel cases data) as [r| | |] eqn:R; try discriminate. cbn [rbind] in E. injection E as <-.
    cbn [map fst] in N. inversion N as [|? ? NI N']; subst. destruct (IH r eq_refl N') as [A H]. split.
    + intros nm u [I|I]; [injection I as <- <-; eauto|eapply A; eauto].
    + intros i x. destruct (case_index name cases) as [j|] eqn:J.
      * cbn [examples_at]. destruct (examples_at i r) as [z|] eqn:Z.
        -- apply H in Z as (nm & u & I1 & I2 & I3). split.
           ++ intro X. injection X as <-. exists nm, u. split; [exact I1|]. split; [now right|exact I3].
           ++ intros (nm' & u' & I4 & I5 & I6). apply index_nth in I1. apply index_nth in I4. rewrite I1 in I4. injection I4 as ->.
              rewrite (one_value _ ((name, t) :: data) nm' u' u) in I6; [congruence|exact N|exact I5|now right].
        -- destruct (Nat.eqb i j) eqn:Q.
           ++ apply Nat.eqb_eq in Q. subst j. split.
              ** intro X. injection X as <-. exists name, t. split; [exact J|]. split; [now left|exact C].
              ** intros (nm & u & I1 & I2 & I3). apply index_nth in I1. apply index_nth in J. rewrite I1 in J. injection J as ->.
                 rewrite (one_value _ ((name, t) :: data) name u t) in I3; [congruence|exact N|exact I2|now left].
           ++ split; [discriminate|]. intros (nm & u & I1 & [I2|I2] & I3).
              ** injection I2 as <- <-. apply Nat.eqb_neq in Q. congruence.
              ** assert (X : examples_at i r = Some x) by (apply H; eauto). congruence.
      * rewrite H. split; intros (nm & u & I1 & I2 & I3).
        -- exists nm, u. split; [exact I1|]. split; [now right|exact I3].
        -- destruct I2 as [I2|I2]; [injection I2 as <- <-; congruence|]. eauto.
Qed.
Lemma extract_ends : forall fuel cases data, (forall name t, In (name, t) data -> exists x, case_examples fuel (split_on "," t) = Ok x) ->
  exists m, extract_examples fuel cases data = Ok m.
Proof.
  induction data as [|[name t] data IH]; intro H; [eexists; reflexivity|]. destruct (H name t (or_introl eq_refl)) as (x & X).
  destruct IH as (m & M); [intros; eapply H; right; eauto|]. cbn [extract_examples]. rewrite X, M. eexists. reflexivity.
Qed.
Lemma extract_order : forall fuel cases data data' m, NoDup (map fst data) -> Permutation data data' ->
  extract_examples fuel cases data = Ok m ->
  exists m', extract_examples fuel cases data' = Ok m' /\ forall i, examples_at i m' = examples_at i m.
Proof.
  intros fuel cases data data' m N P E. destruct (extract_last _ _ _ _ E N) as [A H].
  destruct (extract_ends fuel cases data') as (m' & M).
  { intros name t I. apply (A name t). eapply Permutation_in; [symmetry|]; eauto. }
  exists m'. split; [exact M|].
  assert (N' : NoDup (map fst data')) by (eapply Permutation_NoDup; [apply Permutation_map; exact P|exact N]).
  destruct (extract_last _ _ _ _ M N') as [_ H'].
  assert (X : forall i x, examples_at i m' = Some x <-> examples_at i m = Some x).
  { intros i x. rewrite H, H'. split; intros (nm & t & I1 & I2 & I3); exists nm, t; (split; [exact I1|split; [|exact I3]]).
    - exact (Permutation_in _ (Permutation_sym P) I2).
    - exact (Permutation_in _ P I2). }
  intro i. destruct (examples_at i m') as [x|] eqn:Y; [symmetry; now apply X|].
  destruct (examples_at i m) as [x|] eqn:Z; [|reflexivity]. apply X in Z. congruence.
Qed.

(** A check of an arrangement. *)
Fixpoint arranged_by {A} (less : A -> A -> bool) (l : list A) : bool :=
  match l with [] => true | x :: l' => forallb (fun y => negb (less y x)) l' && arranged_by less l' end.
Lemma arranged_check : forall l, arranged_by (fun a b => pop_cmp a b <? 0) l = true -> arranged (fun a b => pop_cmp a b < 0) l.
Proof.
  induction l as [|z l IH]; intros H a x b y c E; [destruct a; discriminate|]. cbn [arranged_by] in H. apply andb_true_iff in H as [H1 H2].
  destruct a as [|q a]; cbn [app] in E; injection E as -> E.
  - rewrite forallb_forall in H1. assert (I : In y l) by (rewrite E; apply in_or_app; right; now left).
    apply H1 in I. apply negb_true_iff in I. lia.
  - now apply (IH H2 a x b y c).
Qed.
