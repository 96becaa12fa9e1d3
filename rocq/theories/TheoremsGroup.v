(** Property theorems C64: which language the generators give which rule. *)
From Coq Require Import String Ascii List ZArith QArith Bool Lia Permutation.
From Verif Require Import Base BaseProofs PopModel PopBuiltin PopSpec PopScanProofs PopProofs PopComplete PopBuiltinProofs NumModel F64Model
  CldrModel CldrBuiltin CldrSpec CldrRules CldrEvalProofs CldrBuiltinProofs CldrTextProofs
  CldrParseProofs PoFileModel PoMergeProofs GoSpec PopSource CldrSource GoSourceProofs GenModel GoProofs GenSpec GenPopProofs GenFileProofs
  GenCldrProofs GenCldrFileProofs TheoremsGen GroupModel GroupSpec GroupProofs.
Import ListNotations.
Open Scope Z_scope.

(** ** CLDR *)

(** A language, by its name or by the name language.Parse gives it, gets the
    categories and the function of its own rules, whatever the order of the
    sets and of the iteration over the map.  Missing: languages whose texts read
    the same one after the other, conditions with two ranges (see C61). *)
Theorem C64_rules_partial : forall sum canon l out,
  collision_free sum l -> told_apart l -> consistent canon same_rules l ->
  Permutation (cldr_sets sum l) out ->
  forall lang j rules s, In (lang, j) l -> lang_rules j rules ->
  Forall (fun r => cond_small (snd r) /\ one_range (snd r)) rules -> s = lang \/ s = canon lang ->
  exists d text b, cldr_lookup canon out s = Some d /\ In lang (ds_langs d) /\
    map fst (ds_rules d) = (map fst rules ++ [Other])%list /\
    (exists F, forall fuel, (F <= fuel)%nat -> gen_form_func fuel (ds_rules d) = Ok text) /\
    is_body text b /\ body_typed cldr_vars cldr_res b = true /\
    forall o, nonneg_ops o -> clear_of_integers (oN o) ->
      exists c, run (cldr_env o) b = Some (VCat c) /\ chosen rules (to_uops o) c.
Proof.
  intros sum canon l out CF TA CON P lang j rules s I LR FA S.
  destruct (lang_rules_data j rules LR) as [TD F2]. destruct LR as (_ & _ & SL).
  destruct (C61_function_partial rules _ (j Other) F2 FA SL) as (text & b & G & B & T & R).
  pose proof (lookup_own sum canon l (told_determined sum l CF TA) CON out P lang j s I S) as L.
  eexists. exists text, b. split; [exact L|]. cbn [ds_langs ds_rules]. rewrite TD.
  split; [apply PoMergeProofs.sort_in, in_members; eauto|].
  split; [rewrite map_app, map_map; reflexivity|]. auto.
Qed.

(** Languages with the same rules share a function. *)
Theorem C64_shared : forall sum canon l out,
  collision_free sum l -> told_apart l -> consistent canon same_rules l -> Permutation (cldr_sets sum l) out ->
  forall a j b j', In (a, j) l -> In (b, j') l ->
  (cldr_lookup canon out a = cldr_lookup canon out b <-> same_rules j j').
Proof.
  intros sum canon l out CF TA CON P a j b j' I J. pose proof (told_determined sum l CF TA) as D.
  rewrite (lookup_own sum canon l D CON out P a j a I (or_introl eq_refl)).
  rewrite (lookup_own sum canon l D CON out P b j' b J (or_introl eq_refl)). split.
  - intro E. injection E as E1 E2.
    assert (IA : In a (sort bcmp (members (json_hash sum) l (json_hash sum j)))) by (apply PoMergeProofs.sort_in, in_members; eauto).
    rewrite E1 in IA. apply PoMergeProofs.sort_in, in_members in IA as (w & IW & KW).
    intro c. transitivity (w c); [apply (CON a j a w I IW); now left|]. now apply (D a w b j' IW J).
  - intro S. now rewrite (same_hash sum j j' S), (same_data j j' S).
Qed.

(** Other names get nothing. *)
Theorem C64_other_names : forall sum canon l out, collision_free sum l -> told_apart l -> Permutation (cldr_sets sum l) out ->
  forall s, (forall a j, In (a, j) l -> s <> a /\ s <> canon a) -> cldr_lookup canon out s = None.
Proof. intros sum canon l out CF TA P s N. exact (lookup_none sum canon l (told_determined sum l CF TA) out P s N). Qed.

(** No case of the generated switch occurs twice, so that it compiles. *)
Theorem C64_cases : forall sum canon l out, consistent canon same_rules l -> Permutation (cldr_sets sum l) out ->
  NoDup (concat (map (fun d => case_labels canon (ds_langs d)) out)).
Proof. intros sum canon l out CON P. exact (cldr_labels sum canon l CON out P). Qed.

(** The sets and their order do not depend on the order of the iteration, nor
    on how they are sorted; the names of the functions differ. *)
Theorem C64_deterministic : forall sum l l' out out', collision_free sum l -> told_apart l -> Permutation l l' ->
  NoDup (map fst l) -> Forall is_tag (map fst l) ->
  Permutation (cldr_sets sum l) out -> Permutation (cldr_sets sum l') out' ->
  arranged (fun a b => set_cmp a b < 0) out -> arranged (fun a b => set_cmp a b < 0) out' -> out = out'.
Proof. intros sum l l' out out' CF TA. apply cldr_deterministic. now apply told_determined. Qed.
Theorem C64_names : forall a b, Forall is_tag a -> Forall is_tag b -> set_name a = set_name b -> a = b.
Proof. exact set_name_inj. Qed.

(** The checksum does not see which category a text belongs to: languages whose
    only rule is for One and for Two are taken together, and both get the
    categories of the one the iteration meets first. *)
Theorem C64_mixup_refuted : exists a j rules b j' rules', lang_rules j rules /\ lang_rules j' rules' /\
  map fst rules = [One] /\ map fst rules' = [Two] /\
  forall sum, (exists d, cldr_lookup (fun s => s) (cldr_sets sum [(a, j); (b, j')]) b = Some d /\ map fst (ds_rules d) = [One; Other]) /\
    (exists d, cldr_lookup (fun s => s) (cldr_sets sum [(b, j'); (a, j)]) a = Some d /\ map fst (ds_rules d) = [Two; Other]).
Proof.
  set (c := Rel false (Expr On None) [Val 1]).
  set (t := (cond_text c ++ bs " @integer 1")%list).
  set (j := fun k => match k with One => t | Other => bs " @integer 0" | _ => [] end).
  set (j' := fun k => match k with Two => t | Other => bs " @integer 0" | _ => [] end).
  assert (RL : rule_line c t) by (apply spelled_line; [discriminate|apply cond_printb_ok; reflexivity|reflexivity]).
  assert (SL : samples_line (bs " @integer 0")).
  { exists [SP], (bs "integer 0"). split; [constructor; [now left|constructor]|reflexivity]. }
  exists (bs "aa"), j, [(One, c)], (bs "bb"), j', [(Two, c)].
  split; [split; [reflexivity|split; [constructor; [exact RL|constructor]|exact SL]]|].
  split; [split; [reflexivity|split; [constructor; [exact RL|constructor]|exact SL]]|].
  split; [reflexivity|]. split; [reflexivity|]. intro sum.
  assert (H : json_hash sum j' = json_hash sum j) by reflexivity.
  split.
  - exists (DS [bs "aa"; bs "bb"] (to_data j)). split; [|reflexivity].
    unfold cldr_sets, group. cbn [fold_left add_lang fst snd]. rewrite H.
    rewrite (proj2 (beq_eq (json_hash sum j) _) eq_refl). reflexivity.
  - exists (DS [bs "aa"; bs "bb"] (to_data j')). split; [|reflexivity].
    unfold cldr_sets, group. cbn [fold_left add_lang fst snd]. rewrite H.
    rewrite (proj2 (beq_eq (json_hash sum j) _) eq_refl). reflexivity.
Qed.

(** ** gettext *)

(** If every language has a header of the class of C60, the generator runs to
    its end, and a language gets its number of forms and a function for its
    formula.  Missing: languages with the same formula and different numbers of
    forms. *)
Theorem C64_headers_partial : forall canon l,
  (forall a v, In (a, v) l -> exists e, header_text (pop_text v) (snd v) e /\ go_able (snd v) e = true) ->
  (forall a v b w, In (a, v) l -> In (b, w) l -> fst v = fst w -> snd v = snd w) -> consistent canon eq l ->
  exists sets, pop_sets l = Ok sets /\ forall out, Permutation sets out ->
    NoDup (concat (map (fun d => case_labels canon (ps_langs d)) out)) /\
    (forall s, (forall a v, In (a, v) l -> s <> a /\ s <> canon a) -> pop_lookup canon out s = None) /\
    forall lang v s, In (lang, v) l -> s = lang \/ s = canon lang ->
    exists d e b, pop_lookup canon out s = Some d /\ In lang (ps_langs d) /\ ps_count d = snd v /\
      header_text (pop_text v) (snd v) e /\ is_body (ps_body d) b /\ body_typed pop_vars pop_res b = true /\
      forall n k, csem e n = Some k -> 0 <= k < snd v -> run (pop_env n) b = Some (VInt k).
Proof.
  intros canon l H D CON.
  assert (D' : forall a v b w, In (a, v) l -> In (b, w) l -> fst v = fst w -> v = w).
  { intros a v b w I J E. pose proof (D a v b w I J E). destruct v, w. cbn in *. congruence. }
  assert (OK : exists sets, pop_sets l = Ok sets).
  { assert (A : exists x, pop_sets_of (group fst l) = Ok x).
    { destruct (group_spec fst l) as (_ & _ & E).
      assert (HG : forall k ls v, In (k, (ls, v)) (group fst l) -> exists s, pop_set_of ls v = Ok s).
      { intros k ls v I. destruct (E _ _ _ I) as (_ & a & IA & _). destruct (H a v IA) as (e & HT & GA).
        destruct (C60_generated_means_header_partial _ _ _ HT GA) as (body & key & b & G & _).
        unfold pop_set_of. rewrite G. cbn. eauto. }
      revert HG. clear. generalize (group (@fst bytes Z) l). induction l0 as [|[k [ls v]] g IH]; intro HG; [exists []; reflexivity|].
      cbn [pop_sets_of]. destruct (HG k ls v (or_introl eq_refl)) as (s & ->).
      destruct IH as (x & ->); [intros; eapply HG; right; eauto|]. cbn. eauto. }
    destruct A as (x & A). destruct extra_sets_ok as (y & B). exists (x ++ y)%list. unfold pop_sets. now rewrite A, B. }
  destruct OK as (sets & OK). exists sets. split; [exact OK|]. intros out P.
  split; [exact (pop_labels canon l CON sets OK out P)|].
  split; [exact (pop_lookup_none canon l sets OK out P)|].
  intros lang v s I S. destruct (pop_lookup_own canon l D' CON sets OK out P lang v s I S) as (d & n & L & IL & _ & C & G).
  destruct (H lang v I) as (e & HT & GA).
  destruct (C60_generated_means_header_partial _ _ _ HT GA) as (body & key & b & G' & B & T & R).
  rewrite G in G'. injection G' as EB _ _. rewrite <- EB in B. exists d, e, b. repeat (split; [assumption|]). exact R.
Qed.

(** The header of every language and every additional rule is recognised, with
    its number of forms and its own function; no other key is.  [NoDup] holds of
    any file that compiles. *)
Theorem C64_recognised_partial : forall l sets out,
  (forall a v, In (a, v) l -> exists e, header_text (pop_text v) (snd v) e /\ go_able (snd v) e = true) ->
  (forall a v b w, In (a, v) l -> In (b, w) l -> fst v = fst w -> snd v = snd w) ->
  pop_sets l = Ok sets -> Permutation sets out -> NoDup (map ps_key out) ->
  let source t := In t extra_rules \/ exists a v, In (a, v) l /\ t = pop_text v in
  (forall t, source t -> exists body key n d e b, gen_rule t = Ok (body, key, n) /\ pop_recognise out key = Some d /\
     header_text t n e /\ ps_count d = n /\ is_body (ps_body d) b /\ body_typed pop_vars pop_res b = true /\
     forall x k, csem e x = Some k -> 0 <= k < n -> run (pop_env x) b = Some (VInt k)) /\
  (forall key, (forall t body n, source t -> gen_rule t <> Ok (body, key, n)) -> pop_recognise out key = None).
Proof.
  intros l sets out H D OK P ND source.
  assert (FND : forall d, In d out -> pop_recognise out (ps_key d) = Some d).
  { clear - ND. unfold pop_recognise. induction out as [|x out IH]; intros d I; [contradiction|]. cbn [find].
    inversion ND as [|? ? NI ND']; subst. destruct I as [->|I]; [now rewrite beq_refl|].
    destruct (beq (ps_key d) (ps_key x)) eqn:E; [|now apply IH]. apply beq_eq in E. elim NI. rewrite <- E. now apply in_map. }
  split.
  - intros t S.
    assert (U : exists np e, header_text t np e /\ go_able np e = true /\ exists d, In d out /\ ps_count d = np /\
                  exists n, gen_rule t = Ok (ps_body d, ps_key d, n)).
    { destruct S as [S|(a & v & I & ->)].
      - destruct (used_headers t (or_intror S)) as (np & e & HT & GA). exists np, e. split; [exact HT|]. split; [exact GA|].
        destruct (extra_set_in l sets OK t S) as (d & ID & GR).
        destruct (C60_generated_means_header_partial _ _ _ HT GA) as (body & key & b & G & _).
        exists d. split; [now apply (Permutation_in _ P)|]. split; [|eauto]. rewrite G in GR. now injection GR.
      - destruct (H a v I) as (e & HT & GA). exists (snd v), e. split; [exact HT|]. split; [exact GA|].
        assert (D' : forall a v b w, In (a, v) l -> In (b, w) l -> fst v = fst w -> v = w).
        { intros a0 v0 b0 w0 I0 J0 E0. pose proof (D a0 v0 b0 w0 I0 J0 E0). destruct v0, w0. cbn in *. congruence. }
        destruct (pop_set_in l sets OK D' a v I) as (d & n & ID & C & G). exists d. split; [now apply (Permutation_in _ P)|]. eauto. }
    destruct U as (np & e & HT & GA & d & ID & C & n & G).
    destruct (C60_generated_means_header_partial _ _ _ HT GA) as (body & key & b & G' & B & T & R).
    rewrite G in G'. injection G' as EB EK EN. subst body key n.
    exists (ps_body d), (ps_key d), np, d, e, b. split; [exact G|]. split; [now apply FND|]. repeat (split; [assumption|]). exact R.
  - intros key N. unfold pop_recognise. destruct (find _ out) as [d|] eqn:E; [|reflexivity]. exfalso.
    apply find_some in E as [I E]. apply beq_eq in E. subst key.
    apply (Permutation_in _ (Permutation_sym P)) in I.
    destruct (pop_source_of l sets OK d I) as (t & n & S & G). eapply N; eauto.
Qed.

(** Languages with the same formula are taken together even if their numbers of
    forms differ: the number depends on the order of the iteration. *)
Theorem C64_forms_refuted : exists a v b w sets sets' d d', fst v = fst w /\ snd v <> snd w /\
  (exists e, header_text (pop_text v) (snd v) e /\ go_able (snd v) e = true) /\
  (exists e, header_text (pop_text w) (snd w) e /\ go_able (snd w) e = true) /\
  pop_sets [(a, v); (b, w)] = Ok sets /\ pop_lookup (fun s => s) sets b = Some d /\ ps_count d = snd v /\
  pop_sets [(b, w); (a, v)] = Ok sets' /\ pop_lookup (fun s => s) sets' b = Some d' /\ ps_count d' = snd w.
Proof.
  exists (bs "aa"), (bs "n == 1 ? 0 : n == 2 ? 1 : 2", 3), (bs "bb"), (bs "n == 1 ? 0 : n == 2 ? 1 : 2", 4).
  eexists. eexists. eexists. eexists. split; [reflexivity|]. split; [discriminate|].
  split; [apply able_header; vm_compute; reflexivity|]. split; [apply able_header; vm_compute; reflexivity|].
  split; [vm_compute; reflexivity|]. split; [vm_compute; reflexivity|]. split; [reflexivity|].
  split; [vm_compute; reflexivity|]. split; [vm_compute; reflexivity|]. reflexivity.
Qed.
(** Two formulas that differ in spaces and parentheses give the same case, so
    that the generated file does not compile. *)
Theorem C64_keys_refuted : exists l sets, NoDup (map fst l) /\ NoDup (map (fun x => fst (snd x)) l) /\
  pop_sets l = Ok sets /\ ~ NoDup (map ps_key sets).
Proof.
  exists [(bs "de", (bs "n != 1", 2)); (bs "en", (bs "(n!=1)", 2))]. eexists.
  split; [|split; [|split; [vm_compute; reflexivity|]]].
  - repeat constructor; cbn; intuition discriminate.
  - repeat constructor; cbn; intuition discriminate.
  - cbn [map ps_key]. intro N. inversion N as [|? ? NI _]; subst. apply NI. now left.
Qed.

(** Languages with shared rules, with a second name, and with a rule of their
    own. *)
Example C64_example : exists j j' rules rules' l, lang_rules j rules /\ lang_rules j' rules' /\
  map fst rules = [One] /\ map fst rules' = [One; Two] /\
  l = [(bs "de", j); (bs "iw", j'); (bs "en", j)] /\
  collision_free (fun s => s) l /\ told_apart l /\
  consistent (fun s => if beq s (bs "iw") then bs "he" else s) same_rules l /\
  Forall (fun r => cond_small (snd r) /\ one_range (snd r)) (rules ++ rules') /\
  NoDup (map fst l) /\ Forall is_tag (map fst l) /\
  map (fun d => (ds_langs d, map fst (ds_rules d))) (sort set_cmp (cldr_sets (fun s => s) l)) =
    [([bs "de"; bs "en"], [One; Other]); ([bs "iw"], [One; Two; Other])].
Proof.
  set (c := Rel false (Expr On None) [Val 1]). set (c2 := Rel false (Expr On None) [Val 2]).
  set (t := (cond_text c ++ bs " @integer 1")%list). set (t2 := (cond_text c2 ++ bs " @integer 1")%list).
  set (j := fun k => match k with One => t | Other => bs " @integer 0" | _ => [] end).
  set (j' := fun k => match k with One => t | Two => t2 | Other => bs " @integer 0" | _ => [] end).
  assert (RL : rule_line c t) by (apply spelled_line; [discriminate|apply cond_printb_ok; reflexivity|reflexivity]).
  assert (RL2 : rule_line c2 t2) by (apply spelled_line; [discriminate|apply cond_printb_ok; reflexivity|reflexivity]).
  assert (SL : samples_line (bs " @integer 0")).
  { exists [SP], (bs "integer 0"). split; [constructor; [now left|constructor]|reflexivity]. }
  assert (C : cond_small c /\ one_range c) by (split; [apply cond_smallb_ok; reflexivity|left; reflexivity]).
  assert (C2 : cond_small c2 /\ one_range c2) by (split; [apply cond_smallb_ok; reflexivity|left; reflexivity]).
  exists j, j', [(One, c)], [(One, c); (Two, c2)], [(bs "de", j); (bs "iw", j'); (bs "en", j)].
  split; [split; [reflexivity|split; [constructor; [exact RL|constructor]|exact SL]]|].
  split; [split; [reflexivity|split; [constructor; [exact RL|constructor; [exact RL2|constructor]]|exact SL]]|].
  split; [reflexivity|]. split; [reflexivity|]. split; [reflexivity|].
  split; [intros a x b y _ _ E; exact E|].
  split.
  { intros a x b y [A|[A|[A|[]]]] [B|[B|[B|[]]]] E; injection A as <- <-; injection B as <- <-; try (intro; reflexivity);
      exfalso; revert E; vm_compute; discriminate. }
  split.
  { intros a x b y [A|[A|[A|[]]]] [B|[B|[B|[]]]] E; injection A as <- <-; injection B as <- <-; try (intro; reflexivity);
      exfalso; revert E; vm_compute; intuition discriminate. }
  split; [repeat (constructor; [assumption|]); constructor|].
  split; [repeat constructor; cbn; intuition discriminate|].
  split; [|vm_compute; reflexivity].
  assert (T : forall a b, small a -> small b -> is_tag [a; b]).
  { intros a b A B. exists a, [b], []. split; [reflexivity|]. split; [exact A|]. split; [constructor; [exact B|constructor]|now left]. }
  cbn [map fst]. repeat constructor; apply T; unfold small; vm_compute; split; discriminate.
Qed.
Example C64_headers_example : exists sets, pop_sets [(bs "de", (bs "n != 1", 2)); (bs "ja", (bs "0", 1)); (bs "en", (bs "n != 1", 2))] = Ok sets /\
  (forall a v, In (a, v) [(bs "de", (bs "n != 1", 2)); (bs "ja", (bs "0", 1)); (bs "en", (bs "n != 1", 2))] ->
     exists e, header_text (pop_text v) (snd v) e /\ go_able (snd v) e = true) /\
  NoDup (map ps_key sets) /\ length sets = 9%nat /\
  map (fun d => (ps_langs d, ps_count d, ps_key d)) (firstn 2 sets) =
    [([bs "de"; bs "en"], 2, bs "nplurals=2; plural=n != 1;"); ([bs "ja"], 1, bs "nplurals=1; plural=0;")].
Proof.
  eexists. split; [vm_compute; reflexivity|]. split; [|split; [|split; vm_compute; reflexivity]].
  2:{ cbn [map ps_key]. repeat constructor; cbn [In]; intuition discriminate. }
  intros a v [A|[A|[A|[]]]]; injection A as <- <-; apply able_header; vm_compute; reflexivity.
Qed.

Print Assumptions C64_rules_partial.
Print Assumptions C64_shared.
Print Assumptions C64_other_names.
Print Assumptions C64_cases.
Print Assumptions C64_deterministic.
Print Assumptions C64_names.
Print Assumptions C64_mixup_refuted.
Print Assumptions C64_headers_partial.
Print Assumptions C64_recognised_partial.
Print Assumptions C64_forms_refuted.
Print Assumptions C64_keys_refuted.
