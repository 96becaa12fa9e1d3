(** Property theorems C59-C61: generated plural rules and their generators. *)
From Coq Require Import String Ascii List ZArith QArith Bool Lia.
From Verif Require Import Base BaseProofs PopModel PopBuiltin PopSpec PopScanProofs PopProofs PopComplete PopBuiltinProofs NumModel F64Model
  CldrModel CldrBuiltin CldrSpec CldrRules CldrEvalProofs CldrBuiltinProofs CldrTextProofs
  CldrParseProofs GoSpec PopSource CldrSource GoSourceProofs GenModel GoProofs GenSpec GenPopProofs GenFileProofs
  GenCldrProofs GenCldrFileProofs.
Import ListNotations.
Open Scope Z_scope.

(** ** C59.  The text of the generated files, read as Go. *)

(** catalog/poplural/builtin_gen.go compiles.  A header it recognises is a
    header of the C grammar with the stated number of forms, and the function
    returned computes its C value; the function for a language computes the C
    value of the header in the comment of the constructor called. *)
Theorem C59_gettext_file : exists fs, go_file (text_of_lines pop_source) = Some fs /\ file_ok fs = true /\
  (forall t, call_string fs (bs "getBuiltInForRawRule") t = Some RNil \/
     exists np b e, call_string fs (bs "getBuiltInForRawRule") t = Some (RPop np b) /\
       header_text t np e /\
       forall n, exists v, csem e n = Some v /\ run (pop_env n) b = Some (VInt v)) /\
  (forall l, call_string fs (bs "getBuiltInForLanguage") l = Some RNil \/
     exists np b f t e, call_string fs (bs "getBuiltInForLanguage") l = Some (RPop np b) /\
       called fs (bs "getBuiltInForLanguage") l = Some f /\ comments_in 2 pop_source f = [t] /\
       header_text t np e /\
       forall n, exists v, csem e n = Some v /\ run (pop_env n) b = Some (VInt v)).
Proof.
  exists pop_file. split; [exact pop_file_read|]. split; [exact pop_file_ok|]. split.
  - intro t. pose proof (pop_raw_source t) as A. unfold pop_agrees in A.
    destruct (call_string pop_file (bs "getBuiltInForRawRule") t) as [[|f|np b|cs b]|]; try contradiction.
    + left. reflexivity.
    + right. destruct (built_in_raw t) as [r|] eqn:B; [|contradiction].
      destruct A as [-> [_ A]]. destruct (lookup_raw_in _ _ _ B) as [t' [<- I]].
      destruct (raw_means _ _ I) as [e [H1 H2]]. exists (r_nplurals r), b, e. split; [reflexivity|].
      split; [exact H1|]. intro n. exists (r_form r n). split; [apply H2|apply A].
  - intro l. pose proof (pop_lang_source l) as A. unfold pop_agrees in A.
    destruct (call_string pop_file (bs "getBuiltInForLanguage") l) as [[|f|np b|cs b]|]; try contradiction.
    + left. reflexivity.
    + right. destruct (built_in_lang l) as [r|] eqn:B; [|contradiction].
      destruct A as [-> [_ A]]. destruct (pop_lang_comment _ _ B) as (f & t & C & D & I).
      destruct (doc_means _ _ I) as [e [H1 H2]]. exists (r_nplurals r), b, f, (bs t), e.
      split; [reflexivity|]. split; [exact C|]. split; [exact D|]. split; [exact H1|].
      intro n. exists (r_form r n). split; [apply H2|apply A].
Qed.

(** catalog/cldrplural/builtin_gen.go compiles.  The function for a language
    returns the category that the conditions quoted in its comments choose,
    and its categories are those of the conditions, then Other. *)
Theorem C59_cldr_file : exists fs, go_file (text_of_lines cldr_source) = Some fs /\ file_ok fs = true /\
  forall l, call_string fs (bs "getBuiltInForLanguage") l = Some RNil \/
    exists cs b f rules, call_string fs (bs "getBuiltInForLanguage") l = Some (RCldr cs b) /\
      called fs (bs "getBuiltInForLanguage") l = Some f /\
      comments_in 3 cldr_source f = map (fun r => cond_text (snd r)) rules /\
      map cat_of cs = map Some (map fst rules ++ [Other]) /\
      forall o, nonneg_ops o -> clear_of_integers (oN o) ->
        exists c, run (cldr_env o) b = Some (VCat c) /\ chosen rules (to_uops o) c.
Proof.
  exists cldr_file. split; [exact cldr_file_read|]. split; [exact cldr_file_ok|].
  intro l. pose proof (cldr_lang_source l) as A. unfold cldr_agrees in A.
  destruct (cldr_built_in l) as [r|] eqn:B.
  - destruct (cldr_lang_row _ _ B) as (f & rs & C & D & E & (ls & I) & [_ R]). right.
    destruct (call_string cldr_file (bs "getBuiltInForLanguage") l) as [[|g|np b|cs b]|]; try contradiction.
    destruct A as [A1 [_ A2]]. exists cs, b, f, (row_rules rs). split; [reflexivity|]. split; [exact C|].
    split; [|split].
    + rewrite D. unfold row_rules. rewrite map_map. apply map_ext_in. intros [[c t] cd] J.
      exact (proj1 (row_text ls rs c t cd I J)).
    + unfold row_rules. rewrite map_map. exact E.
    + intros o N CL. exists (rs_form r o). split; [apply A2|].
      pose proof (R o N CL) as W. cbn [snd] in W. rewrite W. exact (chooseb_spec (row_rules rs) (to_uops o) (row_mods ls rs I)).
  - left. destruct (call_string cldr_file (bs "getBuiltInForLanguage") l) as [[|g|np b|cs b]|]; tauto.
Qed.

(** Both files know some languages; 22 is form 1 in Russian, few. *)
Example C59_example :
  (exists fs b, go_file (text_of_lines pop_source) = Some fs /\
     call_string fs (bs "getBuiltInForLanguage") (bs "ru") = Some (RPop 3 b) /\
     run (pop_env 22) b = Some (VInt 1)) /\
  (exists fs cs b, go_file (text_of_lines cldr_source) = Some fs /\
     call_string fs (bs "getBuiltInForLanguage") (bs "ru") = Some (RCldr cs b) /\
     run (cldr_env (Ops 22 22 0 0 0 0 0)) b = Some (VCat Few)).
Proof.
  split.
  - exists pop_file. eexists. split; [exact pop_file_read|]. split; [vm_compute; reflexivity|]. vm_compute. reflexivity.
  - exists cldr_file. eexists. eexists. split; [exact cldr_file_read|]. split; [vm_compute; reflexivity|]. vm_compute. reflexivity.
Qed.

(** ** C60.  The generator of catalog/poplural. *)

(** For a header of the class [go_able] (one form; or two forms and a
    condition; or a chain of conditions and numbers) the generator writes the
    body of a Go function of the right type that computes the C value. *)
Theorem C60_generated_means_header_partial : forall t np e, header_text t np e -> go_able np e = true ->
  exists body key b, gen_rule t = Ok (body, key, np) /\ is_body body b /\
    body_typed pop_vars pop_res b = true /\
    forall n v, csem e n = Some v -> 0 <= v < np -> run (pop_env n) b = Some (VInt v).
Proof. exact gen_rule_means. Qed.

(** The header quoted for each language is in the class, and so are the
    additional rules of the generator. *)
Theorem C60_used_headers : forall t,
  In t (map (fun p => bs (fst p)) doc_table) \/ In t extra_rules ->
  exists np e, header_text t np e /\ go_able np e = true.
Proof. exact used_headers. Qed.

(** The file in the repository is what the generator writes: the function for a
    language has the statements generated from the header quoted there. *)
Theorem C60_file_is_generated : exists fs, go_file (text_of_lines pop_source) = Some fs /\
  forall l np b, call_string fs (bs "getBuiltInForLanguage") l = Some (RPop np b) ->
  exists f t body key, called fs (bs "getBuiltInForLanguage") l = Some f /\
    comments_in 2 pop_source f = [t] /\ gen_rule t = Ok (body, key, np) /\ is_body body b.
Proof.
  exists pop_file. split; [exact pop_file_read|]. exact pop_file_generated.
Qed.
(** A recognised header is the key generated from a header quoted for a
    language or from an additional rule, with the statements generated from
    it. *)
Theorem C60_recognition_is_generated : exists fs, go_file (text_of_lines pop_source) = Some fs /\
  forall k np b, call_string fs (bs "getBuiltInForRawRule") k = Some (RPop np b) ->
  exists t body, (In t (map (fun p => bs (fst p)) doc_table) \/ In t extra_rules) /\
    gen_rule t = Ok (body, k, np) /\ is_body body b.
Proof.
  exists pop_file. split; [exact pop_file_read|]. exact pop_raw_generated.
Qed.

(** Outside of the class: a header with two forms whose rule is a conditional
    gives text that is not Go. *)
Theorem C60_two_forms_conditional_refuted : exists t np e body key, header_text t np e /\
  gen_rule t = Ok (body, key, np) /\ forall b, ~ is_body body b.
Proof.
  destruct (witness_header (bs "nplurals=2; plural=n == 1 ? 0 : 1;")
    (Forms 2 (NCond (NBin BEq NOp (NVal 1)) (NVal 0) (NVal 1)))) as [e [H C]];
    [vm_compute; reflexivity | vm_compute; reflexivity |].
  exists (bs "nplurals=2; plural=n == 1 ? 0 : 1;"), 2, e. eexists. eexists.
  split; [exact H|]. split; [vm_compute; reflexivity|].
  intros b (ts & fuel & L & P). vm_compute in L. injection L as <-.
  do 7 (destruct fuel as [|fuel]; [discriminate|]). discriminate.
Qed.
(** A conditional as the first branch is not Go either. *)
Theorem C60_nested_conditional_refuted : exists t np e body key, header_text t np e /\
  gen_rule t = Ok (body, key, np) /\ forall b, ~ is_body body b.
Proof.
  destruct (witness_header (bs "nplurals=3; plural=n > 1 ? (n > 2 ? 2 : 1) : 0;")
    (Forms 3 (NCond (NBin BGt NOp (NVal 1)) (NCond (NBin BGt NOp (NVal 2)) (NVal 2) (NVal 1)) (NVal 0))))
    as [e [H C]]; [vm_compute; reflexivity | vm_compute; reflexivity |].
  exists (bs "nplurals=3; plural=n > 1 ? (n > 2 ? 2 : 1) : 0;"), 3, e. eexists. eexists.
  split; [exact H|]. split; [vm_compute; reflexivity|].
  intros b (ts & fuel & L & P). vm_compute in L. discriminate.
Qed.
(** A remainder used as a condition has the wrong type. *)
Theorem C60_number_as_condition_refuted : exists t np e body key b, header_text t np e /\
  gen_rule t = Ok (body, key, np) /\ is_body body b /\ body_typed pop_vars pop_res b = false.
Proof.
  destruct (witness_header (bs "nplurals=2; plural=n % 2;")
    (Forms 2 (NBin BRem NOp (NVal 2)))) as [e [H C]]; [vm_compute; reflexivity | vm_compute; reflexivity |].
  exists (bs "nplurals=2; plural=n % 2;"), 2, e. eexists. eexists. eexists.
  split; [exact H|]. split; [vm_compute; reflexivity|].
  split; [eexists; exists 20%nat; split; [vm_compute; reflexivity|vm_compute; reflexivity]|].
  vm_compute. reflexivity.
Qed.
(** Parentheses on the right of % are dropped: the text compiles and computes
    another form. *)
Theorem C60_dropped_parentheses_refuted : exists t np e body key b n v, header_text t np e /\
  gen_rule t = Ok (body, key, np) /\ is_body body b /\ body_typed pop_vars pop_res b = true /\
  csem e n = Some v /\ 0 <= v < np /\ run (pop_env n) b <> Some (VInt v).
Proof.
  destruct (witness_header (bs "nplurals=2; plural=n % (10 % 3) == 1;")
    (Forms 2 (NBin BEq (NBin BRem NOp (NBin BRem (NVal 10) (NVal 3))) (NVal 1)))) as [e [H C]];
    [vm_compute; reflexivity | vm_compute; reflexivity |].
  exists (bs "nplurals=2; plural=n % (10 % 3) == 1;"), 2, e. eexists. eexists. eexists.
  exists 11, 0. split; [exact H|]. split; [vm_compute; reflexivity|].
  split; [eexists; exists 20%nat; split; [vm_compute; reflexivity|vm_compute; reflexivity]|].
  split; [vm_compute; reflexivity|]. split; [|split; [lia|vm_compute; discriminate]].
  destruct (ceq_sem _ _ C 11) as [S _]. rewrite <- S. vm_compute. reflexivity.
Qed.

(** A header of the class with a chain, and its value. *)
Example C60_example : exists e body key b,
  header_text (bs "nplurals=3; plural=n%10==1 && n%100!=11 ? 0 : n == 2 || n >= 4 && n <= 6 ? 1 : 2;") 3 e /\
  go_able 3 e = true /\
  gen_rule (bs "nplurals=3; plural=n%10==1 && n%100!=11 ? 0 : n == 2 || n >= 4 && n <= 6 ? 1 : 2;")
    = Ok (body, key, 3) /\
  is_body body b /\ run (pop_env 21) b = Some (VInt 0) /\ run (pop_env 5) b = Some (VInt 1) /\
  run (pop_env 11) b = Some (VInt 2).
Proof.
  set (t := bs _). 
  assert (P : exists f, parse_forms t = Ok f /\ go_able (f_nplurals f) (cx (f_root f)) = true /\
    f_nplurals f = 3) by (eexists; split; [vm_compute; reflexivity|split; vm_compute; reflexivity]).
  destruct P as (f & P & GA & N). destruct (witness_header t f P) as [e [H C]]; [vm_compute; reflexivity|].
  rewrite (ceq_able _ _ _ C) in GA. rewrite N in *. exists e. eexists. eexists. eexists.
  split; [exact H|]. split; [exact GA|]. split; [vm_compute; reflexivity|].
  split; [eexists; exists 30%nat; split; [vm_compute; reflexivity|vm_compute; reflexivity]|].
  split; [vm_compute; reflexivity|]. split; vm_compute; reflexivity.
Qed.

(** ** C61.  The generator of catalog/cldrplural. *)

(** For every condition without two ranges in a relation about an integer
    operand the generator writes a Go expression that is true exactly when the
    condition holds. *)
Theorem C61_condition_partial : forall c s, rule_line c s -> cond_small c -> one_range c ->
  exists t E, (exists F, forall fuel, (F <= fuel)%nat -> convert_to_go fuel s = Ok t) /\
    is_expr t E /\ gtype cldr_vars E = Some YBool /\
    forall o, nonneg_ops o -> clear_of_integers (oN o) ->
      exists b, geval (cldr_env o) E = VBool b /\ (b = true <-> holds c (to_uops o)).
Proof.
  intros c s RL S OR. destruct (convert_line c s RL S OR) as (t & _ & (ts & E & L & R & Y & V) & CV).
  exists t, E. split; [exact CV|]. split; [|split; [exact Y|]].
  - eapply expr_read; [exact L|]. rewrite <- (app_nil_r ts). apply R. exact I.
  - intros o N CL. exists (holdsb c (to_uops o)). split; [apply V; split; assumption|].
    symmetry. apply holdsb_spec. apply cond_small_mods. exact S.
Qed.

(** The function generated from the rules of a language compiles and returns
    the category the rules choose. *)
Theorem C61_function_partial : forall rules texts other,
  Forall2 (fun r t => fst r = fst t /\ rule_line (snd r) (snd t)) rules texts ->
  Forall (fun r => cond_small (snd r) /\ one_range (snd r)) rules -> samples_line other ->
  exists text b,
    (exists F, forall fuel, (F <= fuel)%nat -> gen_form_func fuel (texts ++ [(Other, other)]) = Ok text) /\
    is_body text b /\ body_typed cldr_vars cldr_res b = true /\
    forall o, nonneg_ops o -> clear_of_integers (oN o) ->
      exists c, run (cldr_env o) b = Some (VCat c) /\ chosen rules (to_uops o) c.
Proof.
  intros rules texts other F2 FA SL.
  destruct (form_func rules texts other F2 FA SL) as (F & text & ts & b & GF & LT & BT & _ & TB & RUN).
  exists text, b. split; [exists F; exact GF|]. split; [|split; [exact TB|]].
  - exact (lexN_body text ts b LT BT).
  - intros o N CL. exists (chooseb rules (to_uops o)). split; [apply RUN; split; assumption|].
    apply chooseb_spec. eapply Forall_impl; [|exact FA]. intros [k cd] [S _]. apply cond_small_mods. exact S.
Qed.

(** The file in the repository is what the generator writes: the function for a
    language has the statements generated from the conditions quoted there,
    whatever the samples of the input are. *)
Theorem C61_file_is_generated : exists fs, go_file (text_of_lines cldr_source) = Some fs /\
  forall l cs b, call_string fs (bs "getBuiltInForLanguage") l = Some (RCldr cs b) ->
  exists f rules, called fs (bs "getBuiltInForLanguage") l = Some f /\
    comments_in 3 cldr_source f = map (fun r => cond_text (snd r)) rules /\
    forall texts other,
      Forall2 (fun r t => fst r = fst t /\ rule_line (snd r) (snd t)) rules texts -> samples_line other ->
      exists text,
        (exists F, forall fuel, (F <= fuel)%nat -> gen_form_func fuel (texts ++ [(Other, other)]) = Ok text) /\
        is_body text b.
Proof.
  exists cldr_file. split; [exact cldr_file_read|]. intros l cs b C.
  destruct (cldr_file_generated l cs b C) as (f & rs & ls & C1 & C2 & C3 & C4).
  exists f, (row_rules rs). split; [exact C1|]. split.
  - rewrite C2. unfold row_rules. rewrite map_map. apply map_ext_in. intros [[c t] cd] J.
    exact (proj1 (row_text ls rs c t cd C3 J)).
  - intros texts other F2 SL.
    destruct (form_func _ texts other F2 (row_class ls rs C3) SL) as (F & text & ts & b' & GF & LT & BT & CB & _).
    exists text. split; [exists F; exact GF|]. rewrite (case_body_unique _ _ _ C4 CB).
    exact (lexN_body text ts b' LT BT).
Qed.

(** The quoted conditions, followed by a sample, are such lines. *)
Theorem C61_quoted_lines : forall ls rs, In (ls, rs) cldr_rules ->
  Forall2 (fun r t => fst r = fst t /\ rule_line (snd r) (snd t)) (row_rules rs)
    (map (fun r => (fst r, (cond_text (snd r) ++ bs " @integer 1")%list)) (row_rules rs)) /\
  samples_line (bs " @integer 0~15").
Proof.
  intros ls rs I. split; [exact (row_lines ls rs I)|]. exists [SP], (bs "integer 0~15").
  split; [repeat constructor|reflexivity].
Qed.

(** Outside of the class: two ranges in a relation about i give a call of a
    function that does not exist. *)
Theorem C61_two_ranges_refuted : exists c s t E, rule_line c s /\ cond_small c /\
  convert_to_go 100 s = Ok t /\ is_expr t E /\ gtype cldr_vars E = None.
Proof.
  set (c := Rel false (Expr Oi None) [Range 1 2; Range 4 5]).
  exists c, (cond_text c ++ bs " @integer 1")%list. eexists. eexists.
  split; [|split; [|split; [vm_compute; reflexivity|split]]].
  - apply spelled_line; [discriminate|apply cond_printb_ok; reflexivity|reflexivity].
  - apply cond_smallb_ok. reflexivity.
  - eexists. exists 30%nat. split; [vm_compute; reflexivity|vm_compute; reflexivity].
  - vm_compute. reflexivity.
Qed.
(** A condition without samples, allowed by the grammar, makes the generator
    panic. *)
Theorem C61_without_samples_refuted : exists c ts s, is_or c /\ cond_toks c ts /\ spaced ts s /\ cond_small c /\
  one_range c /\ forall fuel k, gen_case fuel k s = Panic.
Proof.
  set (c := Rel false (Expr On None) [Val 1]).
  assert (P : cond_print c) by (apply cond_printb_ok; reflexivity).
  destruct (cond_text_toks c P) as (ts & T & HS). exists c, ts, (cond_text c).
  split; [discriminate|]. split; [exact T|]. split; [exact HS|].
  split; [apply cond_smallb_ok; reflexivity|]. split; [left; reflexivity|].
  intros fuel k. unfold gen_case. reflexivity.
Qed.
(** Rules without a text for Other give a function without a final return. *)
Theorem C61_without_other_refuted : exists c s text b, rule_line c s /\ cond_small c /\ one_range c /\
  gen_form_func 100 [(One, s)] = Ok text /\ is_body text b /\ body_typed cldr_vars cldr_res b = false.
Proof.
  set (c := Rel false (Expr On None) [Val 1]).
  exists c, (cond_text c ++ bs " @integer 1")%list. eexists. eexists.
  split; [|split; [|split; [left; reflexivity|split; [vm_compute; reflexivity|split]]]].
  - apply spelled_line; [discriminate|apply cond_printb_ok; reflexivity|reflexivity].
  - apply cond_smallb_ok. reflexivity.
  - eexists. exists 30%nat. split; [vm_compute; reflexivity|vm_compute; reflexivity].
  - vm_compute. reflexivity.
Qed.

(** A rule with ranges, values, a remainder and a negation, and the category of
    some numbers. *)
Example C61_example : exists c text b,
  rule_line c (bs "v = 0 and i % 10 = 2..4 and i % 100 != 12..14 or n = 0,7,9..11 @integer 2~4") /\
  cond_small c /\ one_range c /\
  gen_form_func 100 [(Few, bs "v = 0 and i % 10 = 2..4 and i % 100 != 12..14 or n = 0,7,9..11 @integer 2~4");
    (Other, bs " @integer 1")] = Ok text /\
  is_body text b /\
  run (cldr_env (Ops 22 22 0 0 0 0 0)) b = Some (VCat Few) /\
  run (cldr_env (Ops 12 12 0 0 0 0 0)) b = Some (VCat Other) /\
  run (cldr_env (Ops 7 7 0 0 0 0 0)) b = Some (VCat Few).
Proof.
  exists (Or (And (Rel false (Expr Ov None) [Val 0])
    (And (Rel false (Expr Oi (Some 10)) [Range 2 4]) (Rel true (Expr Oi (Some 100)) [Range 12 14])))
    (Rel false (Expr On None) [Val 0; Val 7; Range 9 11])).
  eexists. eexists. split; [|split; [|split; [|split; [vm_compute; reflexivity|split]]]].
  - match goal with |- rule_line ?c _ => destruct (cond_text_toks c) as (ts & T & HS) end.
    { apply cond_printb_ok. reflexivity. }
    exists ts, [bs "@integer"; bs "2~4"]. split; [repeat split; discriminate|]. split; [exact T|].
    split; [discriminate|]. split; [|split].
    + split; [now left|]. constructor; [apply ST_mark; now left|]. constructor; [|constructor].
      apply (ST_range (Num false (bs "2") None None) (Num false (bs "4") None None));
        [| |exact I|vm_compute; discriminate];
        (repeat split; try discriminate; [repeat constructor|constructor|right; discriminate]).
    + change (bs "v = 0 and i % 10 = 2..4 and i % 100 != 12..14 or n = 0,7,9..11 @integer 2~4")
        with (bs "v = 0 and i % 10 = 2..4 and i % 100 != 12..14 or n = 0,7,9..11" ++ bs " @integer 2~4")%list.
      apply spaced_app; [exact HS| |exists SP; eexists; split; [reflexivity|now left]].
      exact (spaced_sp (bs "@integer") _ _ (spaced_one (bs "2~4"))).
    + apply no_lf. reflexivity.
  - apply cond_smallb_ok. reflexivity.
  - apply one_rangeb_ok. reflexivity.
  - eexists. exists 60%nat. split; [vm_compute; reflexivity|vm_compute; reflexivity].
  - split; [vm_compute; reflexivity|]. split; vm_compute; reflexivity.
Qed.

Print Assumptions C59_gettext_file.
Print Assumptions C59_cldr_file.
Print Assumptions C60_generated_means_header_partial.
Print Assumptions C60_used_headers.
Print Assumptions C60_file_is_generated.
Print Assumptions C60_recognition_is_generated.
Print Assumptions C60_two_forms_conditional_refuted.
Print Assumptions C60_nested_conditional_refuted.
Print Assumptions C60_number_as_condition_refuted.
Print Assumptions C60_dropped_parentheses_refuted.
Print Assumptions C61_condition_partial.
Print Assumptions C61_function_partial.
Print Assumptions C61_file_is_generated.
Print Assumptions C61_quoted_lines.
Print Assumptions C61_two_ranges_refuted.
Print Assumptions C61_without_samples_refuted.
Print Assumptions C61_without_other_refuted.
