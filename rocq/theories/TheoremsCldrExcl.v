(** Property theorems C73: the conditions of a language exclude each other. *)
From Coq Require Import String Ascii List ZArith QArith Qround Qabs Bool Lia Permutation.
From Verif Require Import Base BaseProofs PopModel NumModel NumProofs F64Model F64Proofs CldrModel CldrBuiltin CldrSpec CldrRules
  CldrExclSpec CldrEvalProofs CldrOperandProofs CldrBuiltinProofs CldrParseProofs CldrTextProofs CldrExclProofs TheoremsCldr.
Import ListNotations.
Open Scope Z_scope.

(** Two conditions of a language hold for the same numeral only if they are the
    same.  Missing: exponents above 5 in the languages whose conditions mention
    the exponent. *)
Theorem C73_exclusive_partial : forall ls rs x u p q, In (ls, rs) cldr_rules ->
  nm_ok x -> (row_exp rs = true -> (nm_e x <= 5)%nat) -> operands_of x u ->
  In p rs -> In q rs -> holds (snd p) u -> holds (snd q) u -> p = q.
Proof.
  intros ls rs x u p q I OK E O. pose proof all_exclusive as X. rewrite Forall_forall in X.
  exact (exclusive_holds _ rs x u p q (X _ I) OK E O).
Qed.

(** There the conditions overlap: 0c6 is One and Many in French. *)
Theorem C73_exponent_refuted : exists rs x u p q, In ([bs "fr"], rs) cldr_rules /\
  nm_ok x /\ operands_of x u /\ In p rs /\ In q rs /\ holds (snd p) u /\ holds (snd q) u /\
  fst (fst p) = One /\ fst (fst q) = Many.
Proof.
  eexists. exists (Num false (bs "0") None (Some 6%nat)), (UOps 0 0 0 0 0 0 6). do 2 eexists.
  split; [do 16 right; left; reflexivity|].
  split; [split; [discriminate|]; split; [repeat constructor|exact I]|].
  split; [repeat split; vm_compute; try reflexivity; try discriminate; left; reflexivity|].
  split; [left; reflexivity|]. split; [right; left; reflexivity|].
  split; [cbn; left; reflexivity|]. split; [|split; reflexivity].
  cbn [snd holds]. right. intro H. apply Exists_cons in H as [H|H]; [|inversion H].
  destruct H as (z & B & H). cbn in H. unfold Qeq in H. cbn in H. lia.
Qed.

(** The order of the rules makes no difference. *)
Theorem C73_order_partial : forall ls rs x u rs' c, In (ls, rs) cldr_rules ->
  nm_ok x -> (row_exp rs = true -> (nm_e x <= 5)%nat) -> operands_of x u ->
  Permutation (row_rules rs) rs' -> (chosen (row_rules rs) u c <-> chosen rs' u c).
Proof.
  intros ls rs x u rs' c I OK E O P.
  assert (U : forall p q, In p (row_rules rs) -> In q (row_rules rs) -> holds (snd p) u -> holds (snd q) u -> p = q).
  { intros p q IP IQ HP HQ. unfold row_rules in IP, IQ. apply in_map_iff in IP as (p' & <- & IP). apply in_map_iff in IQ as (q' & <- & IQ).
    rewrite (C73_exclusive_partial ls rs x u p' q' I OK E O IP IQ HP HQ). reflexivity. }
  exact (chosen_permutation _ _ u c U P).
Qed.

(** The category that comes out of a built-in language is the one whose
    condition holds, no other condition holds, and Other comes out if and only
    if none does.  The hypotheses on the numeral are those of
    [C09_builtin_numeral_partial] and the one above. *)
Theorem C73_builtin_partial : forall l r x, cldr_built_in l = Some r ->
  nm_ok x -> nm_neg x = false -> nm_scaled x < 1000000000000000 -> (nm_v x <= 5)%nat ->
  (nm_e x <= 5)%nat ->
  exists ls rs c, In l ls /\ In (ls, rs) cldr_rules /\ rs_evaluate r (CString (nm_text x)) = Ok c /\
    forall u, operands_of x u ->
      (forall k t cd, In (k, t, cd) rs -> (c = k <-> holds cd u)) /\
      (c = Other <-> forall k t cd, In (k, t, cd) rs -> ~ holds cd u).
Proof.
  intros l r x B OK NG SC V E.
  destruct (C09_builtin_numeral_partial l r x B OK NG SC V) as (ls & rs & c & L & I & EV & CH); [unfold maxInt64; lia|].
  exists ls, rs, c. split; [exact L|]. split; [exact I|]. split; [exact EV|]. intros u O. specialize (CH u O).
  pose proof (fun p q => C73_exclusive_partial ls rs x u p q I OK (fun _ => E) O) as X.
  pose proof no_other as NO. rewrite Forall_forall in NO. specialize (NO _ I). cbn [snd] in NO. rewrite Forall_forall in NO.
  pose proof distinct_categories as DC. rewrite Forall_forall in DC. specialize (DC _ I). cbn [snd] in DC.
  apply chosen_spec in CH. unfold row_rules in CH.
  assert (K : (exists t cd, In (c, t, cd) rs /\ holds cd u) \/ (c = Other /\ forall k t cd, In (k, t, cd) rs -> ~ holds cd u)).
  { destruct CH as [(cd & IM & H)|[Z A]].
    - apply in_map_iff in IM as ([[k t] cd'] & EQ & IM). cbn in EQ. injection EQ as -> ->. left. eauto.
    - right. split; [exact Z|]. intros k t cd IN. apply (A (k, cd)). apply in_map_iff. exists (k, t, cd). split; [reflexivity|exact IN]. }
  split.
  - intros k t cd IN. split.
    + intros ->. destruct K as [(t' & cd' & IN' & H)|[-> _]].
      * pose proof (nodup_fst _ DC (k, t, cd) (k, t', cd') IN IN' eq_refl) as EQ. injection EQ as -> ->. exact H.
      * destruct (NO _ IN). reflexivity.
    + intro H. destruct K as [(t' & cd' & IN' & H')|[_ A]]; [|destruct (A _ _ _ IN H)].
      pose proof (X _ _ IN' IN H' H) as EQ. now injection EQ.
  - split.
    + intros ->. destruct K as [(t' & cd' & IN' & _)|[_ A]]; [destruct (NO _ IN' eq_refl)|exact A].
    + intro A. destruct K as [(t' & cd' & IN' & H)|[Z _]]; [destruct (A _ _ _ IN' H)|exact Z].
Qed.
(** Russian: 21 is One, 22 Few, 25 Many, 2.5 Other. *)
Example C73_builtin_example : exists r, cldr_built_in (bs "ru") = Some r /\
  map (fun s => rs_evaluate r (CString (bs s))) ["21"; "22"; "25"; "2.5"]%string = [Ok One; Ok Few; Ok Many; Ok Other] /\
  Forall (fun x => nm_ok x /\ nm_neg x = false /\ nm_scaled x < 1000000000000000 /\ (nm_v x <= 5)%nat /\ (nm_e x <= 5)%nat)
    [Num false (bs "21") None None; Num false (bs "2") (Some (bs "5")) None].
Proof.
  eexists. split; [vm_compute; reflexivity|]. split; [vm_compute; reflexivity|].
  repeat constructor; cbn; try discriminate; try lia; repeat constructor.
Qed.

(** The rules of a language, parsed from their texts in any order (the rules are
    a map): no error, and the same category for a numeral, the one the standard
    gives. *)
Theorem C73_parsed_order_partial : forall ls rs raw fuel, In (ls, rs) cldr_rules -> Permutation (map fst rs) raw ->
  exists cats rules, parse_rules fuel raw = Ok (cats, rules) /\
    forall x, nm_ok x -> nm_neg x = false -> nm_scaled x < 1000000000000000 -> (nm_v x <= 5)%nat -> (nm_e x <= 5)%nat ->
      exists o c, new_operands_string (nm_text x) = Ok o /\ form_rules rules o = Ok c /\
        forall u, operands_of x u -> chosen (row_rules rs) u c.
Proof.
  intros ls rs raw fuel I P.
  apply Permutation_sym, Permutation_map_inv in P as (l & -> & P).
  assert (A : forall y, In y l -> snd (fst y) = cond_text (snd y) /\ is_or (snd y) /\ cond_small (snd y) /\ cond_print (snd y)).
  { intros [[k t] cd] IY. apply (Permutation_in _ (Permutation_sym P)) in IY. cbn [fst snd].
    destruct (row_text _ _ _ _ _ I IY) as (T & O & S). split; [exact T|]. split; [exact O|]. split; [exact S|].
    pose proof rows_print as R. rewrite Forall_forall in R. specialize (R _ I). rewrite Forall_forall in R. exact (R _ IY). }
  unfold parse_rules. rewrite (parse_all_rules fuel l A). cbn [rbind]. cbv zeta. do 2 eexists. split; [reflexivity|].
  intros x OK NG SC V E. destruct (numeral_ops x OK NG SC V ltac:(unfold two53; lia)) as (o & N & _ & SM & CL & H).
  exists o, (chooseb (row_rules l) (to_uops o)). split; [exact N|].
  split; [apply form_rules_chooseb; [exact SM|exact CL|intros y IY; apply (A y IY)]|].
  intros u O. assert (PR : Permutation (row_rules rs) (row_rules l)) by (apply Permutation_map; exact P).
  apply (proj2 (C73_order_partial ls rs x u (row_rules l) _ I OK (fun _ => E) O PR)).
  rewrite (chooseb_ext (row_rules l) (to_uops o) u (fun cd => H u cd O)). apply chooseb_spec.
  apply Forall_forall. intros y IY. apply (Permutation_in _ (Permutation_sym PR)) in IY.
  pose proof (row_mods ls rs I) as M. rewrite Forall_forall in M. exact (M y IY).
Qed.
(** Polish, the rules from the last to the first. *)
Example C73_parsed_example : exists rs cats rules, In ([bs "pl"], rs) cldr_rules /\ length rs = 3%nat /\
  Permutation (map fst rs) (rev (map fst rs)) /\ parse_rules 3 (rev (map fst rs)) = Ok (cats, rules) /\
  map (fun z => form_rules rules (new_operands_int z)) [1; 2; 5; 12; 22] = [Ok One; Ok Few; Ok Many; Ok Many; Ok Few].
Proof.
  assert (R : exists rs, find (fun r => match fst r with [l] => beq l (bs "pl") | _ => false end) cldr_rules = Some ([bs "pl"], rs)
     /\ length rs = 3%nat /\ exists cats rules, parse_rules 3 (rev (map fst rs)) = Ok (cats, rules) /\
     map (fun z => form_rules rules (new_operands_int z)) [1; 2; 5; 12; 22] = [Ok One; Ok Few; Ok Many; Ok Many; Ok Few]).
  { eexists. split; [vm_compute; reflexivity|]. split; [reflexivity|]. do 2 eexists. split; [vm_compute; reflexivity|vm_compute; reflexivity]. }
  destruct R as (rs & F & L & cats & rules & PR & M). exists rs, cats, rules.
  split; [exact (proj1 (find_some _ _ F))|]. split; [exact L|]. split; [apply Permutation_rev|]. split; [exact PR|exact M].
Qed.

Print Assumptions C73_exclusive_partial.
Print Assumptions C73_exponent_refuted.
Print Assumptions C73_order_partial.
Print Assumptions C73_builtin_partial.
Print Assumptions C73_parsed_order_partial.
