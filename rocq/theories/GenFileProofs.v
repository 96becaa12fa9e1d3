(** The generated files are what the generators write for the quoted rules. *)
From Coq Require Import String Ascii List ZArith QArith Bool Lia.
From Verif Require Import Base BaseProofs PopModel PopBuiltin PopSpec PopScanProofs PopProofs PopComplete PopBuiltinProofs NumModel F64Model
  CldrModel CldrBuiltin CldrSpec CldrRules GoSpec PopSource CldrSource GoSourceProofs GenModel GoProofs GenSpec
  GenPopProofs.
Import ListNotations.
Open Scope Z_scope.

Definition able_text (t : bytes) : bool :=
  cleanb t && match lex_all (S (length t)) t with Some ls => fitsb ls | None => false end &&
  match parse_forms t with Ok f => go_able (f_nplurals f) (cx (f_root f)) | _ => false end.
Lemma able_texts : forallb able_text (map (fun p => bs (fst p)) doc_table ++ extra_rules) = true.
Proof. vm_compute. reflexivity. Qed.
Lemma used_headers : forall t,
  In t (map (fun p => bs (fst p)) doc_table) \/ In t extra_rules ->
  exists np e, header_text t np e /\ go_able np e = true.
Proof.
  intros t H. assert (A : able_text t = true).
  { apply (proj1 (forallb_forall _ _) able_texts). apply in_or_app. exact H. }
  unfold able_text in A. apply andb_true_iff in A as [C A].
  destruct (parse_forms t) as [f| | |] eqn:P; try discriminate.
  destruct (witness_header t f P C) as [e [HT CE]]. exists (f_nplurals f), e. split; [exact HT|].
  rewrite <- (ceq_able _ _ _ CE). exact A.
Qed.

(** One case of the switch over languages. *)
Definition same_body (b : list gstmt) (s : bytes) : Prop :=
  exists ts, go_tokens s = Some ts /\ gbody (10 + length ts) ts = Some (b, []).
Lemma same_body_is : forall b s, same_body b s -> is_body s b.
Proof. intros b s (ts & L & P). exists ts, (10 + length ts)%nat. auto. Qed.

Definition gen_case_ok (x : list bytes * gret) : Prop :=
  exists f np b t body key, snd x = RCall f /\ find_fun pop_file f = Some (FReturn (RPop np b)) /\
    comments_in 2 pop_source f = [t] /\ gen_rule t = Ok (body, key, np) /\ same_body b body.
Lemma gen_cases_ok : Forall gen_case_ok (cases_of pop_file (bs "getBuiltInForLanguage")).
Proof.
  let c := eval vm_compute in (cases_of pop_file (bs "getBuiltInForLanguage")) in
  change (cases_of pop_file (bs "getBuiltInForLanguage")) with c.
  repeat (apply Forall_cons;
    [eexists; eexists; eexists; eexists; eexists; eexists; split; [reflexivity|];
     split; [vm_compute; reflexivity|]; split; [vm_compute; reflexivity|];
     split; [vm_compute; reflexivity|]; eexists; split; [vm_compute; reflexivity|];
     vm_compute; reflexivity|]).
  apply Forall_nil.
Qed.
Lemma pop_file_generated : forall l np b,
  call_string pop_file (bs "getBuiltInForLanguage") l = Some (RPop np b) ->
  exists f t body key, called pop_file (bs "getBuiltInForLanguage") l = Some f /\
    comments_in 2 pop_source f = [t] /\ gen_rule t = Ok (body, key, np) /\ is_body body b.
Proof.
  intros l np b.
  assert (G : find_fun pop_file (bs "getBuiltInForLanguage") =
    Some (FSwitch (cases_of pop_file (bs "getBuiltInForLanguage")) RNil)) by (vm_compute; reflexivity).
  rewrite (called_eq _ _ l _ _ G), (call_string_eq _ _ l _ _ G). clear G.
  generalize gen_cases_ok. generalize (cases_of pop_file (bs "getBuiltInForLanguage")). intros cs F.
  induction F as [|[k g] cs (f & np' & b' & t & body & key & E1 & E2 & E3 & E4 & E5) F IH];
    [discriminate|].
  cbn [find_case fst snd] in *. destruct (existsb (beq l) k); [|exact IH]. subst g.
  cbn [resolve]. rewrite E2. intro X. injection X as <- <-. exists f, t, body, key.
  repeat split; auto. apply same_body_is. exact E5.
Qed.

(** One case of the switch over headers: the key of a header quoted for a
    language or of an additional rule. *)
Definition sources : list bytes := map (fun p => bs (fst p)) doc_table ++ extra_rules.
Definition raw_source (k : bytes) : bytes :=
  match find (fun t => match gen_rule t with Ok (_, key, _) => beq key k | _ => false end) sources with
  | Some t => t
  | None => []
  end.
Definition raw_case_ok (x : list bytes * gret) : Prop :=
  exists k t np b body, fst x = [k] /\ resolve pop_file (snd x) = Some (RPop np b) /\
    existsb (beq t) sources = true /\ gen_rule t = Ok (body, k, np) /\ same_body b body.
Lemma raw_cases_ok : Forall raw_case_ok (cases_of pop_file (bs "getBuiltInForRawRule")).
Proof.
  let c := eval vm_compute in (cases_of pop_file (bs "getBuiltInForRawRule")) in
  change (cases_of pop_file (bs "getBuiltInForRawRule")) with c.
  repeat (apply Forall_cons;
    [match goal with |- raw_case_ok ([?k], _) =>
       let t := eval vm_compute in (raw_source k) in
       exists k, t; eexists; eexists; eexists; split; [reflexivity|];
       split; [vm_compute; reflexivity|]; split; [vm_compute; reflexivity|];
       split; [vm_compute; reflexivity|]; eexists; split; [vm_compute; reflexivity|];
       vm_compute; reflexivity
     end|]).
  apply Forall_nil.
Qed.
Lemma pop_raw_generated : forall k np b,
  call_string pop_file (bs "getBuiltInForRawRule") k = Some (RPop np b) ->
  exists t body, (In t (map (fun p => bs (fst p)) doc_table) \/ In t extra_rules) /\
    gen_rule t = Ok (body, k, np) /\ is_body body b.
Proof.
  intros k np b.
  assert (G : find_fun pop_file (bs "getBuiltInForRawRule") =
    Some (FSwitch (cases_of pop_file (bs "getBuiltInForRawRule")) RNil)) by (vm_compute; reflexivity).
  rewrite (call_string_eq _ _ k _ _ G). clear G.
  generalize raw_cases_ok. generalize (cases_of pop_file (bs "getBuiltInForRawRule")). intros cs F.
  induction F as [|[l g] cs (k' & t & np' & b' & body & E1 & E2 & E3 & E4 & E5) F IH]; [discriminate|].
  cbn [find_case fst snd] in *. subst l. destruct (existsb (beq k) [k']) eqn:Q; [|exact IH].
  cbn [existsb] in Q. rewrite orb_false_r in Q. apply beq_eq in Q. subst k'. rewrite E2.
  intro X. injection X as <- <-. exists t, body. split; [|split; [exact E4|apply same_body_is; exact E5]].
  apply in_app_or. apply existsb_exists in E3 as (t' & I & Q). apply beq_eq in Q. subst t'. exact I.
Qed.
