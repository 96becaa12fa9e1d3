(** The generated rule files, read as Go, are the tables of the model. *)
From Coq Require Import String Ascii List ZArith QArith Bool Lia.
From Verif Require Import Base BaseProofs PopModel PopBuiltin NumModel F64Model CldrModel CldrBuiltin
  CldrSpec CldrRules CldrEvalProofs
  CldrBuiltinProofs GoSpec PopSource CldrSource.
Import ListNotations.
Open Scope Z_scope.

Definition file_of (l : list string) : gfile :=
  match go_file (text_of_lines l) with Some f => f | None => [] end.
Definition pop_file := Eval vm_compute in file_of pop_source.
Definition cldr_file := Eval vm_compute in file_of cldr_source.

Lemma pop_file_read : go_file (text_of_lines pop_source) = Some pop_file.
Proof. vm_compute. reflexivity. Qed.
Lemma cldr_file_read : go_file (text_of_lines cldr_source) = Some cldr_file.
Proof. vm_compute. reflexivity. Qed.

(** A returned value and a rule of the model. *)
Definition pop_agrees (g : option gret) (r : option rule) : Prop :=
  match g, r with
  | Some RNil, None => True
  | Some (RPop np b), Some r => np = r_nplurals r /\ pop_function b (r_form r)
  | _, _ => False
  end.
Definition cldr_agrees (g : option gret) (r : option rule_set) : Prop :=
  match g, r with
  | Some RNil, None => True
  | Some (RCldr cs b), Some r =>
      map cat_of cs = map Some (rs_categories r) /\ cldr_function b (rs_form r)
  | _, _ => False
  end.

Lemma existsb_beq_sym : forall s l, existsb (beq s) l = existsb (fun k => beq k s) l.
Proof.
  intros s l. induction l as [|a l IH]; [reflexivity|]. cbn [existsb]. rewrite IH.
  f_equal. apply eq_true_iff_eq. rewrite !beq_eq. split; congruence.
Qed.
Lemma existsb_map : forall (f : bytes -> bool) l,
  existsb f (map bs l) = existsb (fun k => f (bs k)) l.
Proof. intros f l. induction l as [|a l IH]; [reflexivity|]. cbn [existsb map]. rewrite IH. reflexivity. Qed.

Lemma raw_rows : forall fs cs d tb, resolve fs d = Some RNil ->
  Forall2 (fun x y => fst x = [bs (fst y)] /\ pop_agrees (resolve fs (snd x)) (Some (snd y))) cs tb ->
  forall s, pop_agrees (resolve fs (find_case cs d s)) (lookup_raw tb s).
Proof.
  intros fs cs d tb D F s. induction F as [|[l g] [k r] cs tb [E A] F IH].
  - cbn [find_case lookup_raw]. rewrite D. exact I.
  - cbn [find_case lookup_raw fst snd] in *. subst l. cbn [existsb]. rewrite orb_false_r.
    replace (beq s (bs k)) with (beq (bs k) s).
    + destruct (beq (bs k) s); [exact A|exact IH].
    + apply eq_true_iff_eq. rewrite !beq_eq. split; congruence.
Qed.
Lemma lang_rows : forall fs cs d tb, resolve fs d = Some RNil ->
  Forall2 (fun x y => fst x = map bs (fst y) /\ pop_agrees (resolve fs (snd x)) (Some (snd y))) cs tb ->
  forall s, pop_agrees (resolve fs (find_case cs d s)) (lookup_lang tb s).
Proof.
  intros fs cs d tb D F s. induction F as [|[l g] [k r] cs tb [E A] F IH].
  - cbn [find_case lookup_lang]. rewrite D. exact I.
  - cbn [find_case lookup_lang fst snd] in *. subst l.
    rewrite existsb_beq_sym, existsb_map.
    destruct (existsb (fun k' => beq (bs k') s) k); [exact A|exact IH].
Qed.
Lemma cldr_rows : forall fs cs d tb, resolve fs d = Some RNil ->
  Forall2 (fun x y => fst x = fst y /\ cldr_agrees (resolve fs (snd x)) (Some (snd y))) cs tb ->
  forall s, cldr_agrees (resolve fs (find_case cs d s)) (cldr_find tb s).
Proof.
  intros fs cs d tb D F s. induction F as [|[l g] [k r] cs tb [E A] F IH].
  - cbn [find_case cldr_find]. rewrite D. exact I.
  - cbn [find_case cldr_find fst snd] in *. subst l.
    destruct (existsb (beq s) k); [exact A|exact IH].
Qed.

Definition cases_of (fs : gfile) (f : bytes) : list (list bytes * gret) :=
  match find_fun fs f with Some (FSwitch cs _) => cs | _ => [] end.
Definition default_of (fs : gfile) (f : bytes) : gret :=
  match find_fun fs f with Some (FSwitch _ d) => d | _ => RCall [] end.
Lemma call_string_eq : forall fs f s cs d, find_fun fs f = Some (FSwitch cs d) ->
  call_string fs f s = resolve fs (find_case cs d s).
Proof. intros fs f s cs d E. unfold call_string. rewrite E. reflexivity. Qed.

(* One row: the function called is looked up, the bodies are compared. *)
Ltac by_cases :=
  repeat match goal with
  | |- context [if ?c then _ else _] => destruct c; cbv iota beta; try reflexivity
  end; try reflexivity.
Lemma pop_env_n : forall n, pop_env n ["n"%char] = VInt n.
Proof. reflexivity. Qed.

Ltac pop_row :=
  split; [vm_compute; reflexivity|];
  match goal with |- pop_agrees ?g _ => let g' := eval vm_compute in g in change g with g' end;
  split; [reflexivity|]; split; [vm_compute; reflexivity|]; let k := fresh in intro k;
  cbn [run run_stmt geval]; rewrite ?pop_env_n; cbv [ev_bin cmp_int];
  cbn -[Z.rem Z.eqb Z.ltb Z.leb Z.gtb Z.geb andb orb negb]; by_cases.

Lemma cldr_env_names : forall o,
  cldr_env o (bs "ops.N") = VFloat (oN o) /\ cldr_env o (bs "ops.I") = VInt (oI o) /\
  cldr_env o (bs "ops.V") = VInt (oV o) /\ cldr_env o (bs "ops.W") = VInt (oW o) /\
  cldr_env o (bs "ops.F") = VInt (oF o) /\ cldr_env o (bs "ops.T") = VInt (oT o) /\
  cldr_env o (bs "ops.C") = VInt (oC o) /\
  cldr_env o (bs "Zero") = VCat Zero /\ cldr_env o (bs "One") = VCat One /\
  cldr_env o (bs "Two") = VCat Two /\ cldr_env o (bs "Few") = VCat Few /\
  cldr_env o (bs "Many") = VCat Many /\ cldr_env o (bs "Other") = VCat Other.
Proof. intro o. repeat split; reflexivity. Qed.
Lemma call_mod : forall x m, ev_call (bs "math.Mod") [VFloat x; VInt m] =
  match m with 0 => VPanic | _ => VFloat (fmod x (f64_of_int m)) end.
Proof. reflexivity. Qed.
Lemma call_in_range : forall x l, ev_call (bs "isFloatInRange") (VFloat x :: l) =
  match ints l with
  | Some zs => match pairs zs with Some ps => VBool (is_float_in_range x ps) | None => VPanic end
  | None => VPanic
  end.
Proof. reflexivity. Qed.
Lemma call_one_of : forall x l, ev_call (bs "isFloatOneOf") (VFloat x :: l) =
  match ints l with Some zs => VBool (is_float_one_of x zs) | None => VPanic end.
Proof. reflexivity. Qed.
Lemma call_contains : forall l x,
  ev_call (bs "slices.Contains") [VInts l; VInt x] = VBool (contains l x).
Proof. reflexivity. Qed.

Ltac cldr_row :=
  split; [vm_compute; reflexivity|];
  match goal with |- cldr_agrees ?g _ => let g' := eval vm_compute in g in change g with g' end;
  split; [vm_compute; reflexivity|]; split; [vm_compute; reflexivity|];
  let o := fresh in let H := fresh in intro o; pose proof (cldr_env_names o) as H;
  pose proof call_mod as CM; pose proof call_in_range as CR; pose proof call_one_of as CO;
  pose proof call_contains as CC;
  unfold bs in H, CM, CR, CO, CC; cbn [list_ascii_of_string] in H, CM, CR, CO, CC;
  destruct H as (EN & EI & EV & EW & EF & ET & EC & E0 & E1 & E2 & E3 & E4 & E5);
  cbn [run run_stmt geval map]; rewrite ?EN, ?EI, ?EV, ?EW, ?EF, ?ET, ?EC, ?E0, ?E1, ?E2, ?E3, ?E4, ?E5;
  clear EN EI EV EW EF ET EC E0 E1 E2 E3 E4 E5;
  rewrite ?CM; cbv iota; rewrite ?CR, ?CO; cbv [ev_bin cmp_int cmp_float ints pairs];
  rewrite ?CC; clear CM CR CO CC; cbv iota;
  cbn -[Z.rem Z.eqb Z.ltb Z.leb Z.gtb Z.geb andb orb negb fmod is_float_in_range is_float_one_of
        contains Qeq_bool Qle_bool inject_Z];
  repeat match goal with
  | |- context [f64_of_int ?k] => let v := eval vm_compute in (f64_of_int k) in change (f64_of_int k) with v
  end;
  unfold neq_const, qeq; by_cases.

Lemma pop_raw_rows : Forall2
  (fun x y => fst x = [bs (fst y)] /\ pop_agrees (resolve pop_file (snd x)) (Some (snd y)))
  (cases_of pop_file (bs "getBuiltInForRawRule")) raw_table.
Proof.
  let c := eval vm_compute in (cases_of pop_file (bs "getBuiltInForRawRule")) in
  change (cases_of pop_file (bs "getBuiltInForRawRule")) with c.
  unfold raw_table. repeat (apply Forall2_cons; [cbn [fst snd]; pop_row|]). apply Forall2_nil.
Qed.

Lemma pop_lang_rows : Forall2
  (fun x y => fst x = map bs (fst y) /\ pop_agrees (resolve pop_file (snd x)) (Some (snd y)))
  (cases_of pop_file (bs "getBuiltInForLanguage")) lang_table.
Proof.
  let c := eval vm_compute in (cases_of pop_file (bs "getBuiltInForLanguage")) in
  change (cases_of pop_file (bs "getBuiltInForLanguage")) with c.
  unfold lang_table. repeat (apply Forall2_cons; [cbn [fst snd]; pop_row|]). apply Forall2_nil.
Qed.

Lemma cldr_lang_rows : Forall2
  (fun x y => fst x = fst y /\ cldr_agrees (resolve cldr_file (snd x)) (Some (snd y)))
  (cases_of cldr_file (bs "getBuiltInForLanguage")) cldr_table.
Proof.
  let c := eval vm_compute in (cases_of cldr_file (bs "getBuiltInForLanguage")) in
  change (cases_of cldr_file (bs "getBuiltInForLanguage")) with c.
  unfold cldr_table. repeat (apply Forall2_cons; [cbn [fst snd]; cldr_row|]). apply Forall2_nil.
Qed.

Lemma pop_raw_source : forall s,
  pop_agrees (call_string pop_file (bs "getBuiltInForRawRule") s) (built_in_raw s).
Proof.
  intro s. rewrite (call_string_eq pop_file _ s (cases_of pop_file (bs "getBuiltInForRawRule")) RNil)
    by (vm_compute; reflexivity).
  apply raw_rows; [reflexivity|apply pop_raw_rows].
Qed.
Lemma pop_lang_source : forall s,
  pop_agrees (call_string pop_file (bs "getBuiltInForLanguage") s) (built_in_lang s).
Proof.
  intro s. rewrite (call_string_eq pop_file _ s (cases_of pop_file (bs "getBuiltInForLanguage")) RNil)
    by (vm_compute; reflexivity).
  apply lang_rows; [reflexivity|apply pop_lang_rows].
Qed.
Lemma cldr_lang_source : forall s,
  cldr_agrees (call_string cldr_file (bs "getBuiltInForLanguage") s) (cldr_built_in s).
Proof.
  intro s. rewrite (call_string_eq cldr_file _ s (cases_of cldr_file (bs "getBuiltInForLanguage")) RNil)
    by (vm_compute; reflexivity).
  apply cldr_rows; [reflexivity|apply cldr_lang_rows].
Qed.

Lemma pop_file_ok : file_ok pop_file = true.
Proof. vm_compute. reflexivity. Qed.
Lemma cldr_file_ok : file_ok cldr_file = true.
Proof. vm_compute. reflexivity. Qed.

(** The header quoted in the constructor a language is mapped to. *)
Lemma pop_lang_comments : Forall2
  (fun (x : list bytes * gret) (y : list string * rule) => fst x = map bs (fst y) /\
     exists f t, snd x = RCall f /\ comments_in 2 pop_source f = [bs t] /\ In (t, snd y) doc_table)
  (cases_of pop_file (bs "getBuiltInForLanguage")) lang_table.
Proof.
  let c := eval vm_compute in (cases_of pop_file (bs "getBuiltInForLanguage")) in
  change (cases_of pop_file (bs "getBuiltInForLanguage")) with c.
  unfold lang_table.
  repeat (apply Forall2_cons;
    [cbn [fst snd]; split; [vm_compute; reflexivity|];
     match goal with |- exists f t, RCall ?g = _ /\ _ /\ _ =>
       let t := eval vm_compute in
         (match comments_in 2 pop_source g with t :: _ => string_of_list_ascii t | [] => EmptyString end) in
       exists g, t; split; [reflexivity|]; split; [vm_compute; reflexivity|]
     end; unfold doc_table; repeat (first [left; reflexivity|right])|]).
  apply Forall2_nil.
Qed.
Lemma called_eq : forall fs f s cs d, find_fun fs f = Some (FSwitch cs d) ->
  called fs f s = match find_case cs d s with RCall g => Some g | _ => None end.
Proof. intros fs f s cs d E. unfold called. rewrite E. reflexivity. Qed.
Lemma pop_lang_comment : forall s r, built_in_lang s = Some r ->
  exists f t, called pop_file (bs "getBuiltInForLanguage") s = Some f /\
    comments_in 2 pop_source f = [bs t] /\ In (t, r) doc_table.
Proof.
  intros s r. rewrite (called_eq pop_file _ s (cases_of pop_file (bs "getBuiltInForLanguage")) RNil)
    by (vm_compute; reflexivity).
  unfold built_in_lang. generalize pop_lang_comments. generalize lang_table.
  generalize (cases_of pop_file (bs "getBuiltInForLanguage")).
  intros cs tb F. induction F as [|[l g] [k r'] cs tb [E (f & t & E1 & E2 & E3)] F IH]; [discriminate|].
  cbn [find_case lookup_lang fst snd] in *. subst l g. rewrite existsb_beq_sym, existsb_map.
  destruct (existsb (fun k0 => beq (bs k0) s) k); [|exact IH].
  intro X. injection X as <-. exists f, t. auto.
Qed.

Definition cats_of (g : option gret) : list (option category) :=
  match g with Some (RCldr cs _) => map cat_of cs | _ => [] end.
Lemma cldr_lang_comments : Forall2
  (fun (x : list bytes * gret) (y : list bytes * list (category * bytes * cond)) => fst x = fst y /\
     exists f, snd x = RCall f /\ comments_in 3 cldr_source f = map (fun z => snd (fst z)) (snd y) /\
       cats_of (resolve cldr_file (snd x)) = map Some (map (fun z => fst (fst z)) (snd y) ++ [Other]))
  (cases_of cldr_file (bs "getBuiltInForLanguage")) cldr_rules.
Proof.
  let c := eval vm_compute in (cases_of cldr_file (bs "getBuiltInForLanguage")) in
  change (cases_of cldr_file (bs "getBuiltInForLanguage")) with c.
  unfold cldr_rules.
  repeat (apply Forall2_cons;
    [cbn [fst snd]; split; [vm_compute; reflexivity|]; eexists; split; [reflexivity|];
     split; vm_compute; reflexivity|]).
  apply Forall2_nil.
Qed.

(** One language: the conditions quoted in its constructor, their categories. *)
Lemma cldr_lang_row : forall s r, cldr_built_in s = Some r ->
  exists f rs, called cldr_file (bs "getBuiltInForLanguage") s = Some f /\
    comments_in 3 cldr_source f = map (fun z => snd (fst z)) rs /\
    cats_of (call_string cldr_file (bs "getBuiltInForLanguage") s) =
      map Some (map (fun z => fst (fst z)) rs ++ [Other]) /\
    (exists ls, In (ls, rs) cldr_rules) /\ row_ok ([], r) ([], rs).
Proof.
  intros s r. pose proof rows_ok as R. pose proof cldr_lang_comments as F.
  assert (G : find_fun cldr_file (bs "getBuiltInForLanguage") =
    Some (FSwitch (cases_of cldr_file (bs "getBuiltInForLanguage")) RNil)) by (vm_compute; reflexivity).
  rewrite (called_eq _ _ s _ _ G), (call_string_eq _ _ s _ _ G). clear G.
  unfold cldr_built_in. revert F R. generalize cldr_rules, cldr_table.
  generalize (cases_of cldr_file (bs "getBuiltInForLanguage")).
  intros cs tb rt F. revert rt.
  induction F as [|[l g] [k rs] cs tb [E (f & E1 & E2 & E3)] F IH]; intros rt R.
  - inversion R; subst. discriminate.
  - inversion R as [|[k' r'] y rt' tb' [Q1 Q2] R']; subst. cbn [find_case cldr_find fst snd] in *. subst.
    destruct (existsb (beq s) k) eqn:X.
    + intro Y. injection Y as <-. exists f, rs. split; [reflexivity|]. split; [exact E2|]. split; [exact E3|].
      split; [exists k; now left|]. split; [reflexivity|exact Q2].
    + intro Y. destruct (IH _ R' Y) as (f' & rs' & A & B & C & (ls & D) & E).
      exists f', rs'. repeat split; auto; [exists ls; now right|exact (proj2 E)].
Qed.
