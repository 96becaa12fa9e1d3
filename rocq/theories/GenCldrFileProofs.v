(** The generated file of CLDR rules is what the generator writes for the quoted
    conditions. *)
From Coq Require Import String Ascii List ZArith QArith Bool Lia.
From Verif Require Import Base BaseProofs NumModel F64Model CldrModel CldrBuiltin CldrSpec CldrRules CldrEvalProofs
  CldrParseProofs CldrBuiltinProofs CldrTextProofs GoSpec CldrSource GoSourceProofs GenModel GoProofs GenSpec GenCldrProofs.
Import ListNotations.
Open Scope Z_scope.

Definition read_cond (c : cond) : option gexp :=
  match gen_cnode (node_of c) with
  | Ok g =>
      match go_tokens g with
      | Some ts => match gexpr (20 + length ts) 4 ts with Some (E, []) => Some E | _ => None end
      | None => None
      end
  | _ => None
  end.
Fixpoint read_body (rules : list (category * cond)) : option (list gstmt) :=
  match rules with
  | [] => Some [SReturn (GName (bs "Other"))]
  | (k, c) :: r =>
      match read_cond c, read_body r with
      | Some E, Some l => Some (SIf E [SReturn (GName (category_name k))] :: l)
      | _, _ => None
      end
  end.
Lemma read_body_ok : forall rules b, read_body rules = Some b -> case_body rules b.
Proof.
  induction rules as [|[k c] r IH]; intros b H; cbn [read_body] in H.
  - injection H as <-. exists []. split; [constructor|reflexivity].
  - destruct (read_cond c) as [E|] eqn:RC; [|discriminate].
    destruct (read_body r) as [l|] eqn:RB; [|discriminate]. injection H as <-.
    destruct (IH l eq_refl) as (m & F & ->).
    exists (SIf E [SReturn (GName (category_name k))] :: m). split; [|reflexivity].
    constructor; [|exact F]. unfold read_cond in RC.
    destruct (gen_cnode (node_of c)) as [g| | |] eqn:GC; try discriminate.
    destruct (go_tokens g) as [ts|] eqn:GT; [|discriminate].
    destruct (gexpr (20 + length ts) 4 ts) as [[E' [|? ?]]|] eqn:GE; try discriminate. injection RC as ->.
    exists g, E. split; [exact GC|]. split; [|reflexivity]. exists ts, (20 + length ts)%nat. auto.
Qed.

Lemma cldr_bodies : Forall2
  (fun (x : list bytes * gret) (y : list bytes * list (category * bytes * cond)) => fst x = fst y /\
     exists f cs b, snd x = RCall f /\ comments_in 3 cldr_source f = map (fun z => snd (fst z)) (snd y) /\
       find_fun cldr_file f = Some (FReturn (RCldr cs b)) /\ read_body (row_rules (snd y)) = Some b)
  (cases_of cldr_file (bs "getBuiltInForLanguage")) cldr_rules.
Proof.
  let c := eval vm_compute in (cases_of cldr_file (bs "getBuiltInForLanguage")) in
  change (cases_of cldr_file (bs "getBuiltInForLanguage")) with c.
  unfold cldr_rules.
  repeat (apply Forall2_cons;
    [cbn [fst snd]; split; [vm_compute; reflexivity|]; eexists; eexists; eexists; split; [reflexivity|];
     split; [vm_compute; reflexivity|]; split; [vm_compute; reflexivity|]; vm_compute; reflexivity|]).
  apply Forall2_nil.
Qed.

Fixpoint one_rangeb (c : cond) : bool :=
  match c with
  | Rel _ e l => match x_op e with On => true | _ => (length (filter is_range l) <=? 1)%nat end
  | And a b | Or a b => one_rangeb a && one_rangeb b
  end.
Lemma one_rangeb_ok : forall c, one_rangeb c = true -> one_range c.
Proof.
  induction c as [neg e l|a IHa b IHb|a IHa b IHb]; cbn [one_rangeb one_range]; intro H.
  - destruct (x_op e); [left; reflexivity|..]; right; apply Nat.leb_le; exact H.
  - apply andb_true_iff in H as [H1 H2]. auto.
  - apply andb_true_iff in H as [H1 H2]. auto.
Qed.
Lemma rows_one_range : forallb (fun b => forallb (fun r => one_rangeb (snd r)) (row_rules (snd b))) cldr_rules = true.
Proof. vm_compute. reflexivity. Qed.
Lemma row_class : forall ls rs, In (ls, rs) cldr_rules ->
  Forall (fun r => cond_small (snd r) /\ one_range (snd r)) (row_rules rs).
Proof.
  intros ls rs I1. apply Forall_forall. intros [c cd] I2. cbn [snd]. split.
  - unfold row_rules in I2. apply in_map_iff in I2 as ([[c' t] cd'] & E & I2).
    cbn [fst snd] in E. inversion E; subst. exact (proj2 (proj2 (row_text _ _ _ _ _ I1 I2))).
  - pose proof rows_one_range as H. rewrite forallb_forall in H. specialize (H _ I1). cbn [snd] in H.
    rewrite forallb_forall in H. apply one_rangeb_ok. exact (H _ I2).
Qed.

Lemma cldr_file_generated : forall l cs b,
  call_string cldr_file (bs "getBuiltInForLanguage") l = Some (RCldr cs b) ->
  exists f rs ls, called cldr_file (bs "getBuiltInForLanguage") l = Some f /\
    comments_in 3 cldr_source f = map (fun z => snd (fst z)) rs /\ In (ls, rs) cldr_rules /\
    case_body (row_rules rs) b.
Proof.
  intros l cs b.
  assert (G : find_fun cldr_file (bs "getBuiltInForLanguage") =
    Some (FSwitch (cases_of cldr_file (bs "getBuiltInForLanguage")) RNil)) by (vm_compute; reflexivity).
  rewrite (called_eq _ _ l _ _ G), (call_string_eq _ _ l _ _ G). clear G.
  generalize cldr_bodies. generalize (cases_of cldr_file (bs "getBuiltInForLanguage")), cldr_rules. intros xs ys F.
  induction F as [|[k g] [k' rs] xs ys [E (f & cs' & b' & E1 & E2 & E3 & E4)] F IH]; [discriminate|].
  cbn [find_case fst snd] in *. destruct (existsb (beq l) k).
  - subst g. cbn [resolve]. rewrite E3. intro X. injection X as <- <-. exists f, rs, k'.
    split; [reflexivity|]. split; [exact E2|]. split; [now left|]. apply read_body_ok. exact E4.
  - intro X. destruct (IH X) as (f' & rs' & ls' & A1 & A2 & A3 & A4). exists f', rs', ls'.
    split; [exact A1|]. split; [exact A2|]. split; [now right|exact A4].
Qed.

(** Lines of the input. *)
Definition has_lf (s : bytes) : bool := existsb (Ascii.eqb LF) s.
Lemma no_lf : forall s, has_lf s = false -> ~ In LF s.
Proof.
  intros s H I. enough (has_lf s = true) by congruence. apply existsb_exists. exists LF.
  split; [exact I|reflexivity].
Qed.
Lemma spelled_line : forall c, is_or c -> cond_print c -> has_lf (cond_text c) = false ->
  rule_line c (cond_text c ++ bs " @integer 1").
Proof.
  intros c O P N. destruct (cond_text_toks c P) as (ts & T & HS).
  exists ts, [bs "@integer"; bs "1"]. split; [exact O|]. split; [exact T|]. split; [discriminate|].
  split; [|split].
  - split; [now left|]. constructor; [apply ST_mark; now left|]. constructor; [|constructor].
    change (bs "1") with (nm_text (Num false (bs "1") None None)). apply ST_num.
    repeat split; try discriminate; [repeat constructor|constructor|right; discriminate].
  - apply spaced_app; [exact HS| |exists SP; eexists; split; [reflexivity|now left]].
    exact (spaced_sp (bs "@integer") _ _ (spaced_one (bs "1"))).
  - apply no_lf. unfold has_lf in *. rewrite existsb_app, N. reflexivity.
Qed.
Definition elem_printb (e : elem) : bool :=
  match e with Val v => 0 <=? v | Range a b => (0 <=? a) && (a <=? b) && (0 <? b) end.
Fixpoint cond_printb (c : cond) : bool :=
  match c with
  | Rel _ e l => match x_mod e with Some m => 0 <=? m | None => true end &&
      match l with [] => false | _ => true end && forallb elem_printb l
  | And a b | Or a b => cond_printb a && cond_printb b
  end.
Lemma cond_printb_ok : forall c, cond_printb c = true -> cond_print c.
Proof.
  induction c as [neg e l|a IHa b IHb|a IHa b IHb]; cbn [cond_printb cond_print]; intro H.
  - apply andb_true_iff in H as [H H3]. apply andb_true_iff in H as [H1 H2]. split; [|split].
    + destruct (x_mod e); [apply Z.leb_le; exact H1|exact I].
    + destruct l; [discriminate|discriminate].
    + apply Forall_forall. intros x J. rewrite forallb_forall in H3. specialize (H3 x J).
      destruct x as [v|a b]; cbn [elem_printb elem_print] in *; [apply Z.leb_le; exact H3|].
      apply andb_true_iff in H3 as [H3 H4]. apply andb_true_iff in H3 as [H3 H5].
      apply Z.leb_le in H3. apply Z.ltb_lt in H4. apply Z.leb_le in H5. lia.
  - apply andb_true_iff in H as [H1 H2]. auto.
  - apply andb_true_iff in H as [H1 H2]. auto.
Qed.
Lemma rows_print : forallb (fun b => forallb (fun r => cond_printb (snd r) && negb (has_lf (cond_text (snd r))))
  (row_rules (snd b))) cldr_rules = true.
Proof. vm_compute. reflexivity. Qed.
Lemma row_lines : forall ls rs, In (ls, rs) cldr_rules ->
  Forall2 (fun r t => fst r = fst t /\ rule_line (snd r) (snd t)) (row_rules rs)
    (map (fun r => (fst r, (cond_text (snd r) ++ bs " @integer 1")%list)) (row_rules rs)).
Proof.
  intros ls rs I1. assert (F : Forall (fun r => rule_line (snd r) (cond_text (snd r) ++ bs " @integer 1")) (row_rules rs)).
  { apply Forall_forall. intros [c cd] I2. cbn [snd].
    pose proof rows_print as H. rewrite forallb_forall in H. specialize (H _ I1). cbn [snd] in H.
    rewrite forallb_forall in H. specialize (H _ I2). cbn [snd] in H. apply andb_true_iff in H as [H1 H2].
    apply spelled_line; [|apply cond_printb_ok; exact H1|apply negb_true_iff; exact H2].
    unfold row_rules in I2. apply in_map_iff in I2 as ([[c' t] cd'] & E & I2).
    cbn [fst snd] in E. inversion E; subst. exact (proj1 (proj2 (row_text _ _ _ _ _ I1 I2))). }
  induction F as [|r l R F IH]; [constructor|]. cbn [map]. constructor; [split; [reflexivity|exact R]|exact IH].
Qed.
