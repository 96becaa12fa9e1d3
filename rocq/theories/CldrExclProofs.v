(** Proofs that the conditions of a language exclude each other. *)
From Coq Require Import String Ascii List ZArith QArith Qround Qabs Bool Lia ZifyBool Permutation.
From Verif Require Import Base BaseProofs Utf8Model Utf8Proofs StrModel PopModel NumModel NumProofs F64Model
  F64Proofs ReModel ReProofs CldrModel CldrBuiltin CldrSpec CldrRules CldrExclSpec CldrEvalProofs CldrOperandProofs
  CldrBuiltinProofs CldrParseProofs CldrSampleProofs CldrTotalProofs CldrTextProofs TheoremsCldr.
Import ListNotations.
Open Scope Z_scope.

(** ** Conditions over the integers *)
(** [fr]: the number is not an integer; no relation with n holds then. *)
Definition zval (o : oper) (i v w f t e : Z) : Z :=
  match o with On => i | Oi => i | Ov => v | Ow => w | Of => f | Ot => t | Oc | Oe => e end.
Definition zexpr (x : expr) (i v w f t e : Z) : Z :=
  let z := zval (x_op x) i v w f t e in match x_mod x with None => z | Some m => z mod m end.
Fixpoint zelems (z : Z) (l : list elem) : Prop :=
  match l with
  | [] => False
  | Val a :: l' => z = a \/ zelems z l'
  | Range a b :: l' => a <= z <= b \/ zelems z l'
  end.
Fixpoint zholds (fr : bool) (c : cond) (i v w f t e : Z) : Prop :=
  match c with
  | Rel neg x l =>
      match x_op x, fr with
      | On, true => if neg then True else False
      | _, _ => if neg then ~ zelems (zexpr x i v w f t e) l else zelems (zexpr x i v w f t e) l
      end
  | And a b => zholds fr a i v w f t e /\ zholds fr b i v w f t e
  | Or a b => zholds fr a i v w f t e \/ zholds fr b i v w f t e
  end.
Fixpoint moduli_ok (c : cond) : Prop :=
  match c with
  | Rel _ x _ => match x_mod x with Some m => 0 < m | None => True end
  | And a b | Or a b => moduli_ok a /\ moduli_ok b
  end.

Lemma zelems_iff q z l : (q == inject_Z z)%Q -> (Exists (elem_holds q) l <-> zelems z l).
Proof.
  intro Q. induction l as [|x l IH]; cbn [zelems].
  - split; [intro H; inversion H|intros []].
  - rewrite Exists_cons, IH. destruct x as [a|a b]; cbn [elem_holds].
    + rewrite Q, inject_Z_injective. tauto.
    + split; (intros [H|H]; [left|right; exact H]).
      * destruct H as (y & B & H). rewrite Q in H. apply (proj1 (inject_Z_injective _ _)) in H. rewrite H. exact B.
      * exists z. split; [exact H|exact Q].
Qed.
Lemma zmod_val z m : 0 < m -> (inject_Z z - inject_Z (m * Qfloor (inject_Z z / inject_Z m)) == inject_Z (z mod m))%Q.
Proof.
  intro P. assert (F : Qfloor (inject_Z z / inject_Z m) = z / m).
  { unfold Qdiv, Qinv, inject_Z, Qmult, Qfloor. cbn [Qnum Qden]. destruct m; try lia. cbn [Qnum Qden]. rewrite Pos.mul_1_l, Z.mul_1_r. reflexivity. }
  rewrite F. rewrite <- inject_Z_opp, <- inject_Z_plus || (unfold Qminus; rewrite <- inject_Z_opp, <- inject_Z_plus).
  apply inject_Z_injective. rewrite (Z.div_mod z m) at 1 by lia. lia.
Qed.
Lemma zexpr_val x u z : (oper_val (x_op x) u == inject_Z z)%Q -> match x_mod x with Some m => 0 < m | None => True end ->
  (expr_val x u == inject_Z (match x_mod x with None => z | Some m => z mod m end))%Q.
Proof.
  intros Q P. unfold expr_val. destruct (x_mod x) as [m|]; [|exact Q].
  rewrite <- (zmod_val z m P). assert (F : Qfloor (oper_val (x_op x) u / inject_Z m) = Qfloor (inject_Z z / inject_Z m)).
  { apply Qfloor_comp. now rewrite Q. }
  rewrite F, Q. reflexivity.
Qed.
(** a number that is no integer *)
Lemma fraction_expr x u : (forall z, ~ (oper_val (x_op x) u == inject_Z z)%Q) -> forall l, ~ Exists (elem_holds (expr_val x u)) l.
Proof.
  intros N l H. assert (X : forall z, ~ (expr_val x u == inject_Z z)%Q).
  { intros z Q. unfold expr_val in Q. destruct (x_mod x) as [m|]; [|exact (N z Q)].
    apply (N (z + m * Qfloor (oper_val (x_op x) u / inject_Z m))). rewrite inject_Z_plus, <- Q. ring. }
  apply Exists_exists in H as (y & _ & H). destruct y as [a|a b]; cbn [elem_holds] in H; [exact (X a H)|].
  destruct H as (z & _ & H). exact (X z H).
Qed.

Lemma zholds_iff c u : moduli_ok c ->
  ((un u == inject_Z (ui u))%Q -> (holds c u <-> zholds false c (ui u) (uv u) (uw u) (uf u) (ut u) (uc u))) /\
  ((forall z, ~ (un u == inject_Z z)%Q) -> (holds c u <-> zholds true c (ui u) (uv u) (uw u) (uf u) (ut u) (uc u))).
Proof.
  induction c as [neg x l|a IHa b IHb|a IHa b IHb]; cbn [moduli_ok holds zholds].
  - intro M. split; intro N.
    + assert (V : (oper_val (x_op x) u == inject_Z (zval (x_op x) (ui u) (uv u) (uw u) (uf u) (ut u) (uc u)))%Q).
      { destruct (x_op x); cbn [oper_val zval]; try reflexivity. exact N. }
      pose proof (zelems_iff _ _ l (zexpr_val x u _ V M)) as Z. fold (zexpr x (ui u) (uv u) (uw u) (uf u) (ut u) (uc u)) in Z.
      destruct (x_op x), neg; rewrite Z; tauto.
    + destruct (x_op x) eqn:O.
      1:{ assert (F : forall l, ~ Exists (elem_holds (expr_val x u)) l) by (apply fraction_expr; rewrite O; exact N).
          specialize (F l). destruct neg; tauto. }
      all: (assert (V : (oper_val (x_op x) u == inject_Z (zval (x_op x) (ui u) (uv u) (uw u) (uf u) (ut u) (uc u)))%Q)
              by (rewrite O; reflexivity));
           pose proof (zelems_iff _ _ l (zexpr_val x u _ V M)) as Z; fold (zexpr x (ui u) (uv u) (uw u) (uf u) (ut u) (uc u)) in Z;
           destruct neg; rewrite Z; tauto.
  - intros [A B]. destruct (IHa A) as [A1 A2], (IHb B) as [B1 B2]. split; intro N; [rewrite (A1 N), (B1 N)|rewrite (A2 N), (B2 N)]; tauto.
  - intros [A B]. destruct (IHa A) as [A1 A2], (IHb B) as [B1 B2]. split; intro N; [rewrite (A1 N), (B1 N)|rewrite (A2 N), (B2 N)]; tauto.
Qed.

(** ** Exclusion *)
Definition disjoint (lim : bool) (a b : cond) : Prop :=
  (forall i v w e, 0 <= i -> 0 <= v -> 0 <= e /\ (if lim then e <= 5 else True) -> w = 0 -> zholds false a i v w 0 0 e -> zholds false b i v w 0 0 e -> False) /\
  (forall i v w f t e, 0 <= i -> 0 < v -> 0 < w <= v -> 0 < f -> 0 < t -> 0 <= e /\ (if lim then e <= 5 else True) ->
     zholds true a i v w f t e -> zholds true b i v w f t e -> False).
Fixpoint exclusive (lim : bool) (l : list (category * bytes * cond)) : Prop :=
  match l with
  | [] => True
  | x :: l' => moduli_ok (snd x) /\ Forall (fun y => disjoint lim (snd x) (snd y)) l' /\ exclusive lim l'
  end.
Ltac solve_pair :=
  split; [intros i v w e I V E W|intros i v w f t e I V W F T E];
  cbn [zholds zexpr zval zelems x_op x_mod]; Z.to_euclidean_division_equations; lia.
Lemma all_exclusive : Forall (fun r => exclusive (row_exp (snd r)) (snd r)) cldr_rules.
Proof.
  unfold cldr_rules. repeat (apply Forall_cons; [cbn [snd exclusive row_exp existsb uses_exp x_op orb]|]); [..|apply Forall_nil];
  repeat match goal with
  | |- True => exact I
  | |- _ /\ _ => split
  | |- moduli_ok _ => cbn; lia
  | |- Forall _ [] => apply Forall_nil
  | |- Forall _ (_ :: _) => apply Forall_cons; [cbn [snd]|]
  end.
  all: try solve [solve_pair].
Qed.

(** Operands of a numeral: an integer without fraction digits other than 0, or
    no integer and fraction digits other than 0. *)
Lemma operands_cases x u : nm_ok x -> operands_of x u ->
  0 <= ui u /\ 0 <= uv u /\ uc u = Z.of_nat (nm_e x) /\
  (((un u == inject_Z (ui u))%Q /\ uf u = 0 /\ ut u = 0 /\ uw u = 0) \/
   ((forall z, ~ (un u == inject_Z z)%Q) /\ 0 < uv u /\ 0 < uw u <= uv u /\ 0 < uf u /\ 0 < ut u)).
Proof.
  intros OK (N & I & V & F & (W & T & R) & C).
  assert (S0 : 0 <= nm_scaled x).
  { unfold nm_scaled, nm_digits. destruct OK as (_ & D & F'). apply all_digits_b in D.
    assert (FD : forallb is_digit (nm_fdigits x) = true).
    { unfold nm_fdigits. destruct (nm_fp x); [|reflexivity]. apply all_digits_b. tauto. }
    pose proof (dec_val_bound (nm_ip x ++ nm_fdigits x) ltac:(rewrite forallb_app, D, FD; reflexivity)).
    pose proof (p10_pos (nm_e x - length (nm_fdigits x))). nia. }
  assert (P : 0 < p10 (nm_v x)) by (unfold p10; apply Z.pow_pos_nonneg; lia).
  unfold nm_value in *. remember (nm_scaled x) as S. remember (p10 (nm_v x)) as D.
  assert (FL : Qfloor (S # Z.to_pos D) = S / D) by (unfold Qfloor; rewrite Z2Pos.id by lia; reflexivity).
  rewrite FL in I. split; [rewrite I; apply Z.div_pos; lia|]. split; [lia|]. split; [exact C|].
  assert (IZ : forall z, (un u == inject_Z z)%Q <-> S = z * D).
  { intro z. rewrite N. unfold Qeq, inject_Z. cbn [Qnum Qden]. rewrite Z2Pos.id by lia. lia. }
  pose proof (Z.div_mod S D ltac:(lia)) as DM. pose proof (Z.mod_pos_bound S D P) as MB.
  assert (TP : 0 < 10 ^ (uv u - uw u)) by (apply Z.pow_pos_nonneg; lia).
  destruct (Z.eq_dec (uf u) 0) as [Z0|NZ]; [left|right].
  - split; [apply IZ; rewrite I; lia|]. split; [exact Z0|].
    assert (T0 : ut u = 0) by nia. split; [exact T0|]. rewrite T0 in R. destruct R as [R|R]; [exact R|].
    exfalso. apply R. reflexivity.
  - assert (FP : 0 < uf u) by lia. assert (TT : 0 < ut u) by nia.
    assert (WP : uw u <> 0).
    { intro W0. rewrite W0, Z.sub_0_r in T. assert (DV : D = 10 ^ uv u) by (rewrite V; subst D; reflexivity).
      rewrite <- DV in T. nia. }
    split; [|lia]. intros z E. apply IZ in E. rewrite E, Z.mod_mul in F by lia. lia.
Qed.

Lemma exclusive_in lim l : exclusive lim l -> Forall (fun x => moduli_ok (snd x)) l.
Proof. induction l as [|x l IH]; intro H; constructor; destruct H as (A & _ & B); auto. Qed.
Lemma disjoint_holds lim a b x u : disjoint lim a b -> moduli_ok a -> moduli_ok b -> nm_ok x -> (lim = true -> (nm_e x <= 5)%nat) ->
  operands_of x u -> holds a u -> holds b u -> False.
Proof.
  intros [D1 D2] MA MB OK E O HA HB. destruct (operands_cases x u OK O) as (I & V & C & K).
  assert (EX : 0 <= uc u /\ (if lim then uc u <= 5 else True)) by (destruct lim; [specialize (E eq_refl)|]; lia).
  destruct K as [(N & F & T & W)|(N & V' & W & F & T)].
  - apply (proj1 (zholds_iff a u MA) N) in HA. apply (proj1 (zholds_iff b u MB) N) in HB.
    rewrite F, T in HA, HB. exact (D1 _ _ _ _ I V EX W HA HB).
  - apply (proj2 (zholds_iff a u MA) N) in HA. apply (proj2 (zholds_iff b u MB) N) in HB.
    exact (D2 _ _ _ _ _ _ I V' W F T EX HA HB).
Qed.
Lemma exclusive_holds lim l x u p q : exclusive lim l -> nm_ok x -> (lim = true -> (nm_e x <= 5)%nat) -> operands_of x u ->
  In p l -> In q l -> holds (snd p) u -> holds (snd q) u -> p = q.
Proof.
  intros X OK E O. revert p q. induction l as [|y l IH]; intros p q IP IQ HP HQ; [destruct IP|].
  destruct X as (M & F & X). pose proof (exclusive_in lim l X) as ML.
  rewrite Forall_forall in F. rewrite Forall_forall in ML.
  destruct IP as [<-|IP], IQ as [<-|IQ]; [reflexivity| | |exact (IH X p q IP IQ HP HQ)].
  - destruct (disjoint_holds lim _ _ x u (F q IQ) M (ML q IQ) OK E O HP HQ).
  - destruct (disjoint_holds lim _ _ x u (F p IP) M (ML p IP) OK E O HQ HP).
Qed.

(** What is chosen when at most one condition holds. *)
Lemma chosen_spec l u c : chosen l u c ->
  (exists cd, In (c, cd) l /\ holds cd u) \/ (c = Other /\ forall p, In p l -> ~ holds (snd p) u).
Proof.
  induction l as [|[k cd] l IH]; cbn [chosen].
  - intros ->. right. split; [reflexivity|intros p []].
  - intros [[H ->]|[N H]].
    + left. exists cd. split; [left; reflexivity|exact H].
    + destruct (IH H) as [(cd' & I & H')|[E A]]; [left; exists cd'; split; [right; exact I|exact H']|right].
      split; [exact E|]. intros p [<-|I]; [exact N|exact (A p I)].
Qed.
Lemma chosen_one l u c k cd : (forall p q, In p l -> In q l -> holds (snd p) u -> holds (snd q) u -> p = q) ->
  In (k, cd) l -> holds cd u -> chosen l u c -> c = k.
Proof.
  intros U I H C. apply chosen_spec in C as [(cd' & I' & H')|[_ A]].
  - pose proof (U (c, cd') (k, cd) I' I H' H) as E. now injection E.
  - destruct (A _ I H).
Qed.
Lemma no_other : Forall (fun r => Forall (fun y => fst (fst y) <> Other) (snd r)) cldr_rules.
Proof. unfold cldr_rules. repeat (apply Forall_cons; [cbn [snd]; repeat constructor; cbn [fst]; discriminate|]). apply Forall_nil. Qed.
Lemma distinct_categories : Forall (fun r => NoDup (map (fun y => fst (fst y)) (snd r))) cldr_rules.
Proof.
  unfold cldr_rules. repeat (apply Forall_cons; [cbn [snd map fst]; repeat (constructor; [cbn [In]; intuition discriminate|]); constructor|]).
  apply Forall_nil.
Qed.
Lemma nodup_fst (l : list (category * bytes * cond)) : NoDup (map (fun y => fst (fst y)) l) ->
  forall p q, In p l -> In q l -> fst (fst p) = fst (fst q) -> p = q.
Proof.
  induction l as [|x l IH]; intros ND p q IP IQ E; [destruct IP|]. cbn [map] in ND. inversion ND as [|? ? NI ND']; subst.
  destruct IP as [<-|IP], IQ as [<-|IQ]; [reflexivity| | |exact (IH ND' p q IP IQ E)].
  - destruct NI. rewrite E. now apply (in_map (fun y : category * bytes * cond => fst (fst y))).
  - destruct NI. rewrite <- E. now apply (in_map (fun y : category * bytes * cond => fst (fst y))).
Qed.

(** Conditions are decidable. *)
Lemma elem_dec q e : elem_holds q e \/ ~ elem_holds q e.
Proof.
  destruct e as [v|a b]; cbn [elem_holds].
  - destruct (Qeq_dec q (inject_Z v)); tauto.
  - destruct (Qeq_dec q (inject_Z (Qfloor q))) as [E|N].
    + destruct (Z_le_dec a (Qfloor q)), (Z_le_dec (Qfloor q) b); [left; exists (Qfloor q); split; [lia|exact E]| | |];
      right; intros (z & B & H); rewrite H, Qfloor_Z in *; lia.
    + right. intros (z & B & H). apply N. rewrite H at 1. rewrite H, Qfloor_Z. reflexivity.
Qed.
Lemma holds_dec c u : holds c u \/ ~ holds c u.
Proof.
  induction c as [neg x l|a IHa b IHb|a IHa b IHb]; cbn [holds]; [|tauto|tauto].
  assert (D : Exists (elem_holds (expr_val x u)) l \/ ~ Exists (elem_holds (expr_val x u)) l).
  { induction l as [|y l IH]; [right; intro H; inversion H|]. rewrite Exists_cons. destruct (elem_dec (expr_val x u) y), IH; tauto. }
  destruct neg; tauto.
Qed.
Lemma chosen_back l u c : (forall p q, In p l -> In q l -> holds (snd p) u -> holds (snd q) u -> p = q) ->
  (exists cd, In (c, cd) l /\ holds cd u) \/ (c = Other /\ forall p, In p l -> ~ holds (snd p) u) -> chosen l u c.
Proof.
  induction l as [|[k cd] l IH]; cbn [chosen]; intros U H.
  - destruct H as [(cd & [] & _)|[E _]]. exact E.
  - destruct (holds_dec cd u) as [HD|ND]; [left; split; [exact HD|]|right; split; [exact ND|]].
    + destruct H as [(cd' & I & H)|[_ A]]; [|destruct (A (k, cd) (or_introl eq_refl) HD)].
      pose proof (U (c, cd') (k, cd) I (or_introl eq_refl) H HD) as E. now injection E.
    + apply IH; [intros p q IP IQ; apply U; right; assumption|].
      destruct H as [(cd' & [I|I] & H)|[E A]].
      * injection I as <- <-. destruct (ND H).
      * left. eauto.
      * right. split; [exact E|]. intros p IP. apply A. right. exact IP.
Qed.
Lemma chosen_permutation l l' u c : (forall p q, In p l -> In q l -> holds (snd p) u -> holds (snd q) u -> p = q) ->
  Permutation l l' -> (chosen l u c <-> chosen l' u c).
Proof.
  intros U P. assert (U' : forall p q, In p l' -> In q l' -> holds (snd p) u -> holds (snd q) u -> p = q).
  { intros p q IP IQ. apply U; apply (Permutation_in _ (Permutation_sym P)); assumption. }
  split; intro H; apply chosen_spec in H; apply chosen_back; try assumption.
  - destruct H as [(cd & I & H)|[E A]]; [left; exists cd; split; [exact (Permutation_in _ P I)|exact H]|right].
    split; [exact E|]. intros p I. apply A. exact (Permutation_in _ (Permutation_sym P) I).
  - destruct H as [(cd & I & H)|[E A]]; [left; exists cd; split; [exact (Permutation_in _ (Permutation_sym P) I)|exact H]|right].
    split; [exact E|]. intros p I. apply A. exact (Permutation_in _ P I).
Qed.

(** What the code makes of a numeral, seen by conditions. *)
Lemma numeral_ops x : nm_ok x -> nm_neg x = false -> nm_scaled x < 1000000000000000 -> (nm_v x <= 5)%nat ->
  Z.of_nat (nm_e x) < two53 ->
  exists o, new_operands_string (nm_text x) = Ok o /\ nonneg_ops o /\ small_ops o /\ clear_of_integers (oN o) /\
    forall u cd, operands_of x u -> holdsb cd (to_uops o) = holdsb cd u.
Proof.
  intros OK NG SC V E53. assert (E : Z.of_nat (nm_e x) <= maxInt64) by (unfold maxInt64; unfold two53 in E53; lia).
  assert (S0 : 0 <= nm_scaled x).
  { unfold nm_scaled, nm_digits. destruct OK as (_ & D & F). apply all_digits_b in D.
    assert (FD : forallb is_digit (nm_fdigits x) = true).
    { unfold nm_fdigits. destruct (nm_fp x); [|reflexivity]. apply all_digits_b. tauto. }
    pose proof (dec_val_bound (nm_ip x ++ nm_fdigits x) ltac:(rewrite forallb_app, D, FD; reflexivity)).
    pose proof (p10_pos (nm_e x - length (nm_fdigits x))). nia. }
  destruct (round_value (nm_scaled x) (nm_v x)) as (q & RQ & Q0 & FL & IV & CL);
    [unfold ten15; lia|lia|].
  assert (M1 : nm_scaled x mod p10 (nm_v x) <= maxInt64).
  { pose proof (Z.mod_le (nm_scaled x) (p10 (nm_v x)) S0 (p10_pos _)). unfold maxInt64. lia. }
  destruct (operands_numeral x q OK E M1 RQ) as (w & t & O & W).
  pose proof (div_small (nm_scaled x) (p10 (nm_v x)) ltac:(unfold ten15; lia) (p10_pos _)) as DS.
  destruct (nonneg_of_numeral x _ w t q eq_refl NG Q0 ltac:(rewrite FL; exact DS) W) as [NN OI].
  set (o := Ops q _ _ w _ t _) in *.
  exists o. split; [exact O|]. split; [exact NN|]. split.
  { destruct NN as (N1 & N2 & N3 & N4 & N5 & N6). unfold small_ops, small.
    assert (P0 : 0 < 10 ^ (Z.of_nat (nm_v x) - w)) by (apply Z.pow_pos_nonneg; destruct W; lia).
    assert (T1 : t <= nm_scaled x mod p10 (nm_v x)) by (destruct W as (_ & W2 & _); unfold o in N5; cbn [oT] in N5; nia).
    assert (M2 : nm_scaled x mod p10 (nm_v x) <= nm_scaled x) by (apply Z.mod_le; [exact S0|apply p10_pos]).
    assert (I1 : oI o <= nm_scaled x).
    { rewrite OI, FL. apply Z.div_le_upper_bound; [apply p10_pos|]. pose proof (p10_pos (nm_v x)). nia. }
    unfold o in *. cbn [oI oV oW oF oT oC] in *. destruct W as (W1 & _). unfold two53 in E53. lia. }
  split; [exact (CL V)|].
  intros u cd (U1 & U2 & U3 & U4 & U5 & U6).
  assert (WT : uw u = w /\ ut u = t).
  { rewrite U3, U4 in U5. destruct U5 as (A1 & A2 & A3). destruct W as (B1 & B2 & B3).
    assert (UNQ : forall V f w t w' t', 0 <= w <= V -> 0 <= w' <= V ->
       f = t * 10 ^ (V - w) -> f = t' * 10 ^ (V - w') -> (w = 0 \/ t mod 10 <> 0) -> (w' = 0 \/ t' mod 10 <> 0) ->
       w <= w').
    { clear. intros V f w t w' t' H1 H2 E1 E2 N1 N2.
      destruct (Z_lt_le_dec w' w) as [L|]; [|assumption]. exfalso. destruct N1 as [N1|N1]; [lia|].
      apply N1. replace (V - w') with ((V - w) + (w - w')) in E2 by lia.
      rewrite Z.pow_add_r in E2 by lia. rewrite E1 in E2.
      assert (P : 0 < 10 ^ (V - w)) by (apply Z.pow_pos_nonneg; lia).
      assert (T : t = t' * 10 ^ (w - w')) by nia. rewrite T.
      replace (w - w') with (1 + (w - w' - 1)) by lia. rewrite Z.pow_add_r by lia.
      change (10 ^ 1) with 10. replace (t' * (10 * 10 ^ (w - w' - 1))) with (t' * 10 ^ (w - w' - 1) * 10) by ring.
      apply Z.mod_mul. lia. }
    assert (uw u = w).
    { apply Z.le_antisymm; [apply (UNQ _ _ (uw u) (ut u) w t A1 B1 A2 B2 A3 B3)|
                            apply (UNQ _ _ w t (uw u) (ut u) B1 A1 B2 A2 B3 A3)]. }
    split; [assumption|]. rewrite H in A2.
    assert (P : 0 < 10 ^ (Z.of_nat (nm_v x) - w)) by (apply Z.pow_pos_nonneg; lia). nia. }
  destruct WT as [WU TU].
  apply holdsb_view.
  - cbn [to_uops un]. unfold o. cbn [oN]. rewrite IV. apply iview_comp. symmetry. exact U1.
  - cbn [to_uops ui]. rewrite OI, FL, U2. unfold nm_value. unfold Qfloor.
    rewrite Z2Pos.id by apply p10_pos. reflexivity.
  - cbn [to_uops uv]. unfold o. cbn [oV]. congruence.
  - cbn [to_uops uw]. unfold o. cbn [oW]. congruence.
  - cbn [to_uops uf]. unfold o. cbn [oF]. congruence.
  - cbn [to_uops ut]. unfold o. cbn [oT]. congruence.
  - cbn [to_uops uc]. unfold o. cbn [oC]. congruence.
Qed.

Lemma rows_print : Forall (fun r => Forall (fun y => cond_print (snd y)) (snd r)) cldr_rules.
Proof.
  unfold cldr_rules.
  repeat first [apply Forall_nil | apply Forall_cons; cbn [snd]];
  cbn [cond_print x_mod]; repeat split; try discriminate; try lia;
  repeat first [apply Forall_nil | apply Forall_cons; cbn [elem_print]]; lia.
Qed.
(** Parsing the rules of a language in some order. *)
Lemma parse_all_rules fuel l : (forall y, In y l -> snd (fst y) = cond_text (snd y) /\ is_or (snd y) /\ cond_small (snd y) /\ cond_print (snd y)) ->
  parse_all fuel (map fst l) = Ok (map (fun y => (fst (fst y), CRule (Some (node_of (snd y))) [])) l).
Proof.
  induction l as [|[[k t] cd] l IH]; intro H; [reflexivity|]. cbn [map fst snd parse_all].
  destruct (H _ (or_introl eq_refl)) as (T & O & S & P). cbn [fst snd] in *. subst t.
  destruct (cond_text_toks cd P) as (ts & TK & SP).
  rewrite (parse_rule_ok cd ts (cond_text cd) fuel O TK SP (small_int64 cd S)). cbn [rbind].
  rewrite IH by (intros y I; apply H; right; exact I). reflexivity.
Qed.
Lemma form_rules_chooseb l o : small_ops o -> clear_of_integers (oN o) -> (forall y, In y l -> cond_small (snd y)) ->
  form_rules (map (fun y : category * bytes * cond => (fst (fst y), CRule (Some (node_of (snd y))) [])) l) o = Ok (chooseb (row_rules l) (to_uops o)).
Proof.
  intros S C. induction l as [|[[k t] cd] l IH]; intro H; [reflexivity|].
  cbn [map fst snd form_rules row_rules chooseb eval_rule cr_root].
  unfold eval_rule. cbn [cr_root]. rewrite (eval_cnode_view cd o S C (H _ (or_introl eq_refl))). cbn [rbind].
  destruct (holdsb cd (to_uops o)); [reflexivity|]. apply IH. intros y I. apply H. right. exact I.
Qed.
Lemma chooseb_ext l u v : (forall cd, holdsb cd u = holdsb cd v) -> chooseb l u = chooseb l v.
Proof. intro H. induction l as [|[k cd] l IH]; cbn [chooseb]; [reflexivity|]. now rewrite H, IH. Qed.
