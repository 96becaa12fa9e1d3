(** Rules depend on n only through "is n an integer, and which": exact
    comparison and the tolerant comparisons of the code agree for numbers that
    are not within 1e-6 of an integer without being one. *)
From Coq Require Import String Ascii List ZArith QArith Qround Qabs Bool Lia Lqa.
From Verif Require Import Base PopModel NumModel NumProofs F64Model CldrModel CldrSpec.
Import ListNotations.
Open Scope Z_scope.

Definition iview (q : Q) : option Z :=
  if Qnum q mod Zpos (Qden q) =? 0 then Some (Qnum q / Zpos (Qden q)) else None.

Lemma iview_some : forall q z, iview q = Some z <-> (q == inject_Z z)%Q.
Proof.
  intros [n d] z. unfold iview, Qeq, inject_Z; simpl.
  destruct (n mod Zpos d =? 0) eqn:E.
  - apply Z.eqb_eq in E. pose proof (Z.div_mod n (Zpos d)).
    split; intro H0.
    + inversion H0; subst. nia.
    + f_equal. nia.
  - split; [discriminate|]. intro H. apply Z.eqb_neq in E. exfalso. apply E.
    rewrite Z.mul_1_r in H. subst n. apply Z.mod_mul. lia.
Qed.

Lemma iview_none : forall q, iview q = None <-> forall z, ~ (q == inject_Z z)%Q.
Proof.
  intro q; split.
  - intros H z E. apply iview_some in E. congruence.
  - intro H. destruct (iview q) eqn:E; [|reflexivity].
    apply iview_some in E. exfalso. exact (H _ E).
Qed.

Lemma iview_comp : forall p q, (p == q)%Q -> iview p = iview q.
Proof.
  intros p q E. destruct (iview q) eqn:Q.
  - apply iview_some. rewrite E. apply iview_some. exact Q.
  - apply iview_none. intros z H. rewrite E in H. apply iview_some in H. congruence.
Qed.

Lemma iview_Z : forall z, iview (inject_Z z) = Some z.
Proof. intro z. apply iview_some. reflexivity. Qed.

(** ** Boolean form of the specification *)

Definition vin (v : option Z) (e : elem) : bool :=
  match v with
  | None => false
  | Some z => match e with Val k => z =? k | Range a b => (a <=? z) && (z <=? b) end
  end.
Definition vmod (v : option Z) (m : option Z) : option Z :=
  match m with None => v | Some m => option_map (fun z => z mod m) v end.
Definition op_view (o : oper) (u : uops) : option Z :=
  match o with
  | On => iview (un u)
  | Oi => Some (ui u) | Ov => Some (uv u) | Ow => Some (uw u)
  | Of => Some (uf u) | Ot => Some (ut u) | Oc | Oe => Some (uc u)
  end.
Definition expr_view (e : expr) (u : uops) : option Z := vmod (op_view (x_op e) u) (x_mod e).

Fixpoint holdsb (c : cond) (u : uops) : bool :=
  match c with
  | Rel neg e l => xorb neg (existsb (vin (expr_view e u)) l)
  | And a b => holdsb a u && holdsb b u
  | Or a b => holdsb a u || holdsb b u
  end.

Definition mod_pos (e : expr) : Prop := match x_mod e with Some m => 0 < m | None => True end.
Fixpoint mods_pos (c : cond) : Prop :=
  match c with
  | Rel _ e _ => mod_pos e
  | And a b | Or a b => mods_pos a /\ mods_pos b
  end.

Lemma op_view_spec : forall o u, iview (oper_val o u) = op_view o u.
Proof. intros [] u; simpl; try apply iview_Z; reflexivity. Qed.

Lemma iview_qmod : forall x m, 0 < m ->
  iview (x - inject_Z (m * Qfloor (x / inject_Z m)))%Q = option_map (fun z => z mod m) (iview x).
Proof.
  intros x m M. destruct (iview x) as [z|] eqn:V; cbn [option_map].
  - apply iview_some in V. apply iview_some.
    assert (E : Qfloor (x / inject_Z m) = z / m).
    { rewrite V. destruct m as [|p|p]; try lia.
      setoid_replace (inject_Z z / inject_Z (Zpos p))%Q with (z # p)%Q.
      - reflexivity.
      - unfold Qeq, Qdiv, Qmult, Qinv, inject_Z; simpl. lia. }
    rewrite E, V. unfold Qeq, Qminus, Qplus, Qopp, inject_Z; simpl.
    pose proof (Z.div_mod z m). lia.
  - apply iview_none. intros z H. pose proof (proj1 (iview_none x) V) as NV.
    apply (NV (z + m * Qfloor (x / inject_Z m))). rewrite inject_Z_plus, <- H. ring.
Qed.

Lemma expr_view_spec : forall e u, mod_pos e -> iview (expr_val e u) = expr_view e u.
Proof.
  intros [o m] u M. unfold expr_val, expr_view, mod_pos in *; simpl in *.
  destruct m as [m|]; simpl.
  - rewrite iview_qmod by exact M. rewrite op_view_spec. reflexivity.
  - apply op_view_spec.
Qed.

Lemma vin_spec : forall x e, elem_holds x e <-> vin (iview x) e = true.
Proof.
  intros x e. destruct e as [v|a b]; simpl.
  - destruct (iview x) as [z|] eqn:V; cbn [vin].
    + rewrite Z.eqb_eq. rewrite <- iview_some, V. split; intro H; [congruence|subst; reflexivity].
    + split; [|discriminate]. intro H. apply iview_some in H. congruence.
  - destruct (iview x) as [z|] eqn:V; cbn [vin].
    + split.
      * intros (k & R & E). apply iview_some in E. rewrite V in E. inversion E; subst. lia.
      * intro H. exists z. split; [lia|]. apply iview_some. exact V.
    + split; [|discriminate]. intros (k & R & E). apply iview_some in E. congruence.
Qed.

Lemma vin_exists : forall x l, Exists (elem_holds x) l <-> existsb (vin (iview x)) l = true.
Proof.
  intros x l. rewrite existsb_exists, Exists_exists. split.
  - intros (e & I & H). exists e. split; [exact I|]. apply vin_spec. exact H.
  - intros (e & I & H). exists e. split; [exact I|]. apply vin_spec. exact H.
Qed.

Lemma holdsb_spec : forall c u, mods_pos c -> (holds c u <-> holdsb c u = true).
Proof.
  induction c as [neg e l|a IHa b IHb|a IHa b IHb]; intros u M; simpl in *.
  - rewrite <- (expr_view_spec e u M). pose proof (vin_exists (expr_val e u) l) as X.
    destruct neg; simpl.
    + rewrite X. destruct (existsb _ l); simpl; split; intro; try congruence; try discriminate; tauto.
    + rewrite X. destruct (existsb _ l); simpl; tauto.
  - destruct M. rewrite andb_true_iff, IHa, IHb by assumption. reflexivity.
  - destruct M. rewrite orb_true_iff, IHa, IHb by assumption. reflexivity.
Qed.

Fixpoint chooseb (rules : list (category * cond)) (u : uops) : category :=
  match rules with
  | [] => Other
  | (k, cd) :: r => if holdsb cd u then k else chooseb r u
  end.

Lemma chooseb_spec : forall rules u, Forall (fun r => mods_pos (snd r)) rules ->
  chosen rules u (chooseb rules u).
Proof.
  induction rules as [|[k cd] r IH]; intros u F; simpl.
  - reflexivity.
  - inversion F; subst. simpl in *. pose proof (holdsb_spec cd u H1) as X.
    destruct (holdsb cd u).
    + left. split; [apply X; reflexivity|reflexivity].
    + right. split; [intro H; apply X in H; discriminate|auto].
Qed.

Lemma chosen_unique : forall rules u c d, chosen rules u c -> chosen rules u d -> c = d.
Proof.
  induction rules as [|[k cd] r IH]; simpl; intros u c d A B; [congruence|].
  destruct A as [[A1 A2]|[A1 A2]], B as [[B1 B2]|[B1 B2]]; try congruence; try tauto; eauto.
Qed.

(** Two numbers that are both the same integer or both no integer are treated
    alike. *)
Lemma holdsb_view : forall c u v, iview (un u) = iview (un v) ->
  ui u = ui v -> uv u = uv v -> uw u = uw v -> uf u = uf v -> ut u = ut v -> uc u = uc v ->
  holdsb c u = holdsb c v.
Proof.
  induction c as [neg e l|a IHa b IHb|a IHa b IHb]; intros u v; intros; simpl.
  - assert (E : expr_view e u = expr_view e v).
    { unfold expr_view. f_equal. destruct (x_op e); simpl; congruence. }
    rewrite E. reflexivity.
  - rewrite (IHa u v), (IHb u v) by assumption. reflexivity.
  - rewrite (IHa u v), (IHb u v) by assumption. reflexivity.
Qed.

Lemma chooseb_view : forall rules u v, iview (un u) = iview (un v) ->
  ui u = ui v -> uv u = uv v -> uw u = uw v -> uf u = uf v -> ut u = ut v -> uc u = uc v ->
  chooseb rules u = chooseb rules v.
Proof.
  induction rules as [|[k cd] r IH]; intros u v; intros; simpl; [reflexivity|].
  rewrite (holdsb_view cd u v), (IH u v) by assumption. reflexivity.
Qed.

(** ** The comparisons of the code *)

(** Not within 1e-6 of an integer, unless equal to it. *)
Definition clear_of_integers (q : Q) : Prop :=
  forall z, (Qabs (inject_Z z - q) <= 1 # 1000000)%Q -> (q == inject_Z z)%Q.

Lemma feps_le : (feps <= 1 # 1000000)%Q.
Proof. unfold feps, Qle; simpl. lia. Qed.

Lemma float_equal_clear : forall z q, clear_of_integers q ->
  (float_equal (inject_Z z) q = true <-> (q == inject_Z z)%Q).
Proof.
  intros z q C. unfold float_equal. rewrite Qle_bool_iff. split.
  - intro H. apply C. eapply Qle_trans; [exact H|exact feps_le].
  - intro H. rewrite H. setoid_replace (inject_Z z - inject_Z z)%Q with 0%Q by ring.
    unfold feps, Qle; simpl. lia.
Qed.

Definition two53 : Z := 9007199254740992.

Lemma f64_of_int_small : forall z, - two53 <= z <= two53 -> f64_of_int z = z.
Proof.
  intros z H. unfold two53 in H. unfold f64_of_int. destruct (z <? 0) eqn:E.
  - rewrite f64_of_nat_small by lia. lia.
  - apply f64_of_nat_small. lia.
Qed.

Lemma neq_const_view : forall q k,
  neq_const q k = vin (iview q) (Val k).
Proof.
  intros q k. unfold neq_const, qeq. apply eq_true_iff_eq.
  rewrite Qeq_bool_iff. rewrite <- (vin_spec q (Val k)). reflexivity.
Qed.

Lemma range_loop_view : forall q n l, clear_of_integers q ->
  0 <= l -> l + Z.of_nat n <= two53 ->
  range_loop q l n = vin (iview q) (Range l (l + Z.of_nat n - 1)).
Proof.
  intros q n. induction n as [|n IH]; intros l C L B.
  - simpl. destruct (iview q); simpl; [|reflexivity].
    destruct (l <=? z) eqn:E1, (z <=? l + 0 - 1) eqn:E2; simpl; try reflexivity; lia.
  - cbn [range_loop]. rewrite f64_of_int_small by lia.
    pose proof (float_equal_clear l q C) as FE.
    rewrite IH by (auto; lia). rewrite <- iview_some in FE.
    destruct (iview q) as [z|] eqn:V; cbn [vin].
    + destruct (float_equal (inject_Z l) q) eqn:E.
      * assert (z = l) by (destruct FE as [F _]; specialize (F eq_refl); congruence).
        symmetry. apply andb_true_iff. subst z. rewrite !Z.leb_le. lia.
      * assert (z <> l) by (intro; subst; destruct FE as [_ F]; specialize (F eq_refl); discriminate).
        apply eq_true_iff_eq. rewrite !andb_true_iff, !Z.leb_le. lia.
    + destruct (float_equal (inject_Z l) q) eqn:E; [|reflexivity].
      destruct FE as [F _]. specialize (F eq_refl). discriminate.
Qed.

Lemma in_range1_view : forall q l u, clear_of_integers q -> 0 <= l -> l <= u -> u < two53 ->
  in_range1 q l u = vin (iview q) (Range l u).
Proof.
  intros q l u C L LU U. unfold in_range1.
  rewrite !f64_of_int_small by (unfold two53 in *; lia).
  rewrite range_loop_view by (auto; rewrite Z2Nat.id; lia).
  rewrite Z2Nat.id by lia. replace (l + (u - l + 1) - 1) with u by lia.
  destruct (qle (inject_Z l) q && qle q (inject_Z u)) eqn:E; [reflexivity|].
  destruct (iview q) as [z|] eqn:V; [|reflexivity]. cbn [vin]. symmetry.
  apply not_true_iff_false. intro H.
  apply not_true_iff_false in E. apply E. apply andb_true_iff.
  apply iview_some in V. unfold qle. rewrite !Qle_bool_iff, V, <- !Zle_Qle. lia.
Qed.

Lemma is_float_in_range_view : forall l q, clear_of_integers q ->
  Forall (fun p => 0 <= fst p /\ fst p <= snd p /\ snd p < two53) l ->
  is_float_in_range q l = existsb (vin (iview q)) (map (fun p => Range (fst p) (snd p)) l).
Proof.
  induction l as [|[a b] l IH]; intros q C F; [reflexivity|].
  inversion F; subst. simpl in H1. cbn [is_float_in_range map existsb fst snd].
  rewrite in_range1_view by (auto; tauto). rewrite IH by auto.
  destruct (vin (iview q) (Range a b)); reflexivity.
Qed.

Lemma is_float_one_of_view : forall l q, clear_of_integers q ->
  Forall (fun v => - two53 <= v <= two53) l ->
  is_float_one_of q l = existsb (vin (iview q)) (map Val l).
Proof.
  induction l as [|v l IH]; intros q C F; [reflexivity|].
  inversion F; subst. cbn [is_float_one_of map existsb].
  rewrite f64_of_int_small by assumption. rewrite IH by auto.
  assert (E : float_equal (inject_Z v) q = vin (iview q) (Val v)).
  { apply eq_true_iff_eq. rewrite float_equal_clear by exact C.
    rewrite <- (vin_spec q (Val v)). reflexivity. }
  rewrite E. destruct (vin (iview q) (Val v)); reflexivity.
Qed.

Lemma fmod_eq : forall q m, 0 < m ->
  exists k, (q == fmod q m + inject_Z (m * k))%Q.
Proof.
  intros [n d] m M. exists (n / (m * Zpos d)). unfold fmod; simpl.
  pose proof (Z.div_mod n (m * Zpos d)).
  unfold Qeq, Qplus, inject_Z; simpl. nia.
Qed.

Lemma fmod_nonneg : forall q m, 0 < m -> (0 <= fmod q m)%Q /\ (fmod q m < inject_Z m)%Q.
Proof.
  intros [n d] m M. unfold fmod, Qle, Qlt, inject_Z; simpl.
  pose proof (Z.mod_pos_bound n (m * Zpos d)). nia.
Qed.

Lemma fmod_view : forall q m, 0 < m ->
  iview (fmod q m) = option_map (fun z => z mod m) (iview q).
Proof.
  intros q m M. destruct (fmod_eq q m M) as [k E].
  destruct (fmod_nonneg q m M) as [N B].
  destruct (iview q) as [z|] eqn:V; cbn [option_map].
  - apply iview_some in V.
    assert (F : (fmod q m == inject_Z (z - m * k))%Q).
    { unfold Z.sub. rewrite inject_Z_plus, inject_Z_opp. lra. }
    rewrite F in N, B. rewrite <- Zlt_Qlt in B.
    change 0%Q with (inject_Z 0) in N. rewrite <- Zle_Qle in N.
    apply iview_some. rewrite F.
    replace (z mod m) with (z - m * k); [reflexivity|].
    apply (Z.mod_unique z m k); lia.
  - apply iview_none. intros z F. pose proof (proj1 (iview_none q) V) as NV.
    apply (NV (z + m * k)). rewrite inject_Z_plus, <- F. exact E.
Qed.

Lemma fmod_clear : forall q m, 0 < m -> clear_of_integers q -> clear_of_integers (fmod q m).
Proof.
  intros q m M C z H. destruct (fmod_eq q m M) as [k E].
  assert (Z : (q == inject_Z (z + m * k))%Q).
  { apply C. setoid_replace (inject_Z (z + m * k) - q)%Q
      with (inject_Z z - fmod q m)%Q; [exact H|]. rewrite inject_Z_plus. lra. }
  rewrite inject_Z_plus in Z. lra.
Qed.

Lemma contains_view : forall l z, contains l z = existsb (vin (Some z)) (map Val l).
Proof.
  induction l as [|v l IH]; intro z; [reflexivity|].
  cbn [contains existsb map]. unfold contains in IH. cbn. f_equal. apply IH.
Qed.
