(** floorDivision: bounds of the float64 computation. *)
From Coq Require Import String Ascii List ZArith QArith Qround Qabs Bool Lia Lqa.
From Verif Require Import Base BaseProofs PopModel NumModel F64Model FltModel FltProofs CalModel CalLeapProofs HumModel.
Import ListNotations.
Open Scope Z_scope.

Definition P41 : Z := 2199023255552.

Lemma fround_near : forall q, (0 <= q)%Q ->
  exists z, fround q = inject_Z z /\ (inject_Z z <= q + (1 # 2))%Q /\ (q + (1 # 2) < inject_Z (z + 1))%Q.
Proof.
  intros q H. unfold fround. assert (0 <= Qnum q) by (unfold Qle in H; simpl in H; lia).
  destruct (Qnum q <? 0) eqn:E; [lia|].
  exists (Qfloor (q + (1 # 2))). split; [reflexivity|]. split; [apply Qfloor_le|apply Qlt_floor].
Qed.

Lemma qdiv_int : forall p a b, (p == inject_Z a)%Q -> 0 < b -> (p / inject_Z b == a # Z.to_pos b)%Q.
Proof.
  intros p a b P B. rewrite P. destruct b; try lia. unfold Qdiv, Qmult, Qinv, inject_Z, Qeq. simpl. lia.
Qed.

(** Halving to the nearest thousandth: the count is off by at most 1/2000. *)
Lemma fd_bounds : forall p q a b, (p == inject_Z a)%Q -> (q == inject_Z b)%Q ->
  0 <= a <= P41 -> 0 < b <= 33554432 ->
  let k := floor_division p q in
  2000 * (k * b) <= 2000 * a + b <= 2000 * ((k + 1) * b) /\ 0 <= k <= P41 + 1.
Proof.
  intros p q a b PA QB A B. unfold floor_division, to_fixed3. cbv zeta.
  assert (QB' : (p / q == a # Z.to_pos b)%Q).
  { rewrite QB. apply qdiv_int; [assumption|lia]. }
  set (x := fdiv p q). set (y := fmul x (inject_Z 1000)).
  assert (X0 : (0 <= x)%Q).
  { unfold x, fdiv. apply frnd_ge; [apply (is_f64_int 0); vm_compute; discriminate|].
    rewrite QB'. unfold Qle; simpl; lia. }
  assert (Y0 : (0 <= y)%Q).
  { unfold y, fmul. apply frnd_ge; [apply (is_f64_int 0); vm_compute; discriminate|].
    change (inject_Z 1000) with (1000 # 1). lra. }
  destruct (fround_near y Y0) as (z & Z1 & Z2 & Z3).
  assert (YB : 
    (y * inject_Z (2 * b) * (P53 * P53 # 1) <= inject_Z (2000 * a) * ((P53 + 1) * (P53 + 1) # 1))%Q /\
    (inject_Z (2000 * a) * ((P53 - 1) * (P53 - 1) # 1) <= y * inject_Z (2 * b) * (P53 * P53 # 1))%Q).
  { destruct (Z.eq_dec a 0) as [A0|A0].
    - assert (XZ : (x == 0)%Q).
      { unfold x, fdiv. apply (frnd_exact _ (inject_Z 0)); [apply (is_f64_int 0); vm_compute; discriminate|].
        rewrite QB', A0. unfold Qeq; simpl; lia. }
      assert (YZ : (y == 0)%Q).
      { unfold y, fmul. apply (frnd_exact _ (inject_Z 0)); [apply (is_f64_int 0); vm_compute; discriminate|].
        rewrite XZ. reflexivity. }
      rewrite YZ, A0. change (inject_Z (2000 * 0)) with 0%Q. generalize (inject_Z (2 * b)). intro g.
      split; ring_simplify; apply Qle_refl.
    - assert (L1 : (1 # 1000000000000000000000 <= p / q)%Q).
      { rewrite QB'. unfold Qle. cbn [Qnum Qden]. rewrite Z2Pos.id by lia. lia. }
      destruct (frnd_error (p / q) L1) as [E1 E2]. fold x in E1, E2. fold (fdiv p q) in E1, E2. fold x in E1, E2.
      assert (L2 : (1 # 1000000000000000000000 <= x * inject_Z 1000)%Q).
      { assert (1 # 50000000 <= p / q)%Q.
        { rewrite QB'. unfold Qle. cbn [Qnum Qden]. rewrite Z2Pos.id by lia. lia. }
        change (inject_Z 1000) with (1000 # 1). lra. }
      destruct (frnd_error (x * inject_Z 1000) L2) as [E3 E4]. fold (fmul x (inject_Z 1000)) in E3, E4. fold y in E3, E4.
      change (inject_Z 1000) with (1000 # 1) in E3, E4.
      assert (R : (p / q * inject_Z b == inject_Z a)%Q).
      { rewrite QB'. unfold Qeq, Qmult, inject_Z. cbn [Qnum Qden]. rewrite Z2Pos.id || idtac; try lia.
        destruct b; simpl; lia. }
      assert (BP : (0 < inject_Z b)%Q) by (change 0%Q with (inject_Z 0); rewrite <- Zlt_Qlt; lia).
      rewrite !inject_Z_mult. change (inject_Z 2) with (2 # 1). change (inject_Z 2000) with (2000 # 1).
      set (t := (p / q)%Q) in *. set (c := inject_Z b) in *. rewrite <- R. clearbody t c. clear R.
      replace (P53 * P53) with 81129638414606681695789005144064 by reflexivity.
      replace ((P53 + 1) * (P53 + 1)) with 81129638414606699710187514626049 by reflexivity.
      replace ((P53 - 1) * (P53 - 1)) with 81129638414606663681390495662081 by reflexivity.
      assert (U1 : (y <= t * (9007199254740993 # 9007199254740992) * (1000 # 1) * (9007199254740993 # 9007199254740992))%Q) by lra.
      assert (U2 : (t * (9007199254740991 # 9007199254740992) * (1000 # 1) * (9007199254740991 # 9007199254740992) <= y)%Q) by lra.
      apply (Qmult_le_compat_r _ _ c) in U1; [|lra]. apply (Qmult_le_compat_r _ _ c) in U2; [|lra].
      set (yc := (y * c)%Q) in *.
      setoid_replace (t * (9007199254740993 # 9007199254740992) * (1000 # 1) * (9007199254740993 # 9007199254740992) * c)%Q
        with ((t * c) * ((9007199254740993 # 9007199254740992) * (1000 # 1) * (9007199254740993 # 9007199254740992)))%Q in U1 by ring.
      setoid_replace (t * (9007199254740991 # 9007199254740992) * (1000 # 1) * (9007199254740991 # 9007199254740992) * c)%Q
        with ((t * c) * ((9007199254740991 # 9007199254740992) * (1000 # 1) * (9007199254740991 # 9007199254740992)))%Q in U2 by ring.
      setoid_replace (y * ((2 # 1) * c))%Q with ((2 # 1) * yc)%Q by (unfold yc; ring).
      set (tc := (t * c)%Q) in *. clearbody yc tc. split; lra. }
  destruct YB as [YU YL].
  assert (ZP : 0 <= z).
  { assert (Z3' : (inject_Z 0 < inject_Z (z + 1))%Q).
    { apply (Qle_lt_trans _ (y + (1 # 2))); [change (inject_Z 0) with 0%Q; lra|assumption]. }
    rewrite <- Zlt_Qlt in Z3'. lia. }
  (* the two bounds on z, as integers *)
  assert (BB : (0 <= inject_Z (2 * b))%Q) by (change 0%Q with (inject_Z 0); rewrite <- Zle_Qle; lia).
  assert (ZU : (2 * z - 1) * b * (P53 * P53) <= 2000 * a * ((P53 + 1) * (P53 + 1))).
  { rewrite Zle_Qle. rewrite !inject_Z_mult in *.
    change (inject_Z P53 * inject_Z P53)%Q with (P53 * P53 # 1)%Q.
    change (inject_Z (P53 + 1) * inject_Z (P53 + 1))%Q with ((P53 + 1) * (P53 + 1) # 1)%Q.
    apply (Qle_trans _ (y * (inject_Z 2 * inject_Z b) * (P53 * P53 # 1))); [|exact YU].
    apply Qmult_le_compat_r; [|unfold P53; unfold Qle; simpl; lia].
    assert (W : (inject_Z (2 * z - 1) <= y * inject_Z 2)%Q).
    { assert (inject_Z (2 * z - 1) == inject_Z 2 * inject_Z z - 1)%Q as ->.
      { rewrite <- inject_Z_mult. change 1%Q with (inject_Z 1). rewrite inj_sub. reflexivity. }
      change (inject_Z 2) with (2 # 1). lra. }
    apply (Qmult_le_compat_r _ _ (inject_Z b)) in W; [|change 0%Q with (inject_Z 0); rewrite <- Zle_Qle; lia].
    setoid_replace (y * (inject_Z 2 * inject_Z b))%Q with (y * inject_Z 2 * inject_Z b)%Q by ring. exact W. }
  assert (ZL : 2000 * a * ((P53 - 1) * (P53 - 1)) <= (2 * z + 1) * b * (P53 * P53)).
  { rewrite Zle_Qle. rewrite !inject_Z_mult in *.
    change (inject_Z P53 * inject_Z P53)%Q with (P53 * P53 # 1)%Q.
    change (inject_Z (P53 - 1) * inject_Z (P53 - 1))%Q with ((P53 - 1) * (P53 - 1) # 1)%Q.
    apply (Qle_trans _ (y * (inject_Z 2 * inject_Z b) * (P53 * P53 # 1))); [exact YL|].
    apply Qmult_le_compat_r; [|unfold P53; unfold Qle; simpl; lia].
    assert (W : (y * inject_Z 2 <= inject_Z (2 * z + 1))%Q).
    { assert (inject_Z (2 * z + 1) == inject_Z 2 * inject_Z (z + 1) - 1)%Q as ->.
      { rewrite <- inject_Z_mult. change 1%Q with (inject_Z 1). rewrite inj_sub.
        replace (2 * (z + 1) - 1) with (2 * z + 1) by lia. reflexivity. }
      change (inject_Z 2) with (2 # 1). lra. }
    apply (Qmult_le_compat_r _ _ (inject_Z b)) in W; [|change 0%Q with (inject_Z 0); rewrite <- Zle_Qle; lia].
    setoid_replace (y * (inject_Z 2 * inject_Z b))%Q with (y * inject_Z 2 * inject_Z b)%Q by ring. exact W. }
  clear YU YL BB Z2 Z3 X0 Y0.
  unfold P41 in *.
  assert (ZB : z <= 1000 * (2199023255552 + 1)) by (unfold P53 in *; nia).
  rewrite Z1.
  assert (K : Qfloor (fdiv (inject_Z z) (inject_Z 1000)) = z / 1000).
  { apply (fdiv_floor _ z 1000 10); [reflexivity|lia|lia|lia|].
    pose proof (Z.div_pos z 1000 ltac:(lia) ltac:(lia)).
    assert (z / 1000 <= 2199023255552 + 1) by (apply Z.div_le_upper_bound; lia).
    rewrite Z.abs_eq by lia. unfold P53. change (2 ^ 10) with 1024. lia. }
  unfold ffloor. rewrite K.
  pose proof (Z.div_pos z 1000 ltac:(lia) ltac:(lia)) as KP.
  assert (KU : z / 1000 <= 2199023255552 + 1) by (apply Z.div_le_upper_bound; lia).
  rewrite (fto_int64_int _ (z / 1000)) by (try reflexivity; unfold P53; lia).
  pose proof (Z.div_mod z 1000 ltac:(lia)) as DM. pose proof (Z.mod_pos_bound z 1000 ltac:(lia)) as MB.
  set (k := z / 1000) in *. set (m := z mod 1000) in *. clearbody k m.
  split; [|lia]. unfold P53 in *. 
  assert (MM : 0 <= m * b <= 999 * b) by nia.
  assert (EU : (2 * z - 1) * b = 2000 * (k * b) + 2 * (m * b) - b) by (rewrite DM; ring).
  assert (EL : (2 * z + 1) * b = 2000 * (k * b) + 2 * (m * b) + b) by (rewrite DM; ring).
  assert (EK : 2000 * ((k + 1) * b) = 2000 * (k * b) + 2000 * b) by ring.
  rewrite EU in ZU. rewrite EL in ZL. rewrite EK. clear EU EL EK DM.
  set (u := k * b) in *. set (w := m * b) in *. clearbody u w. split; lia.
Qed.
