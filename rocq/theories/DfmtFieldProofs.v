(** The letters one by one. *)
From Coq Require Import String Ascii List ZArith QArith Bool Lia.
From Verif Require Import Base BaseProofs Utf8Model Utf8Proofs PopModel NumModel F64Model FltModel CalModel CalProofs CalSpec
  HumModel HumSpec DfmtModel DfmtSpec DfmtProofs DfmtLoopProofs.
Import ListNotations.
Open Scope Z_scope.
Opaque abs_date.

Lemma months_at : forall m, 1 <= m <= 12 ->
  map_at months m [] = nth_name month_names (m - 1) /\ map_at months3 m [] = nth_name month_names3 (m - 1) /\
  map_at months_ap m ([], []) = (bs "abbrev. month", nth_name month_names_ap (m - 1)) /\
  map_at months_alt m ([], []) = (bs "alt. month", nth_name month_names (m - 1)) /\
  go_month m = nth_name month_names_en (m - 1).
Proof.
  intros m M.
  assert (C : m = 1 \/ m = 2 \/ m = 3 \/ m = 4 \/ m = 5 \/ m = 6 \/ m = 7 \/ m = 8 \/ m = 9 \/ m = 10 \/ m = 11 \/ m = 12) by lia.
  destruct C as [->|[->|[->|[->|[->|[->|[->|[->|[->|[->|[->| ->]]]]]]]]]]]; repeat split; reflexivity.
Qed.
Lemma days_at : forall t n, t_day t = n ->
  map_at weekdays (weekday_index t) [] = nth_name day_names (n mod 7) /\
  map_at weekdays_abbr (weekday_index t) [] = nth_name day_names3 (n mod 7) /\
  go_weekday (weekday (t_day t)) = nth_name day_names3 (n mod 7) /\
  weekday (t_day t) = (n + 1) mod 7.
Proof.
  intros t n E. unfold weekday_index, weekday. rewrite E. clear E t.
  pose proof (Z.mod_pos_bound n 7 ltac:(lia)) as M.
  assert (W : (n + 1) mod 7 = if n mod 7 =? 6 then 0 else n mod 7 + 1).
  { destruct (n mod 7 =? 6) eqn:X; Z.to_euclidean_division_equations; lia. }
  assert (C : n mod 7 = 0 \/ n mod 7 = 1 \/ n mod 7 = 2 \/ n mod 7 = 3 \/ n mod 7 = 4 \/ n mod 7 = 5 \/ n mod 7 = 6) by lia.
  rewrite W. destruct C as [->|[->|[->|[->|[->|[->| ->]]]]]]; repeat split; reflexivity.
Qed.

Lemma month_length_le : forall y m, month_length y m <= 31.
Proof.
  intros y m. unfold month_length. destruct ((m =? 4) || (m =? 6) || (m =? 9) || (m =? 11)); [lia|].
  destruct (m =? 2); [destruct (leap_dec y); lia|lia].
Qed.

Lemma suffix_eq : forall d, 1 <= d <= 31 ->
  (if (d =? 11) || (d =? 12) || (d =? 13) then bs "th"
   else if Z.rem d 10 =? 1 then bs "st" else if Z.rem d 10 =? 2 then bs "nd" else if Z.rem d 10 =? 3 then bs "rd" else bs "th")
  = bs (english_suffix d).
Proof.
  intros d D. unfold english_suffix. rewrite (Z.mod_small d 100) by lia. rewrite Z.rem_mod_nonneg by lia. cbv zeta.
  replace ((11 <=? d) && (d <=? 13)) with ((d =? 11) || (d =? 12) || (d =? 13)).
  2:{ destruct (d =? 11) eqn:A, (d =? 12) eqn:B, (d =? 13) eqn:C, (11 <=? d) eqn:X, (d <=? 13) eqn:Y; try reflexivity; lia. }
  destruct ((d =? 11) || (d =? 12) || (d =? 13)); [reflexivity|].
  destruct (d mod 10 =? 1); [reflexivity|]. destruct (d mod 10 =? 2); [reflexivity|]. destruct (d mod 10 =? 3); reflexivity.
Qed.

Lemma zone_text_eq : forall t, Z.abs (t_offset t) < 360000 ->
  zone_text t = (if t_offset t <=? -60 then "-"%char else "+"%char) ::
    digits 2 (Z.abs (t_offset t) / 3600) ++ digits 2 (Z.abs (t_offset t) / 60 mod 60).
Proof.
  intros t O. unfold zone_text. cbv zeta. revert O. generalize (t_offset t) as o. intros o O.
  destruct (Z.quot o 60 <? 0) eqn:E.
  - assert (L : o <= -60) by (Z.to_euclidean_division_equations; lia).
    replace (o <=? -60) with true by lia.
    assert (H : Z.quot (- Z.quot o 60) 60 = Z.abs o / 3600) by (clear E; Z.to_euclidean_division_equations; lia).
    assert (M : Z.rem (- Z.quot o 60) 60 = Z.abs o / 60 mod 60) by (clear E H; Z.to_euclidean_division_equations; lia).
    rewrite H, M. rewrite !app2; [reflexivity| |]; Z.to_euclidean_division_equations; lia.
  - assert (L : -60 < o) by (Z.to_euclidean_division_equations; lia).
    replace (o <=? -60) with false by lia.
    assert (H : Z.quot (Z.quot o 60) 60 = Z.abs o / 3600) by (clear E; Z.to_euclidean_division_equations; lia).
    assert (M : Z.rem (Z.quot o 60) 60 = Z.abs o / 60 mod 60) by (clear E H; Z.to_euclidean_division_equations; lia).
    rewrite H, M. rewrite !app2; [reflexivity| |]; Z.to_euclidean_division_equations; lia.
Qed.

Lemma utoa_length : forall w k, 10 ^ Z.of_nat w <= k -> (S w <= length (utoa k))%nat.
Proof.
  induction w as [|w IH]; intros k K.
  - rewrite utoa_step by (cbn in K; lia). destruct (k <? 10); [cbn; lia|rewrite app_length; cbn [length]; lia].
  - rewrite Nat2Z.inj_succ, Z.pow_succ_r in K by lia.
    pose proof (Z.pow_pos_nonneg 10 (Z.of_nat w) ltac:(lia) ltac:(lia)) as P.
    rewrite utoa_step by lia. replace (k <? 10) with false by lia. rewrite app_length. cbn [length].
    pose proof (IH (k / 10) ltac:(apply Z.div_le_lower_bound; lia)). lia.
Qed.
Lemma zeros_wide : forall w n, 10 ^ Z.of_nat w <= n -> zeros w n = utoa n.
Proof.
  intros w n N. unfold zeros. cbv zeta.
  assert (L : (w <= length (utoa n))%nat).
  { revert n N. induction w as [|w IH]; intros n N; [lia|].
    rewrite Nat2Z.inj_succ, Z.pow_succ_r in N by lia.
    pose proof (Z.pow_pos_nonneg 10 (Z.of_nat w) ltac:(lia) ltac:(lia)) as P.
    rewrite utoa_step by lia. replace (n <? 10) with false by lia. rewrite app_length. cbn [length].
    pose proof (IH (n / 10)) as H. assert (10 ^ Z.of_nat w <= n / 10) by (apply Z.div_le_lower_bound; lia). specialize (H H0). lia. }
  replace (w - length (utoa n))%nat with 0%nat by lia. reflexivity.
Qed.

Section Fields.
Variable get : bytes -> bytes.
Variable pget : bytes -> bytes -> bytes.
Variable upper : rune -> rune.
Variable local_name : bytes.
Notation format := (format get pget upper local_name).

Ltac by_letter := intro t; apply format_letter; [reflexivity|reflexivity|discriminate].
Lemma form_a : forall t, format t (bs "a") = Ok (f_a get t). Proof. by_letter. Qed.
Lemma form_A : forall t, format t (bs "A") = Ok (f_A get t). Proof. by_letter. Qed.
Lemma form_e : forall t, format t (bs "e") = Ok (f_e t). Proof. by_letter. Qed.
Lemma form_f : forall t, format t (bs "f") = Ok (f_f t). Proof. by_letter. Qed.
Lemma form_g : forall t, format t (bs "g") = Ok (f_g t). Proof. by_letter. Qed.
Lemma form_G : forall t, format t (bs "G") = Ok (f_G t). Proof. by_letter. Qed.
Lemma form_h : forall t, format t (bs "h") = Ok (f_h t). Proof. by_letter. Qed.
Lemma form_H : forall t, format t (bs "H") = Ok (f_H t). Proof. by_letter. Qed.
Lemma form_i : forall t, format t (bs "i") = Ok (f_i t). Proof. by_letter. Qed.
Lemma form_O : forall t, format t (bs "O") = Ok (f_O t). Proof. by_letter. Qed.
Lemma form_P : forall t, format t (bs "P") = Ok (f_P get t). Proof. by_letter. Qed.
Lemma form_s : forall t, format t (bs "s") = Ok (f_s t). Proof. by_letter. Qed.
Lemma form_T : forall t, format t (bs "T") = Ok (f_T local_name t). Proof. by_letter. Qed.
Lemma form_u : forall t, format t (bs "u") = Ok (f_u t). Proof. by_letter. Qed.
Lemma form_Z : forall t, format t (bs "Z") = Ok (f_Z t). Proof. by_letter. Qed.
Lemma form_b : forall t, format t (bs "b") = Ok (f_b get t). Proof. by_letter. Qed.
Lemma form_c : forall t, format t (bs "c") = Ok (f_c t). Proof. by_letter. Qed.
Lemma form_d : forall t, format t (bs "d") = Ok (f_d t). Proof. by_letter. Qed.
Lemma form_D : forall t, format t (bs "D") = Ok (f_D get t). Proof. by_letter. Qed.
Lemma form_E : forall t, format t (bs "E") = Ok (f_E pget t). Proof. by_letter. Qed.
Lemma form_F : forall t, format t (bs "F") = Ok (f_F get t). Proof. by_letter. Qed.
Lemma form_I : forall t, format t (bs "I") = Ok (f_I t). Proof. by_letter. Qed.
Lemma form_j : forall t, format t (bs "j") = Ok (f_j t). Proof. by_letter. Qed.
Lemma form_l : forall t, format t (bs "l") = Ok (f_l get t). Proof. by_letter. Qed.
Lemma form_L : forall t, format t (bs "L") = Ok (f_L t). Proof. by_letter. Qed.
Lemma form_m : forall t, format t (bs "m") = Ok (f_m t). Proof. by_letter. Qed.
Lemma form_M : forall t, format t (bs "M") = f_M get upper t. Proof. by_letter. Qed.
Lemma form_n : forall t, format t (bs "n") = Ok (f_n t). Proof. by_letter. Qed.
Lemma form_N : forall t, format t (bs "N") = Ok (f_N pget t). Proof. by_letter. Qed.
Lemma form_o : forall t, format t (bs "o") = Ok (f_o t). Proof. by_letter. Qed.
Lemma form_r : forall t, format t (bs "r") = Ok (f_r t). Proof. by_letter. Qed.
Lemma form_S : forall t, format t (bs "S") = Ok (f_S t). Proof. by_letter. Qed.
Lemma form_t : forall t, format t (bs "t") = Ok (f_t t). Proof. by_letter. Qed.
Lemma form_U : forall t, format t (bs "U") = Ok (f_U t). Proof. by_letter. Qed.
Lemma form_w : forall t, format t (bs "w") = Ok (f_w t). Proof. by_letter. Qed.
Lemma form_W : forall t, format t (bs "W") = Ok (f_W t). Proof. by_letter. Qed.
Lemma form_y : forall t, format t (bs "y") = Ok (f_y t). Proof. by_letter. Qed.
Lemma form_Y : forall t, format t (bs "Y") = Ok (f_Y t). Proof. by_letter. Qed.
Lemma form_z : forall t, format t (bs "z") = Ok (f_z t). Proof. by_letter. Qed.
End Fields.
