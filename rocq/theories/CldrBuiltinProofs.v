(** The generated rule functions compute the category of the rule text. *)
From Coq Require Import String Ascii List ZArith QArith Qround Qabs Bool Lia.
From Verif Require Import Base PopModel NumModel F64Model CldrModel CldrBuiltin CldrSpec
  CldrRules CldrEvalProofs.
Import ListNotations.
Open Scope Z_scope.

Definition to_uops (o : ops) : uops :=
  UOps (oN o) (oI o) (oV o) (oW o) (oF o) (oT o) (oC o).

Definition nonneg_ops (o : ops) : Prop :=
  0 <= oI o /\ 0 <= oV o /\ 0 <= oW o /\ 0 <= oF o /\ 0 <= oT o /\ 0 <= oC o.

Definition row_rules (r : list (category * bytes * cond)) : list (category * cond) :=
  map (fun x => (fst (fst x), snd x)) r.

Definition row_ok (a : list bytes * rule_set) (b : list bytes * list (category * bytes * cond)) : Prop :=
  fst a = fst b /\
  forall o, nonneg_ops o -> clear_of_integers (oN o) ->
  rs_form (snd a) o = chooseb (row_rules (snd b)) (to_uops o).

Ltac row :=
  split; [reflexivity|];
  intros [n i v w f t c] (HI & HV & HW & HF & HT & HC) CL; cbn [oN oI oV oW oF oT oC] in *;
  cbn [snd rs_form oN oI oV oW oF oT oC];
  repeat rewrite Z.rem_mod_nonneg by lia;
  repeat rewrite is_float_in_range_view
    by ((exact CL || (apply fmod_clear; [reflexivity|exact CL])) ||
        (repeat (constructor; [cbn; unfold two53; lia|]); constructor));
  repeat rewrite is_float_one_of_view
    by ((exact CL || (apply fmod_clear; [reflexivity|exact CL])) ||
        (repeat (constructor; [cbn; unfold two53; lia|]); constructor));
  repeat rewrite neq_const_view;
  repeat rewrite contains_view;
  repeat rewrite fmod_view by reflexivity;
  cbn [row_rules map fst snd chooseb holdsb existsb expr_view x_op x_mod op_view vmod
       to_uops un ui uv uw uf ut uc oN oI oV oW oF oT oC option_map];
  destruct (iview n) as [z|];
  cbn [option_map vin];
  rewrite ?xorb_false_l, ?xorb_true_l, ?Z.geb_leb, ?orb_false_r, ?orb_false_l, ?andb_false_l, ?andb_false_r, ?andb_assoc, ?orb_assoc, ?andb_true_r;
  try reflexivity.

Lemma rows_ok : Forall2 row_ok cldr_table cldr_rules.
Proof.
  unfold cldr_table, cldr_rules.
  repeat (apply Forall2_cons; [unfold
    rs_bm, rs_af, rs_ak, rs_am, rs_ast, rs_ceb, rs_da, rs_ff, rs_is, rs_mk, rs_si, rs_tzm, rs_blo,
    rs_bs, rs_ca, rs_es, rs_fr, rs_he, rs_iu, rs_lag, rs_lv, rs_mo, rs_pt, rs_shi, rs_be, rs_cs,
    rs_dsb, rs_gd, rs_lt, rs_pl, rs_ru, rs_sl, rs_br, rs_ga, rs_gv, rs_mt, rs_ar, rs_cy, rs_kw; row|]).
  all: try apply Forall2_nil.
Qed.
