(** C11: the operands of every decimal numeral. *)
From Coq Require Import String Ascii List ZArith QArith Qabs Qround Bool Lia ZifyBool.
From Verif Require Import Base NumModel F64Model CldrModel CldrSpec FloatTextProofs NearSpec NearProofs CldrOperandProofs CldrAllProofs.
Import ListNotations.
Open Scope Z_scope.

(** No bound on the length, either sign.  A numeral is refused exactly when its
    exponent or its fraction digits, read as an integer, exceed an int64, or
    when the value rounds beyond the largest float64.  Otherwise v, w, f, t and
    c are those of UTS #35, n is the float64 nearest to the value (ties to
    even), and i is the
    truncation of n (not of the value) with the sign of the text, or the
    smallest int64 when it does not fit.  (A huge exponent makes a text of that
    length; the model has no limit on memory.) *)
Theorem C11_exactly : forall x, nm_ok x ->
  let readable := Z.of_nat (nm_e x) <= maxInt64 /\ nm_scaled x mod p10 (nm_v x) <= maxInt64 /\ (nm_value x < inject_Z (2 ^ 1024 - 2 ^ 970))%Q in
  (readable -> exists o, new_operands_string (nm_text x) = Ok o /\
     oV o = Z.of_nat (nm_v x) /\ oF o = nm_scaled x mod p10 (nm_v x) /\ without_zeros (oV o) (oF o) (oW o) (oT o) /\ oC o = Z.of_nat (nm_e x) /\
     nearest_float (nm_value x) (oN o) /\
     oI o = if Qfloor (oN o) <=? maxInt64 then (if nm_neg x then - Qfloor (oN o) else Qfloor (oN o)) else minInt64) /\
  (~ readable -> new_operands_string (nm_text x) = Err).
Proof.
  intros x OK readable. subst readable. fold float_limit. split; [|apply numeral_bad; exact OK].
  intros (E & F & L). destruct (numeral_good x OK E F L) as (q & w & t & O & W & Q0 & R). eexists. split; [exact O|].
  cbn [oN oI oV oW oF oT oC]. split; [reflexivity|]. split; [reflexivity|]. split; [exact W|]. split; [reflexivity|].
  split; [|now apply trunc_any]. apply round_nearest; [now apply scaled_nonneg|apply p10_pos|exact R].
Qed.
Example C11_exactly_example :
  let x := Num true (bs "12345678901234567890") (Some (bs "50")) (Some 1%nat) in
  nm_ok x /\ Z.of_nat (nm_e x) <= maxInt64 /\ nm_scaled x mod p10 (nm_v x) <= maxInt64 /\ (nm_value x < inject_Z (2 ^ 1024 - 2 ^ 970))%Q.
Proof. cbv zeta. split; [split; [discriminate|]; split; [repeat constructor|split; [discriminate|repeat constructor]]|]. repeat split; vm_compute; congruence. Qed.
Example C11_exactly_refused :
  let x := Num false (bs "1") (Some (bs "9223372036854775808")) None in
  nm_ok x /\ ~ (nm_scaled x mod p10 (nm_v x) <= maxInt64).
Proof. cbv zeta. split; [split; [discriminate|]; split; [repeat constructor|split; [discriminate|repeat constructor]]|]. vm_compute. congruence. Qed.

Print Assumptions C11_exactly.
