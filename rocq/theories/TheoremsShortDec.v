(** C77, C62: every float64 as plural argument, by its value. *)
From Coq Require Import String Ascii List ZArith QArith Qabs Qround Bool Lia Lqa ZifyBool.
From Verif Require Import Base NumModel F64Model CldrModel CldrSpec CldrFloatSpec CldrFloatProofs NearSpec NearProofs HumModel CalModel CastModel CastSpec TheoremsCast ShortDecModel ShortDecSpec ShortDecProofs ShortNearProofs CldrFloatSpec CldrFloatProofs.
Import ListNotations.
Open Scope Z_scope.

(** A float prints as the shortest decimal that converts back to it; 17 digits
    are enough. *)
Theorem C77_printed : forall neg q, float64 q -> (0 < q)%Q -> exists ds point, float_arg neg q = CFloat neg ds point /\ shortest ds point q.
Proof.
  intros neg q F P. exists (float_digits q), (float_point q). split; [|now apply shortest_spec]. unfold float_arg. destruct q as [n d]. unfold Qlt in P. cbn [Qnum Qden] in *.
  destruct (n =? 0) eqn:E; [lia|reflexivity].
Qed.

(** The operands of every float: n is its magnitude, i the integer part with the
    sign.  From the float nearest to 0.0001 up to below a million v, w, f and t
    are those of the shortest decimal; outside exactly the floats of one digit
    are accepted, without fraction digits. *)
Definition float_parts (neg : bool) (q : Q) (o : ops) : Prop :=
  (oN o == q)%Q /\ oC o = 0 /\ oI o = if Qfloor q <=? maxInt64 then (if neg then - Qfloor q else Qfloor q) else minInt64.
Theorem C77_every_float_partial : forall neg q ds point f, float64 q -> (0 < q)%Q -> shortest ds point q -> nearest_float (1 # 10000) f ->
  ((f <= q)%Q /\ (q < 1000000)%Q -> exists o, new_operands (CFloat neg ds point) = Ok o /\ float_parts neg q o /\
     oV o = behind ds point /\ oW o = behind ds point /\ oF o = fraction ds point /\ oT o = fraction ds point) /\
  (~ ((f <= q)%Q /\ (q < 1000000)%Q) -> length ds = 1%nat -> exists o, new_operands (CFloat neg ds point) = Ok o /\ float_parts neg q o /\
     oV o = 0 /\ oW o = 0 /\ oF o = 0 /\ oT o = 0) /\
  (~ ((f <= q)%Q /\ (q < 1000000)%Q) -> length ds <> 1%nat -> new_operands (CFloat neg ds point) = Err).
Proof.
  intros neg q ds point f F P SH NF. pose proof (shortest_medium ds point q f SH NF) as M. destruct SH as (S & (L & N) & _).
  assert (PARTS : forall o, oC o = 0 -> float_near neg (float_value ds point) (oN o) (oI o) -> float_parts neg q o).
  { intros o C [N1 I]. assert (E : (oN o == q)%Q) by (now apply (nearest_unique (float_value ds point))). split; [exact E|]. split; [exact C|]. now rewrite <- (Qfloor_comp _ _ E). }
  split; [|split].
  - intro H. apply M in H. destruct (medium_ops neg ds point S H) as (o & O & V & W & FF & T & C & NR). exists o. split; [exact O|]. split; [now apply PARTS|auto].
  - intros H L1. destruct (exp_ops neg ds point S) as [A _]; [intro X; apply H; now apply M|exact L|]. destruct (A L1) as (o & O & V & W & FF & T & C & NR). exists o. split; [exact O|]. split; [now apply PARTS|auto].
  - intros H L1. destruct (exp_ops neg ds point S) as [_ B]; [intro X; apply H; now apply M|exact L|]. now apply B.
Qed.
(** 0.1, 1234567.5 and 0.00005 as float64. *)
Example C77_every_float_example : exists q1 q2 q3 f,
  f64_round 1 10 = Some q1 /\ f64_round 12345675 10 = Some q2 /\ f64_round 5 100000 = Some q3 /\ f64_round 1 10000 = Some f /\
  float64 q1 /\ float64 q2 /\ float64 q3 /\ nearest_float (1 # 10000) f /\
  float_arg false q1 = CFloat false (bs "1") 0 /\ float_arg true q2 = CFloat true (bs "12345675") 7 /\ float_arg false q3 = CFloat false (bs "5") (-4) /\
  ((f <= q1)%Q /\ (q1 < 1000000)%Q) /\ ~ ((f <= q2)%Q /\ (q2 < 1000000)%Q) /\ ~ ((f <= q3)%Q /\ (q3 < 1000000)%Q) /\
  behind (bs "1") 0 = 1 /\ fraction (bs "1") 0 = 1.
Proof.
  eexists _, _, _, _. do 4 (split; [vm_compute; reflexivity|]).
  split; [apply (proj1 (round_nearest 1 10 _ ltac:(lia) ltac:(lia) ltac:(vm_compute; reflexivity)))|].
  split; [apply (proj1 (round_nearest 12345675 10 _ ltac:(lia) ltac:(lia) ltac:(vm_compute; reflexivity)))|].
  split; [apply (proj1 (round_nearest 5 100000 _ ltac:(lia) ltac:(lia) ltac:(vm_compute; reflexivity)))|].
  split; [exact (round_nearest 1 10000 _ ltac:(lia) ltac:(lia) ltac:(vm_compute; reflexivity))|].
  do 3 (split; [vm_compute; reflexivity|]). split; [split; vm_compute; (discriminate || reflexivity)|].
  split; [intros [_ H]; vm_compute in H; discriminate|]. split; [intros [H _]; vm_compute in H; now apply H|]. split; vm_compute; reflexivity.
Qed.

Section Cast.
  Variables addr_d addr_v : Z -> bytes.
  Variables time_d time_v : gotime -> bytes.
  Variable dur_v : Z -> bytes.
  Notation operands := (fun heap => operands_of heap addr_d addr_v time_d time_v dur_v float_text).
  (** The operands of a value in a program, with what fmt prints for a float
      instead of an arbitrary printer. *)
  Theorem C62_operands_printed : forall heap v w, reaches heap v w -> (forall a, w <> GPtr (Some a)) -> exists k, forall fuel, (k <= fuel)%nat ->
    (w = GNil -> operands heap fuel v = Err) /\
    (forall s, w = GString s -> operands heap fuel v = new_operands (CString s)) /\
    (forall q, w = GFloat (FFin q) -> operands heap fuel v = new_operands (float_arg (Qnum q <? 0) (Qabs q))) /\
    (forall kd z, w = GInt kd z -> Z.abs z <= 2 ^ 53 -> operands heap fuel v = new_operands (match kd with Kint | Kint64 => CInt z | _ => CKind kd z end)) /\
    (forall z, Z.abs z <= 2 ^ 53 ->
       (exists im, w = GComplex (FFin (inject_Z z)) im) \/ (exists p, w = GOther (itoa z) p) \/ w = GDuration z ->
       operands heap fuel v = new_operands (CKind Kuint8 z)).
  Proof.
    intros heap v w R W. destruct (C62_operands addr_d addr_v time_d time_v dur_v heap float_text same_text int_text v w R W) as (k & K). exists k. intros fuel FU.
    specialize (K fuel FU). cbv zeta in K. destruct K as (K1 & K2 & K3 & K4 & K5). split; [exact K1|]. split; [exact K2|]. split; [|split; [exact K4|exact K5]].
    intros q E. destruct (K3 _ E) as [_ G]. unfold float_arg. assert (Z0 : (Qnum (Qabs q) =? 0) = (Qnum q =? 0)) by (destruct q as [n d]; unfold Qabs; simpl; lia). rewrite Z0. destruct (Qnum q =? 0) eqn:X; apply G; unfold float_text; rewrite X; [|reflexivity].
    replace (Qnum q <? 0) with false by lia. reflexivity.
  Qed.
End Cast.

Print Assumptions C77_printed.
Print Assumptions C77_every_float_partial.
Print Assumptions C62_operands_printed.
