(** C77: floats as plural arguments. *)
From Coq Require Import String Ascii List ZArith QArith Qabs Qround Bool Lia ZifyBool.
From Verif Require Import Base NumModel F64Model CldrModel CldrSpec CldrFloatSpec CldrFloatProofs.
Import ListNotations.
Open Scope Z_scope.

(** From 0.0001 to below a million the operands are those of the shortest
    decimal numeral, with i signed. *)
Theorem C77_medium_partial : forall neg ds point, significant ds -> medium point ->
  exists o, new_operands (CFloat neg ds point) = Ok o /\
    oV o = behind ds point /\ oW o = behind ds point /\ oF o = fraction ds point /\ oT o = fraction ds point /\ oC o = 0 /\
    float_near neg (float_value ds point) (oN o) (oI o).
Proof. exact medium_ops. Qed.
Example C77_medium_example : significant (bs "12305") /\ medium 2 /\ behind (bs "12305") 2 = 3 /\ fraction (bs "12305") 2 = 305 /\ float_value (bs "12305") 2 = (12305 # 1000)%Q.
Proof.
  split; [|repeat split; reflexivity || vm_compute; discriminate]. split; [repeat constructor|]. split; [cbn; lia|]. split; [exists "1"%char, (bs "2305"); split; [reflexivity|discriminate]|].
  exists (bs "1230"), "5"%char. split; [reflexivity|discriminate].
Qed.

(** Zero has the operands of the numeral 0. *)
Theorem C77_zero : forall neg point, new_operands (CFloat neg [] point) = Ok (Ops 0 0 0 0 0 0 0).
Proof. exact zero_ops. Qed.

(** Outside, exactly the floats with one significant digit are accepted, as
    numbers without visible fraction digits. *)
Theorem C77_outside : forall neg ds point, significant ds -> ~ medium point -> (float_value ds point < inject_Z (2 ^ 1024 - 2 ^ 970))%Q ->
  (length ds = 1%nat -> exists o, new_operands (CFloat neg ds point) = Ok o /\
     oV o = 0 /\ oW o = 0 /\ oF o = 0 /\ oT o = 0 /\ oC o = 0 /\ float_near neg (float_value ds point) (oN o) (oI o)) /\
  (length ds <> 1%nat -> new_operands (CFloat neg ds point) = Err).
Proof. exact exp_ops. Qed.
Example C77_outside_example : significant (bs "5") /\ ~ medium 7 /\ (float_value (bs "5") 7 < inject_Z (2 ^ 1024 - 2 ^ 970))%Q /\ float_value (bs "5") 7 = inject_Z 5000000 /\
  significant (bs "15") /\ ~ medium (-4) /\ (float_value (bs "15") (-4) < inject_Z (2 ^ 1024 - 2 ^ 970))%Q.
Proof.
  assert (S : forall r d, all_digits (r ++ [d]) -> (length (r ++ [d]) <= 17)%nat -> d <> "0"%char -> (exists e t, r ++ [d] = e :: t /\ e <> "0"%char) -> significant (r ++ [d])).
  { intros r d A B C D. split; [exact A|]. split; [exact B|]. split; [exact D|]. now exists r, d. }
  split; [apply (S [] "5"%char); [repeat constructor|cbn; lia|discriminate|exists "5"%char, []; split; [reflexivity|discriminate]]|].
  split; [unfold medium; lia|]. split; [vm_compute; reflexivity|]. split; [reflexivity|].
  split; [apply (S ["1"%char] "5"%char); [repeat constructor|cbn; lia|discriminate|exists "1"%char, ["5"%char]; split; [reflexivity|discriminate]]|].
  split; [unfold medium; lia|vm_compute; reflexivity].
Qed.

(** The property, the operands of the decimal value, is false: 1234567.5 is
    refused, and 0.00005 has no fraction digits. *)
Theorem C77_floats_refuted :
  (exists ds point, significant ds /\ float_value ds point = (12345675 # 10)%Q /\ new_operands (CFloat false ds point) = Err) /\
  (exists ds point o, significant ds /\ float_value ds point = (5 # 100000)%Q /\ behind ds point = 5 /\ new_operands (CFloat false ds point) = Ok o /\ oV o = 0).
Proof.
  split.
  - exists (bs "12345675"), 7. split; [|split; [reflexivity|vm_compute; reflexivity]].
    split; [repeat constructor|]. split; [cbn; lia|]. split; [exists "1"%char, (bs "2345675"); split; [reflexivity|discriminate]|]. exists (bs "1234567"), "5"%char. split; [reflexivity|discriminate].
  - exists (bs "5"), (-4). eexists. split; [|split; [reflexivity|]; split; [reflexivity|]; split; [vm_compute; reflexivity|reflexivity]].
    split; [repeat constructor|]. split; [cbn; lia|]. split; [exists "5"%char, []; split; [reflexivity|discriminate]|]. exists [], "5"%char. split; [reflexivity|discriminate].
Qed.

Print Assumptions C77_medium_partial.
Print Assumptions C77_zero.
Print Assumptions C77_outside.
Print Assumptions C77_floats_refuted.
