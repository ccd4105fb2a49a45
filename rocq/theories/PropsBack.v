(** Properties C123, C124: the 2-byte float there and back, and its order.
    Specification in TypedSpec.v, proofs in FloatBack.v. *)
From Coq Require Import String.
From Coq.Floats Require Import SpecFloat.
From Verif Require Import Base Apdu DpTypes Wire Spec TypedSpec FloatBack.
Open Scope Z_scope.

(** ** C123 *)
(** Outside the gaps, up to 2620.67: at most 0.00501 * 2^k off. *)
Theorem C123_back_partial : forall p fuel k x, 0 <= k <= 7 -> clear_of_gaps k x -> (117 <= fuel)%nat ->
  exists bs y, float_to_bytes p fuel x = Done bs /\ bytes_to_float p bs = Ok y /\ is_f32 y /\ f_finite y /\
    100000 * Z.abs (f_units y - f_units x) <= 501 * 2 ^ (149 + k).
Proof. exact back. Qed.
(** False of every number just below 20.48, 40.96, 81.92 ...: 0 comes back. *)
Theorem C123_zero_refuted : forall p fuel k x, 0 <= k <= 15 -> upper_gap k x -> (117 <= fuel)%nat ->
  exists bs y, float_to_bytes p fuel x = Done bs /\ bytes_to_float p bs = Ok y /\ f_finite y /\ f_units y = 0.
Proof. exact upper_back. Qed.
(** And of their negatives, and of the numbers just below 0: a debug build panics. *)
Theorem C123_panic_refuted : forall fuel k x, 0 <= k <= 15 -> lower_gap k x -> (117 <= fuel)%nat ->
  exists bs, float_to_bytes Debug fuel x = Done bs /\ bytes_to_float Debug bs = Panic.
Proof. exact lower_back. Qed.
Example C123_example :
  clear_of_gaps 1 (f_of_Z 21) /\ clear_of_gaps 0 (f_lit (-555) 100) /\ clear_of_gaps 7 (f_of_Z 2000) /\
  upper_gap 0 (f_lit 20478 1000) /\ upper_gap 1 (f_lit 40955 1000) /\ lower_gap 0 (f_lit (-20478) 1000) /\ lower_gap 3 (f_lit (-1) 1000) /\
  float_to_bytes Debug 117 (f_of_Z 21) = Done [0x0c; 0x1a]%N /\ bytes_to_float Debug [0x0c; 0x1a]%N = Ok (f_of_Z 21).
Proof.
  vm_compute. repeat split; try discriminate;
    first [left; reflexivity|left; discriminate|left; split; discriminate|right; discriminate|right; split; [discriminate|reflexivity]].
Qed.

(** ** C124 *)
(** Of two numbers outside the gaps the larger never gets the smaller code. *)
Theorem C124_order_partial : forall p fuel x y, no_gap x -> no_gap y -> f_units x <= f_units y -> (117 <= fuel)%nat ->
  exists cx cy, float_to_bytes p fuel x = Done (word cx) /\ float_to_bytes p fuel y = Done (word cy) /\
    (cx < 65536)%N /\ (cy < 65536)%N /\ knx_hundredths cx <= knx_hundredths cy.
Proof. exact encode_le. Qed.
Theorem C124_clear_partial : forall p fuel k l x y, 0 <= k <= 15 -> 0 <= l <= 15 -> clear_of_gaps k x -> clear_of_gaps l y ->
  f_units x <= f_units y -> (117 <= fuel)%nat ->
  exists cx cy, float_to_bytes p fuel x = Done (word cx) /\ float_to_bytes p fuel y = Done (word cy) /\
    (cx < 65536)%N /\ (cy < 65536)%N /\ knx_hundredths cx <= knx_hundredths cy.
Proof. intros p fuel k l x y K L X Y. apply encode_le; [apply (clear_no_gap k x K X)|apply (clear_no_gap l y L Y)]. Qed.
(** False in general: 20.48 gets a smaller code than 20.47. *)
Theorem C124_order_refuted : forall p fuel, (117 <= fuel)%nat ->
  ~ (forall x y, is_f32 x -> is_f32 y -> f_finite x -> f_finite y -> f_units x <= f_units y ->
       exists cx cy, float_to_bytes p fuel x = Done (word cx) /\ float_to_bytes p fuel y = Done (word cy) /\
         (cx < 65536)%N /\ (cy < 65536)%N /\ knx_hundredths cx <= knx_hundredths cy).
Proof. exact order_refuted. Qed.
Example C124_example :
  clear_of_gaps 0 (f_lit 2047 100) /\ clear_of_gaps 1 (f_of_Z 21) /\ f_units (f_lit 2047 100) <= f_units (f_of_Z 21) /\
  float_to_bytes Debug 117 (f_lit 2047 100) = Done [0x07; 0xff]%N /\ knx_hundredths 0x07ff = 2047 /\ knx_hundredths 0x0c1a = 2100.
Proof. vm_compute. repeat split; try discriminate; first [left; reflexivity|left; discriminate|right; discriminate]. Qed.
