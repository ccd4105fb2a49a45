(** Property C155: the first encoder of the 2-byte float, which nothing calls.
    Proofs in OldFloat.v.

    As in PropsFloat.v, [f_units x] is x in units of 2^-149 and
    [knx_hundredths code] is the KNX value of a 16-bit code in hundredths. *)
From Coq Require Import String.
From Coq.Floats Require Import SpecFloat.
From Verif Require Import Base Apdu DpTypes DpOld Wire Spec OldSpec OldFloat.
Open Scope Z_scope.

(** ** C155: only numbers from 10.245 to 327.675 are encoded properly.  The
    wanted statement: every number the format can hold is encoded as a number
    within one step of it. *)
Definition C155_wanted : Prop :=
  forall x, is_f32 x -> f_finite x -> - 2048 * 32768 * 2 ^ 149 <= 100 * f_units x <= 2047 * 32768 * 2 ^ 149 ->
    exists code, old_float_to_bytes x = word code /\ (code < 65536)%N /\
      Z.abs (100 * f_units x - knx_hundredths code * 2 ^ 149) <= 2 ^ (149 + knx_exponent code).

(** Any number from 0.015 to 10.235 is encoded as a number at least 32000 times
    as large. *)
Theorem C155_small_refuted : forall x, is_f32 x -> f_finite x ->
  3 * 2 ^ 148 <= 100 * f_units x <= 2047 * 2 ^ 148 ->
  exists code, old_float_to_bytes x = word code /\ (code < 65536)%N /\
    32000 * (100 * f_units x) <= knx_hundredths code * 2 ^ 149.
Proof. exact old_too_large. Qed.
(** 5.0 *)
Example C155_small_example :
  let x := f_of_Z 5 in
  is_f32 x /\ f_finite x /\ 3 * 2 ^ 148 <= 100 * f_units x <= 2047 * 2 ^ 148 /\
  old_float_to_bytes x = word 30672 /\ knx_hundredths 30672 = 32768000.
Proof. cbv zeta. split; [reflexivity|]. split; [exact I|]. split; [vm_compute; split; discriminate|]. split; vm_compute; reflexivity. Qed.

(** Any number from -20.475 to -15.365 is encoded as one more than 10 above
    it: the code is sign and magnitude, not two's complement. *)
Theorem C155_negative_refuted : forall x, is_f32 x -> f_finite x ->
  - 4095 * 2 ^ 148 <= 100 * f_units x <= - 3073 * 2 ^ 148 ->
  exists code, old_float_to_bytes x = word code /\ (code < 65536)%N /\
    100 * f_units x + 1000 * 2 ^ 149 < knx_hundredths code * 2 ^ 149.
Proof. exact old_negative. Qed.
(** -20.0 *)
Example C155_negative_example :
  let x := f_of_Z (-20) in
  is_f32 x /\ f_finite x /\ - 4095 * 2 ^ 148 <= 100 * f_units x <= - 3073 * 2 ^ 148 /\
  old_float_to_bytes x = word 34768 /\ knx_hundredths 34768 = -48.
Proof. cbv zeta. split; [reflexivity|]. split; [exact I|]. split; [vm_compute; split; discriminate|]. split; vm_compute; reflexivity. Qed.

(** 400.0 is encoded as 72.32. *)
Theorem C155_refuted : ~ C155_wanted.
Proof.
  intro H. destruct (H (f_of_Z 400)) as (c&E&C&B); [reflexivity|exact I|vm_compute; split; discriminate|].
  assert (E2 : word c = word 5904) by (rewrite <- E; vm_compute; reflexivity).
  assert (c = 5904%N) as ->.
  { pose proof (N.div_mod c 256 ltac:(discriminate)) as D. unfold word in E2. injection E2 as E3 E4. rewrite E3, E4 in D. exact D. }
  revert B. vm_compute. intro B. apply B. reflexivity.
Qed.

(** What the encoder does with a finite number, exactly: W is the f32 product
    of |x| and 100, correctly rounded; of its integer part, at most
    4294967295, the low 15 bits are kept; [old_hundredths] of that is the
    result, except that for a negative number 2048 steps are taken off. *)
Theorem C155_general : forall x, is_f32 x -> f_finite x ->
  exists code W,
    old_float_to_bytes x = word code /\ (code < 65536)%N /\
    2 ^ 24 * Z.abs (W - 100 * Z.abs (f_units x)) <= Z.max (100 * Z.abs (f_units x)) (2 ^ 23) /\
    0 <= W /\
    let r := Z.min 4294967295 (W / 2 ^ 149) mod 32768 in
    knx_hundredths code = old_hundredths r - (if f_units x <? 0 then 2048 * 2 ^ knx_exponent code else 0) /\
    (1024 <= r -> knx_exponent code = Z.log2 r - 10).
Proof. exact old_float_general. Qed.
(** 400.0: the integer part 40000 has the low bits 7232. *)
Example C155_general_example :
  let x := f_of_Z 400 in
  is_f32 x /\ f_finite x /\ 40000 mod 32768 = 7232 /\ old_hundredths 7232 = 7232 /\
  old_float_to_bytes x = word 5904 /\ knx_hundredths 5904 = 7232.
Proof. cbv zeta. split; [reflexivity|]. split; [exact I|]. split; [reflexivity|]. split; [reflexivity|]. split; vm_compute; reflexivity. Qed.

(** From 10.245 to 327.675 the code is right up to one step (and the rounding
    of the product, below 1/256 of a hundredth).  Missing: everything else. *)
Theorem C155_truncates_partial : forall x, is_f32 x -> f_finite x ->
  2049 * 2 ^ 148 <= 100 * f_units x <= 65535 * 2 ^ 148 ->
  exists code, old_float_to_bytes x = word code /\ (code < 65536)%N /\
    - 2 ^ 141 < 100 * f_units x - knx_hundredths code * 2 ^ 149 < 2 ^ (149 + knx_exponent code) + 2 ^ 141.
Proof. exact old_truncates. Qed.
(** 327.0 is encoded as 326.88. *)
Example C155_truncates_example :
  let x := f_of_Z 327 in
  is_f32 x /\ f_finite x /\ 2049 * 2 ^ 148 <= 100 * f_units x <= 65535 * 2 ^ 148 /\
  old_float_to_bytes x = word 10235 /\ knx_hundredths 10235 = 32688.
Proof. cbv zeta. split; [reflexivity|]. split; [exact I|]. split; [vm_compute; split; discriminate|]. split; vm_compute; reflexivity. Qed.
