(** Properties C41-C47: the 2-byte float.  Proofs in FloatProofs.v, FloatMul.v,
    FloatEncode.v, FloatCode.v, FloatDecode.v, FloatRound.v and FloatMore.v.

    A finite f32 is an integral multiple of 2^-149: [f_units x] is x in these
    units.  [knx_hundredths code] is the KNX value of a 16-bit code in
    hundredths.  The first argument of [float_to_bytes] after the profile
    bounds the number of halvings. *)
From Coq Require Import String.
From Coq.Floats Require Import SpecFloat.
From Verif Require Import Base Apdu DpTypes Wire Spec FloatMore FloatRound.
Open Scope Z_scope.

(** ** C41, C42 *)
(** A code is decoded to its KNX value, up to one part in 2^22, exactly when the
    exponent is below 8 or the mantissa is 0, and it is not one of the
    negative codes with mantissa field 0. *)
Theorem C41_decode_exact_iff : forall p code, (code < 65536)%N ->
  ((exists x, bytes_to_float p (word code) = Ok x /\ decodes_to code x) <->
   (code mod 2048 = 0 /\ code < 32768)%N \/ ((code mod 2048 <> 0)%N /\ knx_exponent code < 8)).
Proof. exact decode_correct_iff. Qed.
Theorem C42_decode_every_code_refuted : forall p,
  ~ (forall code, (code < 65536)%N -> exists x, bytes_to_float p (word code) = Ok x /\ decodes_to code x).
Proof. exact decode_all_refuted. Qed.
(** In a debug build the negative codes with mantissa field 0 panic. *)
Theorem C42_decode_panics : forall code, (code < 65536)%N ->
  (bytes_to_float Debug (word code) = Panic <-> (32768 <= code /\ code mod 2048 = 0)%N).
Proof. exact decode_panic_iff. Qed.
Example C41_ex1 : exists x, bytes_to_float Debug [0x0c; 0x1a]%N = Ok x /\ decodes_to 0x0c1a x /\ knx_hundredths 0x0c1a = 2100.
Proof. eexists. split; [vm_compute; reflexivity|]. split; [repeat split; vm_compute; congruence|reflexivity]. Qed.
Example C42_ex1 : knx_hundredths 0x4401 = 1025 * 256 /\
  exists x, bytes_to_float Debug [0x44; 0x01]%N = Ok x /\ Z.abs (100 * f_units x - 1025 * 128 * 2 ^ 149) < 2 ^ 149.
Proof. split; [reflexivity|]. eexists. split; [vm_compute; reflexivity|]. vm_compute. reflexivity. Qed.

(** ** C43, C44 *)
(** [overflow_bound] is 200 times the least magnitude (in units of 2^-149) whose
    hundredfold overflows f32. *)
Theorem C43_terminates : forall x, is_f32 x -> ~ f_infinite x -> 200 * Z.abs (f_units x) < (2 ^ 25 - 1) * 2 ^ 253 ->
  exists code, (code < 65536)%N /\
    forall p fuel, (117 <= fuel)%nat -> float_to_bytes p fuel x = Done (word code).
Proof. exact encode_terminates. Qed.
Theorem C43_nan : forall p fuel, (117 <= fuel)%nat -> float_to_bytes p fuel S754_nan = Done [0%N; 0%N].
Proof. exact encode_nan. Qed.
(** 117 is attained: 2^121 (whose hundredfold is just below 2^128). *)
Example C43_ex1 : is_f32 (S754_finite false 8388608 98) /\
  float_to_bytes Debug 116 (S754_finite false 8388608 98) = OutOfFuel /\
  float_to_bytes Debug 117 (S754_finite false 8388608 98) = Done [0xae; 0x40]%N.
Proof. vm_compute. repeat split. Qed.
Theorem C44_returns_iff : forall p x, is_f32 x ->
  ((exists fuel bs, float_to_bytes p fuel x = Done bs) <->
   ~ f_infinite x /\ 200 * Z.abs (f_units x) < (2 ^ 25 - 1) * 2 ^ 253).
Proof. exact encode_returns_iff. Qed.
(** Otherwise: an endless loop in release builds, a panic in debug builds. *)
Theorem C44_always_returns_refuted : forall x, is_f32 x ->
  f_infinite x \/ (2 ^ 25 - 1) * 2 ^ 253 <= 200 * Z.abs (f_units x) -> forall fuel,
  float_to_bytes Release fuel x = OutOfFuel /\
  (32768 <= Z.of_nat fuel -> float_to_bytes Debug fuel x = PanicO).
Proof. exact encode_diverges. Qed.
(** f32::MAX is such a value. *)
Example C44_ex1 : is_f32 (S754_finite true 16777215 104) /\ f_finite (S754_finite true 16777215 104) /\
  (2 ^ 25 - 1) * 2 ^ 253 <= 200 * Z.abs (f_units (S754_finite true 16777215 104)).
Proof. vm_compute. repeat split; congruence. Qed.

(** ** C45, C46 *)
(** W is the f32 product of the input and 100, k the least number of halvings
    bringing it into -2048..2048.  The code is within half a step 2^k of W
    exactly when k fits the exponent field, W/2^k does not round to 2048, and W
    is not in (-0.5, 0). *)
Theorem C45_exact : forall p fuel x, is_f32 x -> f_finite x ->
  200 * Z.abs (f_units x) < (2 ^ 25 - 1) * 2 ^ 253 -> (117 <= fuel)%nat ->
  exists code k,
    float_to_bytes p fuel x = Done (word code) /\ (code < 65536)%N /\
    let W := f_units (f_mul x (f_of_Z 100)) in
    2 ^ 24 * Z.abs (W - 100 * f_units x) <= Z.max (100 * Z.abs (f_units x)) (2 ^ 23) /\
    least_exponent W k /\
    (within_half_step code W k <-> k <= 15 /\ 2 * W < 4095 * 2 ^ (149 + k) /\ ~ (- 2 ^ 149 < 2 * W < 0)) /\
    (within_half_step code W k -> knx_exponent code = k) /\
    (k <= 15 -> 4095 * 2 ^ (149 + k) <= 2 * W -> knx_hundredths code = 0) /\
    (- 2 ^ 149 < 2 * W < 0 -> code = 32768%N).
Proof. exact encode_accuracy. Qed.
(** The error against the input itself: half a step plus the f32 rounding of the
    product. *)
Theorem C45_total_error : forall p fuel x k, is_f32 x -> f_finite x -> (117 <= fuel)%nat ->
  let W := f_units (f_mul x (f_of_Z 100)) in
  200 * Z.abs (f_units x) < (2 ^ 25 - 1) * 2 ^ 253 ->
  least_exponent W k -> k <= 15 -> 2 * W < 4095 * 2 ^ (149 + k) -> ~ (- 2 ^ 149 < 2 * W < 0) ->
  exists code, float_to_bytes p fuel x = Done (word code) /\ (code < 65536)%N /\ knx_exponent code = k /\
    2 ^ 25 * Z.abs (knx_hundredths code * 2 ^ 149 - 100 * f_units x) <=
    2 ^ 24 * 2 ^ (149 + k) + 2 * Z.max (100 * Z.abs (f_units x)) (2 ^ 23).
Proof. exact encode_total_error. Qed.
(** 21.0: k = 1. *)
Example C45_ex1 : let x := f_of_Z 21 in
  is_f32 x /\ f_finite x /\ 200 * Z.abs (f_units x) < (2 ^ 25 - 1) * 2 ^ 253 /\
  least_exponent (f_units (f_mul x (f_of_Z 100))) 1 /\
  2 * f_units (f_mul x (f_of_Z 100)) < 4095 * 2 ^ (149 + 1) /\
  ~ (- 2 ^ 149 < 2 * f_units (f_mul x (f_of_Z 100)) < 0) /\
  float_to_bytes Debug 117 x = Done [0x0c; 0x1a]%N.
Proof. vm_compute. repeat split; try (right; reflexivity); try congruence. intros [_ H]. discriminate H. Qed.
(** Even a tolerance of the largest half step, 163.84, fails within the KNX range
    -671088.64..670760.96: 335544.32 is encoded as 0. *)
Theorem C46_whole_range_refuted : forall p fuel, (117 <= fuel)%nat ->
  ~ (forall x, is_f32 x -> f_finite x ->
       -67108864 * 2 ^ 149 <= 100 * f_units x <= 67076096 * 2 ^ 149 ->
       exists code, float_to_bytes p fuel x = Done (word code) /\ (code < 65536)%N /\
         Z.abs (knx_hundredths code * 2 ^ 149 - 100 * f_units x) <= 2 ^ 14 * 2 ^ 149).
Proof. exact encode_accurate_refuted. Qed.
(** 20.48 becomes 0; -0.001 becomes -20.48. *)
Example C46_ex1 : float_to_bytes Debug 117 (f_lit 2048 100) = Done [0; 0]%N.
Proof. vm_compute. reflexivity. Qed.
Example C46_ex2 : float_to_bytes Debug 117 (f_lit (-1) 1000) = Done [0x80; 0]%N /\ knx_hundredths 0x8000 = -2048.
Proof. vm_compute. split; reflexivity. Qed.

(** ** C47 *)
(** Decoding and encoding again gives the same code exactly for the canonical
    codes: exponent 0, or exponent 1..7 with a mantissa above 1024 in
    magnitude; never for a negative code with mantissa field 0. *)
Theorem C47_round_trip_iff : forall p fuel code, (code < 65536)%N -> (117 <= fuel)%nat ->
  ((exists x, bytes_to_float p (word code) = Ok x /\ float_to_bytes p fuel x = Done (word code)) <->
   canonical_code code = true).
Proof. exact roundtrip_iff. Qed.
Example C47_ex1 : canonical_code 0x0c1a = true /\ canonical_code 0x4401 = false /\ canonical_code 0x0a00 = false.
Proof. vm_compute. repeat split. Qed.
(** The values of the project's unit test. *)
Example C47_ex2 :
  float_to_bytes Debug 117 (S754_zero false) = Done [0; 0]%N /\
  float_to_bytes Debug 117 (f_lit (-1080) 100) = Done [0x83; 0xc8]%N /\
  float_to_bytes Debug 117 (f_lit (-1) 100) = Done [0x87; 0xff]%N /\
  float_to_bytes Debug 117 (S754_finite false 12383682 (-16)) = Done [0x24; 0x9d]%N.
Proof. vm_compute. repeat split. Qed.
