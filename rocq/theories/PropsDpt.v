(** Properties C36-C40: integer, boolean, control and scaled data points.
    Proofs in DptProofs.v. *)
From Coq Require Import String.
From Coq.Floats Require Import SpecFloat.
From Verif Require Import Base Apdu DpTypes Wire BaseProofs DptProofs.
Open Scope N_scope.

(** ** C36 *)
Theorem C36_byte : forall v b,
  (exists d, byte_from_bytes (byte_get_bytes (byte_general v)) = Ok d /\ by_value d = v) /\
  (forall d, byte_from_bytes [b] = Ok d -> byte_get_bytes d = [b]).
Proof. intros v b. exact (conj (byte_roundtrip (byte_general v)) (byte_reencode b)). Qed.
Theorem C36_scaled_raw : forall v b,
  (exists d, scaled_from_bytes (scaled_get_bytes (scaled_general v)) = Ok d /\ sc_value d = v) /\
  (forall d, scaled_from_bytes [b] = Ok d -> scaled_get_bytes d = [b]).
Proof. intros v b. exact (conj (scaled_roundtrip (scaled_general v)) (scaled_reencode b)). Qed.
Theorem C36_word : forall w rest, wo_value w < 65536 ->
  word_get_bytes w = word (wo_value w) /\
  exists d, word_from_bytes (word_get_bytes w ++ rest) = Ok d /\ wo_value d = wo_value w.
Proof. intros w rest H. exact (conj (word_bytes_eq w H) (word_roundtrip w rest H)). Qed.
Theorem C36_word_reencode : forall a b d, a < 256 -> b < 256 ->
  word_from_bytes [a; b] = Ok d -> word_get_bytes d = [a; b].
Proof. exact word_reencode. Qed.
Theorem C36_ulong : forall u rest, ul_value u < 4294967296 ->
  ulong_get_bytes u = dword (ul_value u) /\
  exists d, ulong_from_bytes (ulong_get_bytes u ++ rest) = Ok d /\ ul_value d = ul_value u.
Proof. intros u rest H. exact (conj (be32_dword _ H) (ulong_roundtrip u rest H)). Qed.
Theorem C36_ulong_reencode : forall a b c e d, a < 256 -> b < 256 -> c < 256 -> e < 256 ->
  ulong_from_bytes [a; b; c; e] = Ok d -> ulong_get_bytes d = [a; b; c; e].
Proof. exact ulong_reencode. Qed.
(** Two's complement. *)
Theorem C36_int : forall i rest, (-32768 <= in_value i <= 32767)%Z ->
  int_get_bytes i = word (Z.to_N (if (in_value i <? 0)%Z then in_value i + 65536 else in_value i)) /\
  exists d, int_from_bytes (int_get_bytes i ++ rest) = Ok d /\ in_value d = in_value i.
Proof. intros i rest H. exact (conj (int_bytes_eq i H) (int_roundtrip i rest H)). Qed.
Theorem C36_int_reencode : forall a b d, a < 256 -> b < 256 ->
  int_from_bytes [a; b] = Ok d -> int_get_bytes d = [a; b] /\ (-32768 <= in_value d <= 32767)%Z.
Proof. exact int_reencode. Qed.
(** A boolean byte above 1 reads as true and is written as 1. *)
Theorem C36_bit : forall b rest,
  bit_get_bytes b = [if bi_value b then 1 else 0] /\
  exists d, bit_from_bytes (bit_get_bytes b ++ rest) = Ok d /\ bi_value d = bi_value b.
Proof. intros b rest. exact (conj eq_refl (bit_roundtrip b rest)). Qed.
Theorem C36_bit_reencode : forall b d, bit_from_bytes [b] = Ok d -> bit_get_bytes d = [if b =? 0 then 0 else 1].
Proof. exact bit_reencode. Qed.
Theorem C36_too_few_bytes :
  scaled_from_bytes [] = Err /\ byte_from_bytes [] = Err /\ bit_from_bytes [] = Err /\ b1u3_from_bytes [] = Err /\
  (forall bs, (length bs < 2)%nat -> int_from_bytes bs = Err /\ word_from_bytes bs = Err) /\
  (forall bs, (length bs < 4)%nat -> ulong_from_bytes bs = Err).
Proof. exact from_bytes_short. Qed.
Example C36_example :
  int_get_bytes (int_general (-2)) = [255; 254] /\ ulong_get_bytes (ulong_general 0xdeadbeef) = [0xde; 0xad; 0xbe; 0xef].
Proof. split; reflexivity. Qed.

(** ** C37 *)
Theorem C37_control_general : forall v, b1u3_get_bytes (b1u3_general v) = [v mod 16].
Proof. exact b1u3_general_bytes. Qed.
Theorem C37_control_dimming : forall increase step,
  b1u3_get_bytes (b1u3_dimming increase step) = [(if increase then 8 else 0) + step mod 8].
Proof. exact b1u3_dimming_bytes. Qed.
Theorem C37_control_blinds : forall up step,
  b1u3_get_bytes (b1u3_blinds up step) = [(if up then 8 else 0) + step mod 8].
Proof. exact b1u3_blinds_bytes. Qed.
Theorem C37_control_decode_inverts : forall b rest, b3_step b < 8 ->
  exists d, b1u3_from_bytes (b1u3_get_bytes b ++ rest) = Ok d /\ b3_bit d = b3_bit b /\ b3_step d = b3_step b.
Proof. exact b1u3_roundtrip. Qed.
Theorem C37_control_step_bounded :
  (forall v, b3_step (b1u3_general v) < 8) /\ (forall i s, b3_step (b1u3_dimming i s) < 8) /\
  (forall i s, b3_step (b1u3_blinds i s) < 8) /\
  (forall bs d, b1u3_from_bytes bs = Ok d -> b3_step d < 8).
Proof. exact b1u3_constructors_bounded. Qed.
Example C37_example : b1u3_get_bytes (b1u3_dimming true 3) = [11] /\ b1u3_get_bytes (b1u3_blinds false 9) = [1].
Proof. split; reflexivity. Qed.

(** ** C38 *)
Theorem C38_percent_v16 : forall p v, (-32768 <= v <= 32767)%Z ->
  int_percent_v16 p v =
  (if (Z.abs v <=? 327)%Z then Ok {| in_code := "8.010"; in_unit := "%"; in_value := (v * 100)%Z |}
   else match p with
        | Debug => Panic
        | Release => Ok {| in_code := "8.010"; in_unit := "%"; in_value := ((v * 100 + 32768) mod 65536 - 32768)%Z |}
        end).
Proof. exact percent_v16_spec. Qed.
Theorem C38_percent_v16_wrong_above : forall v, (-32768 <= v <= 32767)%Z -> (327 < Z.abs v)%Z ->
  forall i, int_percent_v16 Release v = Ok i -> in_value i <> (v * 100)%Z /\ (-32768 <= in_value i <= 32767)%Z.
Proof. exact percent_v16_wraps. Qed.
Example C38_example :
  int_percent_v16 Debug 327 = Ok {| in_code := "8.010"; in_unit := "%"; in_value := 32700 |} /\
  int_percent_v16 Debug 328 = Panic /\
  int_percent_v16 Release 328 = Ok {| in_code := "8.010"; in_unit := "%"; in_value := -32736 |}.
Proof. repeat split. Qed.

(** ** C39 *)
Theorem C39_scaled_roundtrip : forall s,
  1 <= sc_value s < 256 -> sc_value (scaled_scaling (scaled_get_value s)) = sc_value s.
Proof. exact scaled_value_roundtrip. Qed.
Theorem C39_scaling_is_a_byte : forall x, sc_value (scaled_scaling x) < 256.
Proof. exact scaling_is_byte. Qed.
Theorem C39_scaling_special :
  sc_value (scaled_scaling S754_nan) = 0 /\ sc_value (scaled_scaling (S754_infinity false)) = 255 /\
  sc_value (scaled_scaling (S754_infinity true)) = 0.
Proof. exact scaling_special. Qed.
Example C39_example :
  sc_value (scaled_scaling (f_of_Z 50)) = 128 /\ sc_value (scaled_scaling (f_of_Z 100)) = 255 /\
  sc_value (scaled_scaling (f_of_Z 200)) = 255 /\ sc_value (scaled_scaling (f_of_Z (-5))) = 0.
Proof. repeat split. Qed.

(** ** C40: false.  0 percent is written as byte 1, which reads as 0 percent
    too; byte 0 never comes from a percentage of at least 0. *)
Theorem C40_scaling_zero_refuted :
  (forall s, sc_value (scaled_scaling (S754_zero s)) = 1) /\
  (forall s, sc_value s = 0 -> sc_value (scaled_scaling (scaled_get_value s)) = 1) /\
  (forall s, sc_value s <= 1 -> scaled_get_value s = S754_zero false).
Proof. exact scaling_zero_all. Qed.
