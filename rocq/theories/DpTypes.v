(** Model of src/dp_types.rs.

    f32 is [spec_float] of the standard library (Coq.Floats.SpecFloat) with
    precision 24 and emax 128: IEEE-754 binary32, round to nearest even.  NaN
    payloads are not modelled. *)
From Coq Require Import String.
From Coq.Floats Require Import SpecFloat.
From Verif Require Import Base Apdu.
Open Scope Z_scope.

Definition f32 := spec_float.
Definition f_mul : f32 -> f32 -> f32 := SFmul 24 128.
Definition f_add : f32 -> f32 -> f32 := SFadd 24 128.
Definition f_div : f32 -> f32 -> f32 := SFdiv 24 128.
(** [z as f32] for an integer, and integer-valued literals. *)
Definition f_of_Z (z : Z) : f32 := binary_normalize 24 128 z 0 false.
(** A decimal literal [p/q]: the f32 nearest to the quotient.  [p] and [q] are
    exact in f32, so the correctly rounded division is that f32. *)
Definition f_lit (p q : Z) : f32 := f_div (f_of_Z p) (f_of_Z q).

(** [x.round()] read as an integer: nearest, ties away from zero. *)
Definition round_away (s : bool) (m : positive) (e : Z) : Z :=
  let a := if 0 <=? e then Zpos m * 2 ^ e
           else (Zpos m + 2 ^ (- e - 1)) / 2 ^ (- e) in
  if s then - a else a.
(** [x.round() as T] for an integer type with range [lo..hi]: saturating, NaN
    becomes 0. *)
Definition round_as (lo hi : Z) (x : f32) : Z :=
  match x with
  | S754_zero _ => 0
  | S754_infinity s => if s then lo else hi
  | S754_nan => 0
  | S754_finite s m e => Z.max lo (Z.min hi (round_away s m e))
  end.

(** Wrapping of an i16. *)
Definition wrap_i16 (z : Z) : Z := (z + 32768) mod 65536 - 32768.

(** ** DPT 9: 2-byte float *)
(** Outcome of a computation containing a [while] loop. *)
Inductive outcome (A : Type) := Done (a : A) | PanicO | OutOfFuel.
Arguments Done {A} a.
Arguments PanicO {A}.
Arguments OutOfFuel {A}.

(** [exp += 1] on the i16 [exp] (its type is fixed by [exp << 3 | m >> 8] with
    [m : i16], dp_types.rs:241). *)
Definition incr_i16 (p : profile) (e : Z) : outcome Z :=
  if e <? 32767 then Done (e + 1)
  else match p with Debug => PanicO | Release => Done (wrap_i16 (e + 1)) end.

(** dp_types.rs:231-234 / 235-238: [while cond v { v /= 2.0; exp += 1; }].
    The loop may not terminate, hence the explicit fuel. *)
Fixpoint halve_while (p : profile) (cond : f32 -> bool) (fuel : nat) (v : f32) (exp : Z)
  : outcome (f32 * Z) :=
  if cond v then
    match fuel with
    | O => OutOfFuel
    | S f =>
        match incr_i16 p exp with
        | Done exp' => halve_while p cond f (f_div v (f_of_Z 2)) exp'
        | PanicO => PanicO
        | OutOfFuel => OutOfFuel
        end
    end
  else Done (v, exp).

(** dp_types.rs:240-246: the bytes from the scaled value and the exponent. *)
Definition float_code (v : f32) (exp : Z) : list N :=
  let m := Z.land (round_as (-32768) 32767 v) 0x7ff in
  let msb := (Z.lor (wrap_i16 (Z.shiftl exp 3)) (Z.shiftr m 8)) mod 256 in
  let msb := if SFltb v (f_of_Z 0) then Z.lor msb 0x80 else msb in
  let lsb := (Z.land m 0xff) mod 256 in
  [Z.to_N msb; Z.to_N lsb].

(** dp_types.rs:228-247. *)
Definition float_to_bytes (p : profile) (fuel : nat) (v : f32) : outcome (list N) :=
  let v := f_mul v (f_of_Z 100) in
  match halve_while p (fun v => SFltb v (f_of_Z (-2048))) fuel v 0 with
  | Done (v, exp) =>
      match halve_while p (fun v => SFltb (f_of_Z 2048) v) fuel v exp with
      | Done (v, exp) => Done (float_code v exp)
      | PanicO => PanicO
      | OutOfFuel => OutOfFuel
      end
  | PanicO => PanicO
  | OutOfFuel => OutOfFuel
  end.

(** dp_types.rs:255-260: the exponent, an i16. *)
Definition decode_exp (value : N) : Z :=
  let exp := Z.of_N (N.shiftr (N.land value 0x7800) 11) in
  if 0 <? Z.land exp 8 then Z.lxor (exp - 1) 0xf + -1 else exp.
(** dp_types.rs:261-265: the mantissa magnitude, a u16. *)
Definition decode_mantissa (p : profile) (value : N) : res N :=
  let mantissa := N.land value 0x07ff in
  if (0 <? N.land value 0x8000)%N then
    bind (sub_chk p u16_max1 mantissa 1) (fun m => Ok (N.lxor m 0x7ff))
  else Ok mantissa.
(** dp_types.rs:249-268, after the two bytes have been read as a u16. *)
Definition float_of_u16 (p : profile) (value : N) : res f32 :=
  let sign := if (0 <? N.land value 0x8000)%N then f_of_Z (-1) else f_of_Z 1 in
  bind (decode_mantissa p value) (fun mantissa =>
  let mantissa := f_mul (f_of_Z (Z.of_N mantissa)) sign in
  Ok (f_mul (f_mul (f_lit 1 100) mantissa) (f_of_Z (Z.shiftl 1 (decode_exp value))))).
(** dp_types.rs:249-253: the slice must have exactly two bytes. *)
Definition bytes_to_float (p : profile) (bs : list N) : res f32 :=
  match bs with
  | [a; b] => float_of_u16 p (a * 256 + b)%N
  | _ => Err
  end.

(** ** The data point records.  [code] and [unit] are the public text fields. *)
Open Scope string_scope.

(** dp_types.rs:16-20. *)
Record scaled := { sc_code : string; sc_unit : string; sc_value : N }.
(** dp_types.rs:23-29, 35-46. *)
Definition scaled_general (v : N) : scaled := {| sc_code := "5.x"; sc_unit := ""; sc_value := v |}.
Definition scaled_from_bytes (b : list N) : res scaled :=
  match b with
  | v :: _ => Ok {| sc_code := "5.001"; sc_unit := "%"; sc_value := v |}
  | [] => Err
  end.
Definition scaled_get_bytes (s : scaled) : list N := [sc_value s].
(** dp_types.rs:54-60. *)
Definition scaled_scaling (percent : f32) : scaled :=
  {| sc_code := "5.001"; sc_unit := "%";
     sc_value := Z.to_N (round_as 0 255 (f_add (f_mul percent (f_lit 254 100)) (f_of_Z 1))) |}.
(** dp_types.rs:62-67. *)
Definition scaled_get_value (s : scaled) : f32 :=
  if (sc_value s =? 0)%N then f_of_Z 0
  else f_div (f_of_Z (Z.of_N (sc_value s - 1))) (f_lit 254 100).

(** dp_types.rs:70-74; the value is an i16. *)
Record knx_int := { in_code : string; in_unit : string; in_value : Z }.
(** dp_types.rs:77-83. *)
Definition int_general (v : Z) : knx_int := {| in_code := "8.x"; in_unit := ""; in_value := v |}.
(** [i16::from_be_bytes] on the u16 [n]. *)
Definition i16_of_u16 (n : N) : Z := wrap_i16 (Z.of_N n).
Definition u16_of_i16 (z : Z) : N := Z.to_N (z mod 65536).
(** dp_types.rs:88-99. *)
Definition int_from_bytes (b : list N) : res knx_int :=
  match b with
  | x :: y :: _ => Ok {| in_code := "8.x"; in_unit := ""; in_value := i16_of_u16 (x * 256 + y) |}
  | _ => Err
  end.
(** dp_types.rs:101-103. *)
Definition int_get_bytes (i : knx_int) : list N := be16 (u16_of_i16 (in_value i)).
(** dp_types.rs:111-117. *)
Definition int_value_2_count (v : Z) : knx_int :=
  {| in_code := "8.001"; in_unit := "pulses"; in_value := v |}.
(** dp_types.rs:119-125: [value * 100] is an i16 multiplication. *)
Definition int_percent_v16 (p : profile) (v : Z) : res knx_int :=
  let prod := v * 100 in
  let mk z := {| in_code := "8.010"; in_unit := "%"; in_value := z |} in
  if ((-32768 <=? prod) && (prod <=? 32767))%Z then Ok (mk prod)
  else match p with Debug => Panic | Release => Ok (mk (wrap_i16 prod)) end.

(** dp_types.rs:128-132. *)
Record knx_float := { fl_code : string; fl_unit : string; fl_value : f32 }.
(** dp_types.rs:135-141. *)
Definition float_general (v : f32) : knx_float := {| fl_code := "9.x"; fl_unit := ""; fl_value := v |}.
(** dp_types.rs:165-171; the unit is the two-character text "°C", kept as "degC". *)
Definition float_temp (v : f32) : knx_float := {| fl_code := "9.001"; fl_unit := "degC"; fl_value := v |}.
(** dp_types.rs:146-153. *)
Definition float_from_bytes (p : profile) (b : list N) : res knx_float :=
  bind (bytes_to_float p b) (fun v => Ok (float_general v)).
(** dp_types.rs:155-157. *)
Definition float_get_bytes (p : profile) (fuel : nat) (f : knx_float) : outcome (list N) :=
  float_to_bytes p fuel (fl_value f).
(** dp_types.rs:173-176. *)
Definition float_temp_from_bytes (p : profile) (b : list N) : res knx_float :=
  bind (bytes_to_float p b) (fun v => Ok (float_temp v)).

(** dp_types.rs:270-305. *)
Record knx_byte := { by_code : string; by_value : N }.
Definition byte_general (v : N) : knx_byte := {| by_code := "20.x"; by_value := v |}.
Definition byte_get_bytes (b : knx_byte) : list N := [by_value b].
Definition byte_from_bytes (b : list N) : res knx_byte :=
  match b with v :: _ => Ok {| by_code := "20.x"; by_value := v |} | [] => Err end.

(** dp_types.rs:307-343. *)
Record knx_word := { wo_code : string; wo_value : N }.
Definition word_general (v : N) : knx_word := {| wo_code := "7.x"; wo_value := v |}.
Definition word_get_bytes (w : knx_word) : list N := be16 (wo_value w).
Definition word_from_bytes (b : list N) : res knx_word :=
  match read_u16 b with
  | Ok (v, _) => Ok {| wo_code := "7.x"; wo_value := v |}
  | Err => Err | Panic => Panic
  end.

(** dp_types.rs:345-381; [from_bytes] labels the value "8.x" (line 373). *)
Record knx_ulong := { ul_code : string; ul_value : N }.
Definition ulong_general (v : N) : knx_ulong := {| ul_code := "12.x"; ul_value := v |}.
Definition ulong_get_bytes (u : knx_ulong) : list N := be32 (ul_value u).
Definition ulong_from_bytes (b : list N) : res knx_ulong :=
  match read_u32 b with
  | Ok (v, _) => Ok {| ul_code := "8.x"; ul_value := v |}
  | Err => Err | Panic => Panic
  end.

(** dp_types.rs:383-423. *)
Record knx_bit := { bi_code : string; bi_value : bool }.
Definition bit_general (v : bool) : knx_bit := {| bi_code := "1.x"; bi_value := v |}.
Definition bit_switch (v : bool) : knx_bit := {| bi_code := "1.001"; bi_value := v |}.
Definition bit_get_bytes (b : knx_bit) : list N := [if bi_value b then 1%N else 0%N].
Definition bit_from_bytes (b : list N) : res knx_bit :=
  match b with v :: _ => Ok {| bi_code := "1.x"; bi_value := (0 <? v)%N |} | [] => Err end.

(** dp_types.rs:425-483; [from_bytes] labels the value "0.x" (line 456). *)
Record b1u3 := { b3_code : string; b3_bit : bool; b3_step : N }.
Definition b1u3_get_value (b : b1u3) : N :=
  N.lor (if b3_bit b then 8 else 0) (b3_step b).
Definition b1u3_get_bytes (b : b1u3) : list N := [b1u3_get_value b].
Definition b1u3_general (v : N) : b1u3 :=
  {| b3_code := "3.x"; b3_bit := (0 <? N.land v 8)%N; b3_step := N.land v 7 |}.
Definition b1u3_from_bytes (b : list N) : res b1u3 :=
  match b with
  | v :: _ => Ok {| b3_code := "0.x"; b3_bit := (0 <? N.land v 8)%N; b3_step := N.land v 7 |}
  | [] => Err
  end.
(** dp_types.rs:468-482. *)
Definition b1u3_dimming (increase : bool) (step : N) : b1u3 :=
  {| b3_code := "3.007"; b3_bit := increase; b3_step := N.land step 7 |}.
Definition b1u3_blinds (up : bool) (step : N) : b1u3 :=
  {| b3_code := "3.008"; b3_bit := up; b3_step := N.land step 7 |}.

(** ** The [Pdt] trait as a sum of its implementors, for
    [APDU::group_value_write_pd] (apdu.rs:38-48). *)
Inductive pdt :=
| PScaled (v : scaled) | PInt (v : knx_int) | PFloat (v : knx_float) | PByte (v : knx_byte)
| PWord (v : knx_word) | PULong (v : knx_ulong) | PBit (v : knx_bit) | PB1U3 (v : b1u3).

(** [is_small]: dp_types.rs:48, 105, 159, 302 ([todo!()]), 340, 378, 411, 462. *)
Definition pdt_is_small (d : pdt) : outcome bool :=
  match d with
  | PScaled _ => Done false
  | PInt _ => Done false
  | PFloat _ => Done false
  | PByte _ => PanicO
  | PWord _ => Done false
  | PULong _ => Done false
  | PBit _ => Done true
  | PB1U3 _ => Done true
  end.
Definition pdt_get_bytes (p : profile) (fuel : nat) (d : pdt) : outcome (list N) :=
  match d with
  | PScaled v => Done (scaled_get_bytes v)
  | PInt v => Done (int_get_bytes v)
  | PFloat v => float_get_bytes p fuel v
  | PByte v => Done (byte_get_bytes v)
  | PWord v => Done (word_get_bytes v)
  | PULong v => Done (ulong_get_bytes v)
  | PBit v => Done (bit_get_bytes v)
  | PB1U3 v => Done (b1u3_get_bytes v)
  end.

(** apdu.rs:38-48. *)
Definition group_value_write_pd (p : profile) (fuel : nat) (d : pdt) : outcome apdu :=
  match pdt_is_small d with
  | Done small =>
      match pdt_get_bytes p fuel d with
      | Done bs =>
          Done {| apdu_apci := a_group_value_write;
                  apdu_payload := if small then Small (hd 0%N bs) else Big bs |}
      | PanicO => PanicO
      | OutOfFuel => OutOfFuel
      end
  | PanicO => PanicO
  | OutOfFuel => OutOfFuel
  end.
