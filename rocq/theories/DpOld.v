(** Model of the first encoder of the 2-byte float, `_float_to_bytes`
    (src/dp_types.rs:179-223).  Nothing in the library calls it. *)
From Coq Require Import String.
From Coq.Floats Require Import SpecFloat.
From Verif Require Import Base Apdu DpTypes.
Open Scope Z_scope.

(** [x.abs()], [a - b], [x.floor()] and [x as u32] (towards zero, saturating,
    NaN becomes 0) for f32. *)
Definition f_abs : f32 -> f32 := SFabs.
Definition f_sub : f32 -> f32 -> f32 := SFsub 24 128.
Definition f_floor (x : f32) : f32 :=
  match x with
  | S754_finite s m e =>
      if 0 <=? e then x
      else f_of_Z (if s then - ((Zpos m + 2 ^ (- e) - 1) / 2 ^ (- e)) else Zpos m / 2 ^ (- e))
  | _ => x
  end.
Definition f_as_u32 (x : f32) : N :=
  match x with
  | S754_finite false m e =>
      Z.to_N (Z.min 4294967295 (if 0 <=? e then Zpos m * 2 ^ e else Zpos m / 2 ^ (- e)))
  | S754_infinity false => 4294967295%N
  | _ => 0%N
  end.

(** dp_types.rs:187-195: eleven binary digits of the fraction, in bits 15..5. *)
Fixpoint fraction_bits (n : nat) (i : N) (f : f32) (bits : N) : N :=
  match n with
  | O => bits
  | S n' =>
      let f := f_mul f (f_of_Z 2) in
      if SFleb (f_of_Z 1) f
      then fraction_bits n' (i + 1) (f_sub f (f_of_Z 1)) (N.lor bits (N.shiftl 1 (15 - i)))
      else fraction_bits n' (i + 1) f bits
  end.

(** dp_types.rs:203-209: the highest of the bits 30..0 that is set, 0 if none. *)
Definition first_bit_set (mantissa : N) : N :=
  match find (fun i => N.ltb 0 (N.land mantissa (N.shiftl 1 i))) (map N.of_nat (rev (seq 0 31))) with
  | Some i => i
  | None => 0%N
  end.

(** dp_types.rs:197-222.  [<<] on u32 drops the bits above 31; [as u16] keeps
    the low 16 bits. *)
Definition old_code (sign : bool) (m bits : N) : N :=
  let mantissa := N.lor (N.shiftl m 16 mod 4294967296) bits in
  let first := first_bit_set mantissa in
  let exp := Z.of_N first - 16 - 10 in
  let mantissa := (N.shiftl m (31 - first) mod 4294967296)%N in
  let f16 := if sign then 32768%N else 0%N in
  let f16 := N.lor f16 (N.land (Z.to_N (Z.shiftl exp 11 mod 65536)) 30720) in
  N.lor f16 (N.shiftr (N.land (mantissa mod 65536) 65504) 5).

(** dp_types.rs:179-223.  No operation in it can overflow in the sense of the
    debug checks (every shift amount is below the width, [exp] is at least
    -26), so the profile does not matter. *)
Definition old_float_to_bytes (value : f32) : list N :=
  let sign := SFltb value (f_of_Z 0) in
  let v := f_abs value in
  let v := f_mul v (f_of_Z 100) in
  let m := f_floor v in
  let bits := fraction_bits 11 0 (f_sub v m) 0 in
  be16 (old_code sign (f_as_u32 m) bits).
