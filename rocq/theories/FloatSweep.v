(** Computation over the 2048 mantissas of the 2-byte float. *)
From Coq Require Import String.
From Coq.Floats Require Import SpecFloat.
From Verif Require Import Base Wire Spec BaseProofs Apdu DpTypes.
Open Scope Z_scope.

Definition check_mantissa (M : Z) : bool :=
  match f_of_Z M with
  | S754_finite false c g =>
     (8388608 <=? Z.pos c) && (Z.pos c <? 16777216) && (-40 <=? g) && (g <=? 0) &&
     match f_mul (f_lit 1 100) (f_of_Z M) with
     | S754_finite false m e =>
        (8388608 <=? Z.pos m) && (Z.pos m <? 16777216) && (-40 <=? e) && (e <=? 0) &&
        (2 ^ 22 * Z.abs (100 * Z.pos m * 2 ^ (e + 40) - M * 2 ^ 40) <=? M * 2 ^ 40)
     | _ => false
     end
  | _ => false
  end.
Lemma check_mantissas : forallb (fun n => check_mantissa (Z.of_nat n)) (seq 1 2047) = true.
Proof. vm_cast_no_check (eq_refl true). Qed.
