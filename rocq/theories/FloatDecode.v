(** Decoding the 2-byte float, and decoding followed by encoding. *)
From Coq Require Import String.
From Coq.Floats Require Import SpecFloat.
From Verif Require Import Base Wire Spec BaseProofs Apdu DpTypes FloatProofs FloatMul FloatEncode FloatCode FloatSweep.
Open Scope Z_scope.

(** Multiplication by a power of two, up to sign. *)
Lemma mul_pow2 s m e t k : 2 ^ 23 <= Z.pos m < 2 ^ 24 -> -148 < e + k <= 104 ->
  f_mul (S754_finite s m e) (S754_finite t 8388608 (k - 23)) = S754_finite (xorb s t) m (e + k).
Proof.
  intros Hm He. unfold f_mul. cbn [SFmul].
  set (pm := (m * 8388608)%positive).
  assert (Ep : Z.pos pm = Z.pos m * 2 ^ 23) by (unfold pm; lia).
  assert (D : Z.pos (digits2_pos pm) = 47) by (apply digits_unique; lia).
  destruct (round_aux_spec (xorb s t) pm (e + (k - 23)) (e + k)) as [q [Q1 [Q2 [_ [_ Q5]]]]]; [rewrite D; lia|lia|].
  rewrite Q5. replace (e + k - (e + (k - 23))) with 23 in Q2 by lia.
  assert (q = Z.pos m) as -> by lia.
  unfold rounded. destruct (Z.eqb_spec (Z.pos m) 0); [lia|]. destruct (Z.eqb_spec (Z.pos m) (2 ^ 24)); [lia|].
  destruct (Z.leb_spec (e + k) 104); [reflexivity|lia].
Qed.
Lemma round_aux_sign m e l :
  binary_round_aux 24 128 true m e l = SFopp (binary_round_aux 24 128 false m e l).
Proof.
  unfold binary_round_aux. destruct (shr_fexp 24 128 m e l) as [mrs e'].
  destruct (shr_fexp 24 128 _ e' loc_Exact) as [mrs2 e2].
  destruct (shr_m mrs2); try reflexivity. destruct (Z.leb e2 (128 - 24)); reflexivity.
Qed.
Lemma mul_sign s m e c g :
  f_mul (S754_finite s m e) (S754_finite true c g) = SFopp (f_mul (S754_finite s m e) (S754_finite false c g)).
Proof.
  unfold f_mul. cbn [SFmul]. destruct s; cbn [xorb]; rewrite round_aux_sign; [|reflexivity].
  destruct (binary_round_aux 24 128 false _ _ _) as [[]|[]| |[]]; reflexivity.
Qed.

(** Fields of a code. *)
Lemma land_sign v : (v < 65536)%N -> (0 <? N.land v 0x8000)%N = (32768 <=? v)%N.
Proof.
  intro H. assert (E : N.land v 0x8000 = N.shiftl (N.land (N.shiftr v 15) 1) 15).
  { rewrite N.shiftl_land. change (N.shiftl 1 15) with 0x8000%N.
    apply N.bits_inj. intro i. rewrite !N.land_spec. destruct (N.lt_ge_cases i 15) as [L|L].
    - assert (X : N.testbit 0x8000 i = false).
      { change 0x8000%N with (2 ^ 15)%N. apply N.pow2_bits_false. lia. }
      rewrite X, !andb_false_r. reflexivity.
    - rewrite N.shiftl_spec_high' by lia. rewrite N.shiftr_spec by lia. replace (i - 15 + 15)%N with i by lia. reflexivity. }
  rewrite E. change 1%N with (N.ones 1). rewrite N.land_ones, N.shiftr_div_pow2, N.shiftl_mul_pow2.
  change (2 ^ 15)%N with 32768%N. change (2 ^ 1)%N with 2%N.
  destruct (N.leb_spec 32768 v); destruct (N.ltb_spec 0 (v / 32768 mod 2 * 32768)); try reflexivity; lia.
Qed.
Lemma land_exp v : Z.of_N (N.shiftr (N.land v 0x7800) 11) = knx_exponent v.
Proof.
  unfold knx_exponent. rewrite N.shiftr_land. change (N.shiftr 0x7800 11) with (N.ones 4).
  rewrite N.land_ones, N.shiftr_div_pow2. reflexivity.
Qed.
Lemma decode_exp_spec v : decode_exp v = if knx_exponent v <? 8 then knx_exponent v else 15 - knx_exponent v.
Proof.
  unfold decode_exp. rewrite land_exp. cbv zeta.
  assert (H : 0 <= knx_exponent v < 16) by (unfold knx_exponent; lia).
  set (e := knx_exponent v) in *. clearbody e.
  assert (C : forallb (fun n => let e := Z.of_nat n in
     (if 0 <? Z.land e 8 then Z.lxor (e - 1) 15 + -1 else e) =? (if e <? 8 then e else 15 - e)) (seq 0 16) = true) by reflexivity.
  rewrite forallb_forall in C. specialize (C (Z.to_nat e) ltac:(apply in_seq; lia)). cbv beta zeta in C.
  rewrite Z2Nat.id in C by lia. apply Z.eqb_eq in C. exact C.
Qed.
Definition magnitude (v : N) : N := if (32768 <=? v)%N then 2048 - v mod 2048 else v mod 2048.
Lemma land_mant v : N.land v 0x07ff = (v mod 2048)%N.
Proof. change 0x07ff%N with (N.ones 11). rewrite N.land_ones. reflexivity. Qed.
Lemma lxor_mant a : (a < 2048)%N -> N.lxor a 0x7ff = (2047 - a)%N.
Proof.
  intro H. change (N.lxor a 0x7ff) with (N.lnot a 11).
  assert (L : (a = 0 \/ N.log2 a < 11)%N).
  { destruct (N.eq_dec a 0) as [->|N]; [left; reflexivity|right]. apply N.log2_lt_pow2; [lia|]. exact H. }
  destruct L as [->|L]; [reflexivity|].
  pose proof (N.add_lnot_diag_low a 11 L) as E. change (N.ones 11) with 2047%N in E. lia.
Qed.
Definition regular (v : N) : Prop := (v < 32768)%N \/ (v mod 2048 <> 0)%N.
Lemma decode_mantissa_spec p v : (v < 65536)%N -> regular v -> decode_mantissa p v = Ok (magnitude v).
Proof.
  intros H R. unfold decode_mantissa, magnitude. rewrite land_sign, land_mant by assumption.
  destruct (N.leb_spec 32768 v) as [L|L]; [|reflexivity].
  unfold sub_chk. destruct R as [R|R]; [lia|]. destruct (N.leb_spec 1 (v mod 2048)); [|lia].
  cbn [bind]. rewrite lxor_mant by lia. f_equal. lia.
Qed.
Lemma magnitude_abs v : Z.of_N (magnitude v) = Z.abs (knx_mantissa v).
Proof. unfold magnitude, knx_mantissa. destruct (N.leb_spec 32768 v); lia. Qed.
Lemma magnitude_bound v : regular v -> (magnitude v <= 2047)%N.
Proof. unfold magnitude, regular. destruct (N.leb_spec 32768 v); lia. Qed.

Lemma mantissa_checked M : 1 <= M <= 2047 ->
  exists c g m e, f_of_Z M = S754_finite false c g /\ 2 ^ 23 <= Z.pos c < 2 ^ 24 /\ -40 <= g <= 0 /\
    f_mul (f_lit 1 100) (f_of_Z M) = S754_finite false m e /\ 2 ^ 23 <= Z.pos m < 2 ^ 24 /\ -40 <= e <= 0 /\
    2 ^ 22 * Z.abs (100 * Z.pos m * 2 ^ (e + 40) - M * 2 ^ 40) <= M * 2 ^ 40.
Proof.
  intro H. pose proof check_mantissas as C. rewrite forallb_forall in C.
  specialize (C (Z.to_nat M) ltac:(apply in_seq; lia)). rewrite Z2Nat.id in C by lia.
  unfold check_mantissa in C.
  destruct (f_of_Z M) as [|?| |[] c g]; try discriminate.
  apply andb_prop in C. destruct C as [C1 C].
  destruct (f_mul (f_lit 1 100) (S754_finite false c g)) as [|?| |[] m e] eqn:E; try discriminate.
  exists c, g, m, e. rewrite !andb_true_iff in C1, C. 
  repeat split; try assumption; try reflexivity; try lia.
Qed.

Lemma lit_001 : exists c g, f_lit 1 100 = S754_finite false c g.
Proof. vm_compute. eauto. Qed.

Definition close_to (x : f32) (h : Z) : Prop :=
  2 ^ 22 * Z.abs (100 * f_units x - h * 2 ^ 149) <= Z.abs h * 2 ^ 149.
Lemma f_pow2 j : 0 <= j <= 7 -> f_of_Z (Z.shiftl 1 j) = S754_finite false 8388608 (j - 23).
Proof.
  intro H. assert (C : j = 0 \/ j = 1 \/ j = 2 \/ j = 3 \/ j = 4 \/ j = 5 \/ j = 6 \/ j = 7) by lia.
  repeat destruct C as [->|C]; try reflexivity. subst j. reflexivity.
Qed.
Lemma decode_spec p v : (v < 65536)%N -> regular v ->
  exists x, float_of_u16 p v = Ok x /\ is_f32 x /\ f_finite x /\ close_to x (knx_mantissa v * 2 ^ decode_exp v).
Proof.
  intros H R. unfold float_of_u16. rewrite decode_mantissa_spec by assumption. cbn [bind]. cbv zeta.
  rewrite land_sign by assumption.
  assert (J : 0 <= decode_exp v <= 7).
  { rewrite decode_exp_spec. assert (0 <= knx_exponent v < 16) by (unfold knx_exponent; lia).
    destruct (Z.ltb_spec (knx_exponent v) 8); lia. }
  rewrite f_pow2 by exact J. set (j := decode_exp v) in *. clearbody j.
  pose proof (magnitude_bound v R) as MB. pose proof (magnitude_abs v) as MA.
  eexists. split; [reflexivity|].
  destruct (N.eq_dec (magnitude v) 0) as [Z0|NZ].
  { rewrite Z0. assert (K0 : knx_mantissa v = 0) by lia. rewrite K0.
    destruct lit_001 as [c [g ->]]. change (f_of_Z (Z.of_N 0)) with (S754_zero false).
    assert (E : forall b : bool, f_mul (f_mul (S754_finite false c g) (f_mul (S754_zero false) (if b then f_of_Z (-1) else f_of_Z 1)))
              (S754_finite false 8388608 (j - 23)) = S754_zero b) by (intros []; reflexivity).
    rewrite E. split; [reflexivity|]. split; [exact I|]. unfold close_to. cbn [f_units]. lia. }
  destruct (mantissa_checked (Z.of_N (magnitude v)) ltac:(lia)) as [c [g [m [e [E1 [E2 [E3 [E4 [E5 [E6 E7]]]]]]]]]].
  rewrite E1 in E4 |- *.
  set (sg := (32768 <=? v)%N) in *.
  assert (S1 : f_mul (S754_finite false c g) (if sg then f_of_Z (-1) else f_of_Z 1) = S754_finite sg c g).
  { destruct sg.
    - change (f_of_Z (-1)) with (S754_finite true 8388608 (0 - 23)). rewrite mul_pow2 by lia. rewrite Z.add_0_r. reflexivity.
    - change (f_of_Z 1) with (S754_finite false 8388608 (0 - 23)). rewrite mul_pow2 by lia. rewrite Z.add_0_r. reflexivity. }
  rewrite S1.
  assert (S2 : f_mul (f_lit 1 100) (S754_finite sg c g) = S754_finite sg m e).
  { destruct sg; [|exact E4]. destruct lit_001 as [lc [lg EL]]. rewrite EL in E4 |- *. rewrite mul_sign, E4. reflexivity. }
  rewrite S2, mul_pow2 by lia. rewrite Bool.xorb_false_r.
  split; [apply valid_finite; lia|]. split; [exact I|].
  unfold close_to. cbn [f_units].
  assert (Kj : 0 < 2 ^ j) by (apply Z.pow_pos_nonneg; lia).
  assert (P1 : 2 ^ (e + j + 149) = 2 ^ (e + 40) * (2 ^ j * 2 ^ 109)).
  { rewrite <- !pow_split by lia. f_equal. lia. }
  assert (P2 : 2 ^ 149 = 2 ^ 40 * 2 ^ 109) by reflexivity.
  assert (Bp : 0 < 2 ^ 109) by reflexivity.
  rewrite P1, P2. set (B := 2 ^ 109) in *. clearbody B. set (u := 2 ^ (e + 40)) in *. set (t := 2 ^ j) in *.
  set (K := knx_mantissa v) in *.
  assert (ES : K = (if sg then -1 else 1) * Z.of_N (magnitude v)).
  { unfold K, knx_mantissa, sg, magnitude in *. destruct (N.leb_spec 32768 v); lia. }
  set (A := Z.of_N (magnitude v)) in *. clearbody A K t u.
  assert (Tp : 0 < t * B) by nia.
  replace (100 * ((if sg then -1 else 1) * (Z.pos m * (u * (t * B)))) - K * t * (2 ^ 40 * B))
    with ((if sg then -1 else 1) * ((100 * Z.pos m * u - A * 2 ^ 40) * (t * B))) by (rewrite ES; ring).
  replace (Z.abs (K * t) * (2 ^ 40 * B)) with (A * 2 ^ 40 * (t * B)).
  2:{ rewrite Z.abs_mul, (Z.abs_eq t) by lia. replace (Z.abs K) with A by lia. ring. }
  rewrite Z.abs_mul. replace (Z.abs (if sg then -1 else 1)) with 1 by (destruct sg; reflexivity).
  rewrite Z.mul_1_l, Z.abs_mul, (Z.abs_eq (t * B)) by lia.
  rewrite Z.mul_assoc. apply Z.mul_le_mono_nonneg_r; [lia|exact E7].
Qed.
