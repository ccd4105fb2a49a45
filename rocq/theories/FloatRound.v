(** Decoding a 2-byte float and encoding it again. *)
From Coq Require Import String.
From Coq.Floats Require Import SpecFloat.
From Verif Require Import Base Wire Spec BaseProofs Apdu DpTypes FloatProofs FloatMul FloatEncode FloatCode FloatSweep FloatDecode.
Open Scope Z_scope.

Lemma near x h : is_f32 x -> f_finite x -> close_to x h -> Z.abs h <= 2047 * 128 ->
  is_f32 (hundred x) /\ f_finite (hundred x) /\
  2 ^ 21 * Z.abs (f_units (hundred x) - h * 2 ^ 149) <= Z.abs h * 2 ^ 149.
Proof.
  intros V F C Hh. unfold close_to in C.
  assert (P2 : 2 ^ 253 = 2 ^ 104 * 2 ^ 149) by reflexivity.
  assert (Bp : 2 ^ 100 <= 2 ^ 149) by (apply Z.pow_le_mono_r; lia).
  destruct (hundred_spec x V F) as [HV [[HF [HC _]]|[_ HI]]].
  - split; [exact HV|]. split; [exact HF|]. unfold close100 in HC.
    set (W := f_units (hundred x)) in *. set (X := f_units x) in *. set (B := 2 ^ 149) in *. clearbody W X B. clear V F HV HF P2.
    destruct (Z.eq_dec h 0) as [->|N]; [lia|].
    assert (1 * B <= Z.abs h * B) by (apply Z.mul_le_mono_nonneg_r; lia).
    set (y := Z.abs h * B) in *. assert (Y : Z.abs (h * B) = y) by (unfold y; rewrite Z.abs_mul; lia).
    set (z := h * B) in *. clearbody y z. lia.
  - exfalso. rewrite P2 in HI. set (X := f_units x) in *. set (B := 2 ^ 149) in *. clearbody X B. clear V F HV P2.
    assert (Z.abs h * B <= 2047 * 128 * B) by (apply Z.mul_le_mono_nonneg_r; lia).
    assert (Y : Z.abs (h * B) = Z.abs h * B) by (rewrite Z.abs_mul; lia).
    set (y := Z.abs h * B) in *. set (z := h * B) in *. clearbody y z. lia.
Qed.

Lemma code_fields c c' : (c < 65536)%N -> (c' < 65536)%N ->
  knx_exponent c = knx_exponent c' -> knx_mantissa c = knx_mantissa c' -> c = c'.
Proof.
  unfold knx_exponent, knx_mantissa. intros H H' E M.
  destruct (N.leb_spec 32768 c); destruct (N.leb_spec 32768 c'); lia.
Qed.

(** The two mantissas for which the outcome depends on the rounding. *)
Definition check_1024 (c : N) : bool :=
  match float_of_u16 Debug c with
  | Ok x => match float_to_bytes Debug 117 x with
            | Done [a; b] => negb ((a * 256 + b =? c)%N)
            | _ => false
            end
  | _ => false
  end.
Lemma check_1024_all :
  forallb (fun n => check_1024 (2048 * N.of_nat n + 1024) && check_1024 (32768 + 2048 * N.of_nat n + 1024)) (seq 1 7) = true.
Proof. vm_cast_no_check (eq_refl true). Qed.

Definition nearby (w : f32) (h : Z) : Prop :=
  2 ^ 21 * Z.abs (f_units w - h * 2 ^ 149) <= Z.abs h * 2 ^ 149.

Lemma reencode_same w c : is_f32 w -> f_finite w -> nearby w (knx_hundredths c) -> (c < 65536)%N ->
  regular c -> canonical_code c = true -> float_code (halved w) (halvings w) = word c.
Proof.
  intros V F NR Hc R C. unfold nearby, knx_hundredths in NR.
  destruct (encode_exact w V F) as [c' [k [E1 [E2 [E3 [E4 [E5 [E6 [E7 _]]]]]]]]]. rewrite E1. f_equal. clear E1 E3.
  assert (Je : 0 <= knx_exponent c < 16) by (unfold knx_exponent; lia).
  pose proof (magnitude_abs c) as MA. pose proof (magnitude_bound c R) as MB.
  assert (AM : Z.abs (knx_mantissa c) <= 2047) by lia. clear MA MB.
  unfold canonical_code in C. apply andb_prop in C. destruct C as [_ C].
  assert (CC : knx_exponent c = 0 \/ (1024 < Z.abs (knx_mantissa c))) by (cbv zeta in C; lia). clear C.
  set (h := knx_mantissa c * 2 ^ knx_exponent c) in *.
  assert (Eh : h = knx_mantissa c * 2 ^ knx_exponent c) by reflexivity. clearbody h.
  assert (Kj : 0 < 2 ^ knx_exponent c) by (apply Z.pow_pos_nonneg; lia).
  assert (Bp : 0 < 2 ^ 149) by reflexivity.
  assert (EM : h * 2 ^ 149 = knx_mantissa c * 2 ^ (149 + knx_exponent c)).
  { rewrite Eh, (Z.add_comm 149), pow_split by lia. ring. }
  assert (EA : Z.abs h * 2 ^ 149 = Z.abs (knx_mantissa c) * 2 ^ (149 + knx_exponent c)).
  { rewrite Eh, Z.abs_mul, (Z.abs_eq (2 ^ knx_exponent c)) by lia. rewrite (Z.add_comm 149), pow_split by lia. ring. }
  rewrite EM, EA in NR. clear EM EA Eh h.
  remember (knx_exponent c) as j eqn:Ej. remember (knx_mantissa c) as M eqn:EMc.
  set (W := f_units w) in *. clearbody W.
  assert (Gp : 0 < 2 ^ (149 + j)) by (apply Z.pow_pos_nonneg; lia).
  assert (GB : 2 ^ 149 <= 2 ^ (149 + j)) by (apply Z.pow_le_mono_r; lia).
  assert (Y : Z.abs (M * 2 ^ (149 + j)) = Z.abs M * 2 ^ (149 + j)) by (rewrite Z.abs_mul; f_equal; lia).
  assert (U : Z.abs M * 2 ^ (149 + j) <= 2047 * 2 ^ (149 + j)) by (apply Z.mul_le_mono_nonneg_r; lia).
  assert (L : least_exponent W j).
  { split; [lia|].
    replace (160 + j) with (11 + (149 + j)) by lia. replace (159 + j) with (10 + (149 + j)) by lia.
    rewrite (pow_split 11), (pow_split 10) by lia. change (2 ^ 11) with 2048. change (2 ^ 10) with 1024.
    set (g := 2 ^ (149 + j)) in *. clearbody g.
    split.
    - set (y := Z.abs M * g) in *. set (z := M * g) in *. clearbody y z. lia.
    - destruct CC as [J0|CC]; [left; exact J0|right].
      assert (1025 * g <= Z.abs M * g) by (apply Z.mul_le_mono_nonneg_r; lia).
      set (y := Z.abs M * g) in *. set (z := M * g) in *. clearbody y z. lia. }
  assert (Ek : k = j) by (eapply least_unique; eassumption). rewrite Ek in *. clear Ek.
  assert (In : within_half_step c' W j).
  { apply E6. split; [lia|]. clear E6 E7 L E4.
    set (g := 2 ^ (149 + j)) in *. set (B := 2 ^ 149) in *. clearbody g B.
    split.
    - set (y := Z.abs M * g) in *. set (z := M * g) in *. clearbody y z. lia.
    - destruct (Z.eq_dec M 0) as [M0|NM]; [rewrite M0 in *; lia|].
      assert (1 * g <= Z.abs M * g) by (apply Z.mul_le_mono_nonneg_r; lia).
      set (y := Z.abs M * g) in *. set (z := M * g) in *. clearbody y z. lia. }
  specialize (E7 In). symmetry. apply code_fields; [assumption|assumption|lia|].
  unfold within_half_step, knx_hundredths in In. rewrite E7 in In. rewrite <- EMc.
  assert (EM : knx_mantissa c' * 2 ^ j * 2 ^ 149 = knx_mantissa c' * 2 ^ (149 + j)).
  { rewrite (Z.add_comm 149), pow_split by lia. ring. }
  rewrite EM in In. set (M' := knx_mantissa c') in *. clear - In NR Y U Gp.
  set (g := 2 ^ (149 + j)) in *. clearbody g M'.
  destruct (Z.lt_trichotomy M M') as [T|[T|T]]; [exfalso|exact T|exfalso].
  - assert ((M + 1) * g <= M' * g) by (apply Z.mul_le_mono_nonneg_r; lia).
    rewrite Z.mul_add_distr_r in H. set (y := Z.abs M * g) in *. set (z := M * g) in *. set (z' := M' * g) in *. clearbody y z z'. lia.
  - assert ((M' + 1) * g <= M * g) by (apply Z.mul_le_mono_nonneg_r; lia).
    rewrite Z.mul_add_distr_r in H. set (y := Z.abs M * g) in *. set (z := M * g) in *. set (z' := M' * g) in *. clearbody y z z'. lia.
Qed.

Lemma reencode_other w c : is_f32 w -> f_finite w -> nearby w (knx_mantissa c * 2 ^ decode_exp c) -> (c < 65536)%N ->
  regular c -> canonical_code c = false -> ~ (1 <= knx_exponent c < 8 /\ Z.abs (knx_mantissa c) = 1024) ->
  float_code (halved w) (halvings w) <> word c.
Proof.
  intros V F NR Hc R C N24 E. unfold nearby in NR.
  destruct (encode_exact w V F) as [c' [k [E1 [E2 [_ [[L0 [L1 L2]] [E5 [E6 [E7 [E8 E9]]]]]]]]]].
  rewrite E1 in E. apply word_inj in E. subst c'. clear E1.
  assert (Je : 0 <= knx_exponent c < 16) by (unfold knx_exponent; lia).
  pose proof (magnitude_abs c) as MA. pose proof (magnitude_bound c R) as MB.
  assert (AM : Z.abs (knx_mantissa c) <= 2047) by lia. clear MA MB.
  unfold canonical_code in C. rewrite decode_exp_spec in NR.
  assert (CC : 8 <= knx_exponent c \/ (1 <= knx_exponent c /\ (Z.abs (knx_mantissa c) <= 1024))).
  { apply andb_false_iff in C. destruct C as [C|C]; [unfold regular in R; lia|cbv zeta in C; lia]. } clear C.
  remember (knx_exponent c) as e eqn:Ee. remember (knx_mantissa c) as M eqn:EMc.
  set (W := f_units w) in *. clearbody W.
  set (j := if e <? 8 then e else 15 - e) in *.
  assert (Hj : 0 <= j <= 7) by (unfold j; destruct (Z.ltb_spec e 8); lia).
  assert (Kj : 0 < 2 ^ j <= 2 ^ 7) by (split; [apply Z.pow_pos_nonneg; lia|apply Z.pow_le_mono_r; lia]).
  change (2 ^ 7) with 128 in Kj.
  assert (Bp : 0 < 2 ^ 149) by reflexivity.
  set (B := 2 ^ 149) in *.
  assert (HB : Z.abs (M * 2 ^ j) <= 2047 * 128).
  { rewrite Z.abs_mul, (Z.abs_eq (2 ^ j)) by lia. apply Z.mul_le_mono_nonneg; lia. }
  assert (Y : Z.abs (M * 2 ^ j * B) = Z.abs (M * 2 ^ j) * B) by (rewrite (Z.abs_mul (M * 2 ^ j)); f_equal; lia).
  assert (WB : Z.abs W < 262144 * B).
  { assert (Z.abs (M * 2 ^ j) * B <= 2047 * 128 * B) by (apply Z.mul_le_mono_nonneg_r; lia).
    set (y := Z.abs (M * 2 ^ j) * B) in *. set (z := M * 2 ^ j * B) in *. clearbody y z B. lia. }
  assert (k7 : k < 8).
  { destruct L2 as [->|L2]; [lia|]. destruct (Z.lt_ge_cases k 8); [assumption|exfalso].
    assert (G : 2 ^ (10 + 8 + 149) <= 2 ^ (159 + k)) by (apply Z.pow_le_mono_r; lia).
    rewrite pow_split in G by lia. change (2 ^ (10 + 8)) with 262144 in G. fold B in G. clearbody B. lia. }
  assert (D : within_half_step c W k \/ ~ within_half_step c W k) by (unfold within_half_step; lia).
  destruct D as [D|D].
  - specialize (E7 D). destruct CC as [CC|[CC1 CC2]]; [lia|]. subst e k.
    assert (Ej : j = knx_exponent c) by (unfold j; destruct (Z.ltb_spec (knx_exponent c) 8); lia).
    rewrite <- Ej in *. destruct L2 as [L2|L2]; [lia|].
    assert (M23 : Z.abs M <= 1023) by lia.
    replace (159 + j) with (10 + j + 149) in L2 by lia. rewrite pow_split, (pow_split 10) in L2 by lia.
    change (2 ^ 10) with 1024 in L2. fold B in L2.
    assert (AMj : Z.abs (M * 2 ^ j) = Z.abs M * 2 ^ j) by (rewrite Z.abs_mul; f_equal; lia). rewrite AMj in Y, NR.
    assert (Z.abs M * 2 ^ j * B <= 1023 * 2 ^ j * B) by (apply Z.mul_le_mono_nonneg_r; [lia|apply Z.mul_le_mono_nonneg_r; lia]).
    assert (0 < 2 ^ j * B) by (apply Z.mul_pos_pos; lia).
    replace (1023 * 2 ^ j * B) with (1023 * (2 ^ j * B)) in H by ring. replace (1024 * 2 ^ j * B) with (1024 * (2 ^ j * B)) in L2 by ring.
    set (t := 2 ^ j * B) in *. set (y := Z.abs M * 2 ^ j * B) in *. set (z := M * 2 ^ j * B) in *. clearbody t y z. clear - H H0 L2 Y NR. lia.
  - assert (Gp : 0 < 2 ^ (149 + k)) by (apply Z.pow_pos_nonneg; lia).
    assert (X : 4095 * 2 ^ (149 + k) <= 2 * W \/ - B < 2 * W < 0).
    { clear - D E6 k7 B Bp Gp. set (g := 2 ^ (149 + k)) in *. clearbody B g. destruct (Z.le_gt_cases (4095 * g) (2 * W)); [left; assumption|right].
      assert (S : - B < 2 * W < 0 \/ ~ (- B < 2 * W < 0)) by lia. destruct S as [S|S]; [exact S|]. contradict D. apply E6.
      split; [lia|]. split; [lia|assumption]. }
    clear E6 E7. destruct X as [X|X].
    + specialize (E8 ltac:(lia) X). unfold knx_hundredths in E8. rewrite <- EMc, <- Ee in E8.
      assert (0 < 2 ^ e) by (apply Z.pow_pos_nonneg; lia).
      assert (M = 0) as M0 by nia. rewrite M0 in NR. clear - NR X Gp Bp.
      set (g := 2 ^ (149 + k)) in *. clearbody g B. lia.
    + destruct (Z.eq_dec M 0) as [M0|M0]; [rewrite M0 in NR; clear - NR X Bp; clearbody B; lia|].
      assert (1 <= Z.abs (M * 2 ^ j)) by nia.
      assert (1 * B <= Z.abs (M * 2 ^ j) * B) by (apply Z.mul_le_mono_nonneg_r; lia).
      set (y := Z.abs (M * 2 ^ j) * B) in *. set (z := M * 2 ^ j * B) in *. clearbody y z B. lia.
Qed.

Lemma decode_bytes p c : (c < 65536)%N -> bytes_to_float p (word c) = float_of_u16 p c.
Proof. intro H. unfold word, bytes_to_float. f_equal. lia. Qed.
Lemma decode_profile c : (c < 65536)%N -> regular c -> float_of_u16 Release c = float_of_u16 Debug c.
Proof. intros H R. unfold float_of_u16. rewrite !decode_mantissa_spec by assumption. reflexivity. Qed.
Lemma decode_hundred p c x : (c < 65536)%N -> regular c -> float_of_u16 p c = Ok x ->
  is_f32 x /\ f_finite x /\ close_to x (knx_mantissa c * 2 ^ decode_exp c) /\
  is_f32 (hundred x) /\ f_finite (hundred x) /\ nearby (hundred x) (knx_mantissa c * 2 ^ decode_exp c).
Proof.
  intros H R E. destruct (decode_spec p c H R) as [x' [E' [V [F C]]]]. rewrite E in E'. injection E' as <-.
  split; [exact V|]. split; [exact F|]. split; [exact C|].
  apply near; try assumption.
  rewrite decode_exp_spec. pose proof (magnitude_abs c) as MA. pose proof (magnitude_bound c R) as MB.
  set (j := if knx_exponent c <? 8 then knx_exponent c else 15 - knx_exponent c).
  assert (0 <= j <= 7).
  { assert (0 <= knx_exponent c < 16) by (unfold knx_exponent; lia). unfold j. destruct (Z.ltb_spec (knx_exponent c) 8); lia. }
  assert (Kj : 0 < 2 ^ j <= 2 ^ 7) by (split; [apply Z.pow_pos_nonneg; lia|apply Z.pow_le_mono_r; lia]).
  change (2 ^ 7) with 128 in Kj. rewrite Z.abs_mul, (Z.abs_eq (2 ^ j)) by lia. apply Z.mul_le_mono_nonneg; lia.
Qed.

(** Negative codes with mantissa field 0. *)
Definition check_irregular (c : N) : bool :=
  match float_of_u16 Debug c, float_of_u16 Release c with
  | Panic, Ok x =>
      valid_binary 24 128 x && match x with S754_finite _ _ _ => true | _ => false end &&
      match hundred x with S754_finite _ _ _ => true | _ => false end &&
      negb (2 ^ 22 * Z.abs (100 * f_units x - knx_hundredths c * 2 ^ 149) <=?
            Z.abs (knx_hundredths c) * 2 ^ 149) &&
      match float_code (halved (hundred x)) (halvings (hundred x)) with
      | [a; b] => negb ((a * 256 + b =? c)%N)
      | _ => false
      end
  | _, _ => false
  end.
Lemma check_irregular_all : forallb (fun n => check_irregular (32768 + 2048 * N.of_nat n)) (seq 0 16) = true.
Proof. vm_cast_no_check (eq_refl true). Qed.
Lemma irregular c : (c < 65536)%N -> ~ regular c -> check_irregular c = true.
Proof.
  intros H R. pose proof check_irregular_all as A. rewrite forallb_forall in A.
  specialize (A (N.to_nat ((c - 32768) / 2048)) ltac:(apply in_seq; unfold regular in R; lia)).
  replace (32768 + 2048 * N.of_nat (N.to_nat ((c - 32768) / 2048)))%N with c in A by (unfold regular in R; lia).
  exact A.
Qed.
Lemma regular_dec c : regular c \/ ~ regular c.
Proof. unfold regular. lia. Qed.

Lemma decode_correct_iff p c : (c < 65536)%N ->
  ((exists x, bytes_to_float p (word c) = Ok x /\ decodes_to c x) <->
   (c mod 2048 = 0 /\ c < 32768)%N \/ ((c mod 2048 <> 0)%N /\ knx_exponent c < 8)).
Proof.
  intro H. rewrite decode_bytes by assumption. destruct (regular_dec c) as [R|R].
  - split.
    + intros [x [E [_ [_ D]]]]. destruct (N.eq_dec (c mod 2048) 0) as [Z0|NZ]; [left; unfold regular in R; lia|right].
      split; [exact NZ|]. destruct (Z.lt_ge_cases (knx_exponent c) 8) as [L|L]; [exact L|exfalso].
      destruct (decode_hundred p c x H R E) as [_ [_ [C _]]]. unfold close_to in C. rewrite decode_exp_spec in C.
      destruct (Z.ltb_spec (knx_exponent c) 8); [lia|]. unfold knx_hundredths in D.
      assert (Je : knx_exponent c < 16) by (unfold knx_exponent; lia).
      assert (M0 : knx_mantissa c <> 0) by (unfold knx_mantissa, regular in *; destruct (N.leb_spec 32768 c); lia).
      assert (Q : 2 * 2 ^ (15 - knx_exponent c) <= 2 ^ knx_exponent c).
      { rewrite <- Z.pow_succ_r by lia. apply Z.pow_le_mono_r; lia. }
      assert (Qp : 0 < 2 ^ (15 - knx_exponent c)) by (apply Z.pow_pos_nonneg; lia).
      set (a := 2 ^ (15 - knx_exponent c)) in *. set (b := 2 ^ knx_exponent c) in *. set (M := knx_mantissa c) in *.
      rewrite !Z.abs_mul in C, D.
      assert (Bp : 0 < 2 ^ 149) by reflexivity. set (B := 2 ^ 149) in *. set (U := 100 * f_units x) in *. clearbody a b M B U.
      rewrite (Z.abs_eq a) in C by lia. rewrite (Z.abs_eq b) in D by lia.
      assert (P1 : 0 < Z.abs M * B) by nia.
      replace (M * a * B) with (a * (M * B)) in C by ring. replace (M * b * B) with (b * (M * B)) in D by ring.
      replace (Z.abs M * a * B) with (a * (Z.abs M * B)) in C by ring. replace (Z.abs M * b * B) with (b * (Z.abs M * B)) in D by ring.
      assert (Y : Z.abs M * B = Z.abs (M * B)) by (rewrite Z.abs_mul; lia). rewrite Y in *. set (z := M * B) in *.
      assert (A1 : Z.abs (a * z) = a * Z.abs z) by (rewrite Z.abs_mul; lia).
      assert (A2 : Z.abs (b * z) = b * Z.abs z) by (rewrite Z.abs_mul; lia).
      assert (A3 : Z.abs (b * z - a * z) = (b - a) * Z.abs z).
      { replace (b * z - a * z) with ((b - a) * z) by ring. rewrite Z.abs_mul. f_equal. lia. }
      assert (A4 : b * Z.abs z <= 2 * ((b - a) * Z.abs z)) by nia.
      assert (A5 : 0 < a * Z.abs z) by nia. assert (A6 : a * Z.abs z <= b * Z.abs z) by nia.
      set (p1 := a * z) in *. set (p2 := b * z) in *. set (p3 := a * Z.abs z) in *. set (p4 := b * Z.abs z) in *. set (p5 := (b - a) * Z.abs z) in *.
      clearbody p1 p2 p3 p4 p5. clear - C D A3 A4 A5 A6. lia.
    + intro G. destruct (decode_spec p c H R) as [x [E [V [F C]]]]. exists x. split; [exact E|].
      split; [exact V|]. split; [exact F|]. unfold close_to in C. rewrite decode_exp_spec in C.
      unfold knx_hundredths. destruct (Z.ltb_spec (knx_exponent c) 8) as [L|L]; [exact C|].
      destruct G as [[G1 G2]|[G1 G2]]; [|lia].
      assert (M0 : knx_mantissa c = 0) by (unfold knx_mantissa; destruct (N.leb_spec 32768 c); lia).
      rewrite M0 in *. exact C.
  - pose proof (irregular c H R) as I. unfold check_irregular in I.
    split; [|unfold regular in R; lia].
    intros [x [E D]]. destruct (float_of_u16 Debug c) eqn:ED; try discriminate.
    destruct (float_of_u16 Release c) as [y| |] eqn:ER; try discriminate.
    destruct p; [congruence|]. rewrite ER in E. injection E as ->.
    rewrite !andb_true_iff in I. destruct I as [[[[I1 I2] I3] I4] I5].
    destruct D as [_ [_ D]]. apply Z.leb_le in D. rewrite D in I4. discriminate.
Qed.

Lemma roundtrip_iff p fuel c : (c < 65536)%N -> (117 <= fuel)%nat ->
  ((exists x, bytes_to_float p (word c) = Ok x /\ float_to_bytes p fuel x = Done (word c)) <->
   canonical_code c = true).
Proof.
  intros H Hf. rewrite decode_bytes by assumption. destruct (regular_dec c) as [R|R].
  - destruct (decode_spec p c H R) as [x [E _]].
    destruct (decode_hundred p c x H R E) as [V [F [C [V' [F' N']]]]].
    pose proof (encode_done p fuel x V' (or_introl F') Hf) as ED.
    assert (S : (exists x, float_of_u16 p c = Ok x /\ float_to_bytes p fuel x = Done (word c)) <->
                float_code (halved (hundred x)) (halvings (hundred x)) = word c).
    { split.
      - intros [y [E1 E2]]. rewrite E in E1. injection E1 as <-. rewrite ED in E2. congruence.
      - intro E2. exists x. split; [exact E|]. rewrite ED, E2. reflexivity. }
    rewrite S. destruct (canonical_code c) eqn:CC.
    + split; [reflexivity|intros _]. apply reencode_same; try assumption.
      unfold knx_hundredths. rewrite decode_exp_spec in N'.
      destruct (Z.ltb_spec (knx_exponent c) 8) as [L|L]; [exact N'|].
      exfalso. unfold canonical_code in CC. cbv zeta in CC. lia.
    + split; [|discriminate]. intro E2. exfalso.
      assert (D : (1 <= knx_exponent c < 8 /\ Z.abs (knx_mantissa c) = 1024) \/
                  ~ (1 <= knx_exponent c < 8 /\ Z.abs (knx_mantissa c) = 1024)) by lia.
      destruct D as [[D1 D2]|D]; [|exact (reencode_other _ _ V' F' N' H R CC D E2)].
      pose proof check_1024_all as A. rewrite forallb_forall in A.
      specialize (A (Z.to_nat (knx_exponent c)) ltac:(apply in_seq; lia)).
      apply andb_prop in A.
      assert (K : check_1024 c = true).
      { unfold knx_mantissa in D2. destruct (N.leb_spec 32768 c) as [L|L].
        - destruct A as [_ A]. assert (Ec : (32768 + 2048 * N.of_nat (Z.to_nat (knx_exponent c)) + 1024)%N = c).
          { unfold knx_exponent in *. clear - H L D1 D2. lia. }
          rewrite Ec in A. exact A.
        - destruct A as [A _]. assert (Ec : (2048 * N.of_nat (Z.to_nat (knx_exponent c)) + 1024)%N = c).
          { unfold knx_exponent in *. clear - H L D1 D2. lia. }
          rewrite Ec in A. exact A. }
      unfold check_1024 in K.
      assert (EDb : float_of_u16 Debug c = Ok x) by (destruct p; [exact E|rewrite <- decode_profile by assumption; exact E]).
      rewrite EDb, (encode_done Debug 117 x V' (or_introl F') (le_n _)), E2 in K. unfold word in K.
      destruct (N.eqb_spec (c / 256 * 256 + c mod 256) c); [discriminate|lia].
  - assert (CC : canonical_code c = false).
    { unfold canonical_code. apply andb_false_iff. left. unfold regular in R. lia. }
    rewrite CC. split; [|discriminate]. intros [x [E E2]]. exfalso.
    pose proof (irregular c H R) as I. unfold check_irregular in I.
    destruct (float_of_u16 Debug c) eqn:ED; try discriminate.
    destruct (float_of_u16 Release c) as [y| |] eqn:ER; try discriminate.
    destruct p; [congruence|]. rewrite ER in E. injection E as ->.
    rewrite !andb_true_iff in I. destruct I as [[[[I1 I2] I3] I4] I5].
    assert (VH : is_f32 (hundred x)) by (apply hundred_spec; [exact I1|destruct x; try discriminate; exact I]).
    assert (FH : f_finite (hundred x)) by (destruct (hundred x); try discriminate; exact I).
    rewrite (encode_done Release fuel x VH (or_introl FH) Hf) in E2.
    assert (E3 : float_code (halved (hundred x)) (halvings (hundred x)) = word c) by congruence. rewrite E3 in I5. unfold word in I5.
    destruct (N.eqb_spec (c / 256 * 256 + c mod 256) c); [discriminate|lia].
Qed.
