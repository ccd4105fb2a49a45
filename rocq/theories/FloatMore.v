(** Combinations for PropsFloat.v. *)
From Coq Require Import String.
From Coq.Floats Require Import SpecFloat.
From Verif Require Import Base Wire Spec BaseProofs Apdu DpTypes FloatProofs FloatMul FloatEncode FloatCode FloatSweep FloatDecode FloatRound.
Open Scope Z_scope.

Definition overflow_bound : Z := (2 ^ 25 - 1) * 2 ^ 253.

Lemma hundred_infinite_iff x : is_f32 x ->
  (f_infinite (hundred x) <-> f_infinite x \/ overflow_bound <= 200 * Z.abs (f_units x)).
Proof.
  intro V. destruct x as [s|s| |s m e].
  - split; [intros []|]. intros [[]|H]. exfalso. cbn [f_units] in H. unfold overflow_bound in H. lia.
  - split; [intros _; left; exact I|]. intros _. destruct s; exact I.
  - split; [intros []|]. intros [[]|H]. exfalso. cbn [f_units] in H. unfold overflow_bound in H. lia.
  - destruct (hundred_spec (S754_finite s m e) V I) as [_ [[F [_ L]]|[F L]]]; unfold overflow_bound.
    + split; [intro H; destruct (hundred (S754_finite s m e)); contradiction|].
      intros [[]|H]. exfalso. set (U := Z.abs (f_units (S754_finite s m e))) in *. clearbody U.
      set (B := (2 ^ 25 - 1) * 2 ^ 253) in *. clearbody B. lia.
    + split; [intros _; right|intros _; exact F].
      set (U := Z.abs (f_units (S754_finite s m e))) in *. clearbody U.
      set (B := (2 ^ 25 - 1) * 2 ^ 253) in *. clearbody B. lia.
Qed.
Lemma hundred_cases x : is_f32 x ->
  is_f32 (hundred x) /\ (f_finite (hundred x) \/ hundred x = S754_nan \/ f_infinite (hundred x)).
Proof.
  intro V. destruct x as [s|s| |s m e].
  - split; [reflexivity|left; exact I].
  - split; [destruct s; reflexivity|right; right; destruct s; exact I].
  - split; [reflexivity|right; left; reflexivity].
  - destruct (hundred_spec (S754_finite s m e) V I) as [V' [[F _]|[F _]]]; (split; [exact V'|]); [left|right; right]; exact F.
Qed.

Lemma encode_terminates x : is_f32 x -> ~ f_infinite x -> 200 * Z.abs (f_units x) < overflow_bound ->
  exists code, (code < 65536)%N /\ forall p fuel, (117 <= fuel)%nat -> float_to_bytes p fuel x = Done (word code).
Proof.
  intros V NI H. destruct (hundred_cases x V) as [V' [F|[F|F]]].
  - destruct (encode_exact _ V' F) as [code [k [E1 [E2 _]]]]. exists code. split; [exact E2|].
    intros p fuel Hf. rewrite (encode_done p fuel x V' (or_introl F) Hf), E1. reflexivity.
  - exists 0%N. split; [lia|]. intros p fuel Hf. rewrite (encode_done p fuel x V' (or_intror F) Hf), F. reflexivity.
  - exfalso. apply hundred_infinite_iff in F; [|exact V]. destruct F as [F|F]; [contradiction|].
    clear - F H. set (B := overflow_bound) in *. clearbody B. lia.
Qed.
Lemma encode_nan p fuel : (117 <= fuel)%nat -> float_to_bytes p fuel S754_nan = Done [0%N; 0%N].
Proof. intro H. rewrite (encode_done p fuel S754_nan); [reflexivity|reflexivity|right; reflexivity|exact H]. Qed.
Lemma encode_returns_iff p x : is_f32 x ->
  ((exists fuel bs, float_to_bytes p fuel x = Done bs) <-> ~ f_infinite x /\ 200 * Z.abs (f_units x) < overflow_bound).
Proof.
  intro V. split.
  - intros [fuel [bs E]].
    assert (N : ~ f_infinite (hundred x)).
    { intro F. rewrite (encode_inf p fuel x F) in E. destruct p; [destruct (32767 <? Z.of_nat fuel)|]; discriminate. }
    rewrite hundred_infinite_iff in N by exact V. split; [tauto|]. apply Z.nle_gt. tauto.
  - intros [H1 H2]. destruct (encode_terminates x V H1 H2) as [c [_ E]]. exists 117%nat, (word c). apply E. apply le_n.
Qed.
Lemma encode_diverges x : is_f32 x -> f_infinite x \/ overflow_bound <= 200 * Z.abs (f_units x) -> forall fuel,
  float_to_bytes Release fuel x = OutOfFuel /\
  (32768 <= Z.of_nat fuel -> float_to_bytes Debug fuel x = PanicO).
Proof.
  intros V H fuel. apply hundred_infinite_iff in H; [|exact V].
  rewrite !(encode_inf _ fuel x H). split; [reflexivity|]. intro G. destruct (Z.ltb_spec 32767 (Z.of_nat fuel)); [reflexivity|lia].
Qed.

Lemma encode_accuracy p fuel x : is_f32 x -> f_finite x -> 200 * Z.abs (f_units x) < overflow_bound -> (117 <= fuel)%nat ->
  exists code k,
    float_to_bytes p fuel x = Done (word code) /\ (code < 65536)%N /\
    let W := f_units (f_mul x (f_of_Z 100)) in
    2 ^ 24 * Z.abs (W - 100 * f_units x) <= Z.max (100 * Z.abs (f_units x)) (2 ^ 23) /\
    least_exponent W k /\
    (within_half_step code W k <-> k <= 15 /\ 2 * W < 4095 * 2 ^ (149 + k) /\ ~ (- 2 ^ 149 < 2 * W < 0)) /\
    (within_half_step code W k -> knx_exponent code = k) /\
    (k <= 15 -> 4095 * 2 ^ (149 + k) <= 2 * W -> knx_hundredths code = 0) /\
    (- 2 ^ 149 < 2 * W < 0 -> code = 32768%N).
Proof.
  intros V F H Hf. destruct (hundred_spec x V F) as [V' [[F' [C _]]|[F' HI]]].
  - destruct (encode_exact _ V' F') as [code [k [E1 [E2 [_ [E4 [_ [E6 [E7 [E8 E9]]]]]]]]]].
    exists code, k. split; [rewrite (encode_done p fuel x V' (or_introl F') Hf), E1; reflexivity|].
    split; [exact E2|]. cbv zeta. exact (conj C (conj E4 (conj E6 (conj E7 (conj E8 E9))))).
  - exfalso. unfold overflow_bound in H. set (B := (2 ^ 25 - 1) * 2 ^ 253) in *. clearbody B. lia.
Qed.
Lemma encode_total_error p fuel x k : is_f32 x -> f_finite x -> (117 <= fuel)%nat ->
  let W := f_units (f_mul x (f_of_Z 100)) in
  200 * Z.abs (f_units x) < overflow_bound ->
  least_exponent W k -> k <= 15 -> 2 * W < 4095 * 2 ^ (149 + k) -> ~ (- 2 ^ 149 < 2 * W < 0) ->
  exists code, float_to_bytes p fuel x = Done (word code) /\ (code < 65536)%N /\ knx_exponent code = k /\
    2 ^ 25 * Z.abs (knx_hundredths code * 2 ^ 149 - 100 * f_units x) <=
    2 ^ 24 * 2 ^ (149 + k) + 2 * Z.max (100 * Z.abs (f_units x)) (2 ^ 23).
Proof.
  intros V F Hf W H L K B1 B2.
  destruct (encode_accuracy p fuel x V F H Hf) as [code [k' [E1 [E2 E]]]]. cbv zeta in E. fold W in E.
  destruct E as [C [L' [I [X _]]]]. assert (k' = k) by (eapply least_unique; eassumption). subst k'.
  assert (In : within_half_step code W k) by (apply I; auto).
  exists code. split; [exact E1|]. split; [exact E2|]. split; [exact (X In)|].
  unfold within_half_step in In. clear - In C.
  set (g := 2 ^ (149 + k)) in *. set (z := knx_hundredths code * 2 ^ 149) in *. set (U := f_units x) in *. clearbody g z U W. lia.
Qed.

(** 335544.32 is encoded as 0 (exponent 14, mantissa 0). *)
Lemma encode_wrong p fuel : (117 <= fuel)%nat ->
  exists x, is_f32 x /\ f_finite x /\ f_units x = 10737418 * 2 ^ 144 /\
    float_to_bytes p fuel x = Done (word 0x7000).
Proof.
  intro H. exists (f_lit 33554432 100). split; [reflexivity|]. split; [vm_compute; exact I|]. split; [vm_compute; reflexivity|].
  rewrite (encode_done p fuel); [vm_compute; reflexivity|reflexivity|left; vm_compute; exact I|exact H].
Qed.
Lemma encode_accurate_refuted p fuel : (117 <= fuel)%nat ->
  ~ (forall x, is_f32 x -> f_finite x ->
       -67108864 * 2 ^ 149 <= 100 * f_units x <= 67076096 * 2 ^ 149 ->
       exists code, float_to_bytes p fuel x = Done (word code) /\ (code < 65536)%N /\
         Z.abs (knx_hundredths code * 2 ^ 149 - 100 * f_units x) <= 2 ^ 14 * 2 ^ 149).
Proof.
  intros H A. destruct (encode_wrong p fuel H) as [x [V [F [U E]]]].
  destruct (A x V F) as [code [E1 [E2 E3]]]; [rewrite U; vm_compute; split; discriminate|].
  rewrite E in E1. assert (word code = word 0x7000) as W0 by congruence.
  apply word_inj in W0. subst code. rewrite U in E3. vm_compute in E3. apply E3. reflexivity.
Qed.

Lemma decode_all_refuted p :
  ~ (forall code, (code < 65536)%N -> exists x, bytes_to_float p (word code) = Ok x /\ decodes_to code x).
Proof.
  intro A. specialize (A 0x4001%N ltac:(lia)). apply decode_correct_iff in A; [|lia].
  destruct A as [[A _]|[_ A]]; vm_compute in A; discriminate.
Qed.
Lemma decode_panic_iff code : (code < 65536)%N ->
  (bytes_to_float Debug (word code) = Panic <-> (32768 <= code /\ code mod 2048 = 0)%N).
Proof.
  intro H. rewrite decode_bytes by assumption. destruct (regular_dec code) as [R|R].
  - destruct (decode_spec Debug code H R) as [x [E _]]. rewrite E. unfold regular in R. split; [discriminate|lia].
  - pose proof (irregular code H R) as I. unfold check_irregular in I.
    destruct (float_of_u16 Debug code); try discriminate. unfold regular in R. split; [lia|reflexivity].
Qed.
