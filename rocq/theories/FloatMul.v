(** The scaling by 100 and the halving loops of the float encoder. *)
From Coq Require Import String.
From Coq.Floats Require Import SpecFloat.
From Verif Require Import Base Wire Spec BaseProofs Apdu DpTypes FloatProofs.
Open Scope Z_scope.

Definition hundred (x : f32) : f32 := f_mul x (f_of_Z 100).
Lemma f_100 : f_of_Z 100 = S754_finite false 13107200 (-17). Proof. reflexivity. Qed.

Lemma pow_split a b : 0 <= a -> 0 <= b -> 2 ^ (a + b) = 2 ^ a * 2 ^ b.
Proof. intros. apply Z.pow_add_r; assumption. Qed.

Lemma rounded_units s q e1 : 0 <= q -> -149 <= e1 ->
  match rounded s q e1 with
  | S754_infinity s' => s' = s /\ 2 ^ 24 * 2 ^ (104 + 149) <= q * 2 ^ (e1 + 149) \/ (s' = s /\ 104 < e1 /\ q <> 0)
  | S754_nan => False
  | w => f_units w = (if s then -1 else 1) * (q * 2 ^ (e1 + 149)) /\ (e1 <= 104 \/ q = 0)
  end.
Proof.
  intros Hq He. unfold rounded. destruct (Z.eqb_spec q 0) as [->|N].
  { cbn [f_units]. destruct s; lia. }
  destruct (Z.eqb_spec q (2 ^ 24)) as [->|N2].
  - destruct (Z.leb_spec (e1 + 1) 104) as [L|L].
    + unfold f_units. rewrite Z2Pos.id by lia. split; [|lia]. f_equal.
      replace (e1 + 1 + 149) with (1 + (e1 + 149)) by lia. rewrite pow_split by lia. lia.
    + destruct (Z.eq_dec e1 104) as [->|]; [left; split; [reflexivity|apply Z.le_refl]|right; repeat split; lia].
  - destruct (Z.leb_spec e1 104) as [L|L].
    + unfold f_units. rewrite Z2Pos.id by lia. lia.
    + right. repeat split; lia.
Qed.

(** 100 x in f32: relative error at most 2^-24, or half a unit of 2^-149. *)
Definition close100 (x w : f32) : Prop :=
  2 ^ 24 * Z.abs (f_units w - 100 * f_units x) <= Z.max (100 * Z.abs (f_units x)) (2 ^ 23).
Lemma hundred_spec x : is_f32 x -> f_finite x ->
  is_f32 (hundred x) /\
  (f_finite (hundred x) /\ close100 x (hundred x) /\ 2 * 100 * Z.abs (f_units x) < (2 ^ 25 - 1) * 2 ^ 253 \/
   f_infinite (hundred x) /\ (2 ^ 25 - 1) * 2 ^ 253 <= 2 * 100 * Z.abs (f_units x)).
Proof.
  intros V F. destruct x as [s|s| |s m e]; try contradiction.
  { split; [reflexivity|]. left. split; [exact I|]. unfold close100.
    change (f_units (hundred (S754_zero s))) with 0. change (f_units (S754_zero s)) with 0. lia. }
  clear F. apply valid_finite in V.
  unfold hundred, f_mul. rewrite f_100. cbn [SFmul].
  rewrite Bool.xorb_false_r.
  set (pm := (m * 13107200)%positive).
  assert (Dm : 24 <= Z.pos (digits2_pos pm)).
  { pose proof (digits_spec pm) as D. destruct (Z.le_gt_cases 24 (Z.pos (digits2_pos pm))); [assumption|].
    assert (2 ^ Z.pos (digits2_pos pm) <= 2 ^ 23) by (apply Z.pow_le_mono_r; lia). unfold pm in *. lia. }
  remember (Z.max (Z.pos (digits2_pos pm) + (e + -17) - 24) (-149)) as e1 eqn:E1.
  destruct (round_aux_spec s pm (e + -17) e1 E1 ltac:(lia)) as [q [Q1 [Q2 [Q3 [_ Q5]]]]].
  rewrite Q5. clear Q5. pose proof (rounded_valid s q e1 Q1 ltac:(lia) Q3) as RV.
  split; [exact RV|].
  pose proof (rounded_units s q e1 ltac:(lia) ltac:(lia)) as RU.
  set (sg := if s then -1 else 1) in *.
  assert (Esg : sg = 1 \/ sg = -1) by (unfold sg; destruct s; lia).
  assert (UX : f_units (S754_finite s m e) = sg * (Z.pos m * 2 ^ (e + 149))) by reflexivity.
  set (X := Z.pos m * 2 ^ (e + 149)) in *.
  assert (Xp : 0 < X) by (unfold X; apply Z.mul_pos_pos; [lia|apply Z.pow_pos_nonneg; lia]).
  set (Wv := q * 2 ^ (e1 + 149)) in *.
  (* |Wv - 100 X| *)
  assert (A : 2 * Z.abs (Wv - 100 * X) <= 2 ^ (e1 + 149)).
  { assert (P : 0 < 2 ^ (e + 149)) by (apply Z.pow_pos_nonneg; lia).
    assert (S1 : 2 ^ (e1 - (e + -17)) * 2 ^ (e + 149) = 2 ^ 17 * 2 ^ (e1 + 149)).
    { rewrite <- !pow_split by lia. f_equal. lia. }
    assert (S2 : Z.pos pm = 2 ^ 17 * 100 * Z.pos m) by (unfold pm; lia).
    rewrite S2 in Q2.
    set (t := 2 ^ (e1 - (e + -17))) in *. set (u := 2 ^ (e + 149)) in *. set (v := 2 ^ (e1 + 149)) in *.
    unfold Wv, X.
    assert (M : 2 * Z.abs (q * t * u - 2 ^ 17 * 100 * Z.pos m * u) <= t * u).
    { replace (q * t * u - 2 ^ 17 * 100 * Z.pos m * u) with ((q * t - 2 ^ 17 * 100 * Z.pos m) * u) by ring.
      rewrite Z.abs_mul, (Z.abs_eq u) by lia. nia. }
    replace (q * t * u) with (q * (t * u)) in M by ring. rewrite S1 in M.
    replace (q * (2 ^ 17 * v) - 2 ^ 17 * 100 * Z.pos m * u) with (2 ^ 17 * (q * v - 100 * (Z.pos m * u))) in M by ring.
    rewrite Z.abs_mul in M. change (Z.abs (2 ^ 17)) with (2 ^ 17) in M. lia. }
  assert (Bnd : -149 < e1 -> 2 ^ 23 * 2 ^ (e1 + 149) <= 100 * X).
  { intro G. pose proof (digits_spec pm) as [D _].
    assert (S2 : Z.pos pm = 2 ^ 17 * 100 * Z.pos m) by (unfold pm; lia).
    assert (P : 0 < 2 ^ (e + 149)) by (apply Z.pow_pos_nonneg; lia).
    assert (S1 : 2 ^ (Z.pos (digits2_pos pm) - 1) * 2 ^ (e + 149) = 2 ^ 17 * (2 ^ 23 * 2 ^ (e1 + 149))).
    { rewrite <- !pow_split by lia. f_equal. lia. }
    unfold X. rewrite S2 in D. set (v := 2 ^ (e1 + 149)) in *. set (u := 2 ^ (e + 149)) in *. set (t := 2 ^ (Z.pos (digits2_pos pm) - 1)) in *.
    assert (t * u <= 2 ^ 17 * 100 * Z.pos m * u) by nia. nia. }
  assert (HC : forall w, f_units w = sg * Wv -> close100 (S754_finite s m e) w).
  { intros w Hw. unfold close100. rewrite Hw, UX.
    replace (sg * Wv - 100 * (sg * X)) with (sg * (Wv - 100 * X)) by ring.
    rewrite !Z.abs_mul. replace (Z.abs sg) with 1 by lia.
    destruct (Z.eq_dec e1 (-149)) as [->|N].
    - change (2 ^ (-149 + 149)) with 1 in A. lia.
    - specialize (Bnd ltac:(lia)). lia. }
  assert (AX : Z.abs (f_units (S754_finite s m e)) = X) by (rewrite UX, Z.abs_mul; lia).
  rewrite AX.
  assert (Mono : forall a b, 0 <= a <= b -> 2 ^ a <= 2 ^ b) by (intros; apply Z.pow_le_mono_r; lia).
  assert (B254 : 2 ^ 254 = 2 * 2 ^ 253) by reflexivity.
  assert (Tie : 2 * 100 * X <> (2 ^ 25 - 1) * 2 ^ 253) by (clear; lia).
  change (104 + 149) with 253 in RU.
  assert (Bp : 0 < 2 ^ 253) by reflexivity.
  assert (B252 : 2 ^ 253 = 2 * 2 ^ 252) by reflexivity.
  assert (Mono3 : forall a, 0 <= a <= 253 -> 2 ^ a <= 2 ^ 253) by (intros; apply Mono; assumption).
  assert (Mono2 : forall a, 0 <= a <= 252 -> 2 ^ a <= 2 ^ 252) by (intros; apply Mono; assumption).
  assert (Mono4 : forall a, 254 <= a -> 2 ^ 254 <= 2 ^ a) by (intros; apply Mono; split; [discriminate|assumption]).
  assert (E104 : e1 = 104 -> 2 ^ (e1 + 149) = 2 ^ 253) by (intros ->; reflexivity).
  set (B := 2 ^ 253) in *. set (B' := 2 ^ 254) in *. set (B2 := 2 ^ 252) in *. clearbody B B' B2.
  assert (Vp : 0 < 2 ^ (e1 + 149)) by (apply Z.pow_pos_nonneg; clear - E1; lia).
  set (v := 2 ^ (e1 + 149)) in *.
  assert (E149 : e1 = -149 -> v = 1) by (intro E; unfold v; rewrite E; reflexivity).
  pose proof (Mono3 (e1 + 149)) as V3. pose proof (Mono2 (e1 + 149)) as V2. pose proof (Mono4 (e1 + 149)) as V4.
  fold v in V2, V3, V4. 
  destruct (rounded s q e1) as [sz|sz| |sz mz ez] eqn:ER; [|destruct RU as [[-> RU]|[-> [RU RN]]]|contradiction|]; [left| right|right|left].
  - destruct RU as [RU _]. split; [exact I|]. split; [apply HC; exact RU|].
    assert (Wv = 0) by (cbn [f_units] in RU; clear - RU Esg; lia).
    destruct (Z.eq_dec e1 (-149)) as [E|N].
    + specialize (E149 E). clear - A E149 H Bp. lia.
    + exfalso. specialize (Bnd ltac:(clear - N E1; lia)). clear - A Bnd H Vp. lia.
  - split; [exact I|].
    destruct (Z.le_gt_cases e1 104) as [L|L].
    + specialize (V3 ltac:(clear - L E1; lia)). clear - RU A V3. lia.
    + specialize (Bnd ltac:(clear - L; lia)). specialize (V4 ltac:(clear - L; lia)). clear - Bnd V4 B254 Bp. lia.
  - split; [exact I|]. specialize (Bnd ltac:(clear - RU; lia)). specialize (V4 ltac:(clear - RU; lia)).
    clear - Bnd V4 B254 Bp. lia.
  - destruct RU as [RU RE]. split; [exact I|]. split; [apply HC; exact RU|].
    apply valid_finite in RV.
    assert (WB : Wv <= (2 ^ 24 - 1) * B).
    { assert (Wn : 0 <= Wv) by (unfold Wv; apply Z.mul_nonneg_nonneg; [apply Q1|apply Z.lt_le_incl, Vp]).
      assert (Pz : 0 < 2 ^ (ez + 149)) by (apply Z.pow_pos_nonneg; clear - RV; lia).
      pose proof (Mono3 (ez + 149) ltac:(clear - RV; lia)) as M3.
      cbn [f_units] in RU. set (z := 2 ^ (ez + 149)) in *.
      assert (Mz : 0 < Z.pos mz * z) by (apply Z.mul_pos_pos; [reflexivity|assumption]).
      assert (EW : Wv = Z.pos mz * z).
      { set (y := Z.pos mz * z) in *. clear - RU Esg Wn Mz. destruct sz; destruct Esg as [Es|Es]; rewrite Es in RU; lia. }
      rewrite EW. apply Z.mul_le_mono_nonneg; [discriminate|clear - RV; lia|apply Z.lt_le_incl; assumption|assumption]. }
    destruct (Z.eq_dec q 0) as [Q0|Q0].
    { assert (W0 : Wv = 0) by (unfold Wv; rewrite Q0; reflexivity).
      destruct (Z.eq_dec e1 (-149)) as [E|N].
      + specialize (E149 E). clear - A E149 W0 Bp. lia.
      + exfalso. specialize (Bnd ltac:(clear - N E1; lia)). clear - A Bnd W0 Vp. lia. }
    destruct RE as [RE|RE]; [|contradiction].
    destruct (Z.eq_dec e1 104) as [E|Ne].
    + specialize (E104 E). clear - A E104 WB Tie. lia.
    + specialize (V2 ltac:(clear - Ne RE E1; lia)). clear - A V2 B252 WB Bp. lia.
Qed.
