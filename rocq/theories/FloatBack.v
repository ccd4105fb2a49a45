(** The 2-byte float there and back, and the order of encoded values. *)
From Coq Require Import String.
From Coq.Floats Require Import SpecFloat.
From Verif Require Import Base Wire Spec BaseProofs Apdu DpTypes TypedSpec FloatProofs FloatMul FloatEncode FloatCode FloatSweep FloatDecode FloatRound FloatMore FloatScale.
Open Scope Z_scope.

(** ** Multiplying by 100 keeps the order *)
Lemma hundred_repr x : is_f32 x -> f_finite x -> repr (hundred x) (RNs (f_units x * 100 * 2 ^ 22)).
Proof.
  intros H F. unfold hundred. assert (C : f_of_Z 100 = S754_finite false 13107200 (-17)) by (vm_compute; reflexivity).
  destruct x as [s|s| |s m e]; try contradiction F.
  - rewrite C. cbn [f_units]. rewrite !Z.mul_0_l, RNs_0. split; reflexivity.
  - unfold f_mul. rewrite C. cbn [SFmul]. rewrite Bool.xorb_false_r. apply valid_finite in H.
    pose proof (round_aux_RN s (m * 13107200) (e + -17) ltac:(lia)) as R. cbn zeta in R.
    assert (Dm : 24 <= Z.pos (digits2_pos (m * 13107200))).
    { pose proof (digits_spec (m * 13107200)) as D. destruct (Z.le_gt_cases 24 (Z.pos (digits2_pos (m * 13107200)))); [assumption|].
      assert (2 ^ Z.pos (digits2_pos (m * 13107200)) <= 2 ^ 23) by (apply Z.pow_le_mono_r; lia). lia. }
    specialize (R ltac:(lia)). replace (e + -17 + 171) with (e + 149 + 5) in R by lia. rewrite Z.pow_add_r in R by lia.
    assert (Ep : Z.pos (m * 13107200) * (2 ^ (e + 149) * 2 ^ 5) = Z.pos m * 2 ^ (e + 149) * 100 * 2 ^ 22) by lia. rewrite Ep in R.
    cbn [f_units]. assert (0 < Z.pos m * 2 ^ (e + 149)) by (apply Z.mul_pos_pos; [lia|apply Z.pow_pos_nonneg; lia]).
    set (X := Z.pos m * 2 ^ (e + 149)) in *. unfold RNs. destruct s.
    + destruct (Z.ltb_spec (-1 * X * 100 * 2 ^ 22) 0); [|lia]. replace (- (-1 * X * 100 * 2 ^ 22)) with (X * 100 * 2 ^ 22) by ring. exact R.
    + destruct (Z.ltb_spec (1 * X * 100 * 2 ^ 22) 0); [lia|]. rewrite Z.mul_1_l. exact R.
Qed.
Lemma hundred_mono x y : is_f32 x -> f_finite x -> is_f32 y -> f_finite y -> f_finite (hundred x) -> f_finite (hundred y) ->
  f_units x <= f_units y -> f_units (hundred x) <= f_units (hundred y).
Proof.
  intros Hx Fx Hy Fy Gx Gy L. pose proof (hundred_repr x Hx Fx) as Rx. pose proof (hundred_repr y Hy Fy) as Ry.
  assert (M : RNs (f_units x * 100 * 2 ^ 22) <= RNs (f_units y * 100 * 2 ^ 22)) by (apply RNs_mono; lia).
  assert (Ex : f_units (hundred x) * 2 ^ 22 = RNs (f_units x * 100 * 2 ^ 22)) by (destruct (hundred x); try contradiction Gx; apply Rx).
  assert (Ey : f_units (hundred y) * 2 ^ 22 = RNs (f_units y * 100 * 2 ^ 22)) by (destruct (hundred y); try contradiction Gy; apply Ry).
  rewrite <- Ex, <- Ey in M. lia.
Qed.

(** ** Order *)
Lemma hundred_finite x : is_f32 x -> f_finite x -> 200 * Z.abs (f_units x) < overflow_bound -> f_finite (hundred x).
Proof.
  intros V F H. destruct (hundred_cases x V) as [_ [G|[G|G]]]; [exact G|exfalso|exfalso].
  - destruct x; try contradiction F; try discriminate G. pose proof (hundred_repr _ V F) as R. rewrite G in R. exact R.
  - apply hundred_infinite_iff in G; [|exact V]. destruct G as [G|G]; [destruct x; contradiction|lia].
Qed.
(** Codes of the same exponent, codes of different exponents. *)
Lemma codes_le hx hy mx my kx ky Wx Wy : 0 <= kx -> 0 <= ky ->
  hx = mx * 2 ^ kx -> hy = my * 2 ^ ky -> -2048 <= mx <= 2047 -> -2048 <= my <= 2047 ->
  least_exponent Wx kx -> least_exponent Wy ky ->
  2 * Z.abs (hx * 2 ^ 149 - Wx) <= 2 ^ (149 + kx) -> 2 * Z.abs (hy * 2 ^ 149 - Wy) <= 2 ^ (149 + ky) ->
  Wx < Wy -> hx <= hy.
Proof.
  intros Px Py -> -> Bx By (_&Ax&Lx) (_&Ay&Ly) Ex Ey L.
  rewrite (Z.pow_add_r 2 149 kx) in Ex by lia. rewrite (Z.pow_add_r 2 149 ky) in Ey by lia.
  replace (160 + kx) with (149 + (11 + kx)) in Ax by lia. replace (160 + ky) with (149 + (11 + ky)) in Ay by lia.
  replace (159 + kx) with (149 + (10 + kx)) in Lx by lia. replace (159 + ky) with (149 + (10 + ky)) in Ly by lia.
  rewrite !Z.pow_add_r in Ax, Ay, Lx, Ly by lia. set (u := 2 ^ 149) in *. assert (Hu : 0 < u) by reflexivity. clearbody u.
  assert (Tx : 0 < 2 ^ kx) by (apply Z.pow_pos_nonneg; lia). assert (Ty : 0 < 2 ^ ky) by (apply Z.pow_pos_nonneg; lia).
  destruct (Z.lt_trichotomy kx ky) as [K|[K|K]].
  - destruct Ly as [->|Ly]; [lia|].
    assert (D : 2 * 2 ^ kx <= 2 ^ ky) by (rewrite <- Z.pow_succ_r by lia; apply Z.pow_le_mono_r; lia).
    set (a := 2 ^ kx) in *. set (b := 2 ^ ky) in *. clearbody a b. change (2 ^ 11) with 2048 in *. change (2 ^ 10) with 1024 in *.
    destruct (Z.le_gt_cases 0 Wy) as [S|S].
    + assert (1024 <= my) by nia. nia.
    + exfalso. nia.
  - subst ky. set (a := 2 ^ kx) in *. clearbody a. assert (mx - my < 1) by nia. nia.
  - destruct Lx as [->|Lx]; [lia|].
    assert (D : 2 * 2 ^ ky <= 2 ^ kx) by (rewrite <- Z.pow_succ_r by lia; apply Z.pow_le_mono_r; lia).
    set (a := 2 ^ kx) in *. set (b := 2 ^ ky) in *. clearbody a b. change (2 ^ 11) with 2048 in *. change (2 ^ 10) with 1024 in *.
    destruct (Z.le_gt_cases 0 Wx) as [S|S].
    + exfalso. nia.
    + assert (mx <= -1024) by nia. nia.
Qed.
Lemma mantissa_range c : (c < 65536)%N -> -2048 <= knx_mantissa c <= 2047.
Proof. intro H. unfold knx_mantissa. destruct (N.leb_spec 32768 c); lia. Qed.
Lemma units_inj a b : is_f32 a -> is_f32 b -> f_finite a -> f_finite b -> f_units a = f_units b -> a = b \/ f_units a = 0.
Proof.
  intros Va Vb Fa Fb E. destruct a as [s|s| |s m e]; try contradiction; [right; reflexivity|].
  destruct b as [s'|s'| |s' m' e']; try contradiction; [right; exact E|]. left.
  apply valid_finite in Va. apply valid_finite in Vb. cbn [f_units] in E.
  assert (P : 0 < 2 ^ (e + 149)) by (apply Z.pow_pos_nonneg; lia). assert (P' : 0 < 2 ^ (e' + 149)) by (apply Z.pow_pos_nonneg; lia).
  assert (S : s = s') by (destruct s, s'; try reflexivity; nia). subst s'.
  assert (M : Z.pos m * 2 ^ (e + 149) = Z.pos m' * 2 ^ (e' + 149)) by (destruct s; lia). clear E.
  destruct (Z.lt_trichotomy e e') as [L|[L|L]].
  - exfalso. assert (D : 2 * 2 ^ (e + 149) <= 2 ^ (e' + 149)) by (rewrite <- Z.pow_succ_r by lia; apply Z.pow_le_mono_r; lia).
    assert (2 ^ 23 <= Z.pos m') by lia. assert (Z.pos m < 2 ^ 24) by lia. clear Va Vb. change (2 ^ 24) with (2 * 2 ^ 23) in *. nia.
  - subst e'. assert (Z.pos m = Z.pos m') by nia. congruence.
  - exfalso. assert (D : 2 * 2 ^ (e' + 149) <= 2 ^ (e + 149)) by (rewrite <- Z.pow_succ_r by lia; apply Z.pow_le_mono_r; lia).
    assert (2 ^ 23 <= Z.pos m) by lia. assert (Z.pos m' < 2 ^ 24) by lia. clear Va Vb. change (2 ^ 24) with (2 * 2 ^ 23) in *. nia.
Qed.
Lemma zero_code w : f_finite w -> is_f32 w -> f_units w = 0 -> float_code (halved w) (halvings w) = word 0.
Proof.
  intros F V E. destruct w as [s|s| |s m e]; try contradiction; [destruct s; vm_compute; reflexivity|].
  apply valid_finite in V. cbn [f_units] in E. assert (0 < 2 ^ (e + 149)) by (apply Z.pow_pos_nonneg; lia). destruct s; nia.
Qed.
Lemma encode_le p fuel x y : no_gap x -> no_gap y -> f_units x <= f_units y -> (117 <= fuel)%nat ->
  exists cx cy, float_to_bytes p fuel x = Done (word cx) /\ float_to_bytes p fuel y = Done (word cy) /\
    (cx < 65536)%N /\ (cy < 65536)%N /\ knx_hundredths cx <= knx_hundredths cy.
Proof.
  intros (Vx&Fx&(_&Ox)&kx&Lx&Kx&Bx&Cx) (Vy&Fy&(_&Oy)&ky&Ly&Ky&By&Cy) L Hf.
  destruct (encode_accuracy p fuel x Vx Fx Ox Hf) as (cx&kx'&Ex&Rx&_&Lx'&Ix&Nx&_).
  destruct (encode_accuracy p fuel y Vy Fy Oy Hf) as (cy&ky'&Ey&Ry&_&Ly'&Iy&Ny&_).
  pose proof (least_unique _ _ _ Lx Lx') as <-. pose proof (least_unique _ _ _ Ly Ly') as <-. clear Lx' Ly'.
  pose proof (proj2 Ix (conj Kx (conj Bx Cx))) as Wx. pose proof (proj2 Iy (conj Ky (conj By Cy))) as Wy. clear Ix Iy.
  specialize (Nx Wx). specialize (Ny Wy). exists cx, cy. repeat (split; [assumption|]).
  pose proof (hundred_mono x y Vx Fx Vy Fy (hundred_finite _ Vx Fx Ox) (hundred_finite _ Vy Fy Oy) L) as M. unfold hundred in M.
  destruct (Z.eq_dec (f_units (f_mul x (f_of_Z 100))) (f_units (f_mul y (f_of_Z 100)))) as [E|D].
  - pose proof (hundred_finite _ Vx Fx Ox) as Gx. pose proof (hundred_finite _ Vy Fy Oy) as Gy.
    pose proof (proj1 (hundred_cases x Vx)) as Ux. pose proof (proj1 (hundred_cases y Vy)) as Uy.
    rewrite (encode_done p fuel x Ux (or_introl Gx) Hf) in Ex. rewrite (encode_done p fuel y Uy (or_introl Gy) Hf) in Ey.
    assert (Ec : word cx = word cy).
    { assert (Ax : float_code (halved (hundred x)) (halvings (hundred x)) = word cx) by congruence.
      assert (Ay : float_code (halved (hundred y)) (halvings (hundred y)) = word cy) by congruence. rewrite <- Ax, <- Ay.
      destruct (units_inj _ _ Ux Uy Gx Gy E) as [->|Z0]; [reflexivity|].
      rewrite (zero_code _ Gx Ux Z0), zero_code; [reflexivity|exact Gy|exact Uy|]. unfold hundred in *. congruence. }
    injection Ec as E1 E2. assert (cx = cy) by (rewrite (N.div_mod' cx 256), (N.div_mod' cy 256); congruence). subst cy. apply Z.le_refl.
  - assert (Wlt : f_units (f_mul x (f_of_Z 100)) < f_units (f_mul y (f_of_Z 100))) by (clear - M D; lia).
    unfold within_half_step in Wx, Wy. destruct Lx as (Px&Lx). destruct Ly as (Py&Ly).
    eapply (codes_le (knx_hundredths cx) (knx_hundredths cy) (knx_mantissa cx) (knx_mantissa cy) kx ky);
      [exact Px|exact Py|unfold knx_hundredths; rewrite Nx; reflexivity|unfold knx_hundredths; rewrite Ny; reflexivity
      |apply mantissa_range; exact Rx|apply mantissa_range; exact Ry|exact (conj Px Lx)|exact (conj Py Ly)|exact Wx|exact Wy|exact Wlt].
Qed.

(** ** There and back *)
Lemma product_near x : is_f32 x -> f_finite x -> 200 * Z.abs (f_units x) < overflow_bound ->
  2 ^ 24 * Z.abs (f_units (f_mul x (f_of_Z 100)) - 100 * f_units x) <= Z.max (100 * Z.abs (f_units x)) (2 ^ 23).
Proof.
  intros V F O. destruct (encode_accuracy Debug 117 x V F O (Nat.le_refl _)) as (cx&kx'&_&_&C&_). exact C.
Qed.
Lemma clear_arith W X k : 0 <= k -> let u := 2 ^ (149 + k) in
  16777216 * Z.abs (W - 100 * X) <= Z.max (100 * Z.abs X) 8388608 ->
  10 * Z.abs (100 * X) <= 20474 * u -> k = 0 \/ 10241 * u <= 10 * Z.abs (100 * X) -> 0 <= 100 * X \/ 10 * (100 * X) <= - 6 * 2 ^ 149 ->
  least_exponent W k /\ 2 * Z.abs W < 4095 * u /\ ~ (- 2 ^ 149 < 2 * W < 0).
Proof.
  intros K u N B1 B2 B3.
  assert (E160 : 2 ^ (160 + k) = 2048 * u) by (replace (160 + k) with (11 + (149 + k)) by lia; apply Z.pow_add_r; lia).
  assert (E159 : 2 ^ (159 + k) = 1024 * u) by (replace (159 + k) with (10 + (149 + k)) by lia; apply Z.pow_add_r; lia).
  assert (Big : 2 ^ 149 <= u) by (apply Z.pow_le_mono_r; lia).
  assert (H23 : 8388608 * 1000 <= 2 ^ 149) by (vm_compute; discriminate).
  unfold least_exponent. rewrite E160, E159. set (v := 2 ^ 149) in *. clearbody u v. clear E160 E159.
  split; [destruct B2 as [->|B2]; lia|]. split; lia.
Qed.
Lemma small_enough x k u : 0 <= k <= 15 -> u = 2 ^ (149 + k) -> 1000 * Z.abs (f_units x) <= 20479 * u -> 200 * Z.abs (f_units x) < overflow_bound.
Proof.
  intros K -> H. assert (K2 : 2 ^ (149 + k) <= 2 ^ 164) by (apply Z.pow_le_mono_r; lia).
  unfold overflow_bound. assert (20479 * 2 ^ 164 < (2 ^ 25 - 1) * 2 ^ 253) by reflexivity. lia.
Qed.
Lemma clear_no_gap k x : 0 <= k <= 15 -> clear_of_gaps k x ->
  no_gap x /\ least_exponent (f_units (f_mul x (f_of_Z 100))) k /\
  2 * Z.abs (f_units (f_mul x (f_of_Z 100))) < 4095 * 2 ^ (149 + k).
Proof.
  intros K (V&F&B1&B2&B3). pose proof (small_enough x k _ K eq_refl ltac:(lia)) as O.
  destruct (clear_arith _ _ k (proj1 K) (product_near x V F O) B1 B2 B3) as (L&U&G).
  split; [|auto]. split; [exact V|]. split; [exact F|]. split; [split; [destruct x; auto|exact O]|]. exists k. cbv zeta.
  split; [exact L|]. split; [apply K|]. split; [|exact G]. clear - U. lia.
Qed.
Lemma scale_bound m a : -2048 <= m <= 2047 -> 0 < a -> Z.abs (m * a) <= 2048 * a.
Proof. nia. Qed.
Lemma back_arith h W X Y v a : 1 <= a -> 8388608 * 1000 <= v -> Z.abs h <= 2048 * a ->
  2 * Z.abs (h * v - W) <= v * a -> 16777216 * Z.abs (W - 100 * X) <= Z.max (100 * Z.abs X) 8388608 ->
  4194304 * Z.abs (100 * Y - h * v) <= Z.abs h * v -> 10 * Z.abs (100 * X) <= 20474 * (v * a) ->
  100000 * Z.abs (Y - X) <= 501 * (v * a).
Proof.
  intros Big H23 M Wi N Dy B1. assert (A : Z.abs h * v <= 2048 * (v * a)) by (clear - M H23; nia). assert (v <= v * a) by (clear - Big H23; nia).
  set (u := v * a) in *. set (z := h * v) in *. set (t := Z.abs h * v) in *. clearbody u z t. lia.
Qed.
Lemma no_minus_2048 c W k : 0 <= k -> (32768 <= c)%N -> (c mod 2048 = 0)%N -> knx_exponent c = k ->
  within_half_step c W k -> 2 * Z.abs W < 4095 * 2 ^ (149 + k) -> False.
Proof.
  intros K Hc M E Wi U. unfold within_half_step, knx_hundredths in Wi. rewrite E in Wi. unfold knx_mantissa in Wi.
  destruct (N.leb_spec 32768 c); [|lia]. rewrite M in Wi. rewrite Z.pow_add_r in Wi, U by lia.
  set (a := 2 ^ k) in *. clearbody a. clear - Wi U. lia.
Qed.
Lemma back p fuel k x : 0 <= k <= 7 -> clear_of_gaps k x -> (117 <= fuel)%nat ->
  exists bs y, float_to_bytes p fuel x = Done bs /\ bytes_to_float p bs = Ok y /\ is_f32 y /\ f_finite y /\
    100000 * Z.abs (f_units y - f_units x) <= 501 * 2 ^ (149 + k).
Proof.
  intros K C Hf. assert (K15 : 0 <= k <= 15) by lia. destruct (clear_no_gap k x K15 C) as ((V&F&(_&O)&_)&L&U).
  destruct C as (_&_&B1&B2&B3). pose proof (product_near x V F O) as N.
  pose proof (proj2 (proj2 (clear_arith _ _ k (proj1 K) N B1 B2 B3))) as G.
  destruct (encode_accuracy p fuel x V F O Hf) as (c&k'&E&R&_&L'&I&Nx&_). pose proof (least_unique _ _ _ L L') as <-.
  assert (Wi : within_half_step c (f_units (f_mul x (f_of_Z 100))) k).
  { apply I. split; [apply K15|]. split; [|exact G]. clear - U. lia. }
  specialize (Nx Wi).
  assert (D : exists y, bytes_to_float p (word c) = Ok y /\ decodes_to c y).
  { apply decode_correct_iff; [exact R|]. destruct (N.eq_dec (c mod 2048) 0) as [M|M]; [|right; split; [exact M|lia]].
    left. split; [exact M|]. destruct (N.lt_ge_cases c 32768) as [Lt|Ge]; [exact Lt|exfalso].
    exact (no_minus_2048 c _ k (proj1 K) Ge M Nx Wi U). }
  destruct D as (y&Ey&Vy&Fy&Dy). exists (word c), y. repeat (split; [assumption|]).
  assert (Pa : 1 <= 2 ^ k) by (change 1 with (2 ^ 0); apply Z.pow_le_mono_r; lia).
  assert (M : Z.abs (knx_hundredths c) <= 2048 * 2 ^ k).
  { unfold knx_hundredths. rewrite Nx. apply scale_bound; [apply mantissa_range, R|lia]. }
  unfold within_half_step in Wi. rewrite Z.pow_add_r in Wi, B1 |- * by (clear - K; lia).
  refine (back_arith _ _ _ _ _ _ Pa _ M Wi N Dy B1). vm_compute. discriminate.
Qed.

(** The gaps. *)
Lemma upper_back p fuel k x : 0 <= k <= 15 -> upper_gap k x -> (117 <= fuel)%nat ->
  exists bs y, float_to_bytes p fuel x = Done bs /\ bytes_to_float p bs = Ok y /\ f_finite y /\ f_units y = 0.
Proof.
  intros K (V&F&B) Hf. pose proof (small_enough x k _ K eq_refl ltac:(lia)) as O.
  pose proof (product_near x V F O) as N.
  destruct (encode_accuracy p fuel x V F O Hf) as (c&k'&E&R&_&L&_&_&Z0&_).
  assert (A : least_exponent (f_units (f_mul x (f_of_Z 100))) k /\ 4095 * 2 ^ (149 + k) <= 2 * f_units (f_mul x (f_of_Z 100))).
  { assert (E160 : 2 ^ (160 + k) = 2048 * 2 ^ (149 + k)) by (replace (160 + k) with (11 + (149 + k)) by lia; apply Z.pow_add_r; lia).
    assert (E159 : 2 ^ (159 + k) = 1024 * 2 ^ (149 + k)) by (replace (159 + k) with (10 + (149 + k)) by lia; apply Z.pow_add_r; lia).
    assert (Big : 8388608 * 1000 <= 2 ^ (149 + k)) by (apply Z.le_trans with (2 ^ 149); [vm_compute; discriminate|apply Z.pow_le_mono_r; lia]).
    unfold least_exponent. rewrite E160, E159. change (2 ^ 23) with 8388608 in N. change (2 ^ 24) with 16777216 in N.
    set (W := f_units (f_mul _ _)) in *. set (X := f_units x) in *. set (u := 2 ^ (149 + k)) in *. clearbody W X u. clear - N B Big K. lia. }
  destruct A as (L'&A). pose proof (least_unique _ _ _ L' L) as <-. specialize (Z0 (proj2 K) A).
  assert (P : 0 < 2 ^ knx_exponent c) by (apply Z.pow_pos_nonneg; [reflexivity|unfold knx_exponent; lia]).
  assert (M : knx_mantissa c = 0) by (unfold knx_hundredths in Z0; apply Z.eq_mul_0 in Z0; destruct Z0 as [Z0|Z0]; [exact Z0|lia]).
  assert (C : (c mod 2048 = 0 /\ c < 32768)%N) by (unfold knx_mantissa in M; destruct (N.leb_spec 32768 c); lia).
  destruct (proj2 (decode_correct_iff p c R) (or_introl C)) as (y&Ey&_&Fy&Dy).
  exists (word c), y. repeat (split; [assumption|]). rewrite Z0 in Dy. change (Z.abs 0) with 0 in Dy. rewrite !Z.mul_0_l, Z.sub_0_r in Dy.
  change (2 ^ 22) with 4194304 in Dy. set (Y := f_units y) in *. clearbody Y. clear - Dy. lia.
Qed.
Lemma lower_back fuel k x : 0 <= k <= 15 -> lower_gap k x -> (117 <= fuel)%nat ->
  exists bs, float_to_bytes Debug fuel x = Done bs /\ bytes_to_float Debug bs = Panic.
Proof.
  intros K (V&F&B) Hf.
  assert (Bk : 0 < 2 ^ 149 <= 2 ^ (149 + k)) by (split; [reflexivity|apply Z.pow_le_mono_r; lia]).
  pose proof (small_enough x k _ K eq_refl ltac:(clear - B Bk; lia)) as O.
  pose proof (product_near x V F O) as N.
  destruct (encode_accuracy Debug fuel x V F O Hf) as (c&k'&E&R&_&L&I&Nx&_&Z0).
  exists (word c). split; [exact E|]. apply decode_panic_iff; [exact R|].
  destruct B as [B|B].
  - assert (A : least_exponent (f_units (f_mul x (f_of_Z 100))) k /\ 2 * f_units (f_mul x (f_of_Z 100)) < - 4095 * 2 ^ (149 + k)).
    { assert (E160 : 2 ^ (160 + k) = 2048 * 2 ^ (149 + k)) by (replace (160 + k) with (11 + (149 + k)) by lia; apply Z.pow_add_r; lia).
      assert (E159 : 2 ^ (159 + k) = 1024 * 2 ^ (149 + k)) by (replace (159 + k) with (10 + (149 + k)) by lia; apply Z.pow_add_r; lia).
      assert (Big : 8388608 * 1000 <= 2 ^ (149 + k)) by (apply Z.le_trans with (2 ^ 149); [vm_compute; discriminate|apply Bk]).
      unfold least_exponent. rewrite E160, E159. change (2 ^ 23) with 8388608 in N. change (2 ^ 24) with 16777216 in N.
      set (W := f_units (f_mul _ _)) in *. set (X := f_units x) in *. set (u := 2 ^ (149 + k)) in *. clearbody W X u. clear - N B Big K. lia. }
    destruct A as (L'&A). pose proof (least_unique _ _ _ L' L) as <-.
    assert (Wi : within_half_step c (f_units (f_mul x (f_of_Z 100))) k).
    { apply I. split; [apply K|]. split; [clear - A Bk; lia|clear - A Bk; lia]. }
    specialize (Nx Wi). unfold within_half_step, knx_hundredths in Wi. rewrite Nx in Wi. pose proof (mantissa_range c R) as MR.
    rewrite Z.pow_add_r in Wi, A by lia. assert (Pu : 0 < 2 ^ 149 * 2 ^ k) by (rewrite <- Z.pow_add_r by lia; lia).
    assert (M : knx_mantissa c = -2048).
    { rewrite <- Z.mul_assoc, (Z.mul_comm (2 ^ k)) in Wi. set (u := 2 ^ 149 * 2 ^ k) in *. set (W := f_units _) in *. set (m := knx_mantissa c) in *.
      clearbody u W m. clear - Wi A MR Pu. assert (2 * (m * u) < - 4094 * u) by lia. nia. }
    clear - M R. unfold knx_mantissa in M. destruct (N.leb_spec 32768 c); lia.
  - rewrite Z0; [split; [discriminate|reflexivity]|].
    assert (H23 : 8388608 * 1000 <= 2 ^ 149) by (vm_compute; discriminate).
    change (2 ^ 23) with 8388608 in N. change (2 ^ 24) with 16777216 in N.
    set (W := f_units (f_mul _ _)) in *. set (X := f_units x) in *. set (v := 2 ^ 149) in *. clearbody W X v. clear - N B H23. lia.
Qed.
Lemma order_refuted p fuel : (117 <= fuel)%nat ->
  ~ (forall x y, is_f32 x -> is_f32 y -> f_finite x -> f_finite y -> f_units x <= f_units y ->
       exists cx cy, float_to_bytes p fuel x = Done (word cx) /\ float_to_bytes p fuel y = Done (word cy) /\
         (cx < 65536)%N /\ (cy < 65536)%N /\ knx_hundredths cx <= knx_hundredths cy).
Proof.
  intros Hf A. destruct (A (f_lit 2047 100) (f_lit 2048 100)) as (cx&cy&Ex&Ey&Rx&Ry&L);
    [reflexivity|reflexivity|vm_compute; exact I|vm_compute; exact I|vm_compute; discriminate|].
  rewrite encode_done in Ex by (try exact Hf; try reflexivity; left; vm_compute; exact I).
  rewrite encode_done in Ey by (try exact Hf; try reflexivity; left; vm_compute; exact I).
  assert (Cx : word cx = [0x07; 0xff]%N) by (transitivity (float_code (halved (hundred (f_lit 2047 100))) (halvings (hundred (f_lit 2047 100)))); [congruence|vm_compute; reflexivity]).
  assert (Cy : word cy = [0; 0]%N) by (transitivity (float_code (halved (hundred (f_lit 2048 100))) (halvings (hundred (f_lit 2048 100)))); [congruence|vm_compute; reflexivity]).
  injection Cx as X1 X2. injection Cy as Y1 Y2.
  assert (cx = 0x07ff%N) by (rewrite (N.div_mod' cx 256), X1, X2; reflexivity).
  assert (cy = 0%N) by (rewrite (N.div_mod' cy 256), Y1, Y2; reflexivity). subst. vm_compute in L. apply L. reflexivity.
Qed.
