(** Accuracy of the float encoder, in units of 2^-149. *)
From Coq Require Import String.
From Coq.Floats Require Import SpecFloat.
From Verif Require Import Base Wire Spec BaseProofs Apdu DpTypes FloatProofs FloatMul FloatEncode.
Open Scope Z_scope.

(** The most significant byte. *)
Definition msb_of (s : bool) (k h : Z) : Z :=
  let b := Z.lor (wrap_i16 (Z.shiftl k 3)) h mod 256 in if s then Z.lor b 0x80 else b.
Definition msb_ok (s : bool) (k h : Z) : bool :=
  let b := msb_of s k h in
  (0 <=? b) && (b <? 256) && (b mod 8 =? h) && (b / 8 mod 16 =? k mod 16)
  && Bool.eqb (128 <=? b) (s || Z.odd (k / 16)).
Lemma msb_sweep : forallb (fun k => forallb (fun h => msb_ok true (Z.of_nat k) (Z.of_nat h) && msb_ok false (Z.of_nat k) (Z.of_nat h)) (seq 0 8)) (seq 0 118) = true.
Proof. vm_compute. reflexivity. Qed.
Lemma msb_spec s k h : 0 <= k <= 117 -> 0 <= h < 8 ->
  let b := msb_of s k h in
  0 <= b < 256 /\ b mod 8 = h /\ b / 8 mod 16 = k mod 16 /\ ((128 <=? b) = s || Z.odd (k / 16)).
Proof.
  intros Hk Hh. pose proof msb_sweep as S. rewrite forallb_forall in S.
  specialize (S (Z.to_nat k) ltac:(apply in_seq; lia)). rewrite forallb_forall in S.
  specialize (S (Z.to_nat h) ltac:(apply in_seq; lia)). rewrite !Z2Nat.id in S by lia.
  assert (M : msb_ok s k h = true) by (apply andb_true_iff in S; destruct s; tauto).
  unfold msb_ok in M. cbv zeta in *. rewrite !andb_true_iff in M. destruct M as [[[[M1 M2] M3] M4] M5].
  apply Bool.eqb_prop in M5. split; [|split; [|split; [|exact M5]]]; clear M5; lia.
Qed.

Lemma code_spec v k (s : bool) : 0 <= k <= 117 -> SFltb v (f_of_Z 0) = s ->
  exists code, float_code v k = word code /\ (code < 65536)%N /\
    Z.of_N (code mod 2048) = (round_as (-32768) 32767 v) mod 2048 /\
    knx_exponent code = k mod 16 /\
    (32768 <=? code)%N = s || Z.odd (k / 16).
Proof.
  intros Hk Hs. unfold float_code. cbv zeta. rewrite Hs.
  change 0x7ff with (Z.ones 11). change 0xff with (Z.ones 8). rewrite !Z.land_ones by lia.
  change (2 ^ 11) with 2048. change (2 ^ 8) with 256.
  rewrite Z.shiftr_div_pow2 by lia. change (2 ^ 8) with 256.
  set (M := round_as (-32768) 32767 v mod 2048).
  assert (HM : 0 <= M < 2048) by (apply Z.mod_pos_bound; lia).
  pose proof (msb_spec s k (M / 256) Hk ltac:(lia)) as [B1 [B2 [B3 B4]]].
  fold (msb_of s k (M / 256)). set (b := msb_of s k (M / 256)) in *. clearbody b M.
  exists (Z.to_N (b * 256 + M mod 256)). unfold knx_exponent, word.
  split; [f_equal; [|f_equal]; lia|]. split; [lia|]. split; [lia|]. split; [lia|].
  rewrite <- B4. destruct (Z.leb_spec 128 b); destruct (N.leb_spec 32768 (Z.to_N (b * 256 + M mod 256))); try reflexivity; lia.
Qed.

(** Number of halvings, in terms of the value only. *)
Lemma units_abs s m e : -149 <= e -> Z.abs (f_units (S754_finite s m e)) = Z.pos m * 2 ^ (e + 149).
Proof.
  intro H. cbn [f_units]. assert (0 < 2 ^ (e + 149)) by (apply Z.pow_pos_nonneg; lia). destruct s; nia.
Qed.
Lemma halvings_least w : is_f32 w -> f_finite w -> least_exponent (f_units w) (halvings w).
Proof.
  intros V F. pose proof (halvings_bound w V) as HB. split; [lia|].
  destruct w as [s|s| |s m e]; try contradiction; [cbn [f_units halvings]; split; [cbn; lia|left; reflexivity]|].
  apply valid_finite in V. rewrite units_abs by lia. unfold halvings in *.
  assert (P : forall a b, 0 <= a <= b -> 2 ^ a <= 2 ^ b) by (intros; apply Z.pow_le_mono_r; lia).
  assert (Pp : 0 < 2 ^ (e + 149)) by (apply Z.pow_pos_nonneg; lia).
  destruct (above m e) eqn:A.
  - unfold above in A. assert (E : -12 <= e) by lia.
    destruct (Z.ltb_spec 8388608 (Z.pos m)) as [L|L].
    + replace (160 + (e + 13)) with (24 + (e + 149)) by lia. replace (159 + (e + 13)) with (23 + (e + 149)) by lia.
      rewrite (pow_split 24), (pow_split 23) by lia. change (2 ^ 23) with 8388608 in *. change (2 ^ 24) with 16777216 in *. split; [|right]; nia.
    + replace (160 + (e + 12)) with (23 + (e + 149)) by lia. replace (159 + (e + 12)) with (22 + (e + 149)) by lia.
      rewrite (pow_split 23), (pow_split 22) by lia. change (2 ^ 23) with 8388608 in *. change (2 ^ 22) with 4194304 in *. split; [|right]; nia.
  - split; [|left; reflexivity]. unfold above in A. rewrite Z.add_0_r.
    destruct (Z.ltb_spec 8388608 (Z.pos m)) as [L|L].
    + assert (e <= -13) by lia. pose proof (P (e + 149) 136 ltac:(lia)). change (2 ^ 160) with (16777216 * 2 ^ 136).
      change (2 ^ 24) with 16777216 in *. apply Z.mul_le_mono_nonneg; lia.
    + assert (e <= -12) by lia. pose proof (P (e + 149) 137 ltac:(lia)). change (2 ^ 160) with (8388608 * 2 ^ 137).
      apply Z.mul_le_mono_nonneg; lia.
Qed.
Lemma least_unique W k k' : least_exponent W k -> least_exponent W k' -> k = k'.
Proof.
  intros [A1 [A2 A3]] [B1 [B2 B3]].
  destruct (Z.lt_trichotomy k k') as [L|[L|L]]; [exfalso|assumption|exfalso].
  - destruct B3 as [->|B3]; [lia|]. assert (2 ^ (160 + k) <= 2 ^ (159 + k')) by (apply Z.pow_le_mono_r; lia). lia.
  - destruct A3 as [->|A3]; [lia|]. assert (2 ^ (160 + k') <= 2 ^ (159 + k)) by (apply Z.pow_le_mono_r; lia). lia.
Qed.

(** The rounded scaled value. *)
Lemma round_div m d : 0 < m -> 0 < d ->
  let a := (m + 2 ^ (d - 1)) / 2 ^ d in
  0 <= a /\ 2 * Z.abs (a * 2 ^ d - m) <= 2 ^ d /\ 2 * m < (2 * a + 1) * 2 ^ d.
Proof.
  intros Hm Hd. cbv zeta. assert (E : 2 ^ d = 2 * 2 ^ (d - 1)) by (rewrite <- Z.pow_succ_r by lia; f_equal; lia).
  rewrite E. set (h := 2 ^ (d - 1)). assert (0 < h) by (apply Z.pow_pos_nonneg; lia).
  pose proof (Z.div_mod (m + h) (2 * h) ltac:(lia)). pose proof (Z.mod_pos_bound (m + h) (2 * h) ltac:(lia)).
  assert (0 <= (m + h) / (2 * h)) by (apply Z.div_pos; lia). set (a := (m + h) / (2 * h)) in *.
  set (r := (m + h) mod (2 * h)) in *. split; [assumption|]. split; nia.
Qed.
Lemma halved_round w : is_f32 w -> f_finite w ->
  let k := halvings w in let W := f_units w in
  let r := round_as (-32768) 32767 (halved w) in
  2 * Z.abs (r * 2 ^ (149 + k) - W) <= 2 ^ (149 + k) /\ -2048 <= r <= 2048 /\
  (r = 0 -> 2 * Z.abs W < 2 ^ (149 + k)) /\ (0 <= W -> 2 * W < (2 * r + 1) * 2 ^ (149 + k)) /\
  SFltb (halved w) (f_of_Z 0) = (W <? 0).
Proof.
  intros V F. cbv zeta. pose proof (halvings_least w V F) as [K0 [K1 K2]].
  destruct w as [s|s| |s m e]; try contradiction.
  - cbn [halved round_as f_units halvings]. destruct s; repeat split; try (cbn; lia).
  - pose proof V as V'. apply valid_finite in V'. set (k := halvings (S754_finite s m e)) in *.
    assert (Hef : -149 <= e - k + k /\ e - k <= -12).
    { unfold k, halvings. destruct (above m e) eqn:A; unfold above in A; destruct (Z.ltb_spec 8388608 (Z.pos m)); lia. }
    cbn [halved]. fold k. set (ef := e - k) in *.
    rewrite units_abs in * by lia.
    assert (Pp : 0 < 2 ^ (e + 149)) by (apply Z.pow_pos_nonneg; lia).
    pose proof (round_div (Z.pos m) (- ef) ltac:(lia) ltac:(lia)) as [A0 [A1 A2]].
    unfold round_as, round_away. destruct (Z.leb_spec 0 ef); [lia|].
    set (a := (Z.pos m + 2 ^ (- ef - 1)) / 2 ^ (- ef)) in *.
    assert (S1 : 2 ^ (- ef) * 2 ^ (e + 149) = 2 ^ (149 + k)) by (rewrite <- pow_split by lia; f_equal; lia).
    set (t := 2 ^ (- ef)) in *. set (u := 2 ^ (e + 149)) in *.
    assert (B1 : 2 * Z.abs (a * 2 ^ (149 + k) - Z.pos m * u) <= 2 ^ (149 + k)).
    { rewrite <- S1. replace (a * (t * u) - Z.pos m * u) with ((a * t - Z.pos m) * u) by ring.
      rewrite Z.abs_mul, (Z.abs_eq u) by lia. nia. }
    assert (B2 : 2 * (Z.pos m * u) < (2 * a + 1) * 2 ^ (149 + k)) by (rewrite <- S1; nia).
    set (y := Z.pos m * u) in *. assert (Yp : 0 < y) by (apply Z.mul_pos_pos; lia).
    assert (S2 : 2 ^ (160 + k) = 2048 * 2 ^ (149 + k)).
    { replace (160 + k) with (11 + (149 + k)) by lia. apply pow_split; lia. }
    assert (Gp : 0 < 2 ^ (149 + k)) by (apply Z.pow_pos_nonneg; lia).
    set (g := 2 ^ (149 + k)) in *. rewrite S2 in K1.
    assert (B3 : a <= 2048) by nia.
    assert (U : f_units (S754_finite s m e) = if s then - y else y) by (unfold f_units, y, u; destruct s; lia).
    rewrite U. clearbody y g a. clear - A0 B1 B2 B3 Yp Gp.
    destruct s.
    + replace (Z.max (-32768) (Z.min 32767 (- a))) with (- a) by lia.
      split; [replace (- a * g - - y) with (- (a * g - y)) by ring; rewrite Z.abs_opp; assumption|].
      split; [lia|]. split; [intro; assert (a = 0) by lia; subst a; lia|].
      split; [lia|]. destruct (Z.ltb_spec (- y) 0); [reflexivity|lia].
    + replace (Z.max (-32768) (Z.min 32767 a)) with a by lia.
      split; [assumption|]. split; [lia|]. split; [intro; subst a; lia|].
      split; [intros _; assumption|]. destruct (Z.ltb_spec y 0); [lia|reflexivity].
Qed.

(** The error of the encoding, exactly. *)
Lemma encode_exact w : is_f32 w -> f_finite w ->
  exists code k, float_code (halved w) (halvings w) = word code /\ (code < 65536)%N /\ k = halvings w /\
    least_exponent (f_units w) k /\ k <= 117 /\
    (within_half_step code (f_units w) k <->
     k <= 15 /\ 2 * f_units w < 4095 * 2 ^ (149 + k) /\ ~ (- 2 ^ 149 < 2 * f_units w < 0)) /\
    (within_half_step code (f_units w) k -> knx_exponent code = k) /\
    (k <= 15 -> 4095 * 2 ^ (149 + k) <= 2 * f_units w -> knx_hundredths code = 0) /\
    (- 2 ^ 149 < 2 * f_units w < 0 -> code = 32768%N).
Proof.
  intros V F. pose proof (halvings_least w V F) as L. pose proof (halvings_bound w V) as HB.
  pose proof (halved_round w V F) as R. cbv zeta in R. destruct R as [R1 [R2 [R3 [R5 R4]]]].
  destruct (code_spec (halved w) (halvings w) _ HB R4) as [code [C1 [C2 [C3 [C4 C5]]]]].
  exists code, (halvings w). split; [exact C1|]. split; [exact C2|]. split; [reflexivity|]. split; [exact L|]. split; [lia|].
  set (k := halvings w) in *. set (W := f_units w) in *. set (r := round_as (-32768) 32767 (halved w)) in *.
  clearbody r k W. clear C1 V F R4 w.
  destruct L as [L0 [L1 L2]].
  assert (S2 : 2 ^ (160 + k) = 2048 * 2 ^ (149 + k)).
  { replace (160 + k) with (11 + (149 + k)) by lia. apply pow_split; lia. }
  assert (S3 : 2 ^ (159 + k) = 1024 * 2 ^ (149 + k)).
  { replace (159 + k) with (10 + (149 + k)) by lia. apply pow_split; lia. }
  assert (Gp : 0 < 2 ^ (149 + k)) by (apply Z.pow_pos_nonneg; lia).
  assert (G : 2 ^ (149 + k) = 2 ^ k * 2 ^ 149) by (rewrite <- pow_split by lia; f_equal; lia).
  assert (Kp : 0 < 2 ^ k) by (apply Z.pow_pos_nonneg; lia).
  assert (Bp : 0 < 2 ^ 149) by reflexivity.
  assert (S4 : k = 0 -> 2 ^ (149 + k) = 2 ^ 149) by (intros ->; reflexivity).
  rewrite S2 in L1. rewrite S3 in L2.
  unfold within_half_step, knx_hundredths, knx_mantissa. rewrite C4, C3, C5.
  destruct (Z.le_gt_cases k 15) as [K|K].
  - assert (k mod 16 = k) as -> by lia. assert (Z.odd (k / 16) = false) as -> by (replace (k / 16) with 0 by lia; reflexivity).
    rewrite orb_false_r.
    replace ((r mod 2048 - (if W <? 0 then 2048 else 0)) * 2 ^ k * 2 ^ 149)
      with ((r mod 2048 - (if W <? 0 then 2048 else 0)) * 2 ^ (149 + k)) by (rewrite G; ring).
    set (g := 2 ^ (149 + k)) in *. set (B := 2 ^ 149) in *.
    destruct (Z.ltb_spec W 0) as [Wn|Wp].
    + assert (Rn : r <= 0) by nia.
      destruct (Z.eq_dec r 0) as [->|Rz].
      * (* -0.5 < W < 0 *)
        specialize (R3 eq_refl). assert (k = 0) as K0 by (destruct L2 as [|L2]; [assumption|exfalso; clear - L2 R3 Gp; lia]).
        assert (GB : g = B) by (apply S4; assumption). clear G; clearbody g B; subst g.
        change (0 mod 2048 - 2048) with (-2048).
        split; [|split; [intros _; reflexivity|split]].
        -- split; intro H; [exfalso|destruct H as [_ [_ H]]; exfalso; apply H]; clear - H R3 Wn Bp; lia.
        -- intros. exfalso. clear - H0 Wn Bp. lia.
        -- intros _. assert (E : knx_exponent code = 0) by (rewrite C4, K0; reflexivity).
           unfold knx_exponent in E. cbn [orb] in C5. change (0 mod 2048) with 0 in C3. clear - E C5 C3 C2. lia.
      * assert (M : r mod 2048 - 2048 = r).
        { destruct (Z.eq_dec r (-2048)) as [->|]; [reflexivity|]. rewrite <- (Z.mod_unique r 2048 (-1) (r + 2048)); lia. }
        rewrite M. assert (NB : ~ (- B < 2 * W < 0)).
        { intro H. assert (k = 0) as K0 by (destruct L2 as [|L2]; [assumption|exfalso; clearbody g B; nia]).
          specialize (S4 K0). clear G; clearbody g B; subst g. nia. }
        split; [|split; [intros _; reflexivity|split]].
        -- split; intro H; [|exact R1]. split; [exact K|]. split; [|exact NB]. clear - Wn Gp. clearbody g. lia.
        -- intros. exfalso. clear - H0 Wn Gp. clearbody g. lia.
        -- intro H. contradiction (NB H).
    + assert (Rn : 0 <= r) by (clearbody g; nia).
      rewrite Z.sub_0_r.
      destruct (Z.eq_dec r 2048) as [->|Rz].
      * change (2048 mod 2048) with 0.
        assert (H1 : 4095 * g <= 2 * W) by (clear - R1; clearbody g; lia).
        split; [|split; [intros _; reflexivity|split]].
        -- split; intro H; [exfalso|destruct H as [_ [H _]]; exfalso]; clear - H R1 Gp H1; clearbody g; lia.
        -- intros; lia.
        -- intros; lia.
      * assert (M : r mod 2048 = r) by (apply Z.mod_small; lia). rewrite M.
        assert (H1 : 2 * W < 4095 * g).
        { specialize (R5 Wp). assert ((2 * r + 1) * g <= 4095 * g) by (apply Z.mul_le_mono_nonneg_r; lia). clearbody g. lia. }
        split; [|split; [intros _; reflexivity|split]].
        -- split; intro H; [|exact R1]. split; [exact K|]. split; [exact H1|]. lia.
        -- intros. exfalso. clearbody g. lia.
        -- intros. lia.
  - destruct L2 as [->|L2]; [lia|].
    assert (Hm : forall mant, -2048 <= mant <= 2047 -> ~ 2 * Z.abs (mant * 2 ^ (k mod 16) * 2 ^ 149 - W) <= 2 ^ (149 + k)).
    { intros mant Hm. assert (Q : 2 ^ (k mod 16) <= 2 ^ (k - 16)) by (apply Z.pow_le_mono_r; lia).
      assert (E : 2 ^ k = 65536 * 2 ^ (k - 16)) by (change 65536 with (2 ^ 16); rewrite <- pow_split by lia; f_equal; lia).
      assert (Qp : 0 < 2 ^ (k mod 16)) by (apply Z.pow_pos_nonneg; lia).
      rewrite G, E in *. set (B := 2 ^ 149) in *. set (j := 2 ^ (k - 16)) in *. set (i := 2 ^ (k mod 16)) in *.
      assert (A1 : Z.abs (mant * i * B) <= 2048 * j * B).
      { rewrite !Z.abs_mul, (Z.abs_eq i), (Z.abs_eq B) by (clearbody B; lia).
        apply Z.mul_le_mono_nonneg_r; [clearbody B; lia|]. apply Z.mul_le_mono_nonneg; lia. }
      set (y := mant * i * B) in *. clear - A1 L2 Gp. assert (0 < j * B) by (clearbody B; nia).
      replace (2048 * j * B) with (2048 * (j * B)) in A1 by ring. replace (65536 * j * B) with (65536 * (j * B)) in * by ring.
      set (z := j * B) in *. clearbody y z. lia. }
    match goal with |- context [Z.abs (?mm * 2 ^ (k mod 16) * 2 ^ 149 - W)] => set (mant := mm); specialize (Hm mant) end.
    specialize (Hm ltac:(unfold mant; pose proof (Z.mod_pos_bound r 2048 ltac:(lia)); destruct ((W <? 0) || Z.odd (k / 16)); lia)).
    split; [split; intro H; [contradiction|lia]|]. split; [intro H; contradiction|]. split; [lia|].
    intro H. exfalso. clear - L2 H G K Bp. 
    assert (2 ^ 16 <= 2 ^ k) by (apply Z.pow_le_mono_r; lia). rewrite G in L2. set (B := 2 ^ 149) in *. clearbody B. nia.
Qed.
