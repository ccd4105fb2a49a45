(** Lemmas about the 2-byte float.  Everything is integer arithmetic: a finite
    f32 is an integral multiple of 2^-149. *)
From Coq Require Import String.
From Coq.Floats Require Import SpecFloat.
From Verif Require Import Base Wire Spec BaseProofs Apdu DpTypes.
Open Scope Z_scope.

(** ** Rounding *)
Fixpoint times (n : nat) (x : shr_record) : shr_record :=
  match n with O => x | S k => shr_1 (times k x) end.
Lemma times_add a b x : times (a + b) x = times a (times b x).
Proof. induction a as [|a IH]; cbn [times Nat.add]; [reflexivity|rewrite IH; reflexivity]. Qed.
Lemma iter_pos_times p : forall x, SpecFloat.iter_pos shr_1 p x = times (Pos.to_nat p) x.
Proof.
  induction p as [p IH|p IH|]; intro x; cbn [SpecFloat.iter_pos].
  - rewrite !IH, Pos2Nat.inj_xI.
    replace (S (2 * Pos.to_nat p)) with (Pos.to_nat p + (Pos.to_nat p + 1))%nat by lia.
    rewrite !times_add. reflexivity.
  - rewrite !IH, Pos2Nat.inj_xO, <- times_add. f_equal. lia.
  - reflexivity.
Qed.
Lemma shr_1_spec m r s : 0 <= m ->
  shr_1 {| shr_m := m; shr_r := r; shr_s := s |} =
  {| shr_m := m / 2; shr_r := Z.odd m; shr_s := orb r s |}.
Proof.
  intro H. destruct m as [|[p|p|]|p]; try lia; try reflexivity.
  - cbn [shr_1 Z.odd]. f_equal. change (Z.pos p~1) with (2 * Z.pos p + 1). lia.
  - cbn [shr_1 Z.odd]. f_equal. change (Z.pos p~0) with (2 * Z.pos p). lia.
Qed.
Lemma shr_iter m n : 0 <= m ->
  times (S n) {| shr_m := m; shr_r := false; shr_s := false |} =
  {| shr_m := m / 2 ^ Z.of_nat (S n); shr_r := Z.odd (m / 2 ^ Z.of_nat n);
     shr_s := negb (m mod 2 ^ Z.of_nat n =? 0) |}.
Proof.
  intro H. induction n as [|n IH].
  - change (times 1 {| shr_m := m; shr_r := false; shr_s := false |})
      with (shr_1 {| shr_m := m; shr_r := false; shr_s := false |}).
    rewrite shr_1_spec by assumption. cbn [orb]. change (2 ^ Z.of_nat 1) with 2. change (2 ^ Z.of_nat 0) with 1.
    rewrite Z.div_1_r, Z.mod_1_r. reflexivity.
  - change (times (S (S n)) {| shr_m := m; shr_r := false; shr_s := false |})
      with (shr_1 (times (S n) {| shr_m := m; shr_r := false; shr_s := false |})).
    rewrite IH. rewrite shr_1_spec by (apply Z.div_pos; lia).
    assert (E : 2 ^ Z.of_nat (S n) = 2 * 2 ^ Z.of_nat n) by (rewrite Nat2Z.inj_succ, Z.pow_succ_r; lia).
    assert (E' : 2 ^ Z.of_nat (S (S n)) = 2 ^ Z.of_nat (S n) * 2) by (rewrite (Nat2Z.inj_succ (S n)), Z.pow_succ_r; lia).
    f_equal.
    + rewrite E'. rewrite Z.div_div; [reflexivity|lia|lia].
    + rewrite E. set (a := 2 ^ Z.of_nat n). assert (0 < a) by (apply Z.pow_pos_nonneg; lia).
      rewrite (Z.mul_comm 2 a). rewrite Z.rem_mul_r by lia.
      rewrite Zmod_odd. pose proof (Z.mod_pos_bound m a ltac:(lia)).
      destruct (Z.odd (m / a)); cbn [orb].
      * symmetry. apply negb_true_iff, Z.eqb_neq. lia.
      * rewrite Z.mul_0_r, Z.add_0_r. reflexivity.
Qed.
(** Shifting right by n and rounding to nearest even. *)
Lemma shr_round m e n : 0 <= m -> 0 <= n ->
  exists q, 2 * Z.abs (q * 2 ^ n - m) <= 2 ^ n /\ m / 2 ^ n <= q <= m / 2 ^ n + 1 /\ (n = 0 -> q = m) /\
    (let '(mrs, e') := shr {| shr_m := m; shr_r := false; shr_s := false |} e n in
     round_nearest_even (shr_m mrs) (loc_of_shr_record mrs) = q /\ e' = e + n).
Proof.
  intros Hm Hn. destruct n as [|p|p]; [|clear Hn|lia].
  - exists m. cbn [shr shr_m loc_of_shr_record round_nearest_even]. rewrite Z.pow_0_r, Z.div_1_r. repeat split; lia.
  - unfold shr. rewrite iter_pos_times.
    destruct (Pos.to_nat p) as [|k] eqn:Ek; [lia|].
    rewrite shr_iter by assumption. cbn [shr_m].
    assert (E : 2 ^ Z.pos p = 2 * 2 ^ Z.of_nat k).
    { replace (Z.pos p) with (Z.succ (Z.of_nat k)) by lia. apply Z.pow_succ_r. lia. }
    replace (Z.of_nat (S k)) with (Z.pos p) by lia. rewrite E.
    set (a := 2 ^ Z.of_nat k) in *. assert (Ha : 0 < a) by (apply Z.pow_pos_nonneg; lia).
    pose proof (Z.mod_pos_bound m a Ha) as Hr. pose proof (Z.div_mod m a ltac:(lia)) as Hd.
    assert (Q : m / (2 * a) = m / a / 2) by (rewrite (Z.mul_comm 2 a), Z.div_div by lia; reflexivity).
    rewrite Q. set (t := m / a) in *. set (r := m mod a) in *.
    pose proof (Zmod_odd t) as Ho. pose proof (Z.div_mod t 2 ltac:(lia)) as Ht.
    cbn [loc_of_shr_record].
    destruct (Z.odd t); destruct (Z.eqb_spec r 0) as [R|R]; cbn [negb round_nearest_even].
    + destruct (Z.even (t / 2)) eqn:Ev.
      * exists (t / 2). split; [|split; [lia|split; [lia|split; reflexivity]]]. nia.
      * exists (t / 2 + 1). split; [|split; [lia|split; [lia|split; reflexivity]]]. nia.
    + exists (t / 2 + 1). split; [|split; [lia|split; [lia|split; reflexivity]]]. nia.
    + exists (t / 2). split; [|split; [lia|split; [lia|split; reflexivity]]]. nia.
    + exists (t / 2). split; [|split; [lia|split; [lia|split; reflexivity]]]. nia.
Qed.
Lemma digits_spec p : 2 ^ (Z.pos (digits2_pos p) - 1) <= Z.pos p < 2 ^ Z.pos (digits2_pos p).
Proof.
  induction p as [p IH|p IH|]; cbn [digits2_pos].
  - rewrite Pos2Z.inj_succ. replace (Z.succ (Z.pos (digits2_pos p)) - 1) with (Z.succ (Z.pos (digits2_pos p) - 1)) by lia.
    rewrite !Z.pow_succ_r by lia. change (Z.pos p~1) with (2 * Z.pos p + 1). lia.
  - rewrite Pos2Z.inj_succ. replace (Z.succ (Z.pos (digits2_pos p)) - 1) with (Z.succ (Z.pos (digits2_pos p) - 1)) by lia.
    rewrite !Z.pow_succ_r by lia. change (Z.pos p~0) with (2 * Z.pos p). lia.
  - cbn. lia.
Qed.
Lemma digits_unique p d : 2 ^ (d - 1) <= Z.pos p < 2 ^ d -> Z.pos (digits2_pos p) = d.
Proof.
  intro H. pose proof (digits_spec p) as D. set (k := Z.pos (digits2_pos p)) in *.
  assert (0 < k) by lia.
  assert (0 < d). { destruct (Z.lt_ge_cases 0 d); [assumption|]. assert (2 ^ d <= 2 ^ 0) by (apply Z.pow_le_mono_r; lia). lia. }
  destruct (Z.lt_trichotomy k d) as [L|[L|L]]; [|assumption|].
  - assert (2 ^ k <= 2 ^ (d - 1)) by (apply Z.pow_le_mono_r; lia). lia.
  - assert (2 ^ d <= 2 ^ (k - 1)) by (apply Z.pow_le_mono_r; lia). lia.
Qed.
Lemma digits_le p d : 0 <= d -> Z.pos p < 2 ^ d -> Z.pos (digits2_pos p) <= d.
Proof.
  intros H0 H. pose proof (digits_spec p) as D. destruct (Z.le_gt_cases (Z.pos (digits2_pos p)) d); [assumption|].
  assert (2 ^ d <= 2 ^ (Z.pos (digits2_pos p) - 1)) by (apply Z.pow_le_mono_r; lia). lia.
Qed.

Lemma shr_fexp_none m e : 0 <= m ->
  SpecFloat.fexp 24 128 (Zdigits2 m + e) - e <= 0 ->
  shr_fexp 24 128 m e loc_Exact = ({| shr_m := m; shr_r := false; shr_s := false |}, e).
Proof.
  intros Hm H. unfold shr_fexp, shr, shr_record_of_loc.
  destruct (SpecFloat.fexp 24 128 (Zdigits2 m + e) - e); try lia; reflexivity.
Qed.

(** The result of rounding [m * 2^e] to a float. *)
Definition rounded (s : bool) (q e1 : Z) : spec_float :=
  if q =? 0 then S754_zero s
  else if q =? 2 ^ 24 then
    (if e1 + 1 <=? 104 then S754_finite s (Z.to_pos (2 ^ 23)) (e1 + 1) else S754_infinity s)
  else if e1 <=? 104 then S754_finite s (Z.to_pos q) e1 else S754_infinity s.
Lemma round_aux_spec s m e e1 :
  e1 = Z.max (Z.pos (digits2_pos m) + e - 24) (-149) -> e <= e1 ->
  exists q, 0 <= q <= 2 ^ 24 /\ 2 * Z.abs (q * 2 ^ (e1 - e) - Z.pos m) <= 2 ^ (e1 - e) /\
    (-149 < e1 -> 2 ^ 23 <= q) /\ (e1 = e -> q = Z.pos m) /\
    binary_round_aux 24 128 s (Z.pos m) e loc_Exact = rounded s q e1.
Proof.
  intros E1 He. set (n := e1 - e) in *.
  destruct (shr_round (Z.pos m) e n ltac:(lia) ltac:(lia)) as [q [Q1 [Q2 [Q3 Q4]]]].
  pose proof (digits_spec m) as D. set (d := Z.pos (digits2_pos m)) in *.
  assert (Hd : 0 < d) by lia.
  assert (B : 0 <= q <= 2 ^ 24 /\ (-149 < e1 -> 2 ^ 23 <= q) /\ (e1 = -149 -> q <= 2 ^ 24)).
  { assert (P : 0 < 2 ^ n) by (apply Z.pow_pos_nonneg; lia).
    assert (U : Z.pos m < 2 ^ 24 * 2 ^ n).
    { rewrite <- Z.pow_add_r by lia. eapply Z.lt_le_trans; [apply D|]. apply Z.pow_le_mono_r; lia. }
    assert (Z.pos m / 2 ^ n < 2 ^ 24) by (apply Z.div_lt_upper_bound; lia).
    assert (0 <= Z.pos m / 2 ^ n) by (apply Z.div_pos; lia).
    repeat split; try lia. intro G.
    assert (X : 2 ^ 23 <= Z.pos m / 2 ^ n).
    { apply Z.div_le_lower_bound; [lia|]. rewrite <- Z.pow_add_r by lia.
      eapply Z.le_trans; [|apply D]. apply Z.pow_le_mono_r; lia. }
    lia. }
  destruct B as [B1 [B2 B3]].
  exists q. split; [assumption|]. split; [assumption|]. split; [assumption|]. split; [intro; apply Q3; lia|].
  unfold binary_round_aux. unfold shr_fexp at 1. cbn [shr_record_of_loc].
  replace (SpecFloat.fexp 24 128 (Zdigits2 (Z.pos m) + e) - e) with n.
  2:{ unfold SpecFloat.fexp, SpecFloat.emin. cbn [Zdigits2]. unfold n. fold d. lia. }
  destruct (shr _ e n) as [mrs e'] eqn:ES. destruct Q4 as [-> ->].
  replace (e + n) with e1 by lia.
  unfold rounded. destruct (Z.eqb_spec q 0) as [->|Nz].
  { rewrite shr_fexp_none; [reflexivity|lia|]. unfold SpecFloat.fexp, SpecFloat.emin. cbn [Zdigits2]. lia. }
  destruct q as [|q|q]; [lia| |lia].
  destruct (Z.eqb_spec (Z.pos q) (2 ^ 24)) as [Eq|Nq].
  - assert (q = 16777216)%positive as -> by (cbn in Eq; congruence).
    unfold shr_fexp. replace (SpecFloat.fexp 24 128 (Zdigits2 16777216 + e1) - e1) with 1.
    2:{ unfold SpecFloat.fexp, SpecFloat.emin. change (Zdigits2 16777216) with 25. lia. }
    cbn. reflexivity.
  - assert (Dq : Z.pos (digits2_pos q) <= 24) by (apply digits_le; lia).
    rewrite shr_fexp_none.
    + cbn [shr_m]. reflexivity.
    + lia.
    + unfold SpecFloat.fexp, SpecFloat.emin. cbn [Zdigits2].
      destruct (Z.eq_dec e1 (-149)); lia.
Qed.

(** Validity: canonical mantissas. *)
Lemma valid_finite s m e :
  valid_binary 24 128 (S754_finite s m e) = true <->
  e <= 104 /\ ((e = -149 /\ Z.pos m < 2 ^ 24) \/ (-149 < e /\ 2 ^ 23 <= Z.pos m < 2 ^ 24)).
Proof.
  cbn [valid_binary]. unfold bounded, canonical_mantissa, SpecFloat.fexp, SpecFloat.emin.
  rewrite andb_true_iff, <- Zeq_is_eq_bool, <- Zle_is_le_bool.
  pose proof (digits_spec m) as D. split.
  - intros [H1 H2]. split; [lia|]. destruct (Z.eq_dec e (-149)) as [->|N]; [left|right].
    + split; [reflexivity|]. assert (2 ^ Z.pos (digits2_pos m) <= 2 ^ 24) by (apply Z.pow_le_mono_r; lia). lia.
    + assert (Z.pos (digits2_pos m) = 24) as E by lia. rewrite E in D. split; [lia|]. lia.
  - intros [H1 [[-> H2]|[H2 H3]]].
    + assert (Z.pos (digits2_pos m) <= 24) by (apply digits_le; lia). lia.
    + assert (Z.pos (digits2_pos m) = 24) by (apply digits_unique; lia). lia.
Qed.
Lemma rounded_valid s q e1 : 0 <= q <= 2 ^ 24 -> -149 <= e1 -> (-149 < e1 -> 2 ^ 23 <= q) ->
  valid_binary 24 128 (rounded s q e1) = true.
Proof.
  intros H1 H2 H3. unfold rounded.
  destruct (Z.eqb_spec q 0); [reflexivity|].
  destruct (Z.eqb_spec q (2 ^ 24)).
  - destruct (Z.leb_spec (e1 + 1) 104); [|reflexivity]. apply valid_finite. split; [lia|]. right. rewrite Z2Pos.id by lia. lia.
  - destruct (Z.leb_spec e1 104); [|reflexivity]. apply valid_finite. split; [lia|]. rewrite Z2Pos.id by lia.
    destruct (Z.eq_dec e1 (-149)); [left|right]; lia.
Qed.
