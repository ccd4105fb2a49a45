(** Rounding as a function on integers, and the scaling of percentages.  Unit
    2^-171: the product of an f32 and the f32 next to 2.54 is an integer. *)
From Coq Require Import String.
From Coq.Floats Require Import SpecFloat.
From Verif Require Import Base Wire Spec BaseProofs Apdu DpTypes FloatProofs FloatMul.
Open Scope Z_scope.

(** m / 2^n rounded to nearest, ties to even. *)
Definition rne (n m : Z) : Z :=
  let q := m / 2 ^ n in let r := m mod 2 ^ n in
  if (2 ^ n <? 2 * r) || ((2 * r =? 2 ^ n) && Z.odd q) then q + 1 else q.
Lemma rne_mono n m m' : 0 <= n -> m <= m' -> rne n m <= rne n m'.
Proof.
  intros Hn H. unfold rne. set (a := 2 ^ n). assert (Ha : 0 < a) by (apply Z.pow_pos_nonneg; lia).
  pose proof (Z.div_le_mono m m' a Ha H) as D.
  pose proof (Z.div_mod m a ltac:(lia)) as M. pose proof (Z.div_mod m' a ltac:(lia)) as M'.
  pose proof (Z.mod_pos_bound m a Ha). pose proof (Z.mod_pos_bound m' a Ha).
  set (q := m / a) in *. set (q' := m' / a) in *. set (r := m mod a) in *. set (r' := m' mod a) in *.
  destruct (Z.eq_dec q q') as [E|E].
  - rewrite E in *. assert (r <= r') by nia. destruct (Z.odd q'); destruct (Z.ltb_spec a (2 * r)), (Z.eqb_spec (2 * r) a), (Z.ltb_spec a (2 * r')), (Z.eqb_spec (2 * r') a); cbn [orb andb]; lia.
  - destruct (_ || _), (_ || _); lia.
Qed.
Lemma rne_error n m : 0 <= n -> 2 * Z.abs (rne n m * 2 ^ n - m) <= 2 ^ n.
Proof.
  intros Hn. unfold rne. set (a := 2 ^ n). assert (Ha : 0 < a) by (apply Z.pow_pos_nonneg; lia).
  pose proof (Z.div_mod m a ltac:(lia)) as M. pose proof (Z.mod_pos_bound m a Ha).
  set (q := m / a) in *. set (r := m mod a) in *.
  destruct (Z.ltb_spec a (2 * r)), (Z.eqb_spec (2 * r) a), (Z.odd q); cbn [orb andb]; nia.
Qed.
Lemma rne_exact n q : 0 <= n -> rne n (q * 2 ^ n) = q.
Proof.
  intros Hn. unfold rne. assert (Ha : 0 < 2 ^ n) by (apply Z.pow_pos_nonneg; lia).
  rewrite Z.div_mul, Z.mod_mul by lia. destruct (Z.ltb_spec (2 ^ n) (2 * 0)); [lia|].
  destruct (Z.eqb_spec (2 * 0) (2 ^ n)); [lia|]. reflexivity.
Qed.
Lemma rne_shift n k m : 0 <= n -> 0 <= k -> rne (n + k) (m * 2 ^ k) = rne n m.
Proof.
  intros Hn Hk. unfold rne. rewrite Z.pow_add_r by lia.
  assert (0 < 2 ^ n) by (apply Z.pow_pos_nonneg; lia). assert (0 < 2 ^ k) by (apply Z.pow_pos_nonneg; lia).
  rewrite Z.div_mul_cancel_r by lia. rewrite Z.mul_mod_distr_r by lia.
  set (q := m / 2 ^ n). set (r := m mod 2 ^ n). set (b := 2 ^ k) in *. set (a := 2 ^ n) in *.
  replace (a * b <? 2 * (r * b)) with (a <? 2 * r) by (destruct (Z.ltb_spec a (2 * r)), (Z.ltb_spec (a * b) (2 * (r * b))); nia).
  replace (2 * (r * b) =? a * b) with (2 * r =? a) by (destruct (Z.eqb_spec (2 * r) a), (Z.eqb_spec (2 * (r * b)) (a * b)); nia).
  reflexivity.
Qed.
Lemma rne_bounds n m : 0 <= n -> 0 <= m -> m / 2 ^ n <= rne n m <= m / 2 ^ n + 1.
Proof. intros. unfold rne. destruct (_ || _); lia. Qed.

(** The algorithm of the standard library computes it. *)
Lemma shr_rne m e n : 0 <= m -> 0 <= n ->
  let '(mrs, e') := shr {| shr_m := m; shr_r := false; shr_s := false |} e n in
  round_nearest_even (shr_m mrs) (loc_of_shr_record mrs) = rne n m /\ e' = e + n.
Proof.
  intros Hm Hn. destruct n as [|p|p]; [|clear Hn|lia].
  - cbn [shr shr_m loc_of_shr_record round_nearest_even]. split; [|lia].
    pose proof (rne_exact 0 m ltac:(lia)) as R. rewrite Z.pow_0_r, Z.mul_1_r in R. congruence.
  - unfold shr. rewrite iter_pos_times.
    destruct (Pos.to_nat p) as [|k] eqn:Ek; [lia|].
    rewrite shr_iter by assumption. cbn [shr_m]. split; [|reflexivity].
    assert (E : 2 ^ Z.pos p = 2 * 2 ^ Z.of_nat k).
    { replace (Z.pos p) with (Z.succ (Z.of_nat k)) by lia. apply Z.pow_succ_r. lia. }
    unfold rne. replace (Z.of_nat (S k)) with (Z.pos p) by lia. rewrite E.
    set (a := 2 ^ Z.of_nat k) in *. assert (Ha : 0 < a) by (apply Z.pow_pos_nonneg; lia).
    pose proof (Z.mod_pos_bound m a Ha) as Hr.
    assert (Q : m / (2 * a) = m / a / 2) by (rewrite (Z.mul_comm 2 a), Z.div_div by lia; reflexivity).
    assert (R : m mod (2 * a) = m mod a + a * (m / a mod 2)) by (rewrite (Z.mul_comm 2 a); apply Z.rem_mul_r; lia).
    rewrite Q, R. set (t := m / a) in *. set (r := m mod a) in *.
    rewrite (Zmod_odd t). rewrite <- (Z.negb_even (t / 2)).
    destruct (Z.odd t) eqn:Ho; destruct (Z.eqb_spec r 0) as [R0|R0]; cbn [negb loc_of_shr_record round_nearest_even];
      destruct (Z.ltb_spec (2 * a) (2 * (r + a * 1))), (Z.eqb_spec (2 * (r + a * 1)) (2 * a)),
               (Z.ltb_spec (2 * a) (2 * (r + a * 0))), (Z.eqb_spec (2 * (r + a * 0)) (2 * a)),
               (Z.even (t / 2)); cbn [orb andb negb]; try reflexivity; try lia.
Qed.
(** [round_aux_spec] with the exact quotient. *)
Lemma round_aux_rne s m e e1 :
  e1 = Z.max (Z.pos (digits2_pos m) + e - 24) (-149) -> e <= e1 ->
  0 <= rne (e1 - e) (Z.pos m) <= 2 ^ 24 /\ (-149 < e1 -> 2 ^ 23 <= rne (e1 - e) (Z.pos m)) /\
  binary_round_aux 24 128 s (Z.pos m) e loc_Exact = rounded s (rne (e1 - e) (Z.pos m)) e1.
Proof.
  intros E1 He. set (n := e1 - e) in *.
  pose proof (shr_rne (Z.pos m) e n ltac:(lia) ltac:(lia)) as Q4.
  pose proof (rne_bounds n (Z.pos m) ltac:(lia) ltac:(lia)) as Q2. set (q := rne n (Z.pos m)) in *.
  pose proof (digits_spec m) as D. set (d := Z.pos (digits2_pos m)) in *.
  assert (Hd : 0 < d) by lia.
  assert (B : 0 <= q <= 2 ^ 24 /\ (-149 < e1 -> 2 ^ 23 <= q)).
  { assert (P : 0 < 2 ^ n) by (apply Z.pow_pos_nonneg; lia).
    assert (U : Z.pos m < 2 ^ 24 * 2 ^ n).
    { rewrite <- Z.pow_add_r by lia. eapply Z.lt_le_trans; [apply D|]. apply Z.pow_le_mono_r; lia. }
    assert (Z.pos m / 2 ^ n < 2 ^ 24) by (apply Z.div_lt_upper_bound; lia).
    assert (0 <= Z.pos m / 2 ^ n) by (apply Z.div_pos; lia).
    split; [lia|]. intro G.
    assert (X : 2 ^ 23 <= Z.pos m / 2 ^ n).
    { apply Z.div_le_lower_bound; [lia|]. rewrite <- Z.pow_add_r by lia.
      eapply Z.le_trans; [|apply D]. apply Z.pow_le_mono_r; lia. }
    lia. }
  destruct B as [B1 B2]. split; [assumption|]. split; [assumption|]. clear Q2.
  unfold binary_round_aux. unfold shr_fexp at 1. cbn [shr_record_of_loc].
  replace (SpecFloat.fexp 24 128 (Zdigits2 (Z.pos m) + e) - e) with n.
  2:{ unfold SpecFloat.fexp, SpecFloat.emin. cbn [Zdigits2]. unfold n. fold d. lia. }
  destruct (shr _ e n) as [mrs e'] eqn:ES. destruct Q4 as [-> ->].
  replace (e + n) with e1 by lia. clearbody q.
  unfold rounded. destruct (Z.eqb_spec q 0) as [->|Nz].
  { rewrite shr_fexp_none; [reflexivity|lia|]. unfold SpecFloat.fexp, SpecFloat.emin. cbn [Zdigits2]. lia. }
  destruct q as [|q|q]; [lia| |lia].
  destruct (Z.eqb_spec (Z.pos q) (2 ^ 24)) as [Eq|Nq].
  - assert (q = 16777216)%positive as -> by (cbn in Eq; congruence).
    unfold shr_fexp. replace (SpecFloat.fexp 24 128 (Zdigits2 16777216 + e1) - e1) with 1.
    2:{ unfold SpecFloat.fexp, SpecFloat.emin. change (Zdigits2 16777216) with 25. lia. }
    cbn. reflexivity.
  - assert (Dq : Z.pos (digits2_pos q) <= 24) by (apply digits_le; lia).
    rewrite shr_fexp_none.
    + cbn [shr_m]. reflexivity.
    + lia.
    + unfold SpecFloat.fexp, SpecFloat.emin. cbn [Zdigits2].
      destruct (Z.eq_dec e1 (-149)); lia.
Qed.

(** ** Rounding a multiple of 2^-171 to an f32 (ignoring overflow) *)
Definition blen (V : Z) : Z := match V with Zpos p => Z.pos (digits2_pos p) | _ => 0 end.
Definition rexp (V : Z) : Z := Z.max (blen V - 24) 22.
Definition RN (V : Z) : Z := rne (rexp V) V * 2 ^ rexp V.
Definition RNs (V : Z) : Z := if V <? 0 then - RN (- V) else RN V.
Lemma blen_mono a b : a <= b -> blen a <= blen b.
Proof.
  intro H. destruct a as [|a|a]; destruct b as [|b|b]; cbn [blen]; try lia.
  pose proof (digits_spec a) as A. pose proof (digits_spec b) as B.
  destruct (Z.le_gt_cases (Z.pos (digits2_pos a)) (Z.pos (digits2_pos b))); [assumption|].
  assert (2 ^ Z.pos (digits2_pos b) <= 2 ^ (Z.pos (digits2_pos a) - 1)) by (apply Z.pow_le_mono_r; lia). lia.
Qed.
Lemma blen_lt V : 0 <= V -> V < 2 ^ blen V.
Proof. intro H. destruct V as [|p|p]; [reflexivity|apply digits_spec|lia]. Qed.
Lemma blen_ge V : 0 < V -> 2 ^ (blen V - 1) <= V.
Proof. intro H. destruct V as [|p|p]; [lia|apply digits_spec|lia]. Qed.
Lemma RN_bounds V : 0 <= V -> 0 <= RN V <= 2 ^ 24 * 2 ^ rexp V /\ (22 < rexp V -> 2 ^ 23 * 2 ^ rexp V <= RN V).
Proof.
  intro H. unfold RN. assert (P : 0 < 2 ^ rexp V) by (apply Z.pow_pos_nonneg; unfold rexp; lia).
  assert (Hr : 0 <= rexp V) by (unfold rexp; lia).
  assert (0 <= rne (rexp V) V).
  { pose proof (rne_mono (rexp V) 0 V Hr H) as M. pose proof (rne_exact (rexp V) 0 Hr) as E. rewrite Z.mul_0_l in E. lia. }
  assert (rne (rexp V) V <= 2 ^ 24).
  { pose proof (rne_mono (rexp V) V (2 ^ 24 * 2 ^ rexp V) Hr) as M. rewrite rne_exact in M by exact Hr. apply M.
    apply Z.lt_le_incl. eapply Z.lt_le_trans; [apply blen_lt; exact H|]. rewrite <- Z.pow_add_r by lia. apply Z.pow_le_mono_r; [lia|]. unfold rexp; lia. }
  split; [split; nia|]. intro G. assert (2 ^ 23 <= rne (rexp V) V); [|nia].
  pose proof (rne_mono (rexp V) (2 ^ 23 * 2 ^ rexp V) V Hr) as M. rewrite rne_exact in M by exact Hr. apply M.
  assert (0 < V) by (destruct V; [unfold rexp in G; cbn in G; lia|lia|lia]).
  eapply Z.le_trans; [|apply blen_ge; assumption]. rewrite <- Z.pow_add_r by lia. apply Z.pow_le_mono_r; [lia|]. unfold rexp in *; lia.
Qed.
Lemma RN_mono a b : 0 <= a -> a <= b -> RN a <= RN b.
Proof.
  intros Ha H. pose proof (blen_mono a b H) as L.
  assert (E : rexp a <= rexp b) by (unfold rexp; lia).
  destruct (Z.eq_dec (rexp a) (rexp b)) as [Eq|N].
  - unfold RN. rewrite Eq. apply Z.mul_le_mono_nonneg_r; [apply Z.pow_nonneg; lia|]. apply rne_mono; [unfold rexp; lia|exact H].
  - destruct (RN_bounds a Ha) as ((_&A)&_). destruct (RN_bounds b ltac:(lia)) as (_&B).
    assert (22 < rexp b) by (unfold rexp in *; lia). specialize (B H0).
    eapply Z.le_trans; [exact A|]. eapply Z.le_trans; [|exact B]. rewrite <- !Z.pow_add_r by (unfold rexp; lia). apply Z.pow_le_mono_r; lia.
Qed.
Lemma RN_nonneg a : 0 <= a -> 0 <= RN a.
Proof. intro H. apply RN_bounds. exact H. Qed.
Lemma RNs_mono a b : a <= b -> RNs a <= RNs b.
Proof.
  intro H. unfold RNs. destruct (Z.ltb_spec a 0), (Z.ltb_spec b 0); try lia.
  - pose proof (RN_mono (- b) (- a)). lia.
  - pose proof (RN_nonneg (- a)). pose proof (RN_nonneg b). lia.
  - apply RN_mono; assumption.
Qed.
Lemma RN_exact V k q : V = q * 2 ^ k -> 0 <= V -> rexp V <= k -> RN V = V.
Proof.
  intros E H L. unfold RN. assert (0 <= rexp V) by (unfold rexp; lia).
  assert (E2 : V = q * 2 ^ (k - rexp V) * 2 ^ rexp V).
  { rewrite <- Z.mul_assoc, <- Z.pow_add_r by lia. replace (k - rexp V + rexp V) with k by lia. exact E. }
  set (w := q * 2 ^ (k - rexp V)) in *. set (r := rexp V) in *. rewrite E2. rewrite rne_exact by assumption. reflexivity.
Qed.
Lemma RN_error V : 0 <= V -> 2 ^ 24 * Z.abs (RN V - V) <= Z.max V (2 ^ 45).
Proof.
  intro H. unfold RN. assert (Hr : 0 <= rexp V) by (unfold rexp; lia). pose proof (rne_error (rexp V) V Hr) as E.
  set (R := rne (rexp V) V * 2 ^ rexp V) in *. clearbody R.
  destruct (Z.eq_dec (rexp V) 22) as [E2|N].
  - rewrite E2 in E. change (2 ^ 22) with 4194304 in E. change (2 ^ 24) with 16777216. change (2 ^ 45) with 35184372088832. lia.
  - assert (0 < V) by (destruct V; [unfold rexp in N; cbn in N; lia|lia|lia]).
    assert (2 ^ 23 * 2 ^ rexp V <= V).
    { eapply Z.le_trans; [|apply blen_ge; assumption]. rewrite <- Z.pow_add_r by lia. apply Z.pow_le_mono_r; [lia|]. unfold rexp in *; lia. }
    change (2 ^ 24) with 16777216. change (2 ^ 23) with 8388608 in *. lia.
Qed.

(** ** The operations *)
(** [w] is the f32 of value V (unit 2^-171), or infinite and |V| >= 2^128. *)
Definition repr (w : f32) (V : Z) : Prop :=
  match w with
  | S754_infinity s => if s then V <= - 2 ^ 299 else 2 ^ 299 <= V
  | S754_nan => False
  | _ => is_f32 w /\ f_units w * 2 ^ 22 = V
  end.
Lemma blen_shift m k : 0 <= k -> blen (Z.pos m * 2 ^ k) = Z.pos (digits2_pos m) + k.
Proof.
  intro H. assert (P : 0 < 2 ^ k) by (apply Z.pow_pos_nonneg; lia).
  destruct (Z.pos m * 2 ^ k) as [|p|p] eqn:E; [lia| |lia]. cbn [blen].
  apply digits_unique. rewrite <- E. pose proof (digits_spec m) as D.
  replace (Z.pos (digits2_pos m) + k - 1) with (Z.pos (digits2_pos m) - 1 + k) by lia.
  rewrite !Z.pow_add_r by lia. nia.
Qed.
Lemma rounded_repr s q e1 : 0 <= q <= 2 ^ 24 -> -149 <= e1 -> (-149 < e1 -> 2 ^ 23 <= q) ->
  repr (rounded s q e1) (if s then - (q * 2 ^ (e1 + 171)) else q * 2 ^ (e1 + 171)).
Proof.
  intros Hq He Hn. pose proof (rounded_valid s q e1 Hq He Hn) as Vd.
  pose proof (rounded_units s q e1 ltac:(lia) He) as U.
  assert (Pw : 2 ^ (e1 + 171) = 2 ^ (e1 + 149) * 2 ^ 22) by (rewrite <- Z.pow_add_r by lia; f_equal; lia).
  assert (Inf : 104 < e1 /\ q <> 0 \/ 2 ^ 24 * 2 ^ (104 + 149) <= q * 2 ^ (e1 + 149) -> 2 ^ 299 <= q * 2 ^ (e1 + 171)).
  { intro H. rewrite Pw. destruct H as [(H1&H2)|H].
    - assert (2 ^ 23 <= q) by (apply Hn; lia).
      assert (2 ^ 254 <= 2 ^ (e1 + 149)) by (apply Z.pow_le_mono_r; lia).
      change (2 ^ 299) with (2 ^ 23 * (2 ^ 254 * 2 ^ 22)).
      apply Z.mul_le_mono_nonneg; try lia. 
    - change (2 ^ 299) with (2 ^ 24 * 2 ^ (104 + 149) * 2 ^ 22). rewrite Z.mul_assoc. apply Z.mul_le_mono_nonneg_r; [lia|exact H]. }
  unfold repr. destruct (rounded s q e1) as [s'|s'| |s' m e] eqn:E.
  - split; [exact Vd|]. destruct U as (U&_). rewrite U, Pw. destruct s; ring.
  - assert (s' = s /\ 2 ^ 299 <= q * 2 ^ (e1 + 171)) as (->&L).
    { destruct U as [(U1&U2)|(U1&U2&U3)]; (split; [assumption|]); apply Inf; [right; assumption|left; split; assumption]. }
    destruct s; lia.
  - exact U.
  - split; [exact Vd|]. destruct U as (U&_). rewrite U, Pw. destruct s; ring.
Qed.
Lemma round_aux_RN s m e : -171 <= e -> e <= Z.max (Z.pos (digits2_pos m) + e - 24) (-149) ->
  let V := Z.pos m * 2 ^ (e + 171) in
  repr (binary_round_aux 24 128 s (Z.pos m) e loc_Exact) (if s then - RN V else RN V).
Proof.
  intros H1 H2 V. set (e1 := Z.max (Z.pos (digits2_pos m) + e - 24) (-149)) in *.
  destruct (round_aux_rne s m e e1 eq_refl H2) as (B1&B2&->).
  assert (E : rexp V = e1 + 171) by (unfold rexp, V; rewrite blen_shift by lia; lia).
  assert (RN V = rne (e1 - e) (Z.pos m) * 2 ^ (e1 + 171)) as ->.
  { unfold RN. rewrite E. f_equal. unfold V. replace (e1 + 171) with (e1 - e + (e + 171)) by lia. apply rne_shift; lia. }
  apply rounded_repr; try assumption. lia.
Qed.
Lemma shl_align_spec m e e' : e' <= e -> shl_align m e e' = (fst (shl_align m e e'), e') /\
  Z.pos (fst (shl_align m e e')) = Z.pos m * 2 ^ (e - e').
Proof.
  intro H. unfold shl_align. destruct (e' - e) as [|d|d] eqn:E; [|lia|].
  - replace e with e' by lia. rewrite Z.sub_diag. cbn [fst]. split; [reflexivity|lia].
  - cbn [fst]. split; [reflexivity|]. rewrite Zpower.shift_pos_correct. replace (e - e') with (Z.pos d) by lia.
    change (2 ^ Z.pos d) with (Z.pow_pos 2 d). ring.
Qed.
Lemma round_RN s m e : -171 <= e ->
  let V := Z.pos m * 2 ^ (e + 171) in
  repr (binary_round 24 128 s m e) (if s then - RN V else RN V).
Proof.
  intros H V. unfold binary_round. unfold SpecFloat.fexp, SpecFloat.emin.
  replace (3 - 128 - 24) with (-149) by reflexivity.
  set (e1 := Z.max (Z.pos (digits2_pos m) + e - 24) (-149)).
  destruct (Z.le_gt_cases e e1) as [L|L].
  - assert (shl_align m e e1 = (m, e)) as ->.
    { unfold shl_align. destruct (e1 - e) eqn:E; [reflexivity|reflexivity|lia]. }
    apply round_aux_RN; assumption.
  - destruct (shl_align_spec m e e1 ltac:(lia)) as (E1&E2). rewrite E1. set (mz := fst (shl_align m e e1)) in *.
    assert (Ev : V = Z.pos mz * 2 ^ (e1 + 171)).
    { unfold V. rewrite E2, <- Z.mul_assoc, <- Z.pow_add_r by lia. f_equal. f_equal. lia. }
    assert (Dm : Z.pos (digits2_pos mz) = Z.pos (digits2_pos m) + (e - e1)).
    { pose proof (blen_shift m (e - e1) ltac:(lia)) as B. rewrite <- E2 in B. exact B. }
    rewrite Ev. apply round_aux_RN; [lia|]. rewrite Dm. lia.
Qed.
Definition c254 : f32 := f_lit 254 100.
Lemma c254_eq : c254 = S754_finite false 10653532 (-22). Proof. vm_compute. reflexivity. Qed.
Lemma RNs_0 : RNs 0 = 0. Proof. reflexivity. Qed.
Lemma mul_repr x : is_f32 x -> f_finite x -> repr (f_mul x c254) (RNs (f_units x * 10653532)).
Proof.
  intros H F. destruct x as [s|s| |s m e]; try contradiction F.
  - rewrite c254_eq. cbn [f_units]. rewrite Z.mul_0_l, RNs_0. split; reflexivity.
  - unfold f_mul. rewrite c254_eq. cbn [SFmul]. rewrite Bool.xorb_false_r. apply valid_finite in H.
    pose proof (round_aux_RN s (m * 10653532) (e + -22) ltac:(lia)) as R. cbn zeta in R.
    assert (Dm : 24 <= Z.pos (digits2_pos (m * 10653532))).
    { pose proof (digits_spec (m * 10653532)) as D. destruct (Z.le_gt_cases 24 (Z.pos (digits2_pos (m * 10653532)))); [assumption|].
      assert (2 ^ Z.pos (digits2_pos (m * 10653532)) <= 2 ^ 23) by (apply Z.pow_le_mono_r; lia). lia. }
    specialize (R ltac:(lia)). replace (e + -22 + 171) with (e + 149) in R by lia.
    assert (Ep : Z.pos (m * 10653532) * 2 ^ (e + 149) = Z.pos m * 2 ^ (e + 149) * 10653532) by lia. rewrite Ep in R.
    cbn [f_units]. assert (0 < Z.pos m * 2 ^ (e + 149)) by (apply Z.mul_pos_pos; [lia|apply Z.pow_pos_nonneg; lia]).
    set (X := Z.pos m * 2 ^ (e + 149)) in *. unfold RNs. destruct s.
    + destruct (Z.ltb_spec (-1 * X * 10653532) 0); [|lia]. replace (- (-1 * X * 10653532)) with (X * 10653532) by ring. exact R.
    + destruct (Z.ltb_spec (1 * X * 10653532) 0); [lia|]. rewrite Z.mul_1_l. exact R.
Qed.
Lemma f_1 : f_of_Z 1 = S754_finite false 8388608 (-23). Proof. reflexivity. Qed.
Lemma normalize_repr M e : -171 <= e -> repr (binary_normalize 24 128 M e false) (RNs (M * 2 ^ (e + 171))).
Proof.
  intro H. assert (P : 0 < 2 ^ (e + 171)) by (apply Z.pow_pos_nonneg; lia).
  destruct M as [|m|m]; cbn [binary_normalize].
  - rewrite Z.mul_0_l, RNs_0. split; reflexivity.
  - pose proof (round_RN false m e H) as R. unfold RNs. destruct (Z.ltb_spec (Z.pos m * 2 ^ (e + 171)) 0); [lia|]. exact R.
  - pose proof (round_RN true m e H) as R. unfold RNs. destruct (Z.ltb_spec (Z.neg m * 2 ^ (e + 171)) 0); [|lia].
    rewrite <- Z.mul_opp_l. exact R.
Qed.
Lemma inf_up V : 2 ^ 299 <= V -> 2 ^ 299 <= RNs (V + 2 ^ 171).
Proof. intro H. apply Z.le_trans with (RNs (2 ^ 299)); [vm_compute; discriminate|]. apply RNs_mono. assert (0 < 2 ^ 171) by reflexivity. lia. Qed.
Lemma inf_down V : V <= - 2 ^ 299 -> RNs (V + 2 ^ 171) <= - 2 ^ 299.
Proof. intro H. apply Z.le_trans with (RNs (- 2 ^ 299 + 2 ^ 171)); [apply RNs_mono; lia|vm_compute; discriminate]. Qed.
Lemma add_repr y V : repr y V -> repr (f_add y (f_of_Z 1)) (RNs (V + 2 ^ 171)).
Proof.
  intro H. unfold f_add. rewrite f_1. destruct y as [s|s| |s m e]; cbn [repr] in H.
  - destruct H as (_&<-). cbn [SFadd f_units]. rewrite Z.mul_0_l. split; [reflexivity|vm_compute; reflexivity].
  - cbn [SFadd repr]. destruct s; [apply inf_down|apply inf_up]; exact H.
  - contradiction.
  - destruct H as (Vd&<-). apply valid_finite in Vd. cbn [SFadd]. set (ez := Z.min e (-23)).
    destruct (shl_align_spec m e ez ltac:(lia)) as (_&E1). destruct (shl_align_spec 8388608 (-23) ez ltac:(lia)) as (_&E2).
    pose proof (normalize_repr (cond_Zopp s (Z.pos (fst (shl_align m e ez))) + cond_Zopp false (Z.pos (fst (shl_align 8388608 (-23) ez)))) ez ltac:(lia)) as R.
    match type of R with repr _ (RNs ?A) => match goal with |- repr _ (RNs ?B) => replace B with A; [exact R|] end end.
    rewrite E1, E2. cbn [cond_Zopp]. rewrite Z.mul_add_distr_r.
    assert (S : forall a k, ez <= k -> a * 2 ^ (k - ez) * 2 ^ (ez + 171) = a * 2 ^ (k + 171)).
    { intros a k Hk. rewrite <- Z.mul_assoc, <- Z.pow_add_r by lia. f_equal. f_equal. lia. }
    assert (Pw : 2 ^ (e + 171) = 2 ^ (e + 149) * 2 ^ 22) by (rewrite <- Z.pow_add_r by lia; f_equal; lia).
    f_equal.
    + cbn [f_units]. destruct s; cbn [cond_Zopp].
      * rewrite Z.mul_opp_l, S by lia. rewrite Pw. ring.
      * rewrite S by lia. rewrite Pw. ring.
    + rewrite S by lia. reflexivity.
Qed.
Definition clamp (z : Z) : Z := Z.max 0 (Z.min 255 z).
Lemma round_repr z V : repr z V -> round_as 0 255 z = clamp ((V + 2 ^ 170) / 2 ^ 171).
Proof.
  intro H. destruct z as [s|s| |s m e]; cbn [repr round_as] in *.
  - destruct H as (_&<-). reflexivity.
  - unfold clamp. assert (A : 0 < 2 ^ 171) by reflexivity. destruct s.
    + assert ((V + 2 ^ 170) / 2 ^ 171 <= 0); [|lia]. apply Z.div_le_upper_bound; [exact A|].
      eapply Z.le_trans; [apply Z.add_le_mono_r; exact H|]. vm_compute. discriminate.
    + assert (255 <= (V + 2 ^ 170) / 2 ^ 171); [|lia]. apply Z.div_le_lower_bound; [exact A|].
      eapply Z.le_trans; [|apply Z.add_le_mono_r; exact H]. vm_compute. discriminate.
  - contradiction.
  - destruct H as (Vd&<-). apply valid_finite in Vd. cbn [f_units].
    assert (Pw : 2 ^ (e + 149) * 2 ^ 22 = 2 ^ (e + 171)) by (rewrite <- Z.pow_add_r by lia; f_equal; lia).
    assert (Main : (Z.pos m * 2 ^ (e + 171) + 2 ^ 170) / 2 ^ 171 = if 0 <=? e then Z.pos m * 2 ^ e else (Z.pos m + 2 ^ (- e - 1)) / 2 ^ (- e)).
    { destruct (Z.leb_spec 0 e) as [L|L].
      - rewrite Z.pow_add_r, Z.mul_assoc by lia. rewrite Z.div_add_l by discriminate. change (2 ^ 170 / 2 ^ 171) with 0. lia.
      - replace (2 ^ 170) with (2 ^ (- e - 1) * 2 ^ (e + 171)) by (rewrite <- Z.pow_add_r by lia; f_equal; lia).
        replace (2 ^ 171) with (2 ^ (- e) * 2 ^ (e + 171)) by (rewrite <- Z.pow_add_r by lia; f_equal; lia).
        rewrite <- Z.mul_add_distr_r. apply Z.div_mul_cancel_r; apply Z.pow_nonzero; lia. }
    assert (P : 0 < Z.pos m * 2 ^ (e + 171)) by (apply Z.mul_pos_pos; [lia|apply Z.pow_pos_nonneg; lia]).
    unfold round_away, clamp. rewrite <- Main. destruct s.
    + replace (-1 * (Z.pos m * 2 ^ (e + 149)) * 2 ^ 22) with (- (Z.pos m * 2 ^ (e + 171))) by (rewrite <- Pw; ring).
      assert (0 <= (Z.pos m * 2 ^ (e + 171) + 2 ^ 170) / 2 ^ 171) by (apply Z.div_pos; [lia|reflexivity]).
      assert ((- (Z.pos m * 2 ^ (e + 171)) + 2 ^ 170) / 2 ^ 171 < 1); [|lia].
      apply Z.div_lt_upper_bound; [reflexivity|]. assert (2 ^ 170 < 2 ^ 171 * 1) by reflexivity. lia.
    + replace (1 * (Z.pos m * 2 ^ (e + 149)) * 2 ^ 22) with (Z.pos m * 2 ^ (e + 171)) by (rewrite <- Pw; ring). reflexivity.
Qed.

(** ** The octet of a percentage *)
Definition scaled_units (X : Z) : Z := clamp ((RNs (RNs (X * 10653532) + 2 ^ 171) + 2 ^ 170) / 2 ^ 171).
Lemma scaling_units x : is_f32 x -> f_finite x -> Z.of_N (sc_value (scaled_scaling x)) = scaled_units (f_units x).
Proof.
  intros H F. unfold scaled_scaling, scaled_units. cbn [sc_value].
  rewrite <- (round_repr _ _ (add_repr _ _ (mul_repr x H F))). change (f_lit 254 100) with c254.
  rewrite Z2N.id; [reflexivity|].
  destruct (f_add (f_mul x c254) (f_of_Z 1)) as [s|[]| |s m e]; cbn [round_as]; lia.
Qed.
Lemma scaling_mono x y : is_f32 x -> f_finite x -> is_f32 y -> f_finite y -> f_units x <= f_units y ->
  (sc_value (scaled_scaling x) <= sc_value (scaled_scaling y))%N.
Proof.
  intros H1 H2 H3 H4 L. apply N2Z.inj_le. rewrite !scaling_units by assumption. unfold scaled_units, clamp.
  apply Z.max_le_compat_l, Z.min_le_compat_l, Z.div_le_mono; [reflexivity|]. apply Z.add_le_mono_r.
  apply RNs_mono, Z.add_le_mono_r, RNs_mono. lia.
Qed.
Lemma RNs_error V : 2 ^ 24 * Z.abs (RNs V - V) <= Z.max (Z.abs V) (2 ^ 45).
Proof.
  unfold RNs. destruct (Z.ltb_spec V 0) as [L|L].
  - pose proof (RN_error (- V) ltac:(lia)). replace (- RN (- V) - V) with (- (RN (- V) - - V)) by ring. rewrite Z.abs_opp. lia.
  - pose proof (RN_error V L). lia.
Qed.
Lemma scaled_high X : 101 * 2 ^ 149 <= X -> scaled_units X = 255.
Proof.
  intro H. assert (L : scaled_units (101 * 2 ^ 149) <= scaled_units X).
  { unfold scaled_units, clamp. apply Z.max_le_compat_l, Z.min_le_compat_l, Z.div_le_mono; [reflexivity|].
    apply Z.add_le_mono_r, RNs_mono, Z.add_le_mono_r, RNs_mono. lia. }
  assert (E : scaled_units (101 * 2 ^ 149) = 255) by (vm_compute; reflexivity). rewrite E in L. revert L. unfold scaled_units, clamp. lia.
Qed.
Lemma scaled_low X : X <= - 2 ^ 149 -> scaled_units X = 0.
Proof.
  intro H. assert (L : scaled_units X <= scaled_units (- 2 ^ 149)).
  { unfold scaled_units, clamp. apply Z.max_le_compat_l, Z.min_le_compat_l, Z.div_le_mono; [reflexivity|].
    apply Z.add_le_mono_r, RNs_mono, Z.add_le_mono_r, RNs_mono. lia. }
  assert (E : scaled_units (- 2 ^ 149) = 0) by (vm_compute; reflexivity). rewrite E in L. revert L. unfold scaled_units, clamp. lia.
Qed.
Lemma scaled_error X :
  let U := 2 ^ 149 in
  10000 * Z.abs (100 * U * scaled_units X - Z.max 0 (Z.min (25500 * U) (254 * X + 100 * U))) <= 5001 * (100 * U).
Proof.
  intro U. assert (HU : 2 ^ 45 <= U) by (vm_compute; discriminate).
  assert (E1 : 2 ^ 171 = 4194304 * U) by reflexivity. assert (E0 : 2 ^ 170 = 2097152 * U) by reflexivity.
  destruct (Z.le_gt_cases (101 * U) X) as [H|H].
  { rewrite scaled_high by exact H. clearbody U. lia. }
  destruct (Z.le_gt_cases X (- U)) as [H'|H'].
  { rewrite scaled_low by exact H'. clearbody U. lia. }
  unfold scaled_units. pose proof (RNs_error (X * 10653532)) as R1. set (P := RNs (X * 10653532)) in *.
  pose proof (RNs_error (P + 2 ^ 171)) as R2. set (Q := RNs (P + 2 ^ 171)) in *.
  rewrite E1, E0 in *. set (w := 2 ^ 45) in *. change (2 ^ 24) with 16777216 in *.
  assert (D : 4194304 * U * ((Q + 2097152 * U) / (4194304 * U)) <= Q + 2097152 * U < 4194304 * U * ((Q + 2097152 * U) / (4194304 * U)) + 4194304 * U).
  { assert (0 < 4194304 * U) by reflexivity. pose proof (Z.div_mod (Q + 2097152 * U) (4194304 * U) ltac:(lia)).
    pose proof (Z.mod_pos_bound (Q + 2097152 * U) (4194304 * U) ltac:(assumption)). lia. }
  set (v := (Q + 2097152 * U) / (4194304 * U)) in *. clearbody P Q v w.
  assert (HU' : 0 < U) by reflexivity. clearbody U.
  assert (P1 : Z.abs (X * 10653532) <= 1076006732 * U) by lia.
  assert (P2 : 16777216 * Z.abs (P - X * 10653532) <= 1076006732 * U) by lia. clear R1 P1.
  assert (P3 : - 65 * U <= P - X * 10653532 <= 65 * U) by lia. clear P2.
  assert (P4 : Z.abs (P + 4194304 * U) <= 1080202000 * U) by lia.
  assert (P5 : 16777216 * Z.abs (Q - (P + 4194304 * U)) <= 1080202000 * U) by lia. clear R2 P4.
  assert (P6 : - 65 * U <= Q - (P + 4194304 * U) <= 65 * U) by lia. clear P5.
  assert (K : - (5001 * (100 * U)) <= 10000 * (100 * (U * v) - (254 * X + 100 * U)) <= 5001 * (100 * U)) by lia. clear P3 P6 D.
  unfold clamp. set (c := Z.max 0 (Z.min 255 v)).
  assert (C : (v < 0 /\ c = 0 /\ U * v <= - U) \/ (255 < v /\ c = 255 /\ 256 * U <= U * v) \/ (0 <= v <= 255 /\ c = v)) by (unfold c; nia).
  clearbody c. destruct C as [(?&->&?)|[(?&->&?)|(?&->)]].
  - lia.
  - lia.
  - assert (0 <= U * v <= 255 * U) by nia. rewrite <- (Z.mul_assoc 100 U v). lia.
Qed.
Lemma scaled_mono X Y : X <= Y -> scaled_units X <= scaled_units Y.
Proof.
  intro H. unfold scaled_units, clamp. apply Z.max_le_compat_l, Z.min_le_compat_l, Z.div_le_mono; [reflexivity|].
  apply Z.add_le_mono_r, RNs_mono, Z.add_le_mono_r, RNs_mono. lia.
Qed.
Lemma clamp_bounds z : 0 <= clamp z <= 255. Proof. unfold clamp. lia. Qed.
Lemma scaled_bounds X : 0 <= scaled_units X <= 255. Proof. apply clamp_bounds. Qed.
(** Which percentages give octet 0, and which 255. *)
Lemma scaled_not_zero X : - 196 * 2 ^ 149 <= 1000 * X -> 1 <= scaled_units X.
Proof.
  intro H. assert (L : - 196 * 2 ^ 149 / 1000 <= X) by (apply Z.div_le_upper_bound; [reflexivity|exact H]).
  apply scaled_mono in L. revert L. apply Z.le_trans. vm_compute. discriminate.
Qed.
Lemma scaled_zero X : 1000 * X <= - 197 * 2 ^ 149 -> scaled_units X = 0.
Proof.
  intro H. assert (L : X <= - 197 * 2 ^ 149 / 1000) by (apply Z.div_le_lower_bound; [reflexivity|exact H]).
  apply scaled_mono in L. pose proof (scaled_bounds X) as B. assert (E : scaled_units (- 197 * 2 ^ 149 / 1000) = 0) by (vm_compute; reflexivity).
  rewrite E in L. generalize dependent (scaled_units X). intros. lia.
Qed.
Lemma scaled_full X : 998040 * 2 ^ 149 <= 10000 * X -> scaled_units X = 255.
Proof.
  intro H. assert (L : 998040 * 2 ^ 149 / 10000 <= X) by (apply Z.div_le_upper_bound; [reflexivity|exact H]).
  apply scaled_mono in L. pose proof (scaled_bounds X) as B. assert (E : scaled_units (998040 * 2 ^ 149 / 10000) = 255) by (vm_compute; reflexivity).
  rewrite E in L. generalize dependent (scaled_units X). intros. lia.
Qed.
