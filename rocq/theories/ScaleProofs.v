(** Proofs about percentages (C112, C115-C117). *)
From Coq Require Import String.
From Coq.Floats Require Import SpecFloat.
From Verif Require Import Base Wire Spec BaseProofs Apdu DpTypes TypedSpec FloatProofs FloatMul FloatScale.
Open Scope Z_scope.

Lemma scaling_inf s : sc_value (scaled_scaling (S754_infinity s)) = if s then 0%N else 255%N.
Proof. destruct s; vm_compute; reflexivity. Qed.
Lemma scaling_byte x : is_f32 x -> (sc_value (scaled_scaling x) <= 255)%N.
Proof.
  intro H. destruct x as [s|s| |s m e].
  - destruct s; vm_compute; discriminate.
  - rewrite scaling_inf. destruct s; lia.
  - vm_compute. discriminate.
  - apply N2Z.inj_le. rewrite scaling_units by (exact H || exact I). apply scaled_bounds.
Qed.
Lemma scaling_le x y : is_f32 x -> is_f32 y -> f_le x y ->
  (sc_value (scaled_scaling x) <= sc_value (scaled_scaling y))%N.
Proof.
  intros Hx Hy L. destruct x as [s|[]| |s m e].
  all: try (rewrite (scaling_inf true); apply N.le_0_l).
  all: destruct y as [s'|[]| |s' m' e']; try exact (False_ind _ L).
  all: try (rewrite (scaling_inf false); first [apply N.le_refl | apply scaling_byte; assumption]).
  all: apply scaling_mono; try assumption; exact I.
Qed.
Lemma scaling_near x : a_percentage x ->
  let d := 100 * 2 ^ 149 * Z.of_N (sc_value (scaled_scaling x)) - 255 * f_units x in
  - (5001 * 2 ^ 149) <= 100 * d <= 15001 * 2 ^ 149.
Proof.
  intros (H1&H2&H3) d. pose proof (scaled_error (f_units x)) as E. cbn zeta in E. unfold d. rewrite scaling_units by assumption.
  set (U := 2 ^ 149) in *. assert (0 < U) by reflexivity. clearbody U. set (v := scaled_units _) in *. set (X := f_units x) in *. clearbody v X.
  rewrite Z.max_r, Z.min_r in E by lia. lia.
Qed.
Lemma scaling_nonzero x : a_percentage x -> (1 <= sc_value (scaled_scaling x))%N.
Proof.
  intros (H1&H2&H3&_). apply N2Z.inj_le. rewrite scaling_units by assumption. apply scaled_not_zero.
  apply Z.le_trans with 0; [vm_compute; discriminate|]. apply Z.mul_nonneg_nonneg; [discriminate|exact H3].
Qed.
Lemma scaling_off x : is_f32 x -> f_finite x -> 1000 * f_units x <= - 197 * 2 ^ 149 -> sc_value (scaled_scaling x) = 0%N.
Proof. intros H1 H2 H3. apply N2Z.inj. rewrite scaling_units by assumption. apply scaled_zero, H3. Qed.

(** Reading: 256 cases. *)
Definition check_read (v : N) : bool :=
  let x := scaled_get_value {| sc_code := ""; sc_unit := ""; sc_value := v |} in
  match x with S754_zero _ | S754_finite _ _ _ => true | _ => false end &&
  (100000 * Z.abs (254 * f_units x - 100 * (Z.max 1 (Z.of_N v) - 1) * 2 ^ 149) <=? 254 * 2 ^ 149)%Z.
Lemma check_reads : forallb check_read (map N.of_nat (List.seq 0 256)) = true.
Proof. vm_compute. reflexivity. Qed.
Lemma read_near s : (sc_value s <= 255)%N ->
  f_finite (scaled_get_value s) /\
  100000 * Z.abs (254 * f_units (scaled_get_value s) - 100 * (Z.max 1 (Z.of_N (sc_value s)) - 1) * 2 ^ 149) <= 254 * 2 ^ 149.
Proof.
  intro H. pose proof check_reads as C. rewrite forallb_forall in C. specialize (C (sc_value s)).
  assert (In (sc_value s) (map N.of_nat (List.seq 0 256))) as Hi.
  { apply in_map_iff. exists (N.to_nat (sc_value s)). split; [lia|]. apply in_seq. lia. }
  specialize (C Hi). unfold check_read in C.
  change (scaled_get_value {| sc_code := ""; sc_unit := ""; sc_value := sc_value s |}) with (scaled_get_value s) in C.
  cbn zeta in C. apply andb_prop in C. destruct C as (C1&C2). apply Z.leb_le in C2. split; [|exact C2].
  destruct (scaled_get_value s); try discriminate C1; exact I.
Qed.
Lemma scaling_round_trip x : a_percentage x ->
  let y := scaled_get_value (scaled_scaling x) in
  f_finite y /\ 1000 * Z.abs (f_units y - f_units x) <= 197 * 2 ^ 149.
Proof.
  intros H y. pose proof (scaling_nonzero x H) as Nz. destruct H as (H1&H2&H3).
  destruct (read_near (scaled_scaling x) (scaling_byte x H1)) as (F&R). fold y in F, R. split; [exact F|].
  pose proof (scaled_error (f_units x)) as E. cbn zeta in E. rewrite <- (scaling_units x) in E by assumption.
  set (U := 2 ^ 149) in *. assert (HU : 0 < U) by reflexivity. clearbody U. set (X := f_units x) in *. set (Y := f_units y) in *.
  apply N2Z.inj_le in Nz. set (v := Z.of_N (sc_value _)) in *. change (Z.of_N 1) with 1 in Nz. clearbody X Y v.
  rewrite Z.max_r in R by exact Nz. rewrite Z.max_r, Z.min_r in E by lia.
  assert (A : - (5001 * (100 * U)) <= 10000 * (100 * U * v - (254 * X + 100 * U)) <= 5001 * (100 * U)) by lia. clear E.
  assert (B : - (254 * U) <= 100000 * (254 * Y - 100 * (v - 1) * U) <= 254 * U) by lia. clear R.
  assert (U * v = v * U) by ring. set (w := v * U) in *. replace (100 * (v - 1) * U) with (100 * w - 100 * U) in B by (unfold w; ring).
  replace (100 * U * v) with (100 * w) in A by (unfold w; ring). clearbody w.
  assert (- (197 * U) <= 1000 * (Y - X) <= 197 * U) by lia. lia.
Qed.
