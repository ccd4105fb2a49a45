(** The halving loops and the bytes produced by the float encoder. *)
From Coq Require Import String.
From Coq.Floats Require Import SpecFloat.
From Verif Require Import Base Wire Spec BaseProofs Apdu DpTypes FloatProofs FloatMul.
Open Scope Z_scope.

Lemma f_2 : f_of_Z 2 = S754_finite false 8388608 (-22). Proof. reflexivity. Qed.
Lemma f_2048 : f_of_Z 2048 = S754_finite false 8388608 (-12). Proof. reflexivity. Qed.
Lemma f_m2048 : f_of_Z (-2048) = S754_finite true 8388608 (-12). Proof. reflexivity. Qed.

(** Halving a normal float is exact. *)
Lemma halve s m e : 2 ^ 23 <= Z.pos m < 2 ^ 24 -> -100 <= e <= 104 ->
  f_div (S754_finite s m e) (f_of_Z 2) = S754_finite s m (e - 1).
Proof.
  intros Hm He. rewrite f_2. unfold f_div. cbn [SFdiv].
  rewrite Bool.xorb_false_r.
  assert (Dm : Z.pos (digits2_pos m) = 24) by (apply digits_unique; lia).
  unfold SFdiv_core_binary. cbn [Zdigits2]. rewrite Dm. change (Z.pos (digits2_pos 8388608)) with 24.
  replace (Z.min (SpecFloat.fexp 24 128 (24 + e - (24 + -22))) (e - -22)) with (e - 2).
  2:{ unfold SpecFloat.fexp, SpecFloat.emin. lia. }
  replace (e - -22 - (e - 2)) with 24 by lia. cbn [Z.shiftl].
  change (Pos.iter (Z.mul 2) (Z.pos m) 24) with (Z.shiftl (Z.pos m) 24). rewrite Z.shiftl_mul_pow2 by lia.
  unfold Z.div_eucl.
  assert (E : Z.div_eucl (Z.pos m * 2 ^ 24) 8388608 = (2 * Z.pos m, 0)).
  { pose proof (Z_div_mod (Z.pos m * 2 ^ 24) 8388608 ltac:(lia)) as D.
    destruct (Z.div_eucl (Z.pos m * 2 ^ 24) 8388608) as [a b]. f_equal; lia. }
  change (Z.pos m * 2 ^ 24) with (Z.pos (m * 16777216)) in *. cbn [Z.div_eucl] in E |- *. rewrite E.
  change (new_location 8388608 0) with loc_Exact.
  change (2 * Z.pos m) with (Z.pos m~0).
  assert (D2 : Z.pos (digits2_pos m~0) = 25) by (apply digits_unique; change (Z.pos m~0) with (2 * Z.pos m); lia).
  destruct (round_aux_spec s m~0 (e - 2) (e - 1)) as [q [Q1 [Q2 [_ [_ Q5]]]]]; [rewrite D2; lia|lia|].
  rewrite Q5. replace (e - 1 - (e - 2)) with 1 in Q2 by lia. change (2 ^ 1) with 2 in Q2.
  change (Z.pos m~0) with (2 * Z.pos m) in Q2. assert (q = Z.pos m) as -> by lia.
  unfold rounded. destruct (Z.eqb_spec (Z.pos m) 0); [lia|]. destruct (Z.eqb_spec (Z.pos m) (2 ^ 24)); [lia|].
  destruct (Z.leb_spec (e - 1) 104); [reflexivity|lia].
Qed.

(** The two loop conditions on finite values. *)
Definition above (m : positive) (e : Z) : bool := (-12 <? e) || ((e =? -12) && (8388608 <? Z.pos m)).
Lemma ltb_pos c ec m e : SFltb (S754_finite false c ec) (S754_finite false m e) =
  (ec <? e) || ((e =? ec) && (Z.pos c <? Z.pos m)).
Proof.
  unfold SFltb, SFcompare. change (Pos.compare_cont Eq c m) with (c ?= m)%positive.
  destruct (Z.compare_spec ec e) as [E|E|E].
  - subst e. rewrite Z.ltb_irrefl, Z.eqb_refl. cbn [orb andb].
    destruct (Pos.compare_spec c m); destruct (Z.ltb_spec (Z.pos c) (Z.pos m)); try reflexivity; lia.
  - destruct (Z.ltb_spec ec e); [reflexivity|lia].
  - destruct (Z.ltb_spec ec e); [lia|]. destruct (Z.eqb_spec e ec); [lia|]. reflexivity.
Qed.
Lemma ltb_neg c ec m e : SFltb (S754_finite true m e) (S754_finite true c ec) =
  (ec <? e) || ((e =? ec) && (Z.pos c <? Z.pos m)).
Proof.
  unfold SFltb, SFcompare. change (Pos.compare_cont Eq m c) with (m ?= c)%positive.
  destruct (Z.compare_spec e ec) as [E|E|E].
  - subst e. rewrite Z.ltb_irrefl, Z.eqb_refl. cbn [orb andb].
    destruct (Pos.compare_spec m c); destruct (Z.ltb_spec (Z.pos c) (Z.pos m)); cbn [CompOpp]; try reflexivity; lia.
  - destruct (Z.ltb_spec ec e); [lia|]. destruct (Z.eqb_spec e ec); [lia|]. reflexivity.
  - destruct (Z.ltb_spec ec e); [reflexivity|lia].
Qed.
Lemma lt_2048 m e : SFltb (f_of_Z 2048) (S754_finite false m e) = above m e.
Proof. rewrite f_2048, ltb_pos. reflexivity. Qed.
Lemma lt_2048_neg m e : SFltb (f_of_Z 2048) (S754_finite true m e) = false.
Proof. rewrite f_2048. reflexivity. Qed.
Lemma lt_m2048 m e : SFltb (S754_finite true m e) (f_of_Z (-2048)) = above m e.
Proof. rewrite f_m2048, ltb_neg. reflexivity. Qed.
Lemma lt_m2048_pos m e : SFltb (S754_finite false m e) (f_of_Z (-2048)) = false.
Proof. rewrite f_m2048. reflexivity. Qed.

Definition halvings (w : f32) : Z :=
  match w with
  | S754_finite s m e => if above m e then e + (if 8388608 <? Z.pos m then 13 else 12) else 0
  | _ => 0
  end.
Definition halved (w : f32) : f32 :=
  match w with S754_finite s m e => S754_finite s m (e - halvings w) | _ => w end.

Lemma halve_while_eq p cond fuel v x :
  halve_while p cond fuel v x =
  if cond v then
    match fuel with
    | O => OutOfFuel
    | S f => match incr_i16 p x with
             | Done x' => halve_while p cond f (f_div v (f_of_Z 2)) x'
             | PanicO => PanicO
             | OutOfFuel => OutOfFuel
             end
    end
  else Done (v, x).
Proof. destruct fuel; reflexivity. Qed.
Lemma loop_done p s cond :
  (forall m e, cond (S754_finite s m e) = above m e) ->
  forall n fuel m e x, (Z.to_nat (halvings (S754_finite s m e)) <= n)%nat -> (n <= fuel)%nat ->
  valid_binary 24 128 (S754_finite s m e) = true -> 0 <= x -> x + halvings (S754_finite s m e) <= 32767 ->
  halve_while p cond fuel (S754_finite s m e) x =
  Done (halved (S754_finite s m e), x + halvings (S754_finite s m e)).
Proof.
  intros C. induction n as [|n IH]; intros fuel m e x Hn Hf V Hx Hx2; apply valid_finite in V as V';
    rewrite halve_while_eq, C; cbn [halvings halved] in Hn, Hx2 |- *; destruct (above m e) eqn:A.
  - exfalso. unfold above in A. destruct (Z.ltb_spec 8388608 (Z.pos m)); lia.
  - rewrite Z.sub_0_r, Z.add_0_r; reflexivity.
  - destruct fuel as [|f]; [lia|].
    unfold incr_i16.
    assert (K : 0 < e + (if 8388608 <? Z.pos m then 13 else 12)).
    { unfold above in A. destruct (Z.ltb_spec 8388608 (Z.pos m)); lia. }
    destruct (Z.ltb_spec x 32767); [|lia].
    assert (N : -149 < e) by (unfold above in A; lia).
    rewrite halve by (unfold above in A; lia).
    assert (V2 : valid_binary 24 128 (S754_finite s m (e - 1)) = true) by (apply valid_finite; unfold above in A; lia).
    assert (HH : halvings (S754_finite s m (e - 1)) = e + (if 8388608 <? Z.pos m then 13 else 12) - 1).
    { cbn [halvings]. unfold above in *. destruct (Z.ltb_spec 8388608 (Z.pos m)).
      - destruct (Z.ltb_spec (-12) (e - 1)); cbn [orb andb]; [lia|]. destruct (Z.eqb_spec (e - 1) (-12)); cbn [orb andb]; lia.
      - destruct (Z.ltb_spec (-12) (e - 1)); cbn [orb andb]; [lia|]. rewrite andb_false_r. lia. }
    rewrite IH; [|rewrite HH; lia|lia|exact V2|lia|rewrite HH; lia].
    unfold halved. rewrite HH. f_equal. f_equal; [f_equal|]; lia.
  - rewrite Z.sub_0_r, Z.add_0_r; reflexivity.
Qed.
Lemma loop_skip p cond fuel v x : cond v = false -> halve_while p cond fuel v x = Done (v, x).
Proof. intro H. destruct fuel; cbn [halve_while]; rewrite H; reflexivity. Qed.
Lemma halvings_bound w : is_f32 w -> 0 <= halvings w <= 117.
Proof.
  destruct w as [s|s| |s m e]; cbn [halvings]; try lia. intro V. apply valid_finite in V.
  destruct (above m e) eqn:A; [|lia]. unfold above in A. destruct (Z.ltb_spec 8388608 (Z.pos m)); lia.
Qed.
Lemma encode_done p fuel x : is_f32 (hundred x) -> f_finite (hundred x) \/ hundred x = S754_nan ->
  (117 <= fuel)%nat ->
  float_to_bytes p fuel x = Done (float_code (halved (hundred x)) (halvings (hundred x))).
Proof.
  intros V F Hf. unfold float_to_bytes. fold (hundred x). pose proof (halvings_bound _ V) as HB.
  destruct (hundred x) as [s|s| |s m e].
  - rewrite loop_skip by (destruct s; reflexivity). rewrite loop_skip by (destruct s; reflexivity). reflexivity.
  - destruct F; [contradiction|discriminate].
  - rewrite loop_skip by reflexivity. rewrite loop_skip by reflexivity. reflexivity.
  - destruct s.
    + rewrite (loop_done p true _ lt_m2048 117) by (try assumption; lia).
      rewrite Z.add_0_l. cbn [halved]. rewrite loop_skip by apply lt_2048_neg. reflexivity.
    + rewrite loop_skip by apply lt_m2048_pos.
      rewrite (loop_done p false _ lt_2048 117) by (try assumption; lia).
      rewrite Z.add_0_l. reflexivity.
Qed.

(** Infinite operands. *)
Lemma inf_half s : f_div (S754_infinity s) (f_of_Z 2) = S754_infinity s.
Proof. destruct s; reflexivity. Qed.
Lemma loop_inf_release cond s fuel : cond (S754_infinity s) = true -> forall x,
  halve_while Release cond fuel (S754_infinity s) x = OutOfFuel.
Proof.
  intro C. induction fuel as [|f IH]; intro x; cbn [halve_while]; rewrite C; [reflexivity|].
  unfold incr_i16. destruct (x <? 32767); rewrite inf_half; apply IH.
Qed.
Lemma loop_inf_debug cond s : cond (S754_infinity s) = true -> forall fuel x, x <= 32767 ->
  halve_while Debug cond fuel (S754_infinity s) x =
  if 32767 - x <? Z.of_nat fuel then PanicO else OutOfFuel.
Proof.
  intro C. induction fuel as [|f IH]; intros x Hx; cbn [halve_while]; rewrite C.
  - destruct (Z.ltb_spec (32767 - x) (Z.of_nat 0)); [lia|reflexivity].
  - unfold incr_i16. destruct (Z.ltb_spec x 32767).
    + rewrite inf_half, IH by lia.
      destruct (Z.ltb_spec (32767 - (x + 1)) (Z.of_nat f)); destruct (Z.ltb_spec (32767 - x) (Z.of_nat (S f))); try lia; reflexivity.
    + destruct (Z.ltb_spec (32767 - x) (Z.of_nat (S f))); [reflexivity|lia].
Qed.
Lemma encode_inf p fuel x : f_infinite (hundred x) ->
  float_to_bytes p fuel x =
  match p with
  | Release => OutOfFuel
  | Debug => if 32767 <? Z.of_nat fuel then PanicO else OutOfFuel
  end.
Proof.
  intro F. unfold float_to_bytes. fold (hundred x). destruct (hundred x) as [s|s| |s m e]; try contradiction.
  destruct s.
  - destruct p.
    + rewrite loop_inf_debug by (reflexivity || lia). rewrite Z.sub_0_r. destruct (32767 <? Z.of_nat fuel); reflexivity.
    + rewrite loop_inf_release by reflexivity. reflexivity.
  - rewrite loop_skip by reflexivity.
    destruct p.
    + rewrite loop_inf_debug by (reflexivity || lia). rewrite Z.sub_0_r. destruct (32767 <? Z.of_nat fuel); reflexivity.
    + rewrite loop_inf_release by reflexivity. reflexivity.
Qed.
