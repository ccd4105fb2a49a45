(** What the unused first encoder of the 2-byte float computes. *)

From Coq.Floats Require Import SpecFloat.
From Verif Require Import Base Wire Spec BaseProofs Apdu DpTypes DpOld OldSpec CoreProofs FloatProofs FloatMul FloatScale.
From Coq Require Import ZifyBool ZifyNat ZifyN.
Open Scope Z_scope.

Lemma lor_small a b n : (a < 2 ^ n -> b < 2 ^ n -> N.lor a b < 2 ^ n)%N.
Proof.
  intros A B. destruct (N.eq_dec (N.lor a b) 0) as [E|E]; [rewrite E; lia|].
  apply N.log2_lt_pow2; [lia|]. rewrite N.log2_lor.
  destruct (N.eq_dec a 0) as [->|Na]; [|apply N.log2_lt_pow2 in A; [|lia]];
  (destruct (N.eq_dec b 0) as [->|Nb]; [|apply N.log2_lt_pow2 in B; [|lia]]); cbn [N.log2]; try lia.
  all: exfalso; apply E; reflexivity.
Qed.
Lemma fraction_bits_small n : forall i f b, (b < 65536 -> fraction_bits n i f b < 65536)%N.
Proof.
  induction n as [|n IH]; intros i f b H; cbn [fraction_bits]; [exact H|].
  destruct (SFleb _ _); apply IH; [|exact H].
  change 65536%N with (2 ^ 16)%N in *. apply lor_small; [exact H|].
  rewrite N.shiftl_1_l. apply N.pow_lt_mono_r; lia.
Qed.

Definition his : list N := [30;29;28;27;26;25;24;23;22;21;20;19;18;17;16]%N.
Definition los : list N := [15;14;13;12;11;10;9;8;7;6;5;4;3;2;1;0]%N.
Definition high (r : N) : option N := find (fun i => N.testbit r (i - 16)) his.
Lemma find_app {A} (f : A -> bool) l l' :
  find f (l ++ l') = match find f l with Some x => Some x | None => find f l' end.
Proof. induction l as [|a l IH]; cbn; [reflexivity|]. destruct (f a); [reflexivity|exact IH]. Qed.
Lemma find_ext_in {A} (f g : A -> bool) l : (forall x, In x l -> f x = g x) -> find f l = find g l.
Proof.
  induction l as [|a l IH]; intro H; cbn; [reflexivity|].
  rewrite (H a (or_introl eq_refl)). destruct (g a); [reflexivity|]. apply IH. intros x Hx. apply H. right. exact Hx.
Qed.
Lemma land_bit a i : N.ltb 0 (N.land a (N.shiftl 1 i)) = N.testbit a i.
Proof.
  assert (E : N.land a (N.shiftl 1 i) = (if N.testbit a i then 2 ^ i else 0)%N).
  { apply N.bits_inj. intro j. rewrite N.land_spec, N.shiftl_1_l, N.pow2_bits_eqb.
    destruct (N.eqb_spec i j) as [->|Nj].
    - destruct (N.testbit a j); [rewrite N.pow2_bits_true|rewrite N.bits_0]; reflexivity.
    - rewrite Bool.andb_false_r. destruct (N.testbit a i); [rewrite N.pow2_bits_false by exact Nj|rewrite N.bits_0]; reflexivity. }
  rewrite E. destruct (N.testbit a i); [|reflexivity].
  assert (2 ^ i <> 0)%N by (apply N.pow_nonzero; discriminate). lia.
Qed.
Lemma his_range i : In i his -> (16 <= i <= 30)%N.
Proof. unfold his. cbn [In]. lia. Qed.
Lemma los_range i : In i los -> (i <= 15)%N.
Proof. unfold los. cbn [In]. lia. Qed.

Lemma combined_bit m b i : (b < 65536)%N -> (16 <= i <= 30)%N ->
  N.testbit (N.lor (N.shiftl m 16 mod 4294967296) b) i = N.testbit (m mod 32768) (i - 16).
Proof.
  intros Hb Hi. rewrite N.lor_spec. change 4294967296%N with (2 ^ 32)%N. change 32768%N with (2 ^ 15)%N.
  rewrite N.mod_pow2_bits_low by lia. rewrite N.mod_pow2_bits_low by lia.
  rewrite N.shiftl_spec_high' by lia.
  rewrite (N.bits_above_log2 b i), Bool.orb_false_r; [reflexivity|].
  destruct (N.eq_dec b 0) as [->|Nb]; [cbn; lia|].
  apply N.log2_lt_pow2; [lia|]. apply N.lt_le_trans with (2 ^ 16)%N; [exact Hb|]. apply N.pow_le_mono_r; lia.
Qed.
Lemma first_bit_eq m b : (b < 65536)%N ->
  first_bit_set (N.lor (N.shiftl m 16 mod 4294967296) b) =
  match high (m mod 32768) with
  | Some i => i
  | None => match find (fun i => N.testbit (N.lor (N.shiftl m 16 mod 4294967296) b) i) los with Some i => i | None => 0%N end
  end.
Proof.
  intro Hb. unfold first_bit_set. change (map N.of_nat (rev (seq 0 31))) with (his ++ los)%list.
  rewrite find_app. unfold high.
  rewrite (find_ext_in _ (fun i => N.testbit (m mod 32768) (i - 16)) his).
  2:{ intros i Hi. rewrite land_bit. apply combined_bit; [exact Hb|apply his_range; exact Hi]. }
  destruct (find _ his); [reflexivity|].
  rewrite (find_ext_in _ (fun i => N.testbit (N.lor (N.shiftl m 16 mod 4294967296) b) i) los); [reflexivity|].
  intros i Hi. apply land_bit.
Qed.

(** The result as a function of the three fields. *)
Definition fields (sign : bool) (first low : N) : N :=
  N.lor (N.lor (if sign then 32768%N else 0%N)
               (N.land (Z.to_N (Z.shiftl (Z.of_N first - 16 - 10) 11 mod 65536)) 30720))
        (N.shiftr (N.land low 65504) 5).
Definition good_code (sign : bool) (r c : N) : bool :=
  ((c <? 65536)%N && Bool.eqb sign (32768 <=? c)%N &&
   (knx_hundredths c + (if sign then 2048 * 2 ^ knx_exponent c else 0) =? old_hundredths (Z.of_N r)))%Z.
Lemma low_bits low : N.shiftr (N.land low 65504) 5 = (low / 32 mod 2048)%N.
Proof.
  rewrite N.shiftr_land. change (N.shiftr 65504 5) with (N.ones 11). rewrite N.land_ones, N.shiftr_div_pow2. reflexivity.
Qed.
Definition head (sign : bool) (first : N) : N := ((if sign then 16 else 0) + (first + 6) mod 16)%N.
Lemma fields_eq s i low : In i (his ++ los)%list -> fields s i low = (head s i * 2048 + low / 32 mod 2048)%N.
Proof.
  intro H. unfold fields. rewrite low_bits.
  change (head s i * 2048)%N with (head s i * 2 ^ 11)%N. rewrite <- (lor_disjoint_add (low / 32 mod 2048) (head s i) 11) by (apply N.mod_lt; discriminate). f_equal.
  unfold his, los in H. cbn [In app] in H. destruct s; repeat (destruct H as [<-|H]; [reflexivity|]); destruct H.
Qed.
Lemma high_spec r : (r < 32768)%N -> high r = if (r =? 0)%N then None else Some (16 + N.log2 r)%N.
Proof.
  intro H. destruct (N.eqb_spec r 0) as [->|Nr]; [reflexivity|].
  assert (L : (N.log2 r < 15)%N) by (apply N.log2_lt_pow2; [lia|exact H]).
  pose proof (N.bit_log2 r Nr) as B. pose proof (N.bits_above_log2 r) as A.
  unfold high, his. cbn [find].
  repeat match goal with |- context [N.testbit r (?c - 16)] =>
    let v := eval vm_compute in (c - 16)%N in change (c - 16)%N with v end.
  set (l := N.log2 r) in *. clearbody l.
  assert (C : In l [14;13;12;11;10;9;8;7;6;5;4;3;2;1;0]%N) by (cbn [In]; lia).
  cbn [In] in C.
  repeat (destruct C as [<-|C]; [repeat (rewrite A by reflexivity); rewrite B; reflexivity|]). destruct C.
Qed.
Lemma shifted_low m k : (1 <= k)%N -> (N.shiftl m k mod 4294967296 mod 65536 = N.shiftl (m mod 32768) k mod 65536)%N.
Proof.
  intro H. rewrite !N.shiftl_mul_pow2. change 4294967296%N with (65536 * 65536)%N.
  rewrite N.mod_mul_r by discriminate. rewrite (N.mul_comm 65536 (_ mod _)), N.mod_add by discriminate. rewrite N.mod_mod by discriminate.
  rewrite (N.div_mod m 32768) at 1 by discriminate.
  replace k with (1 + (k - 1))%N by lia. rewrite N.pow_add_r. change (2 ^ 1)%N with 2%N.
  replace ((32768 * (m / 32768) + m mod 32768) * (2 * 2 ^ (k - 1)))%N
    with (m mod 32768 * (2 * 2 ^ (k - 1)) + (m / 32768 * 2 ^ (k - 1)) * 65536)%N by ring.
  apply N.mod_add. discriminate.
Qed.
Lemma shifted_out m k : (16 <= k)%N -> (N.shiftl m k mod 4294967296 mod 65536 = 0)%N.
Proof.
  intro H. rewrite shifted_low by lia. rewrite N.shiftl_mul_pow2.
  replace k with (16 + (k - 16))%N by lia. rewrite N.pow_add_r. change (2 ^ 16)%N with 65536%N.
  replace (m mod 32768 * (65536 * 2 ^ (k - 16)))%N with ((m mod 32768 * 2 ^ (k - 16)) * 65536)%N by ring.
  apply N.mod_mul. discriminate.
Qed.
Definition check_zero (i : N) : bool := good_code false 0 (fields false i 0) && good_code true 0 (fields true i 0).
Lemma check_zero_all : forallb check_zero los = true. Proof. reflexivity. Qed.


Lemma sub_in r : (r < 32768)%N -> r <> 0%N -> In (16 + N.log2 r)%N his.
Proof.
  intros H N. assert (L : (N.log2 r < 15)%N) by (apply N.log2_lt_pow2; [lia|exact H]).
  set (l := N.log2 r) in *. clearbody l. unfold his. cbn [In]. lia.
Qed.
Ltac one_length r s B :=
  match type of B with (2 ^ ?a <= _ < 2 ^ ?b)%N =>
    let u := eval vm_compute in (2 ^ a)%N in let v := eval vm_compute in (2 ^ b)%N in change (u <= r < v)%N in B end;
  match goal with |- context [(r * ?p)%N] => let v := eval vm_compute in p in change p with v end;
  match goal with |- context [(head s ?i)%N] => let v := eval vm_compute in (head false i) in change (head s i) with ((if s then 16 else 0) + v)%N end;
  match goal with |- context [(?a mod 65536)%N] => rewrite (N.mod_small a 65536) by lia end;
  match goal with |- context [(?a mod 2048)%N] => rewrite (N.mod_small a 2048) by lia end;
  unfold knx_hundredths, knx_mantissa, knx_exponent;
  match goal with |- context [(((if s then 16 else 0) + ?v) * 2048 + ?q)%N] =>
     assert (Hq : (q < 2048)%N) by lia;
     assert (E1 : ((((if s then 16 else 0) + v) * 2048 + q) / 2048 mod 16 = v)%N) by (destruct s; lia);
     assert (E2 : ((((if s then 16 else 0) + v) * 2048 + q) mod 2048 = q)%N) by (destruct s; lia);
     rewrite E1, E2; clear E1 E2 end;
  split; [|intro; first [reflexivity | lia]];
  repeat match goal with |- context [2 ^ ?a] => let v := eval vm_compute in (2 ^ a) in change (2 ^ a) with v end;
  destruct s; rewrite !Bool.andb_true_iff; (split; [split; [lia|]|]);
  match goal with |- context [(32768 <=? ?a)%N] => destruct (N.leb_spec 32768 a); try lia end;
  first [reflexivity | destruct (Z.ltb_spec (Z.of_N r) 1024); lia].
Lemma good_rest s r : (r < 32768)%N -> r <> 0%N ->
  let c := fields s (16 + N.log2 r) (N.shiftl r (31 - (16 + N.log2 r)) mod 65536) in
  good_code s r c = true /\ ((1024 <= r)%N -> knx_exponent c = Z.log2 (Z.of_N r) - 10).
Proof.
  intros H Nr. cbv zeta. rewrite fields_eq by (apply in_or_app; left; apply sub_in; assumption).
  rewrite N.shiftl_mul_pow2.
  pose proof (N.log2_spec r ltac:(lia)) as B. pose proof (sub_in r H Nr) as C. apply his_range in C.
  assert (EL : Z.log2 (Z.of_N r) = Z.of_N (N.log2 r)) by (destruct r as [|[?|?|]]; reflexivity).
  unfold good_code, old_hundredths. rewrite EL. clear EL.
  set (l := N.log2 r) in *. clearbody l.
  assert (D : In l [14;13;12;11;10;9;8;7;6;5;4;3;2;1;0]%N) by (cbn [In]; lia). clear C.
  cbn [In] in D.
  do 15 (destruct D as [<-|D]; [one_length r s B|]). destruct D.
Qed.
Lemma old_code_good s m b : (b < 65536)%N ->
  good_code s (m mod 32768) (old_code s m b) = true /\
  ((1024 <= m mod 32768)%N -> knx_exponent (old_code s m b) = Z.log2 (Z.of_N (m mod 32768)) - 10).
Proof.
  intro Hb. unfold old_code. cbn zeta. rewrite (first_bit_eq m b Hb).
  fold (fields s (match high (m mod 32768) with Some i => i | None => match find (fun i => N.testbit (N.lor (N.shiftl m 16 mod 4294967296) b) i) los with Some i => i | None => 0%N end end)).
  assert (Hr : (m mod 32768 < 32768)%N) by (apply N.mod_lt; discriminate).
  rewrite (high_spec _ Hr). destruct (N.eqb_spec (m mod 32768) 0) as [E|Nr].
  - rewrite E. split; [|lia].
    set (o := find _ los). assert (Ho : In (match o with Some i => i | None => 0%N end) los).
    { destruct o as [i|] eqn:Eo; [apply (find_some _ _ Eo)|]. unfold los. cbn [In]. tauto. }
    clearbody o. set (i := match o with Some i => i | None => 0%N end) in *. clearbody i.
    rewrite shifted_out by (apply los_range in Ho; lia).
    pose proof (proj1 (forallb_forall _ _) check_zero_all i Ho) as Z. unfold check_zero in Z. apply andb_prop in Z.
    destruct s; apply Z.
  - rewrite shifted_low by (pose proof (his_range _ (sub_in _ Hr Nr)); lia). apply good_rest; assumption.
Qed.

(** ** The f32 part *)
Lemma repr_exact w z : 0 <= z < 2 ^ 24 -> repr w (RNs (z * 2 ^ 171)) -> f_finite w /\ f_units w = z * 2 ^ 149.
Proof.
  intros Hz R. assert (P : 2 ^ 171 = 2 ^ 149 * 2 ^ 22) by reflexivity.
  assert (E : RNs (z * 2 ^ 171) = z * 2 ^ 171).
  { unfold RNs. destruct (Z.ltb_spec (z * 2 ^ 171) 0); [lia|].
    apply (RN_exact _ 171 z); [reflexivity|lia|]. unfold rexp.
    assert (L : blen (z * 2 ^ 171) <= 195).
    { destruct z as [|m|m]; [cbn; lia| |lia]. rewrite blen_shift by lia.
      pose proof (digits_le m 24 ltac:(lia) ltac:(lia)). lia. }
    lia. }
  rewrite E in R. destruct w as [s|s| |s m e]; cbn [repr] in R.
  - destruct R as (_&R). split; [exact I|]. lia.
  - exfalso. change (2 ^ 299) with (2 ^ 128 * 2 ^ 171) in R.
    assert (2 ^ 24 < 2 ^ 128) by (apply Z.pow_lt_mono_r; lia).
    set (B := 2 ^ 171) in *. assert (0 < B) by reflexivity. clearbody B.
    destruct s; [|assert (z * B < 2 ^ 128 * B) by (apply Z.mul_lt_mono_pos_r; lia); lia].
    assert (0 <= z * B) by (apply Z.mul_nonneg_nonneg; lia). assert (0 < 2 ^ 128 * B) by (apply Z.mul_pos_pos; lia). lia.
  - contradiction.
  - destruct R as (_&R). split; [exact I|]. lia.
Qed.

(** The integer part of a float that is not negative, in units of 2^-149. *)
Definition ipart (w : f32) : Z := f_units w / 2 ^ 149.
Lemma ipart_finite m e : -149 <= e ->
  ipart (S754_finite false m e) = if 0 <=? e then Z.pos m * 2 ^ e else Z.pos m / 2 ^ (- e).
Proof.
  intro H. unfold ipart. cbn [f_units]. rewrite Z.mul_1_l. destruct (Z.leb_spec 0 e) as [L|L].
  - rewrite Z.pow_add_r by lia. rewrite Z.mul_assoc. apply Z.div_mul. discriminate.
  - replace (2 ^ 149) with (2 ^ (- e) * 2 ^ (e + 149)) by (rewrite <- Z.pow_add_r by lia; f_equal; lia).
    apply Z.div_mul_cancel_r; apply Z.pow_nonzero; lia.
Qed.
Lemma floor_small z : 0 <= z < 2 ^ 24 -> f_as_u32 (f_of_Z z) = Z.to_N z.
Proof.
  intro H. pose proof (normalize_repr z 0 ltac:(lia)) as R. change (0 + 171) with 171 in R.
  pose proof R as R'. apply (repr_exact _ z H) in R'. fold (f_of_Z z) in *. destruct R' as [F U].
  destruct (f_of_Z z) as [s|s| |s m e] eqn:E; try contradiction.
  - cbn [f_units] in U. cbn [f_as_u32]. assert (0 < 2 ^ 149) by reflexivity.
    destruct (Z.eq_dec z 0) as [->|N]; [reflexivity|]. exfalso. set (B := 2 ^ 149) in *. clearbody B. 
    assert (0 < z * B) by (apply Z.mul_pos_pos; lia). lia.
  - destruct s.
    + exfalso. assert (f_units (S754_finite true m e) <= 0).
      { cbn [f_units]. assert (0 <= 2 ^ (e + 149)) by (apply Z.pow_nonneg; lia).
        assert (0 <= Z.pos m * 2 ^ (e + 149)) by (apply Z.mul_nonneg_nonneg; lia). lia. }
      assert (0 <= z * 2 ^ 149) by (apply Z.mul_nonneg_nonneg; [lia|discriminate]).
      assert (z = 0) as -> by (destruct (Z.eq_dec z 0); [assumption|]; exfalso; assert (0 < z * 2 ^ 149) by (apply Z.mul_pos_pos; [lia|reflexivity]); lia).
      discriminate E.
    + cbn [repr] in R. destruct R as (V&_). apply valid_finite in V.
      pose proof (ipart_finite m e ltac:(lia)) as P. unfold ipart in P. rewrite U, Z.div_mul in P by discriminate.
      cbn [f_as_u32]. rewrite <- P. f_equal. change (2 ^ 24) with 16777216 in H. lia.
Qed.
Lemma floor_u32 m e : is_f32 (S754_finite false m e) ->
  f_as_u32 (f_floor (S754_finite false m e)) = Z.to_N (Z.min 4294967295 (ipart (S754_finite false m e))).
Proof.
  intro V. apply valid_finite in V. rewrite ipart_finite by lia. cbn [f_floor]. destruct (Z.leb_spec 0 e) as [L|L].
  - cbn [f_as_u32]. destruct (Z.leb_spec 0 e); [reflexivity|lia].
  - assert (P : 1 < 2 ^ (- e)) by (apply Z.pow_gt_1; lia).
    assert (B : 0 <= Z.pos m / 2 ^ (- e) < 2 ^ 24).
    { split; [apply Z.div_pos; lia|]. apply Z.div_lt_upper_bound; [lia|]. change (2 ^ 24) with 16777216 in *. nia. }
    rewrite floor_small by exact B. f_equal. change (2 ^ 24) with 16777216 in B. lia.
Qed.

(** Signs of products. *)
Definition not_negative (w : f32) : Prop :=
  match w with S754_zero s | S754_infinity s | S754_finite s _ _ => s = false | S754_nan => True end.
Lemma round_aux_sign m e l : not_negative (binary_round_aux 24 128 false m e l).
Proof.
  unfold binary_round_aux. destruct (shr_fexp 24 128 m e l) as [a b]. 
  destruct (shr_fexp 24 128 _ _ _) as [c d].
  destruct (shr_m c); [reflexivity| |exact I]. destruct (_ <=? _); reflexivity.
Qed.
Lemma hundred_sign x : not_negative (f_mul (f_abs x) (f_of_Z 100)).
Proof.
  rewrite f_100. destruct x as [s|s| |s m e]; try reflexivity.
  unfold f_abs, f_mul. cbn [SFabs SFmul xorb]. apply round_aux_sign.
Qed.
Lemma abs_valid x : is_f32 x -> is_f32 (f_abs x). Proof. destruct x; exact (fun H => H). Qed.
Lemma abs_finite x : f_finite x -> f_finite (f_abs x). Proof. destruct x; exact (fun H => H). Qed.
Lemma abs_units x : f_units (f_abs x) = Z.abs (f_units x).
Proof.
  destruct x as [s|s| |s m e]; try reflexivity. cbn [f_abs SFabs f_units].
  assert (0 <= 2 ^ (e + 149)) by (apply Z.pow_nonneg; lia).
  assert (0 <= Z.pos m * 2 ^ (e + 149)) by (apply Z.mul_nonneg_nonneg; lia).
  destruct s; lia.
Qed.
Lemma negative_iff x : is_f32 x -> f_finite x -> SFltb x (f_of_Z 0) = (f_units x <? 0).
Proof.
  destruct x as [s|s| |s m e]; try contradiction; intros V _; [destruct s; reflexivity|]. apply valid_finite in V.
  assert (0 < 2 ^ (e + 149)) by (apply Z.pow_pos_nonneg; lia).
  assert (0 < Z.pos m * 2 ^ (e + 149)) by (apply Z.mul_pos_pos; lia).
  cbn [f_units]. set (k := Z.pos m * 2 ^ (e + 149)) in *. clearbody k. change (f_of_Z 0) with (S754_zero false). unfold SFltb. cbn [SFcompare]. destruct s; match goal with |- _ = (?a <? 0) => destruct (Z.ltb_spec a 0) end; (reflexivity || lia).
Qed.
Lemma old_code_word s m b : (b < 65536)%N -> be16 (old_code s m b) = word (old_code s m b).
Proof.
  intro Hb. destruct (old_code_good s m b Hb) as [G _]. unfold good_code in G.
  apply andb_prop in G. destruct G as [G _]. apply andb_prop in G. destruct G as [G _].
  unfold be16, word. rewrite (N.mod_small (_ / 256)); [reflexivity|]. apply N.div_lt_upper_bound; lia.
Qed.

(** The product as a number: anything large if it overflows. *)
Definition product (x : f32) (W : Z) : Prop :=
  2 ^ 24 * Z.abs (W - 100 * Z.abs (f_units x)) <= Z.max (100 * Z.abs (f_units x)) (2 ^ 23).
Lemma product_u32 x : is_f32 x -> f_finite x ->
  exists W, product x W /\ 0 <= W /\
    f_as_u32 (f_floor (f_mul (f_abs x) (f_of_Z 100))) = Z.to_N (Z.min 4294967295 (W / 2 ^ 149)).
Proof.
  intros V F. pose proof (hundred_sign x) as S. unfold product.
  destruct (hundred_spec (f_abs x) (abs_valid x V) (abs_finite x F)) as (HV&H).
  rewrite abs_units in H. fold (hundred (f_abs x)) in *.
  destruct H as [(HF&C&_)|(HI&B)].
  - exists (f_units (hundred (f_abs x))). unfold close100 in C. rewrite abs_units in C.
    split; [rewrite Z.abs_involutive in C; exact C|].
    destruct (hundred (f_abs x)) as [s|s| |s m e]; try contradiction.
    + split; [reflexivity|]. reflexivity.
    + cbn in S. subst s. split; [|apply floor_u32; exact HV].
      cbn [f_units]. assert (0 <= 2 ^ (e + 149)) by (apply Z.pow_nonneg; lia).
      assert (0 <= Z.pos m * 2 ^ (e + 149)) by (apply Z.mul_nonneg_nonneg; lia). lia.
  - exists (100 * Z.abs (f_units x)). split; [|split].
    + rewrite Z.sub_diag. lia.
    + lia.
    + destruct (hundred (f_abs x)) as [s|s| |s m e]; try contradiction. cbn in S. subst s.
      cbn [f_floor f_as_u32]. rewrite Z.abs_involutive in B. set (U := Z.abs (f_units x)) in *.
      assert (L : 4294967295 <= 100 * U / 2 ^ 149).
      { apply Z.div_le_lower_bound; [reflexivity|]. 
        assert (K : 2 * (2 ^ 149 * 4294967295) <= (2 ^ 25 - 1) * 2 ^ 253) by (vm_compute; discriminate).
        set (p := 2 ^ 149 * 4294967295) in *. set (q := (2 ^ 25 - 1) * 2 ^ 253) in *. clearbody p q. lia. }
      rewrite Z.min_l by exact L. reflexivity.
Qed.

(** What the encoder makes of a finite number. *)
Lemma old_float_general x : is_f32 x -> f_finite x ->
  exists code W,
    old_float_to_bytes x = word code /\ (code < 65536)%N /\ product x W /\ 0 <= W /\
    let r := Z.min 4294967295 (W / 2 ^ 149) mod 32768 in
    knx_hundredths code = old_hundredths r - (if f_units x <? 0 then 2048 * 2 ^ knx_exponent code else 0) /\
    (1024 <= r -> knx_exponent code = Z.log2 r - 10).
Proof.
  intros V F. destruct (product_u32 x V F) as (W&P&W0&E).
  unfold old_float_to_bytes. cbn zeta. rewrite E, (negative_iff x V F).
  set (b := fraction_bits _ _ _ _). assert (Hb : (b < 65536)%N) by (apply fraction_bits_small; reflexivity). clearbody b.
  remember (Z.min 4294967295 (W / 2 ^ 149)) as M eqn:EM.
  assert (M0 : 0 <= M) by (pose proof (Z.div_pos W (2 ^ 149) W0 ltac:(reflexivity)); lia). clear E V F.
  exists (old_code (f_units x <? 0) (Z.to_N M) b), W.
  rewrite old_code_word by exact Hb. split; [reflexivity|]. cbv zeta. rewrite <- EM. clear EM.
  destruct (old_code_good (f_units x <? 0) (Z.to_N M) b Hb) as [G X].
  assert (ER : Z.of_N (Z.to_N M mod 32768) = M mod 32768) by (rewrite N2Z.inj_mod, Z2N.id by lia; reflexivity).
  rewrite ER in X. unfold good_code in G. rewrite ER in G.
  apply andb_prop in G. destruct G as [G G3]. apply andb_prop in G. destruct G as [G1 G2].
  split; [lia|]. split; [exact P|]. split; [exact W0|]. split; [apply Z.eqb_eq in G3; lia|]. intro L. apply X. lia.
Qed.

(** Between 10.245 and 327.675 the result is right up to one step. *)
Lemma old_truncates x : is_f32 x -> f_finite x ->
  2049 * 2 ^ 148 <= 100 * f_units x <= 65535 * 2 ^ 148 ->
  exists code, old_float_to_bytes x = word code /\ (code < 65536)%N /\
    - 2 ^ 141 < 100 * f_units x - knx_hundredths code * 2 ^ 149 < 2 ^ (149 + knx_exponent code) + 2 ^ 141.
Proof.
  intros V F R. destruct (old_float_general x V F) as (code&W&E&C&P&W0&H&X). exists code.
  split; [exact E|]. split; [exact C|]. unfold product in P.
  assert (U0 : 0 < f_units x) by (assert (H0 : 0 < 2 ^ 148) by reflexivity; clear -R H0; set (B := 2 ^ 148) in *; clearbody B; lia).
  destruct (Z.ltb_spec (f_units x) 0) as [|_]; [lia|]. rewrite (Z.abs_eq (f_units x)) in P by lia. 
  set (U := 100 * f_units x) in *. clearbody U. clear U0 E V F.
  assert (D : Z.abs (W - U) < 2 ^ 141).
  { change (2 ^ 148) with (2 ^ 7 * 2 ^ 141) in R. assert (2 ^ 23 < 2 ^ 141) by reflexivity.
    set (Q := 2 ^ 141) in *. clearbody Q. change (2 ^ 24) with 16777216 in P. change (2 ^ 7) with 128 in R. lia. }
  assert (M : 1024 <= W / 2 ^ 149 < 32768).
  { change (2 ^ 148) with (2 ^ 7 * 2 ^ 141) in R. change (2 ^ 149) with (2 ^ 8 * 2 ^ 141). 
    assert (0 < 2 ^ 141) by reflexivity. set (Q := 2 ^ 141) in *. clearbody Q. change (2 ^ 7) with 128 in R. change (2 ^ 8) with 256.
    split; [apply Z.div_le_lower_bound; lia|apply Z.div_lt_upper_bound; lia]. }
  assert (ER : Z.min 4294967295 (W / 2 ^ 149) mod 32768 = W / 2 ^ 149) by (rewrite Z.min_r by lia; apply Z.mod_small; lia).
  rewrite ER in H, X. specialize (X ltac:(lia)). rewrite X.
  pose proof (Z.div_mod W (2 ^ 149) ltac:(discriminate)) as DM. pose proof (Z.mod_pos_bound W (2 ^ 149) ltac:(reflexivity)) as MB.
  set (r := W / 2 ^ 149) in *. set (f := W mod 2 ^ 149) in *. clearbody r f.
  unfold old_hundredths in H. destruct (Z.ltb_spec r 1024); [lia|]. cbv zeta in H. rewrite Z.sub_0_r in H. 
  assert (K : 0 <= Z.log2 r - 10) by (assert (Z.log2 1024 <= Z.log2 r) by (apply Z.log2_le_mono; lia); change (Z.log2 1024) with 10 in *; lia).
  set (k := Z.log2 r - 10) in *. clearbody k. 
  pose proof (Z.div_mod r (2 ^ k) ltac:(apply Z.pow_nonzero; lia)) as DR.
  pose proof (Z.mod_pos_bound r (2 ^ k) ltac:(apply Z.pow_pos_nonneg; lia)) as RB.
  rewrite Z.pow_add_r by lia. rewrite H.
  set (S := 2 ^ k) in *. set (B := 2 ^ 149) in *. set (g := r mod S) in *. set (q := r / S) in *.
  assert (BP : 0 < B) by reflexivity. set (Q := 2 ^ 141) in *. clearbody S B g q Q. clear H X ER R P.
  assert (EW : W = q * S * B + g * B + f) by (subst W r; ring).
  assert (G1 : 0 <= g * B) by (apply Z.mul_nonneg_nonneg; lia).
  assert (G2 : (g + 1) * B <= S * B) by (apply Z.mul_le_mono_nonneg_r; lia).
  rewrite Z.mul_add_distr_r, Z.mul_1_l in G2. rewrite (Z.mul_comm B S).
  set (a := q * S * B) in *. set (b := g * B) in *. set (c := S * B) in *. clearbody a b c. lia.
Qed.

(** Between 0.015 and 10.235 it is at least 32000 times too large. *)
Lemma old_too_large x : is_f32 x -> f_finite x ->
  3 * 2 ^ 148 <= 100 * f_units x <= 2047 * 2 ^ 148 ->
  exists code, old_float_to_bytes x = word code /\ (code < 65536)%N /\
    32000 * (100 * f_units x) <= knx_hundredths code * 2 ^ 149.
Proof.
  intros V F R. destruct (old_float_general x V F) as (code&W&E&C&P&W0&H&_). exists code.
  split; [exact E|]. split; [exact C|]. unfold product in P.
  assert (U0 : 0 < f_units x) by (assert (H0 : 0 < 2 ^ 148) by reflexivity; clear -R H0; set (B := 2 ^ 148) in *; clearbody B; lia).
  destruct (Z.ltb_spec (f_units x) 0) as [|_]; [lia|]. rewrite (Z.abs_eq (f_units x)) in P by lia.
  set (U := 100 * f_units x) in *. clearbody U. clear U0 E V F. rewrite Z.sub_0_r in H.
  assert (D : 16777216 * Z.abs (W - U) <= U).
  { assert (2 ^ 23 < 2 ^ 148) by reflexivity. change (2 ^ 24) with 16777216 in P. set (Q := 2 ^ 148) in *. clearbody Q. lia. }
  change (2 ^ 149) with (2 * 2 ^ 148) in *. assert (BP : 0 < 2 ^ 148) by reflexivity. set (B := 2 ^ 148) in *. clearbody B.
  assert (M : 1 <= W / (2 * B) < 1024) by (split; [apply Z.div_le_lower_bound; lia|apply Z.div_lt_upper_bound; lia]).
  assert (ER : Z.min 4294967295 (W / (2 * B)) mod 32768 = W / (2 * B)) by (rewrite Z.min_r by lia; apply Z.mod_small; lia).
  rewrite ER in H. clear ER.
  pose proof (Z.div_mod W (2 * B) ltac:(lia)) as DM. pose proof (Z.mod_pos_bound W (2 * B) ltac:(lia)) as MB.
  set (r := W / (2 * B)) in *. set (f := W mod (2 * B)) in *. clearbody r f.
  unfold old_hundredths in H. destruct (Z.ltb_spec r 1024); [|lia]. rewrite H.
  assert (2 * B <= 2 * B * r) by nia. nia.
Qed.

(** Between -20.475 and -15.365 it is more than 10 too large. *)
Lemma old_negative x : is_f32 x -> f_finite x ->
  - 4095 * 2 ^ 148 <= 100 * f_units x <= - 3073 * 2 ^ 148 ->
  exists code, old_float_to_bytes x = word code /\ (code < 65536)%N /\
    100 * f_units x + 1000 * 2 ^ 149 < knx_hundredths code * 2 ^ 149.
Proof.
  intros V F R. destruct (old_float_general x V F) as (code&W&E&C&P&W0&H&X). exists code.
  split; [exact E|]. split; [exact C|]. unfold product in P.
  assert (U0 : f_units x < 0) by (assert (H0 : 0 < 2 ^ 148) by reflexivity; clear -R H0; set (B := 2 ^ 148) in *; clearbody B; lia).
  destruct (Z.ltb_spec (f_units x) 0) as [_|]; [|lia]. rewrite (Z.abs_neq (f_units x)) in P by lia.
  replace (100 * - f_units x) with (- (100 * f_units x)) in P by ring.
  set (U := 100 * f_units x) in *. clearbody U. clear U0 E V F.
  assert (D : 16777216 * Z.abs (W - - U) <= - U).
  { assert (2 ^ 23 < 2 ^ 148) by reflexivity. change (2 ^ 24) with 16777216 in P. set (Q := 2 ^ 148) in *. clearbody Q. lia. }
  change (2 ^ 149) with (2 * 2 ^ 148) in *. assert (BP : 0 < 2 ^ 148) by reflexivity. set (B := 2 ^ 148) in *. clearbody B.
  assert (M : 1536 <= W / (2 * B) < 2048) by (split; [apply Z.div_le_lower_bound; lia|apply Z.div_lt_upper_bound; lia]).
  assert (ER : Z.min 4294967295 (W / (2 * B)) mod 32768 = W / (2 * B)) by (rewrite Z.min_r by lia; apply Z.mod_small; lia).
  rewrite ER in H, X. clear ER. specialize (X ltac:(lia)).
  set (r := W / (2 * B)) in *. clearbody r.
  assert (L : Z.log2 r = 10) by (apply Z.log2_unique; change (2 ^ 10) with 1024; change (2 ^ Z.succ 10) with 2048; lia).
  unfold old_hundredths in H. destruct (Z.ltb_spec r 1024); [lia|]. cbv zeta in H. rewrite X, L in H.
  change (2 ^ (10 - 10)) with 1 in H. rewrite Z.div_1_r in H. rewrite H.
  assert (- 512 * (2 * B) <= (r * 1 - 2048 * 1) * (2 * B)) by (apply Z.mul_le_mono_nonneg_r; lia). lia.
Qed.
