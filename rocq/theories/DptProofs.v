(** Lemmas about integer, boolean, control and scaled data points. *)
From Coq Require Import String.
From Coq.Floats Require Import SpecFloat.
From Verif Require Import Base Wire BaseProofs Apdu DpTypes EmiProofs.
Open Scope N_scope.

(** ** Integers *)
Lemma byte_roundtrip b : exists d, byte_from_bytes (byte_get_bytes b) = Ok d /\ by_value d = by_value b.
Proof. eexists; split; reflexivity. Qed.
Lemma byte_reencode b d : byte_from_bytes [b] = Ok d -> byte_get_bytes d = [b].
Proof. intro H. injection H as <-. reflexivity. Qed.
Lemma scaled_roundtrip s : exists d, scaled_from_bytes (scaled_get_bytes s) = Ok d /\ sc_value d = sc_value s.
Proof. eexists; split; reflexivity. Qed.
Lemma scaled_reencode b d : scaled_from_bytes [b] = Ok d -> scaled_get_bytes d = [b].
Proof. intro H. injection H as <-. reflexivity. Qed.
Lemma word_roundtrip w rest : wo_value w < 65536 ->
  exists d, word_from_bytes (word_get_bytes w ++ rest) = Ok d /\ wo_value d = wo_value w.
Proof.
  intro H. unfold word_from_bytes, word_get_bytes. rewrite be16_word, read_u16_word by assumption.
  eexists; split; reflexivity.
Qed.
Lemma word_bytes_eq w : wo_value w < 65536 -> word_get_bytes w = word (wo_value w).
Proof. apply be16_word. Qed.
Lemma word_reencode a b d : a < 256 -> b < 256 -> word_from_bytes [a; b] = Ok d -> word_get_bytes d = [a; b].
Proof.
  intros Ha Hb H. injection H as <-. unfold word_get_bytes. cbn [wo_value].
  rewrite be16_word by lia. unfold word. f_equal; [lia|]. f_equal. lia.
Qed.
Lemma be32_dword n : n < 4294967296 -> be32 n = dword n.
Proof.
  intro H. unfold be32, dword, be16. cbn [app].
  repeat (f_equal; try lia).
Qed.
Lemma ulong_roundtrip u rest : ul_value u < 4294967296 ->
  exists d, ulong_from_bytes (ulong_get_bytes u ++ rest) = Ok d /\ ul_value d = ul_value u.
Proof.
  intro H. unfold ulong_from_bytes, ulong_get_bytes. rewrite be32_dword by assumption.
  unfold dword, read_u32. cbn [app]. eexists; split; [reflexivity|]. cbn [ul_value]. lia.
Qed.
Lemma ulong_reencode a b c e d : a < 256 -> b < 256 -> c < 256 -> e < 256 ->
  ulong_from_bytes [a; b; c; e] = Ok d -> ulong_get_bytes d = [a; b; c; e].
Proof.
  intros Ha Hb Hc He H. injection H as <-. unfold ulong_get_bytes. cbn [ul_value].
  rewrite be32_dword by lia. unfold dword. repeat (f_equal; try lia).
Qed.
Lemma int_roundtrip i rest : (-32768 <= in_value i <= 32767)%Z ->
  exists d, int_from_bytes (int_get_bytes i ++ rest) = Ok d /\ in_value d = in_value i.
Proof.
  intro H. unfold int_from_bytes, int_get_bytes, u16_of_i16.
  rewrite be16_word by lia. unfold word. cbn [app]. eexists; split; [reflexivity|].
  cbn [in_value]. unfold i16_of_u16, wrap_i16. lia.
Qed.
(** Two's complement, most significant octet first. *)
Lemma int_bytes_eq i : (-32768 <= in_value i <= 32767)%Z ->
  int_get_bytes i = word (Z.to_N (if (in_value i <? 0)%Z then in_value i + 65536 else in_value i)).
Proof.
  intro H. unfold int_get_bytes, u16_of_i16. rewrite be16_word by lia. f_equal. f_equal.
  destruct (Z.ltb_spec (in_value i) 0); lia.
Qed.
Lemma int_reencode a b d : a < 256 -> b < 256 ->
  int_from_bytes [a; b] = Ok d -> int_get_bytes d = [a; b] /\ (-32768 <= in_value d <= 32767)%Z.
Proof.
  intros Ha Hb H. injection H as <-. unfold int_get_bytes. cbn [in_value].
  unfold i16_of_u16, wrap_i16, u16_of_i16. rewrite be16_word by lia. unfold word.
  split; [|lia]. f_equal; [lia|]. f_equal. lia.
Qed.
Lemma bit_roundtrip b rest : exists d, bit_from_bytes (bit_get_bytes b ++ rest) = Ok d /\ bi_value d = bi_value b.
Proof. destruct b as [c []]; eexists; split; reflexivity. Qed.
Lemma bit_reencode b d : bit_from_bytes [b] = Ok d -> bit_get_bytes d = [if b =? 0 then 0 else 1].
Proof.
  intro H. injection H as <-. unfold bit_get_bytes. cbn [bi_value].
  destruct (N.eqb_spec b 0) as [->|Hb]; [reflexivity|]. replace (0 <? b) with true by lia. reflexivity.
Qed.
Lemma from_bytes_short :
  scaled_from_bytes [] = Err /\ byte_from_bytes [] = Err /\ bit_from_bytes [] = Err /\ b1u3_from_bytes [] = Err /\
  (forall bs, (length bs < 2)%nat -> int_from_bytes bs = Err /\ word_from_bytes bs = Err) /\
  (forall bs, (length bs < 4)%nat -> ulong_from_bytes bs = Err).
Proof.
  repeat split; try reflexivity;
  (destruct bs as [|? [|? [|? [|? ?]]]]; cbn [length] in *; try reflexivity; lia).
Qed.

(** ** Control *)
Lemma all_bytes (P : N -> bool) :
  forallb (fun n => P (N.of_nat n)) (seq 0 256) = true -> forall b, b < 256 -> P b = true.
Proof.
  intros H b Hb. rewrite forallb_forall in H. specialize (H (N.to_nat b)).
  rewrite in_seq, N2Nat.id in H. apply H. lia.
Qed.
Lemma land7 v : N.land v 7 = v mod 8.
Proof. change 7 with (N.ones 3). apply N.land_ones. Qed.
Lemma land8 v : (0 <? N.land v 8) = N.testbit v 3.
Proof. change 8 with (2 ^ 3). apply testbit_land_pos. Qed.
Lemma lor8 (b : bool) s : s < 8 -> N.lor (if b then 8 else 0) s = (if b then 8 else 0) + s.
Proof.
  intro H.
  assert (X : forallb (fun n => N.lor (if b then 8 else 0) (N.of_nat n) =? (if b then 8 else 0) + N.of_nat n) (seq 0 8) = true)
    by (destruct b; reflexivity).
  rewrite forallb_forall in X. specialize (X (N.to_nat s)). rewrite in_seq, N2Nat.id in X. apply N.eqb_eq, X. lia.
Qed.
Lemma b1u3_general_bytes v : b1u3_get_bytes (b1u3_general v) = [v mod 16].
Proof.
  unfold b1u3_get_bytes, b1u3_get_value, b1u3_general. cbn [b3_bit b3_step].
  rewrite land7, land8, lor8 by lia. f_equal.
  rewrite N.testbit_eqb. change (2 ^ 3) with 8. destruct (N.eqb_spec ((v / 8) mod 2) 1); lia.
Qed.
Lemma b1u3_dimming_bytes i s : b1u3_get_bytes (b1u3_dimming i s) = [(if i then 8 else 0) + s mod 8].
Proof.
  unfold b1u3_get_bytes, b1u3_get_value, b1u3_dimming. cbn [b3_bit b3_step].
  rewrite land7, lor8 by lia. reflexivity.
Qed.
Lemma b1u3_blinds_bytes i s : b1u3_get_bytes (b1u3_blinds i s) = [(if i then 8 else 0) + s mod 8].
Proof.
  unfold b1u3_get_bytes, b1u3_get_value, b1u3_blinds. cbn [b3_bit b3_step].
  rewrite land7, lor8 by lia. reflexivity.
Qed.
Lemma b1u3_roundtrip b rest : b3_step b < 8 ->
  exists d, b1u3_from_bytes (b1u3_get_bytes b ++ rest) = Ok d /\ b3_bit d = b3_bit b /\ b3_step d = b3_step b.
Proof.
  intro H. unfold b1u3_get_bytes, b1u3_get_value. rewrite lor8 by assumption.
  cbn [app b1u3_from_bytes]. eexists; split; [reflexivity|]. cbn [b3_bit b3_step].
  rewrite land7, land8, N.testbit_eqb. change (2 ^ 3) with 8. destruct (b3_bit b).
  - split; [apply N.eqb_eq; lia|lia].
  - split; [apply N.eqb_neq; lia|lia].
Qed.
Lemma b1u3_constructors_bounded :
  (forall v, b3_step (b1u3_general v) < 8) /\ (forall i s, b3_step (b1u3_dimming i s) < 8) /\
  (forall i s, b3_step (b1u3_blinds i s) < 8) /\
  (forall bs d, b1u3_from_bytes bs = Ok d -> b3_step d < 8).
Proof.
  repeat split; intros; unfold b1u3_general, b1u3_dimming, b1u3_blinds; cbn [b3_step]; rewrite ?land7; try lia.
  destruct bs; [discriminate|]. injection H as <-. cbn [b3_step]. rewrite land7. lia.
Qed.

(** ** Percentage counter *)
Lemma percent_v16_spec p v : (-32768 <= v <= 32767)%Z ->
  int_percent_v16 p v =
  (if (Z.abs v <=? 327)%Z then Ok {| in_code := "8.010"; in_unit := "%"; in_value := (v * 100)%Z |}
   else match p with
        | Debug => Panic
        | Release => Ok {| in_code := "8.010"; in_unit := "%"; in_value := wrap_i16 (v * 100) |}
        end).
Proof.
  intro H. unfold int_percent_v16.
  replace (((-32768 <=? v * 100) && (v * 100 <=? 32767))%Z) with (Z.abs v <=? 327)%Z; [reflexivity|].
  destruct (Z.leb_spec (Z.abs v) 327); lia.
Qed.
Lemma percent_v16_wraps v : (-32768 <= v <= 32767)%Z -> (327 < Z.abs v)%Z ->
  forall i, int_percent_v16 Release v = Ok i -> in_value i <> (v * 100)%Z /\ (-32768 <= in_value i <= 32767)%Z.
Proof.
  intros H1 H2 i. rewrite percent_v16_spec by assumption. replace (Z.abs v <=? 327)%Z with false by lia.
  intro E. injection E as <-. cbn [in_value]. unfold wrap_i16. lia.
Qed.

(** ** Scaled values *)
Lemma round_as_range lo hi x : (lo <= 0 <= hi)%Z -> (lo <= round_as lo hi x <= hi)%Z.
Proof. intro H. destruct x as [s|s| |s m e]; cbn [round_as]; try destruct s; lia. Qed.
Lemma scaling_is_byte x : sc_value (scaled_scaling x) < 256.
Proof.
  unfold scaled_scaling. cbn [sc_value].
  pose proof (round_as_range 0 255 (f_add (f_mul x (f_lit 254 100)) (f_of_Z 1))). lia.
Qed.
Lemma scaled_value_roundtrip s :
  1 <= sc_value s < 256 -> sc_value (scaled_scaling (scaled_get_value s)) = sc_value s.
Proof.
  intro H.
  assert (X : forall b, b < 256 ->
    (if b =? 0 then true else
     sc_value (scaled_scaling (scaled_get_value {| sc_code := ""; sc_unit := ""; sc_value := b |})) =? b) = true).
  { apply all_bytes. vm_compute. reflexivity. }
  specialize (X (sc_value s)). replace (sc_value s =? 0) with false in X by lia.
  apply N.eqb_eq. apply X. lia.
Qed.
Lemma scaling_zero b : sc_value (scaled_scaling (S754_zero b)) = 1.
Proof. destruct b; reflexivity. Qed.
Lemma scaling_special :
  sc_value (scaled_scaling S754_nan) = 0 /\ sc_value (scaled_scaling (S754_infinity false)) = 255 /\
  sc_value (scaled_scaling (S754_infinity true)) = 0.
Proof. repeat split. Qed.
Lemma scaling_zero_all :
  (forall s, sc_value (scaled_scaling (S754_zero s)) = 1) /\
  (forall s, sc_value s = 0 -> sc_value (scaled_scaling (scaled_get_value s)) = 1) /\
  (forall s, sc_value s <= 1 -> scaled_get_value s = S754_zero false).
Proof.
  split; [exact scaling_zero|]. split.
  - intros s H. unfold scaled_get_value. rewrite H. reflexivity.
  - intros s H. unfold scaled_get_value. assert (sc_value s = 0 \/ sc_value s = 1) as [-> | ->] by lia; reflexivity.
Qed.
