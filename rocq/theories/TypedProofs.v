(** Proofs about typed group values, TPDUs and bus-monitor frames. *)
From Coq Require Import String Lia ZifyBool ZifyNat ZifyN.
From Coq.Floats Require Import SpecFloat.
From Verif Require Import Base Addresses Apdu DpTypes Tunneling Emi Core Transport Wire Spec TypedSpec
  BaseProofs EmiProofs ResponseProofs DptProofs FloatMore.
Open Scope N_scope.

(** ** Writing typed values *)
Lemma lor_small (b : bool) s : s < 8 -> N.lor (if b then 8 else 0) s = (if b then 8 else 0) + s.
Proof. exact (lor8 b s). Qed.
Lemma write_bytes_only d : (forall v, d <> PByte v) -> (forall v, d <> PFloat v) -> wf_pdt d ->
  exists a, (forall p fuel, group_value_write_pd p fuel d = Done a) /\ write_octets d (apdu_packet a).
Proof.
  intros Hb Hf W. destruct d as [v|v|v|v|v|v|v|v]; try (exfalso; eapply Hb; reflexivity); try (exfalso; eapply Hf; reflexivity);
    (eexists; split; [intros p fuel; reflexivity|]); cbn [write_octets wf_pdt hd] in *.
  - reflexivity.
  - unfold apdu_packet; cbn [apdu_apci apdu_payload]. change (apci_packet a_group_value_write) with [0; 128]. cbv iota.
    rewrite int_bytes_eq by exact W. reflexivity.
  - unfold apdu_packet; cbn [apdu_apci apdu_payload]. change (apci_packet a_group_value_write) with [0; 128]. cbv iota.
    rewrite word_bytes_eq by exact W. reflexivity.
  - unfold apdu_packet; cbn [apdu_apci apdu_payload]. change (apci_packet a_group_value_write) with [0; 128]. cbv iota.
    unfold ulong_get_bytes. rewrite be32_dword by exact W. reflexivity.
  - unfold apdu_packet, bit_get_bytes; cbn [apdu_apci apdu_payload hd]. destruct (bi_value v); reflexivity.
  - unfold apdu_packet, b1u3_get_bytes, b1u3_get_value; cbn [apdu_apci apdu_payload hd].
    change (apci_packet a_group_value_write) with [0; 128]. cbv iota. rewrite lor128, lor8 by exact W.
    rewrite N.mod_small by (destruct (b3_bit v); lia). destruct (b3_bit v); f_equal; f_equal; lia.
Qed.
Lemma write_float v : is_f32 (fl_value v) -> encodable (fl_value v) ->
  exists a, (forall p fuel, (117 <= fuel)%nat -> group_value_write_pd p fuel (PFloat v) = Done a) /\ write_octets (PFloat v) (apdu_packet a).
Proof.
  intros H (Hi&Hb). destruct (encode_terminates _ H Hi Hb) as (code&Hc&He).
  exists {| apdu_apci := a_group_value_write; apdu_payload := Big (word code) |}. split.
  - intros p fuel Hp. unfold group_value_write_pd, pdt_is_small, pdt_get_bytes, float_get_bytes. rewrite He by exact Hp. reflexivity.
  - exists code. split; [exact Hc|reflexivity].
Qed.
Lemma write_float_never v p : is_f32 (fl_value v) -> ~ encodable (fl_value v) ->
  forall fuel a, group_value_write_pd p fuel (PFloat v) <> Done a.
Proof.
  intros H Hn fuel a E. apply Hn. apply (encode_returns_iff p _ H).
  unfold group_value_write_pd, pdt_is_small, pdt_get_bytes, float_get_bytes in E.
  destruct (float_to_bytes p fuel (fl_value v)) as [bs| |] eqn:Eb; try discriminate E. eauto.
Qed.

(** ** Across the wire *)
Lemma float_code_bytes p fuel x bs : float_to_bytes p fuel x = Done bs -> bytes bs /\ length bs = 2%nat.
Proof.
  unfold float_to_bytes. destruct (halve_while _ _ _ _ _) as [(v,e)| |]; try discriminate.
  destruct (halve_while _ _ _ _ _) as [(v',e')| |]; try discriminate. intro H. injection H as <-. unfold float_code. split; [|reflexivity].
  assert (A : forall z, (0 <= z mod 256 < 256)%Z) by (intro z; apply Z.mod_pos_bound; lia).
  constructor.
  - unfold byte. destruct (SFltb v' (f_of_Z 0)).
    + match goal with |- context [Z.lor (?z mod 256)%Z 128] => pose proof (A z) as B; set (y := (z mod 256)%Z) in * end.
      assert (0 <= Z.lor y 128 < 2 ^ 8)%Z; [|lia]. split; [apply Z.lor_nonneg; lia|].
      destruct (Z.eq_dec (Z.lor y 128) 0) as [->|N0]; [reflexivity|].
      apply Z.log2_lt_pow2; [assert (0 <= Z.lor y 128)%Z by (apply Z.lor_nonneg; lia); lia|].
      rewrite Z.log2_lor by lia. apply Z.max_lub_lt; [|reflexivity].
      destruct (Z.eq_dec y 0) as [->|]; [reflexivity|]. apply Z.log2_lt_pow2; lia.
    + match goal with |- context [(?z mod 256)%Z] => pose proof (A z) end. lia.
  - constructor; [|constructor]. unfold byte. match goal with |- context [(?z mod 256)%Z] => pose proof (A z) end. lia.
Qed.
Lemma bytes_dword n : n < 4294967296 -> bytes (dword n).
Proof.
  intro H. unfold dword. rewrite !bytes_cons. repeat split; try apply bytes_nil; unfold byte; try (apply N.mod_lt; lia).
  apply N.div_lt_upper_bound; lia.
Qed.
Lemma pd_as_write p fuel d a : wf_pdt d -> group_value_write_pd p fuel d = Done a ->
  exists v small, group_value_write v small = Ok a /\ bytes v /\ v <> [] /\ (length v <= 79)%nat /\ reads_back p fuel d (carried v small).
Proof.
  intros W E. destruct d as [v|v|v|v|v|v|v|v]; cbn [wf_pdt] in W; unfold group_value_write_pd in E; cbn [pdt_is_small pdt_get_bytes] in E.
  - injection E as <-. exists (scaled_get_bytes v), false. split; [reflexivity|].
    split; [repeat constructor; exact W|]. split; [discriminate|]. split; [cbn; lia|]. apply scaled_roundtrip.
  - injection E as <-. exists (int_get_bytes v), false. split; [reflexivity|].
    split; [rewrite int_bytes_eq by exact W; apply bytes_word; destruct (in_value v <? 0)%Z eqn:?; lia|]. split; [discriminate|]. split; [cbn; lia|].
    destruct (int_roundtrip v [] W) as (w&H&Hv). rewrite app_nil_r in H. exists w. auto.
  - destruct (float_get_bytes p fuel v) as [bs| |] eqn:Eb; try discriminate E. injection E as <-.
    destruct (float_code_bytes _ _ _ _ Eb) as (B&L). exists bs, false. split; [reflexivity|]. split; [exact B|].
    split; [destruct bs; discriminate|]. split; [lia|]. exact Eb.
  - discriminate E.
  - injection E as <-. exists (word_get_bytes v), false. split; [reflexivity|].
    split; [rewrite word_bytes_eq by exact W; apply bytes_word; exact W|]. split; [discriminate|]. split; [cbn; lia|].
    destruct (word_roundtrip v [] W) as (w&H&Hv). rewrite app_nil_r in H. exists w. auto.
  - injection E as <-. exists (ulong_get_bytes v), false. split; [reflexivity|].
    split; [unfold ulong_get_bytes; rewrite be32_dword by exact W; apply bytes_dword; exact W|]. split; [discriminate|]. split; [cbn; lia|].
    destruct (ulong_roundtrip v [] W) as (w&H&Hv). rewrite app_nil_r in H. exists w. auto.
  - injection E as <-. exists (bit_get_bytes v), true. split; [reflexivity|].
    split; [repeat constructor; unfold byte; destruct (bi_value v); lia|]. split; [discriminate|]. split; [cbn; lia|].
    destruct (bit_roundtrip v []) as (w&H&Hv). rewrite app_nil_r in H. exists w. split; [|exact Hv].
    unfold carried. destruct v as [c []]; exact H.
  - injection E as <-. exists (b1u3_get_bytes v), true. split; [reflexivity|].
    assert (S : b1u3_get_value v = (if b3_bit v then 8 else 0) + b3_step v) by (apply lor8; exact W).
    split; [repeat constructor; unfold byte; rewrite S; destruct (b3_bit v); lia|]. split; [discriminate|]. split; [cbn; lia|].
    destruct (b1u3_roundtrip v [] W) as (w&H&Hv). rewrite app_nil_r in H. exists w. split; [|exact Hv].
    unfold carried, b1u3_get_bytes in *. cbn [hd]. rewrite N.mod_small by (rewrite S; destruct (b3_bit v); lia). exact H.
Qed.
Lemma typed_survives p fuel d a dest pkt chan seq c1 c2 src :
  wf_pdt d -> group_value_write_pd p fuel d = Done a ->
  wf_addr dest -> ldata_req_packet p (ldata_req_new dest (t_data_group a)) = Ok pkt ->
  byte chan -> byte seq -> byte c1 -> byte c2 -> src < 65536 ->
  exists t c i,
    parse_response (recv_buffer (frame 0x0420 ([4; chan; seq; 0] ++ [0x29; 0; c1; c2] ++ word src ++ skipn 6 pkt))) = Ok (RTunReq t) /\
    run_on (cemi_from_packet p) (tr_cemi t) = Ok c /\ ce_code c = 0x29 /\
    ldata_ind_from_cemi c = Ok i /\ ld_dest (li_data i) = addr_to_u16 dest /\ reads_back p fuel d (li_value i).
Proof.
  intros W E Hd Hp H1 H2 H3 H4 H5. destruct (pd_as_write _ _ _ _ W E) as (v&small&Hw&B&Hn&L&R).
  destruct (group_write_survives _ _ _ _ _ _ _ _ _ _ _ Hd B Hn L Hw Hp H1 H2 H3 H4 H5) as (t&c&i&X1&_&_&X2&X3&X4&_&X5&X6).
  exists t, c, i. rewrite X6. auto 10.
Qed.

(** ** Lengths the decoders accept *)
Definition accepts {A} (f : list N -> res A) (n : nat) : Prop :=
  forall bs, (exists d, f bs = Ok d) <-> (n <= length bs)%nat.
Lemma accepts_prefix :
  accepts scaled_from_bytes 1 /\ accepts byte_from_bytes 1 /\ accepts bit_from_bytes 1 /\ accepts b1u3_from_bytes 1 /\
  accepts int_from_bytes 2 /\ accepts word_from_bytes 2 /\ accepts ulong_from_bytes 4.
Proof.
  repeat apply conj; intro bs; split;
    try (intros (d&H); destruct bs as [|a [|b [|c [|e bs]]]]; cbn in *; try discriminate H; lia);
    (intro L; destruct bs as [|a [|b [|c [|e bs]]]]; cbn in L; try lia; eexists; reflexivity).
Qed.
Lemma longer_same :
  (forall a x, scaled_from_bytes (a :: x) = scaled_from_bytes [a]) /\ (forall a x, byte_from_bytes (a :: x) = byte_from_bytes [a]) /\
  (forall a x, bit_from_bytes (a :: x) = bit_from_bytes [a]) /\ (forall a x, b1u3_from_bytes (a :: x) = b1u3_from_bytes [a]) /\
  (forall a b x, int_from_bytes (a :: b :: x) = int_from_bytes [a; b]) /\
  (forall a b x, word_from_bytes (a :: b :: x) = word_from_bytes [a; b]) /\
  (forall a b c e x, ulong_from_bytes (a :: b :: c :: e :: x) = ulong_from_bytes [a; b; c; e]).
Proof. repeat split. Qed.
Lemma float_length p bs : length bs <> 2%nat -> float_from_bytes p bs = Err /\ float_temp_from_bytes p bs = Err.
Proof. destruct bs as [|a [|b [|c bs]]]; cbn; intro H; auto. congruence. Qed.

(** ** Percentages *)
Definition check_percent (v : N) : bool :=
  let x := scaled_get_value {| sc_code := ""; sc_unit := ""; sc_value := v |} in
  let d := (100 * Z.of_N v * 2 ^ 149 - 255 * f_units x)%Z in
  match x with S754_zero _ | S754_finite _ _ _ => true | _ => false end &&
  (if (v =? 0) || (v =? 255) then (d =? 0)%Z else (0 <? d)%Z) && (5 * d <=? 2 * 255 * 2 ^ 149)%Z.
Lemma check_percents : forallb check_percent (map N.of_nat (List.seq 0 256)) = true.
Proof. vm_compute. reflexivity. Qed.
Lemma percent_error s : sc_value s < 256 ->
  let x := scaled_get_value s in
  let d := (100 * Z.of_N (sc_value s) * 2 ^ 149 - 255 * f_units x)%Z in
  f_finite x /\ (0 <= d)%Z /\ (5 * d <= 2 * 255 * 2 ^ 149)%Z /\ (d = 0%Z <-> sc_value s = 0 \/ sc_value s = 255).
Proof.
  intro H. pose proof check_percents as C. rewrite forallb_forall in C.
  specialize (C (sc_value s)). assert (In (sc_value s) (map N.of_nat (List.seq 0 256))) as Hi.
  { apply in_map_iff. exists (N.to_nat (sc_value s)). split; [lia|]. apply in_seq. lia. }
  specialize (C Hi). unfold check_percent in C.
  change (scaled_get_value {| sc_code := ""; sc_unit := ""; sc_value := sc_value s |}) with (scaled_get_value s) in C.
  cbn zeta in *. set (x := scaled_get_value s) in *. set (d := (_ - _)%Z) in *. clearbody d.
  apply andb_prop in C. destruct C as (C&C3). apply andb_prop in C. destruct C as (C1&C2).
  split; [destruct x; try discriminate C1; exact I|].
  destruct (N.eqb_spec (sc_value s) 0) as [->|N0]; [cbn in C2; lia|].
  destruct (N.eqb_spec (sc_value s) 255) as [->|N1]; cbn in C2; lia.
Qed.
(** Whole percentages. *)
Definition check_whole (n : N) : bool :=
  let v := sc_value (scaled_scaling (f_of_Z (Z.of_N n))) in
  (200 * v =? 200 * ((510 * n + 100) / 200)) || (200 * v =? 200 * ((510 * n + 100) / 200 + 1)).
Lemma check_wholes : forallb check_whole (map N.of_nat (List.seq 0 101)) = true.
Proof. vm_compute. reflexivity. Qed.

(** ** TPDU *)
Lemma tpci_dropped s a : tpdu_packet (make_tpdu s a) = apdu_packet a.
Proof. destruct s; reflexivity. Qed.
Lemma apdu_first a : exists x y rest, apdu_packet a = x :: y :: rest /\ x < 4.
Proof.
  unfold apdu_packet. cbn [apci_packet].
  assert (H : N.shiftr (N.land (apci_code (apdu_apci a)) 12) 2 < 4).
  { rewrite N.shiftr_div_pow2. apply N.div_lt_upper_bound; [lia|]. change (2 ^ 2 * 4) with (2 ^ 4).
    destruct (N.eq_dec (N.land (apci_code (apdu_apci a)) 12) 0) as [->|N0]; [reflexivity|].
    apply N.log2_lt_pow2; [lia|]. eapply N.le_lt_trans; [apply N.log2_land|]. eapply N.le_lt_trans; [apply N.le_min_r|]. reflexivity. }
  destruct (apdu_payload a) as [b|bs]; eexists _, _, _; split; try reflexivity; exact H.
Qed.
Lemma tpci_exact s a : match s with DataConnected seq => seq < 16 | _ => True end ->
  (tpdu_packet (make_tpdu s a) = tpdu_octets s (apdu_packet a) <-> s = DataBroadcast \/ s = DataGroup \/ s = DataIndividual).
Proof.
  intro Hq. rewrite tpci_dropped. destruct (apdu_first a) as (x&y&rest&->&Hx).
  unfold tpdu_octets. split.
  - destruct s; auto; cbn [tpci]; intro H; try discriminate H; injection H as H; exfalso; rewrite N.mod_small in H by exact Hx; lia.
  - intros [->|[->| ->]]; cbn [tpci]; rewrite N.mod_small by exact Hx; reflexivity.
Qed.

(** ** Bus-monitor frames *)
Lemma raw_shifted code infos ctrl src dst npci x y rest check :
  src < 65536 -> dst < 65536 -> byte npci -> byte y -> bytes rest -> byte check ->
  exists i, ldata_ind_from_cemi {| ce_code := code; ce_infos := infos; ce_service := raw_frame ctrl src dst npci (x :: y :: rest) check |} = Ok i /\
    ld_src (li_data i) = src mod 256 * 256 + dst / 256 /\ ld_dest (li_data i) = dst mod 256 * 256 + npci /\
    li_value i = if x <=? 1 then [hd check rest mod 64] else take_padded (N.to_nat (x - 1)) (tl (rest ++ [check])).
Proof.
  intros H2 H3 H4 H5 H6 H7. set (c := {| ce_code := code |}).
  assert (Hz : byte (hd check rest)) by (destruct rest as [|z rest]; [exact H7|apply Forall_inv in H6; exact H6]).
  unfold byte in *.
  assert (E : ce_service c = ldata_bytes ctrl (src / 256) (src mod 256 * 256 + dst / 256) (dst mod 256 * 256 + npci) x
                               (y * 256 + hd check rest) (tl (rest ++ [check]))).
  { cbn [ce_service c]. unfold raw_frame, ldata_bytes, word. cbn [app].
    rewrite !N.div_add_l, !(N.add_comm (_ * 256)), !N.mod_add by lia.
    rewrite !(N.div_small npci), !(N.div_small (hd check rest)), (N.div_small (dst / 256)) by (assumption || apply N.div_lt_upper_bound; lia).
    rewrite !(N.mod_small npci), !(N.mod_small (hd check rest)), (N.mod_small (dst / 256)) by (assumption || apply N.div_lt_upper_bound; lia).
    rewrite !N.add_0_r. destruct rest as [|z rest]; reflexivity. }
  eexists. split.
  - eapply (ldata_ind_value c _ ctrl); [| | |exact E|reflexivity]; pose proof (N.mod_lt src 256); pose proof (N.mod_lt dst 256);
      pose proof (N.div_lt_upper_bound dst 256 256); lia.
  - split; [reflexivity|]. split; [reflexivity|]. cbn [li_value]. destruct (x <=? 1); [|reflexivity].
    f_equal. rewrite N.add_comm. change 256 with (4 * 64). rewrite N.mul_assoc, N.mod_add by lia. reflexivity.
Qed.
Lemma raw_right_iff code infos ctrl src dst npci x y rest check :
  src < 65536 -> dst < 65536 -> byte npci -> byte y -> bytes rest -> byte check ->
  exists i, ldata_ind_from_cemi {| ce_code := code; ce_infos := infos; ce_service := raw_frame ctrl src dst npci (x :: y :: rest) check |} = Ok i /\
    ((ld_src (li_data i) = src /\ ld_dest (li_data i) = dst) <-> src = npci * 257 /\ dst = npci * 257).
Proof.
  intros H2 H3 H4 H5 H6 H7. destruct (raw_shifted code infos ctrl src dst npci x y rest check H2 H3 H4 H5 H6 H7) as (i&E&Es&Ed&_).
  exists i. split; [exact E|]. rewrite Es, Ed. unfold byte in *.
  pose proof (N.div_mod src 256). pose proof (N.div_mod dst 256). pose proof (N.mod_lt src 256). pose proof (N.mod_lt dst 256).
  set (s1 := src / 256) in *. set (s2 := src mod 256) in *. set (d1 := dst / 256) in *. set (d2 := dst mod 256) in *.
  clearbody s1 s2 d1 d2. lia.
Qed.

(** ** Labels and whole percentages *)
Lemma labels_kept p bs :
  (forall d, int_from_bytes bs = Ok d -> d = int_general (in_value d)) /\
  (forall d, byte_from_bytes bs = Ok d -> d = byte_general (by_value d)) /\
  (forall d, word_from_bytes bs = Ok d -> d = word_general (wo_value d)) /\
  (forall d, bit_from_bytes bs = Ok d -> d = bit_general (bi_value d)) /\
  (forall d, float_from_bytes p bs = Ok d -> d = float_general (fl_value d)) /\
  (forall d, float_temp_from_bytes p bs = Ok d -> d = float_temp (fl_value d)).
Proof.
  repeat apply conj; intros d H.
  - destruct bs as [|a [|b bs]]; try discriminate H. injection H as <-. reflexivity.
  - destruct bs as [|a bs]; try discriminate H. injection H as <-. reflexivity.
  - unfold word_from_bytes in H. destruct (read_u16 bs) as [(v,r)| |]; try discriminate H. injection H as <-. reflexivity.
  - destruct bs as [|a bs]; try discriminate H. injection H as <-. reflexivity.
  - unfold float_from_bytes in H. destruct (bytes_to_float p bs); try discriminate H. injection H as <-. reflexivity.
  - unfold float_temp_from_bytes in H. destruct (bytes_to_float p bs); try discriminate H. injection H as <-. reflexivity.
Qed.
Lemma whole_percent n : n <= 100 ->
  sc_value (scaled_scaling (f_of_Z (Z.of_N n))) = (510 * n + 100) / 200 \/
  sc_value (scaled_scaling (f_of_Z (Z.of_N n))) = (510 * n + 100) / 200 + 1.
Proof.
  intro H. pose proof check_wholes as C. rewrite forallb_forall in C. specialize (C n).
  assert (In n (map N.of_nat (List.seq 0 101))) as Hi.
  { apply in_map_iff. exists (N.to_nat n). split; [lia|]. apply in_seq. lia. }
  specialize (C Hi). unfold check_whole in C. cbn zeta in C. set (v := sc_value _) in *. set (w := (_ / 200)) in *. clearbody v w. lia.
Qed.

(** ** Named constructors *)
Lemma counter_sent : forall v rest, (-32768 <= v <= 32767)%Z ->
  let d := int_value_2_count v in
  in_code d = "8.001"%string /\ in_unit d = "pulses"%string /\ wf_pdt (PInt d) /\
  int_get_bytes d = word (Z.to_N (v mod 65536)) /\
  exists w, int_from_bytes (int_get_bytes d ++ rest) = Ok w /\ in_value w = v.
Proof.
  intros v rest H d. split; [reflexivity|]. split; [reflexivity|]. split; [exact H|].
  split; [|exact (int_roundtrip d rest H)].
  rewrite (int_bytes_eq d H). unfold d. cbn [in_value int_value_2_count]. do 2 f_equal.
  destruct (Z.ltb_spec v 0).
  - replace v with ((v + 65536) + (-1) * 65536)%Z at 2 by ring. rewrite Z_mod_plus_full, Z.mod_small by lia. reflexivity.
  - rewrite Z.mod_small by lia. reflexivity.
Qed.
Lemma switch_sent : forall (v : bool) rest,
  let d := bit_switch v in
  bi_code d = "1.001"%string /\ bit_get_bytes d = [if v then 1 else 0] /\
  exists w, bit_from_bytes (bit_get_bytes d ++ rest) = Ok w /\ bi_value w = v.
Proof. intros v rest d. split; [reflexivity|]. split; [reflexivity|]. exact (bit_roundtrip d rest). Qed.
Lemma control_sent : forall (up : bool) step rest,
  let d := b1u3_dimming up step in let b := b1u3_blinds up step in
  b3_code d = "3.007"%string /\ b3_code b = "3.008"%string /\ b1u3_get_bytes d = b1u3_get_bytes b /\
  exists w, b1u3_from_bytes (b1u3_get_bytes d ++ rest) = Ok w /\ b3_bit w = up /\ b3_step w = step mod 8.
Proof.
  intros up step rest d b. split; [reflexivity|]. split; [reflexivity|]. split; [reflexivity|].
  assert (E : b3_step d = step mod 8) by (change (N.land step (N.ones 3) = step mod 2 ^ 3); apply N.land_ones).
  destruct (b1u3_roundtrip d rest) as (w & A & B & C).
  - rewrite E. apply N.mod_lt. discriminate.
  - exists w. split; [exact A|]. split; [exact B|]. rewrite C. exact E.
Qed.
Lemma temperature_sent : forall p v bs d,
  fl_code (float_temp v) = "9.001"%string /\ fl_unit (float_temp v) = "degC"%string /\ fl_value (float_temp v) = v /\
  (float_temp_from_bytes p bs = Ok d <-> exists g, float_from_bytes p bs = Ok g /\ d = float_temp (fl_value g)).
Proof.
  intros p v bs d. split; [reflexivity|]. split; [reflexivity|]. split; [reflexivity|].
  unfold float_temp_from_bytes, float_from_bytes.
  destruct (bytes_to_float p bs) as [x| |]; cbn [bind].
  - split.
    + intros E. injection E as <-. eexists. split; reflexivity.
    + intros (g & E & ->). injection E as <-. reflexivity.
  - split; [discriminate|]. intros (g & E & _). discriminate E.
  - split; [discriminate|]. intros (g & E & _). discriminate E.
Qed.

Lemma service_fields s a : fields_octet (make_tpdu s a) = tpci s /\
  (tp_addr (make_tpdu s a) = TGroup <-> to_group s) /\ tp_apdu (make_tpdu s a) = a.
Proof.
  split; [|split]; [destruct s; reflexivity| |destruct s; reflexivity].
  unfold to_group. destruct s; cbn; split; intro H; try discriminate; auto;
    destruct H as [H|[H|H]]; discriminate H.
Qed.
