(** Combinations of the message lemmas in the form the properties need. *)
From Verif Require Import Base Addresses Apdu Tunneling Emi Core Transport Wire Spec
  BaseProofs CoreProofs EmiProofs ResponseProofs.
Open Scope N_scope.

Lemma cemi_read_known p code (is : list (N * list N)) service :
  Forall (fun i => known_info (fst i)) is ->
  (length (infos_bytes is) <= 255)%nat ->
  exists js, map info_pair js = is /\
    cemi_from_packet p (cemi_bytes code is service) =
    Ok ({| ce_code := code; ce_infos := js; ce_service := service |}, []).
Proof.
  intros H1 H2. destruct (known_infos_lift is H1) as [js E]. exists js. split; [assumption|].
  rewrite <- E. apply cemi_read. rewrite E. assumption.
Qed.
Lemma ind_group_value c c1 c2 src dst apci data :
  src < 65536 -> dst < 65536 -> apci < 65536 -> (1 <= length data <= 254)%nat ->
  ce_service c = ldata_bytes c1 c2 src dst (1 + N.of_nat (length data)) apci data ->
  exists i, ldata_ind_from_cemi c = Ok i /\ li_cemi i = c /\
    ld_src (li_data i) = src /\ ld_dest (li_data i) = dst /\
    ld_frame_type (li_data i) = N.testbit c1 7 /\ ld_repetition (li_data i) = N.testbit c1 5 /\
    ld_system_broadcast (li_data i) = N.testbit c1 4 /\ ld_ack_request (li_data i) = N.testbit c1 1 /\
    li_value i = data.
Proof.
  intros H1 H2 H3 H4 E. eexists. split.
  - apply (ldata_ind_value c _ c1 c2 src dst _ apci data H1 H2 H3 E). reflexivity.
  - cbn. repeat split.
    replace (1 + N.of_nat (length data) <=? 1) with false by lia.
    replace (N.to_nat (1 + N.of_nat (length data) - 1)) with (length data) by lia.
    rewrite <- (app_nil_r data) at 2. apply take_padded_exact.
Qed.
Lemma ind_short_value c c1 c2 src dst len apci rest :
  src < 65536 -> dst < 65536 -> apci < 65536 -> len <= 1 ->
  ce_service c = ldata_bytes c1 c2 src dst len apci rest ->
  exists i, ldata_ind_from_cemi c = Ok i /\ li_cemi i = c /\
    ld_src (li_data i) = src /\ ld_dest (li_data i) = dst /\
    li_value i = [apci mod 64].
Proof.
  intros H1 H2 H3 H4 E. eexists. split.
  - apply (ldata_ind_value c _ c1 c2 src dst _ apci rest H1 H2 H3 E). reflexivity.
  - cbn. repeat split. replace (len <=? 1) with true by lia. reflexivity.
Qed.
Lemma ind_value_nonempty c i : bytes (ce_service c) -> ldata_ind_from_cemi c = Ok i -> li_value i <> [].
Proof.
  intros Hb H.
  assert (L : (9 <= length (ce_service c))%nat).
  { destruct (Nat.le_gt_cases 9 (length (ce_service c))); [assumption|].
    apply ldata_ind_err_iff in H0. congruence. }
  destruct (service_nine _ Hb L) as [c1 [c2 [src [dst [len [apci [data [A [B [C E]]]]]]]]]].
  apply (ldata_ind_value c i c1 c2 src dst len apci data A B C E) in H. rewrite H. cbn [li_value].
  destruct (N.leb_spec len 1); [discriminate|].
  intro X. apply (f_equal (@length N)) in X. rewrite take_padded_length in X. cbn in X. lia.
Qed.

(** The request as a whole, for the APDUs of the API. *)
Lemma write_apdu_length data a : group_value_write data false = Ok a -> length (apdu_packet a) = (2 + length data)%nat.
Proof. intro H. rewrite (group_write_big _ _ H), app_length, length_word. reflexivity. Qed.
Lemma read_request p dest prio :
  wf_addr dest ->
  ldata_req_packet p (set_priority (ldata_req_new dest (t_data_group group_value_read)) prio) =
  Ok (cemi_bytes 0x11 [] (ldata_bytes (0xb0 + 4 * (prio mod 4)) 0xe0 0 (addr_to_u16 dest) 1 apci_group_read [])).
Proof.
  intro H. rewrite ldata_req_packet_eq; [reflexivity|apply addr_to_u16_bound; assumption|].
  cbn. lia.
Qed.
Lemma write_request p dest prio data a :
  wf_addr dest -> (length data <= 253)%nat -> group_value_write data false = Ok a ->
  ldata_req_packet p (set_priority (ldata_req_new dest (t_data_group a)) prio) =
  Ok (cemi_bytes 0x11 [] (ldata_bytes (0xb0 + 4 * (prio mod 4)) 0xe0 0 (addr_to_u16 dest)
        (1 + N.of_nat (length data)) apci_group_write data)).
Proof.
  intros H L E. pose proof (write_apdu_length _ _ E) as LA. pose proof (group_write_big _ _ E) as EA.
  rewrite ldata_req_packet_eq; [|apply addr_to_u16_bound; assumption|].
  - cbn [set_priority ldata_req_new lr_priority lr_dest lr_tpdu]. unfold tpdu_packet, t_data_group. cbn [tp_apdu].
    unfold lenN. rewrite LA, EA. replace (N.of_nat (2 + length data) - 1) with (1 + N.of_nat (length data)) by lia.
    reflexivity.
  - cbn [set_priority ldata_req_new lr_tpdu]. unfold tpdu_packet, t_data_group. cbn [tp_apdu]. lia.
Qed.
Lemma small_write_request p dest prio b data a :
  wf_addr dest -> group_value_write (b :: data) true = Ok a ->
  ldata_req_packet p (set_priority (ldata_req_new dest (t_data_group a)) prio) =
  Ok (cemi_bytes 0x11 [] (ldata_bytes (0xb0 + 4 * (prio mod 4)) 0xe0 0 (addr_to_u16 dest) 1
        (apci_group_write + b mod 64) [])).
Proof.
  intros H E. pose proof (group_write_small _ _ _ E) as EA.
  rewrite ldata_req_packet_eq; [|apply addr_to_u16_bound; assumption|].
  - cbn [set_priority ldata_req_new lr_priority lr_dest lr_tpdu]. unfold tpdu_packet, t_data_group. cbn [tp_apdu].
    rewrite EA. reflexivity.
  - cbn [set_priority ldata_req_new lr_tpdu]. unfold tpdu_packet, t_data_group. cbn [tp_apdu]. rewrite EA, length_word. lia.
Qed.
Lemma req_control2 p m pkt : addr_to_u16 (lr_dest m) < 65536 ->
  ldata_req_packet p m = Ok pkt -> nth 3 pkt 0 = 0xe0 /\ N.testbit (nth 3 pkt 0) 7 = true.
Proof.
  intros H E. rewrite ldata_req_len in E by assumption.
  destruct (_ =? 0) in E; [destruct p; [discriminate|]|]; injection E as <-; split; reflexivity.
Qed.
Lemma oversized p m : addr_to_u16 (lr_dest m) < 65536 ->
  256 <= lenN (tpdu_packet (lr_tpdu m)) ->
  ldata_req_packet p m = Panic \/
  exists pkt, ldata_req_packet p m = Ok pkt /\ nth 8 pkt 0 < 256 /\ skipn 9 pkt = tpdu_packet (lr_tpdu m) /\
    (nth 8 pkt 0 = lenN (tpdu_packet (lr_tpdu m)) - 1 <-> lenN (tpdu_packet (lr_tpdu m)) = 256).
Proof.
  intros H L. rewrite ldata_req_len by assumption.
  destruct (N.eqb_spec (lenN (tpdu_packet (lr_tpdu m)) mod 256) 0) as [E|E].
  - destruct p; [left; reflexivity|right]. eexists; split; [reflexivity|].
    cbn [app word nth skipn]. repeat split; try lia.
  - right. eexists; split; [reflexivity|]. cbn [app word nth skipn]. repeat split; try lia.
Qed.
