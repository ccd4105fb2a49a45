(** Combinations of the codec lemmas in the form the properties need. *)
From Verif Require Import Base Addresses Tunneling Emi Core Transport Wire Spec
  BaseProofs CoreProofs DibProofs EmiProofs ResponseProofs.
Open Scope N_scope.

Lemma header_accept_iff bs :
  bytes bs ->
  ((exists h rest, header_from_packet bs = Ok (h, rest)) <->
   firstn 2 bs = [0x06; 0x10] /\ (6 <= length bs)%nat).
Proof.
  intro Hb. split.
  - intros [h [rest H]]. apply header_decode_iff in H; [|assumption]. destruct H as [_ [_ ->]].
    split; [reflexivity|]. cbn [length app word]. lia.
  - intros [H1 H2]. destruct bs as [|x [|y [|a [|b [|c [|d rest]]]]]]; cbn [length] in H2; try lia.
    injection H1 as -> ->. eexists; eexists. reflexivity.
Qed.
Lemma connstate_request_both c :
  wf_hpai (sq_endpoint c) -> byte (sq_chan c) ->
  connstate_request_packet c =
  frame 0x0207 ([sq_chan c; 0] ++ hpai_bytes (hp_code (sq_endpoint c)) (hp_ip (sq_endpoint c)) (hp_port (sq_endpoint c))) /\
  valid_frame 0x0207 (connstate_request_packet c).
Proof.
  intros H1 H2. rewrite connstate_request_frame by assumption. split; [reflexivity|].
  apply chan_hpai_valid; [reflexivity|assumption..].
Qed.
Lemma disconnect_request_both c :
  wf_hpai (dq_endpoint c) -> byte (dq_chan c) ->
  disconnect_request_packet c =
  frame 0x0209 ([dq_chan c; 0] ++ hpai_bytes (hp_code (dq_endpoint c)) (hp_ip (dq_endpoint c)) (hp_port (dq_endpoint c))) /\
  valid_frame 0x0209 (disconnect_request_packet c).
Proof.
  intros H1 H2. rewrite disconnect_request_frame by assumption. split; [reflexivity|].
  apply chan_hpai_valid; [reflexivity|assumption..].
Qed.
Lemma connstate_response_both c :
  byte (ss_chan c) -> byte (ss_status c) ->
  connstate_response_packet c = frame 0x0208 [ss_chan c; ss_status c] /\
  valid_frame 0x0208 (connstate_response_packet c).
Proof.
  intros H1 H2. rewrite connstate_response_frame. split; [reflexivity|].
  apply two_byte_valid; [reflexivity|assumption..].
Qed.
Lemma disconnect_response_both c :
  byte (ds_chan c) -> byte (ds_status c) ->
  disconnect_response_packet c = frame 0x020a [ds_chan c; ds_status c] /\
  valid_frame 0x020a (disconnect_response_packet c).
Proof.
  intros H1 H2. rewrite disconnect_response_frame. split; [reflexivity|].
  apply two_byte_valid; [reflexivity|assumption..].
Qed.
Lemma tunneling_request_both p t :
  lenN (tr_cemi t) <= 65525 -> byte (tr_chan t) -> byte (tr_seq t) -> bytes (tr_cemi t) ->
  tunneling_request_packet p t = Ok (frame 0x0420 ([4; tr_chan t; tr_seq t; 0] ++ tr_cemi t)) /\
  valid_frame 0x0420 (frame 0x0420 ([4; tr_chan t; tr_seq t; 0] ++ tr_cemi t)).
Proof.
  intros H1 H2 H3 H4. pose proof (tunneling_request_frame p t H1) as E. split; [assumption|].
  destruct (tunneling_request_valid p t H1 H2 H3 H4) as [bs [E' V]]. congruence.
Qed.
Lemma connection_response_refuted :
  (exists r, wf_hpai (cr_endpoint r) /\ ~ In (cr_status r) [0x22; 0x23; 0x24; 0x29] /\
     connection_response_from_packet (connection_response_packet r) = Err) /\
  (forall r rest, wf_hpai (cr_endpoint r) -> hp_code (cr_endpoint r) <> 8 ->
     connection_response_from_packet (connection_response_packet r ++ rest) = Err).
Proof.
  split.
  - exists {| cr_chan := 21; cr_status := 0; cr_endpoint := hpai_udp; cr_crd := {| ia_area := 1; ia_line := 1; ia_address := 1 |} |}.
    split; [apply wf_hpai_udp|]. split; [|reflexivity]. cbn. intuition discriminate.
  - exact connection_response_own_rejected.
Qed.
Lemma connstate_response_roundtrip c rest :
  byte (ss_chan c) -> byte (ss_status c) -> bytes rest ->
  connstate_response_from_packet (connstate_response_packet c ++ rest) = Ok (c, rest).
Proof.
  intros H1 H2 H3. apply connstate_response_decode_iff; rewrite connstate_response_frame; [|reflexivity].
  apply bytes_app; split; [|assumption]. apply two_byte_valid; [reflexivity|assumption..].
Qed.
Lemma disconnect_response_roundtrip c rest :
  byte (ds_chan c) -> byte (ds_status c) -> bytes rest ->
  disconnect_response_from_packet (disconnect_response_packet c ++ rest) = Ok (c, rest).
Proof.
  intros H1 H2 H3. apply disconnect_response_decode_iff; rewrite disconnect_response_frame; [|reflexivity].
  apply bytes_app; split; [|assumption]. apply two_byte_valid; [reflexivity|assumption..].
Qed.
Lemma tunneling_ack_roundtrip a rest :
  byte (ta_chan a) -> byte (ta_seq a) -> byte (ta_status a) -> bytes rest ->
  tunneling_ack_from_packet (tunneling_ack_packet a ++ rest) = Ok (a, rest).
Proof.
  intros H1 H2 H3 H4. apply tunneling_ack_decode_iff; [|rewrite tunneling_ack_frame; reflexivity].
  apply bytes_app; split; [|assumption]. exact (proj1 (tunneling_ack_valid a H1 H2 H3)).
Qed.
Lemma disconnect_request_refuted c :
  wf_hpai (dq_endpoint c) ->
    disconnect_request_packet c =
      frame 0x0209 ([dq_chan c; 0] ++ hpai_bytes (hp_code (dq_endpoint c)) (hp_ip (dq_endpoint c)) (hp_port (dq_endpoint c))) /\
    parse_response (disconnect_request_packet c) = Err /\
    parse_response (recv_buffer (disconnect_request_packet c)) = Err.
Proof.
  intro H. split; [apply disconnect_request_frame; assumption|].
  split; reflexivity.
Qed.
Lemma search_requests_sent ip port :
  search_request_packet search_request_udp = frame 0x0201 (hpai_bytes 1 [224; 0; 23; 12] 3671) /\
  (ipv4 ip -> port < 65536 ->
   search_request_packet (search_request_unicast ip port) = frame 0x0201 (hpai_bytes 1 ip port)).
Proof.
  split; [vm_compute; reflexivity|]. intros [H1 H2] H3.
  rewrite search_request_frame; [reflexivity|].
  repeat split; cbn; assumption.
Qed.
Lemma tunneling_request_too_long p t :
  65526 <= lenN (tr_cemi t) < 65536 ->
  tunneling_request_packet p t =
  match p with
  | Debug => Panic
  | Release => Ok ([0x06; 0x10; 0x04; 0x20] ++ word (lenN (tr_cemi t) - 65526) ++ [4; tr_chan t; tr_seq t; 0] ++ tr_cemi t)
  end.
Proof.
  intro H. unfold tunneling_request_packet, add_chk, as_u16, u16_max1.
  replace (lenN (tr_cemi t) mod 65536) with (lenN (tr_cemi t)) by lia.
  replace (10 + lenN (tr_cemi t) <? 65536) with false by lia.
  destruct p; [reflexivity|]. cbn [bind].
  replace ((10 + lenN (tr_cemi t)) mod 65536) with (lenN (tr_cemi t) - 65526) by lia.
  rewrite be16_word by lia. reflexivity.
Qed.
Lemma other_decoders_np bs c :
  connection_response_from_packet bs <> Panic /\ connstate_request_from_packet bs <> Panic /\
  connstate_response_from_packet bs <> Panic /\ disconnect_request_from_packet bs <> Panic /\
  disconnect_response_from_packet bs <> Panic /\ search_request_from_packet bs <> Panic /\
  header_from_packet bs <> Panic /\ hpai_from_packet bs <> Panic /\
  tunneling_ack_from_packet bs <> Panic /\ feature_resp_from_packet bs <> Panic /\
  ldata_ind_from_cemi c <> Panic /\ ldata_con_from_cemi c <> Panic.
Proof.
  repeat split; [apply np_connection_response|apply np_connstate_request|apply np_connstate_response
    |apply np_disconnect_request|apply np_disconnect_response|apply np_search_request|apply np_header
    |apply np_hpai|apply np_tunneling_ack|apply np_feature_resp|apply ldata_ind_np|apply ldata_con_np].
Qed.
Lemma parse_response_iff bs r : bytes bs -> (parse_response bs = Ok r <-> looks_like bs r).
Proof. intro H. split; [apply parse_response_sound|apply parse_response_complete]; assumption. Qed.
