(** Properties C01-C19 and C48: KNXnet/IP datagrams.  Nothing but statements:
    the proofs are in CoreProofs.v, DibProofs.v, ResponseProofs.v. *)
From Verif Require Import Base Addresses Tunneling Emi Core Transport Wire Spec
  BaseProofs CoreProofs DibProofs EmiProofs ResponseProofs CodecMore CodecLength PartialMore.
Open Scope N_scope.

(** ** C01 *)
Theorem C01_hpai_roundtrip : forall h rest,
  wf_hpai h -> hpai_from_packet (hpai_packet h ++ rest) = Ok (h, rest).
Proof. exact hpai_roundtrip. Qed.
Theorem C01_hpai_bytes : forall h,
  hp_port h < 65536 -> hpai_packet h = hpai_bytes (hp_code h) (hp_ip h) (hp_port h).
Proof. exact hpai_packet_eq. Qed.
Theorem C01_hpai_decode_exact : forall bs h rest,
  bytes bs ->
  (hpai_from_packet bs = Ok (h, rest) <->
   wf_hpai h /\ bs = hpai_bytes (hp_code h) (hp_ip h) (hp_port h) ++ rest).
Proof. exact hpai_decode_iff. Qed.
Theorem C01_hpai_accepts : forall bs,
  bytes bs ->
  ((exists h rest, hpai_from_packet bs = Ok (h, rest)) <-> hd 0 bs = 8 /\ (8 <= length bs)%nat).
Proof. exact hpai_accept_iff. Qed.
Definition gateway : hpai := {| hp_code := 1; hp_ip := [192; 168; 1; 7]; hp_port := 3671 |}.
Example C01_example :
  wf_hpai gateway /\ hpai_packet gateway = [8; 1; 192; 168; 1; 7; 14; 87] /\
  hpai_from_packet [8; 1; 192; 168; 1; 7; 14; 87; 99] = Ok (gateway, [99]).
Proof. repeat split; try (repeat constructor; fail); vm_compute; reflexivity. Qed.

(** ** C02 *)
Theorem C02_header_roundtrip : forall h rest,
  h_service h < 65536 -> h_total h < 65536 ->
  header_from_packet (header_packet h ++ rest) = Ok (h, rest).
Proof. exact header_roundtrip. Qed.
Theorem C02_header_decode_exact : forall bs h rest,
  bytes bs ->
  (header_from_packet bs = Ok (h, rest) <->
   h_service h < 65536 /\ h_total h < 65536 /\
   bs = [0x06; 0x10] ++ word (h_service h) ++ word (h_total h) ++ rest).
Proof. exact header_decode_iff. Qed.
Theorem C02_header_accepts : forall bs,
  bytes bs ->
  ((exists h rest, header_from_packet bs = Ok (h, rest)) <->
   firstn 2 bs = [0x06; 0x10] /\ (6 <= length bs)%nat).
Proof. exact header_accept_iff. Qed.
Example C02_example : header_from_packet [6; 16; 2; 2; 0; 80; 8] = Ok ({| h_service := 0x0202; h_total := 80 |}, [8]).
Proof. reflexivity. Qed.

(** ** C03 *)
Theorem C03_connection_request : forall c,
  wf_hpai (cq_control c) -> wf_hpai (cq_data c) -> byte (cq_cri c) ->
  connection_request_packet c =
  frame 0x0205 (hpai_bytes (hp_code (cq_control c)) (hp_ip (cq_control c)) (hp_port (cq_control c))
                ++ hpai_bytes (hp_code (cq_data c)) (hp_ip (cq_data c)) (hp_port (cq_data c))
                ++ [4; 4; cq_cri c; 0]) /\
  valid_frame 0x0205 (connection_request_packet c).
Proof. intros c H1 H2 H3. exact (conj (connection_request_frame c H1 H2 H3) (connection_request_valid c H1 H2 H3)). Qed.
(** The two connection requests that are ever sent. *)
Theorem C03_connection_requests_sent :
  connection_request_packet connection_request_tunnel =
    frame 0x0205 (hpai_bytes 1 [0;0;0;0] 0 ++ hpai_bytes 1 [0;0;0;0] 0 ++ [4; 4; 0x02; 0]) /\
  connection_request_packet connection_request_busmonitor =
    frame 0x0205 (hpai_bytes 1 [0;0;0;0] 0 ++ hpai_bytes 1 [0;0;0;0] 0 ++ [4; 4; 0x80; 0]).
Proof. split; vm_compute; reflexivity. Qed.
Theorem C03_connstate_request : forall c,
  wf_hpai (sq_endpoint c) -> byte (sq_chan c) ->
  connstate_request_packet c =
  frame 0x0207 ([sq_chan c; 0] ++ hpai_bytes (hp_code (sq_endpoint c)) (hp_ip (sq_endpoint c)) (hp_port (sq_endpoint c))) /\
  valid_frame 0x0207 (connstate_request_packet c).
Proof. exact connstate_request_both. Qed.
Theorem C03_disconnect_request : forall c,
  wf_hpai (dq_endpoint c) -> byte (dq_chan c) ->
  disconnect_request_packet c =
  frame 0x0209 ([dq_chan c; 0] ++ hpai_bytes (hp_code (dq_endpoint c)) (hp_ip (dq_endpoint c)) (hp_port (dq_endpoint c))) /\
  valid_frame 0x0209 (disconnect_request_packet c).
Proof. exact disconnect_request_both. Qed.
Theorem C03_connstate_response : forall c,
  byte (ss_chan c) -> byte (ss_status c) ->
  connstate_response_packet c = frame 0x0208 [ss_chan c; ss_status c] /\
  valid_frame 0x0208 (connstate_response_packet c).
Proof. exact connstate_response_both. Qed.
Theorem C03_disconnect_response : forall c,
  byte (ds_chan c) -> byte (ds_status c) ->
  disconnect_response_packet c = frame 0x020a [ds_chan c; ds_status c] /\
  valid_frame 0x020a (disconnect_response_packet c).
Proof. exact disconnect_response_both. Qed.
Theorem C03_search_request : forall e,
  wf_hpai e ->
  search_request_packet e = frame 0x0201 (hpai_bytes (hp_code e) (hp_ip e) (hp_port e)) /\
  valid_frame 0x0201 (search_request_packet e).
Proof. intros e H. exact (conj (search_request_frame e H) (search_request_valid e H)). Qed.
Theorem C03_tunneling_request : forall p t,
  lenN (tr_cemi t) <= 65525 -> byte (tr_chan t) -> byte (tr_seq t) -> bytes (tr_cemi t) ->
  tunneling_request_packet p t = Ok (frame 0x0420 ([4; tr_chan t; tr_seq t; 0] ++ tr_cemi t)) /\
  valid_frame 0x0420 (frame 0x0420 ([4; tr_chan t; tr_seq t; 0] ++ tr_cemi t)).
Proof. exact tunneling_request_both. Qed.
Theorem C03_tunneling_ack : forall a,
  byte (ta_chan a) -> byte (ta_seq a) -> byte (ta_status a) ->
  tunneling_ack_packet a = frame 0x0421 [4; ta_chan a; ta_seq a; ta_status a] /\
  valid_frame 0x0421 (tunneling_ack_packet a).
Proof. intros a H1 H2 H3. exact (conj (tunneling_ack_frame a) (tunneling_ack_valid a H1 H2 H3)). Qed.
Theorem C03_feature_set : forall f,
  byte (fs_chan f) -> byte (fs_seq f) -> byte (fs_value f) ->
  feature_set_packet f =
    frame 0x0424 [4; fs_chan f; fs_seq f; 0; feature_number (fs_feature f); 0; fs_value f] /\
  valid_frame 0x0424 (feature_set_packet f).
Proof. intros f H1 H2 H3. exact (conj (feature_set_frame f) (feature_set_valid f H1 H2 H3)). Qed.
Example C03_example :
  tunneling_request_packet Debug {| tr_chan := 5; tr_seq := 7; tr_cemi := [0x11; 0; 0xbc; 0xe0] |} =
  Ok [6; 16; 4; 32; 0; 14; 4; 5; 7; 0; 0x11; 0; 0xbc; 0xe0].
Proof. reflexivity. Qed.

(** ** C04 *)
Theorem C04_connection_response_decode_exact : forall bs r rest,
  bytes bs ->
  (connection_response_from_packet bs = Ok (r, rest) <->
   exists size n,
     8 <= size < 65536 /\ n < 65536 /\
     bs = [0x06; 0x10] ++ word 0x0206 ++ word size ++ [cr_chan r; cr_status r]
          ++ hpai_bytes (hp_code (cr_endpoint r)) (hp_ip (cr_endpoint r)) (hp_port (cr_endpoint r))
          ++ [4; 4] ++ word n ++ rest /\
     wf_hpai (cr_endpoint r) /\
     ~ In (cr_status r) [0x22; 0x23; 0x24; 0x29] /\
     cr_crd r = {| ia_area := n / 4096; ia_line := n / 256 mod 16; ia_address := n mod 256 |}).
Proof. exact connection_response_decode_iff. Qed.
Definition granted : list N := frame 0x0206 ([21; 0] ++ hpai_bytes 1 [192; 168; 1; 7] 3671 ++ [4; 4] ++ word 0x1101).
Example C04_example :
  connection_response_from_packet granted =
  Ok ({| cr_chan := 21; cr_status := 0; cr_endpoint := gateway;
         cr_crd := {| ia_area := 1; ia_line := 1; ia_address := 1 |} |}, []).
Proof. vm_compute. reflexivity. Qed.

(** ** C05: false.  No connection response with a usual status comes back. *)
Definition conn_resp : connection_response :=
  {| cr_chan := 21; cr_status := 0; cr_endpoint := gateway; cr_crd := {| ia_area := 1; ia_line := 1; ia_address := 1 |} |}.
Theorem C05_connection_response_roundtrip_refuted :
  (exists r, wf_hpai (cr_endpoint r) /\ ~ In (cr_status r) [0x22; 0x23; 0x24; 0x29] /\
     connection_response_from_packet (connection_response_packet r) = Err) /\
  (forall r rest, wf_hpai (cr_endpoint r) -> hp_code (cr_endpoint r) <> 8 ->
     connection_response_from_packet (connection_response_packet r ++ rest) = Err).
Proof. exact connection_response_refuted. Qed.
(** Of no response at all, without any condition on its fields. *)
Theorem C05_never_back : forall r rest,
  connection_response_from_packet (connection_response_packet r ++ rest) <> Ok (r, rest).
Proof. exact connection_response_never. Qed.
Example C05_example :
  connection_response_packet conn_resp = [6; 16; 2; 6; 8; 21; 0; 8; 1; 192; 168; 1; 7; 14; 87; 4; 4; 0x11; 1].
Proof. reflexivity. Qed.

(** ** C06 *)
Theorem C06_connstate_request_roundtrip : forall c rest,
  wf_hpai (sq_endpoint c) -> connstate_request_from_packet (connstate_request_packet c ++ rest) = Ok (c, rest).
Proof. exact connstate_request_roundtrip. Qed.
Theorem C06_connstate_request_decode_exact : forall bs r rest,
  bytes bs ->
  (connstate_request_from_packet bs = Ok (r, rest) <->
   exists size pad, size < 65536 /\ wf_hpai (sq_endpoint r) /\
     bs = [0x06; 0x10] ++ word 0x0207 ++ word size ++ [sq_chan r; pad]
          ++ hpai_bytes (hp_code (sq_endpoint r)) (hp_ip (sq_endpoint r)) (hp_port (sq_endpoint r)) ++ rest).
Proof. exact connstate_request_decode_iff. Qed.
Theorem C06_connstate_response_decode_exact : forall bs r rest,
  bytes bs ->
  (connstate_response_from_packet bs = Ok (r, rest) <-> bs = frame 0x0208 [ss_chan r; ss_status r] ++ rest).
Proof. exact connstate_response_decode_iff. Qed.
Theorem C06_connstate_response_roundtrip : forall c rest,
  byte (ss_chan c) -> byte (ss_status c) -> bytes rest ->
  connstate_response_from_packet (connstate_response_packet c ++ rest) = Ok (c, rest).
Proof. exact connstate_response_roundtrip. Qed.
Example C06_example :
  connstate_response_from_packet [6; 16; 2; 8; 0; 8; 21; 0] = Ok ({| ss_chan := 21; ss_status := 0 |}, []) /\
  connstate_response_from_packet [6; 16; 2; 8; 0; 9; 21; 0] = Err.
Proof. split; reflexivity. Qed.

(** ** C07 *)
Theorem C07_disconnect_response_roundtrip : forall c rest,
  byte (ds_chan c) -> byte (ds_status c) -> bytes rest ->
  disconnect_response_from_packet (disconnect_response_packet c ++ rest) = Ok (c, rest).
Proof. exact disconnect_response_roundtrip. Qed.
Theorem C07_disconnect_response_decode_exact : forall bs r rest,
  bytes bs ->
  (disconnect_response_from_packet bs = Ok (r, rest) <-> bs = frame 0x020a [ds_chan r; ds_status r] ++ rest).
Proof. exact disconnect_response_decode_iff. Qed.
Theorem C07_disconnect_response_of_request : forall r,
  disconnect_response_packet (disconnect_response_of_request r) = frame 0x020a [dq_chan r; 0].
Proof. intro r. reflexivity. Qed.
Example C07_example :
  disconnect_response_from_packet [6; 16; 2; 10; 0; 8; 21; 0] = Ok ({| ds_chan := 21; ds_status := 0 |}, []).
Proof. reflexivity. Qed.

(** ** C08: false.  No disconnect request frame is ever understood. *)
Theorem C08_disconnect_request_understood_refuted :
  forall c, wf_hpai (dq_endpoint c) ->
    disconnect_request_packet c =
      frame 0x0209 ([dq_chan c; 0] ++ hpai_bytes (hp_code (dq_endpoint c)) (hp_ip (dq_endpoint c)) (hp_port (dq_endpoint c))) /\
    parse_response (disconnect_request_packet c) = Err /\
    parse_response (recv_buffer (disconnect_request_packet c)) = Err.
Proof. exact disconnect_request_refuted. Qed.
Example C08_example :
  wf_hpai gateway /\ parse_response (disconnect_request_packet {| dq_chan := 21; dq_endpoint := gateway |}) = Err.
Proof. split; [repeat constructor|reflexivity]. Qed.

(** ** C09 *)
Theorem C09_search_request_roundtrip : forall e rest,
  wf_hpai e -> search_request_from_packet (search_request_packet e ++ rest) = Ok (e, rest).
Proof. exact search_request_roundtrip. Qed.
Theorem C09_search_request_decode_exact : forall bs e rest,
  bytes bs ->
  (search_request_from_packet bs = Ok (e, rest) <->
   exists size, size < 65536 /\ wf_hpai e /\
     bs = [0x06; 0x10] ++ word 0x0201 ++ word size ++ hpai_bytes (hp_code e) (hp_ip e) (hp_port e) ++ rest).
Proof. exact search_request_decode_iff. Qed.
Theorem C09_search_requests_sent : forall ip port,
  search_request_packet search_request_udp = frame 0x0201 (hpai_bytes 1 [224; 0; 23; 12] 3671) /\
  (ipv4 ip -> port < 65536 ->
   search_request_packet (search_request_unicast ip port) = frame 0x0201 (hpai_bytes 1 ip port)).
Proof. exact search_requests_sent. Qed.
Example C09_example :
  search_request_from_packet [6; 16; 2; 1; 0; 14; 8; 1; 224; 0; 23; 12; 14; 87] = Ok (search_request_udp, []).
Proof. reflexivity. Qed.

(** ** C10 *)
Theorem C10_search_response_decode : forall p c m st addr project serial multicast mac name fs rest,
  wf_hpai c -> addr < 65536 -> project < 65536 ->
  length serial = 6%nat -> length multicast = 4%nat -> length mac = 6%nat -> length name = 30%nat ->
  (length fs <= 126)%nat ->
  search_response_from_packet p
    (frame 0x0202 (hpai_bytes (hp_code c) (hp_ip c) (hp_port c)
                   ++ block 0x01 (device_body (medium_number m) st addr project serial multicast mac name)
                   ++ block 0x02 (family_body fs)) ++ rest) =
  Ok ({| sr_control := c;
         sr_device := {| di_len := 54; di_medium := m; di_status := st mod 2;
                         di_addr := {| ia_area := addr / 4096; ia_line := addr / 256 mod 16; ia_address := addr mod 256 |};
                         di_project := project; di_serial := serial; di_multicast := multicast;
                         di_mac := mac; di_name := name |};
         sr_families := {| sf_len := 2 + 2 * N.of_nat (length fs); sf_list := fs |} |}, rest).
Proof. exact search_response_read. Qed.
Definition search_frame : list N :=
  frame 0x0202 (hpai_bytes 1 [192; 168; 1; 7] 3671
    ++ block 0x01 (device_body 0x02 1 0x1101 0 [0; 0xc5; 1; 2; 3; 4] [224; 0; 23; 12] [0; 36; 109; 1; 2; 3] (repeat 65 30))
    ++ block 0x02 (family_body [(2, 1); (3, 2); (4, 1)])).
Example C10_example : length search_frame = 76%nat /\
  exists r, search_response_from_packet Debug search_frame = Ok (r, []) /\
    sf_list (sr_families r) = [(2, 1); (3, 2); (4, 1)] /\ di_addr (sr_device r) = {| ia_area := 1; ia_line := 1; ia_address := 1 |}.
Proof. split; [reflexivity|]. eexists. split; [vm_compute; reflexivity|]. split; reflexivity. Qed.

(** ** C11: false.  What is written is never read back while programming mode is off. *)
Theorem C11_search_response_roundtrip_refuted : forall p s rest,
  wf_hpai (sr_control s) -> di_status (sr_device s) = 0 ->
  search_response_from_packet p (search_response_packet s ++ rest) = Err.
Proof. exact search_response_own_rejected. Qed.
(** Nor otherwise: no response at all is read back. *)
Theorem C11_never_back : forall p s rest,
  search_response_from_packet p (search_response_packet s ++ rest) <> Ok (s, rest).
Proof. exact search_response_never. Qed.
Definition search_resp : search_response :=
  {| sr_control := gateway;
     sr_device := {| di_len := 54; di_medium := TP1; di_status := 0; di_addr := {| ia_area := 1; ia_line := 1; ia_address := 1 |};
                     di_project := 0; di_serial := repeat 1 6; di_multicast := [224; 0; 23; 12]; di_mac := repeat 2 6; di_name := repeat 65 30 |};
     sr_families := {| sf_len := 8; sf_list := [(2, 1); (3, 2); (4, 1)] |} |}.
Example C11_example : wf_hpai (sr_control search_resp) /\ di_status (sr_device search_resp) = 0 /\ wf_device (sr_device search_resp).
Proof. vm_compute. repeat split; repeat constructor; discriminate. Qed.

(** ** C12: holds for four of the six kinds. *)
Theorem C12_dib_roundtrip_partial :
  (forall p d rest, wf_device d -> di_len d = 54 ->
     dib_from_packet p (dib_packet (DibDevice d) ++ rest) = Ok (DibDevice d, rest)) /\
  (forall p d rest, (length (sf_list d) <= 126)%nat -> sf_len d = 2 + 2 * N.of_nat (length (sf_list d)) ->
     dib_from_packet p (dib_packet (DibFamilies d) ++ rest) = Ok (DibFamilies d, rest)) /\
  (forall p d rest, length (ic_ip d) = 4%nat -> length (ic_mask d) = 4%nat -> length (ic_gateway d) = 4%nat -> ic_len d = 16 ->
     dib_from_packet p (dib_packet (DibIpConfig d) ++ rest) = Ok (DibIpConfig d, rest)) /\
  (forall p d rest, length (iu_ip d) = 4%nat -> length (iu_mask d) = 4%nat -> length (iu_gateway d) = 4%nat ->
     length (iu_dhcp d) = 4%nat -> iu_len d = 20 ->
     dib_from_packet p (dib_packet (DibIpCurrent d) ++ rest) = Ok (DibIpCurrent d, rest)).
Proof. exact (conj dib_device_roundtrip (conj dib_families_roundtrip (conj dib_ip_config_roundtrip dib_ip_current_roundtrip))). Qed.
(** The layout of every block that is written: length octet, type, contents,
    padded to an even number of octets. *)
Theorem C12_dib_layout : forall d,
  2 + lenN (snd (dib_body d)) < 256 ->
  dib_packet d = block (type_code_num (fst (dib_body d))) (snd (dib_body d))
                 ++ (if N.odd (2 + lenN (snd (dib_body d))) then [0] else []).
Proof. exact dib_packet_block. Qed.
Theorem C12_dib_roundtrip_refuted :
  (forall p d, md_id d < 65536 -> lenN (md_data d) <= 251 ->
     dib_from_packet p (dib_packet (DibManufacturer d)) = Err) /\
  (forall p d, length (ka_addr d) = 4%nat -> Forall (fun a => length a = 4%nat) (ka_more d) ->
     (length (ka_more d) <= 62)%nat -> dib_from_packet p (dib_packet (DibAddresses d)) = Err).
Proof. exact (conj dib_manufacturer_rejected dib_addresses_rejected). Qed.
Example C12_example :
  wf_device (sr_device search_resp) /\
  dib_from_packet Debug (dib_packet (DibDevice (sr_device search_resp)) ++ [9]) = Ok (DibDevice (sr_device search_resp), [9]) /\
  dib_packet (DibManufacturer {| md_len := 7; md_id := 0x00c5; md_data := [1; 2; 3] |}) = [7; 0xfe; 0; 0xc5; 1; 2; 3; 0] /\
  dib_from_packet Debug [7; 0xfe; 0; 0xc5; 1; 2; 3; 0] = Err.
Proof. vm_compute. repeat split; repeat constructor; discriminate. Qed.

(** ** C13 *)
Theorem C13_tunneling_request_roundtrip : forall p t rest bs,
  lenN (tr_cemi t) <= 65525 ->
  tunneling_request_packet p t = Ok bs ->
  tunneling_request_from_packet (bs ++ rest) = Ok (t, rest).
Proof. exact tunneling_request_roundtrip. Qed.
Theorem C13_tunneling_request_decode_exact : forall bs t rest,
  bytes bs ->
  (tunneling_request_from_packet bs = Ok (t, rest) <->
   exists size pad tail,
     10 <= size < 65536 /\
     bs = [0x06; 0x10] ++ word 0x0420 ++ word size ++ [4; tr_chan t; tr_seq t; pad] ++ tail /\
     tr_cemi t = take_padded (N.to_nat (size - 10)) tail /\
     rest = skipn (N.to_nat (size - 10)) tail).
Proof. exact tunneling_request_decode_iff. Qed.
(** Above that size the length field is wrong or the call panics. *)
Theorem C13_tunneling_request_too_long : forall p t,
  65526 <= lenN (tr_cemi t) < 65536 ->
  tunneling_request_packet p t =
  match p with
  | Debug => Panic
  | Release => Ok ([0x06; 0x10; 0x04; 0x20] ++ word (lenN (tr_cemi t) - 65526) ++ [4; tr_chan t; tr_seq t; 0] ++ tr_cemi t)
  end.
Proof. exact tunneling_request_too_long. Qed.
Example C13_example :
  tunneling_request_from_packet [6; 16; 4; 32; 0; 13; 4; 5; 7; 0; 1; 2] =
  Ok ({| tr_chan := 5; tr_seq := 7; tr_cemi := [1; 2; 0] |}, []).
Proof. reflexivity. Qed.

(** ** C14 *)
Theorem C14_tunneling_ack_decode_exact : forall bs a rest,
  bytes bs ->
  (tunneling_ack_from_packet bs = Ok (a, rest) <->
   bs = frame 0x0421 [4; ta_chan a; ta_seq a; ta_status a] ++ rest).
Proof. exact tunneling_ack_decode_iff. Qed.
Theorem C14_tunneling_ack_roundtrip : forall a rest,
  byte (ta_chan a) -> byte (ta_seq a) -> byte (ta_status a) -> bytes rest ->
  tunneling_ack_from_packet (tunneling_ack_packet a ++ rest) = Ok (a, rest).
Proof. exact tunneling_ack_roundtrip. Qed.
Example C14_example :
  tunneling_ack_from_packet [6; 16; 4; 33; 0; 10; 4; 5; 7; 0] = Ok ({| ta_chan := 5; ta_seq := 7; ta_status := 0 |}, []).
Proof. reflexivity. Qed.

(** ** C15 *)
Theorem C15_feature_response_decode_exact : forall bs f rest,
  bytes bs ->
  (feature_resp_from_packet bs = Ok (f, rest) <->
   exists reserved, bs = frame 0x0423 [4; fr_chan f; fr_seq f; reserved; feature_number (fr_feature f); fr_status f; fr_value f] ++ rest).
Proof. exact feature_resp_decode_iff. Qed.
Theorem C15_feature_response_own_rejected : forall f rest,
  feature_resp_from_packet (feature_resp_packet f ++ rest) = Err.
Proof. exact feature_resp_own_rejected. Qed.
Example C15_example :
  feature_resp_from_packet [6; 16; 4; 0x23; 0; 13; 4; 5; 7; 0; 7; 0; 248] =
    Ok ({| fr_feature := MaxApduLength; fr_value := 248; fr_status := 0; fr_chan := 5; fr_seq := 7 |}, []) /\
  feature_resp_from_packet [6; 16; 4; 0x23; 0; 13; 4; 5; 7; 0; 3; 0; 248] = Err.
Proof. split; reflexivity. Qed.

(** ** C16 *)
Theorem C16_dispatcher_panics_exactly : forall bs,
  bytes bs ->
  (parse_response bs = Panic <->
   exists size chan seq pad rest, size < 10 /\
     bs = [0x06; 0x10] ++ word 0x0420 ++ word size ++ [4; chan; seq; pad] ++ rest).
Proof. exact parse_response_panic_iff. Qed.
Theorem C16_cemi_panics_exactly : forall p bs,
  bytes bs ->
  (cemi_from_packet p bs = Panic <->
   p = Debug /\ exists code size is t k rest,
     bs = [code; size] ++ infos_bytes (map info_pair is) ++ [info_number t; k] ++ rest /\
     N.of_nat (length (infos_bytes (map info_pair is))) < size /\
     256 <= N.of_nat (length (infos_bytes (map info_pair is))) + 2 + k).
Proof. exact cemi_panic_iff. Qed.
Theorem C16_description_block_panics_exactly : forall p bs,
  dib_from_packet p bs = Panic <->
  p = Debug /\ exists sl rest,
    (bs = [sl; 0x02] ++ rest /\ sl < 2) \/ (bs = [sl; 0x05] ++ rest /\ sl < 4 /\ (4 <= length rest)%nat).
Proof. exact dib_panic_iff. Qed.
Theorem C16_other_decoders_never_panic : forall bs c,
  connection_response_from_packet bs <> Panic /\ connstate_request_from_packet bs <> Panic /\
  connstate_response_from_packet bs <> Panic /\ disconnect_request_from_packet bs <> Panic /\
  disconnect_response_from_packet bs <> Panic /\ search_request_from_packet bs <> Panic /\
  header_from_packet bs <> Panic /\ hpai_from_packet bs <> Panic /\
  tunneling_ack_from_packet bs <> Panic /\ feature_resp_from_packet bs <> Panic /\
  ldata_ind_from_cemi c <> Panic /\ ldata_con_from_cemi c <> Panic.
Proof. exact other_decoders_np. Qed.
Example C16_example :
  parse_response [6; 16; 4; 32; 0; 9; 4; 0; 0; 0] = Panic /\
  run_on (cemi_from_packet Debug) [0x29; 255; 1; 254; 0] = Panic /\
  run_on (cemi_from_packet Release) [0x29; 255; 1; 254; 0] = Err /\
  run_on (dib_from_packet Debug) [1; 2] = Panic.
Proof. repeat split; vm_compute; reflexivity. Qed.

(** ** C17 *)
Theorem C17_dispatch : forall h1 h2 a b rest,
  let bs := h1 :: h2 :: a :: b :: rest in
  a < 256 -> b < 256 ->
  parse_response bs =
  match a * 256 + b with
  | 0x0420 => rmap RTunReq (run_on tunneling_request_from_packet bs)
  | 0x0421 => rmap RTunAck (run_on tunneling_ack_from_packet bs)
  | 0x0423 => rmap RFeature (run_on feature_resp_from_packet bs)
  | 0x020a => rmap RDiscResp (run_on disconnect_response_from_packet bs)
  | 0x0208 => rmap RConnState (run_on connstate_response_from_packet bs)
  | _ => Err
  end.
Proof. exact parse_response_dispatch. Qed.
Theorem C17_short_datagrams : forall bs, (length bs < 4)%nat -> parse_response bs = Err.
Proof. exact parse_short. Qed.
(** Decoded values and datagrams determine each other. *)
Theorem C17_dispatch_exact : forall bs r,
  bytes bs -> (parse_response bs = Ok r <-> looks_like bs r).
Proof. exact parse_response_iff. Qed.
Example C17_example :
  looks_like [6; 16; 4; 33; 0; 10; 4; 5; 7; 0] (RTunAck {| ta_chan := 5; ta_seq := 7; ta_status := 0 |}).
Proof. exists []. reflexivity. Qed.

(** ** C18 *)
Theorem C18_buffering_transparent : forall service d body,
  valid_frame service d -> d = frame service body -> service < 65536 -> (length d <= 100)%nat ->
  (min_body service <= length body)%nat ->
  parse_response (recv_buffer d) = parse_response d.
Proof. exact recv_buffer_frame. Qed.
Theorem C18_accepted_stays_accepted : forall d r,
  bytes d -> (length d <= 100)%nat -> parse_response d = Ok r -> parse_response (recv_buffer d) = Ok r.
Proof. exact recv_buffer_transparent. Qed.
Theorem C18_connection_response : forall d r,
  bytes d -> (length d <= 100)%nat -> run_on connection_response_from_packet d = Ok r ->
  run_on connection_response_from_packet (recv_buffer d) = Ok r.
Proof. exact connection_response_buffer. Qed.
Example C18_example :
  let d := frame 0x0420 [4; 5; 7; 0; 0x29; 0] in
  valid_frame 0x0420 d /\ (min_body 0x0420 <= 6)%nat /\ (length d <= 100)%nat /\
  parse_response (recv_buffer d) = Ok (RTunReq {| tr_chan := 5; tr_seq := 7; tr_cemi := [0x29; 0] |}).
Proof.
  repeat split; try (cbn; lia); try reflexivity.
  - repeat constructor.
  - exists [4; 5; 7; 0; 0x29; 0]. reflexivity.
Qed.

(** ** C19: false.  Every declared size from 10 up is delivered, whatever the
    real length: missing octets are zeros, octets past the 100th are dropped. *)
Theorem C19_wrong_length_delivered_refuted : forall size chan seq tail,
  10 <= size < 65536 -> byte chan -> byte seq -> bytes tail ->
  parse_response (recv_buffer ([0x06; 0x10] ++ word 0x0420 ++ word size ++ [4; chan; seq; 0] ++ tail)) =
  Ok (RTunReq {| tr_chan := chan; tr_seq := seq;
                 tr_cemi := take_padded (N.to_nat size - 10) (firstn 90 tail) |}).
Proof. exact recv_tunneling_any. Qed.
(** What is kept: a datagram is delivered only when it reaches past its header (for the
    tunnelling services, past the octet after it) and declares exactly the length of
    what is delivered. *)
Theorem C19_declared_partial : forall d r, bytes d -> parse_response (recv_buffer d) = Ok r ->
  match r with
  | RTunReq t => (7 <= length d)%nat /\ declared d = 10 + N.of_nat (length (tr_cemi t))
  | RTunAck _ => (7 <= length d)%nat /\ declared d = 10
  | RFeature _ => (7 <= length d)%nat /\ declared d = 13
  | RConnState _ | RDiscResp _ => (6 <= length d)%nat /\ declared d = 8
  | RDiscReq _ => False
  end.
Proof. exact declared_kept. Qed.
(** The bound 6 is reached: a header alone is a status of 0 on channel 0. *)
Theorem C19_header_alone_refuted :
  parse_response (recv_buffer [6; 16; 2; 8; 0; 8]) = Ok (RConnState {| ss_chan := 0; ss_status := 0 |}) /\
  parse_response (recv_buffer [6; 16; 2; 10; 0; 8]) = Ok (RDiscResp {| ds_chan := 0; ds_status := 0 |}).
Proof. split; reflexivity. Qed.
Example C19_example :
  (* truncated: 14 declared, 11 received; oversized: 110 declared and received, 10 octets zeroed *)
  parse_response (recv_buffer [6; 16; 4; 32; 0; 14; 4; 5; 7; 0; 0x29]) =
    Ok (RTunReq {| tr_chan := 5; tr_seq := 7; tr_cemi := [0x29; 0; 0; 0] |}) /\
  parse_response (recv_buffer (frame 0x0420 ([4; 5; 7; 0] ++ repeat 1 100))) =
    Ok (RTunReq {| tr_chan := 5; tr_seq := 7; tr_cemi := repeat 1 90 ++ repeat 0 10 |}).
Proof. split; reflexivity. Qed.

(** ** C48 *)
Theorem C48_friendly_name : forall sl m st a pr ser mc mac name,
  ((exists d, device_info_new sl m st a pr ser mc mac name = Ok d) <->
   length name = 30%nat /\ bytes name) /\
  (forall d, device_info_new sl m st a pr ser mc mac name = Ok d -> friendly_name d = Ok name /\ bytes (di_name d)) /\
  device_info_new sl m st a pr ser mc mac name <> Panic.
Proof. exact device_info_new_iff. Qed.
Example C48_example :
  (exists d, device_info_new 54 TP1 0 {| ia_area := 1; ia_line := 1; ia_address := 1 |} 0 (repeat 1 6) (repeat 2 4) (repeat 3 6) (repeat 0xe9 30) = Ok d) /\
  device_info_new 54 TP1 0 {| ia_area := 1; ia_line := 1; ia_address := 1 |} 0 (repeat 1 6) (repeat 2 4) (repeat 3 6) (repeat 65 5) = Err /\
  device_info_new 54 TP1 0 {| ia_area := 1; ia_line := 1; ia_address := 1 |} 0 (repeat 1 6) (repeat 2 4) (repeat 3 6) (repeat 0x20ac 30) = Err.
Proof. split; [eexists; vm_compute; reflexivity|]. split; vm_compute; reflexivity. Qed.
