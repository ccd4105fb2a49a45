(** Properties C20-C30: cEMI, L_Data, APDU.  Proofs in EmiProofs.v,
    ResponseProofs.v, MessageMore.v. *)
From Verif Require Import Base Addresses Apdu Tunneling Emi Core Transport Wire Spec
  BaseProofs CoreProofs EmiProofs ResponseProofs MessageMore PartialMore.
Open Scope N_scope.

(** ** C20 *)
Theorem C20_cemi_decode : forall p code (is : list (N * list N)) service,
  Forall (fun i => known_info (fst i)) is ->
  (length (infos_bytes is) <= 255)%nat ->
  exists js, map info_pair js = is /\
    cemi_from_packet p (cemi_bytes code is service) =
    Ok ({| ce_code := code; ce_infos := js; ce_service := service |}, []).
Proof. exact cemi_read_known. Qed.
Example C20_example :
  cemi_bytes 0x29 [(0x03, [1; 2]); (0x04, [3; 4])] [0xbc; 0xe0] = [0x29; 8; 3; 2; 1; 2; 4; 2; 3; 4; 0xbc; 0xe0] /\
  run_on (cemi_from_packet Debug) [0x29; 8; 3; 2; 1; 2; 4; 2; 3; 4; 0xbc; 0xe0] =
  Ok {| ce_code := 0x29;
        ce_infos := [{| ai_type := BusmonitorStatusInfo; ai_value := [1; 2] |}; {| ai_type := TimestampRelative; ai_value := [3; 4] |}];
        ce_service := [0xbc; 0xe0] |}.
Proof. split; reflexivity. Qed.

(** ** C21 *)
Theorem C21_cemi_factorisation : forall p bs c rest,
  bytes bs -> cemi_from_packet p bs = Ok (c, rest) ->
  rest = [] /\ exists size n,
    bs ++ repeat 0 n =
      [ce_code c; size] ++ infos_bytes (map info_pair (ce_infos c)) ++ ce_service c /\
    (n <> 0%nat -> ce_service c = []) /\
    (p = Debug -> size <= N.of_nat (length (infos_bytes (map info_pair (ce_infos c)))) < 256 /\
       forall a b, ce_infos c = a ++ b -> b <> [] ->
         N.of_nat (length (infos_bytes (map info_pair a))) < size).
Proof. exact cemi_factor. Qed.
Example C21_example :
  (* the declared value runs past the end: zero filled *)
  run_on (cemi_from_packet Debug) [0x29; 4; 3; 2; 9] =
  Ok {| ce_code := 0x29; ce_infos := [{| ai_type := BusmonitorStatusInfo; ai_value := [9; 0] |}]; ce_service := [] |}.
Proof. reflexivity. Qed.

(** ** C22 *)
Theorem C22_indication_decode : forall c i c1 c2 src dst len apci data,
  src < 65536 -> dst < 65536 -> apci < 65536 ->
  ce_service c = ldata_bytes c1 c2 src dst len apci data ->
  (ldata_ind_from_cemi c = Ok i <->
   i = {| li_cemi := c;
          li_data := {| ld_src := src; ld_dest := dst; ld_frame_type := N.testbit c1 7;
                        ld_repetition := N.testbit c1 5; ld_system_broadcast := N.testbit c1 4;
                        ld_ack_request := N.testbit c1 1 |};
          li_value := if len <=? 1 then [apci mod 64]
                      else take_padded (N.to_nat (len - 1)) data |}).
Proof. exact ldata_ind_value. Qed.
Theorem C22_indication_group_value : forall c c1 c2 src dst apci data,
  src < 65536 -> dst < 65536 -> apci < 65536 -> (1 <= length data <= 254)%nat ->
  ce_service c = ldata_bytes c1 c2 src dst (1 + N.of_nat (length data)) apci data ->
  exists i, ldata_ind_from_cemi c = Ok i /\ li_cemi i = c /\
    ld_src (li_data i) = src /\ ld_dest (li_data i) = dst /\
    ld_frame_type (li_data i) = N.testbit c1 7 /\ ld_repetition (li_data i) = N.testbit c1 5 /\
    ld_system_broadcast (li_data i) = N.testbit c1 4 /\ ld_ack_request (li_data i) = N.testbit c1 1 /\
    li_value i = data.
Proof. exact ind_group_value. Qed.
Theorem C22_indication_short_value : forall c c1 c2 src dst len apci rest,
  src < 65536 -> dst < 65536 -> apci < 65536 -> len <= 1 ->
  ce_service c = ldata_bytes c1 c2 src dst len apci rest ->
  exists i, ldata_ind_from_cemi c = Ok i /\ li_cemi i = c /\
    ld_src (li_data i) = src /\ ld_dest (li_data i) = dst /\
    li_value i = [apci mod 64].
Proof. exact ind_short_value. Qed.
Theorem C22_value_never_empty : forall c i,
  bytes (ce_service c) -> ldata_ind_from_cemi c = Ok i -> li_value i <> [].
Proof. exact ind_value_nonempty. Qed.
Example C22_example :
  let c := {| ce_code := 0x29; ce_infos := []; ce_service := [0xbc; 0xe0; 0x11; 0x0a; 0x09; 0x01; 3; 0; 0x80; 0x0c; 0x1a] |} in
  ce_service c = ldata_bytes 0xbc 0xe0 0x110a 0x0901 3 0x80 [0x0c; 0x1a] /\
  exists i, ldata_ind_from_cemi c = Ok i /\ li_value i = [0x0c; 0x1a] /\ ld_dest (li_data i) = 0x0901.
Proof. split; [reflexivity|]. eexists. split; [reflexivity|]. split; reflexivity. Qed.

(** ** C23 *)
Theorem C23_indication_rejects_exactly_short : forall c,
  (ldata_ind_from_cemi c = Err <-> (length (ce_service c) < 9)%nat) /\ ldata_ind_from_cemi c <> Panic.
Proof. intro c. exact (conj (ldata_ind_err_iff c) (ldata_ind_np c)). Qed.
Example C23_example :
  ldata_ind_from_cemi {| ce_code := 0x29; ce_infos := []; ce_service := repeat 0 8 |} = Err /\
  exists i, ldata_ind_from_cemi {| ce_code := 0x29; ce_infos := []; ce_service := repeat 0 9 |} = Ok i.
Proof. split; [reflexivity|]. eexists; reflexivity. Qed.

(** ** C24 *)
Theorem C24_confirmation_decode : forall c i c1 c2 src dst rest,
  src < 65536 -> dst < 65536 ->
  ce_service c = [c1; c2] ++ word src ++ word dst ++ rest ->
  (ldata_con_from_cemi c = Ok i <->
   i = {| lc_cemi := c;
          lc_data := {| ld_src := src; ld_dest := dst; ld_frame_type := N.testbit c1 7;
                        ld_repetition := N.testbit c1 5; ld_system_broadcast := N.testbit c1 4;
                        ld_ack_request := N.testbit c1 1 |};
          lc_confirm := negb (N.testbit c1 0) |}).
Proof. exact ldata_con_value. Qed.
Theorem C24_confirmation_rejects_exactly_short : forall c,
  (ldata_con_from_cemi c = Err <-> (length (ce_service c) < 6)%nat) /\ ldata_con_from_cemi c <> Panic.
Proof. intro c. exact (conj (ldata_con_err_iff c) (ldata_con_np c)). Qed.
Example C24_example :
  exists i, ldata_con_from_cemi {| ce_code := 0x2e; ce_infos := []; ce_service := [0xbd; 0xe0; 0x11; 0x0a; 9; 1; 1; 0; 0x81] |} = Ok i /\
    lc_confirm i = false /\ ld_dest (lc_data i) = 0x0901.
Proof. eexists. split; [reflexivity|]. split; reflexivity. Qed.

(** ** C25 *)
Theorem C25_read_request : forall p dest prio,
  wf_addr dest ->
  ldata_req_packet p (set_priority (ldata_req_new dest (t_data_group group_value_read)) prio) =
  Ok (cemi_bytes 0x11 [] (ldata_bytes (0xb0 + 4 * (prio mod 4)) 0xe0 0 (addr_to_u16 dest) 1 apci_group_read [])).
Proof. exact read_request. Qed.
Theorem C25_write_request : forall p dest prio data a,
  wf_addr dest -> (length data <= 253)%nat -> group_value_write data false = Ok a ->
  ldata_req_packet p (set_priority (ldata_req_new dest (t_data_group a)) prio) =
  Ok (cemi_bytes 0x11 [] (ldata_bytes (0xb0 + 4 * (prio mod 4)) 0xe0 0 (addr_to_u16 dest)
        (1 + N.of_nat (length data)) apci_group_write data)).
Proof. exact write_request. Qed.
Theorem C25_small_write_request : forall p dest prio b data a,
  wf_addr dest -> group_value_write (b :: data) true = Ok a ->
  ldata_req_packet p (set_priority (ldata_req_new dest (t_data_group a)) prio) =
  Ok (cemi_bytes 0x11 [] (ldata_bytes (0xb0 + 4 * (prio mod 4)) 0xe0 0 (addr_to_u16 dest) 1
        (apci_group_write + b mod 64) [])).
Proof. exact small_write_request. Qed.
Example C25_example :
  (exists a, group_value_write [0x0c; 0x1a] false = Ok a /\
     ldata_req_packet Debug (set_priority (ldata_req_new (group_3_level 1 1 1) (t_data_group a)) 1) =
     Ok [0x11; 0; 0xb4; 0xe0; 0; 0; 9; 1; 3; 0; 0x80; 0x0c; 0x1a]) /\
  wf_addr (group_3_level 1 1 1).
Proof. split; [eexists; split; reflexivity|]. repeat split; reflexivity. Qed.

(** ** C26: false.  The group flag (bit 7 of control field 2) is set for every
    destination, in particular for every individual address. *)
Theorem C26_individual_flag_refuted :
  (forall p area line device t pkt, byte area -> byte line -> byte device ->
     ldata_req_packet p (ldata_req_new (mk_individual area line device) t) = Ok pkt ->
     nth 3 pkt 0 = 0xe0 /\ N.testbit (nth 3 pkt 0) 7 = true) /\
  exists pkt, ldata_req_packet Debug (ldata_req_new (mk_individual 1 1 1) (t_data_individual group_value_read)) = Ok pkt.
Proof.
  split; [|eexists; reflexivity]. intros p area line device t pkt H1 H2 H3. apply req_control2.
  apply addr_to_u16_bound. repeat split; assumption.
Qed.

(** Group destinations are flagged as such. *)
Theorem C26_group_flag_partial : forall p dest t pkt,
  wf_addr dest -> (forall a, dest <> Individual a) ->
  ldata_req_packet p (ldata_req_new dest t) = Ok pkt -> N.testbit (nth 3 pkt 0) 7 = true.
Proof. intros p dest t pkt H _. apply group_flagged, H. Qed.
Example C26_example :
  wf_addr (group_3_level 1 1 1) /\
  exists pkt, ldata_req_packet Debug (ldata_req_new (group_3_level 1 1 1) (t_data_group group_value_read)) = Ok pkt /\
    N.testbit (nth 3 pkt 0) 7 = true.
Proof. split; [repeat split; reflexivity|]. eexists. split; reflexivity. Qed.

(** ** C27: false.  From 256 octets of TPDU on, the encoding panics or the
    length octet is wrong, except at exactly 256 in a release build. *)
Theorem C27_oversized_partial : forall p m,
  addr_to_u16 (lr_dest m) < 65536 ->
  256 <= lenN (tpdu_packet (lr_tpdu m)) ->
  ldata_req_packet p m = Panic \/
  exists pkt, ldata_req_packet p m = Ok pkt /\ nth 8 pkt 0 < 256 /\ skipn 9 pkt = tpdu_packet (lr_tpdu m) /\
    (nth 8 pkt 0 = lenN (tpdu_packet (lr_tpdu m)) - 1 <-> lenN (tpdu_packet (lr_tpdu m)) = 256).
Proof. exact oversized. Qed.
Theorem C27_oversized_refuted :
  exists a pkt, group_value_write (repeat 7 300) false = Ok a /\
    ldata_req_packet Debug (ldata_req_new (group_3_level 1 1 1) (t_data_group a)) = Ok pkt /\
    nth 8 pkt 0 = 45 /\ length (skipn 9 pkt) = 302%nat.
Proof. eexists; eexists. split; [reflexivity|]. split; [vm_compute; reflexivity|]. split; vm_compute; reflexivity. Qed.

(** ** C28 *)
Theorem C28_group_write_survives : forall p dest v small a pkt chan seq c1 c2 src,
  wf_addr dest -> bytes v -> v <> [] -> (length v <= 79)%nat ->
  group_value_write v small = Ok a ->
  ldata_req_packet p (ldata_req_new dest (t_data_group a)) = Ok pkt ->
  byte chan -> byte seq -> byte c1 -> byte c2 -> src < 65536 ->
  exists t c i,
    parse_response (recv_buffer (frame 0x0420 ([4; chan; seq; 0] ++
       [0x29; 0; c1; c2] ++ word src ++ skipn 6 pkt))) = Ok (RTunReq t) /\
    tr_chan t = chan /\ tr_seq t = seq /\
    run_on (cemi_from_packet p) (tr_cemi t) = Ok c /\ ce_code c = 0x29 /\
    ldata_ind_from_cemi c = Ok i /\
    ld_src (li_data i) = src /\ ld_dest (li_data i) = addr_to_u16 dest /\ li_value i = carried v small.
Proof. exact group_write_survives. Qed.
(** 80 octets no longer survive: the receive buffer is full and the last octet
    arrives as zero. *)
Theorem C28_bound_is_tight :
  exists v a pkt t c i, length v = 80%nat /\ group_value_write v false = Ok a /\
    ldata_req_packet Debug (ldata_req_new (group_3_level 1 1 1) (t_data_group a)) = Ok pkt /\
    parse_response (recv_buffer (frame 0x0420 ([4; 1; 0; 0] ++ [0x29; 0; 0xbc; 0xe0] ++ word 0x1101 ++ skipn 6 pkt))) = Ok (RTunReq t) /\
    run_on (cemi_from_packet Debug) (tr_cemi t) = Ok c /\
    ldata_ind_from_cemi c = Ok i /\ li_value i = repeat 1 79 ++ [0].
Proof.
  exists (repeat 1 80). eexists; eexists; eexists; eexists; eexists.
  split; [reflexivity|]. split; [reflexivity|]. split; [vm_compute; reflexivity|].
  split; [vm_compute; reflexivity|]. split; [vm_compute; reflexivity|]. split; [vm_compute; reflexivity|].
  vm_compute; reflexivity.
Qed.
Example C28_example : wf_addr (group_3_level 1 1 1) /\ bytes [0x0c; 0x1a] /\ carried [0x0c; 0x1a] false = [0x0c; 0x1a] /\ carried [0x41] true = [1].
Proof. repeat split; repeat constructor. Qed.

(** ** C29 *)
Theorem C29_group_read : apdu_packet group_value_read = [0x00; 0x00].
Proof. reflexivity. Qed.
Theorem C29_group_write : forall data a,
  group_value_write data false = Ok a -> apdu_packet a = [0x00; 0x80] ++ data.
Proof. exact group_write_big. Qed.
Theorem C29_group_write_small : forall b data a,
  group_value_write (b :: data) true = Ok a -> apdu_packet a = word (0x80 + b mod 64).
Proof. exact group_write_small. Qed.
(** Any APCI code of the standard (four bits), with or without an extended
    code, and any data: the code in bits 9..6 of the first two octets, the
    extended code and short data in bits 5..0, longer data behind. *)
Theorem C29_any_service : forall code ext data, code < 16 ->
  apdu_packet {| apdu_apci := {| apci_code := code; apci_ext := ext |}; apdu_payload := data |} =
  let e := match ext with Some e => e mod 64 | None => 0 end in
  match data with
  | Small b => word (64 * code + N.lor e (b mod 64))
  | Big bs => word (64 * code + e) ++ bs
  end.
Proof. exact apdu_any. Qed.
(** 03.03.07: A_DeviceDescriptor_Read is 0x300, A_Restart 0x380,
    A_FunctionPropertyCommand 0x2C7. *)
Example C29_any_service_example :
  apdu_packet {| apdu_apci := {| apci_code := 12; apci_ext := Some 0 |}; apdu_payload := Small 2 |} = [0x03; 0x02] /\
  apdu_packet {| apdu_apci := {| apci_code := 14; apci_ext := Some 0 |}; apdu_payload := Small 0 |} = [0x03; 0x80] /\
  apdu_packet {| apdu_apci := {| apci_code := 11; apci_ext := Some 7 |}; apdu_payload := Big [5; 1] |} = [0x02; 0xc7; 5; 1].
Proof. repeat split. Qed.
Example C29_example : exists a, group_value_write [1] true = Ok a /\ apdu_packet a = [0; 0x81].
Proof. eexists. split; reflexivity. Qed.

(** ** C30: false exactly for the empty vector. *)
Theorem C30_empty_small_write_refuted : forall data small,
  group_value_write data small = Panic <-> small = true /\ data = [].
Proof. exact group_write_panic. Qed.
Theorem C30_write_ok_partial : forall data small,
  (exists a, group_value_write data small = Ok a) <-> small = false \/ data <> [].
Proof. exact group_write_ok. Qed.
