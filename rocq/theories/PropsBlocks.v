(** Properties C128-C131: description information blocks, search responses and
    the requests made from a connection response, octet by octet.  Specification in
    DibSpec.v, proofs in DibExact.v. *)
From Verif Require Import Base Addresses Core Wire Spec DibSpec DibExact PropsCodec.
From Coq Require Import Lia.
Open Scope N_scope.

(** ** C128: which octets are read as which block. *)
Theorem C128_blocks : forall p bs d rest,
  bytes bs -> (dib_from_packet p bs = Ok (d, rest) <-> exists x, bs = x ++ rest /\ dib_octets p d x).
Proof. exact dib_decode_iff. Qed.
(** The length octet is what [structure_length] returns. *)
Theorem C128_structure_length : forall p bs d rest,
  bytes bs -> dib_from_packet p bs = Ok (d, rest) -> dib_structure_length d = hd 0 bs.
Proof. exact structure_length. Qed.
(** A manufacturer block of two octets of data as the library reads it, and an
    address block with one further address, of length octet 6. *)
Definition maker : dib := DibManufacturer {| md_len := 2; md_id := 0x00c5; md_data := [7; 8] |}.
Definition two_addresses : dib := DibAddresses {| ka_len := 6; ka_addr := [1; 2; 3; 4]; ka_more := [[5; 6; 7; 8]] |}.
Example C128_example :
  dib_octets Debug maker [2; 0xfe; 0; 0xc5; 7; 8] /\
  dib_from_packet Debug [2; 0xfe; 0; 0xc5; 7; 8; 9] = Ok (maker, [9]) /\
  dib_octets Debug two_addresses [6; 5; 1; 2; 3; 4; 5; 6; 7; 8] /\
  dib_from_packet Debug [6; 5; 1; 2; 3; 4; 5; 6; 7; 8] = Ok (two_addresses, []) /\
  dib_structure_length two_addresses = 6.
Proof.
  split; [repeat split; reflexivity|]. split; [reflexivity|].
  split; [|split; reflexivity]. split; [reflexivity|]. split; [reflexivity|]. split; [repeat constructor|].
  left. split; [discriminate|reflexivity].
Qed.

(** ** C129: which octets are read as which search response. *)
Theorem C129_search_response : forall p bs r rest,
  bytes bs -> (search_response_from_packet p bs = Ok (r, rest) <-> exists x, bs = x ++ rest /\ search_octets p r x).
Proof. exact search_response_decode_iff. Qed.
(** The usual frame, the same with the blocks exchanged and with another block
    in between. *)
Definition in_order (blocks : list (list N)) : list N := frame 0x0202 (hpai_bytes 1 [192; 168; 1; 7] 3671 ++ concat blocks).
Definition dev_block : list N :=
  block 0x01 (device_body 0x02 1 0x1101 0 [0; 0xc5; 1; 2; 3; 4] [224; 0; 23; 12] [0; 36; 109; 1; 2; 3] (repeat 65 30)).
Definition fam_block : list N := block 0x02 (family_body [(2, 1); (3, 2)]).
Definition ip_block : list N := block 0x03 [1; 2; 3; 4; 5; 6; 7; 8; 9; 10; 11; 12; 13; 14].
Example C129_example :
  (exists r, run_on (search_response_from_packet Debug) (in_order [dev_block; fam_block; ip_block]) = Ok r /\
     sf_list (sr_families r) = [(2, 1); (3, 2)]) /\
  run_on (search_response_from_packet Debug) (in_order [fam_block; dev_block]) = Err /\
  run_on (search_response_from_packet Debug) (in_order [dev_block; ip_block; fam_block]) = Err.
Proof. split; [eexists; split; [vm_compute; reflexivity|reflexivity]|]. split; vm_compute; reflexivity. Qed.

(** ** C130: the requests built from a connection response name the channel
    and the endpoint in its octets. *)
Theorem C130_requests : forall bs r rest,
  bytes bs -> connection_response_from_packet bs = Ok (r, rest) ->
  connstate_request_packet (connstate_of_connection_response r) = frame 0x0207 ([nth 6 bs 0; 0] ++ firstn 8 (skipn 8 bs)) /\
  disconnect_request_packet (disconnect_of_connection_response r) = frame 0x0209 ([nth 6 bs 0; 0] ++ firstn 8 (skipn 8 bs)).
Proof. exact requests_of_response. Qed.
(** The endpoints the library starts from. *)
Theorem C130_endpoints :
  hpai_packet hpai_udp = hpai_bytes 1 [0; 0; 0; 0] 0 /\ hpai_packet hpai_tcp = hpai_bytes 2 [0; 0; 0; 0] 0.
Proof. split; reflexivity. Qed.
Definition granted : list N := frame 0x0206 ([21; 0] ++ hpai_bytes 1 [192; 168; 1; 7] 3671 ++ [4; 4; 0x11; 0xff]).
Example C130_example :
  (exists r, run_on connection_response_from_packet granted = Ok r /\
     connstate_request_packet (connstate_of_connection_response r) =
       [6; 16; 2; 7; 0; 16; 21; 0; 8; 1; 192; 168; 1; 7; 14; 87]).
Proof. eexists. split; vm_compute; reflexivity. Qed.

(** ** C131: a block is as long as its length octet says.  False: *)
Theorem C131_length_refuted : forall p rest,
  exists bs d, bytes bs /\ hd 0 bs = 6 /\ length bs = 10%nat /\ dib_from_packet p (bs ++ rest) = Ok (d, rest).
Proof.
  intros p rest. exists [6; 5; 1; 2; 3; 4; 5; 6; 7; 8], two_addresses.
  split; [repeat constructor|]. repeat split; destruct p; reflexivity.
Qed.
(** Exactly these blocks take the number of octets their length octet says. *)
Theorem C131_length_exact_partial : forall p bs d rest,
  bytes bs -> dib_from_packet p bs = Ok (d, rest) ->
  (N.of_nat (length bs - length rest) = hd 0 bs <->
   match d with
   | DibDevice _ => hd 0 bs = 54
   | DibFamilies _ => exists k, hd 0 bs = 2 * k /\ k <> 0
   | DibIpConfig _ => hd 0 bs = 16
   | DibIpCurrent _ => hd 0 bs = 20
   | DibAddresses _ | DibManufacturer _ => False
   end).
Proof. exact takes_its_length. Qed.
(** A device that announces a device block of 56 octets: the families are not
    where they are looked for. *)
Definition long_dev_block : list N := [56] ++ tl dev_block ++ [0; 0].
Example C131_example :
  length long_dev_block = 56%nat /\
  run_on (search_response_from_packet Debug) (in_order [long_dev_block; fam_block]) = Err /\
  N.of_nat (length (fam_block ++ [9]) - 1) = hd 0 fam_block /\
  exists d, dib_from_packet Debug (fam_block ++ [9]) = Ok (DibFamilies d, [9]).
Proof. split; [reflexivity|]. split; [vm_compute; reflexivity|]. split; [reflexivity|]. eexists. vm_compute. reflexivity. Qed.
