(** Properties C108-C116 and C138: typed group values, the transport layer and
    bus-monitor frames.  Specification in TypedSpec.v, proofs in TypedProofs.v
    and ScaleProofs.v. *)
From Coq Require Import String.
From Coq.Floats Require Import SpecFloat.
From Verif Require Import Base Addresses Apdu DpTypes Tunneling Emi Core Transport Wire Spec TypedSpec TypedProofs ScaleProofs.
Open Scope N_scope.

(** ** C108: false.  An 8-bit value cannot be written ([todo!()], dp_types.rs:302). *)
Theorem C108_byte_refuted : forall p fuel v, group_value_write_pd p fuel (PByte v) = PanicO.
Proof. reflexivity. Qed.
(** Every other type but the 2-byte float: the APDU of the standard. *)
Theorem C108_written_partial : forall d, (forall v, d <> PByte v) -> (forall v, d <> PFloat v) -> wf_pdt d ->
  exists a, (forall p fuel, group_value_write_pd p fuel d = Done a) /\ write_octets d (apdu_packet a).
Proof. exact write_bytes_only. Qed.
(** The 2-byte float: exactly when its encoder returns (C44); C45 says how accurate it is. *)
Theorem C108_float_partial : forall v, is_f32 (fl_value v) -> encodable (fl_value v) ->
  exists a, (forall p fuel, (117 <= fuel)%nat -> group_value_write_pd p fuel (PFloat v) = Done a) /\ write_octets (PFloat v) (apdu_packet a).
Proof. exact write_float. Qed.
Theorem C108_float_never : forall v p, is_f32 (fl_value v) -> ~ encodable (fl_value v) ->
  forall fuel a, group_value_write_pd p fuel (PFloat v) <> Done a.
Proof. exact write_float_never. Qed.
Example C108_example :
  wf_pdt (PInt (int_general (-2))) /\ write_octets (PInt (int_general (-2))) [0; 0x80; 0xff; 0xfe] /\
  wf_pdt (PB1U3 (b1u3_dimming true 3)) /\ write_octets (PB1U3 (b1u3_dimming true 3)) [0; 0x8b] /\
  (exists a, group_value_write_pd Debug 117 (PFloat (float_temp (f_of_Z 21))) = Done a /\ apdu_packet a = [0; 0x80; 0x0c; 0x1a]) /\
  encodable (f_of_Z 21).
Proof.
  split; [split; discriminate|]. split; [reflexivity|]. split; [reflexivity|]. split; [reflexivity|].
  split; [eexists; split; vm_compute; reflexivity|]. split; [vm_compute; auto|vm_compute; reflexivity].
Qed.

(** ** C109 *)
Theorem C109_typed_survives : forall p fuel d a dest pkt chan seq c1 c2 src,
  wf_pdt d -> group_value_write_pd p fuel d = Done a ->
  wf_addr dest -> ldata_req_packet p (ldata_req_new dest (t_data_group a)) = Ok pkt ->
  byte chan -> byte seq -> byte c1 -> byte c2 -> src < 65536 ->
  exists t c i,
    parse_response (recv_buffer (frame 0x0420 ([4; chan; seq; 0] ++ [0x29; 0; c1; c2] ++ word src ++ skipn 6 pkt))) = Ok (RTunReq t) /\
    run_on (cemi_from_packet p) (tr_cemi t) = Ok c /\ ce_code c = 0x29 /\
    ldata_ind_from_cemi c = Ok i /\ ld_dest (li_data i) = addr_to_u16 dest /\ reads_back p fuel d (li_value i).
Proof. exact typed_survives. Qed.
Example C109_example :
  exists a pkt, group_value_write_pd Debug 0 (PULong (ulong_general 0xdeadbeef)) = Done a /\
    ldata_req_packet Debug (ldata_req_new (group_3_level 1 1 1) (t_data_group a)) = Ok pkt /\
    skipn 6 pkt = [9; 1; 5; 0; 0x80; 0xde; 0xad; 0xbe; 0xef].
Proof. eexists _, _. split; [reflexivity|]. split; vm_compute; reflexivity. Qed.

(** ** C110: false.  Decoding gives unsigned 32-bit values the code of the
    16-bit signed ones, control values an unassigned code, and raw 8-bit
    values the code of a percentage. *)
Theorem C110_labels_refuted : forall u v w,
  (exists d, ulong_from_bytes (ulong_get_bytes (ulong_general u)) = Ok d /\ ul_code d = "8.x"%string /\ ul_code (ulong_general u) = "12.x"%string) /\
  (exists d, b1u3_from_bytes (b1u3_get_bytes (b1u3_general v)) = Ok d /\ b3_code d = "0.x"%string /\ b3_code (b1u3_general v) = "3.x"%string) /\
  (exists d, scaled_from_bytes (scaled_get_bytes (scaled_general w)) = Ok d /\ sc_code d = "5.001"%string /\ sc_unit d = "%"%string /\
     sc_code (scaled_general w) = "5.x"%string /\ sc_unit (scaled_general w) = ""%string).
Proof. intros u v w. repeat split; eexists; repeat split; reflexivity. Qed.
(** The other general types keep code and unit, whatever is decoded. *)
Theorem C110_labels_partial : forall p bs,
  (forall d, int_from_bytes bs = Ok d -> d = int_general (in_value d)) /\
  (forall d, byte_from_bytes bs = Ok d -> d = byte_general (by_value d)) /\
  (forall d, word_from_bytes bs = Ok d -> d = word_general (wo_value d)) /\
  (forall d, bit_from_bytes bs = Ok d -> d = bit_general (bi_value d)) /\
  (forall d, float_from_bytes p bs = Ok d -> d = float_general (fl_value d)) /\
  (forall d, float_temp_from_bytes p bs = Ok d -> d = float_temp (fl_value d)).
Proof. exact labels_kept. Qed.
Example C110_example : exists d, int_from_bytes [255; 254] = Ok d /\ d = int_general (-2).
Proof. eexists. split; reflexivity. Qed.

(** ** C111: false.  All decoders but the 2-byte float's accept any longer
    octet string and ignore the rest. *)
Theorem C111_length_refuted :
  (forall a x, scaled_from_bytes (a :: x) = scaled_from_bytes [a]) /\ (forall a x, byte_from_bytes (a :: x) = byte_from_bytes [a]) /\
  (forall a x, bit_from_bytes (a :: x) = bit_from_bytes [a]) /\ (forall a x, b1u3_from_bytes (a :: x) = b1u3_from_bytes [a]) /\
  (forall a b x, int_from_bytes (a :: b :: x) = int_from_bytes [a; b]) /\
  (forall a b x, word_from_bytes (a :: b :: x) = word_from_bytes [a; b]) /\
  (forall a b c e x, ulong_from_bytes (a :: b :: c :: e :: x) = ulong_from_bytes [a; b; c; e]).
Proof. exact longer_same. Qed.
(** [accepts f n]: [f] accepts exactly the octet strings of at least [n] octets. *)
Theorem C111_accepted :
  accepts scaled_from_bytes 1 /\ accepts byte_from_bytes 1 /\ accepts bit_from_bytes 1 /\ accepts b1u3_from_bytes 1 /\
  accepts int_from_bytes 2 /\ accepts word_from_bytes 2 /\ accepts ulong_from_bytes 4.
Proof. exact accepts_prefix. Qed.
Theorem C111_float_partial : forall p bs, length bs <> 2%nat -> float_from_bytes p bs = Err /\ float_temp_from_bytes p bs = Err.
Proof. exact float_length. Qed.
Example C111_example : exists d, int_from_bytes [0; 5; 9; 9] = Ok d /\ in_value d = 5%Z.
Proof. eexists. split; reflexivity. Qed.

(** ** C112: false.  [d]: how far the percentage read from an octet v is below
    v * 100 / 255, times 255 and in units of 2^-149: 0 exactly for 0 and 255,
    and never more than 0.4 percent. *)
Theorem C112_percentage_refuted : forall s, sc_value s < 256 ->
  let x := scaled_get_value s in
  let d := (100 * Z.of_N (sc_value s) * 2 ^ 149 - 255 * f_units x)%Z in
  f_finite x /\ (0 <= d)%Z /\ (5 * d <= 2 * 255 * 2 ^ 149)%Z /\ (d = 0%Z <-> sc_value s = 0 \/ sc_value s = 255).
Proof. exact percent_error. Qed.
(** The octet written for a whole percentage n is the nearest to n * 255 / 100,
    (510 n + 100) / 200, or the next one. *)
Theorem C112_written_partial : forall n, n <= 100 ->
  sc_value (scaled_scaling (f_of_Z (Z.of_N n))) = (510 * n + 100) / 200 \/
  sc_value (scaled_scaling (f_of_Z (Z.of_N n))) = (510 * n + 100) / 200 + 1.
Proof. exact whole_percent. Qed.
(** Any percentage from 0 to 100: the octet is at most 0.5001 below x * 255 / 100
    and at most 1.5001 above ([d]: the difference times 100, unit 2^-149). *)
Theorem C112_written_near_partial : forall x, a_percentage x ->
  let d := (100 * 2 ^ 149 * Z.of_N (sc_value (scaled_scaling x)) - 255 * f_units x)%Z in
  (- (5001 * 2 ^ 149) <= 100 * d <= 15001 * 2 ^ 149)%Z.
Proof. exact scaling_near. Qed.
Example C112_example :
  sc_value (scaled_scaling (f_of_Z 20)) = 52 /\ (510 * 20 + 100) / 200 = 51 /\
  scaled_get_value {| sc_code := "5.001"; sc_unit := "%"; sc_value := 128 |} = f_of_Z 50.
Proof. vm_compute. repeat split. Qed.

(** ** C113: false.  The transport control information is never sent: only the
    services whose field is zero are right. *)
Theorem C113_tpci_refuted : forall s a, match s with DataConnected seq => seq < 16 | _ => True end ->
  (tpdu_packet (make_tpdu s a) = tpdu_octets s (apdu_packet a) <-> s = DataBroadcast \/ s = DataGroup \/ s = DataIndividual).
Proof. exact tpci_exact. Qed.
Theorem C113_dropped : forall s a, tpdu_packet (make_tpdu s a) = apdu_packet a.
Proof. exact tpci_dropped. Qed.
(** The fields of the TPDU do say which service was asked for: the information
    is there and is lost by [packet]. *)
Theorem C113_services : forall s a, fields_octet (make_tpdu s a) = tpci s /\
  (tp_addr (make_tpdu s a) = TGroup <-> to_group s) /\ tp_apdu (make_tpdu s a) = a.
Proof. exact service_fields. Qed.
Example C113_example :
  tpdu_packet (make_tpdu Connect group_value_read) = [0; 0] /\ tpdu_octets Connect [0; 0] = [0x80] /\
  tpdu_octets (DataConnected 3) [0; 0x80; 1] = [0x4c; 0x80; 1].
Proof. repeat split. Qed.

(** ** C114: false.  A frame seen on the bus is read as an L_Data message,
    which has one more octet in front: everything is shifted by one octet. *)
Theorem C114_raw_frame_refuted : forall code infos ctrl src dst npci x y rest check,
  src < 65536 -> dst < 65536 -> byte npci -> byte y -> bytes rest -> byte check ->
  exists i, ldata_ind_from_cemi {| ce_code := code; ce_infos := infos; ce_service := raw_frame ctrl src dst npci (x :: y :: rest) check |} = Ok i /\
    ((ld_src (li_data i) = src /\ ld_dest (li_data i) = dst) <-> src = npci * 257 /\ dst = npci * 257).
Proof. exact raw_right_iff. Qed.
Theorem C114_shifted : forall code infos ctrl src dst npci x y rest check,
  src < 65536 -> dst < 65536 -> byte npci -> byte y -> bytes rest -> byte check ->
  exists i, ldata_ind_from_cemi {| ce_code := code; ce_infos := infos; ce_service := raw_frame ctrl src dst npci (x :: y :: rest) check |} = Ok i /\
    ld_src (li_data i) = src mod 256 * 256 + dst / 256 /\ ld_dest (li_data i) = dst mod 256 * 256 + npci /\
    li_value i = if x <=? 1 then [hd check rest mod 64] else take_padded (N.to_nat (x - 1)) (tl (rest ++ [check])).
Proof. exact raw_shifted. Qed.
(** A switch telegram from 1.1.10 to 1/1/1, value 1: reported as sent by 0.10.9
    to 0/1/225. *)
Example C114_example :
  exists i, ldata_ind_from_cemi {| ce_code := 0x2b; ce_infos := []; ce_service := raw_frame 0xbc 0x110a 0x0901 0xe1 [0; 0x81] 0x3a |} = Ok i /\
    ld_src (li_data i) = 0x0a09 /\ ld_dest (li_data i) = 0x01e1 /\ li_value i = [0x3a].
Proof. eexists. vm_compute. repeat split. Qed.

(** ** C115 *)
Theorem C115_monotone : forall x y, is_f32 x -> is_f32 y -> f_le x y ->
  sc_value (scaled_scaling x) <= sc_value (scaled_scaling y).
Proof. exact scaling_le. Qed.
Example C115_example :
  f_le (f_of_Z 20) (f_lit 203 10) /\ sc_value (scaled_scaling (f_of_Z 20)) = 52 /\ sc_value (scaled_scaling (f_lit 203 10)) = 53 /\
  f_le (S754_infinity true) (f_of_Z 0) /\ sc_value (scaled_scaling (S754_infinity true)) = 0.
Proof. vm_compute. repeat split; discriminate. Qed.

(** ** C116: at most 0.197 off. *)
Theorem C116_round_trip : forall x, a_percentage x ->
  let y := scaled_get_value (scaled_scaling x) in
  f_finite y /\ (1000 * Z.abs (f_units y - f_units x) <= 197 * 2 ^ 149)%Z.
Proof. exact scaling_round_trip. Qed.
(** 50 percent comes back exactly, 20 percent as 20.0787. *)
Example C116_example :
  a_percentage (f_of_Z 20) /\ scaled_get_value (scaled_scaling (f_of_Z 50)) = f_of_Z 50 /\
  scaled_get_value (scaled_scaling (f_of_Z 20)) = f_lit 200787402 10000000.
Proof. vm_compute. repeat split; discriminate. Qed.

(** ** C40, continued: no percentage from 0 to 100 gives octet 0; something at
    or below -0.197 does. *)
Theorem C40_any_percentage_refuted : forall x, a_percentage x -> 1 <= sc_value (scaled_scaling x).
Proof. exact scaling_nonzero. Qed.
Theorem C40_below_partial : forall x, is_f32 x -> f_finite x -> (1000 * f_units x <= - 197 * 2 ^ 149)%Z ->
  sc_value (scaled_scaling x) = 0.
Proof. exact scaling_off. Qed.
Example C40_below_example :
  a_percentage (f_of_Z 0) /\ sc_value (scaled_scaling (f_of_Z 0)) = 1 /\ sc_value (scaled_scaling (f_of_Z (-1))) = 0.
Proof. vm_compute. repeat split; discriminate. Qed.

(** ** C138: the named constructors.  (The percentage of 8.010 is C38, the
    one of 5.001 C40, C112 and C116.) *)
Theorem C138_counter : forall v rest, (-32768 <= v <= 32767)%Z ->
  let d := int_value_2_count v in
  in_code d = "8.001"%string /\ in_unit d = "pulses"%string /\ wf_pdt (PInt d) /\
  int_get_bytes d = word (Z.to_N (v mod 65536)) /\
  exists w, int_from_bytes (int_get_bytes d ++ rest) = Ok w /\ in_value w = v.
Proof. exact counter_sent. Qed.
Theorem C138_switch : forall (v : bool) rest,
  let d := bit_switch v in
  bi_code d = "1.001"%string /\ bit_get_bytes d = [if v then 1 else 0] /\
  exists w, bit_from_bytes (bit_get_bytes d ++ rest) = Ok w /\ bi_value w = v.
Proof. exact switch_sent. Qed.
Theorem C138_control : forall (up : bool) step rest,
  let d := b1u3_dimming up step in let b := b1u3_blinds up step in
  b3_code d = "3.007"%string /\ b3_code b = "3.008"%string /\ b1u3_get_bytes d = b1u3_get_bytes b /\
  exists w, b1u3_from_bytes (b1u3_get_bytes d ++ rest) = Ok w /\ b3_bit w = up /\ b3_step w = step mod 8.
Proof. exact control_sent. Qed.
Theorem C138_temperature : forall p v bs d,
  fl_code (float_temp v) = "9.001"%string /\ fl_unit (float_temp v) = "degC"%string /\ fl_value (float_temp v) = v /\
  (float_temp_from_bytes p bs = Ok d <-> exists g, float_from_bytes p bs = Ok g /\ d = float_temp (fl_value g)).
Proof. exact temperature_sent. Qed.
Example C138_example :
  int_get_bytes (int_value_2_count (-2)) = [255; 254] /\ bit_get_bytes (bit_switch true) = [1] /\
  b1u3_get_bytes (b1u3_blinds true 9) = [9] /\ float_temp_from_bytes Debug [0x0c; 0x1a] = Ok (float_temp (f_of_Z 21)).
Proof. repeat split. Qed.
