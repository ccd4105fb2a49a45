(** Specification, second part: predicates on the values of the API, and the
    code numbers of the standard written down a second time. *)
From Coq.Floats Require Import SpecFloat.
From Verif Require Import Base Addresses Tunneling Emi Core Transport Wire.
Open Scope N_scope.

(** ** Code numbers *)
(** 03.08.04 Tunnelling, interface features. *)
Definition feature_number (f : knx_ip_feature) : N :=
  match f with
  | MaskVersion => 0x02
  | FIndividualAddress => 0x06
  | MaxApduLength => 0x07
  | InfoServiceEnable => 0x08
  end.
(** 03.08.02 Core, 7.5.4.2, KNX medium. *)
Definition medium_number (m : knx_medium) : N :=
  match m with TP1 => 0x02 | PL110 => 0x03 | RF => 0x10 | IP => 0x20 end.
(** 03.06.03, 4.1.4.3, additional information types. *)
Definition info_number (t : info_type) : N :=
  match t with
  | PLMediumInfo => 0x01 | RFMediumInfo => 0x02 | BusmonitorStatusInfo => 0x03
  | TimestampRelative => 0x04 | TimeDelayUntilSending => 0x05
  | ExtendedRelativeTime => 0x06 | BiBatInfo => 0x07 | RFMultiInfo => 0x08
  | PreambleAndPostamble => 0x09 | RFFastAckInfo => 0x0a
  | ManufacturerSpecificData => 0xfe
  end.
(** An element as a pair of type octet and value. *)
Definition info_pair (i : additional_info) : N * list N := (info_number (ai_type i), ai_value i).

(** ** Records *)
(** Type bounds and shapes of a device-information record. *)
Definition wf_device (d : device_info) : Prop :=
  di_status d <= 1 /\
  ia_area (di_addr d) < 16 /\ ia_line (di_addr d) < 16 /\ ia_address (di_addr d) < 256 /\
  di_project d < 65536 /\
  length (di_serial d) = 6%nat /\ length (di_multicast d) = 4%nat /\
  length (di_mac d) = 6%nat /\ length (di_name d) = 30%nat.

(** ** Datagrams *)
(** What each accepted datagram looks like. *)
Definition looks_like (bs : list N) (r : response) : Prop :=
  match r with
  | RTunReq t => exists size pad tail, 10 <= size < 65536 /\
      bs = [0x06; 0x10] ++ word 0x0420 ++ word size ++ [4; tr_chan t; tr_seq t; pad] ++ tail /\
      tr_cemi t = firstn (N.to_nat size - 10) tail ++ repeat 0 (N.to_nat size - 10 - length tail)
  | RTunAck a => exists rest, bs = frame 0x0421 [4; ta_chan a; ta_seq a; ta_status a] ++ rest
  | RFeature f => exists rest x y, y = feature_number (fr_feature f) /\
      bs = frame 0x0423 [4; fr_chan f; fr_seq f; x; y; fr_status f; fr_value f] ++ rest
  | RConnState s => exists rest, bs = frame 0x0208 [ss_chan s; ss_status s] ++ rest
  | RDiscResp s => exists rest, bs = frame 0x020a [ds_chan s; ds_status s] ++ rest
  | RDiscReq _ => False
  end.

(** The total length a datagram declares in its header. *)
Definition declared (d : list N) : N := 256 * nth 4 d 0 + nth 5 d 0.

(** ** Addresses *)
(** Address kinds with the ranges in which the encoding is injective. *)
Definition in_range (a : knx_address) : Prop :=
  match a with
  | Individual a => ia_area a < 16 /\ ia_line a < 16 /\ ia_address a < 256
  | Group3Level a => g3_main a < 32 /\ g3_middle a < 8 /\ g3_sub a < 256
  | Group2Level a => g2_main a < 256 /\ g2_sub a < 256
  | Group1Level a => g1_main a < 65536
  end.
Definition same_kind (a b : knx_address) : Prop :=
  match a, b with
  | Individual _, Individual _ | Group3Level _, Group3Level _
  | Group2Level _, Group2Level _ | Group1Level _, Group1Level _ => True
  | _, _ => False
  end.
(** The texts that denote an address. *)
Definition denotes (s : list N) (a : knx_address) : Prop :=
  match a with
  | Individual a => exists t1 t2 t3, s = t1 ++ [46] ++ t2 ++ [46] ++ t3 /\
      number t1 (ia_area a) /\ number t2 (ia_line a) /\ number t3 (ia_address a) /\
      ia_area a <= 255 /\ ia_line a <= 255 /\ ia_address a <= 255
  | Group3Level a => exists t1 t2 t3, s = t1 ++ [47] ++ t2 ++ [47] ++ t3 /\
      number t1 (g3_main a) /\ number t2 (g3_middle a) /\ number t3 (g3_sub a) /\
      g3_main a <= 255 /\ g3_middle a <= 255 /\ g3_sub a <= 255
  | Group2Level a => exists t1 t2, s = t1 ++ [47] ++ t2 /\
      number t1 (g2_main a) /\ number t2 (g2_sub a) /\ g2_main a <= 255 /\ g2_sub a <= 255
  | Group1Level a => number s (g1_main a) /\ g1_main a <= 65535
  end.

(** ** f32 *)
(** The values of the type f32 among [spec_float]: canonical binary32. *)
Definition is_f32 (x : spec_float) : Prop := valid_binary 24 128 x = true.
Definition f_finite (x : spec_float) : Prop :=
  match x with S754_zero _ | S754_finite _ _ _ => True | _ => False end.
Definition f_infinite (x : spec_float) : Prop :=
  match x with S754_infinity _ => True | _ => False end.
(** The value of a finite f32 in units of 2^-149 (the least positive f32). *)
Definition f_units (x : spec_float) : Z :=
  match x with
  | S754_finite s m e => ((if s then -1 else 1) * (Zpos m * 2 ^ (e + 149)))%Z
  | _ => 0%Z
  end.

(** [x] is the value of the 2-byte float [code], up to the precision of f32. *)
Definition decodes_to (code : N) (x : spec_float) : Prop :=
  is_f32 x /\ f_finite x /\
  (2 ^ 22 * Z.abs (100 * f_units x - knx_hundredths code * 2 ^ 149) <=
   Z.abs (knx_hundredths code) * 2 ^ 149)%Z.
(** Least number of halvings bringing a value (in units of 2^-149) into
    -2048..2048. *)
Definition least_exponent (W k : Z) : Prop :=
  (0 <= k /\ Z.abs W <= 2 ^ (160 + k) /\ (k = 0 \/ 2 ^ (159 + k) < Z.abs W))%Z.
(** A 2-byte float within half a step of size 2^k hundredths of the value W
    (hundredths in units of 2^-149). *)
Definition within_half_step (code : N) (W k : Z) : Prop :=
  (2 * Z.abs (knx_hundredths code * 2 ^ 149 - W) <= 2 ^ (149 + k))%Z.
(** The 2-byte floats the encoder can reproduce: least exponent, and the
    exponent within 0..7. *)
Definition canonical_code (code : N) : bool :=
  let m := Z.abs (knx_mantissa code) in
  ((code <? 32768) || negb (code mod 2048 =? 0)) &&
  ((knx_exponent code =? 0) || ((knx_exponent code <? 8) && (1024 <? m)))%Z.
