(** Specification for typed group values, transport control information and
    bus-monitor frames.  Used by PropsTyped.v. *)
From Coq.Floats Require Import SpecFloat.
From Verif Require Import Base Apdu DpTypes Wire Spec.
Open Scope N_scope.

(** ** Typed values (03.07.02) *)
(** The value fits the Rust type of its field. *)
Definition wf_pdt (d : pdt) : Prop :=
  match d with
  | PScaled v => sc_value v < 256
  | PInt v => (-32768 <= in_value v <= 32767)%Z
  | PFloat v => is_f32 (fl_value v)
  | PByte v => by_value v < 256
  | PWord v => wo_value v < 65536
  | PULong v => ul_value v < 4294967296
  | PBit _ => True
  | PB1U3 v => b3_step v < 8
  end.
(** The APDU of a group write of this value: values of at most six bits in the
    APCI word, others after it.  The 2-byte float has its own theorems. *)
Definition write_octets (d : pdt) (bs : list N) : Prop :=
  match d with
  | PScaled v => bs = [0; 0x80; sc_value v]
  | PInt v => bs = [0; 0x80] ++ word (Z.to_N (if (in_value v <? 0)%Z then in_value v + 65536 else in_value v))
  | PFloat _ => exists code, code < 65536 /\ bs = [0; 0x80] ++ word code
  | PByte v => bs = [0; 0x80; by_value v]
  | PWord v => bs = [0; 0x80] ++ word (wo_value v)
  | PULong v => bs = [0; 0x80] ++ dword (ul_value v)
  | PBit v => bs = [0; if bi_value v then 0x81 else 0x80]
  | PB1U3 v => bs = [0; 0x80 + (if b3_bit v then 8 else 0) + b3_step v]
  end.
(** Decoding [bs] with the decoder of the type gives the value back (for the
    2-byte float: [bs] is what the encoder made of it, see C45-C47). *)
Definition reads_back (p : profile) (fuel : nat) (d : pdt) (bs : list N) : Prop :=
  match d with
  | PScaled v => exists w, scaled_from_bytes bs = Ok w /\ sc_value w = sc_value v
  | PInt v => exists w, int_from_bytes bs = Ok w /\ in_value w = in_value v
  | PFloat v => float_get_bytes p fuel v = Done bs
  | PByte v => exists w, byte_from_bytes bs = Ok w /\ by_value w = by_value v
  | PWord v => exists w, word_from_bytes bs = Ok w /\ wo_value w = wo_value v
  | PULong v => exists w, ulong_from_bytes bs = Ok w /\ ul_value w = ul_value v
  | PBit v => exists w, bit_from_bytes bs = Ok w /\ bi_value w = bi_value v
  | PB1U3 v => exists w, b1u3_from_bytes bs = Ok w /\ b3_bit w = b3_bit v /\ b3_step w = b3_step v
  end.
(** The 2-byte float encoder returns for this value (C44). *)
Definition encodable (x : spec_float) : Prop :=
  ~ f_infinite x /\ (200 * Z.abs (f_units x) < (2 ^ 25 - 1) * 2 ^ 253)%Z.

(** ** Transport control information (03.03.04, 2): the six high bits of the
    first octet of the TPDU. *)
Inductive tservice := DataBroadcast | DataGroup | DataTagGroup | DataIndividual | DataConnected (seq : N) | Connect | Disconnect.
Definition tpci (s : tservice) : N :=
  match s with
  | DataBroadcast | DataGroup | DataIndividual => 0x00
  | DataTagGroup => 0x04
  | DataConnected seq => 0x40 + 4 * seq
  | Connect => 0x80
  | Disconnect => 0x81
  end.
Definition make_tpdu (s : tservice) (a : apdu) : tpdu :=
  match s with
  | DataBroadcast => t_data_broadcast a
  | DataGroup => t_data_group a
  | DataTagGroup => t_data_tag_group a
  | DataIndividual => t_data_individual a
  | DataConnected seq => t_data_connected a seq
  | Connect => t_connect a
  | Disconnect => t_disconnect a
  end.
(** The control services carry nothing but their TPCI octet; for the others it
    is combined with the first octet of the APDU. *)
Definition tpdu_octets (s : tservice) (a : list N) : list N :=
  match s with
  | Connect | Disconnect => [tpci s]
  | _ => match a with [] => [] | x :: rest => (tpci s + x mod 4) :: rest end
  end.

(** What the fields of a TPDU say (03.03.04, 2): bit 7 control, bit 6 numbered,
    bits 2-5 the sequence number; for an unnumbered control TPDU the service in
    bits 0-1 instead. *)
Definition fields_octet (t : tpdu) : N :=
  match tp_kind t, tp_numbered t with
  | KData, false => 4 * tp_seq t
  | KData, true => 0x40 + 4 * tp_seq t
  | KControl, false => 0x80 + tp_seq t
  | KControl, true => 0xc0 + 4 * tp_seq t
  end.
Definition to_group (s : tservice) : Prop := s = DataBroadcast \/ s = DataGroup \/ s = DataTagGroup.

(** ** A standard frame as seen on the bus (03.02.02, 2.2.4): control, source,
    destination, address type / hop count / length, TPDU, check octet. *)
Definition raw_frame (ctrl src dst npci : N) (tpdu : list N) (check : N) : list N :=
  [ctrl] ++ word src ++ word dst ++ [npci] ++ tpdu ++ [check].

(** ** Percentages *)
(** [x] <= [y] as numbers; no NaN is. *)
Definition f_le (x y : f32) : Prop :=
  match x, y with
  | S754_nan, _ | _, S754_nan => False
  | S754_infinity true, _ | _, S754_infinity false => True
  | S754_infinity false, _ | _, S754_infinity true => False
  | _, _ => (f_units x <= f_units y)%Z
  end.
(** 0 <= x <= 100. *)
Definition a_percentage (x : f32) : Prop := is_f32 x /\ f_finite x /\ (0 <= f_units x <= 100 * 2 ^ 149)%Z.

(** ** The 2-byte float *)
(** The inputs of C45 that are encoded to within half a step: [hundred] is the f32 product
    of the input and 100. *)
Definition no_gap (x : f32) : Prop :=
  is_f32 x /\ f_finite x /\ encodable x /\
  exists k, let W := f_units (f_mul x (f_of_Z 100)) in
    (least_exponent W k /\ k <= 15 /\ 2 * W < 4095 * 2 ^ (149 + k) /\ ~ (- 2 ^ 149 < 2 * W < 0))%Z.
(** In terms of the input alone, with exponent k: up to 20.474 * 2^k, for k > 0
    at least 10.241 * 2^k, and not between -0.006 and 0. *)
Definition clear_of_gaps (k : Z) (x : f32) : Prop :=
  is_f32 x /\ f_finite x /\
  let H := (100 * f_units x)%Z in let u := (2 ^ (149 + k))%Z in
  (10 * Z.abs H <= 20474 * u /\ (k = 0 \/ 10241 * u <= 10 * Z.abs H) /\ (0 <= H \/ 10 * H <= - 6 * 2 ^ 149))%Z.
(** Just below a power of two times 20.48, on either side of 0, and just below 0. *)
Definition upper_gap (k : Z) (x : f32) : Prop :=
  is_f32 x /\ f_finite x /\ (20476 * 2 ^ (149 + k) <= 1000 * f_units x <= 20479 * 2 ^ (149 + k))%Z.
Definition lower_gap (k : Z) (x : f32) : Prop :=
  is_f32 x /\ f_finite x /\
  ((- 20479 * 2 ^ (149 + k) <= 1000 * f_units x <= - 20476 * 2 ^ (149 + k)) \/ (- 4 * 2 ^ 149 <= 1000 * f_units x < 0))%Z.
