(** Specification: KNX layouts written down independently of the model's
    encoders and decoders.  Only [list N], [byte], [bytes] and plain arithmetic
    are used. *)
From Verif Require Import Base.
Open Scope N_scope.

(** ** KNXnet/IP frames (03.08.02 Core, 2.3) *)
(** Two octets, most significant first. *)
Definition word (n : N) : list N := [n / 256; n mod 256].
(** Four octets, most significant first. *)
Definition dword (n : N) : list N :=
  [n / 16777216; n / 65536 mod 256; n / 256 mod 256; n mod 256].
(** Header length 6, version 1.0, service identifier, total length, body. *)
Definition frame (service : N) (body : list N) : list N :=
  [0x06; 0x10] ++ word service ++ word (6 + N.of_nat (length body)) ++ body.
(** Host protocol address information: 8 octets. *)
Definition hpai_bytes (code : N) (ip : list N) (port : N) : list N :=
  [8; code] ++ ip ++ word port.
(** An IPv4 address. *)
Definition ipv4 (ip : list N) : Prop := length ip = 4%nat /\ bytes ip.

(** ** Addresses (03.03.02, 03.03.04) *)
Definition individual_layout (area line device : N) : N := area * 4096 + line * 256 + device.
Definition group3_layout (main middle sub : N) : N := main * 2048 + middle * 256 + sub.
Definition group2_layout (main sub : N) : N := main * 2048 + sub.

(** ** Description information blocks (03.08.02 Core, 7.5.4): structure length,
    type code, contents. *)
Definition block (type : N) (body : list N) : list N :=
  [2 + N.of_nat (length body); type] ++ body.

(** ** cEMI (03.06.03, 4.1): message code, length of the additional
    information, the additional information elements, service information. *)
Definition info_bytes (i : N * list N) : list N := [fst i; N.of_nat (length (snd i))] ++ snd i.
Definition infos_bytes (is : list (N * list N)) : list N := concat (map info_bytes is).
Definition cemi_bytes (code : N) (is : list (N * list N)) (service : list N) : list N :=
  [code; N.of_nat (length (infos_bytes is))] ++ infos_bytes is ++ service.
(** The additional information types of the standard. *)
Definition known_info (t : N) : Prop :=
  In t [0x01; 0x02; 0x03; 0x04; 0x05; 0x06; 0x07; 0x08; 0x09; 0x0a; 0xfe].

(** Service information of an L_Data frame: control 1, control 2, source,
    destination, length, TPCI/APCI word, data. *)
Definition ldata_bytes (c1 c2 src dst len apci : N) (data : list N) : list N :=
  [c1; c2] ++ word src ++ word dst ++ [len] ++ word apci ++ data.
(** APCI words. *)
Definition apci_group_read : N := 0x000.
Definition apci_group_write : N := 0x080.

(** ** Texts *)
Definition is_digit (c : N) : Prop := 48 <= c <= 57.
(** Value of a digit string. *)
Definition digits_value (s : list N) : N := fold_left (fun v c => v * 10 + (c - 48)) s 0.
(** [s] is a decimal number with optional leading plus, of value [n]. *)
Definition number (s : list N) (n : N) : Prop :=
  exists ds, (s = ds \/ s = 43 :: ds) /\ ds <> [] /\ Forall is_digit ds /\ digits_value ds = n.

(** ** KNX 2-byte float (03.07.02, DPT 9): sign, 4-bit exponent, 11-bit
    mantissa; the value is 0.01 * M * 2^E with M in two's complement over
    sign and mantissa.  In hundredths: *)
Definition knx_exponent (code : N) : Z := Z.of_N (code / 2048 mod 16).
Definition knx_mantissa (code : N) : Z :=
  (Z.of_N (code mod 2048) - (if (32768 <=? code)%N then 2048 else 0))%Z.
Definition knx_hundredths (code : N) : Z := (knx_mantissa code * 2 ^ knx_exponent code)%Z.

(** A complete KNXnet/IP datagram of the given service: correct header, total
    length equal to the number of octets, every element an octet. *)
Definition valid_frame (service : N) (bs : list N) : Prop :=
  bytes bs /\ N.of_nat (length bs) < 65536 /\ exists body, bs = frame service body.

(** Contents of a device-information block (03.08.02, 7.5.4.2) and of a
    supported-service-families block (7.5.4.3). *)
Definition device_body (medium status addr project : N) (serial multicast mac name : list N) : list N :=
  [medium; status] ++ word addr ++ word project ++ serial ++ multicast ++ mac ++ name.
Definition family_body (fs : list (N * N)) : list N := concat (map (fun f => [fst f; snd f]) fs).

(** What a read into a zeroed buffer of n bytes delivers. *)
Definition take_padded (n : nat) (bs : list N) : list N := firstn n bs ++ repeat 0 (n - length bs).
(** Least body length of each received service. *)
Definition min_body (service : N) : nat :=
  match service with
  | 0x0420 | 0x0421 => 4%nat | 0x0423 => 7%nat | 0x020a | 0x0208 => 2%nat | _ => 0%nat
  end.
(** The value a reader should see: the six low bits for a short value. *)
Definition carried (v : list N) (small : bool) : list N :=
  if small then [hd 0 v mod 64] else v.
