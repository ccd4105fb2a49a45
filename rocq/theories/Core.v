(** Model of src/packets/core.rs. *)
From Verif Require Import Base Addresses.
Open Scope parser_scope.

(** ** KNXnet/IP header *)
(** core.rs:38-41. *)
Record ip_header := { h_service : N; h_total : N }.
(** core.rs:44-49. *)
Definition header_packet (h : ip_header) : list N :=
  [6; 0x10] ++ be16 (h_service h) ++ be16 (h_total h).
(** core.rs:51-86. *)
Definition header_from_packet : parser ip_header :=
  hl <- read_u8 ;; ensure (hl =? 6) ;;;
  v <- read_u8 ;; ensure (v =? 0x10) ;;;
  service <- read_u16 ;;
  total <- read_u16 ;;
  ret {| h_service := service; h_total := total |}.

(** ** HPAI *)
(** core.rs:706-709; [SocketAddrV4] is its four octets and its port. *)
Record hpai := { hp_code : N; hp_ip : list N; hp_port : N }.
(** core.rs:712-724. *)
Definition hpai_udp : hpai := {| hp_code := 1; hp_ip := [0; 0; 0; 0]; hp_port := 0 |}.
Definition hpai_tcp : hpai := {| hp_code := 2; hp_ip := [0; 0; 0; 0]; hp_port := 0 |}.
(** core.rs:726-728. *)
Definition hpai_set_addr (h : hpai) (ip : list N) (port : N) : hpai :=
  {| hp_code := hp_code h; hp_ip := ip; hp_port := port |}.
(** core.rs:730-738. *)
Definition hpai_packet (h : hpai) : list N :=
  [8; hp_code h] ++ hp_ip h ++ be16 (hp_port h).
(** core.rs:740-780. *)
Definition hpai_from_packet : parser hpai :=
  size <- read_u8 ;; ensure (size =? 8) ;;;
  code <- read_u8 ;;
  ip1 <- read_u8 ;;
  ip2 <- read_u8 ;;
  ip3 <- read_u8 ;;
  ip4 <- read_u8 ;;
  port <- read_u16 ;;
  ret {| hp_code := code; hp_ip := [ip1; ip2; ip3; ip4]; hp_port := port |}.
Definition wf_hpai (h : hpai) : Prop :=
  byte (hp_code h) /\ bytes (hp_ip h) /\ length (hp_ip h) = 4%nat /\ hp_port h < 65536.

(** ** CRI, CRD *)
(** core.rs:94-107. *)
Definition tunnel_linklayer : N := 0x02.
Definition tunnel_raw : N := 0x04.
Definition tunnel_busmonitor : N := 0x80.
(** core.rs:109-111; a CRI is its connection type. *)
Definition cri_packet (connection_type : N) : list N := [4; 4; connection_type; 0].
(** core.rs:117-119; a CRD is its individual address. *)
(** core.rs:122-146. *)
Definition crd_from_packet : parser individual :=
  size <- read_u8 ;; ensure (size =? 4) ;;;
  conn <- read_u8 ;; ensure (conn =? 4) ;;;
  addr <- read_u16 ;;
  ret (individual_from_u16 addr).
(** core.rs:148-152. *)
Definition crd_packet (a : individual) : list N := [4; 4] ++ be16 (individual_to_u16 a).

(** ** Connection request / response *)
(** core.rs:159-163. *)
Record connection_request := { cq_control : hpai; cq_data : hpai; cq_cri : N }.
(** core.rs:166-180. *)
Definition connection_request_tunnel : connection_request :=
  {| cq_control := hpai_udp; cq_data := hpai_udp; cq_cri := tunnel_linklayer |}.
Definition connection_request_busmonitor : connection_request :=
  {| cq_control := hpai_udp; cq_data := hpai_udp; cq_cri := tunnel_busmonitor |}.
(** core.rs:182-199. *)
Definition connection_request_packet (c : connection_request) : list N :=
  let a := hpai_packet (cq_control c) in
  let b := hpai_packet (cq_data c) in
  let d := cri_packet (cq_cri c) in
  [6; 0x10; 2; 5] ++ be16 (as_u16 (6 + lenN a + lenN b + lenN d)) ++ a ++ b ++ d.

(** core.rs:206-211. *)
Record connection_response := { cr_chan : N; cr_status : N; cr_endpoint : hpai; cr_crd : individual }.
(** core.rs:25-28, 270-282: the statuses rejected while parsing. *)
Definition status_rejected (s : N) : bool :=
  (s =? 0x22) || (s =? 0x23) || (s =? 0x24) || (s =? 0x29).
(** core.rs:223-293. *)
Definition connection_response_from_packet : parser connection_response :=
  hs <- read_u8 ;; ensure (hs =? 6) ;;;
  v <- read_u8 ;; ensure (v =? 0x10) ;;;
  code <- read_u16 ;; ensure (code =? 0x0206) ;;;
  size <- read_u16 ;; ensure (8 <=? size) ;;;
  chan <- read_u8 ;;
  status <- read_u8 ;;
  ensure (negb (status_rejected status)) ;;;
  ep <- hpai_from_packet ;;
  crd <- crd_from_packet ;;
  ret {| cr_chan := chan; cr_status := status; cr_endpoint := ep; cr_crd := crd |}.
(** core.rs:295-300. *)
Definition connection_response_packet (c : connection_response) : list N :=
  [0x06; 0x10; 0x02; 0x06; 0x08; cr_chan c; cr_status c]
  ++ hpai_packet (cr_endpoint c) ++ crd_packet (cr_crd c).

(** ** Connectionstate request / response *)
(** core.rs:307-310. *)
Record connstate_request := { sq_chan : N; sq_endpoint : hpai }.
(** core.rs:320-325. *)
Definition connstate_of_connection_response (r : connection_response) : connstate_request :=
  {| sq_chan := cr_chan r; sq_endpoint := cr_endpoint r |}.
(** core.rs:327-371. *)
Definition connstate_request_from_packet : parser connstate_request :=
  hs <- read_u8 ;; ensure (hs =? 6) ;;;
  v <- read_u8 ;; ensure (v =? 0x10) ;;;
  code <- read_u16 ;; ensure (code =? 0x0207) ;;;
  _size <- read_u16 ;;
  chan <- read_u8 ;;
  _pad <- read_u8 ;;
  ep <- hpai_from_packet ;;
  ret {| sq_chan := chan; sq_endpoint := ep |}.
(** core.rs:373-384. *)
Definition connstate_request_packet (c : connstate_request) : list N :=
  let e := hpai_packet (sq_endpoint c) in
  [0x06; 0x10; 0x02; 0x07] ++ be16 (as_u16 (4 + 4 + lenN e)) ++ [sq_chan c; 0] ++ e.

(** core.rs:394-397. *)
Record connstate_response := { ss_chan : N; ss_status : N }.
(** core.rs:400-447. *)
Definition connstate_response_from_packet : parser connstate_response :=
  hs <- read_u8 ;; ensure (hs =? 6) ;;;
  v <- read_u8 ;; ensure (v =? 0x10) ;;;
  code <- read_u16 ;; ensure (code =? 0x0208) ;;;
  size <- read_u16 ;; ensure (size =? 8) ;;;
  chan <- read_u8 ;;
  status <- read_u8 ;;
  ret {| ss_chan := chan; ss_status := status |}.
(** core.rs:449-452. *)
Definition connstate_response_packet (c : connstate_response) : list N :=
  [0x06; 0x10; 0x02; 0x08; 0x00; 0x08; ss_chan c; ss_status c].

(** ** Disconnect request / response *)
(** core.rs:459-462. *)
Record disconnect_request := { dq_chan : N; dq_endpoint : hpai }.
(** core.rs:471-476. *)
Definition disconnect_of_connection_response (r : connection_response) : disconnect_request :=
  {| dq_chan := cr_chan r; dq_endpoint := cr_endpoint r |}.
(** core.rs:478-503. *)
Definition disconnect_request_from_packet : parser disconnect_request :=
  hs <- read_u8 ;; ensure (8 <=? hs) ;;;
  chan <- read_u8 ;;
  _reserved <- read_u8 ;;
  ep <- hpai_from_packet ;;
  ret {| dq_chan := chan; dq_endpoint := ep |}.
(** core.rs:505-516. *)
Definition disconnect_request_packet (c : disconnect_request) : list N :=
  let e := hpai_packet (dq_endpoint c) in
  [0x06; 0x10; 0x02; 0x09] ++ be16 (as_u16 (4 + 4 + lenN e)) ++ [dq_chan c; 0] ++ e.

(** core.rs:523-526. *)
Record disconnect_response := { ds_chan : N; ds_status : N }.
(** core.rs:529-534. *)
Definition disconnect_response_of_request (r : disconnect_request) : disconnect_response :=
  {| ds_chan := dq_chan r; ds_status := 0 |}.
(** core.rs:536-583. *)
Definition disconnect_response_from_packet : parser disconnect_response :=
  hs <- read_u8 ;; ensure (hs =? 6) ;;;
  v <- read_u8 ;; ensure (v =? 0x10) ;;;
  code <- read_u16 ;; ensure (code =? 0x020a) ;;;
  size <- read_u16 ;; ensure (size =? 8) ;;;
  chan <- read_u8 ;;
  status <- read_u8 ;;
  ret {| ds_chan := chan; ds_status := status |}.
(** core.rs:585-592. *)
Definition disconnect_response_packet (c : disconnect_response) : list N :=
  [0x06; 0x10; 0x02; 0x0A] ++ be16 8 ++ [ds_chan c; ds_status c].

(** ** Search request *)
(** core.rs:599-601: a search request is its discovery endpoint. *)
(** core.rs:31-33, 607-611. *)
Definition search_request_udp : hpai := hpai_set_addr hpai_udp [224; 0; 23; 12] 3671.
(** core.rs:615-619. *)
Definition search_request_unicast (ip : list N) (port : N) : hpai := hpai_set_addr hpai_udp ip port.
(** core.rs:621-629. *)
Definition search_request_packet (e : hpai) : list N :=
  let h := hpai_packet e in
  [0x06; 0x10; 0x02; 0x01] ++ be16 (as_u16 (4 + 2 + lenN h)) ++ h.
(** core.rs:631-642. *)
Definition search_request_from_packet : parser hpai :=
  h <- header_from_packet ;;
  ensure (h_service h =? 0x0201) ;;;
  hpai_from_packet.

(** ** Description information blocks *)
(** core.rs:786-793. *)
Inductive type_code := TDeviceInfo | TFamilies | TIpConfig | TIpCurrent | TAddresses | TManufacturer.
Definition type_code_num (t : type_code) : N :=
  match t with
  | TDeviceInfo => 0x01 | TFamilies => 0x02 | TIpConfig => 0x03
  | TIpCurrent => 0x04 | TAddresses => 0x05 | TManufacturer => 0xFE
  end.
(** core.rs:795-809. *)
Definition type_code_try_from (v : N) : res type_code :=
  match v with
  | 0x01 => Ok TDeviceInfo
  | 0x02 => Ok TFamilies
  | 0x03 => Ok TIpConfig
  | 0x04 => Ok TIpCurrent
  | 0x05 => Ok TAddresses
  | 0xFE => Ok TManufacturer
  | _ => Err
  end.
(** core.rs:899-904. *)
Inductive knx_medium := TP1 | PL110 | RF | IP.
Definition medium_num (m : knx_medium) : N :=
  match m with TP1 => 0x02 | PL110 => 0x03 | RF => 0x10 | IP => 0x20 end.
(** core.rs:906-918. *)
Definition medium_try_from (v : N) : res knx_medium :=
  match v with
  | 0x02 => Ok TP1 | 0x03 => Ok PL110 | 0x10 => Ok RF | 0x20 => Ok IP | _ => Err
  end.
(** core.rs:920-927: [DeviceStatus::from_bits_truncate] keeps the known bit 0. *)
Definition status_truncate (v : N) : N := N.land v 1.

(** core.rs:932-944.  In every record below the field [description_type_code]
    is omitted: each constructor fixes it (lines 969, 1032, 1085, 1135, 1199,
    1249, 1284) and nothing reads it. *)
Record device_info := {
  di_len : N; di_medium : knx_medium; di_status : N; di_addr : individual;
  di_project : N; di_serial : list N; di_multicast : list N; di_mac : list N;
  di_name : list N }.
(** core.rs:1056-1060, 1048-1051: a family is (service_family, version). *)
Record families := { sf_len : N; sf_list : list (N * N) }.
(** core.rs:1094-1102. *)
Record ip_config := {
  ic_len : N; ic_ip : list N; ic_mask : list N; ic_gateway : list N;
  ic_caps : N; ic_method : N }.
(** core.rs:1148-1157. *)
Record ip_current := {
  iu_len : N; iu_ip : list N; iu_mask : list N; iu_gateway : list N;
  iu_dhcp : list N; iu_method : N; iu_reserved : N }.
(** core.rs:1213-1218. *)
Record knx_addresses := { ka_len : N; ka_addr : list N; ka_more : list (list N) }.
(** core.rs:1259-1264. *)
Record manufacturer := { md_len : N; md_id : N; md_data : list N }.
(** core.rs:814-821. *)
Inductive dib :=
| DibDevice (d : device_info)
| DibFamilies (d : families)
| DibIpConfig (d : ip_config)
| DibIpCurrent (d : ip_current)
| DibAddresses (d : knx_addresses)
| DibManufacturer (d : manufacturer).

(** core.rs:824-833. *)
Definition dib_structure_length (d : dib) : N :=
  match d with
  | DibDevice d => di_len d
  | DibFamilies d => sf_len d
  | DibIpConfig d => ic_len d
  | DibIpCurrent d => iu_len d
  | DibAddresses d => ka_len d
  | DibManufacturer d => md_len d
  end.

(** core.rs:988-999. *)
Definition device_info_packet (d : device_info) : list N :=
  [medium_num (di_medium d); di_status d] ++ be16 (individual_to_u16 (di_addr d))
  ++ be16 (di_project d) ++ di_serial d ++ di_multicast d ++ di_mac d ++ di_name d.
(** core.rs:1001-1042. *)
Definition device_info_from_packet (structure_length : N) : parser device_info :=
  m <- read_u8 ;;
  medium <- lift (medium_try_from m) ;;
  st <- read_u8 ;;
  addr <- read_u16 ;;
  project <- read_u16 ;;
  serial <- read_exact 6 ;;
  multicast <- read_exact 4 ;;
  mac <- read_exact 6 ;;
  name <- read_exact 30 ;;
  ret {| di_len := structure_length; di_medium := medium; di_status := status_truncate st;
         di_addr := individual_from_u16 addr; di_project := project; di_serial := serial;
         di_multicast := multicast; di_mac := mac; di_name := name |}.

(** core.rs:1063-1072. *)
Definition families_packet (d : families) : list N :=
  flat_map (fun fv => [fst fv; snd fv]) (sf_list d).
(** core.rs:1076-1081: the [for] loop. *)
Fixpoint read_families (n : nat) : parser (list (N * N)) :=
  match n with
  | O => ret []
  | S n' =>
      f <- read_u8 ;;
      v <- read_u8 ;;
      rest <- read_families n' ;;
      ret ((f, v) :: rest)
  end.
(** core.rs:1074-1088; [structure_length - 2] is a u8 subtraction. *)
Definition families_from_packet (p : profile) (structure_length : N) : parser families :=
  d <- lift (sub_chk p u8_max1 structure_length 2) ;;
  l <- read_families (N.to_nat (d / 2)) ;;
  ret {| sf_len := structure_length; sf_list := l |}.

(** core.rs:1105-1113. *)
Definition ip_config_packet (d : ip_config) : list N :=
  ic_ip d ++ ic_mask d ++ ic_gateway d ++ [ic_caps d; ic_method d].
(** core.rs:1115-1142. *)
Definition ip_config_from_packet (structure_length : N) : parser ip_config :=
  ip <- read_exact 4 ;;
  mask <- read_exact 4 ;;
  gw <- read_exact 4 ;;
  caps <- read_u8 ;;
  meth <- read_u8 ;;
  ret {| ic_len := structure_length; ic_ip := ip; ic_mask := mask; ic_gateway := gw;
         ic_caps := caps; ic_method := meth |}.

(** core.rs:1160-1169. *)
Definition ip_current_packet (d : ip_current) : list N :=
  iu_ip d ++ iu_mask d ++ iu_gateway d ++ iu_dhcp d ++ [iu_method d; iu_reserved d].
(** core.rs:1171-1207. *)
Definition ip_current_from_packet (structure_length : N) : parser ip_current :=
  ip <- read_exact 4 ;;
  mask <- read_exact 4 ;;
  gw <- read_exact 4 ;;
  dhcp <- read_exact 4 ;;
  meth <- read_u8 ;;
  reserved <- read_u8 ;;
  ret {| iu_len := structure_length; iu_ip := ip; iu_mask := mask; iu_gateway := gw;
         iu_dhcp := dhcp; iu_method := meth; iu_reserved := reserved |}.

(** core.rs:1221-1228. *)
Definition knx_addresses_packet (d : knx_addresses) : list N :=
  ka_addr d ++ concat (ka_more d).
(** core.rs:1238-1245: the [for] loop. *)
Fixpoint read_quads (n : nat) : parser (list (list N)) :=
  match n with
  | O => ret []
  | S n' =>
      a <- read_exact 4 ;;
      rest <- read_quads n' ;;
      ret (a :: rest)
  end.
(** core.rs:1230-1253; [structure_length - 4] is a u8 subtraction. *)
Definition knx_addresses_from_packet (p : profile) (structure_length : N) : parser knx_addresses :=
  a <- read_exact 4 ;;
  d <- lift (sub_chk p u8_max1 structure_length 4) ;;
  more <- read_quads (N.to_nat (d / 2)) ;;
  ret {| ka_len := structure_length; ka_addr := a; ka_more := more |}.

(** core.rs:1267-1272. *)
Definition manufacturer_packet (d : manufacturer) : list N := be16 (md_id d) ++ md_data d.
(** core.rs:1274-1288: reads [structure_length] bytes of data. *)
Definition manufacturer_from_packet (structure_length : N) : parser manufacturer :=
  id <- read_u16 ;;
  data <- read_exact (N.to_nat structure_length) ;;
  ret {| md_len := structure_length; md_id := id; md_data := data |}.

(** core.rs:838-845. *)
Definition dib_body (d : dib) : type_code * list N :=
  match d with
  | DibDevice d => (TDeviceInfo, device_info_packet d)
  | DibFamilies d => (TFamilies, families_packet d)
  | DibIpConfig d => (TIpConfig, ip_config_packet d)
  | DibIpCurrent d => (TIpCurrent, ip_current_packet d)
  | DibAddresses d => (TAddresses, knx_addresses_packet d)
  | DibManufacturer d => (TManufacturer, manufacturer_packet d)
  end.
(** core.rs:835-859. *)
Definition dib_packet (d : dib) : list N :=
  let '(t, data) := dib_body d in
  let structure_length := 2 + lenN data in
  [as_u8 structure_length; type_code_num t] ++ data
  ++ (if N.odd structure_length then [0] else []).
(** core.rs:861-894. *)
Definition dib_from_packet (p : profile) : parser dib :=
  sl <- read_u8 ;;
  tc <- read_u8 ;;
  t <- lift (type_code_try_from tc) ;;
  match t with
  | TDeviceInfo => d <- device_info_from_packet sl ;; ret (DibDevice d)
  | TFamilies => d <- families_from_packet p sl ;; ret (DibFamilies d)
  | TIpConfig => d <- ip_config_from_packet sl ;; ret (DibIpConfig d)
  | TIpCurrent => d <- ip_current_from_packet sl ;; ret (DibIpCurrent d)
  | TAddresses => d <- knx_addresses_from_packet p sl ;; ret (DibAddresses d)
  | TManufacturer => d <- manufacturer_from_packet sl ;; ret (DibManufacturer d)
  end.

(** ** Search response *)
(** core.rs:649-653. *)
Record search_response := { sr_control : hpai; sr_device : device_info; sr_families : families }.
(** core.rs:656-670: the two blocks are written without their DIB headers. *)
Definition search_response_packet (s : search_response) : list N :=
  let c := hpai_packet (sr_control s) in
  let d := device_info_packet (sr_device s) in
  let f := families_packet (sr_families s) in
  [0x06; 0x10; 0x02; 0x02] ++ be16 (as_u16 (4 + 2 + lenN c + lenN d + lenN f)) ++ c ++ d ++ f.
(** core.rs:672-697. *)
Definition search_response_from_packet (p : profile) : parser search_response :=
  h <- header_from_packet ;;
  ensure (h_service h =? 0x0202) ;;;
  c <- hpai_from_packet ;;
  d1 <- dib_from_packet p ;;
  dev <- (match d1 with DibDevice d => ret d | _ => fail end) ;;
  d2 <- dib_from_packet p ;;
  fam <- (match d2 with DibFamilies f => ret f | _ => fail end) ;;
  ret {| sr_control := c; sr_device := dev; sr_families := fam |}.

(** ** Friendly name *)
(** core.rs:948-979.  A Rust [String] is the list of its Unicode scalar
    values.  The encoding crate's ISO_8859_1 encoder maps every scalar up to
    0xFF to the byte of the same value and, with [EncoderTrap::Strict], fails on
    any other; [Vec<u8>::try_into::<[u8; 30]>] succeeds only on length 30. *)
Definition iso_encode (s : list N) : option (list N) :=
  if forallb (fun c => c <=? 0xff) s then Some s else None.
Definition device_info_new (structure_length : N) (medium : knx_medium) (status : N)
    (addr : individual) (project : N) (serial multicast mac name : list N) : res device_info :=
  match iso_encode name with
  | None => Err
  | Some bs =>
      if Nat.eqb (length bs) 30 then
        Ok {| di_len := structure_length; di_medium := medium; di_status := status;
              di_addr := addr; di_project := project; di_serial := serial;
              di_multicast := multicast; di_mac := mac; di_name := bs |}
      else Err
  end.
(** core.rs:982-986: decoding ISO 8859-1 never fails and maps each byte to the
    scalar of the same value. *)
Definition friendly_name (d : device_info) : res (list N) := Ok (di_name d).
