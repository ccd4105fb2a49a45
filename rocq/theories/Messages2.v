(** The texts of the errors of the remaining decoders: description blocks and
    search datagrams (src/packets/core.rs), L_Data messages (src/packets/emi.rs)
    and address texts (src/packets/addresses.rs). *)
From Verif Require Import Base Addresses Core Emi Messages.
Open Scope N_scope.

(** [read(..).whatever_context("Unable to read <what>")?]: the displayed text
    does not contain the cause. *)
Definition lacking (what : string) : string := "Unable to read " ++ what.
Definition c_u8 (what : string) : mparser N := mread read_u8 (lacking what).
Definition c_u16 (what : string) : mparser N := mread read_u16 (lacking what).
Definition c_exact (n : nat) (what : string) : mparser (list N) := mread (read_exact n) (lacking what).

(** ** Description blocks *)
(** core.rs:1001-1042, 906-918. *)
Definition m_device_info (structure_length : N) : mparser device_info :=
  m <- c_u8 "knx mediumn" ;;
  medium <- mlift (medium_try_from m) ("Unknown KnxMedium " ++ show_dec m) ;;
  st <- c_u8 "knx device status" ;;
  addr <- c_u16 "knx individual address" ;;
  project <- c_u16 "project installation identifier" ;;
  serial <- c_exact 6 "serial number" ;;
  multicast <- c_exact 4 "routing multicast address" ;;
  mac <- c_exact 6 "mac address" ;;
  name <- c_exact 30 "friendly name" ;;
  mret {| di_len := structure_length; di_medium := medium; di_status := status_truncate st;
          di_addr := individual_from_u16 addr; di_project := project; di_serial := serial;
          di_multicast := multicast; di_mac := mac; di_name := name |}.
(** core.rs:1076-1081. *)
Fixpoint m_family_list (n : nat) : mparser (list (N * N)) :=
  match n with
  | O => mret []
  | S n' =>
      f <- c_u8 "service family" ;;
      v <- c_u8 "version" ;;
      rest <- m_family_list n' ;;
      mret ((f, v) :: rest)
  end.
(** core.rs:1074-1088. *)
Definition m_families (p : profile) (structure_length : N) : mparser families :=
  d <- mlift (sub_chk p u8_max1 structure_length 2) "" ;;
  l <- m_family_list (N.to_nat (d / 2)) ;;
  mret {| sf_len := structure_length; sf_list := l |}.
(** core.rs:1115-1142. *)
Definition m_ip_config (structure_length : N) : mparser ip_config :=
  ip <- c_exact 4 "ip address" ;;
  mask <- c_exact 4 "subnet_mask" ;;
  gw <- c_exact 4 "default gateway" ;;
  caps <- c_u8 "ip capabilities" ;;
  meth <- c_u8 "ip assignment method" ;;
  mret {| ic_len := structure_length; ic_ip := ip; ic_mask := mask; ic_gateway := gw;
          ic_caps := caps; ic_method := meth |}.
(** core.rs:1171-1207. *)
Definition m_ip_current (structure_length : N) : mparser ip_current :=
  ip <- c_exact 4 "current ip address" ;;
  mask <- c_exact 4 "current subnet_mask" ;;
  gw <- c_exact 4 "current default gateway" ;;
  dhcp <- c_exact 4 "dhcp server" ;;
  meth <- c_u8 "current ip assignment method" ;;
  reserved <- c_u8 "reserved" ;;
  mret {| iu_len := structure_length; iu_ip := ip; iu_mask := mask; iu_gateway := gw;
          iu_dhcp := dhcp; iu_method := meth; iu_reserved := reserved |}.
(** core.rs:1238-1245. *)
Fixpoint m_quads (n : nat) : mparser (list (list N)) :=
  match n with
  | O => mret []
  | S n' =>
      a <- c_exact 4 "additional individual address" ;;
      rest <- m_quads n' ;;
      mret (a :: rest)
  end.
(** core.rs:1230-1253. *)
Definition m_addresses (p : profile) (structure_length : N) : mparser knx_addresses :=
  a <- c_exact 4 "knx individual address" ;;
  d <- mlift (sub_chk p u8_max1 structure_length 4) "" ;;
  more <- m_quads (N.to_nat (d / 2)) ;;
  mret {| ka_len := structure_length; ka_addr := a; ka_more := more |}.
(** core.rs:1274-1288. *)
Definition m_manufacturer (structure_length : N) : mparser manufacturer :=
  id <- c_u16 "knx manufacturer id" ;;
  data <- c_exact (N.to_nat structure_length) "manufacturer specific data" ;;
  mret {| md_len := structure_length; md_id := id; md_data := data |}.
(** core.rs:861-894, 795-809.  Line 863 repeats the text of line 862. *)
Definition m_dib (p : profile) : mparser dib :=
  sl <- c_u8 "structure length" ;;
  tc <- c_u8 "structure length" ;;
  t <- mlift (type_code_try_from tc) ("Unknown DescriptionTypeCode " ++ show_dec tc) ;;
  match t with
  | TDeviceInfo => d <- m_device_info sl ;; mret (DibDevice d)
  | TFamilies => d <- m_families p sl ;; mret (DibFamilies d)
  | TIpConfig => d <- m_ip_config sl ;; mret (DibIpConfig d)
  | TIpCurrent => d <- m_ip_current sl ;; mret (DibIpCurrent d)
  | TAddresses => d <- m_addresses p sl ;; mret (DibAddresses d)
  | TManufacturer => d <- m_manufacturer sl ;; mret (DibManufacturer d)
  end.

(** ** Search datagrams *)
(** core.rs:631-642. *)
Definition m_search_request : mparser hpai :=
  h <- m_header ;;
  mensure (h_service h =? 0x0201) ("Search request should be 0x0201 instead of " ++ show_2X (h_service h)) ;;;
  m_hpai.
(** core.rs:672-697.  [debug] is the derived [Debug] of a block, which is not
    modelled: any function. *)
Definition m_search_response (debug : dib -> string) (p : profile) : mparser search_response :=
  h <- m_header ;;
  mensure (h_service h =? 0x0202) ("Search response should be 0x0202 instead of " ++ show_2X (h_service h)) ;;;
  c <- m_hpai ;;
  d1 <- m_dib p ;;
  dev <- (match d1 with
          | DibDevice d => mret d
          | other => fun _ => MErr ("Expected device information dib instead of " ++ debug other)
          end) ;;
  d2 <- m_dib p ;;
  fam <- (match d2 with
          | DibFamilies f => mret f
          | other => fun _ => MErr ("Expected supported service families dib instead of " ++ debug other)
          end) ;;
  mret {| sr_control := c; sr_device := dev; sr_families := fam |}.

(** ** L_Data messages *)
(** emi.rs:16-53, on the service information. *)
Definition m_ldata_con (c : cemi) : mparser ldata_con :=
  control1 <- m_u8 "control 1 byte" ;;
  _control2 <- m_u8 "control 2 byte" ;;
  src <- m_u16 "source address" ;;
  dest <- m_u16 "destination address" ;;
  mret {| lc_cemi := c; lc_data := ldata_of control1 src dest;
          lc_confirm := N.land control1 1 =? 0 |}.
(** emi.rs:77-138.  Line 118 cannot be reached: reading from a cursor into a
    buffer does not fail. *)
Definition m_ldata_ind (c : cemi) : mparser ldata_ind :=
  control1 <- m_u8 "control 1 byte" ;;
  _control2 <- m_u8 "control 2 byte" ;;
  src <- m_u16 "source address" ;;
  dest <- m_u16 "destination address" ;;
  len <- m_u8 "length" ;;
  let length := if 0 <? len then len - 1 else 0 in
  octets_6_7 <- m_u16 "octets 6 and 7" ;;
  value <- (if 0 <? length then mread (read_zeroed (N.to_nat length)) ""
            else mret [as_u8 (N.land octets_6_7 0x3f)]) ;;
  mret {| li_cemi := c; li_data := ldata_of control1 src dest; li_value := value |}.

(** emi.rs:207-231; the error of the conversion is [()].  Line 223 cannot be
    reached, as line 118. *)
Fixpoint m_cemi_loop (p : profile) (fuel : nat) (size position : N)
         (acc : list additional_info) : mparser (list additional_info) :=
  if position <? size then
    match fuel with
    | O => fun _ => MPanic
    | S f =>
        tcode <- m_u8 "addition info type" ;;
        t <- mlift (info_try_from tcode) "Unknown additional info type ()" ;;
        isize <- m_u8 "addition info size" ;;
        v <- mread (read_zeroed (N.to_nat isize)) "" ;;
        step <- mlift (add_chk p u8_max1 isize 2) "" ;;
        position' <- mlift (add_chk p u8_max1 position step) "" ;;
        m_cemi_loop p f size position' (acc ++ [{| ai_type := t; ai_value := v |}])
    end
  else mret acc.
(** emi.rs:195-243.  Line 235 cannot be reached. *)
Definition m_cemi (p : profile) : mparser cemi :=
  msg_code <- m_u8 "message code" ;;
  infos_size <- m_u8 "addition infos size" ;;
  infos <- (fun r => m_cemi_loop p (S (List.length r)) infos_size 0 [] r) ;;
  service <- mread read_to_end "" ;;
  mret {| ce_code := msg_code; ce_infos := infos; ce_service := service |}.

(** ** Address texts *)
(** [core::num::IntErrorKind] as far as unsigned types produce it. *)
Inductive int_error := Empty | InvalidDigit | PosOverflow.
(** [{:?}] of [ParseIntError]. *)
Definition int_error_debug (e : int_error) : string :=
  "ParseIntError { kind: " ++ match e with Empty => "Empty" | InvalidDigit => "InvalidDigit" | PosOverflow => "PosOverflow" end ++ " }".
(** The loop of [from_str_radix]: the digit is checked before the overflow. *)
Fixpoint k_digits (max acc : N) (s : list N) : N + int_error :=
  match s with
  | [] => inl acc
  | c :: s' =>
      if (c_zero <=? c) && (c <=? 57) then
        let acc' := acc * 10 + (c - c_zero) in
        if acc' <=? max then k_digits max acc' s' else inr PosOverflow
      else inr InvalidDigit
  end.
Definition k_uint (max : N) (s : list N) : N + int_error :=
  match s with
  | [] => inr Empty
  | [c] => k_digits max 0 [c]
  | c :: s' => if c =? c_plus then k_digits max 0 s' else k_digits max 0 s
  end.
(** Texts containing a part of the input are lists of UTF-8 octets. *)
Fixpoint octets (s : string) : list N :=
  match s with EmptyString => [] | String c s' => N_of_ascii c :: octets s' end.
Inductive tres (A : Type) := TOk (a : A) | TErr (text : list N).
Arguments TOk {A} a.
Arguments TErr {A} text.
Definition tbind {A B} (x : tres A) (f : A -> tres B) : tres B :=
  match x with TOk a => f a | TErr t => TErr t end.
(** [match part.parse() { Ok(v) => v, Err(e) => whatever!(..) }]. *)
Definition t_part (max : N) (part : list N) (text : int_error -> list N) : tres N :=
  match k_uint max part with inl v => TOk v | inr e => TErr (text e) end.
(** The text of the two- and three-level parts (addresses.rs:64, 69, 77, 82, 87). *)
Definition t_plain (name : string) (e : int_error) : list N :=
  octets ("Unable to parse " ++ name ++ " address " ++ int_error_debug e).
(** [{:?}] of [Option<&str>], with the [{:?}] of a [&str] (quotes and escapes),
    which is not modelled: any function [quote]. *)
Definition t_quoted (quote : list N -> list N) (name : string) (part : list N) (e : int_error) : list N :=
  octets ("Unable to parse " ++ name ++ " value Some(") ++ quote part
  ++ octets ("), error " ++ int_error_debug e).
(** addresses.rs:128-149. *)
Definition t_individual (quote : list N -> list N) (value : list N) : tres individual :=
  match split_on c_dot value with
  | [a; l; d] =>
      tbind (t_part 255 a (t_quoted quote "area" a)) (fun area =>
      tbind (t_part 255 l (t_quoted quote "line" l)) (fun line =>
      tbind (t_part 255 d (t_quoted quote "address" d)) (fun address =>
      TOk {| ia_area := area; ia_line := line; ia_address := address |})))
  | _ => TErr (octets "Individial address should be in the format area.line.address instead of " ++ quote value)
  end.
(** addresses.rs:169-184. *)
Definition t_group3 (value : list N) : tres group3 :=
  match split_on c_slash value with
  | [a; m; s] =>
      match k_uint 255 a, k_uint 255 m, k_uint 255 s with
      | inl main, inl middle, inl sub => TOk {| g3_main := main; g3_middle := middle; g3_sub := sub |}
      | _, _, _ => TErr (octets "Unable to parse parts in u8")
      end
  | _ => TErr (octets "Wrong fields count")
  end.
(** addresses.rs:42-96. *)
Definition t_addr (quote : list N -> list N) (value : list N) : tres knx_address :=
  if contains c_dot value then
    tbind (t_individual quote value) (fun a => TOk (Individual a))
  else
    match split_on c_slash value with
    | [m] =>
        tbind (t_part 65535 m (fun e => octets "Unable to parse main address " ++ m ++ octets (" " ++ int_error_debug e)))
          (fun main => TOk (group_1_level main))
    | [m; s] =>
        tbind (t_part 255 m (t_plain "main")) (fun main =>
        tbind (t_part 255 s (t_plain "sub")) (fun sub =>
        TOk (group_2_level main sub)))
    | [m; i; s] =>
        tbind (t_part 255 m (t_plain "main")) (fun main =>
        tbind (t_part 255 i (t_plain "mid")) (fun mid =>
        tbind (t_part 255 s (t_plain "sub")) (fun sub =>
        TOk (group_3_level main mid sub))))
    | _ => TErr (octets "Unable to parse group address " ++ quote value ++ octets ", parts should be 1 to 3")
    end.
